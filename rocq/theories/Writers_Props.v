(** Theorems about what writing leaves in the file system (C41). *)
From Verif Require Import Py PyFacts FS File_Model TurbSim_Model TurbSim_Proofs TS_Model Profile_Model Rosco_Model AEPC_Model FASTAscii_Model Tecplot_Model Writers_Model.
From Coq Require Import Lia.
Local Open Scope nat_scope.

(** The target of a write: the argument if it is given, else the name that the object remembers *)
Definition target {data} (o : file_obj data) (arg : option str) : option str :=
  match arg with Some (c :: n) => Some (c :: n) | _ => match o_filename o with Some (c :: n) => Some (c :: n) | _ => None end end.
Lemma write_target {data} (w : fs -> str -> data -> fs * data * res unit) f o arg :
  File_write data w f o arg = match target o arg with
    | None => (f, remember data o arg, Err PlainException)
    | Some p => let '(f', d, r) := w f p (o_data o) in (f', FileObj (Some p) d, r) end.
Proof.
  unfold File_write, remember, target. destruct arg as [[|c n]|]; cbn [truthy negb o_filename o_data]; try reflexivity; destruct (o_filename o) as [[|c' n']|] eqn:E; cbn [truthy negb]; rewrite ?E; reflexivity.
Qed.
(** ** Formats without a writer: an exception, and no file is touched *)
Theorem C41_no_writer_keeps_files : forall data f (o : file_obj data) arg, exists o' e, File_write data no_writer f o arg = (f, o', Err e) /\ o_data o' = o_data o /\ (e = NotImplementedError \/ (e = PlainException /\ target o arg = None)).
Proof.
  intros data f o arg. rewrite write_target. destruct (target o arg) as [p|] eqn:E; [exists (FileObj (Some p) (o_data o)), NotImplementedError|exists (remember data o arg), PlainException]; cbn; repeat split; auto. unfold remember. destruct (truthy arg); reflexivity.
Qed.
(** Without a name nothing is written, whatever the format *)
Theorem C41_no_name_keeps_files : forall data w f (o : file_obj data) arg, target o arg = None -> exists o', File_write data w f o arg = (f, o', Err PlainException).
Proof. intros data w f o arg H. rewrite write_target, H. eexists. reflexivity. Qed.
Lemma opened f p cs : f p <> Dir -> exists f1, fs_open_w f p = Ok f1 /\ f1 p = Reg [] /\ (forall q, q <> p -> f1 q = f q) /\ write_file f p cs = write_pieces f1 p cs.
Proof.
  intro D. assert (E : fs_open_w f p = Ok (fs_put f p [])) by (unfold fs_open_w; destruct (f p); congruence). exists (fs_put f p []). unfold write_file. rewrite E. split; [reflexivity|]. unfold fs_put. rewrite str_eqb_refl. repeat split. intros q Q. destruct (str_eqb q p) eqn:K; [apply str_eqb_eq in K; contradiction|reflexivity].
Qed.
(** A writer whose text fails after some pieces leaves just these pieces *)
Lemma write_fails f p bs e cs : f p <> Dir -> exists f', write_file f p (map Ok bs ++ Err e :: cs) = (f', Err e) /\ f' p = Reg (concat bs) /\ (forall q, q <> p -> f' q = f q).
Proof.
  intro D. destruct (opened f p (map Ok bs ++ Err e :: cs) D) as (f1 & _ & R & O & ->).
  assert (G : forall bs f1 b0, f1 p = Reg b0 -> exists f', write_pieces f1 p (map Ok bs ++ Err e :: cs) = (f', Err e) /\ f' p = Reg (b0 ++ concat bs) /\ (forall q, q <> p -> f' q = f1 q)).
  { clear. induction bs as [|b bs IH]; intros f1 b0 R; cbn [map app write_pieces concat].
    - exists f1. rewrite app_nil_r. repeat split. exact R.
    - destruct (IH (fs_append f1 p b) (b0 ++ b)) as (f' & E1 & E2 & E3).
      + unfold fs_append. rewrite R. unfold fs_put. now rewrite str_eqb_refl.
      + exists f'. rewrite E1, E2, app_assoc. repeat split. intros q Q. rewrite E3 by exact Q. unfold fs_append. rewrite R. unfold fs_put. destruct (str_eqb q p) eqn:K; [apply str_eqb_eq in K; contradiction|reflexivity]. }
  destruct (G bs f1 [] R) as (f' & E1 & E2 & E3). exists f'. repeat split; [exact E1|exact E2|]. intros q Q. rewrite E3, O by exact Q. reflexivity.
Qed.
(** A directory is never touched, and the failure is reported *)
Theorem C41_directory_kept : forall f p cs, f p = Dir -> write_file f p cs = (f, Err OSError2).
Proof. intros f p cs H. unfold write_file, fs_open_w. rewrite H. reflexivity. Qed.
(** ** Writers that destroy the file *)
(** CACTUS files: every write fails, and the file is emptied *)
Theorem C41_cactus_refuted : forall data f (o : file_obj data) arg p, target o arg = Some p -> f p <> Dir ->
  exists f' o', File_write data cactus_write f o arg = (f', o', Err TypeError) /\ f' p = Reg [] /\ forall q, q <> p -> f' q = f q.
Proof.
  intros data f o arg p T D. rewrite write_target, T. unfold cactus_write. destruct (write_fails f p [] TypeError [] D) as (f' & E & R & O). cbn [map app] in E. rewrite E. exists f'. eexists. repeat split; assumption.
Qed.
(** Linearization files: every write is reported as done, and the file is empty *)
Theorem C41_linearization_refuted : forall data f (o : file_obj data) arg p, target o arg = Some p -> f p <> Dir ->
  exists f' o', File_write data lin_write f o arg = (f', o', Ok tt) /\ f' p = Reg [] /\ forall q, q <> p -> f' q = f q.
Proof.
  intros data f o arg p T D. rewrite write_target, T. unfold lin_write. destruct (write_file_ok f p [map N_of_ascii (lin_toString (o_data o))] D) as (f' & E & R & O). cbn [map] in E. rewrite E. exists f'. eexists. repeat split; assumption.
Qed.
(** ROSCO performance files: every write fails, and one line is left *)
Theorem C41_rosco_refuted : forall V f p (o : rosco V), f p <> Dir ->
  exists f', rosco_write f p o = (f', Err NameError) /\ f' p = Reg (map N_of_ascii (S_ "# ----- Rotor performance tables for the  wind turbine ----- " ++ [nl])) /\ forall q, q <> p -> f' q = f q.
Proof.
  intros V f p o D. destruct (write_fails f p [map N_of_ascii first_header] NameError [] D) as (f' & E & R & O). exists f'. cbn [map app] in E. unfold rosco_write. rewrite E. repeat split; [exact R|exact O].
Qed.
(** FAST text files without units: the names are left *)
Theorem C41_fast_ascii_refuted : forall V (t4 e3 : V -> str) f p o, f p <> Dir -> o_units o = None ->
  exists f', ascii_write t4 e3 f p o = (f', Err TypeError) /\ f' p = Reg (map N_of_ascii (join [tab] (map (rjust 10) (o_names o)) ++ [nl])) /\ forall q, q <> p -> f' q = f q.
Proof.
  intros V t4 e3 f p o D U. unfold ascii_write. rewrite U. cbn [units_text enc]. destruct (write_fails f p [map N_of_ascii (names_text (o_names o))] TypeError [enc (data_text t4 e3 (o_arr o))] D) as (f' & E & R & O). cbn [map app] in E. rewrite E. exists f'. split; [reflexivity|]. split; [|exact O]. rewrite R. cbn [concat]. now rewrite app_nil_r.
Qed.
(** FAST text files of one time step, as they are read: the names and units are left *)
Theorem C41_fast_ascii_one_step_refuted : forall V (t4 e3 : V -> str) f p o us r, f p <> Dir -> o_units o = Some us -> o_arr o = Vec r -> r <> [] ->
  exists f' b, ascii_write t4 e3 f p o = (f', Err IndexError) /\ f' p = Reg b /\ List.length b = List.length (join [tab] (map (rjust 10) (o_names o)) ++ [nl]) + List.length (join [tab] (map (fun u => rjust 10 (ch 40 :: u ++ [ch 41])) us) ++ [nl]).
Proof.
  intros V t4 e3 f p o us r D U A NE. unfold ascii_write. rewrite U, A. destruct r as [|v r]; [contradiction|]. cbn [units_text data_text enc].
  match goal with |- context [[Ok ?a; Ok ?b; Err IndexError]] => destruct (write_fails f p [a; b] IndexError [] D) as (f' & E & R & O) end. cbn [map app] in E. rewrite E. exists f'. eexists. split; [reflexivity|]. split; [exact R|]. cbn [concat]. rewrite app_nil_r, app_length, !map_length. reflexivity.
Qed.
(** TurbSim time series with more than three components: the file is emptied *)
Theorem C41_time_series_refuted : forall V (e16 : V -> str) f p o, f p <> Dir -> (3 < TS_Model.t_ncomp o)%Z -> TS_Model.t_points o <> [] ->
  exists f', TS_Model.ts_write e16 f p o = (f', Err IndexError) /\ f' p = Reg [].
Proof.
  intros V e16 f p o D C P. assert (E : TS_Model.columns o = Err IndexError).
  { unfold TS_Model.columns. set (g := fun q : nat * nat => c <- TS_Model.comp (fst q) ;; Ok (S_ "Point" ++ str_of_N (N.of_nat (S (snd q))) ++ c)).
    assert (N : exists k, Z.to_nat (TS_Model.t_ncomp o) = 4 + k) by (exists (Z.to_nat (TS_Model.t_ncomp o) - 4); lia). destruct N as [k N]. rewrite N. destruct (TS_Model.t_points o) as [|p0 ps]; [contradiction|]. clear.
    assert (GE : forall l1 l2, (forall x, In x l1 -> exists y, g x = Ok y) -> TS_Model.mapM g (l1 ++ l2) = match TS_Model.mapM g l2 with Err e => Err e | Ok y2 => match TS_Model.mapM g l1 with Ok y1 => Ok (y1 ++ y2) | Err e => Err e end end).
    { clear. induction l1 as [|x l1 IH]; intros l2 H; cbn [app TS_Model.mapM]; [destruct (TS_Model.mapM g l2); reflexivity|]. destruct (H x (or_introl eq_refl)) as [y Y]. rewrite Y. cbn [bind]. rewrite IH by (intros z Z; apply H; right; exact Z). destruct (TS_Model.mapM g l2); [|reflexivity]. destruct (TS_Model.mapM g l1); reflexivity. }
    cbn [Nat.add seq list_prod].
    match goal with |- (cs <- TS_Model.mapM g (?a ++ ?b ++ ?c ++ ?d) ;; _) = _ => rewrite (app_assoc b c d), (app_assoc a (b ++ c) d), (GE (a ++ b ++ c) d) end.
    - cbn [map app TS_Model.mapM]. assert (X : g (3, 0) = Err IndexError) by reflexivity. cbn [List.length seq map app TS_Model.mapM]. rewrite X. reflexivity.
    - intros [i j] K. assert (L : i = 0 \/ i = 1 \/ i = 2).
      { rewrite !in_app_iff in K. destruct K as [K|[K|K]]; apply in_map_iff in K; destruct K as (z & K & _); apply pair_equal_spec in K; destruct K as [K _]; subst i; tauto. }
      unfold g. cbn [fst snd]. destruct L as [-> | [-> | ->]]; cbn [TS_Model.comp nth_error bind]; eexists; reflexivity. }
  unfold TS_Model.ts_write, TS_Model.toString. rewrite E. cbn [bind]. destruct (write_fails f p [] IndexError [] D) as (f' & E1 & R & O). cbn [map app] in E1. rewrite E1. exists f'. split; [reflexivity|exact R].
Qed.
(** Tecplot files without variables: only the title is left *)
Theorem C41_tecplot_refuted : forall R (row_text : list R -> str) aux_text f (o : tec R) n t, t_name o = Some n -> n <> [] -> f n <> Dir -> Dict.get (t_dict o) (S_ "variables") = None -> Dict.get (t_dict o) (S_ "title") = Some (Text t) ->
  exists f', tec_write row_text aux_text f o None = (f', o, Err KeyError) /\ f' n = Reg (map N_of_ascii (S_ "TITLE = " ++ t ++ [nl])).
Proof.
  intros R row_text aux_text f o n t N NE D V T. unfold tec_write. rewrite N. destruct n as [|c n]; [contradiction|]. unfold write_text. rewrite V, T. cbn [value_text bind app map].
  match goal with |- context [write_file _ _ (Ok ?a :: Err ?e :: ?cs)] => destruct (write_fails f (c :: n) [a] e cs D) as (f' & E & Q & O) end. cbn [map app] in E. rewrite E. exists f'. split; [reflexivity|]. rewrite Q. cbn [concat]. now rewrite app_nil_r.
Qed.
(** ** Examples *)
Example C41_example : target (FileObj (data := unit) (Some (S_ "a.lin")) tt) None = Some (S_ "a.lin") /\
  fst (fst (File_write unit lin_write (fun _ => Reg [1%N; 2%N]) (FileObj (Some (S_ "a.lin")) tt) None)) (S_ "a.lin") = Reg [] /\
  fst (fst (File_write unit no_writer (fun _ => Reg [1%N; 2%N]) (FileObj (Some (S_ "a.lin")) tt) None)) (S_ "a.lin") = Reg [1%N; 2%N].
Proof. repeat split. Qed.
Print Assumptions C41_no_writer_keeps_files.
Print Assumptions C41_no_name_keeps_files.
Print Assumptions C41_directory_kept.
Print Assumptions C41_cactus_refuted.
Print Assumptions C41_linearization_refuted.
Print Assumptions C41_rosco_refuted.
Print Assumptions C41_fast_ascii_refuted.
Print Assumptions C41_fast_ascii_one_step_refuted.
Print Assumptions C41_time_series_refuted.
Print Assumptions C41_tecplot_refuted.
