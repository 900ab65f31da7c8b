(** Properties of running a simulation of an HTC file. *)
From Verif Require Import Py PyFacts FASTOut_Model HTC_Model HTCPath_Model HTCSim_Model.
From Verif Require Deck_Model CSVRound_Props CactusElem_Props HTCSim_Props.
From Verif Require Import HTCRun_Model.
From Coq Require Import QArith ZArith Lia Sorted.
Local Open Scope nat_scope.

(** ** Specification *)
Definition mentions (t w : str) : Prop := exists a b, t = a ++ w ++ b.
(** The lines of a text. *)
Definition has_lines (t : str) (ls : list str) : Prop := ls <> [] /\ Forall (fun l => ~ In nl l) ls /\ t = join [nl] ls.
(** A line of a log that tells of an error, in whatever case. *)
Definition error_at (ls : list str) (e : Z) : Prop := exists l, (0 <= e)%Z /\ nth_error ls (Z.to_nat e) = Some l /\ mentions (lower l) (S_ "error").
(** The lines that a report shows: three lines before and after each error, and the last five. *)
Definition near (ls : list str) (j : Z) : Prop :=
  (0 <= j < Z.of_nat (List.length ls))%Z /\ ((exists e, error_at ls e /\ (e - 3 <= j <= e + 3)%Z) \/ (Z.of_nat (List.length ls) - 5 <= j)%Z).
(** Some dots are put between the lines. *)
Inductive dotted : list str -> list str -> Prop :=
| d_none : dotted [] []
| d_line x a b : dotted a b -> dotted (x :: a) (x :: b)
| d_dots a b : dotted a b -> dotted a (S_ "..." :: b).

Lemma insert_u_in x l j : In j (insert_u x l) <-> j = x \/ In j l.
Proof.
  induction l as [|y l IH]; cbn [insert_u]; [cbn; intuition|]. destruct (Z.ltb_spec x y); [cbn; intuition|]. destruct (Z.eqb_spec x y); [subst; cbn; intuition|]. cbn [In]. rewrite IH. tauto.
Qed.
Lemma unique_in l j : In j (unique l) <-> In j l.
Proof. induction l as [|x l IH]; [reflexivity|]. cbn [unique fold_right]. rewrite insert_u_in. fold (unique l). rewrite IH. cbn. intuition. Qed.
Lemma insert_u_sorted x l : StronglySorted Z.lt l -> StronglySorted Z.lt (insert_u x l).
Proof.
  induction 1 as [|y l S IH F]; cbn [insert_u]; [repeat constructor|]. destruct (Z.ltb_spec x y).
  - constructor; [constructor; assumption|]. constructor; [assumption|]. eapply Forall_impl; [|exact F]. cbn. intros; lia.
  - destruct (Z.eqb_spec x y); [constructor; assumption|]. constructor; [exact IH|]. apply Forall_forall. intros z Hz. apply insert_u_in in Hz as [->|Hz]; [lia|]. rewrite Forall_forall in F. exact (F z Hz).
Qed.
Lemma unique_sorted l : StronglySorted Z.lt (unique l).
Proof. induction l as [|x l IH]; [constructor|]. apply insert_u_sorted. exact IH. Qed.
Lemma errors_in ls : forall i z, In z (errors_from i ls) <-> exists k l, nth_error ls k = Some l /\ mentions (lower l) (S_ "error") /\ z = Z.of_nat (i + k).
Proof.
  induction ls as [|l ls IH]; intros i z; cbn [errors_from]; [split; [contradiction|intros ([|k] & l & E & _); discriminate]|].
  assert (G : forall b : bool, (b = true <-> mentions (lower l) (S_ "error")) -> (In z (if b then Z.of_nat i :: errors_from (S i) ls else errors_from (S i) ls) <->
    exists k l0, nth_error (l :: ls) k = Some l0 /\ mentions (lower l0) (S_ "error") /\ z = Z.of_nat (i + k))).
  { intros b Hb. assert (X : In z (errors_from (S i) ls) <-> exists k l0, nth_error (l :: ls) (S k) = Some l0 /\ mentions (lower l0) (S_ "error") /\ z = Z.of_nat (i + S k)).
    { rewrite IH. split; intros (k & l0 & A & B & ->); exists k, l0; (split; [exact A|]; split; [exact B|]; f_equal; lia). }
    destruct b; cbn [In]; rewrite X; split.
    - intros [<-|(k & l0 & A)]; [exists 0, l; split; [reflexivity|]; split; [apply Hb; reflexivity|f_equal; lia]|exists (S k), l0; exact A].
    - intros ([|k] & l0 & A & B & C); [left; rewrite C; f_equal; lia|right; exists k, l0; auto].
    - intros (k & l0 & A). exists (S k), l0. exact A.
    - intros ([|k] & l0 & A & B & C); [|exists k, l0; auto]. cbn in A. injection A as <-. apply Hb in B. discriminate. }
  apply G. apply contains_iff.
Qed.
Lemma errors_spec ls e : In e (errors_from 0 ls) <-> error_at ls e.
Proof.
  rewrite errors_in. split.
  - intros (k & l & A & B & ->). exists l. split; [lia|]. rewrite Nat2Z.id. auto.
  - intros (l & P & A & B). exists (Z.to_nat e), l. split; [exact A|]. split; [exact B|]. lia.
Qed.
Lemma error_range ls e : error_at ls e -> (0 <= e < Z.of_nat (List.length ls))%Z.
Proof. intros (l & P & A & _). assert (Z.to_nat e < List.length ls) by (apply nth_error_Some; congruence). lia. Qed.
Lemma shown_in ls j : ls <> [] -> (In j (shown (List.length ls) (errors_from 0 ls)) <-> near ls j).
Proof.
  intro N. assert (L : 0 < List.length ls) by (destruct ls; [contradiction|cbn; lia]). set (n := List.length ls) in *. unfold shown. rewrite unique_in, in_map_iff. split.
  - intros (z & <- & Hz). apply in_app_or in Hz as [Hz|Hz].
    + apply in_flat_map in Hz as (i & Hi & Hz). apply in_map_iff in Hz as (e & <- & He). apply errors_spec in He. pose proof (error_range _ _ He) as R. fold n in R.
      assert (-3 <= i <= 3)%Z by (cbn in Hi; lia). split; [unfold clamp; fold n; lia|]. left. exists e. split; [exact He|]. unfold clamp. lia.
    + apply in_map_iff in Hz as (i & <- & Hi). assert (-5 <= i <= -1)%Z by (cbn in Hi; lia). split; [unfold clamp; fold n; lia|]. right. unfold clamp. fold n. lia.
  - intros (R & [(e & He & D)|D]); fold n in R.
    + exists j. split; [unfold clamp; lia|]. apply in_or_app. left. apply in_flat_map. exists (j - e)%Z. split; [cbn; lia|]. apply in_map_iff. exists e. split; [lia|]. apply errors_spec. exact He.
    + fold n in D. exists j. split; [unfold clamp; lia|]. apply in_or_app. right. apply in_map_iff. exists (j - Z.of_nat n)%Z. split; [lia|]. cbn. lia.
Qed.
Lemma insert_dotted a b : dotted a b -> forall k, dotted a (insert_at k (S_ "...") b).
Proof.
  induction 1 as [|x a b H IH|a b H IH]; intro k.
  - destruct k; apply d_dots; constructor.
  - destruct k; [apply d_dots; constructor; exact H|]. apply d_line. apply IH.
  - destruct k; [apply d_dots; apply d_dots; exact H|]. apply d_dots. apply IH.
Qed.
Lemma dotted_refl a : dotted a a.
Proof. induction a; constructor; assumption. Qed.
Lemma fold_dotted ks : forall a b, dotted a b -> dotted a (fold_left (fun acc k => insert_at k (S_ "...") acc) ks b).
Proof. induction ks as [|k ks IH]; intros a b H; [exact H|]. cbn [fold_left]. apply IH. apply insert_dotted. exact H. Qed.
Lemma jumps_ge l : forall k j, In j (jumps_from k l) -> k <= j.
Proof.
  induction l as [|a [|b l] IH]; intros k j H; cbn [jumps_from] in H; try contradiction. destruct (1 <? b - a)%Z; [destruct H as [<-|H]; [lia|]|]; apply IH in H; lia.
Qed.
(** Consecutive numbers. *)
Fixpoint consecutive (l : list Z) : Prop := match l with a :: ((b :: _) as l') => (b <= a + 1)%Z /\ consecutive l' | _ => True end.
Lemma jumps_first pre : forall k x y post, consecutive (pre ++ [x]) -> (1 < y - x)%Z ->
  exists ks, jumps_from k (pre ++ x :: y :: post) = (k + List.length pre) :: ks /\ forall j, In j ks -> k + List.length pre < j.
Proof.
  induction pre as [|a pre IH]; intros k x y post C G.
  - cbn [app jumps_from]. apply Z.ltb_lt in G. rewrite G. exists (jumps_from (S k) (y :: post)). split; [f_equal; cbn; lia|]. intros j Hj. apply jumps_ge in Hj. cbn. lia.
  - destruct (IH (S k) x y post) as (ks & E & F); [destruct pre; cbn in *; tauto|exact G|]. exists ks. split; [|intros j Hj; specialize (F j Hj); cbn; lia].
    cbn [List.length]. replace (k + S (List.length pre)) with (S k + List.length pre) by lia. rewrite <- E.
    destruct pre as [|b pre]; cbn [app jumps_from] in *.
    + destruct C as [C _]. replace (1 <? x - a)%Z with false; [reflexivity|]. symmetry. apply Z.ltb_ge. lia.
    + destruct C as [C _]. replace (1 <? b - a)%Z with false; [reflexivity|]. symmetry. apply Z.ltb_ge. lia.
Qed.
Lemma insert_later {A} k (u : A) p v r : List.length p < k -> exists r', insert_at k u (p ++ v :: r) = p ++ v :: r'.
Proof.
  intro H. unfold insert_at. rewrite firstn_app, skipn_app. rewrite firstn_all2, skipn_all2 by lia. destruct (k - List.length p) as [|m] eqn:E; [lia|].
  cbn [firstn skipn app]. rewrite <- app_assoc. cbn [app]. eexists. reflexivity.
Qed.
Lemma fold_later ks : forall p v r, (forall j, In j ks -> List.length p < j) -> exists r', fold_left (fun acc k => insert_at k (S_ "...") acc) ks (p ++ v :: r) = p ++ v :: r'.
Proof.
  induction ks as [|k ks IH]; intros p v r H; [exists r; reflexivity|]. cbn [fold_left]. destruct (insert_later k (S_ "...") p v r) as (r1 & ->); [apply H; left; reflexivity|].
  apply IH. intros j Hj. apply H. right. exact Hj.
Qed.
Lemma lines_split t ls : has_lines t ls -> split_chr nl t = ls.
Proof. intros (A & B & ->). apply CSVRound_Props.split_join; assumption. Qed.

Section Run.
  Variable num : str -> option (res str).
  Variable fmt04 : Z -> str.
  Variable mtime : str -> option Q.
  Variable reread raw : str -> res str.
  Variable relpath : str -> str -> str.
  Variable run : option (str -> str -> str -> output).
  Variable read : str -> option str.

  Definition line_of (ls : list str) (j : Z) : str := fmt04 j ++ S_ " " ++ nth (Z.to_nat j) ls [].
  (** The report shows the lines near the errors and the end, with their numbers from zero and in their order, and dots. *)
  Theorem C150_report : forall log ls, has_lines log ls -> (exists e, error_at ls e) ->
    exists idx lines, report fmt04 log = join [nl] lines /\ StronglySorted Z.lt idx /\ (forall j, In j idx <-> near ls j) /\ dotted (map (line_of ls) idx) lines.
  Proof using.
    intros log ls H (e & E). unfold report. rewrite (lines_split _ _ H). destruct (errors_from 0 ls) as [|e0 es] eqn:X; [apply errors_spec in E; rewrite X in E; contradiction|]. rewrite <- X.
    exists (shown (List.length ls) (errors_from 0 ls)). eexists. split; [reflexivity|]. split; [apply unique_sorted|]. split; [intro j; apply shown_in; apply H|].
    apply fold_dotted. apply dotted_refl.
  Qed.
  (** Without such a line the log is the report. *)
  Theorem C150_report_all : forall log ls, has_lines log ls -> (forall e, ~ error_at ls e) -> report fmt04 log = log.
  Proof using. intros log ls H N. unfold report. rewrite (lines_split _ _ H). destruct (errors_from 0 ls) as [|e0 es] eqn:X; [reflexivity|]. destruct (N e0). apply errors_spec. rewrite X. left. reflexivity. Qed.
  (** The dots are not where lines are left out: the first are one line too early. *)
  Theorem C150_dots_refuted : forall log ls idx pre x y post, has_lines log ls -> (exists e, error_at ls e) -> StronglySorted Z.lt idx -> (forall j, In j idx <-> near ls j) ->
    idx = pre ++ x :: y :: post -> consecutive (pre ++ [x]) -> (1 < y - x)%Z ->
    exists rest, report fmt04 log = join [nl] (map (line_of ls) pre ++ S_ "..." :: rest).
  Proof using.
    intros log ls idx pre x y post H (e & E) S I -> C G. unfold report. rewrite (lines_split _ _ H). destruct (errors_from 0 ls) as [|e0 es] eqn:X; [apply errors_spec in E; rewrite X in E; contradiction|]. rewrite <- X.
    assert (Q : shown (List.length ls) (errors_from 0 ls) = pre ++ x :: y :: post).
    { apply CactusElem_Props.sorted_unique; [apply unique_sorted|exact S|]. intro j. rewrite I. apply shown_in. apply H. }
    rewrite Q. destruct (jumps_first pre 0 x y post C G) as (ks & -> & K). cbn [fold_left]. change (0 + List.length pre) with (List.length pre) in *.
    assert (Y : insert_at (List.length pre) (S_ "...") (map (numbered fmt04 ls) (pre ++ x :: y :: post)) = map (line_of ls) pre ++ S_ "..." :: map (line_of ls) (x :: y :: post)).
    { unfold insert_at. rewrite map_app, firstn_app, skipn_app, map_length, Nat.sub_diag. rewrite firstn_all2, skipn_all2 by (rewrite map_length; apply Nat.le_refl). cbn [firstn skipn app]. rewrite app_nil_r. reflexivity. }
    rewrite Y. destruct (fold_later ks (map (line_of ls) pre) (S_ "...") (map (line_of ls) (x :: y :: post))) as (r & R); [intros j Hj; rewrite map_length; exact (K j Hj)|].
    exists r. f_equal. exact R.
  Qed.

  (** The results are there and later than the file and the program, and the file on the disk is what would be written. *)
  Definition fresh (results : res (list str)) (modelpath filename exe text : str) : Prop :=
    exists r rs th tr te, results = Ok (r :: rs) /\ mtime (Deck_Model.path_join modelpath filename) = Some th /\ mtime (Deck_Model.path_join modelpath r) = Some tr /\
      ((exists t, exe = "/"%char :: t) /\ mtime exe = Some te \/ (forall t, exe <> "/"%char :: t) /\ mtime (Deck_Model.path_join modelpath exe) = Some te) /\
      (th < tr)%Q /\ (te < tr)%Q /\ reread (Deck_Model.path_join modelpath filename) = Ok text /\ raw (Deck_Model.path_join modelpath filename) = Ok text.
  Notation st := (start mtime reread raw relpath run).
  Notation sim := (simulate num fmt04 mtime reread raw relpath run read).
  Lemma abs_iff exe : startswith exe (S_ "/") = true <-> exists t, exe = "/"%char :: t.
  Proof using. rewrite startswith_iff. split; intros (t & ->); exists t; reflexivity. Qed.
  Lemma later_iff a b : later mtime a b = true <-> exists x y, mtime a = Some x /\ mtime b = Some y /\ (y < x)%Q.
  Proof using.
    unfold later. destruct (mtime a) as [x|]; [|split; [discriminate|intros (? & ? & ? & _); discriminate]]. destruct (mtime b) as [y|]; [|split; [discriminate|intros (? & ? & _ & ? & _); discriminate]].
    rewrite negb_true_iff. split.
    - intro H. exists x, y. split; [reflexivity|]. split; [reflexivity|]. apply Qnot_le_lt. intro L. apply Qle_bool_iff in L. congruence.
    - intros (x' & y' & A & B & L). injection A as <-. injection B as <-. apply not_true_is_false. intro Q. apply Qle_bool_iff in Q. exact (Qlt_not_le _ _ L Q).
  Qed.
  Lemma isfile_iff a : isfile mtime a = true <-> exists x, mtime a = Some x.
  Proof using. unfold isfile. destruct (mtime a) as [x|]; split; [exists x; reflexivity|reflexivity|discriminate|intros (? & ?); discriminate]. Qed.
  Lemma fresh_iff results modelpath filename exe text : up_to_date mtime reread raw results modelpath filename exe text = Ok true <-> fresh results modelpath filename exe text.
  Proof using.
    unfold up_to_date, fresh. set (h := Deck_Model.path_join modelpath filename). split.
    - destruct results as [[|r rs]|]; try discriminate. cbn [bind]. set (f := Deck_Model.path_join modelpath r). set (x := if startswith exe (S_ "/") then exe else Deck_Model.path_join modelpath exe).
      destruct (isfile mtime h && isfile mtime f && isfile mtime x) eqn:I; [|discriminate]. apply andb_true_iff in I as [I I3]. apply andb_true_iff in I as [I1 I2].
      destruct (reread h) as [t|] eqn:R; [|discriminate]. cbn [bind]. destruct (str_eqb t text && later mtime f h && later mtime f x) eqn:J; [|discriminate].
      apply andb_true_iff in J as [J J3]. apply andb_true_iff in J as [J1 J2]. apply str_eqb_eq in J1. subst t. destruct (raw h) as [u|] eqn:U; [|discriminate]. cbn [bind]. intro E. injection E as E. apply str_eqb_eq in E. subst u.
      apply later_iff in J2 as (tr & th & A & B & C). apply later_iff in J3 as (tr' & te & A' & B' & C'). assert (tr' = tr) by congruence. subst tr'.
      exists r, rs, th, tr, te. split; [reflexivity|]. split; [exact B|]. split; [exact A|]. split; [|repeat split; assumption || reflexivity].
      destruct (startswith exe (S_ "/")) eqn:W; [left; split; [apply abs_iff; exact W|exact B']|right; split; [|exact B']]. intros t T. assert (startswith exe (S_ "/") = true) by (apply abs_iff; exists t; exact T). congruence.
    - intros (r & rs & th & tr & te & -> & A & B & C & D & E & F & G). cbn [bind].
      assert (X : mtime (if startswith exe (S_ "/") then exe else Deck_Model.path_join modelpath exe) = Some te).
      { destruct C as [[C1 C2]|[C1 C2]]; [apply abs_iff in C1; rewrite C1; exact C2|]. destruct (startswith exe (S_ "/")) eqn:W; [|exact C2]. apply abs_iff in W as (t & T). destruct (C1 t T). }
      set (x := if startswith exe (S_ "/") then exe else Deck_Model.path_join modelpath exe) in *.
      rewrite (proj2 (isfile_iff h)), (proj2 (isfile_iff _)), (proj2 (isfile_iff x)) by eauto. cbn [andb]. rewrite F. cbn [bind]. rewrite str_eqb_refl.
      rewrite (proj2 (later_iff _ h)), (proj2 (later_iff _ x)) by (repeat eexists; eassumption). cbn [andb]. rewrite G. cbn [bind]. rewrite str_eqb_refl. reflexivity.
  Qed.
  Lemma start_skip path results modelpath filename exe text : (forall acts, st path results modelpath filename exe text true = (acts, Ok None) -> acts = [] /\ fresh results modelpath filename exe text) /\
    (fresh results modelpath filename exe text -> st path results modelpath filename exe text true = ([], Ok None)).
  Proof using.
    unfold start. split.
    - intros acts H. destruct (up_to_date _ _ _ _ _ _ _ _) as [[|]|] eqn:E; [injection H as <-; split; [reflexivity|apply fresh_iff; exact E]| |discriminate].
      destruct (existsb _ _); [destruct run; discriminate|discriminate].
    - intro F. apply fresh_iff in F. rewrite F. reflexivity.
  Qed.
  (** A run is skipped if, and only if, that is asked for and the results are fresh: old results are never taken for new ones. *)
  Theorem C150_skipped : forall path results modelpath filename exe text skip, (exists acts, st path results modelpath filename exe text skip = (acts, Ok None)) <-> skip = true /\ fresh results modelpath filename exe text.
  Proof using.
    intros. split.
    - intros (acts & H). destruct skip; [split; [reflexivity|]; apply (proj1 (start_skip path results modelpath filename exe text)) in H; apply H|].
      unfold start in H. destruct (existsb _ _); [destruct run; discriminate|discriminate].
    - intros (-> & F). exists []. apply start_skip. exact F.
  Qed.
  (** But then simulate fails, as it expects the output of a run. *)
  Theorem C150_skipped_refuted : forall path results modelpath filename exe text d, fresh results modelpath filename exe text ->
    sim path results modelpath filename exe text d true = ([], Raised TypeError).
  Proof using. intros. unfold simulate. rewrite (proj2 (start_skip path results modelpath filename exe text)) by assumption. reflexivity. Qed.
  (** The program runs once at most, in the model directory, and after the file has been saved. *)
  Theorem C150_actions : forall path results modelpath filename exe text d skip acts o, sim path results modelpath filename exe text d skip = (acts, o) ->
    acts = [] \/ acts = [Saved text] \/ acts = [Saved text; Ran exe (relpath filename modelpath) modelpath].
  Proof using.
    intros until o. unfold simulate, start. destruct (if skip then _ else _) as [[|]|]; [intro H; injection H as <- _; auto| |intro H; injection H as <- _; auto].
    destruct (existsb _ _); [destruct run as [f|]|]; intro H; injection H as <- _; auto.
  Qed.
  Definition found (exe : str) : Prop := exists t, mtime exe = Some t.
  Lemma found_start path results modelpath filename exe text f : run = Some f -> found exe ->
    st path results modelpath filename exe text false = ([Saved text; Ran exe (relpath filename modelpath) modelpath], Ok (Some (f exe (relpath filename modelpath) modelpath))).
  Proof using.
    intros -> (t & F). unfold start. cbn [existsb]. replace (Deck_Model.path_join [] exe) with exe.
    - rewrite (proj2 (isfile_iff exe)) by eauto. reflexivity.
    - unfold Deck_Model.path_join. destruct exe as [|c exe]; [reflexivity|]. destruct (Deck_Model.is_slash c); reflexivity.
  Qed.
  (** The log of a run: the file that the simulation names, if it is there, else what the run printed. *)
  Definition log_is (modelpath : str) (d : list (str * node)) (o : output) (log : str) : Prop :=
    (exists kd nm bc ec c ss nm' v vs cm, dget d (S_ "simulation") = Some (Sec kd nm bc ec c ss) /\ dget c (S_ "logfile") = Some (Line nm' (v :: vs) cm) /\ num v = None /\
       (read (Deck_Model.path_join modelpath v) = Some log \/ read (Deck_Model.path_join modelpath v) = None /\ log = o_out o ++ [nl] ++ o_err o)) \/
    ((dget d (S_ "simulation") = None \/ exists kd nm bc ec c ss, dget d (S_ "simulation") = Some (Sec kd nm bc ec c ss) /\ dget c (S_ "logfile") = None) /\ log = o_out o ++ [nl] ++ o_err o).
  Lemma log_found modelpath d o log : log_is modelpath d o log -> exists file, find_log num read modelpath d = Ok file /\ match file with Some t => t | None => o_out o ++ [nl] ++ o_err o end = log.
  Proof using.
    unfold find_log. intros [(kd & nm & bc & ec & c & ss & nm' & v & vs & cm & -> & B & N & R)|[[->|(kd & nm & bc & ec & c & ss & -> & B)] ->]].
    - cbn [has sub]. unfold attr. rewrite HTCSim_Props.dmem_dget, B. cbn [bind item nth_error]. unfold is_text. rewrite N. destruct R as [->|[-> ->]]; eexists; (split; [reflexivity|reflexivity]).
    - eexists; split; reflexivity.
    - cbn [has]. rewrite HTCSim_Props.dmem_dget, B. eexists; split; reflexivity.
  Qed.
  (** A run is good exactly when its error code is zero and its log tells the elapsed time; otherwise the caller gets the report, code and output. *)
  Theorem C150_verdict : forall f path results modelpath filename exe text d log, run = Some f -> found exe ->
    let o := f exe (relpath filename modelpath) modelpath in log_is modelpath d o log ->
    (o_code o = 0%Z -> mentions log (S_ "Elapsed time") -> snd (sim path results modelpath filename exe text d false) = Returned (o_out o ++ o_err o) log) /\
    (o_code o <> 0%Z \/ ~ mentions log (S_ "Elapsed time") ->
       snd (sim path results modelpath filename exe text d false) = Report (o_code o) (o_out o) (o_err o) (report fmt04 log) (o_cmd o)).
  Proof using.
    intros f path results modelpath filename exe text d log R F o L. unfold simulate. rewrite (found_start path results modelpath filename exe text f R F). fold o. destruct (log_found _ _ _ _ L) as (file & -> & E).
    cbn [snd]. cbv zeta. rewrite E. split.
    - intros C M. rewrite C. apply contains_iff in M. rewrite M. reflexivity.
    - intros [C|M].
      + apply Z.eqb_neq in C. rewrite C. reflexivity.
      + destruct (contains log (S_ "Elapsed time")) eqn:X; [apply contains_iff in X; contradiction|]. rewrite orb_comm. reflexivity.
  Qed.
  (** HAWC2STAB only looks at the code. *)
  Theorem C150_stab : forall f path results modelpath filename exe text, run = Some f -> found exe -> let o := f exe (relpath filename modelpath) modelpath in
    (o_code o = 0%Z <-> exists log, snd (simulate_stab mtime reread raw relpath run path results modelpath filename exe text) = Returned (o_out o ++ o_err o) log).
  Proof using.
    intros f path results modelpath filename exe text R F o. unfold simulate_stab. rewrite (found_start path results modelpath filename exe text f R F). fold o. cbn [snd].
    destruct (Z.eqb_spec (o_code o) 0) as [E|E]; cbn [negb]; split; intro H; [eexists; reflexivity|exact E|contradiction|destruct H; discriminate].
  Qed.
  (** In this package the function that runs programs is not imported: no simulation returns, and the file is saved nevertheless. *)
  Theorem C150_never_refuted : run = None -> forall path results modelpath filename exe text d skip, exists e, snd (sim path results modelpath filename exe text d skip) = Raised e /\
    (skip = false -> found exe -> e = NameError /\ fst (sim path results modelpath filename exe text d skip) = [Saved text]).
  Proof using.
    intros R path results modelpath filename exe text d skip. unfold simulate, start. rewrite R. destruct skip.
    - destruct (up_to_date _ _ _ _ _ _ _ _) as [[|]|]; [| |eexists; split; [reflexivity|discriminate]]; [eexists; split; [reflexivity|discriminate]|].
      destruct (existsb _ _); eexists; (split; [reflexivity|discriminate]).
    - destruct (existsb _ _) eqn:X; eexists; (split; [reflexivity|]); [split; reflexivity|]. intros _ (t & F). cbn [existsb] in X. apply orb_false_iff in X as [X _].
      replace (Deck_Model.path_join [] exe) with exe in X; [rewrite (proj2 (isfile_iff exe)) in X by eauto; discriminate|].
      unfold Deck_Model.path_join. destruct exe as [|c exe]; [reflexivity|]. destruct (Deck_Model.is_slash c); reflexivity.
  Qed.
  (** The path is split at semicolons: where it is separated by colons a program that is in one of its directories is not found, after the file is saved. *)
  Theorem C150_path_refuted : forall a b results modelpath filename exe text d t, ~ In (ch 59) (a ++ S_ ":" ++ b) -> mtime (Deck_Model.path_join a exe) = Some t -> mtime exe = None ->
    mtime (Deck_Model.path_join (a ++ S_ ":" ++ b) exe) = None -> sim (a ++ S_ ":" ++ b) results modelpath filename exe text d false = ([Saved text], Raised AssertionError).
  Proof using.
    intros a b results modelpath filename exe text d t N _ E1 E2. unfold simulate, start.
    assert (W : split_chr (ch 59) (a ++ S_ ":" ++ b) = [a ++ S_ ":" ++ b]) by (apply (CSVRound_Props.split_join (ch 59) [a ++ S_ ":" ++ b]); [discriminate|repeat constructor; exact N]).
    rewrite W. cbn [existsb]. unfold isfile. rewrite E2. replace (Deck_Model.path_join [] exe) with exe.
    - rewrite E1. reflexivity.
    - unfold Deck_Model.path_join. destruct exe as [|c exe]; [reflexivity|]. destruct (Deck_Model.is_slash c); reflexivity.
  Qed.
End Run.

(** ** Examples *)
Definition ex_fmt (z : Z) : str := str_of_N (Z.to_N z).
Definition ex_log : list str := map S_ ["a"; "b"; "c"; "d"; "e"; "Some ERROR"; "g"; "h"; "i"; "j"; "k"; "l"; "m"; "n"; "o"; "p"]%string.
(** line 9 and 10 are left out between 8 and 11; the dots are before 8 *)
Example ex_report : report ex_fmt (join [nl] ex_log) =
  join [nl] (map S_ ["2 c"; "3 d"; "4 e"; "5 Some ERROR"; "6 g"; "7 h"; "..."; "8 i"; "11 l"; "12 m"; "13 n"; "14 o"; "15 p"]%string).
Proof. vm_compute. reflexivity. Qed.
Example ex_lines : has_lines (join [nl] ex_log) ex_log /\ error_at ex_log 5.
Proof.
  split; [split; [discriminate|]; split; [|reflexivity]|].
  - repeat (constructor; [cbn; intuition discriminate|]). constructor.
  - exists (S_ "Some ERROR"). split; [lia|]. split; [reflexivity|]. exists (S_ "some "), []. reflexivity.
Qed.
Example ex_gap : (forall j, In j ([2; 3; 4; 5; 6; 7] ++ 8 :: 11 :: [12; 13; 14; 15])%Z <-> near ex_log j) /\ consecutive ([2; 3; 4; 5; 6; 7] ++ [8])%Z.
Proof.
  split; [|cbn; lia]. intro j. rewrite <- shown_in by discriminate. vm_compute (shown _ _). reflexivity.
Qed.
Definition ex_time (f : str) : option Q :=
  if str_eqb f (S_ "/m/htc/a.htc") then Some 1%Q else if str_eqb f (S_ "/m/res/a.sel") then Some 3%Q else if str_eqb f (S_ "/hawc2") then Some 2%Q else None.
Example ex_fresh : fresh ex_time (fun _ => Ok (S_ "begin")) (fun _ => Ok (S_ "begin")) (Ok [S_ "res/a.sel"]) (S_ "/m") (S_ "htc/a.htc") (S_ "/hawc2") (S_ "begin").
Proof.
  exists (S_ "res/a.sel"), [], 1%Q, 3%Q, 2%Q. repeat split; try reflexivity. left. split; [exists (S_ "hawc2"); reflexivity|reflexivity].
Qed.
Definition ex_run (good : bool) (exe f cwd : str) : output := mk_output 0 (S_ "done") (if good then S_ "Elapsed time: 1" else S_ "error") f.
Example ex_verdict : forall good, log_is (fun _ => None) (fun _ => None) (S_ "/m") [] (ex_run good (S_ "/hawc2") (S_ "a") (S_ "/m")) (S_ "done" ++ [nl] ++ if good then S_ "Elapsed time: 1" else S_ "error") /\
  found ex_time (S_ "/hawc2").
Proof. intro good. split; [right; split; [left; reflexivity|reflexivity]|]. exists 2%Q. reflexivity. Qed.
Example ex_simulated : forall good, snd (simulate (fun _ => None) ex_fmt ex_time (fun _ => Err OSError2) (fun _ => Err OSError2) (fun f _ => f) (Some (ex_run good)) (fun _ => None) [] (Ok []) (S_ "/m") (S_ "a") (S_ "/hawc2") [] [] false) =
  if good then Returned (S_ "doneElapsed time: 1") (S_ "done" ++ [nl] ++ S_ "Elapsed time: 1") else Report 0 (S_ "done") (S_ "error") (S_ "0 done" ++ [nl] ++ S_ "1 error") (S_ "a").
Proof. intros []; vm_compute; reflexivity. Qed.
Example ex_path : ~ In (ch 59) (S_ "/usr/bin" ++ S_ ":" ++ S_ "/bin").
Proof. cbn. intuition discriminate. Qed.

Print Assumptions C150_report.
Print Assumptions C150_report_all.
Print Assumptions C150_dots_refuted.
Print Assumptions C150_skipped.
Print Assumptions C150_skipped_refuted.
Print Assumptions C150_actions.
Print Assumptions C150_verdict.
Print Assumptions C150_stab.
Print Assumptions C150_never_refuted.
Print Assumptions C150_path_refuted.
