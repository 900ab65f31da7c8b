(** Property theorem C131: RAAW measurement files. *)
From Verif Require Import Py PyFacts ListFacts FS File_Model.
From Verif Require Import Raaw_Model.
From Coq Require Import QArith Lqa ZifyNat ZifyBool.
Local Open Scope nat_scope.

(** A column of [n] rows: the samples, then nothing *)
Definition Column (n : nat) (name : str) (x : list Q) (c : str * list (option Q)) : Prop :=
  fst c = name /\ List.length (snd c) = n /\ forall i, i < n -> nth_error (snd c) i = Some (nth_error x i).
(** The table of the signals [l], [step] milliseconds apart from [t0] on *)
Definition Table (n : nat) (t0 step : Z) (l : list signal) (d : frame) : Prop :=
  List.length (f_index d) = n /\ (forall i, i < n -> nth i (f_index d) 0%Z = (t0 + Z.of_nat i * step)%Z) /\
  exists t cols, f_cols d = (S_ "time", t) :: cols /\ List.length t = n /\
    (forall i, i < n -> exists q, nth_error t i = Some (Some q) /\ (q == inject_Z (Z.of_nat i * step) / 1000)%Q) /\
    Forall2 (fun s c => Column n (g_name s) (g_samples s) c) l cols.

Lemma sort_ok l : forall a b, sort_signals l a b =
  (a ++ map (fun s => (g_name s, g_samples s)) (filter (fun s => Qeq_bool (g_period s) (2 # 100)) l),
   b ++ map (fun s => (g_name s, g_samples s)) (filter (fun s => Qeq_bool (g_period s) 1) l)).
Proof.
  induction l as [|s l IH]; intros a b; cbn [sort_signals filter map]; [rewrite !app_nil_r; reflexivity|].
  destruct (Qeq_bool (g_period s) (2 # 100)) eqn:A.
  - assert (B : Qeq_bool (g_period s) 1 = false). { destruct (Qeq_bool (g_period s) 1) eqn:B; [|reflexivity]. apply Qeq_bool_iff in A. apply Qeq_bool_iff in B. rewrite A in B. discriminate B. }
    rewrite B, IH. cbn [map]. rewrite <- app_assoc. reflexivity.
  - destruct (Qeq_bool (g_period s) 1) eqn:B; rewrite IH; cbn [map]; rewrite <- ?app_assoc; reflexivity.
Qed.
Lemma nth_map_seq {B} (f : nat -> B) n i d : i < n -> nth i (map f (seq 0 n)) d = f i.
Proof. intro H. apply nth_error_nth. rewrite nth_error_map, (nth_error_nth' (seq 0 n) 0) by (rewrite seq_length; exact H). rewrite seq_nth by exact H. reflexivity. Qed.
Lemma clock_length n q : List.length (clock n q) = n.
Proof. unfold clock. rewrite map_length, seq_length. reflexivity. Qed.
Lemma longest_ok n t l : List.length t = n -> (forall s, In s l -> List.length (g_samples s) <= n) ->
  longest ((S_ "time", t) :: map (fun s => (g_name s, g_samples s)) l) = n.
Proof.
  intros Ht H. cbn [longest fold_right snd]. fold (longest (map (fun s => (g_name s, g_samples s)) l)). rewrite Ht. apply Nat.max_l.
  induction l as [|s l IH]; [cbn; lia|]. cbn [map longest fold_right snd]. fold (longest (map (fun s => (g_name s, g_samples s)) l)).
  apply Nat.max_lub; [apply H; left; reflexivity|apply IH; intros x Hx; apply H; right; exact Hx].
Qed.
Lemma complete_ok n x : List.length x <= n -> List.length (complete n x) = n /\ forall i, i < n -> nth_error (complete n x) i = Some (nth_error x i).
Proof.
  intro H. unfold complete. split; [rewrite app_length, map_length, repeat_length; lia|]. intros i Hi.
  destruct (Nat.lt_ge_cases i (List.length x)) as [L|L].
  - rewrite nth_error_app1 by (rewrite map_length; exact L). rewrite nth_error_map. destruct (nth_error x i) eqn:E; [reflexivity|]. apply nth_error_None in E. lia.
  - rewrite nth_error_app2 by (rewrite map_length; exact L). rewrite map_length. rewrite (proj2 (nth_error_None x i) L).
    rewrite nth_error_repeat by lia. reflexivity.
Qed.
Lemma frame_ok n t0 step period l : (period == inject_Z step / 1000)%Q -> (forall s, In s l -> List.length (g_samples s) <= n) ->
  exists d, the_frame ((S_ "time", clock n period) :: map (fun s => (g_name s, g_samples s)) l) (date_range t0 step n) = Ok d /\ Table n t0 step l d.
Proof.
  intros P H. unfold the_frame. cbn zeta. rewrite (longest_ok n (clock n period) l (clock_length n period) H).
  assert (LI : List.length (date_range t0 step n) = n) by (unfold date_range; rewrite map_length, seq_length; reflexivity).
  rewrite LI, Nat.eqb_refl. eexists. split; [reflexivity|]. unfold Table. cbn [f_index f_cols]. split; [exact LI|]. split.
  - intros i Hi. unfold date_range. rewrite nth_map_seq by exact Hi. reflexivity.
  - cbn [map fst snd]. do 2 eexists. split; [reflexivity|]. destruct (complete_ok n (clock n period)) as (C1 & C2); [rewrite clock_length; lia|].
    split; [exact C1|]. split.
    + intros i Hi. exists (inject_Z (Z.of_nat i) * period)%Q. rewrite C2 by exact Hi. unfold clock. rewrite nth_error_map, (nth_error_nth' (seq 0 n) 0) by (rewrite seq_length; exact Hi).
      rewrite seq_nth by exact Hi. split; [reflexivity|]. rewrite P, inject_Z_mult. unfold Qdiv. ring.
    + rewrite map_map. cbn [fst snd]. induction l as [|s l IH]; cbn [map]; [constructor|]. constructor; [|apply IH; intros x Hx; apply H; right; exact Hx].
      split; [reflexivity|]. cbn [snd]. apply complete_ok. apply H. left. reflexivity.
Qed.
Section R.
Variable to_datetime : str -> res Z.
(** Every signal of the two rates is a column, in the order of the file and after the time; shorter signals are completed; the others are left out;
    the dates are counted from that of the last signal *)
Theorem C131_tables : forall l last t0,
  to_datetime (join (S_ ",") (map str_of_Z (g_date last))) = Ok t0 ->
  (forall s, In s (l ++ [last]) -> List.length (g_samples s) <> 1) ->
  (forall s, In s (l ++ [last]) -> (g_period s == 2 # 100)%Q -> List.length (g_samples s) <= N.to_nat 30000) ->
  (forall s, In s (l ++ [last]) -> (g_period s == 1)%Q -> List.length (g_samples s) <= N.to_nat 600) ->
  exists d50 d1, matfile to_datetime (l ++ [last]) = Ok [(S_ "data50hz", d50); (S_ "data1hz", d1)] /\
    Table (N.to_nat 30000) t0 20 (filter (fun s => Qeq_bool (g_period s) (2 # 100)) (l ++ [last])) d50 /\
    Table (N.to_nat 600) t0 1000 (filter (fun s => Qeq_bool (g_period s) 1) (l ++ [last])) d1.
Proof.
  intros l last t0 Ht H0 H1 H2. unfold matfile.
  replace (existsb _ (l ++ [last])) with false.
  2:{ symmetry. destruct (existsb _ (l ++ [last])) eqn:E; [|reflexivity]. apply existsb_exists in E. destruct E as (s & I & E). apply Nat.eqb_eq in E. exfalso. exact (H0 s I E). }
  rewrite sort_ok. rewrite rev_app_distr. cbn [rev app]. unfold date_text. rewrite Ht. cbn [bind].
  destruct (frame_ok n50 t0 20 (2 # 100) (filter (fun s => Qeq_bool (g_period s) (2 # 100)) (l ++ [last]))) as (d50 & E50 & T50).
  { reflexivity. } { intros s I. apply filter_In in I. destruct I as [I J]. apply Qeq_bool_iff in J. apply H1; assumption. }
  destruct (frame_ok n1 t0 1000 1 (filter (fun s => Qeq_bool (g_period s) 1) (l ++ [last]))) as (d1 & E1 & T1).
  { reflexivity. } { intros s I. apply filter_In in I. destruct I as [I J]. apply Qeq_bool_iff in J. apply H2; assumption. }
  rewrite E50. cbn [bind]. rewrite E1. cbn [bind]. exists d50, d1. split; [reflexivity|]. split; assumption.
Qed.
Lemma longest_ge l c : In c l -> List.length (snd c) <= longest l.
Proof. induction l as [|a l IH]; intros H; [destruct H|]. cbn [longest fold_right]. fold (longest l). destruct H as [->|H]; [lia|]. specialize (IH H). lia. Qed.
(** A signal with more samples than ten minutes: refused *)
Theorem C131_too_long : forall l last t0 s,
  to_datetime (join (S_ ",") (map str_of_Z (g_date last))) = Ok t0 ->
  (forall s, In s (l ++ [last]) -> List.length (g_samples s) <> 1) -> In s (l ++ [last]) ->
  ((g_period s == 2 # 100)%Q /\ N.to_nat 30000 < List.length (g_samples s)) \/ ((g_period s == 1)%Q /\ N.to_nat 600 < List.length (g_samples s)) ->
  matfile to_datetime (l ++ [last]) = Err ValueError.
Proof.
  intros l last t0 s Ht H0 I H. unfold matfile.
  replace (existsb _ (l ++ [last])) with false.
  2:{ symmetry. destruct (existsb _ (l ++ [last])) eqn:E; [|reflexivity]. apply existsb_exists in E. destruct E as (x & J & E). apply Nat.eqb_eq in E. exfalso. exact (H0 x J E). }
  rewrite sort_ok. rewrite rev_app_distr. cbn [rev app]. unfold date_text. rewrite Ht. cbn [bind]. unfold the_frame. cbn zeta.
  assert (LI : forall z n, List.length (date_range t0 z n) = n) by (intros; unfold date_range; rewrite map_length, seq_length; reflexivity). rewrite !LI.
  assert (K : forall q n, (g_period s == q)%Q -> n < List.length (g_samples s) ->
    n =? longest ((S_ "time", clock n q) :: map (fun s => (g_name s, g_samples s)) (filter (fun s => Qeq_bool (g_period s) q) (l ++ [last]))) = false).
  { intros q n Q L. apply Nat.eqb_neq. pose proof (longest_ge ((S_ "time", clock n q) :: map (fun s => (g_name s, g_samples s)) (filter (fun s => Qeq_bool (g_period s) q) (l ++ [last]))) (g_name s, g_samples s)) as G.
    cbn [snd] in G. assert (J : In (g_name s, g_samples s) ((S_ "time", clock n q) :: map (fun s => (g_name s, g_samples s)) (filter (fun s => Qeq_bool (g_period s) q) (l ++ [last])))).
    { right. apply in_map_iff. exists s. split; [reflexivity|]. apply filter_In. split; [exact I|]. apply Qeq_bool_iff. exact Q. } specialize (G J). lia. }
  destruct H as [(Q & L)|(Q & L)].
  - change (N.to_nat 30000) with n50 in L. rewrite (K _ _ Q L). reflexivity.
  - change (N.to_nat 600) with n1 in L. rewrite (K _ _ Q L). destruct (_ =? _); reflexivity.
Qed.
(** The date of the other signals does not matter; a file without signals is refused by accident *)
Theorem C131_date_refuted : forall l l' last, Forall2 (fun s s' => g_name s = g_name s' /\ g_period s = g_period s' /\ g_samples s = g_samples s') l l' ->
  matfile to_datetime (l ++ [last]) = matfile to_datetime (l' ++ [last]).
Proof.
  intros l l' last H. unfold matfile.
  assert (E1 : existsb (fun s => List.length (g_samples s) =? 1) (l ++ [last]) = existsb (fun s => List.length (g_samples s) =? 1) (l' ++ [last])).
  { induction H as [|s s' l l' (_ & _ & A) H IH]; [reflexivity|]. cbn [app existsb]. rewrite A, IH. reflexivity. }
  assert (E2 : forall a b, sort_signals (l ++ [last]) a b = sort_signals (l' ++ [last]) a b).
  { clear E1. induction H as [|s s' l l' (A & B & C) H IH]; intros a b; [reflexivity|]. cbn [app sort_signals]. rewrite A, B, C, !IH. reflexivity. }
  rewrite E1, E2, !rev_app_distr. reflexivity.
Qed.
Theorem C131_no_signal : matfile to_datetime [] = Err UnboundLocalError.
Proof. unfold matfile. destruct (sort_signals [] _ _). reflexivity. Qed.
Variable loadmat : list N -> res (list signal).
(** Reading: the tables of the file; an object that was read before keeps its tables when anything is raised *)
Theorem C131_read : forall f o name b bs, f name = Reg (b :: bs) -> name <> [] ->
  (forall l d, loadmat (b :: bs) = Ok l -> matfile to_datetime l = Ok d ->
     raaw_read to_datetime loadmat f o (Some name) = (mk_raaw (Some name) (Some d), Ok tt) /\ raaw_frames (fst (raaw_read to_datetime loadmat f o (Some name))) = Ok d) /\
  (forall e, loadmat (b :: bs) = Err e -> raaw_read to_datetime loadmat f o (Some name) = (mk_raaw (Some name) (r_data o), Err e)) /\
  (forall l e, loadmat (b :: bs) = Ok l -> matfile to_datetime l = Err e -> raaw_read to_datetime loadmat f o (Some name) = (mk_raaw (Some name) (r_data o), Err e)).
Proof.
  intros f o name b bs E N. destruct name as [|c name]; [contradiction|]. unfold raaw_read, remember_name. cbn [truthy r_filename]. rewrite E.
  split; [|split].
  - intros l d A B. rewrite A. cbn [bind]. rewrite B. split; reflexivity.
  - intros e A. rewrite A. reflexivity.
  - intros l e A B. rewrite A. cbn [bind]. rewrite B. reflexivity.
Qed.
Theorem C131_missing : forall f o name, name <> [] -> f name = Missing \/ f name = Dir -> raaw_read to_datetime loadmat f o (Some name) = (mk_raaw (Some name) (r_data o), Err OSError2).
Proof. intros f o name N H. destruct name as [|c name]; [contradiction|]. unfold raaw_read, remember_name. cbn [truthy r_filename]. destruct H as [-> | ->]; reflexivity. Qed.
(** An empty file is refused, but not with EmptyFileError *)
Theorem C131_empty_refuted : forall f o name, name <> [] -> f name = Reg [] -> raaw_read to_datetime loadmat f o (Some name) = (mk_raaw (Some name) (r_data o), Err NameError).
Proof. intros f o name N H. destruct name as [|c name]; [contradiction|]. unfold raaw_read, remember_name. cbn [truthy r_filename]. rewrite H. reflexivity. Qed.
(** Writing is refused and leaves the disk alone *)
Theorem C131_write : forall f o arg, fst (fst (raaw_write f o arg)) = f /\ (exists e, snd (raaw_write f o arg) = Err e) /\ r_data (snd (fst (raaw_write f o arg))) = r_data o /\
  (forall name, arg = Some name -> name <> [] -> snd (raaw_write f o arg) = Err NotImplementedError).
Proof.
  intros f o arg. unfold raaw_write, remember_name. destruct arg as [[|c a]|]; cbn [truthy r_filename].
  - destruct (r_filename o) as [[|]|]; cbn; repeat split; try (eexists; reflexivity); intros name H; injection H as <-; contradiction.
  - cbn. repeat split. eexists. reflexivity.
  - destruct (r_filename o) as [[|]|]; cbn; repeat split; try (eexists; reflexivity); intros name H; discriminate H.
Qed.
End R.
Print Assumptions C131_tables.
Print Assumptions C131_too_long.
Print Assumptions C131_date_refuted.
Print Assumptions C131_no_signal.
Print Assumptions C131_read.
Print Assumptions C131_missing.
Print Assumptions C131_empty_refuted.
Print Assumptions C131_write.

(** A file with one signal of each rate and one of another rate *)
Definition ex_signals : list signal :=
  [mk_signal (S_ "wind") (2 # 100) [2020; 1; 1; 0; 0; 0]%Z [7; 8; 9]%Q; mk_signal (S_ "odd") (1 # 2) [] [1; 2]%Q; mk_signal (S_ "yaw") 1 [2021; 7; 1; 0; 10; 0]%Z [10; 12]%Q].
Definition ex_date (s : str) : res Z := if str_eqb s (S_ "2021,7,1,0,10,0") then Ok 5000%Z else Err ValueError.
Lemma small n m : (N.of_nat n <= m)%N -> n <= N.to_nat m. Proof. lia. Qed.
Example C131_example : exists d50 d1, matfile ex_date ex_signals = Ok [(S_ "data50hz", d50); (S_ "data1hz", d1)] /\
  Table (N.to_nat 30000) 5000 20 (firstn 1 ex_signals) d50 /\ Table (N.to_nat 600) 5000 1000 (skipn 2 ex_signals) d1.
Proof.
  apply (C131_tables ex_date [mk_signal (S_ "wind") (2 # 100) [2020; 1; 1; 0; 0; 0]%Z [7; 8; 9]%Q; mk_signal (S_ "odd") (1 # 2) [] [1; 2]%Q] (mk_signal (S_ "yaw") 1 [2021; 7; 1; 0; 10; 0]%Z [10; 12]%Q) 5000).
  - reflexivity.
  - intros s [<-|[<-|[<-|[]]]]; discriminate.
  - intros s [<-|[<-|[<-|[]]]] _; apply small; vm_compute; discriminate.
  - intros s [<-|[<-|[<-|[]]]] _; apply small; vm_compute; discriminate.
Qed.
Example C131_small_example : the_frame [(S_ "time", clock 3 1); (S_ "yaw", [10; 12]%Q)] (date_range 5000 1000 3)
  = Ok (mk_frame [5000; 6000; 7000]%Z [(S_ "time", [Some 0%Q; Some 1%Q; Some 2%Q]); (S_ "yaw", [Some 10%Q; Some 12%Q; None])]).
Proof. vm_compute. reflexivity. Qed.
