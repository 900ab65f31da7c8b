(** Theorems about weio/rosco_performance_file.py (C77). *)
From Verif Require Import Py PyFacts TextFacts FS TurbSim_Model TurbSim_Proofs TS_Model TS_Props Profile_Props Rosco_Model.
From Coq Require Import Lia.
Local Open Scope nat_scope.

(** ** Specification *)
Definition mentions (l w : str) : Prop := exists a b, l = a ++ w ++ b.
Definition words : list str := [S_ "Pitch angle"; S_ "TSR"; S_ "Wind speed"; S_ "Power"; S_ "Thrust"; S_ "Torque"].
(** A line that introduces the section of number k, and no earlier one *)
Definition title (k : nat) (l : str) : Prop := (exists w, nth_error words k = Some w /\ mentions l w) /\ forall j w, j < k -> nth_error words j = Some w -> ~ mentions l w.
Definition filler (l : str) : Prop := forall w, In w words -> ~ mentions l w.

Section S.
Context {V : Type}.
Variable num : str -> option V.
Notation numbers := (numbers num).
(** A vector: a title and a line of numbers *)
Definition vector_lines (k : nat) (vs : list V) (ls : list str) : Prop := exists t l, ls = [t; l] /\ title k t /\ numbers l vs.
(** A table: a title, a line that is not used, and rows of [n] numbers *)
Definition table_lines (k n : nat) (m : list (list V)) (ls : list str) : Prop :=
  exists t b rows, ls = t :: b :: rows /\ title k t /\ Forall2 (fun l r => numbers l r /\ List.length r = n) rows m.
(** The lines of a file of performance; the wind speeds may be missing *)
Record performance (o : rosco V) (ls : list str) : Prop := {
  perf : exists pitch tsr f0 f1 f2 f3 f4 f5 f6 lp lt lw lcp lct lcq,
    ls = f0 ++ lp ++ f1 ++ lt ++ f2 ++ lw ++ f3 ++ lcp ++ f4 ++ lct ++ f5 ++ lcq ++ f6 /\
    Forall filler (f0 ++ f1 ++ f2 ++ f3 ++ f4 ++ f5 ++ f6) /\ List.length f0 <= 11 /\
    r_pitch o = Some pitch /\ r_tsr o = Some tsr /\
    vector_lines 0 pitch lp /\ vector_lines 1 tsr lt /\
    match r_ws o with Some ws => vector_lines 2 ws lw | None => lw = [] end /\
    table_lines 3 (List.length pitch) (r_cp o) lcp /\ table_lines 4 (List.length pitch) (r_ct o) lct /\ table_lines 5 (List.length pitch) (r_cq o) lcq /\
    List.length (r_cp o) = List.length tsr /\ List.length (r_ct o) = List.length tsr /\ List.length (r_cq o) = List.length tsr }.

Lemma mentions_b l w : contains l w = true <-> mentions l w.
Proof. apply contains_iff. Qed.
Lemma not_mentions_b l w : ~ mentions l w -> contains l w = false.
Proof. intro H. destruct (contains l w) eqn:E; [|reflexivity]. apply mentions_b in E. contradiction. Qed.
Lemma step_filler (v : loc V) l r : filler l -> step num v l r = Ok (v, r).
Proof. intro H. unfold step. unfold filler, words in H. rewrite !not_mentions_b by (apply H; cbn; tauto). reflexivity. Qed.
Lemma title_b k l : title k l -> forall j w, j <= k -> nth_error words j = Some w -> contains l w = Nat.eqb j k.
Proof.
  intros [(w0 & H1 & H2) H3] j w J W. destruct (Nat.eqb j k) eqn:E.
  - apply Nat.eqb_eq in E. subst j. rewrite H1 in W. injection W as <-. apply mentions_b. exact H2.
  - apply Nat.eqb_neq in E. apply not_mentions_b. apply (H3 j w); [lia|exact W].
Qed.
Definition set_v (k : nat) (x : list V) (v : loc V) : loc V :=
  match k with O => mk_loc (Some x) (v_tsr v) (v_ws v) (v_cp v) (v_ct v) (v_cq v) | 1 => mk_loc (v_pitch v) (Some x) (v_ws v) (v_cp v) (v_ct v) (v_cq v) | _ => mk_loc (v_pitch v) (v_tsr v) (Some x) (v_cp v) (v_ct v) (v_cq v) end.
Definition set_t (k : nat) (x : list (list V)) (v : loc V) : loc V :=
  match k with 3 => mk_loc (v_pitch v) (v_tsr v) (v_ws v) (Some x) (v_ct v) (v_cq v) | 4 => mk_loc (v_pitch v) (v_tsr v) (v_ws v) (v_cp v) (Some x) (v_cq v) | _ => mk_loc (v_pitch v) (v_tsr v) (v_ws v) (v_cp v) (v_ct v) (Some x) end.
Ltac title_rw T := rewrite ?(title_b _ _ T 0 (S_ "Pitch angle") ltac:(lia) eq_refl), ?(title_b _ _ T 1 (S_ "TSR") ltac:(lia) eq_refl), ?(title_b _ _ T 2 (S_ "Wind speed") ltac:(lia) eq_refl), ?(title_b _ _ T 3 (S_ "Power") ltac:(lia) eq_refl), ?(title_b _ _ T 4 (S_ "Thrust") ltac:(lia) eq_refl), ?(title_b _ _ T 5 (S_ "Torque") ltac:(lia) eq_refl).
Lemma step_vector k v t l r xs : k < 3 -> title k t -> numbers l xs -> step num v t (l :: r) = Ok (set_v k xs v, r).
Proof.
  intros K T N. apply floats_iff in N. unfold step. cbn [readline fst snd]. rewrite N. destruct k as [|[|[|k]]]; [..|lia].
  - rewrite (title_b _ _ T 0 (S_ "Pitch angle") ltac:(lia) eq_refl). reflexivity.
  - rewrite (title_b _ _ T 0 (S_ "Pitch angle") ltac:(lia) eq_refl), (title_b _ _ T 1 (S_ "TSR") ltac:(lia) eq_refl). reflexivity.
  - rewrite (title_b _ _ T 0 (S_ "Pitch angle") ltac:(lia) eq_refl), (title_b _ _ T 1 (S_ "TSR") ltac:(lia) eq_refl), (title_b _ _ T 2 (S_ "Wind speed") ltac:(lia) eq_refl). reflexivity.
Qed.
Lemma rows_ok n rows m r : Forall2 (fun l x => numbers l x /\ List.length x = n) rows m -> table_rows num (List.length m) n (rows ++ r) = Ok (m, r).
Proof.
  intro H. induction H as [|l x rows m [H1 H2] H3 IH]; [reflexivity|]. cbn [List.length app table_rows readline]. unfold table_row. apply floats_iff in H1. rewrite H1. cbn [bind]. rewrite H2, Nat.eqb_refl. cbn [bind]. rewrite IH. reflexivity.
Qed.
Lemma step_table k v t b rows r pitch tsr m : 3 <= k < 6 -> title k t -> v_pitch v = Some pitch -> v_tsr v = Some tsr -> List.length m = List.length tsr ->
  Forall2 (fun l x => numbers l x /\ List.length x = List.length pitch) rows m -> step num v t (b :: rows ++ r) = Ok (set_t k m v, r).
Proof.
  intros K T P Q L F. unfold step. cbn [readline fst snd]. assert (TB : table num v (b :: rows ++ r) = Ok (m, r)) by (unfold table; rewrite P, Q; cbn [readline snd]; rewrite <- L; apply rows_ok; exact F).
  rewrite TB. destruct k as [|[|[|[|[|[|k]]]]]]; try lia.
  - rewrite (title_b _ _ T 0 (S_ "Pitch angle") ltac:(lia) eq_refl), (title_b _ _ T 1 (S_ "TSR") ltac:(lia) eq_refl), (title_b _ _ T 2 (S_ "Wind speed") ltac:(lia) eq_refl), (title_b _ _ T 3 (S_ "Power") ltac:(lia) eq_refl). reflexivity.
  - rewrite (title_b _ _ T 0 (S_ "Pitch angle") ltac:(lia) eq_refl), (title_b _ _ T 1 (S_ "TSR") ltac:(lia) eq_refl), (title_b _ _ T 2 (S_ "Wind speed") ltac:(lia) eq_refl), (title_b _ _ T 3 (S_ "Power") ltac:(lia) eq_refl), (title_b _ _ T 4 (S_ "Thrust") ltac:(lia) eq_refl). reflexivity.
  - rewrite (title_b _ _ T 0 (S_ "Pitch angle") ltac:(lia) eq_refl), (title_b _ _ T 1 (S_ "TSR") ltac:(lia) eq_refl), (title_b _ _ T 2 (S_ "Wind speed") ltac:(lia) eq_refl), (title_b _ _ T 3 (S_ "Power") ltac:(lia) eq_refl), (title_b _ _ T 4 (S_ "Thrust") ltac:(lia) eq_refl), (title_b _ _ T 5 (S_ "Torque") ltac:(lia) eq_refl). reflexivity.
Qed.
(** Lines that are skipped, after the pitch angles *)
Lemma loop_filler fs : forall fuel i v r, Forall filler fs -> v_pitch v <> None -> List.length (fs ++ r) <= fuel -> loop num fuel i v (fs ++ r) = loop num (fuel - List.length fs) (i + List.length fs) v r.
Proof.
  induction fs as [|l fs IH]; intros fuel i v r F P L; cbn [app List.length] in *; [now rewrite Nat.sub_0_r, Nat.add_0_r|]. destruct fuel as [|fuel]; [lia|]. cbn [loop]. rewrite step_filler by exact (Forall_inv F). cbn [bind]. destruct (v_pitch v) eqn:E; [|contradiction]. rewrite <- E in P.
  rewrite IH by (try exact (Forall_inv_tail F); try exact P; lia). f_equal; lia.
Qed.
(** and before them *)
Lemma loop_filler0 fs : forall fuel i v r, Forall filler fs -> v_pitch v = None -> i + List.length fs <= 11 -> List.length (fs ++ r) <= fuel -> loop num fuel i v (fs ++ r) = loop num (fuel - List.length fs) (i + List.length fs) v r.
Proof.
  induction fs as [|l fs IH]; intros fuel i v r F P I L; cbn [app List.length] in *; [now rewrite Nat.sub_0_r, Nat.add_0_r|]. destruct fuel as [|fuel]; [lia|]. cbn [loop]. rewrite step_filler by exact (Forall_inv F). cbn [bind]. rewrite P. replace (Nat.ltb 10 i) with false by (symmetry; apply Nat.ltb_ge; lia).
  rewrite IH by (try exact (Forall_inv_tail F); try exact P; lia). f_equal; lia.
Qed.
Lemma loop_vector k xs ls fuel i v r : k < 3 -> vector_lines k xs ls -> (k <> 0 -> v_pitch v <> None) -> List.length (ls ++ r) <= fuel -> exists i' fuel', loop num fuel i v (ls ++ r) = loop num fuel' i' (set_v k xs v) r /\ List.length r <= fuel'.
Proof.
  intros K (t & l & -> & T & N) P L. cbn [app List.length] in *. destruct fuel as [|fuel]; [lia|]. exists (S i), fuel. split; [|lia]. cbn [loop]. rewrite (step_vector k v t l r xs K T N). cbn [bind].
  assert (Q : v_pitch (set_v k xs v) <> None) by (destruct k as [|[|k]]; cbn; [discriminate|apply P; discriminate|apply P; discriminate]). destruct (v_pitch (set_v k xs v)); [reflexivity|contradiction].
Qed.
Lemma loop_table k m ls fuel i v r pitch tsr : 3 <= k < 6 -> table_lines k (List.length pitch) m ls -> v_pitch v = Some pitch -> v_tsr v = Some tsr -> List.length m = List.length tsr -> List.length (ls ++ r) <= fuel ->
  exists i' fuel', loop num fuel i v (ls ++ r) = loop num fuel' i' (set_t k m v) r /\ List.length r <= fuel'.
Proof.
  intros K (t & b & rows & -> & T & F) P Q LM L. cbn [app List.length] in *. rewrite app_length in L. destruct fuel as [|fuel]; [lia|]. exists (S i), fuel. split; [|lia]. cbn [loop]. rewrite (step_table k v t b rows r pitch tsr m K T P Q LM F). cbn [bind].
  assert (E : v_pitch (set_t k m v) = Some pitch) by (destruct k as [|[|[|[|[|k]]]]]; cbn; exact P). rewrite E. reflexivity.
Qed.
Lemma loop_end fuel i v : loop num fuel i v [] = Ok v.
Proof. destruct fuel; reflexivity. Qed.

(** ** C77: the vectors and the three tables are read *)
Theorem C77_reads_performance : forall text o, performance o (file_lines text) -> rosco_load num text = Ok o.
Proof.
  intros text o [(pitch & tsr & f0 & f1 & f2 & f3 & f4 & f5 & f6 & lp & lt & lw & lcp & lct & lcq & E & F & L0 & P & T & VP & VT & VW & TP & TT & TQ & L1 & L2 & L3)].
  unfold rosco_load. rewrite E. clear E. rewrite !Forall_app in F. destruct F as (F0 & F1 & F2 & F3 & F4 & F5 & F6).
  match goal with |- context [loop num ?n 0 loc0 ?l] => assert (L : exists u, u = n /\ List.length l <= u) by (exists n; split; [reflexivity|lia]); destruct L as (fuel & EF & L); rewrite <- EF; clear EF end.
  rewrite loop_filler0 by (try exact F0; try reflexivity; try exact L; cbn; lia). rewrite app_length in L.
  match goal with |- context [loop num ?a ?b loc0 ?l] => assert (M : List.length l <= a) by lia; revert M; generalize a; generalize b end. clear L fuel. intros i fuel L.
  destruct (loop_vector 0 pitch lp fuel i loc0 _ ltac:(lia) VP ltac:(congruence) L) as (i1 & u1 & E1 & M1). rewrite E1. clear E1. set (v1 := set_v 0 pitch loc0).
  rewrite loop_filler by (try exact F1; try exact M1; discriminate). rewrite app_length in M1.
  match goal with |- context [loop num ?a ?b v1 (lt ++ ?r)] => destruct (loop_vector 1 tsr lt a b v1 r ltac:(lia) VT ltac:(discriminate) ltac:(lia)) as (i2 & u2 & E2 & M2) end. rewrite E2. clear E2 M1. set (v2 := set_v 1 tsr v1).
  rewrite loop_filler by (try exact F2; try exact M2; discriminate). rewrite app_length in M2.
  assert (W : forall a b r, List.length (lw ++ r) <= a -> exists i' u', loop num a b v2 (lw ++ r) = loop num u' i' (mk_loc (Some pitch) (Some tsr) (r_ws o) None None None) r /\ List.length r <= u').
  { intros a b r K. destruct (r_ws o) as [ws|].
    - exact (loop_vector 2 ws lw a b v2 r ltac:(lia) VW ltac:(discriminate) K).
    - subst lw. exists b, a. split; [reflexivity|exact K]. }
  match goal with |- context [loop num ?a ?b v2 (lw ++ ?r)] => destruct (W a b r ltac:(lia)) as (i3 & u3 & E3 & M3) end. rewrite E3. clear E3 M2 W. set (v3 := mk_loc (Some pitch) (Some tsr) (r_ws o) None None None).
  rewrite loop_filler by (try exact F3; try exact M3; discriminate). rewrite app_length in M3.
  match goal with |- context [loop num ?a ?b v3 (lcp ++ ?r)] => destruct (loop_table 3 (r_cp o) lcp a b v3 r pitch tsr ltac:(lia) TP eq_refl eq_refl L1 ltac:(lia)) as (i4 & u4 & E4 & M4) end. rewrite E4. clear E4 M3. set (v4 := set_t 3 (r_cp o) v3).
  rewrite loop_filler by (try exact F4; try exact M4; discriminate). rewrite app_length in M4.
  match goal with |- context [loop num ?a ?b v4 (lct ++ ?r)] => destruct (loop_table 4 (r_ct o) lct a b v4 r pitch tsr ltac:(lia) TT eq_refl eq_refl L2 ltac:(lia)) as (i5 & u5 & E5 & M5) end. rewrite E5. clear E5 M4. set (v5 := set_t 4 (r_ct o) v4).
  rewrite loop_filler by (try exact F5; try exact M5; discriminate). rewrite app_length in M5.
  match goal with |- context [loop num ?a ?b v5 (lcq ++ ?r)] => destruct (loop_table 5 (r_cq o) lcq a b v5 r pitch tsr ltac:(lia) TQ eq_refl eq_refl L3 ltac:(lia)) as (i6 & u6 & E6 & M6) end. rewrite E6. clear E6 M5. set (v6 := set_t 5 (r_cq o) v5).
  rewrite <- (app_nil_r f6) in M6 |- *. rewrite loop_filler by (try exact F6; try exact M6; discriminate). rewrite loop_end. cbn [bind v6 v5 v4 v3 set_t v_cp v_ct v_cq v_pitch v_tsr v_ws]. rewrite <- P, <- T. destruct o; reflexivity.
Qed.
(** A file whose first twelve lines have no section is refused *)
Theorem C77_no_pitch_refused : forall text f0 r, file_lines text = f0 ++ r -> Forall filler f0 -> List.length f0 = 12 -> rosco_load num text = Err WrongFormatError.
Proof.
  intros text f0 r E F L. unfold rosco_load. rewrite E. do 12 (destruct f0 as [|? f0]; [discriminate L|]). destruct f0; [|discriminate L]. repeat match goal with H : Forall _ (_ :: _) |- _ => apply Forall_cons_iff in H; destruct H end.
  cbn [app List.length loop]. repeat (rewrite step_filler by assumption; cbn [bind loc0 v_pitch Nat.ltb Nat.leb]). reflexivity.
Qed.
(** The tables: the row of a tip speed ratio starts with it; one column for each pitch angle *)
Theorem C77_tables : forall (f2 : V -> str) o pitch tsr, r_pitch o = Some pitch -> r_tsr o = Some tsr ->
  List.length (r_cp o) = List.length tsr -> List.length (r_ct o) = List.length tsr -> List.length (r_cq o) = List.length tsr ->
  exists cp ct cq, rosco_tables f2 o = Ok (S_ "TSR_[-]" :: map (fun p => S_ "Pitch_" ++ f2 p ++ S_ "_[deg]") pitch, [(S_ "CP", cp); (S_ "CT", ct); (S_ "CQ", cq)]) /\
    forall m m', In (m, m') [(r_cp o, cp); (r_ct o, ct); (r_cq o, cq)] -> map (@tl V) m' = m /\ map (@hd_error V) m' = map Some tsr.
Proof.
  intros f2 o pitch tsr P T L1 L2 L3. unfold rosco_tables, stack. rewrite P, T, L1, L2, L3, !Nat.eqb_refl. cbn [bind]. do 3 eexists. split; [reflexivity|].
  assert (G : forall m : list (list V), List.length m = List.length tsr -> map (@tl V) (map (fun q => fst q :: snd q) (combine tsr m)) = m /\ map (@hd_error V) (map (fun q => fst q :: snd q) (combine tsr m)) = map Some tsr).
  { clear. induction tsr as [|t ts IH]; intros [|x m] L; try discriminate L; [split; reflexivity|]. injection L as L. destruct (IH m L) as [A B]. cbn [combine map fst snd tl hd_error]. rewrite A, B. split; reflexivity. }
  intros m m' [K|[K|[K|[]]]]; apply pair_equal_spec in K; destruct K as [<- <-]; apply G; assumption.
Qed.
(** An empty file is reported by a NameError: the exception for empty files is not defined in this module *)
Theorem C77_empty_file_refuted : forall f p (d : bytes -> str), f p = Reg [] -> rosco_read num f p d = Err NameError.
Proof. intros f p d H. unfold rosco_read. rewrite H. reflexivity. Qed.
End S.

(** ** Examples *)
Definition ex_rosco : str := join [nl] [S_ "# ----- Rotor performance tables -----"; []; S_ "# Pitch angle vector - x axis (matrix columns) (deg)"; S_ "-1.0   0.0   1.0"; S_ "# TSR vector - y axis"; S_ "3.0    4.0"; S_ "# Wind speed vector - z axis (m/s)"; S_ "11.4    "; [];
  S_ "# Power coefficient"; []; S_ "1   2   3   "; S_ "4 5 6"; []; S_ "#  Thrust coefficient"; []; S_ "7 8 9"; S_ "10 11 12"; []; S_ "# Torque coefficient"; []; S_ "13 14 15"; S_ "16 17 18"; []].
Definition ex_rosco_o : rosco str := mk_rosco (Some [S_ "-1.0"; S_ "0.0"; S_ "1.0"]) (Some [S_ "3.0"; S_ "4.0"]) (Some [S_ "11.4"]) [[S_ "1"; S_ "2"; S_ "3"]; [S_ "4"; S_ "5"; S_ "6"]] [[S_ "7"; S_ "8"; S_ "9"]; [S_ "10"; S_ "11"; S_ "12"]] [[S_ "13"; S_ "14"; S_ "15"]; [S_ "16"; S_ "17"; S_ "18"]].
Lemma filler_b l : forallb (fun w => negb (contains l w)) words = true -> filler l.
Proof. intros H w W K. rewrite forallb_forall in H. specialize (H w W). apply mentions_b in K. rewrite K in H. discriminate H. Qed.
Lemma title_by k l w : nth_error words k = Some w -> contains l w = true -> forallb (fun j => negb (match nth_error words j with Some u => contains l u | None => false end)) (seq 0 k) = true -> title k l.
Proof.
  intros A B C. split; [exists w; split; [exact A|apply mentions_b; exact B]|]. intros j u J U K. rewrite forallb_forall in C. specialize (C j). rewrite U in C. apply mentions_b in K. rewrite K in C. assert (D : negb true = true) by (apply C, in_seq; lia). discriminate D.
Qed.
Example C77_example : performance (fun w => Some w) ex_rosco_o (file_lines ex_rosco).
Proof.
  constructor. eexists _, _, [S_ "# ----- Rotor performance tables -----"; []], [], [], [[]], [[]], [[]], [], _, _, _, _, _, _.
  split; [change (file_lines ex_rosco) with ([S_ "# ----- Rotor performance tables -----"; []] ++ [S_ "# Pitch angle vector - x axis (matrix columns) (deg)"; S_ "-1.0   0.0   1.0"] ++ [] ++ [S_ "# TSR vector - y axis"; S_ "3.0    4.0"] ++ [] ++ [S_ "# Wind speed vector - z axis (m/s)"; S_ "11.4    "] ++ [[]] ++ [S_ "# Power coefficient"; []; S_ "1   2   3   "; S_ "4 5 6"] ++ [[]] ++ [S_ "#  Thrust coefficient"; []; S_ "7 8 9"; S_ "10 11 12"] ++ [[]] ++ [S_ "# Torque coefficient"; []; S_ "13 14 15"; S_ "16 17 18"] ++ []); reflexivity|].
  split; [cbn [app]; repeat (apply Forall_cons; [apply filler_b; vm_compute; reflexivity|]); apply Forall_nil|]. split; [cbn; lia|]. split; [reflexivity|]. split; [reflexivity|].
  assert (NB : forall (l : str) vs, split_ws l = vs -> numbers (fun w : str => Some w) l vs) by (intros l vs <-; unfold Profile_Props.numbers; induction (split_ws l); constructor; [reflexivity|assumption]).
  split; [do 2 eexists; split; [reflexivity|split; [eapply title_by; vm_compute; reflexivity|apply NB; vm_compute; reflexivity]]|].
  split; [do 2 eexists; split; [reflexivity|split; [eapply title_by; vm_compute; reflexivity|apply NB; vm_compute; reflexivity]]|].
  split; [do 2 eexists; split; [reflexivity|split; [eapply title_by; vm_compute; reflexivity|apply NB; vm_compute; reflexivity]]|].
  do 3 (split; [do 3 eexists; split; [reflexivity|split; [eapply title_by; vm_compute; reflexivity|repeat (apply Forall2_cons; [split; [apply NB; vm_compute; reflexivity|reflexivity]|]); apply Forall2_nil]]|]).
  repeat split.
Qed.
(** A title of a table that also names the tip speed ratios is taken for the vector: the table is then missing *)
Theorem C77_title_order_refuted : exists text, In (S_ "# Power coefficient (rows: TSR)") (file_lines text) /\ rosco_load (fun w => Some w) text = Err UnboundLocalError.
Proof.
  exists (join [nl] [S_ "# Pitch angle"; S_ "0"; S_ "# TSR"; S_ "3"; S_ "# Power coefficient (rows: TSR)"; []; S_ "1"]). split; [vm_compute; tauto|vm_compute; reflexivity].
Qed.
(** A row with one number only is not reported: the number fills the row; any other number of values is refused *)
Definition short_rosco (row : string) : str := join [nl] [S_ "# Pitch angle"; S_ "0 1 2"; S_ "# TSR"; S_ "3"; S_ "# Wind speed"; S_ "9"; S_ "# Power"; []; S_ row; S_ "# Thrust"; []; S_ "4 5 6"; S_ "# Torque"; []; S_ "7 8 9"].
Theorem C77_short_row_refuted : (exists o, rosco_load (fun w => Some w) (short_rosco "1") = Ok o /\ r_cp o = [[S_ "1"; S_ "1"; S_ "1"]]) /\
  rosco_load (fun w => Some w) (short_rosco "1 2") = Err ValueError /\ rosco_load (fun w => Some w) (short_rosco "1 2 3 4") = Err ValueError /\ rosco_load (fun w => Some w) (short_rosco "") = Err ValueError.
Proof. split; [eexists; split; vm_compute; reflexivity|]. repeat split; vm_compute; reflexivity. Qed.
Print Assumptions C77_short_row_refuted.
Print Assumptions C77_reads_performance.
Print Assumptions C77_no_pitch_refused.
Print Assumptions C77_tables.
Print Assumptions C77_empty_file_refuted.
Print Assumptions C77_title_order_refuted.
