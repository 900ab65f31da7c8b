(** Properties C28, C29, C30 and C55 (HAWC2 AE and PC files). *)
From Verif Require Import Py PyFacts ListFacts FASTOut_Model H2io_Model AEPC_Model AEPC_Proofs AEPC_Interp.
From Coq Require Import QArith Lia Lqa Sorting.Sorted.
Local Open Scope nat_scope.

(** ** C28: AE sets *)

(** add_set without a number, on every collection of sets: with columns of equal length it succeeds, the
    number returned is the smallest positive one not in use, the new table is stored under it, and no other
    entry changes. *)
Definition columns_of {F} (t : list (list F)) (a b c d : list F) : Prop :=
  List.length t = List.length a /\
  forall i row, nth_error t i = Some row ->
    exists x y z w, row = [x; y; z; w] /\
      nth_error a i = Some x /\ nth_error b i = Some y /\ nth_error c i = Some z /\ nth_error d i = Some w.
Lemma rows4_columns F (a b c d : list F) :
  List.length b = List.length a -> List.length c = List.length a -> List.length d = List.length a ->
  columns_of (rows4 a b c d) a b c d.
Proof.
  revert b c d. induction a as [|x a IH]; intros [|y b] [|z c] [|w d] Hb Hc Hd; try discriminate.
  - split; [reflexivity|]. intros [|i] row H; discriminate H.
  - destruct (IH b c d) as [L R]; try (cbn in *; congruence). split; [cbn in *; congruence|].
    intros [|i] row H; cbn in H.
    + injection H as <-. exists x, y, z, w. auto.
    + exact (R i row H).
Qed.
Theorem C28_add_set_number : forall (F : Type) (sets : list (Z * list (list F))) a b c d,
  List.length b = List.length a -> List.length c = List.length a -> List.length d = List.length a ->
  exists sets' k t, add_set sets a b c d None = (sets', Ok k) /\
    (1 <= k)%Z /\ ~ In k (keys sets) /\ (forall j, (1 <= j < k)%Z -> In j (keys sets)) /\
    zget sets' k = Some t /\ columns_of t a b c d /\
    forall j, j <> k -> zget sets' j = zget sets j.
Proof.
  intros F sets a b c d Hb Hc Hd. pose proof (rows4_columns F a b c d Hb Hc Hd) as RC.
  unfold add_set. unfold table4. rewrite Hb, Hc, Hd, Nat.eqb_refl. cbn [andb].
  destruct (free_id (S (List.length sets)) sets 1) as [k|] eqn:E.
  - destruct (free_id_spec _ _ _ _ E) as (A & B & C). exists (zset sets k (rows4 a b c d)), k, (rows4 a b c d).
    split; [reflexivity|]. split; [assumption|]. split; [assumption|]. split; [assumption|].
    split; [apply zget_zset_same|]. split; [exact RC|].
    intros j Hj. now apply zget_zset_other.
  - now apply free_id_enough in E.
Qed.
Print Assumptions C28_add_set_number.
(** With an explicit number that entry is replaced and no other; and a failed call changes nothing. *)
Theorem C28_add_set_explicit : forall (F : Type) (sets : list (Z * list (list F))) a b c d k,
  List.length b = List.length a -> List.length c = List.length a -> List.length d = List.length a ->
  let '(sets', r) := add_set sets a b c d (Some k) in
  r = Ok k /\ (exists t, zget sets' k = Some t /\ columns_of t a b c d) /\ forall j, j <> k -> zget sets' j = zget sets j.
Proof.
  intros F sets a b c d k Hb Hc Hd. pose proof (rows4_columns F a b c d Hb Hc Hd) as RC. unfold add_set, table4. rewrite Hb, Hc, Hd, Nat.eqb_refl. cbn [andb].
  split; [reflexivity|]. split; [eexists; split; [apply zget_zset_same|exact RC]|]. intros j Hj. now apply zget_zset_other.
Qed.
Print Assumptions C28_add_set_explicit.
Theorem C28_add_set_failure : forall (F : Type) (sets : list (Z * list (list F))) a b c d id e,
  snd (add_set sets a b c d id) = Err e -> fst (add_set sets a b c d id) = sets /\ e = ValueError.
Proof.
  intros F sets a b c d id e. unfold add_set.
  destruct id as [k|].
  - unfold table4. destruct (_ && _ && _); cbn; intros H; [discriminate|]. split; congruence.
  - destruct (free_id (S (List.length sets)) sets 1) eqn:E; [|now apply free_id_enough in E].
    unfold table4. destruct (_ && _ && _); cbn; intros H; [discriminate|]. split; congruence.
Qed.
Print Assumptions C28_add_set_failure.

(** Every history of add_set calls without a number keeps every set that was there at any point. *)
Definition add_req (F : Type) : Type := (list F * list F * list F * list F)%type.
Fixpoint add_all {F} (sets : list (Z * list (list F))) (ops : list (add_req F)) : list (Z * list (list F)) :=
  match ops with
  | [] => sets
  | (a, b, c, d) :: ops' => add_all (fst (add_set sets a b c d None)) ops'
  end.
Theorem C28_history_keeps_sets : forall (F : Type) (ops : list (add_req F)) sets k t,
  zget sets k = Some t -> zget (add_all sets ops) k = Some t.
Proof.
  intros F ops. induction ops as [|[[[a b] c] d] ops IH]; intros sets k t H; [exact H|]. cbn [add_all]. apply IH.
  unfold add_set. destruct (free_id (S (List.length sets)) sets 1) as [k'|] eqn:E; [|exact H].
  destruct (table4 a b c d); [|exact H]. cbn [fst]. rewrite zget_zset_other; [exact H|].
  intros ->. destruct (free_id_spec _ _ _ _ E) as (_ & B & _). apply B. apply zmem_iff. unfold zmem. now rewrite H.
Qed.
Print Assumptions C28_history_keeps_sets.

(** Save and re-read.  [e17], [trunc] and [float_] are Python's '%.17e', the conversion of '%d' and float();
    the entries of the first three columns are written and read exactly (17 decimals identify a double) and
    the fourth column holds integers.  Then every set comes back under its number with the same rows in the
    same order. *)
Theorem C28_round_trip : forall (F : Type) (e17 : F -> str) (trunc : F -> res Z) (float_ : str -> res F) (ofZ : Z -> F) sets,
  (forall z, float_ (str_of_Z z) = Ok (ofZ z)) ->
  NoDup (keys sets) ->
  (forall k t row, In (k, t) sets -> In row t ->
     exists x y z n, row = [x; y; z; ofZ n] /\ trunc (ofZ n) = Ok n /\
       forall v, In v [x; y; z] -> is_token (e17 v) = true /\ float_ (e17 v) = Ok v) ->
  exists text, ae_str F e17 trunc sets = Ok text /\ ae_read F float_ text = Some (Ok sets).
Proof.
  intros F e17 trunc float_ ofZ sets HZ ND H. apply (ae_roundtrip e17 trunc float_ ofZ HZ); [|assumption].
  apply ae_corr_refl. apply Forall_forall. intros [k t] Hk. apply Forall_forall. intros row Hr.
  destruct (H k t row Hk Hr) as (x & y & z & n & E & T & V). exists x, y, z, (ofZ n), n. unfold exact17.
  repeat split; try assumption; apply V; cbn; auto.
Qed.
Print Assumptions C28_round_trip.
(** A fourth column entry that is not an integer is truncated, everything else is kept: the re-read file is
    [sets'] whenever each row of [sets'] is the row of [sets] with its last entry replaced by its integer part. *)
Theorem C28_truncated_set_number : forall (F : Type) (e17 : F -> str) (trunc : F -> res Z) (float_ : str -> res F) (ofZ : Z -> F) sets sets',
  (forall z, float_ (str_of_Z z) = Ok (ofZ z)) ->
  NoDup (keys sets) ->
  Forall2 (fun a b => fst b = fst a /\
     Forall2 (fun row row' => exists x y z w n, row = [x; y; z; w] /\ row' = [x; y; z; ofZ n] /\
        exact17 e17 float_ x /\ exact17 e17 float_ y /\ exact17 e17 float_ z /\ trunc w = Ok n) (snd a) (snd b)) sets sets' ->
  exists text, ae_str F e17 trunc sets = Ok text /\ ae_read F float_ text = Some (Ok sets').
Proof. intros F e17 trunc float_ ofZ sets sets' HZ ND H. now apply (ae_roundtrip e17 trunc float_ ofZ HZ). Qed.
Print Assumptions C28_truncated_set_number.

Example C28_example :
  let t := [[0; 3; 100; 1]; [-5; 2; 24; 2]]%Z in
  let s := fst (add_set (fst (add_set [(2%Z, t); (1%Z, [])] [7] [8] [9] [4] None)) [1] [1] [1] [1; 2] None)%Z in
  s = [(2, t); (1, []); (3, [[7; 8; 9; 4]])]%Z /\ NoDup (keys s) /\
  (exists text, ae_str Z str_of_Z (@Ok Z) s = Ok text /\ ae_read Z int_ text = Some (Ok s)) /\
  snd (add_set [(2%Z, t); (1%Z, [])] [7] [8] [9] [4] None)%Z = Ok 3%Z.
Proof.
  repeat split.
  - vm_compute. repeat constructor; cbn; intuition discriminate.
  - apply (C28_round_trip Z str_of_Z (@Ok Z) int_ (fun z => z)).
    + exact int_str_of_Z.
    + vm_compute. repeat constructor; cbn; intuition discriminate.
    + intros k t row Hk Hr. cbn in Hk. destruct Hk as [Hk|[Hk|[Hk|[]]]]; injection Hk as <- <-; cbn in Hr;
        repeat destruct Hr as [Hr|Hr]; try contradiction; subst row; do 4 eexists; (split; [reflexivity|]; split; [reflexivity|]);
        intros v _; (split; [apply str_of_Z_token|apply int_str_of_Z]).
Qed.

(** ** C55: the list of sets of an AE file object *)

(** When the numbers in use are exactly 1..n, [sets] (and toDataFrame) gives every set, in the order of the
    numbers; otherwise it raises KeyError. *)
Theorem C55_sets_partial : forall (V : Type) (s : list (Z * V)), NoDup (keys s) ->
  (forall k, (1 <= k <= Z.of_nat (List.length s))%Z -> In k (keys s)) ->
  exists l, ae_list s = Ok l /\ List.length l = List.length s /\ (forall p, In p s -> In (snd p) l) /\
            forall i, i < List.length s -> nth_error l i = zget s (Z.of_nat i + 1).
Proof. intros V s ND. exact (proj1 (ae_list_iff s ND)). Qed.
Print Assumptions C55_sets_partial.
Theorem C55_gap_refuted : forall (V : Type) (s : list (Z * V)) k, NoDup (keys s) ->
  (1 <= k <= Z.of_nat (List.length s))%Z -> ~ In k (keys s) -> ae_list s = Err KeyError.
Proof. intros V s k ND. exact (proj2 (ae_list_iff s ND) k). Qed.
Print Assumptions C55_gap_refuted.
Example C55_example : ae_list [(2%Z, 20); (1%Z, 10)] = Ok [10; 20] /\ ae_list [(2%Z, 20)] = Err KeyError.
Proof. vm_compute. auto. Qed.

(** ** C29: labels of PC sets *)

(** What survives saving and re-reading: all sets with all their profiles, in order, but under the labels 1..n.
    [reads8]/[reads15]: the written text of a thickness ('%1.08f') or coefficient ('%.15e') reads as the
    second number. *)
Theorem C29_contents : forall (F : Type) (float_ : str -> res F) (e15 f8 : F -> str) sets sets',
  Forall2 (fun a b => pcset_ok float_ e15 f8 (snd a) (snd b)) sets sets' ->
  exists text, pc_str F e15 f8 sets = Ok text /\ pc_read F float_ text = Some (Ok (renumber 1 sets')).
Proof. intros. now apply pc_roundtrip. Qed.
Print Assumptions C29_contents.
(** So labels are kept when they are 1..n in this order and the numbers are representable ... *)
Theorem C29_labels_partial : forall (F : Type) (float_ : str -> res F) (e15 f8 : F -> str) sets,
  Forall (fun p => pcset_ok float_ e15 f8 (snd p) (snd p)) sets ->
  keys sets = map (fun i => (1 + Z.of_nat i)%Z) (seq 0 (List.length sets)) ->
  exists text, pc_str F e15 f8 sets = Ok text /\ pc_read F float_ text = Some (Ok sets).
Proof.
  intros F float_ e15 f8 sets H K. destruct (C29_contents F float_ e15 f8 sets sets) as (text & A & B).
  { clear K. induction H; constructor; assumption. }
  exists text. split; [assumption|]. now rewrite (renumber_id _ _ K) in B.
Qed.
Print Assumptions C29_labels_partial.
(** ... and lost for every other collection. *)
Theorem C29_labels_lost_refuted : forall (F : Type) (float_ : str -> res F) (e15 f8 : F -> str) sets,
  Forall (fun p => pcset_ok float_ e15 f8 (snd p) (snd p)) sets ->
  keys sets <> map (fun i => (1 + Z.of_nat i)%Z) (seq 0 (List.length sets)) ->
  exists text s', pc_str F e15 f8 sets = Ok text /\ pc_read F float_ text = Some (Ok s') /\ keys s' <> keys sets.
Proof.
  intros F float_ e15 f8 sets H K. destruct (C29_contents F float_ e15 f8 sets sets) as (text & A & B).
  { clear K. induction H; constructor; assumption. }
  exists text. eexists. split; [exact A|]. split; [exact B|]. rewrite renumber_keys. congruence.
Qed.
Print Assumptions C29_labels_lost_refuted.
Example C29_example :
  let p := [[-180; 0; 0; 0]; [10; 1; 2; -3]]%Z in
  let s := [(7, ([21; 30], [p; [[1; 2; 3; 4]]])); (3, ([40], [p]))]%Z in
  Forall (fun q => pcset_ok int_ str_of_Z str_of_Z (snd q) (snd q)) s /\
  (exists text, pc_str Z str_of_Z str_of_Z s = Ok text /\ pc_read Z int_ text = Some (Ok [(1, snd (hd (0, ([], [])) s)); (2, ([40], [p]))]))%Z.
Proof.
  split.
  - repeat constructor; cbn; try apply str_of_Z_token; try apply int_str_of_Z.
  - eexists. split; vm_compute; reflexivity.
Qed.

(** ** C30: polar interpolation *)

(** The columns of a profile (rows: angle of attack, lift, drag, moment) and the three methods that read them. *)
Definition is_column (n : nat) (prof : list (list Q)) (tab : list (Q * Q)) : Prop :=
  Forall2 (fun row p => nth_error row 0 = Some (fst p) /\ nth_error row n = Some (snd p)) prof tab.
Inductive reads_column : (list (Z * (list Q * list (list (list Q)))) -> Q -> Q -> Z -> res (option Q)) -> nat -> Prop :=
| lift : reads_column CL 1
| drag : reads_column CD 2
| moment : reads_column CM 3.
Lemma is_column_eq n prof tab : is_column n prof tab -> columns n prof = tab.
Proof.
  induction 1 as [|row [x y] prof tab [H1 H2] _ IH]; [reflexivity|]. cbn [columns map fst snd] in *. f_equal; [|exact IH].
  f_equal; apply nth_error_nth; assumption.
Qed.
Lemma reads_column_eq f n sets k ths profs t alpha : reads_column f n -> zget sets k = Some (ths, profs) ->
  f sets t alpha k = Cxxx ths profs t alpha n.
Proof. intros R H. destruct R; unfold CL, CD, CM, coefficient; rewrite H; reflexivity. Qed.

(** For a table of increasing thicknesses: strictly between two neighbours (or at the upper one) the result is the
    convex combination of the two profiles' values. *)
Theorem C30_convex : forall f col sets nr ths profs k th0 th1 p0 p1 t alpha tab0 tab1 c0 c1,
  reads_column f col -> zget sets nr = Some (ths, profs) ->
  StronglySorted Qlt ths -> nth_error ths k = Some th0 -> nth_error ths (S k) = Some th1 ->
  nth_error profs k = Some p0 -> nth_error profs (S k) = Some p1 ->
  is_column col p0 tab0 -> is_column col p1 tab1 ->
  interp alpha tab0 = Ok c0 -> interp alpha tab1 = Ok c1 ->
  (th0 < t <= th1)%Q ->
  exists v w, f sets t alpha nr = Ok (Some v) /\
    (w == (t - th0) / (th1 - th0) /\ 0 <= w <= 1 /\ v == (1 - w) * c0 + w * c1)%Q.
Proof.
  intros f col sets nr ths profs k th0 th1 p0 p1 t alpha tab0 tab1 c0 c1 R Z S H0 H1 P0 P1 T0 T1 I0 I1 [L U].
  rewrite <- (is_column_eq _ _ _ T0) in I0. rewrite <- (is_column_eq _ _ _ T1) in I1.
  exists (c0 + (c1 - c0) * (t - th0) / (th1 - th0))%Q, ((t - th0) / (th1 - th0))%Q.
  split; [rewrite (reads_column_eq _ _ _ _ _ _ _ _ R Z); now apply (Cxxx_between ths profs k th0 th1 p0 p1)|].
  assert (D : (0 < th1 - th0)%Q) by lra.
  split; [reflexivity|]. split; [split|].
  - apply Qle_shift_div_l; lra.
  - apply Qle_shift_div_r; lra.
  - field. lra.
Qed.
Print Assumptions C30_convex.
(** At a tabulated thickness, first and last included, the result is that profile's value. *)
Theorem C30_tabulated : forall f col sets nr ths profs k th p t alpha tab c,
  reads_column f col -> zget sets nr = Some (ths, profs) ->
  StronglySorted Qlt ths -> List.length profs = List.length ths -> 2 <= List.length ths ->
  nth_error ths k = Some th -> nth_error profs k = Some p -> (t == th)%Q ->
  (forall q, In q profs -> q <> []) ->
  is_column col p tab -> interp alpha tab = Ok c ->
  exists v, f sets t alpha nr = Ok (Some v) /\ (v == c)%Q.
Proof.
  intros f col sets nr ths profs k th p t alpha tab c R Z S L L2 H P T NE T0 I.
  rewrite <- (is_column_eq _ _ _ T0) in I. rewrite (reads_column_eq _ _ _ _ _ _ _ _ R Z). clear R Z T0.
  assert (G : forall j, j < List.length ths -> exists q c', nth_error profs j = Some q /\ interp alpha (columns col q) = Ok c').
  { intros j Hj. destruct (nth_error profs j) as [q|] eqn:E; [|apply nth_error_None in E; lia].
    destruct (interp_total (columns col q) alpha) as [v Hv].
    - assert (Hq : q <> []) by (apply NE; eapply nth_error_In; eauto). destruct q; [congruence|discriminate].
    - exists q, v. auto. }
  destruct k as [|k].
  - destruct (nth_error ths 1) as [th1|] eqn:E1; [|apply nth_error_None in E1; lia].
    destruct (G 1) as (q & c' & Q1 & Q2); [lia|].
    exists (c + (c' - c) * (t - th) / (th1 - th))%Q. split.
    + apply (Cxxx_below ths profs th th1 p q); auto. lra.
    + assert (th < th1)%Q by (apply (sorted_nth ths S 0 1); auto). rewrite T. field. lra.
  - assert (K : k < List.length ths) by (assert (Datatypes.S k < List.length ths) by (apply nth_error_Some; congruence); lia).
    destruct (nth_error ths k) as [th0|] eqn:E0; [|apply nth_error_None in E0; lia].
    destruct (G k) as (q & c' & Q1 & Q2); [assumption|].
    assert (LT : (th0 < th)%Q) by (apply (sorted_nth ths S k (Datatypes.S k)); auto).
    exists (c' + (c - c') * (t - th0) / (th - th0))%Q. split.
    + apply (Cxxx_between ths profs k th0 th q p); auto. lra.
    + rewrite T. field. lra.
Qed.
Print Assumptions C30_tabulated.
(** Below the first thickness the first two profiles are extrapolated. *)
Theorem C30_below : forall f col sets nr ths profs th0 th1 p0 p1 t alpha tab0 tab1 c0 c1,
  reads_column f col -> zget sets nr = Some (ths, profs) ->
  StronglySorted Qlt ths -> nth_error ths 0 = Some th0 -> nth_error ths 1 = Some th1 ->
  nth_error profs 0 = Some p0 -> nth_error profs 1 = Some p1 ->
  is_column col p0 tab0 -> is_column col p1 tab1 ->
  interp alpha tab0 = Ok c0 -> interp alpha tab1 = Ok c1 ->
  (t < th0)%Q ->
  f sets t alpha nr = Ok (Some (c0 + (c1 - c0) * (t - th0) / (th1 - th0))%Q).
Proof.
  intros f col sets nr ths profs th0 th1 p0 p1 t alpha tab0 tab1 c0 c1 R Z S H0 H1 P0 P1 T0 T1 I0 I1 L.
  rewrite <- (is_column_eq _ _ _ T0) in I0. rewrite <- (is_column_eq _ _ _ T1) in I1.
  rewrite (reads_column_eq _ _ _ _ _ _ _ _ R Z). eapply Cxxx_below; eauto. lra.
Qed.
Print Assumptions C30_below.
(** An unknown set number is a KeyError. *)
Theorem C30_unknown_set : forall f col sets nr t alpha, reads_column f col -> zget sets nr = None ->
  f sets t alpha nr = Err KeyError.
Proof. intros f col sets nr t alpha R H. destruct R; unfold CL, CD, CM, coefficient; rewrite H; reflexivity. Qed.
Print Assumptions C30_unknown_set.
(** "A thickness outside the table never crashes" is false: above every tabulated thickness the call always
    raises ValueError, and a set with one profile raises it for every query. *)
Theorem C30_above_refuted : forall f col sets nr ths profs t alpha,
  reads_column f col -> zget sets nr = Some (ths, profs) ->
  (forall y, In y ths -> (y < t)%Q) -> List.length profs = List.length ths -> ths <> [] ->
  f sets t alpha nr = Err ValueError.
Proof. intros f col sets nr ths profs t alpha R Z. rewrite (reads_column_eq _ _ _ _ _ _ _ _ R Z). apply Cxxx_above. Qed.
Print Assumptions C30_above_refuted.
Theorem C30_single_profile_refuted : forall f col sets nr th p t alpha,
  reads_column f col -> zget sets nr = Some ([th], [p]) -> f sets t alpha nr = Err ValueError.
Proof. intros f col sets nr th p t alpha R Z. rewrite (reads_column_eq _ _ _ _ _ _ _ _ R Z). apply Cxxx_single. Qed.
Print Assumptions C30_single_profile_refuted.
(** The value of one profile: its table at a tabulated angle, linear in between, constant outside. *)
Theorem C30_profile_value : forall tab, StronglySorted Qlt (map fst tab) ->
  (forall x y, In (x, y) tab -> exists v, interp x tab = Ok v /\ (v == y)%Q) /\
  (forall k x0 y0 x1 y1 x, nth_error tab k = Some (x0, y0) -> nth_error tab (S k) = Some (x1, y1) -> (x0 <= x < x1)%Q ->
     interp x tab = Ok (y0 + (y1 - y0) / (x1 - x0) * (x - x0))%Q).
Proof. intros tab S. split; [intros; now apply interp_at|intros; eapply interp_between; eauto]. Qed.
Print Assumptions C30_profile_value.
Theorem C30_profile_outside : forall x,
  (forall a b tab, (x < a)%Q -> interp x ((a, b) :: tab) = Ok b) /\
  (forall tab a b, (forall p, In p (tab ++ [(a, b)]) -> (fst p <= x)%Q) -> interp x (tab ++ [(a, b)]) = Ok b).
Proof. intros x. split; [intros; now apply interp_outside_left|intros; now apply interp_outside_right]. Qed.
Print Assumptions C30_profile_outside.
Example C30_example :
  let p0 := [[-10; 0; 1; 2]; [10; 20; 3; 4]]%Q in let p1 := [[0; 100; 5; 6]]%Q in
  let sets := [(1%Z, ([21; 24; 30]%Q, [p0; p1; p0]))] in
  StronglySorted Qlt [21; 24; 30]%Q /\
  is_column 2 p0 [(-10, 1); (10, 3)]%Q /\
  match CL sets 22%Q 0%Q 1 with Ok (Some v) => (v == 40)%Q | _ => False end /\
  match CD sets 22%Q 0%Q 1 with Ok (Some v) => (v == 3)%Q | _ => False end /\
  match CM sets 24%Q 5%Q 1 with Ok (Some v) => (v == 6)%Q | _ => False end /\
  match CL sets 18%Q 0%Q 1 with Ok (Some v) => (v == -80)%Q | _ => False end /\
  CL sets 31%Q 0%Q 1 = Err ValueError /\ CL sets 24%Q 0%Q 2 = Err KeyError.
Proof.
  cbn zeta. split; [repeat constructor|]. split; [repeat constructor|]. vm_compute. auto 10.
Qed.
