(** Proofs about polar interpolation. *)
From Verif Require Import Py PyFacts ListFacts FASTOut_Model AEPC_Model.
From Coq Require Import QArith Lia Lqa Sorting.Sorted.
Local Open Scope nat_scope.

Lemma sorted_nth xs : StronglySorted Qlt xs -> forall i j x y, i < j -> nth_error xs i = Some x -> nth_error xs j = Some y -> (x < y)%Q.
Proof.
  induction 1 as [|a xs H IH HA]; intros i j x y L Hi Hj; [destruct i; discriminate|].
  destruct j as [|j]; [lia|]. destruct i as [|i].
  - cbn in *. injection Hi as <-. rewrite Forall_forall in HA. apply HA. eapply nth_error_In; eauto.
  - cbn in *. apply (IH i j); auto; lia.
Qed.
Lemma searchsorted_is xs x : forall k, k <= List.length xs ->
  (forall j y, nth_error xs j = Some y -> (j < k -> (y < x)%Q) /\ (k <= j -> (x <= y)%Q)) -> searchsorted xs x = k.
Proof.
  unfold searchsorted. induction xs as [|a xs IH]; intros k L H; [cbn in *; lia|]. cbn [filter].
  destruct k as [|k].
  - assert (x <= a)%Q by (apply (H 0 a eq_refl); lia).
    assert (E : Qle_bool x a = true) by now apply Qle_bool_iff. rewrite E. cbn [negb]. apply IH; [lia|].
    intros j y Hj. split; [lia|]. intros _. apply (H (S j) y Hj). lia.
  - assert (a < x)%Q by (apply (H 0 a eq_refl); lia).
    destruct (Qle_bool x a) eqn:E; [apply Qle_bool_iff in E; lra|]. cbn [negb List.length]. f_equal. apply IH; [cbn in L; lia|].
    intros j y Hj. destruct (H (S j) y Hj) as [A B]. split; intros; [apply A|apply B]; lia.
Qed.
Lemma two_of {A} (l : list A) k a b : nth_error l k = Some a -> nth_error l (S k) = Some b -> firstn 2 (skipn k l) = [a; b].
Proof.
  revert l. induction k as [|k IH]; intros [|x l] H1 H2; try discriminate.
  - destruct l; [discriminate|]. cbn in *. congruence.
  - cbn [skipn]. apply IH; assumption.
Qed.

(** Between two neighbouring thicknesses (the upper one included). *)
Lemma Cxxx_between ths profs k th0 th1 p0 p1 t alpha col c0 c1 :
  StronglySorted Qlt ths -> nth_error ths k = Some th0 -> nth_error ths (S k) = Some th1 ->
  nth_error profs k = Some p0 -> nth_error profs (S k) = Some p1 ->
  interp alpha (columns col p0) = Ok c0 -> interp alpha (columns col p1) = Ok c1 ->
  (th0 < t <= th1)%Q ->
  Cxxx ths profs t alpha col = Ok (Some (c0 + (c1 - c0) * (t - th0) / (th1 - th0))%Q).
Proof.
  intros S H0 H1 P0 P1 I0 I1 [L U]. unfold Cxxx.
  assert (E : searchsorted ths t = Datatypes.S k).
  { apply searchsorted_is. { apply Nat.lt_le_incl. apply nth_error_Some. congruence. }
    intros j y Hj. split; intros Hk.
    - destruct (Nat.eq_dec j k) as [->|N]; [assert (y = th0) by congruence; subst; assumption|].
      assert (y < th0)%Q by (apply (sorted_nth ths S j k); auto; lia). lra.
    - destruct (Nat.eq_dec j (Datatypes.S k)) as [->|N]; [assert (y = th1) by congruence; subst; assumption|].
      assert (th1 < y)%Q by (apply (sorted_nth ths S (Datatypes.S k) j); auto; lia). lra. }
  rewrite E. cbn [Nat.eqb]. replace (Datatypes.S k - 1) with k by lia.
  rewrite (two_of _ _ _ _ P0 P1), (two_of _ _ _ _ H0 H1), I0, I1. cbn [bind].
  assert (th0 < th1)%Q by (apply (sorted_nth ths S k (Datatypes.S k)); auto).
  destruct (Qeq_bool th1 th0) eqn:Q; [apply Qeq_bool_iff in Q; lra|reflexivity].
Qed.
(** At or below the first thickness. *)
Lemma Cxxx_below ths profs th0 th1 p0 p1 t alpha col c0 c1 :
  StronglySorted Qlt ths -> nth_error ths 0 = Some th0 -> nth_error ths 1 = Some th1 ->
  nth_error profs 0 = Some p0 -> nth_error profs 1 = Some p1 ->
  interp alpha (columns col p0) = Ok c0 -> interp alpha (columns col p1) = Ok c1 ->
  (t <= th0)%Q ->
  Cxxx ths profs t alpha col = Ok (Some (c0 + (c1 - c0) * (t - th0) / (th1 - th0))%Q).
Proof.
  intros S H0 H1 P0 P1 I0 I1 U. unfold Cxxx.
  assert (E : searchsorted ths t = 0).
  { apply searchsorted_is; [lia|]. intros j y Hj. split; [lia|]. intros _.
    destruct j as [|j]; [assert (y = th0) by congruence; subst; assumption|].
    assert (th0 < y)%Q by (apply (sorted_nth ths S 0 (Datatypes.S j)); auto; lia). lra. }
  rewrite E. cbn [Nat.eqb Nat.sub].
  rewrite (two_of _ _ _ _ P0 P1), (two_of _ _ _ _ H0 H1), I0, I1. cbn [bind].
  assert (th0 < th1)%Q by (apply (sorted_nth ths S 0 1); auto).
  destruct (Qeq_bool th1 th0) eqn:Q; [apply Qeq_bool_iff in Q; lra|reflexivity].
Qed.
(** Above the last thickness, or with one profile only: the two-element unpacking fails. *)
Lemma Cxxx_above ths profs t alpha col : (forall y, In y ths -> (y < t)%Q) -> List.length profs = List.length ths -> ths <> [] ->
  Cxxx ths profs t alpha col = Err ValueError.
Proof.
  intros H L N. unfold Cxxx.
  assert (E : searchsorted ths t = List.length ths).
  { apply searchsorted_is; [lia|]. intros j y Hj. split; [intros _; apply H; eapply nth_error_In; eauto|].
    intros K. assert (j < List.length ths) by (apply nth_error_Some; congruence). lia. }
  rewrite E. destruct ths as [|a ths]; [congruence|]. cbn [List.length Nat.eqb]. cbn [List.length] in L.
  assert (K : List.length (skipn (Datatypes.S (List.length ths) - 1) profs) = 1) by (rewrite skipn_length; lia).
  destruct (skipn _ profs) as [|x [|y l]]; try discriminate. reflexivity.
Qed.
Lemma Cxxx_single th p t alpha col : Cxxx [th] [p] t alpha col = Err ValueError.
Proof. unfold Cxxx, searchsorted. cbn [filter]. destruct (negb _); reflexivity. Qed.

(** ** np.interp on an increasing table *)
Lemma interp_from_at tab : forall x0 y0, StronglySorted Qlt (x0 :: map fst tab) -> forall x y,
  ((x0, y0) = (x, y) \/ In (x, y) tab) -> (interp_from x x0 y0 tab == y)%Q.
Proof.
  induction tab as [|[x1 y1] tab IH]; intros x0 y0 S x y H.
  - destruct H as [H|[]]. injection H as -> ->. reflexivity.
  - cbn [map fst] in S. inversion S as [|? ? S1 HA]; subst. cbn [interp_from].
    destruct H as [H|H].
    + injection H as -> ->. destruct (Qle_bool x1 x) eqn:E.
      * apply Qle_bool_iff in E. inversion HA; subst. lra.
      * inversion HA; subst. assert (~ (x1 - x == 0)%Q) by lra. field. assumption.
    + assert (L : (x1 <= x)%Q).
      { destruct H as [H|H]; [injection H as -> ->; apply Qle_refl|]. inversion S1 as [|? ? _ HB]; subst.
        rewrite Forall_forall in HB. apply Qlt_le_weak, HB. apply in_map_iff. exists (x, y). auto. }
      assert (E : Qle_bool x1 x = true) by now apply Qle_bool_iff. rewrite E. apply IH; assumption.
Qed.
Lemma interp_at tab x y : StronglySorted Qlt (map fst tab) -> In (x, y) tab -> exists v, interp x tab = Ok v /\ (v == y)%Q.
Proof.
  intros S H. destruct tab as [|[x0 y0] tab]; [easy|]. cbn [map fst] in S. cbn [interp].
  assert (L : (x0 <= x)%Q).
  { destruct H as [H|H]; [injection H as -> ->; apply Qle_refl|]. inversion S as [|? ? _ HB]; subst.
    rewrite Forall_forall in HB. apply Qlt_le_weak, HB. apply in_map_iff. exists (x, y). auto. }
  assert (E : Qle_bool x0 x = true) by now apply Qle_bool_iff. rewrite E. eexists. split; [reflexivity|].
  apply interp_from_at; [assumption|]. destruct H as [H|H]; auto.
Qed.
Lemma interp_between tab : StronglySorted Qlt (map fst tab) -> forall k x0 y0 x1 y1 x,
  nth_error tab k = Some (x0, y0) -> nth_error tab (S k) = Some (x1, y1) -> (x0 <= x < x1)%Q ->
  interp x tab = Ok (y0 + (y1 - y0) / (x1 - x0) * (x - x0))%Q.
Proof.
  assert (K : forall tab a b, StronglySorted Qlt (a :: map fst tab) -> forall k x0 y0 x1 y1 x,
    nth_error ((a, b) :: tab) k = Some (x0, y0) -> nth_error ((a, b) :: tab) (S k) = Some (x1, y1) -> (x0 <= x < x1)%Q ->
    interp_from x a b tab = (y0 + (y1 - y0) / (x1 - x0) * (x - x0))%Q).
  { clear tab. induction tab as [|[c d] tab IH]; intros a b S k x0 y0 x1 y1 x H0 H1 [L U].
    - destruct k; discriminate.
    - cbn [interp_from]. destruct k as [|k].
      + cbn in H0, H1. injection H0 as <- <-. injection H1 as <- <-.
        destruct (Qle_bool c x) eqn:E; [apply Qle_bool_iff in E; lra|reflexivity].
      + cbn [map fst] in S. inversion S as [|? ? S1 HA]; subst.
        assert (LC : (c <= x0)%Q).
        { destruct k as [|k]; [cbn in H0; injection H0 as <- <-; apply Qle_refl|]. apply Qlt_le_weak.
          apply (sorted_nth _ S1 0 (Datatypes.S k)); [lia|reflexivity|]. cbn. cbn in H0. now rewrite (map_nth_error fst _ _ H0). }
        assert (E : Qle_bool c x = true) by (apply Qle_bool_iff; lra). rewrite E.
        apply (IH c d S1 k); auto. }
  intros S k x0 y0 x1 y1 x H0 H1 [L U]. destruct tab as [|[a b] tab]; [destruct k; discriminate|]. cbn [interp].
  assert (LC : (a <= x0)%Q).
  { destruct k as [|k]; [cbn in H0; injection H0 as <- <-; apply Qle_refl|]. apply Qlt_le_weak.
    apply (sorted_nth _ S 0 (Datatypes.S k)); [lia|reflexivity|]. now rewrite (map_nth_error fst _ _ H0). }
  assert (E : Qle_bool a x = true) by (apply Qle_bool_iff; lra). rewrite E. f_equal. apply (K tab a b S k); auto.
Qed.
Lemma interp_total tab x : tab <> [] -> exists v, interp x tab = Ok v.
Proof. destruct tab as [|[a b] tab]; [congruence|]. intros _. cbn. destruct (Qle_bool a x); eauto. Qed.
Lemma interp_outside_left a b tab x : (x < a)%Q -> interp x ((a, b) :: tab) = Ok b.
Proof. intros L. cbn. destruct (Qle_bool a x) eqn:E; [apply Qle_bool_iff in E; lra|reflexivity]. Qed.
Lemma interp_outside_right tab a b x : (forall p, In p (tab ++ [(a, b)]) -> (fst p <= x)%Q) -> interp x (tab ++ [(a, b)]) = Ok b.
Proof.
  assert (K : forall tab c d, (forall p, In p (tab ++ [(a, b)]) -> (fst p <= x)%Q) -> interp_from x c d (tab ++ [(a, b)]) = b).
  { clear tab. induction tab as [|[e f] tab IH]; intros c d H; cbn [app interp_from].
    - assert (E : Qle_bool a x = true) by (apply Qle_bool_iff, (H (a, b)); now left). now rewrite E.
    - assert (E : Qle_bool e x = true) by (apply Qle_bool_iff, (H (e, f)); now left). rewrite E. apply IH.
      intros p Hp. apply H. now right. }
  intros H. destruct tab as [|[c d] tab]; cbn [app interp].
  - assert (E : Qle_bool a x = true) by (apply Qle_bool_iff, (H (a, b)); now left). now rewrite E.
  - assert (E : Qle_bool c x = true) by (apply Qle_bool_iff, (H (c, d)); now left). rewrite E. f_equal. apply K.
    intros p Hp. apply H. now right.
Qed.
