(** Properties of the values of AE files along the blade and of the tables of AE and PC files. *)
From Verif Require Import Py PyFacts FASTOut_Model HTC_Model AEPC_Model.
From Verif Require AEPC_Interp HTC_Names.
From Verif Require Import AELook_Model.
From Coq Require Import QArith Qabs Lia Lqa Sorting.Sorted.
Local Open Scope nat_scope.

(** ** Specification *)
(** The first entry numbered [n] is [t]. *)
Definition set_is {V} (sets : list (Z * V)) (n : Z) (t : V) : Prop := exists a b, sets = a ++ (n, t) :: b /\ ~ In n (map fst a).
Definition no_set {V} (sets : list (Z * V)) (n : Z) : Prop := ~ In n (map fst sets).
(** The radii increase. *)
Definition radii (t : list (list Q)) : list Q := map (fun row => match row with r :: _ => r | [] => 0%Q end) t.
Definition increasing (t : list (list Q)) : Prop := StronglySorted Qlt (radii t).
(** The row [k] of [t] *)
Definition row_is (t : list (list Q)) (k : nat) (r c h s : Q) : Prop := nth_error t k = Some [r; c; h; s].
(** The row [k] is the first of those nearest to [r]. *)
Definition nearest_row (t : list (list Q)) (r : Q) (k : nat) (x : Q) : Prop :=
  nth_error (radii t) k = Some x /\ (forall y, In y (radii t) -> Qabs (x - r) <= Qabs (y - r))%Q /\
  (forall j y, (j < k)%nat -> nth_error (radii t) j = Some y -> Qabs (x - r) < Qabs (y - r))%Q.
Definition greatest (m : Q) (l : list Q) : Prop := In m l /\ forall y, In y l -> (y <= m)%Q.

(** ** Facts *)
Lemma zget_set {V} (sets : list (Z * V)) n t : set_is sets n t -> zget sets n = Some t.
Proof.
  intros (a & b & -> & H). induction a as [|[k v] a IH]; cbn [app zget]; [rewrite Z.eqb_refl; reflexivity|].
  destruct (k =? n)%Z eqn:E; [apply Z.eqb_eq in E; subst k; exfalso; apply H; left; reflexivity|]. apply IH. intro X. apply H. right. exact X.
Qed.
Lemma zget_none {V} (sets : list (Z * V)) n : no_set sets n -> zget sets n = None.
Proof.
  unfold no_set. induction sets as [|[k v] l IH]; intro H; [reflexivity|]. cbn [zget].
  destruct (k =? n)%Z eqn:E; [apply Z.eqb_eq in E; subst k; exfalso; apply H; left; reflexivity|]. apply IH. intro X. apply H. right. exact X.
Qed.
Lemma set_ok sets n t : set_is sets n t -> the_set sets n = Ok t.
Proof. intro H. unfold the_set. rewrite (zget_set sets n t H). reflexivity. Qed.
Lemma col_radii t : col t 0 = radii t.
Proof. unfold col, radii. apply map_ext. intros [|? ?]; reflexivity. Qed.
Lemma columns_radii c t : map fst (columns c t) = radii t.
Proof. unfold columns, radii. rewrite map_map. apply map_ext. intros [|? ?]; reflexivity. Qed.
Lemma columns_row t k r c h s j : row_is t k r c h s -> nth_error (columns j t) k = Some (r, nth j [r; c; h; s] 0%Q).
Proof. intro H. unfold columns. apply (map_nth_error (fun row => (nth 0 row 0%Q, nth j row 0%Q))) in H. exact H. Qed.
Lemma col_row t k r c h s j : row_is t k r c h s -> nth k (col t j) 0%Q = nth j [r; c; h; s] 0%Q.
Proof. intro H. unfold col. apply (map_nth_error (fun row => nth j row 0%Q)) in H. apply nth_error_nth. exact H. Qed.
Lemma radii_row t k r c h s : row_is t k r c h s -> nth_error (radii t) k = Some r.
Proof. intro H. unfold radii. apply (map_nth_error (fun row => match row with r :: _ => r | [] => 0%Q end)) in H. exact H. Qed.
Lemma argmin_spec l : l <> [] -> exists m, nth_error l (argmin l) = Some m /\ (forall y, In y l -> m <= y)%Q /\ (forall j y, (j < argmin l)%nat -> nth_error l j = Some y -> m < y)%Q.
Proof.
  induction l as [|x l IH]; intro N; [contradiction|]. cbn [argmin]. destruct (forallb (fun y => Qle_bool x y) l) eqn:E.
  - exists x. split; [reflexivity|]. split; [|intros j y J; lia]. intros y [<-|Y]; [apply Qle_refl|]. rewrite forallb_forall in E. apply Qle_bool_iff. apply E. exact Y.
  - assert (M : l <> []) by (destruct l; [discriminate E|discriminate]). destruct (IH M) as (m & A & B & C). exists m. split; [exact A|].
    assert (X : (m < x)%Q).
    { assert (Y : exists y, In y l /\ (y < x)%Q).
      { clear - E. induction l as [|y l IH]; [discriminate E|]. cbn [forallb] in E. destruct (Qle_bool x y) eqn:Z.
        - destruct (IH E) as (w & W1 & W2). exists w. split; [right; exact W1|exact W2].
        - exists y. split; [left; reflexivity|]. apply Qnot_le_lt. intro L. apply Qle_bool_iff in L. rewrite L in Z. discriminate Z. }
      destruct Y as (y & Y1 & Y2). specialize (B y Y1). lra. }
    split.
    + intros y [<-|Y]; [lra|apply B; exact Y].
    + intros [|j] y J H; [cbn in H; injection H as <-; exact X|]. apply (C j y); [lia|exact H].
Qed.
Lemma closest_spec t r : t <> [] -> exists k x, closest (col t 0) r = Ok k /\ nearest_row t r k x /\ nth k (col t 0) 0%Q = x.
Proof.
  intro N. rewrite col_radii. assert (M : radii t <> []) by (destruct t; [contradiction|discriminate]).
  assert (M2 : map (fun x => Qabs (x - r)) (radii t) <> []) by (destruct (radii t); [contradiction|discriminate]).
  destruct (argmin_spec _ M2) as (m & A & B & C). set (k := argmin (map (fun x => Qabs (x - r)) (radii t))) in *.
  rewrite nth_error_map in A. destruct (nth_error (radii t) k) as [x|] eqn:X; [|discriminate A]. cbn [option_map] in A. injection A as <-.
  exists k, x. split; [unfold closest; destruct (radii t); [contradiction|reflexivity]|]. split.
  - split; [exact X|]. split.
    + intros y Y. apply B. apply in_map_iff. exists y. split; [reflexivity|exact Y].
    + intros j y J Y. apply (C j); [exact J|]. rewrite nth_error_map, Y. reflexivity.
  - apply nth_error_nth. exact X.
Qed.
Lemma nearest_unique t r k x j y : nearest_row t r k x -> nearest_row t r j y -> k = j.
Proof.
  intros (A1 & A2 & A3) (B1 & B2 & B3). destruct (Nat.lt_trichotomy k j) as [L|[L|L]]; [|exact L|].
  - specialize (B3 k x L A1). specialize (A2 y (nth_error_In _ _ B1)). lra.
  - specialize (A3 j y L B1). specialize (B2 x (nth_error_In _ _ A1)). lra.
Qed.
Lemma maximum_spec l : forall m, greatest (maximum m l) (m :: l).
Proof.
  induction l as [|y l IH]; intro m; cbn [maximum]; [split; [left; reflexivity|]; intros y [<-|[]]; apply Qle_refl|].
  destruct (IH (if Qle_bool m y then y else m)) as (A & B). set (w := maximum (if Qle_bool m y then y else m) l) in *.
  destruct (Qle_bool m y) eqn:E.
  - split; [right; exact A|]. intros z [<-|Z]; [|apply B; exact Z]. apply Qle_bool_iff in E. specialize (B y (or_introl eq_refl)). lra.
  - split; [destruct A as [A|A]; [left; exact A|right; right; exact A]|]. intros z [<-|[<-|Z]]; [apply B; left; reflexivity| |apply B; right; exact Z].
    assert (L : (y < m)%Q) by (apply Qnot_le_lt; intro L; apply Qle_bool_iff in L; rewrite L in E; discriminate E). specialize (B m (or_introl eq_refl)). lra.
Qed.
Lemma greatest_eq m m' l : greatest m l -> greatest m' l -> (m == m')%Q.
Proof. intros (A & B) (C & D). specialize (B m' C). specialize (D m A). lra. Qed.
(** The two branches of pc_set_nr *)
Lemma set_step sets n t r m : set_is sets n t -> t <> [] -> greatest m (radii t) -> exists k x, nearest_row t r k x /\
  ((Qabs (x - r) < m / 10000)%Q -> pc_set_nr sets r n = Ok (nth k (col t 3) 0%Q)) /\
  ((m / 10000 <= Qabs (x - r))%Q -> pc_set_nr sets r n = Ok (nth (Nat.max 1 (searchsorted (radii t) r) - 1) (col t 3) 0%Q)).
Proof.
  intros S N G. destruct (closest_spec t r N) as (k & x & C & X & V). exists k, x. split; [exact X|].
  unfold pc_set_nr. rewrite (set_ok sets n t S). cbn [bind]. cbv zeta. rewrite col_radii in *. destruct (radii t) as [|x0 rs] eqn:R; [destruct t; [contradiction|discriminate R]|].
  rewrite C. cbn [bind]. rewrite V. pose proof (greatest_eq _ _ _ G (maximum_spec rs x0)) as E.
  split; intro H.
  - destruct (Qle_bool ((1 # 10000) * maximum x0 rs) (Qabs (x - r))) eqn:Q; [|reflexivity]. apply Qle_bool_iff in Q. exfalso.
    assert (W : (m / 10000 == (1 # 10000) * m)%Q) by (unfold Qdiv; rewrite Qmult_comm; reflexivity). rewrite W in H. rewrite <- E in Q. lra.
  - assert (Q : Qle_bool ((1 # 10000) * maximum x0 rs) (Qabs (x - r)) = true).
    { apply Qle_bool_iff. assert (W : (m / 10000 == (1 # 10000) * m)%Q) by (unfold Qdiv; rewrite Qmult_comm; reflexivity). rewrite W in H. rewrite <- E. exact H. }
    rewrite Q. reflexivity.
Qed.

(** ** Values along the blade *)
(** At the radius of a row the values are those of the row. *)
Theorem C154_at : forall sets n t k r c h s, set_is sets n t -> increasing t -> row_is t k r c h s ->
  (exists v, chord sets (Some r) n = Ok [v] /\ (v == c)%Q) /\ (exists v, thickness sets (Some r) n = Ok [v] /\ (v == h)%Q).
Proof.
  intros sets n t k r c h s S I R. unfold chord, thickness, value. rewrite (set_ok sets n t S). cbn [bind].
  split; [pose proof (columns_row t k r c h s 1 R) as X|pose proof (columns_row t k r c h s 2 R) as X]; apply nth_error_In in X;
    (apply AEPC_Interp.interp_at in X; [|rewrite columns_radii; exact I]; destruct X as (v & V1 & V2); exists v; rewrite V1; split; [reflexivity|exact V2]).
Qed.
(** Between two rows they are those of the straight line. *)
Theorem C154_between : forall sets n t k r c h s r' c' h' s' x, set_is sets n t -> increasing t -> row_is t k r c h s -> row_is t (S k) r' c' h' s' -> (r <= x < r')%Q ->
  chord sets (Some x) n = Ok [(c + (c' - c) / (r' - r) * (x - r))%Q] /\ thickness sets (Some x) n = Ok [(h + (h' - h) / (r' - r) * (x - r))%Q].
Proof.
  intros sets n t k r c h s r' c' h' s' x S I R R' X. unfold chord, thickness, value. rewrite (set_ok sets n t S). cbn [bind].
  rewrite (AEPC_Interp.interp_between (columns 1 t) (eq_ind_r (StronglySorted Qlt) I (columns_radii 1 t)) k _ _ _ _ x (columns_row _ _ _ _ _ _ 1 R) (columns_row _ _ _ _ _ _ 1 R') X).
  rewrite (AEPC_Interp.interp_between (columns 2 t) (eq_ind_r (StronglySorted Qlt) I (columns_radii 2 t)) k _ _ _ _ x (columns_row _ _ _ _ _ _ 2 R) (columns_row _ _ _ _ _ _ 2 R') X).
  split; reflexivity.
Qed.
(** Inside and outside of the blade they are those of the first and the last row. *)
Theorem C154_ends : forall sets n t r c h s x, set_is sets n t -> increasing t ->
  (row_is t 0 r c h s -> (x < r)%Q -> chord sets (Some x) n = Ok [c] /\ thickness sets (Some x) n = Ok [h]) /\
  (row_is t (List.length t - 1) r c h s -> (r <= x)%Q -> chord sets (Some x) n = Ok [c] /\ thickness sets (Some x) n = Ok [h]).
Proof.
  intros sets n t r c h s x S I. unfold chord, thickness, value. rewrite (set_ok sets n t S). cbn [bind]. split.
  - intros R X. destruct t as [|row t]; [discriminate R|]. unfold row_is in R. cbn in R. injection R as ->. cbn [columns map nth].
    unfold columns. cbn [map nth]. rewrite !AEPC_Interp.interp_outside_left by exact X. split; reflexivity.
  - intros R X. destruct (exists_last (l := t)) as (t' & row & ->); [intros ->; discriminate R|].
    unfold row_is in R. rewrite app_length in R. cbn [List.length] in R. rewrite Nat.add_sub in R. rewrite nth_error_app2, Nat.sub_diag in R by lia. cbn in R. injection R as ->.
    assert (L : forall y, In y (radii (t' ++ [[r; c; h; s]])) -> (y <= x)%Q).
    { unfold increasing in I. unfold radii in *. rewrite map_app in *. cbn [map] in *. intros y Y. apply in_app_iff in Y. destruct Y as [Y|[<-|[]]]; [|exact X].
      destruct (In_nth_error _ _ Y) as (j & J). assert (JL : j < List.length (map (fun row => match row with r :: _ => r | [] => 0%Q end) t')) by (apply nth_error_Some; rewrite J; discriminate).
      assert (Z : (y < r)%Q); [|lra]. eapply (AEPC_Interp.sorted_nth _ I j (List.length (map (fun row => match row with r :: _ => r | [] => 0%Q end) t'))); [exact JL|rewrite nth_error_app1 by exact JL; exact J|].
      rewrite nth_error_app2, Nat.sub_diag by lia. reflexivity. }
    unfold columns. rewrite !map_app. cbn [map nth].
    rewrite !AEPC_Interp.interp_outside_right; [split; reflexivity| |].
    + intros p P. apply L. rewrite <- (columns_radii 2). unfold columns. rewrite map_app. apply in_map. exact P.
    + intros p P. apply L. rewrite <- (columns_radii 1). unfold columns. rewrite map_app. apply in_map. exact P.
Qed.
(** Without a radius the whole columns are given, and a set that is not there is a KeyError. *)
Theorem C154_whole : forall sets n t, set_is sets n t -> (forall row, In row t -> List.length row = 4) ->
  exists cs hs rs, chord sets None n = Ok cs /\ thickness sets None n = Ok hs /\ radius_ae sets None n = Ok rs /\
    List.length cs = List.length t /\ List.length hs = List.length t /\ List.length rs = List.length t /\
    forall k r c h s, row_is t k r c h s -> nth_error rs k = Some r /\ nth_error cs k = Some c /\ nth_error hs k = Some h.
Proof.
  intros sets n t S L. unfold chord, thickness, radius_ae, value. rewrite (set_ok sets n t S). cbn [bind]. exists (col t 1), (col t 2), (col t 0). cbv zeta.
  split; [reflexivity|]. split; [reflexivity|]. split; [reflexivity|]. unfold col. rewrite !map_length. split; [reflexivity|]. split; [reflexivity|]. split; [reflexivity|].
  intros k r c h s R. rewrite !nth_error_map. unfold row_is in R. rewrite R. split; [reflexivity|split; reflexivity].
Qed.
Theorem C154_unknown : forall sets n o r, no_set sets n -> chord sets o n = Err KeyError /\ thickness sets o n = Err KeyError /\ radius_ae sets o n = Err KeyError /\ pc_set_nr sets r n = Err KeyError.
Proof.
  intros sets n o r H. unfold chord, thickness, radius_ae, pc_set_nr, value, the_set. rewrite (zget_none sets n H). split; [reflexivity|]. split; [reflexivity|]. split; reflexivity.
Qed.
(** The radius of the file that is nearest to a radius, and the first of those. *)
Theorem C154_nearest : forall sets n t r, set_is sets n t -> t <> [] -> ~ (r == 0)%Q -> exists k x, radius_ae sets (Some r) n = Ok [x] /\ nearest_row t r k x.
Proof.
  intros sets n t r S N Z. destruct (closest_spec t r N) as (k & x & C & X & V). exists k, x. split; [|exact X].
  unfold radius_ae. rewrite (set_ok sets n t S). cbn [bind]. cbv zeta. destruct (Qeq_bool r 0) eqn:E; [apply Qeq_bool_iff in E; contradiction|].
  rewrite C. cbn [bind]. rewrite V. reflexivity.
Qed.
(** FINDING: the radius zero counts as none: all radii are returned. *)
Theorem C154_zero_refuted : forall sets n t r, set_is sets n t -> (r == 0)%Q -> radius_ae sets (Some r) n = Ok (radii t).
Proof.
  intros sets n t r S Z. unfold radius_ae. rewrite (set_ok sets n t S). cbn [bind]. cbv zeta. apply Qeq_bool_iff in Z. rewrite Z, col_radii. reflexivity.
Qed.
(** ** The set of profiles *)
(** Near a row, nearer than a ten thousandth of the greatest radius, its set is used. *)
Theorem C154_set_near : forall sets n t r m k x c h s, set_is sets n t -> greatest m (radii t) -> nearest_row t r k x -> (Qabs (x - r) < m / 10000)%Q -> row_is t k x c h s ->
  pc_set_nr sets r n = Ok s.
Proof.
  intros sets n t r m k x c h s S G X L R. assert (N : t <> []) by (intros ->; destruct k; discriminate R).
  destruct (set_step sets n t r m S N G) as (j & y & Y & A & _). pose proof (nearest_unique t r k x j y X Y) as E. subst j.
  assert (E : y = x) by (destruct X as (X1 & _); destruct Y as (Y1 & _); rewrite X1 in Y1; injection Y1 as <-; reflexivity). subst y.
  rewrite (A L), (col_row t k x c h s 3 R). reflexivity.
Qed.
Lemma near_zero x r : (x == r)%Q -> (Qabs (x - r) == 0)%Q.
Proof. intro E. rewrite E. setoid_replace (r - r)%Q with 0%Q by ring. reflexivity. Qed.
(** At the radius of a row its set is used. *)
Theorem C154_set_at : forall sets n t k r c h s m, set_is sets n t -> increasing t -> greatest m (radii t) -> (0 < m)%Q -> row_is t k r c h s -> pc_set_nr sets r n = Ok s.
Proof.
  intros sets n t k r c h s m S I G P R. pose proof (radii_row t k r c h s R) as K. apply (C154_set_near sets n t r m k r c h s S G); [| |exact R].
  - pose proof (near_zero r r (Qeq_refl r)) as Z. split; [exact K|]. split; [intros y _; pose proof (Qabs_nonneg (y - r)); lra|].
    intros j y J Y. pose proof (AEPC_Interp.sorted_nth _ I j k y r J Y K) as L. pose proof (Qabs_nonneg (y - r)) as A.
    apply Qle_lteq in A. destruct A as [A|A]; [lra|]. exfalso. pose proof (Qle_Qabs (- (y - r))) as B. rewrite Qabs_opp, <- A in B. lra.
  - rewrite (near_zero r r (Qeq_refl r)). unfold Qdiv. rewrite Qmult_comm. change (/ 10000)%Q with (1 # 10000)%Q. lra.
Qed.
Definition far (t : list (list Q)) (r m : Q) : Prop := forall y, In y (radii t) -> (m / 10000 <= Qabs (y - r))%Q.
Lemma far_step sets n t r m : set_is sets n t -> t <> [] -> greatest m (radii t) -> far t r m ->
  pc_set_nr sets r n = Ok (nth (Nat.max 1 (searchsorted (radii t) r) - 1) (col t 3) 0%Q).
Proof.
  intros S N G F. destruct (set_step sets n t r m S N G) as (k & x & (X & _) & _ & B). apply B. apply F. eapply nth_error_In. exact X.
Qed.
(** Elsewhere the set of the row before is used, and before the first row that of the first. *)
Theorem C154_set_between : forall sets n t k r c h s r' c' h' s' x m, set_is sets n t -> increasing t -> greatest m (radii t) -> far t x m ->
  row_is t k r c h s -> row_is t (S k) r' c' h' s' -> (r < x < r')%Q -> pc_set_nr sets x n = Ok s.
Proof.
  intros sets n t k r c h s r' c' h' s' x m S I G F R R' (X1 & X2). assert (N : t <> []) by (intros ->; destruct k; discriminate R).
  rewrite (far_step sets n t x m S N G F). pose proof (radii_row _ _ _ _ _ _ R) as K. pose proof (radii_row _ _ _ _ _ _ R') as K'.
  rewrite (AEPC_Interp.searchsorted_is (radii t) x (Datatypes.S k)).
  - replace (Nat.max 1 (Datatypes.S k) - 1) with k by lia. rewrite (col_row t k r c h s 3 R). reflexivity.
  - apply Nat.lt_le_incl. apply nth_error_Some. rewrite K'. discriminate.
  - intros j y Y. split; intro J.
    + destruct (Nat.eq_dec j k) as [->|J2]; [rewrite K in Y; injection Y as <-; exact X1|]. pose proof (AEPC_Interp.sorted_nth _ I j k y r ltac:(lia) Y K). lra.
    + destruct (Nat.eq_dec j (Datatypes.S k)) as [->|J2]; [rewrite K' in Y; injection Y as <-; lra|]. pose proof (AEPC_Interp.sorted_nth _ I (Datatypes.S k) j r' y ltac:(lia) K' Y). lra.
Qed.
Theorem C154_set_ends : forall sets n t r c h s x m, set_is sets n t -> increasing t -> greatest m (radii t) -> far t x m ->
  (row_is t 0 r c h s -> (x < r)%Q -> pc_set_nr sets x n = Ok s) /\ (row_is t (List.length t - 1) r c h s -> (r < x)%Q -> pc_set_nr sets x n = Ok s).
Proof.
  intros sets n t r c h s x m S I G F. split; intros R X; assert (N : t <> []) by (intros ->; discriminate R);
    rewrite (far_step sets n t x m S N G F); pose proof (radii_row _ _ _ _ _ _ R) as K.
  - rewrite (AEPC_Interp.searchsorted_is (radii t) x 0).
    + replace (Nat.max 1 0 - 1) with 0 by lia. rewrite (col_row t 0 r c h s 3 R). reflexivity.
    + apply Nat.le_0_l.
    + intros j y Y. split; intro J; [lia|]. destruct j as [|j]; [rewrite K in Y; injection Y as <-; lra|]. pose proof (AEPC_Interp.sorted_nth _ I 0 (Datatypes.S j) r y ltac:(lia) K Y). lra.
  - assert (L : List.length (radii t) = List.length t) by (unfold radii; apply map_length).
    assert (P : 0 < List.length t) by (destruct t; [contradiction|cbn; lia]).
    rewrite (AEPC_Interp.searchsorted_is (radii t) x (List.length t)).
    + replace (Nat.max 1 (List.length t) - 1) with (List.length t - 1) by lia. rewrite (col_row _ _ _ _ _ _ 3 R). reflexivity.
    + rewrite L. apply le_n.
    + intros j y Y. assert (J : j < List.length t) by (rewrite <- L; apply nth_error_Some; rewrite Y; discriminate). split; intro J'; [|lia].
      destruct (Nat.eq_dec j (List.length t - 1)) as [->|J2]; [rewrite K in Y; injection Y as <-; exact X|]. pose proof (AEPC_Interp.sorted_nth _ I j (List.length t - 1) y r ltac:(lia) Y K). lra.
Qed.

(** ** Tables of AE files *)
Lemma map_res_seq {B} (f : nat -> res B) (g : nat -> B) k : forall a, (forall i, (a <= i < a + k)%nat -> f i = Ok (g i)) -> map_res f (seq a k) = Ok (map g (seq a k)).
Proof.
  induction k as [|k IH]; intros a H; [reflexivity|]. cbn [seq map_res map]. rewrite (H a) by lia. cbn [bind]. rewrite (IH (S a)) by (intros i L; apply H; lia). reflexivity.
Qed.
Lemma map_res_key {B} (f : nat -> res B) k : forall a, (forall i, (a <= i < a + k)%nat -> f i = Err KeyError \/ exists y, f i = Ok y) -> (exists i, (a <= i < a + k)%nat /\ f i = Err KeyError) -> map_res f (seq a k) = Err KeyError.
Proof.
  induction k as [|k IH]; intros a H (i & L & E); [lia|]. cbn [seq map_res]. destruct (H a ltac:(lia)) as [A|(y & A)]; rewrite A; [reflexivity|]. cbn [bind].
  rewrite (IH (S a)); [reflexivity|intros j J; apply H; lia|]. exists i. split; [|exact E]. destruct (Nat.eq_dec i a) as [->|X]; [rewrite A in E; discriminate E|lia].
Qed.
Lemma the_set_key sets n : the_set sets n = Err KeyError \/ exists y, the_set sets n = Ok y.
Proof. unfold the_set. destruct (zget sets n) as [t|]; [right; exists t; reflexivity|left; reflexivity]. Qed.
(** One set numbered one gives its table alone. *)
Theorem C154_one : forall t, ae_tables [(1%Z, t)] = Ok (OneTable t) /\ ae_list [(1%Z, t)] = Ok [t].
Proof. intro t. split; reflexivity. Qed.
(** Sets numbered from one on give their tables in the order of their numbers, whatever their order in the file. *)
Theorem C154_tables : forall sets ts, List.length ts = List.length sets -> (forall i t, nth_error ts i = Some t -> set_is sets (Z.of_nat i + 1) t) ->
  ae_list sets = Ok ts /\
  (List.length sets <> 1 -> exists l, ae_tables sets = Ok (Tables l) /\ List.length l = List.length sets /\
     forall i t, nth_error ts i = Some t -> nth_error l i = Some (S_ "ae_set_" ++ str_of_Z (Z.of_nat i + 1), t)).
Proof.
  intros sets ts L H. assert (F : forall i, (0 <= i < 0 + List.length sets)%nat -> the_set sets (Z.of_nat i + 1) = Ok (nth i ts [])).
  { intros i I. apply set_ok. apply H. apply nth_error_nth'. lia. }
  split.
  - unfold ae_list. rewrite (map_res_seq _ (fun i => nth i ts []) _ _ F). f_equal. rewrite <- L. clear. induction ts as [|t ts IH]; [reflexivity|].
    cbn [List.length seq map nth]. f_equal. rewrite <- seq_shift, map_map. exact IH.
  - intro N. unfold ae_tables. apply Nat.eqb_neq in N. rewrite N.
    rewrite (map_res_seq _ (fun i => (S_ "ae_set_" ++ str_of_N (N.of_nat (i + 1)), nth i ts []))).
    + cbn [bind]. eexists. split; [reflexivity|]. rewrite map_length, seq_length. split; [reflexivity|]. intros i t T.
      assert (I : i < List.length sets) by (rewrite <- L; apply nth_error_Some; rewrite T; discriminate).
      rewrite nth_error_map. rewrite (nth_error_nth' _ 0) by (rewrite seq_length; exact I). rewrite seq_nth by exact I. cbn [option_map plus].
      rewrite (nth_error_nth _ _ _ T). f_equal. f_equal. f_equal. replace (Z.of_nat i + 1)%Z with (Z.of_N (N.of_nat (i + 1))) by lia.
      destruct (N.of_nat (i + 1)); reflexivity.
    + intros i I. rewrite (F i I). reflexivity.
Qed.
(** FINDING: when a number from one to the number of sets is missing there are no tables at all. *)
Theorem C154_tables_refuted : forall sets i, (1 <= i <= Z.of_nat (List.length sets))%Z -> no_set sets i -> ae_tables sets = Err KeyError /\ ae_list sets = Err KeyError.
Proof.
  intros sets i I H. assert (E : the_set sets i = Err KeyError) by (unfold the_set; rewrite (zget_none sets i H); reflexivity).
  assert (P : (0 <= Z.to_nat (i - 1) < 0 + List.length sets)%nat) by lia. assert (Q : (Z.of_nat (Z.to_nat (i - 1)) + 1 = i)%Z) by lia.
  unfold ae_tables, ae_list. split.
  - destruct (List.length sets =? 1) eqn:L; [apply Nat.eqb_eq in L; assert (i = 1%Z) as -> by lia; rewrite E; reflexivity|].
    rewrite map_res_key; [reflexivity| |exists (Z.to_nat (i - 1)); split; [exact P|rewrite Q, E; reflexivity]].
    intros j _. destruct (the_set_key sets (Z.of_nat j + 1)) as [X|(y & X)]; rewrite X; [left; reflexivity|right; eexists; reflexivity].
  - apply map_res_key; [intros j _; apply the_set_key|]. exists (Z.to_nat (i - 1)). split; [exact P|rewrite Q; exact E].
Qed.

(** ** Tables of PC files *)
(** The polars of a file in order, with the names of their tables *)
Definition polars (fmt : Q -> str) (fmtz : Z -> str) (sets : list (Z * (list Q * list (list (list Q))))) : list (str * list (list Q)) :=
  concat (map (fun e => map (fun tp => (S_ "pc_set_" ++ fmtz (fst e) ++ S_ "_t_" ++ fmt (fst tp), snd tp)) (combine (fst (snd e)) (snd (snd e)))) sets).
(** Every thickness has a polar. *)
Definition complete (sets : list (Z * (list Q * list (list (list Q))))) : Prop := forall n vt vp, In (n, (vt, vp)) sets -> List.length vt <= List.length vp.
Definition put (l d : list (str * rows)) : list (str * rows) := fold_left (fun d e => dset d (fst e) (snd e)) l d.
Lemma put_app a b d : put (a ++ b) d = put b (put a d).
Proof. apply fold_left_app. Qed.
Lemma pc_add_ok fmt fmtz n vt : forall vp d, List.length vt <= List.length vp ->
  pc_add fmt fmtz d n vt vp = Ok (put (map (fun tp => (S_ "pc_set_" ++ fmtz n ++ S_ "_t_" ++ fmt (fst tp), snd tp)) (combine vt vp)) d).
Proof.
  induction vt as [|t vt IH]; intros [|p vp] d L; cbn [List.length] in L; try lia; [reflexivity|reflexivity|]. cbn [pc_add]. rewrite IH by lia. reflexivity.
Qed.
Lemma pc_add_short fmt fmtz n vt : forall vp d, List.length vp < List.length vt -> pc_add fmt fmtz d n vt vp = Err IndexError.
Proof.
  induction vt as [|t vt IH]; intros [|p vp] d L; cbn [List.length] in L; try lia; [reflexivity|]. cbn [pc_add]. apply IH. lia.
Qed.
Lemma pc_tables_ok fmt fmtz sets : forall d, complete sets -> pc_tables_from fmt fmtz d sets = Ok (put (polars fmt fmtz sets) d).
Proof.
  induction sets as [|[n [vt vp]] sets IH]; intros d H; [reflexivity|]. cbn [pc_tables_from].
  rewrite pc_add_ok by (apply (H n); left; reflexivity). cbn [bind]. rewrite IH by (intros m a b I; apply (H m); right; exact I).
  unfold polars. cbn [map concat fst snd]. rewrite put_app. reflexivity.
Qed.
Lemma put_new l : forall d, NoDup (map fst (d ++ l)) -> put l d = d ++ l.
Proof.
  induction l as [|[k v] l IH]; intros d H; [cbn; rewrite app_nil_r; reflexivity|]. cbn [put fold_left fst snd].
  assert (N : ~ In k (map fst d)). { rewrite map_app in H. cbn [map fst] in H. apply NoDup_remove_2 in H. intro X. apply H. apply in_app_iff. left. exact X. }
  change (put l (dset d k v) = d ++ (k, v) :: l). rewrite (HTC_Names.dset_new d k v N). rewrite IH; [rewrite <- app_assoc; reflexivity|]. rewrite <- app_assoc. exact H.
Qed.
(** Polars of different names give one table each, in order. *)
Theorem C154_pc : forall fmt fmtz sets, complete sets -> NoDup (map fst (polars fmt fmtz sets)) -> pc_tables fmt fmtz sets = Ok (polars fmt fmtz sets).
Proof. intros fmt fmtz sets H N. unfold pc_tables. rewrite (pc_tables_ok fmt fmtz sets [] H). f_equal. apply put_new. exact N. Qed.
Lemma put_other l : forall d k, ~ In k (map fst l) -> dget (put l d) k = dget d k.
Proof.
  induction l as [|[j v] l IH]; intros d k H; [reflexivity|]. cbn [put fold_left fst snd]. change (dget (put l (dset d j v)) k = dget d k).
  rewrite IH by (intro X; apply H; right; exact X). apply HTC_Names.dget_dset_other. intros ->. apply H. left. reflexivity.
Qed.
(** FINDING: of polars of one name only the last has a table. *)
Theorem C154_pc_same_refuted : forall fmt fmtz sets, complete sets -> exists d, pc_tables fmt fmtz sets = Ok d /\
  (forall a k p b, polars fmt fmtz sets = a ++ (k, p) :: b -> ~ In k (map fst b) -> dget d k = Some p) /\
  (forall k, ~ In k (map fst (polars fmt fmtz sets)) -> dget d k = None).
Proof.
  intros fmt fmtz sets H. eexists. unfold pc_tables. rewrite (pc_tables_ok fmt fmtz sets [] H). split; [reflexivity|]. split.
  - intros a k p b E N. rewrite E, put_app. cbn [put fold_left fst snd]. change (dget (put b (dset (put a []) k p)) k = Some p). rewrite put_other by exact N. apply HTC_Names.dget_dset_same.
  - intros k N. rewrite put_other by exact N. reflexivity.
Qed.
(** A set with fewer polars than thicknesses is an IndexError, after complete sets too. *)
Theorem C154_pc_short : forall fmt fmtz a n vt vp b, complete a -> List.length vp < List.length vt -> pc_tables fmt fmtz (a ++ (n, (vt, vp)) :: b) = Err IndexError.
Proof.
  intros fmt fmtz a n vt vp b H L. unfold pc_tables. generalize (@nil (str * rows)) as d. induction a as [|[m [wt wp]] a IH]; intro d; cbn [app pc_tables_from].
  - rewrite pc_add_short by exact L. reflexivity.
  - rewrite pc_add_ok by (apply (H m); left; reflexivity). cbn [bind]. apply IH. intros j x y I. apply (H j). right. exact I.
Qed.

(** ** Examples *)
Definition blade : list (list Q) := [[0; 1; 100; 1]; [2; 3; 80; 1]; [10; 2; 40; 2]]%Q.
Example set_met : set_is [(1%Z, blade)] 1 blade.
Proof. exists [], []. split; [reflexivity|intros []]. Qed.
Example increasing_met : increasing blade.
Proof. unfold increasing, blade. cbn [radii map]. repeat (constructor; [|repeat constructor; reflexivity]). constructor. Qed.
Example row_met : row_is blade 1 2 3 80 1 /\ row_is blade 2 10 2 40 2.
Proof. split; reflexivity. Qed.
Example greatest_met : greatest 10 (radii blade) /\ far blade 5 10.
Proof.
  split; [split; [right; right; left; reflexivity|]; intros y [<-|[<-|[<-|[]]]]; discriminate|]. intros y [<-|[<-|[<-|[]]]]; discriminate.
Qed.
Example nearest_met : nearest_row blade 3 1 2.
Proof.
  split; [reflexivity|]. split; [intros y [<-|[<-|[<-|[]]]]; discriminate|]. intros [|j] y J Y; [cbn in Y; injection Y as <-; reflexivity|lia].
Qed.
Example values_1 : chord [(1%Z, blade)] (Some 2%Q) 1 = Ok [3 + (2 - 3) / (10 - 2) * (2 - 2)]%Q /\ radius_ae [(1%Z, blade)] (Some 3%Q) 1 = Ok [2%Q] /\ radius_ae [(1%Z, blade)] (Some 0%Q) 1 = Ok [0; 2; 10]%Q /\
  pc_set_nr [(1%Z, blade)] 5 1 = Ok 1%Q /\ pc_set_nr [(1%Z, blade)] (9999 # 1000) 1 = Ok 1%Q /\ pc_set_nr [(1%Z, blade)] (99999 # 10000) 1 = Ok 2%Q /\ pc_set_nr [(1%Z, blade)] 20 1 = Ok 2%Q.
Proof. vm_compute. repeat split; reflexivity. Qed.
Example tables_met : set_is [(2%Z, blade); (1%Z, [])] (Z.of_nat 0 + 1) [] /\ set_is [(2%Z, blade); (1%Z, [])] (Z.of_nat 1 + 1) blade.
Proof. split; [exists [(2%Z, blade)], []; split; [reflexivity|]; intros [X|[]]; discriminate X|exists [], [(1%Z, [])]; split; [reflexivity|intros []]]. Qed.
Example tables_1 : ae_tables [(2%Z, blade); (1%Z, [])] = Ok (Tables [(S_ "ae_set_1", []); (S_ "ae_set_2", blade)]) /\ ae_tables [(2%Z, blade)] = Err KeyError.
Proof. split; vm_compute; reflexivity. Qed.
Example missing_met : no_set [(2%Z, blade)] 1 /\ (1 <= 1 <= Z.of_nat (List.length [(2%Z, blade)]))%Z.
Proof. split; [intros [X|[]]; discriminate X|cbn; lia]. Qed.
Example complete_met : complete [(1%Z, ([21; 24]%Q, [blade; []]))].
Proof. intros n vt vp [E|[]]. injection E as <- <- <-. reflexivity. Qed.
Example pc_1 : pc_tables (fun q => str_of_Z (Qnum q)) str_of_Z [(1%Z, ([21; 24]%Q, [blade; []]))] = Ok [(S_ "pc_set_1_t_21", blade); (S_ "pc_set_1_t_24", [])] /\
  pc_tables (fun q => str_of_Z (Qnum q)) str_of_Z [(1%Z, ([24; 24]%Q, [blade; []]))] = Ok [(S_ "pc_set_1_t_24", [])].
Proof. split; vm_compute; reflexivity. Qed.
Print Assumptions C154_at.
Print Assumptions C154_between.
Print Assumptions C154_ends.
Print Assumptions C154_whole.
Print Assumptions C154_unknown.
Print Assumptions C154_nearest.
Print Assumptions C154_zero_refuted.
Print Assumptions C154_set_near.
Print Assumptions C154_set_at.
Print Assumptions C154_set_between.
Print Assumptions C154_set_ends.
Print Assumptions C154_one.
Print Assumptions C154_tables.
Print Assumptions C154_tables_refuted.
Print Assumptions C154_pc.
Print Assumptions C154_pc_same_refuted.
Print Assumptions C154_pc_short.
