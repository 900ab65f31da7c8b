(** Proofs on boxes of wind. *)
From Verif Require Import Py PyFacts ListFacts FS Bytes Float Registry_Model MannBox_Model TurbSim_Model.
From Verif Require Import WindBox_Model WindBox_Spec.
From Coq Require Import QArith Qround Qminmax Qabs Lqa ZifyNat.
Local Open Scope nat_scope.

Lemma nth_map_lt {A B} (f : A -> B) l i da db : i < List.length l -> nth i (map f l) db = f (nth i l da).
Proof. intro H. rewrite (nth_indep _ db (f da)) by (rewrite map_length; exact H). apply map_nth. Qed.
Lemma nth_map_seq {B} (f : nat -> B) n i d : i < n -> nth i (map f (seq 0 n)) d = f i.
Proof. intro H. rewrite (nth_map_lt f _ i 0 d) by (rewrite seq_length; exact H). f_equal. rewrite seq_nth by exact H. reflexivity. Qed.

(** *** argmin *)
Definition first_min (l : list Q) (i : nat) : Prop :=
  i < List.length l /\ (forall j, j < List.length l -> (nth i l 0 <= nth j l 0)%Q) /\ (forall j, j < i -> (nth i l 0 < nth j l 0)%Q).
Lemma argmin_from_ok : forall l pre best ib, first_min pre ib -> nth ib pre 0%Q = best ->
  first_min (pre ++ l) (argmin_from best ib (List.length pre) l).
Proof.
  induction l as [|a l IH]; intros pre best ib (H1 & H2 & H3) Hb; cbn.
  - rewrite app_nil_r. split; [exact H1|split; assumption].
  - assert (E : pre ++ a :: l = (pre ++ [a]) ++ l) by (rewrite <- app_assoc; reflexivity).
    assert (L : S (List.length pre) = List.length (pre ++ [a])) by (rewrite app_length; cbn; lia).
    rewrite E, L. destruct (Qle_bool best a) eqn:C.
    + apply IH; [|rewrite app_nth1 by exact H1; exact Hb].
      apply Qle_bool_iff in C. split; [rewrite app_length; lia|]. rewrite app_nth1 by exact H1. rewrite Hb. split.
      * intros j Hj. rewrite app_length in Hj. cbn in Hj. destruct (Nat.lt_ge_cases j (List.length pre)) as [Q1|Q1].
        -- rewrite app_nth1 by exact Q1. rewrite <- Hb. exact (H2 j Q1).
        -- replace j with (List.length pre) by lia. rewrite app_nth2 by lia. rewrite Nat.sub_diag. exact C.
      * intros j Hj. rewrite app_nth1 by lia. rewrite <- Hb. exact (H3 j Hj).
    + assert (C' : (a < best)%Q). { apply Qnot_le_lt. intro X. apply Qle_bool_iff in X. congruence. }
      apply IH; [|rewrite app_nth2 by lia; rewrite Nat.sub_diag; reflexivity].
      split; [rewrite app_length; cbn; lia|]. rewrite app_nth2 by lia. rewrite Nat.sub_diag. cbn [nth]. split.
      * intros j Hj. rewrite app_length in Hj. cbn in Hj. destruct (Nat.lt_ge_cases j (List.length pre)) as [Q1|Q1].
        -- rewrite app_nth1 by exact Q1. specialize (H2 j Q1). rewrite Hb in H2. lra.
        -- replace j with (List.length pre) by lia. rewrite app_nth2 by lia. rewrite Nat.sub_diag. apply Qle_refl.
      * intros j Hj. rewrite app_nth1 by exact Hj. specialize (H2 j Hj). rewrite Hb in H2. lra.
Qed.
Lemma argmin_ok l i : argmin l = Ok i -> first_min l i.
Proof.
  destruct l as [|a l]; cbn; [discriminate|]. intro H. injection H as <-.
  apply (argmin_from_ok l [a] a 0); [|reflexivity]. split; [cbn; lia|]. cbn. split; [intros [|[|j]] Hj; try lia; apply Qle_refl|intros j Hj; lia].
Qed.
Lemma first_min_unique l i j : first_min l i -> first_min l j -> i = j.
Proof.
  intros (A1 & A2 & A3) (B1 & B2 & B3). destruct (Nat.lt_trichotomy i j) as [H|[H|H]]; [|exact H|].
  - specialize (B3 i H). specialize (A2 j B1). lra.
  - specialize (A3 j H). specialize (B2 i A1). lra.
Qed.
Lemma Nearest_first_min l x i : Nearest l x i <-> first_min (map (fun a => Qabs (a - x)) l) i.
Proof.
  unfold Nearest, first_min. rewrite map_length.
  assert (E : forall j, j < List.length l -> nth j (map (fun a => Qabs (a - x)) l) 0%Q = Qabs (nth j l 0 - x)%Q) by (intros j Hj; exact (nth_map_lt (fun a => Qabs (a - x)) l j 0%Q 0%Q Hj)).
  split; intros (H1 & H2 & H3); (split; [exact H1|]); split; intros j Hj.
  - rewrite !E by lia. apply H2; exact Hj.
  - rewrite !E by lia. apply H3; exact Hj.
  - rewrite <- !E by lia. apply H2; exact Hj.
  - rewrite <- !E by lia. apply H3; exact Hj.
Qed.
Lemma nearest_iff l x i : nearest l x = Ok i <-> Nearest l x i.
Proof.
  rewrite Nearest_first_min. unfold nearest. split; [apply argmin_ok|]. intro H.
  destruct (argmin (map (fun a => Qabs (a - x)) l)) as [j|e] eqn:E.
  - f_equal. apply argmin_ok in E. exact (first_min_unique _ _ _ E H).
  - destruct H as (H1 & _). destruct l as [|a l]; cbn in *; [lia|discriminate E].
Qed.
Lemma nearest_total l x : l <> [] -> exists i, nearest l x = Ok i.
Proof. destruct l as [|a l]; [easy|]. intros _. cbn. eexists. reflexivity. Qed.
Lemma nearest_empty x : nearest [] x = Err ValueError. Proof. reflexivity. Qed.
Lemma Nearest_exists l x : l <> [] -> exists i, Nearest l x i.
Proof. intro H. destruct (nearest_total l x H) as (i & Hi). exists i. apply nearest_iff; exact Hi. Qed.
Lemma Nearest_unique l x i j : Nearest l x i -> Nearest l x j -> i = j.
Proof. rewrite !Nearest_first_min. apply first_min_unique. Qed.

(** *** Means *)
Lemma sum_app a b : (sumQ (a ++ b) == sumQ a + sumQ b)%Q.
Proof.
  induction a as [|x a IH]; [change (sumQ b == 0 + sumQ b)%Q; ring|].
  change (x + sumQ (a ++ b) == x + sumQ a + sumQ b)%Q. rewrite IH. ring.
Qed.
Lemma sum_seq n f : (sumQ (map f (seq 0 n)) == sum_to n f)%Q.
Proof. induction n as [|n IH]; [reflexivity|]. rewrite seq_S, map_app, sum_app, IH. change (sum_to n f + (f n + 0) == sum_to n f + f n)%Q. ring. Qed.
Lemma mean_seq n f : (mean (map f (seq 0 n)) == avg n f)%Q.
Proof. unfold mean, avg. rewrite map_length, seq_length, sum_seq. reflexivity. Qed.
Lemma sum_ext n f g : (forall i, i < n -> (f i == g i)%Q) -> (sum_to n f == sum_to n g)%Q.
Proof. induction n as [|n IH]; intro H; [reflexivity|]. cbn. rewrite IH by (intros; apply H; lia). rewrite (H n) by lia. reflexivity. Qed.
Lemma avg_ext n f g : (forall i, i < n -> (f i == g i)%Q) -> (avg n f == avg n g)%Q.
Proof. intro H. unfold avg. rewrite (sum_ext n f g H). reflexivity. Qed.
Lemma var_ext n f g : (forall i, i < n -> (f i == g i)%Q) -> (var n f == var n g)%Q.
Proof. intro H. unfold var. apply avg_ext. intros i Hi. rewrite (H i Hi), (avg_ext n f g H). reflexivity. Qed.
Lemma variance_seq n f : (variance (map f (seq 0 n)) == var n f)%Q.
Proof. unfold variance. rewrite map_map, mean_seq. unfold var. apply avg_ext. intros i _. rewrite mean_seq. reflexivity. Qed.
Lemma sum_lin n f a b : (sum_to n (fun i => a * f i + b) == a * sum_to n f + inject_Z (Z.of_nat n) * b)%Q.
Proof.
  induction n as [|n IH]; [cbn; ring|]. cbn [sum_to]. rewrite IH. rewrite Nat2Z.inj_succ. unfold Z.succ. rewrite inject_Z_plus. ring.
Qed.
Lemma qn_nz n : 0 < n -> ~ (inject_Z (Z.of_nat n) == 0)%Q.
Proof. intros H E. unfold Qeq in E. cbn in E. lia. Qed.
Lemma avg_lin n f a b : 0 < n -> (avg n (fun i => a * f i + b) == a * avg n f + b)%Q.
Proof. intro H. unfold avg. rewrite sum_lin. field. apply qn_nz; exact H. Qed.
Lemma var_lin n f a b : 0 < n -> (var n (fun i => a * f i + b) == a * a * var n f)%Q.
Proof.
  intro H. unfold var. rewrite (avg_ext n _ (fun i => (a * a) * ((f i - avg n f) * (f i - avg n f)) + 0)%Q).
  - rewrite avg_lin by exact H. ring.
  - intros i _. rewrite avg_lin by exact H. ring.
Qed.
Lemma avg_const n c : 0 < n -> (avg n (fun _ => c) == c)%Q.
Proof. intro H. rewrite (avg_ext n _ (fun i => 0 * 0 + c)%Q) by (intros; ring). rewrite (avg_lin n (fun _ => 0%Q) 0 c H). ring. Qed.
Lemma var_const n f c : 0 < n -> (forall i, i < n -> (f i == c)%Q) -> (var n f == 0)%Q.
Proof.
  intros H E. rewrite (var_ext n f (fun i => 0 * f i + c)%Q) by (intros i Hi; rewrite (E i Hi); ring). rewrite var_lin by exact H. ring.
Qed.

(** Rounding does not depend on the way a number is written *)
Local Open Scope Z_scope.
Lemma nexp_unique f a d e : 0 < prec f -> 0 < a -> 0 < d ->
  2 ^ (prec f - 1) * (d * p2n e) <= a * p2n (- e) -> a * p2n (- e) < 2 ^ prec f * (d * p2n e) -> nexp f a d = e.
Proof.
  intros Hp Ha Hd L U. destruct (nexp_spec f a d Hp Ha Hd) as [L' U']. cbv zeta in L', U'.
  assert (HP : 2 ^ prec f = 2 * 2 ^ (prec f - 1)) by (rewrite <- Z.pow_succ_r by lia; f_equal; lia).
  assert (HP0 : 0 < 2 ^ (prec f - 1)) by (apply Z.pow_pos_nonneg; lia).
  set (P := 2 ^ (prec f - 1)) in *. set (n := nexp f a d) in *. 
  assert (G : forall x y, x < y -> P * (d * p2n y) <= a * p2n (- y) -> a * p2n (- x) < 2 ^ prec f * (d * p2n x) -> False).
  { intros x y H A B. pose proof (p2n_add (y - x) x ltac:(lia)) as EA. replace (x + (y - x)) with y in EA by lia.
    pose proof (p2n_pos x). pose proof (p2n_pos (- x)). pose proof (p2n_pos y). pose proof (p2n_pos (- y)).
    assert (Hj : 2 <= 2 ^ (y - x)) by (change 2 with (2 ^ 1) at 1; apply Z.pow_le_mono_r; lia).
    assert (A2 : P * (d * p2n y) * p2n (- x) <= a * p2n (- y) * p2n (- x)) by nia.
    assert (B2 : a * p2n (- x) * p2n (- y) < 2 ^ prec f * (d * p2n x) * p2n (- y)) by nia.
    replace (P * (d * p2n y) * p2n (- x)) with (P * d * (p2n y * p2n (- x))) in A2 by ring. rewrite EA in A2.
    set (K := p2n x * p2n (- y)) in *. assert (0 < K) by (unfold K; nia). assert (0 < P * d * K) by nia.
    replace (2 ^ prec f * (d * p2n x) * p2n (- y)) with (2 * (P * d * K)) in B2 by (rewrite HP; unfold K; ring).
    assert (P * d * (2 ^ (y - x) * K) >= 2 * (P * d * K)) by nia. nia. }
  destruct (Z_lt_le_dec n e) as [H|H]; [exfalso; exact (G n e H L U')|]. destruct (Z_lt_le_dec e n) as [H2|H2]; [exfalso; exact (G e n H2 L' U)|]. lia.
Qed.
Lemma round_ne_scale g n d : 0 < g -> 0 < d -> round_ne (n * g) (d * g) = round_ne n d.
Proof.
  intros Hg Hd. unfold round_ne. rewrite Z.div_mul_cancel_r, Zmult_mod_distr_r by lia.
  set (r := n mod d). replace (2 * (r * g) <? d * g) with (2 * r <? d). 2:{ destruct (Z.ltb_spec (2 * r) d), (Z.ltb_spec (2 * (r * g)) (d * g)); try reflexivity; nia. }
  replace (d * g <? 2 * (r * g)) with (d <? 2 * r). 2:{ destruct (Z.ltb_spec d (2 * r)), (Z.ltb_spec (d * g) (2 * (r * g))); try reflexivity; nia. } reflexivity.
Qed.
Lemma rnd_scale f n d g : 0 < prec f -> rnd f (n * Zpos g # d * g) = rnd f (n # d).
Proof.
  intro Hp. unfold rnd. cbn [Qnum]. replace (n * Zpos g =? 0) with (n =? 0). 2:{ destruct (Z.eqb_spec n 0), (Z.eqb_spec (n * Zpos g) 0); try reflexivity; nia. }
  destruct (Z.eqb_spec n 0) as [|Hn]; [reflexivity|].
  assert (E : mant f (n * Zpos g # d * g) = mant f (n # d)).
  { unfold mant. cbn [Qnum Qden]. rewrite Z.abs_mul. cbn [Z.abs]. rewrite Pos2Z.inj_mul. set (a := Z.abs n). assert (Ha : 0 < a) by (unfold a; lia).
    assert (EN : nexp f (a * Zpos g) (Zpos d * Zpos g) = nexp f a (Zpos d)).
    { destruct (nexp_spec f a (Zpos d) Hp Ha) as [L U]; [lia|]. cbv zeta in L, U. apply nexp_unique; try lia; nia. }
    unfold fexp. rewrite EN. set (e := Z.max (emin f) (nexp f a (Zpos d))). fold (p2n (- e)). fold (p2n e). f_equal.
    replace (a * Zpos g * p2n (- e)) with (a * p2n (- e) * Zpos g) by ring. replace (Zpos d * Zpos g * p2n e) with (Zpos d * p2n e * Zpos g) by ring.
    apply round_ne_scale; [lia|]. pose proof (p2n_pos e). lia. }
  rewrite E. rewrite Z.sgn_mul. cbn [Z.sgn]. rewrite Z.mul_1_r. reflexivity.
Qed.
Lemma rnd_comp f p q : 0 < prec f -> (p == q)%Q -> rnd f p = rnd f q.
Proof.
  intros Hp H. destruct p as [n d], q as [m k]. unfold Qeq in H. cbn in H.
  rewrite <- (rnd_scale f n d k Hp), <- (rnd_scale f m k d Hp). rewrite H. rewrite (Pos.mul_comm k d). reflexivity.
Qed.
