(** Property theorems C129 (correlations of a TurbSim box) and C130 (planes through it). *)
From Verif Require Import Py PyFacts ListFacts FS Bytes Float Registry_Model MannBox_Model TurbSim_Model.
From Verif Require Import WindBox_Model WindBox_Spec WindBox_Proofs WindBox_Props.
From Verif Require Import WindCorr_Model.
From Coq Require Import QArith Qround Qminmax Qabs Lqa ZifyNat ZifyBool.
Local Open Scope nat_scope.

(** The covariance of two series *)
Definition cov (n : nat) (f g : nat -> Q) : Q := avg n (fun i => (f i - avg n f) * (g i - avg n g))%Q.
Lemma sq_nonneg (x : Q) : (0 <= x * x)%Q.
Proof. destruct x as [n d]. unfold Qle. cbn. nia. Qed.
Lemma sq_zero (x : Q) : (x * x <= 0)%Q -> (x == 0)%Q.
Proof. intro H. assert (E : (x * x == 0)%Q) by (pose proof (sq_nonneg x); lra). apply Qmult_integral in E. tauto. Qed.
(** Cauchy-Schwarz *)
Lemma cs_step (A B C a b : Q) : (0 <= A)%Q -> (0 <= B)%Q -> (C * C <= A * B)%Q -> ((C + a * b) * (C + a * b) <= (A + a * a) * (B + b * b))%Q.
Proof.
  intros HA HB H. assert (G : (0 <= A * (b * b) + B * (a * a) - 2 * C * (a * b))%Q).
  { destruct (Qlt_le_dec 0 A) as [P|P].
    - assert (K : (0 <= A * (A * (b * b) + B * (a * a) - 2 * C * (a * b)))%Q).
      { setoid_replace (A * (A * (b * b) + B * (a * a) - 2 * C * (a * b)))%Q with ((A * b - C * a) * (A * b - C * a) + (A * B - C * C) * (a * a))%Q by ring.
        pose proof (sq_nonneg (A * b - C * a)). pose proof (sq_nonneg a). assert (0 <= (A * B - C * C) * (a * a))%Q by (apply Qmult_le_0_compat; lra). lra. }
      apply Qmult_le_l with (z := A); [exact P|]. rewrite Qmult_0_r. exact K.
    - assert (Z : (A == 0)%Q) by lra. rewrite Z in H. assert (C0 : (C == 0)%Q). { apply sq_zero. lra. }
      rewrite Z, C0. pose proof (sq_nonneg a). assert (0 <= B * (a * a))%Q by (apply Qmult_le_0_compat; lra). lra. }
  lra.
Qed.
Lemma sum_sq n f : (0 <= sum_to n (fun i => f i * f i))%Q.
Proof. induction n as [|n IH]; cbn [sum_to]; [lra|]. pose proof (sq_nonneg (f n)). lra. Qed.
Lemma cs_sum n f g : (sum_to n (fun i => f i * g i) * sum_to n (fun i => f i * g i) <= sum_to n (fun i => f i * f i) * sum_to n (fun i => g i * g i))%Q.
Proof. induction n as [|n IH]; cbn [sum_to]; [lra|]. apply cs_step; [apply sum_sq|apply sum_sq|exact IH]. Qed.
Lemma cs_cov n f g : 0 < n -> (cov n f g * cov n f g <= var n f * var n g)%Q.
Proof.
  intro H. unfold cov, var, avg at 1 4 7 10. pose proof (cs_sum n (fun i => f i - avg n f)%Q (fun i => g i - avg n g)%Q) as K. cbn beta in K.
  assert (N : (0 < inject_Z (Z.of_nat n))%Q) by (change 0%Q with (inject_Z 0); rewrite <- Zlt_Qlt; lia). set (N0 := inject_Z (Z.of_nat n)) in *.
  set (X := sum_to n (fun i => (f i - avg n f) * (g i - avg n g))%Q) in *. set (Y := sum_to n (fun i => (f i - avg n f) * (f i - avg n f))%Q) in *. set (Z := sum_to n (fun i => (g i - avg n g) * (g i - avg n g))%Q) in *.
  assert (E : forall a b, (a / N0 * (b / N0) == a * b * (/ N0 * / N0))%Q) by (intros; unfold Qdiv; ring). rewrite !E. apply Qmult_le_compat_r; [exact K|].
  assert (0 < / N0)%Q by (apply Qinv_lt_0_compat; exact N). apply Qmult_le_0_compat; lra.
Qed.
Lemma cov_self n f : cov n f f = var n f. Proof. reflexivity. Qed.

Section Corr.
Variable root : Q -> Q.
Hypothesis root_eq : forall a b, (a == b)%Q -> (root a == root b)%Q.
(** A correlation coefficient: covariance over the product of the deviations; not finite when that product vanishes *)
Definition Coefficient (n : nat) (f g : nat -> Q) (c : option Q) : Prop :=
  let d := (root (var n f) * root (var n g))%Q in
  ((d == 0)%Q -> c = None) /\ (~ (d == 0)%Q -> exists r, c = Some r /\ (r == cov n f g / d)%Q).

Lemma rho_ok n a b f g : (forall i, i < n -> (a i == f i - avg n f)%Q) -> (forall i, i < n -> (b i == g i - avg n g)%Q) -> 0 < n ->
  Coefficient n f g (rho root (map a (seq 0 n)) (map b (seq 0 n))).
Proof.
  intros HA HB Hn.
  assert (S : forall x h, (forall i, i < n -> (x i == h i - avg n h)%Q) -> (std root (map x (seq 0 n)) == root (var n h))%Q).
  { intros x h Hx. unfold std. apply root_eq. rewrite variance_seq. rewrite (var_ext n x (fun i => 1 * h i + - avg n h)%Q) by (intros i Hi; rewrite (Hx i Hi); ring).
    rewrite (var_lin n h 1) by exact Hn. ring. }
  pose proof (S a f HA) as SA. pose proof (S b g HB) as SB.
  assert (M : (mean (map (fun p => fst p * snd p)%Q (combine (map a (seq 0 n)) (map b (seq 0 n)))) == cov n f g)%Q).
  { assert (E : combine (map a (seq 0 n)) (map b (seq 0 n)) = map (fun i => (a i, b i)) (seq 0 n)).
    { generalize (seq 0 n) as l. induction l as [|x l IH]; [reflexivity|]. cbn. rewrite IH. reflexivity. }
    rewrite E, map_map. cbn [fst snd]. rewrite mean_seq. unfold cov. apply avg_ext. intros i Hi. rewrite (HA i Hi), (HB i Hi). reflexivity. }
  unfold rho. split; intro D.
  - replace (Qeq_bool _ 0) with true; [reflexivity|]. symmetry. apply Qeq_bool_iff. rewrite SA, SB. exact D.
  - destruct (Qeq_bool (std root (map a (seq 0 n)) * std root (map b (seq 0 n))) 0) eqn:C.
    { apply Qeq_bool_iff in C. rewrite SA, SB in C. contradiction. }
    eexists. split; [reflexivity|]. rewrite M, SA, SB. reflexivity.
Qed.
(** [u] is [u0] where a value has been taken from each line in time *)
Definition Shifted (nt : nat) (u0 u : arr4) : Prop := forall k iy iz, exists c, forall it, it < nt -> (u k it iy iz == u0 k it iy iz - c)%Q.
Definition Centred (nt : nat) (u0 u : arr4) (p : nat * nat) : Prop :=
  forall k it, it < nt -> (u k it (fst p) (snd p) == u0 k it (fst p) (snd p) - avg nt (fun i => u0 k i (fst p) (snd p)))%Q.
Lemma longi_centred nt u0 u p : 0 < nt -> Shifted nt u0 u -> Centred nt u0 (longiline nt true (fst p) (snd p) u) p.
Proof.
  intros Hn H k it Hi. unfold longiline. rewrite !Nat.eqb_refl. cbn [andb]. destruct (H k (fst p) (snd p)) as (c & Hc). rewrite (Hc it Hi).
  rewrite mean_line. rewrite (avg_ext nt _ (fun i => 1 * u0 k i (fst p) (snd p) + - c)%Q) by (intros i Hj; rewrite (Hc i Hj); ring). rewrite (avg_lin nt (fun i => u0 k i (fst p) (snd p))) by exact Hn. ring.
Qed.
Lemma longi_other nt u p k it iy iz : (iy, iz) <> p -> longiline nt true (fst p) (snd p) u k it iy iz = u k it iy iz.
Proof. intro H. unfold longiline. destruct (Nat.eqb iy (fst p) && Nat.eqb iz (snd p)) eqn:E; [|reflexivity]. exfalso. apply H. destruct p. cbn in *. f_equal; lia. Qed.
Lemma longi_shifted nt u0 u p : 0 < nt -> Shifted nt u0 u -> Shifted nt u0 (longiline nt true (fst p) (snd p) u).
Proof.
  intros Hn H k iy iz. assert (D : (iy, iz) = p \/ (iy, iz) <> p). { destruct p as [a b]. destruct (Nat.eq_dec iy a), (Nat.eq_dec iz b); subst; auto; right; intro X; injection X; auto. }
  destruct D as [D|D].
  - exists (avg nt (fun i => u0 k i iy iz)). intros it Hi. pose proof (longi_centred nt u0 u p Hn H k it Hi) as X. rewrite <- D in X. rewrite <- D. exact X.
  - destruct (H k iy iz) as (c & Hc). exists c. intros it Hi. rewrite longi_other by exact D. apply Hc; exact Hi.
Qed.
Lemma longi_keeps nt u0 u p q : 0 < nt -> Shifted nt u0 u -> Centred nt u0 u q -> Centred nt u0 (longiline nt true (fst p) (snd p) u) q.
Proof.
  intros Hn H C. assert (D : q = p \/ q <> p). { destruct p as [a b], q as [c d]. destruct (Nat.eq_dec c a), (Nat.eq_dec d b); subst; auto; right; intro X; injection X; auto. }
  destruct D as [->|D]; [apply longi_centred; assumption|]. intros k it Hi. rewrite longi_other by (rewrite <- surjective_pairing; exact D). apply C; exact Hi.
Qed.
Definition row_ok (nt : nat) (u0 : arr4) (p0 p : nat * nat) (r : option Q * option Q * option Q) : Prop :=
  let s k q := fun it => u0 k it (fst q) (snd q) in
  Coefficient nt (s 0 p0) (s 0 p) (fst (fst r)) /\ Coefficient nt (s 1 p0) (s 1 p) (snd (fst r)) /\ Coefficient nt (s 2 p0) (s 2 p) (snd r).
Lemma corr_from_ok nt u0 p0 : 0 < nt -> forall ps u, Shifted nt u0 u -> Centred nt u0 u p0 ->
  let '(u', rs) := corr_from root nt p0 ps u in Forall2 (row_ok nt u0 p0) ps rs /\ Shifted nt u0 u' /\ (forall p, p = p0 \/ In p ps \/ Centred nt u0 u p -> Centred nt u0 u' p) /\
    (forall k it iy iz, (iy, iz) <> p0 -> ~ In (iy, iz) ps -> u' k it iy iz = u k it iy iz).
Proof.
  intro Hn. induction ps as [|p ps IH]; intros u HS HC; cbn [corr_from].
  - split; [constructor|]. split; [exact HS|]. split; [intros p [->|[[]|X]]; assumption|reflexivity].
  - cbn zeta. specialize (IH (longiline nt true (fst p) (snd p) u) (longi_shifted nt u0 u p Hn HS) (longi_keeps nt u0 u p p0 Hn HS HC)).
    destruct (corr_from root nt p0 ps (longiline nt true (fst p) (snd p) u)) as [u' rs]. destruct IH as (I1 & I2 & I3 & I4).
    split; [|split; [exact I2|split]].
    + constructor; [|exact I1].
      assert (P0 := longi_keeps nt u0 u p p0 Hn HS HC). assert (P := longi_centred nt u0 u p Hn HS).
      unfold row_ok. cbn [fst snd]. unfold line_t. split; [|split]; apply rho_ok; try exact Hn; intros i Hi; first [apply P0; exact Hi|apply P; exact Hi].
    + intros q [->|[[->|H]|H]]; apply I3.
      * left. reflexivity.
      * right. right. apply longi_centred; assumption.
      * right. left. exact H.
      * right. right. apply longi_keeps; assumption.
    + intros k it iy iz N1 N2. rewrite I4; [apply longi_other; intro X; apply N2; left; symmetry; exact X|exact N1|intro X; apply N2; right; exact X].
Qed.
Lemma corr_line_ok nt u0 u p0 ps : 0 < nt -> Shifted nt u0 u -> exists u' rs, corr_line root nt p0 ps u = (u', rs) /\ Forall2 (row_ok nt u0 p0) ps rs /\ Shifted nt u0 u' /\
  (forall p, p = p0 \/ In p ps \/ Centred nt u0 u p -> Centred nt u0 u' p) /\ (forall k it iy iz, (iy, iz) <> p0 -> ~ In (iy, iz) ps -> u' k it iy iz = u k it iy iz).
Proof.
  intros Hn HS. unfold corr_line. pose proof (corr_from_ok nt u0 p0 Hn ps _ (longi_shifted nt u0 u p0 Hn HS) (longi_centred nt u0 u p0 Hn HS)) as X.
  destruct (corr_from root nt p0 ps (longiline nt true (fst p0) (snd p0) u)) as [u' rs]. exists u', rs. destruct X as (X1 & X2 & X3 & X4). split; [reflexivity|].
  split; [exact X1|]. split; [exact X2|]. split.
  - intros p [->|[H|H]]; apply X3; [left; reflexivity|right; left; exact H|right; right; apply longi_keeps; assumption].
  - intros k it iy iz A B. rewrite X4 by assumption. apply longi_other. exact A.
Qed.
Lemma shifted_refl nt u : Shifted nt u u. Proof. intros k iy iz. exists 0%Q. intros. ring. Qed.
Lemma Forall2_len {A B} (R : A -> B -> Prop) l m : Forall2 R l m -> List.length l = List.length m.
Proof. induction 1; cbn; congruence. Qed.
Lemma rows_nth nt u0 p0 (g : nat -> nat * nat) n rs : Forall2 (row_ok nt u0 p0) (map g (seq 0 n)) rs ->
  List.length rs = n /\ forall i, i < n -> exists a b c, nth_error rs i = Some (a, b, c) /\ row_ok nt u0 p0 (g i) (a, b, c).
Proof.
  intro H. pose proof (Forall2_len _ _ _ H) as L. rewrite map_length, seq_length in L. split; [symmetry; exact L|]. intros i Hi.
  assert (E : nth_error (map g (seq 0 n)) i = Some (g i)). { rewrite nth_error_map, (nth_error_nth' (seq 0 n) 0) by (rewrite seq_length; exact Hi). rewrite seq_nth by exact Hi. reflexivity. }
  revert E. generalize (g i) as q. clear Hi L. generalize (map g (seq 0 n)) as ps, H. intros ps F q. clear H. revert i. induction F as [|p r ps' rs' R F IH]; intros [|i] E; try discriminate E.
  - cbn in E. injection E as ->. destruct r as [[a b] c]. exists a, b, c. split; [reflexivity|exact R].
  - apply IH. exact E.
Qed.
(** ** C129: correlations along y and z *)
(** At every position of the line: covariance with the start point over the product of the deviations; the wind is changed, as every line that
    is looked at loses its average *)
Theorem C129_crosscorr_y : forall o iy0 iz0, shaped_wind o -> iy0 < w_ny o -> iz0 < w_nz o ->
  let s k iy := fun it => w_u o k it iy iz0 in
  exists u' rs, crosscorr_y root o (Some (iy0, iz0)) (w_u o) = Ok (u', w_y o, rs) /\ List.length rs = w_ny o /\
    (forall iy, iy < w_ny o -> exists a b c, nth_error rs iy = Some (a, b, c) /\
      Coefficient (w_nt o) (s 0 iy0) (s 0 iy) a /\ Coefficient (w_nt o) (s 1 iy0) (s 1 iy) b /\ Coefficient (w_nt o) (s 2 iy0) (s 2 iy) c) /\
    (forall k it iy iz, it < w_nt o -> iy < w_ny o ->
       (u' k it iy iz == if Nat.eqb iz iz0 then w_u o k it iy iz - avg (w_nt o) (fun i => w_u o k i iy iz) else w_u o k it iy iz)%Q).
Proof.
  intros o iy0 iz0 (Ly & Lz & Lt & P1 & P2 & P3) By Bz s. unfold crosscorr_y. cbn [start bind].
  replace (negb ((iy0 <? w_ny o) && (iz0 <? w_nz o)) || (w_ny o <? List.length (w_y o))) with false by lia. replace (w_nt o =? 0) with false by lia. rewrite Ly.
  destruct (corr_line_ok (w_nt o) (w_u o) (w_u o) (iy0, iz0) (map (fun iy => (iy, iz0)) (seq 0 (w_ny o))) P1 (shifted_refl _ _)) as (u' & rs & E & F & _ & C & K).
  rewrite E. destruct (rows_nth _ _ _ _ _ _ F) as (L & R). exists u', rs. split; [reflexivity|]. split; [exact L|]. split.
  - intros iy Hi. destruct (R iy Hi) as (a & b & c & R1 & R2). exists a, b, c. split; [exact R1|exact R2].
  - intros k it iy iz Hit Hiy. destruct (Nat.eqb_spec iz iz0) as [->|N].
    + assert (X : Centred (w_nt o) (w_u o) u' (iy, iz0)) by (apply C; right; left; apply in_map_iff; exists iy; split; [reflexivity|apply in_seq; lia]). apply (X k it Hit).
    + rewrite K; [reflexivity|congruence|]. intro X. apply in_map_iff in X. destruct X as (? & X & _). injection X. congruence.
Qed.
Theorem C129_crosscorr_z : forall o iy0 iz0, shaped_wind o -> iy0 < w_ny o -> iz0 < w_nz o ->
  let s k iz := fun it => w_u o k it iy0 iz in
  exists u' rs, crosscorr_z root o (Some (iy0, iz0)) (w_u o) = Ok (u', w_z o, rs) /\ List.length rs = w_nz o /\
    (forall iz, iz < w_nz o -> exists a b c, nth_error rs iz = Some (a, b, c) /\
      Coefficient (w_nt o) (s 0 iz0) (s 0 iz) a /\ Coefficient (w_nt o) (s 1 iz0) (s 1 iz) b /\ Coefficient (w_nt o) (s 2 iz0) (s 2 iz) c) /\
    (forall k it iy iz, it < w_nt o -> iz < w_nz o ->
       (u' k it iy iz == if Nat.eqb iy iy0 then w_u o k it iy iz - avg (w_nt o) (fun i => w_u o k i iy iz) else w_u o k it iy iz)%Q).
Proof.
  intros o iy0 iz0 (Ly & Lz & Lt & P1 & P2 & P3) By Bz s. unfold crosscorr_z. cbn [start bind].
  replace (negb ((iy0 <? w_ny o) && (iz0 <? w_nz o)) || (w_nz o <? List.length (w_z o))) with false by lia. replace (w_nt o =? 0) with false by lia. rewrite Lz.
  destruct (corr_line_ok (w_nt o) (w_u o) (w_u o) (iy0, iz0) (map (fun iz => (iy0, iz)) (seq 0 (w_nz o))) P1 (shifted_refl _ _)) as (u' & rs & E & F & _ & C & K).
  rewrite E. destruct (rows_nth _ _ _ _ _ _ F) as (L & R). exists u', rs. split; [reflexivity|]. split; [exact L|]. split.
  - intros iz Hi. destruct (R iz Hi) as (a & b & c & R1 & R2). exists a, b, c. split; [exact R1|exact R2].
  - intros k it iy iz Hit Hiz. destruct (Nat.eqb_spec iy iy0) as [->|N].
    + assert (X : Centred (w_nt o) (w_u o) u' (iy0, iz)) by (apply C; right; left; apply in_map_iff; exists iz; split; [reflexivity|apply in_seq; lia]). apply (X k it Hit).
    + rewrite K; [reflexivity|congruence|]. intro X. apply in_map_iff in X. destruct X as (? & X & _). injection X. congruence.
Qed.
(** The two tables of the data frame: both are those of the box as it was, although the first changes the wind before the second *)
Theorem C129_tables : forall o, shaped_wind o ->
  exists iy0 iz0 ry rz,
    Nearest (w_y o) ((nth 0 (w_y o) 0 + nth (w_ny o - 1) (w_y o) 0) / 2)%Q iy0 /\ Nearest (w_z o) ((nth 0 (w_z o) 0 + nth (w_nz o - 1) (w_z o) 0) / 2)%Q iz0 /\
    xcorr_tables root o = Ok [(w_y o, ry); (w_z o, rz)] /\ List.length ry = w_ny o /\ List.length rz = w_nz o /\
    (forall iy, iy < w_ny o -> exists a b c, nth_error ry iy = Some (a, b, c) /\
      Coefficient (w_nt o) (fun it => w_u o 0 it iy0 iz0) (fun it => w_u o 0 it iy iz0) a /\
      Coefficient (w_nt o) (fun it => w_u o 1 it iy0 iz0) (fun it => w_u o 1 it iy iz0) b /\
      Coefficient (w_nt o) (fun it => w_u o 2 it iy0 iz0) (fun it => w_u o 2 it iy iz0) c) /\
    (forall iz, iz < w_nz o -> exists a b c, nth_error rz iz = Some (a, b, c) /\
      Coefficient (w_nt o) (fun it => w_u o 0 it iy0 iz0) (fun it => w_u o 0 it iy0 iz) a /\
      Coefficient (w_nt o) (fun it => w_u o 1 it iy0 iz0) (fun it => w_u o 1 it iy0 iz) b /\
      Coefficient (w_nt o) (fun it => w_u o 2 it iy0 iz0) (fun it => w_u o 2 it iy0 iz) c).
Proof.
  intros o H. destruct (mid_ok o H) as (iy0 & iz0 & E & By & Bz & Ny & Nz). destruct H as (Ly & Lz & Lt & P1 & P2 & P3).
  exists iy0, iz0. unfold xcorr_tables, crosscorr_y, crosscorr_z. cbn [start]. rewrite E. cbn [bind].
  replace (negb ((iy0 <? w_ny o) && (iz0 <? w_nz o)) || (w_ny o <? List.length (w_y o))) with false by lia.
  replace (negb ((iy0 <? w_ny o) && (iz0 <? w_nz o)) || (w_nz o <? List.length (w_z o))) with false by lia. replace (w_nt o =? 0) with false by lia. rewrite Ly, Lz.
  destruct (corr_line_ok (w_nt o) (w_u o) (w_u o) (iy0, iz0) (map (fun iy => (iy, iz0)) (seq 0 (w_ny o))) P1 (shifted_refl _ _)) as (u1 & ry & E1 & F1 & S1 & _ & _).
  rewrite E1. cbn [bind].
  destruct (corr_line_ok (w_nt o) (w_u o) u1 (iy0, iz0) (map (fun iz => (iy0, iz)) (seq 0 (w_nz o))) P1 S1) as (u2 & rz & E2 & F2 & _ & _ & _).
  rewrite E2. cbn [bind]. destruct (rows_nth _ _ _ _ _ _ F1) as (L1 & R1). destruct (rows_nth _ _ _ _ _ _ F2) as (L2 & R2).
  exists ry, rz. split; [exact Ny|]. split; [exact Nz|]. split; [reflexivity|]. split; [exact L1|]. split; [exact L2|]. split.
  - intros iy Hi. destruct (R1 iy Hi) as (a & b & c & X1 & X2). exists a, b, c. split; [exact X1|exact X2].
  - intros iz Hi. destruct (R2 iz Hi) as (a & b & c & X1 & X2). exists a, b, c. split; [exact X1|exact X2].
Qed.
(** A coefficient is between -1 and 1, and the coefficient of a point with itself is 1, whatever the wind, if it is finite *)
Theorem C129_bounds : forall n f g r, 0 < n -> (root (var n f) * root (var n f) == var n f)%Q -> (root (var n g) * root (var n g) == var n g)%Q ->
  (Coefficient n f g (Some r) -> (-1 <= r <= 1)%Q) /\ (Coefficient n f f (Some r) -> (r == 1)%Q).
Proof.
  intros n f g r Hn Rf Rg. split.
  - intros (A & B). destruct (Qeq_dec (root (var n f) * root (var n g)) 0) as [D|D]; [specialize (A D); discriminate A|].
    destruct (B D) as (r' & E & V). injection E as <-. set (a := root (var n f)) in *. set (b := root (var n g)) in *.
    assert (K : (r * r <= 1)%Q).
    { pose proof (cs_cov n f g Hn) as CS. rewrite <- Rf, <- Rg in CS. rewrite V.
      assert (P : (0 < a * b * (a * b))%Q). { pose proof (sq_nonneg (a * b)). destruct (Qeq_dec (a * b * (a * b)) 0) as [Z|Z]; [|lra]. exfalso. apply D. apply Qmult_integral in Z. tauto. }
      setoid_replace (cov n f g / (a * b) * (cov n f g / (a * b)))%Q with (cov n f g * cov n f g / (a * b * (a * b)))%Q by (field; repeat split; intro X; apply D; rewrite X; ring).
      apply Qle_shift_div_r; [exact P|]. lra. }
    split; nra.
  - intros (A & B). destruct (Qeq_dec (root (var n f) * root (var n f)) 0) as [D|D]; [specialize (A D); discriminate A|].
    destruct (B D) as (r' & E & V). injection E as <-. rewrite V, cov_self. rewrite <- Rf at 1. field. intro X. apply D. rewrite X. ring.
Qed.
(** With a steady point there is no number *)
Theorem C129_steady_refuted : forall n f g c v, 0 < n -> (root 0 == 0)%Q -> (forall i, i < n -> (f i == v)%Q) -> Coefficient n f g c -> c = None.
Proof.
  intros n f g c v Hn R0 H (A & _). apply A. rewrite (root_eq _ 0) by (apply (var_const n f v Hn H)). rewrite R0. ring.
Qed.
End Corr.
Print Assumptions C129_crosscorr_y.
Print Assumptions C129_crosscorr_z.
Print Assumptions C129_tables.
Print Assumptions C129_bounds.
Print Assumptions C129_steady_refuted.

(** ** C130: planes *)
(** The average of a plane *)
Definition avg2 (n m : nat) (f : nat -> nat -> Q) : Q := (sum_to n (fun i => sum_to m (fun j => f i j)) / inject_Z (Z.of_nat (n * m)))%Q.
Lemma mean_plane n m f : (mean (flat_map (fun i => map (fun j => f i j) (seq 0 m)) (seq 0 n)) == avg2 n m f)%Q.
Proof.
  unfold mean, avg2.
  assert (S : forall n a, (sumQ (flat_map (fun i => map (fun j => f i j) (seq 0 m)) (seq a n)) == sum_to n (fun i => sum_to m (fun j => f (a + i)%nat j)))%Q /\
              List.length (flat_map (fun i => map (fun j => f i j) (seq 0 m)) (seq a n)) = n * m).
  { induction n0 as [|k IH]; intro a; [split; reflexivity|]. rewrite seq_S, flat_map_app. destruct (IH a) as (I1 & I2). split.
    - rewrite sum_app, I1. cbn [flat_map sum_to]. rewrite app_nil_r, sum_seq. reflexivity.
    - rewrite app_length, I2. cbn [flat_map]. rewrite app_nil_r, map_length, seq_length. lia. }
  destruct (S n 0) as (S1 & S2). rewrite S1, S2. reflexivity.
Qed.
(** Which plane: nearest to the height if one is given, else the index, else the middle of the box *)
Definition PlaneZ (o : wind) (z : option Q) (iz0 : option nat) (iz : nat) : Prop :=
  match z, iz0 with Some z, _ => Nearest (w_z o) z iz | None, Some i => iz = i | None, None => Nearest (w_z o) ((nth 0 (w_z o) 0 + nth (w_nz o - 1) (w_z o) 0) / 2)%Q iz end.
Definition PlaneY (o : wind) (y : option Q) (iy0 : option nat) (iy : nat) : Prop :=
  match y, iy0 with Some y, _ => Nearest (w_y o) y iy | None, Some i => iy = i | None, None => Nearest (w_y o) ((nth 0 (w_y o) 0 + nth (w_ny o - 1) (w_y o) 0) / 2)%Q iy end.
Lemma h_index_ok o z i iz : shaped_wind o -> PlaneZ o z i iz -> h_index o z i = Ok iz.
Proof.
  intros H P. pose proof (mid_ok o H) as (jy & jz & E & _ & _ & _ & Nz). destruct H as (Ly & Lz & _ & _ & P2 & P3). unfold PlaneZ in P. unfold h_index. destruct z as [z|].
  - destruct (w_y o) as [|y0 ys] eqn:Y; [cbn in Ly; lia|]. destruct (Nearest_exists (w_y o) y0) as (iy & Hy); [rewrite Y; discriminate|].
    assert (C : closest o y0 z = Ok (iy, iz)) by (apply C122_closest; split; assumption). rewrite C. reflexivity.
  - destruct i as [i|]; [subst; reflexivity|]. rewrite E. cbn [bind snd]. f_equal. apply (Nearest_unique _ _ _ _ Nz P).
Qed.
Lemma v_index_ok o y i iy : shaped_wind o -> PlaneY o y i iy -> v_index o y i = Ok iy.
Proof.
  intros H P. pose proof (mid_ok o H) as (jy & jz & E & _ & _ & Ny & _). destruct H as (Ly & Lz & _ & _ & P2 & P3). unfold PlaneY in P. unfold v_index. destruct y as [y|].
  - destruct (w_z o) as [|z0 zs] eqn:Z; [cbn in Lz; lia|]. destruct (Nearest_exists (w_z o) z0) as (iz & Hz); [rewrite Z; discriminate|].
    assert (C : closest o y z0 = Ok (iy, iz)) by (apply C122_closest; split; assumption). rewrite C. reflexivity.
  - destruct i as [i|]; [subst; reflexivity|]. rewrite E. cbn [bind fst]. f_equal. apply (Nearest_unique _ _ _ _ Ny P).
Qed.
Theorem C130_horizontal : forall o z iz0 iz removeMean, shaped_wind o -> PlaneZ o z iz0 iz ->
  (iz < w_nz o -> exists p u', h_plane o z iz0 removeMean = Ok (p, u') /\
     (forall k it iy, (p k it iy == w_u o k it iy iz - if removeMean then avg2 (w_nt o) (w_ny o) (fun i j => w_u o k i j iz) else 0)%Q) /\
     (forall k it iy jz, u' k it iy jz = if Nat.eqb jz iz then p k it iy else w_u o k it iy jz)) /\
  (w_nz o <= iz -> h_plane o z iz0 removeMean = Err IndexError).
Proof.
  intros o z i iz rm H P. unfold h_plane. rewrite (h_index_ok o z i iz H P). cbn [bind]. split; intro B.
  - replace (iz <? w_nz o) with true by lia. cbn [negb]. do 2 eexists. split; [reflexivity|]. cbn beta. unfold horizontalPlane. destruct rm.
    + split.
      * intros k it iy. rewrite Nat.eqb_refl. unfold plane_ty. rewrite mean_plane. reflexivity.
      * intros k it iy jz. destruct (Nat.eqb_spec jz iz) as [->|N]; [rewrite Nat.eqb_refl|]; reflexivity.
    + split; [intros; ring|]. intros k it iy jz. destruct (Nat.eqb_spec jz iz) as [->|N]; reflexivity.
  - replace (iz <? w_nz o) with false by lia. reflexivity.
Qed.
Print Assumptions C130_horizontal.
Theorem C130_vertical : forall o y iy0 iy removeMean, shaped_wind o -> PlaneY o y iy0 iy ->
  (iy < w_ny o -> exists p u', v_plane o y iy0 removeMean = Ok (p, u') /\
     (forall k it iz, (p k it iz == w_u o k it iy iz - if removeMean then avg2 (w_nt o) (w_nz o) (fun i j => w_u o k i iy j) else 0)%Q) /\
     (forall k it jy iz, u' k it jy iz = if Nat.eqb jy iy then p k it iz else w_u o k it jy iz)) /\
  (w_ny o <= iy -> v_plane o y iy0 removeMean = Err IndexError).
Proof.
  intros o y i iy rm H P. unfold v_plane. rewrite (v_index_ok o y i iy H P). cbn [bind]. split; intro B.
  - replace (iy <? w_ny o) with true by lia. cbn [negb]. do 2 eexists. split; [reflexivity|]. cbn beta. unfold verticalPlane. destruct rm.
    + split.
      * intros k it iz. rewrite Nat.eqb_refl. unfold plane_tz. rewrite mean_plane. reflexivity.
      * intros k it jy iz. destruct (Nat.eqb_spec jy iy) as [->|N]; [rewrite Nat.eqb_refl|]; reflexivity.
    + split; [intros; ring|]. intros k it jy iz. destruct (Nat.eqb_spec jy iy) as [->|N]; reflexivity.
  - replace (iy <? w_ny o) with false by lia. reflexivity.
Qed.
Print Assumptions C130_vertical.
(** With removeMean the box itself loses the average of the plane *)
Theorem C130_changes_refuted : forall o iz k, shaped_wind o -> iz < w_nz o -> ~ (avg2 (w_nt o) (w_ny o) (fun i j => w_u o k i j iz) == 0)%Q ->
  exists p u', h_plane o None (Some iz) true = Ok (p, u') /\ forall it iy, ~ (u' k it iy iz == w_u o k it iy iz)%Q.
Proof.
  intros o iz k H B N. destruct (C130_horizontal o None (Some iz) iz true H eq_refl) as (X & _). destruct (X B) as (p & u' & E & V & U). exists p, u'. split; [exact E|].
  intros it iy. rewrite U, Nat.eqb_refl, V. intro Y. apply N. lra.
Qed.
Print Assumptions C130_changes_refuted.

(** ** A concrete case: two steps, two positions, the second in phase opposition *)
Definition opposed : wind :=
  mk_wind 2 2 1 (fun k it iy _ => inject_Z (10 + (if Nat.eqb it iy then 1 else -1))) [-5; 5]%Q [10]%Q [0; 1]%Q None None None None None.
Definition one_root (q : Q) : Q := if Qeq_bool q 1 then 1%Q else 0%Q.
Example C129_example : exists ry rz, xcorr_tables one_root opposed = Ok [([-5; 5]%Q, ry); ([10]%Q, rz)] /\
  (exists a b, ry = [(Some a, Some a, Some a); (Some b, Some b, Some b)] /\ (a == 1)%Q /\ (b == -1)%Q) /\ shaped_wind opposed /\
  (one_root (var 2 (fun it => w_u opposed 0%nat it 0%nat 0%nat)) * one_root (var 2 (fun it => w_u opposed 0%nat it 0%nat 0%nat)) == var 2 (fun it => w_u opposed 0%nat it 0%nat 0%nat))%Q.
Proof.
  destruct (xcorr_tables one_root opposed) as [l|] eqn:E; [|vm_compute in E; discriminate E]. vm_compute in E. injection E as <-.
  eexists. eexists. split; [reflexivity|]. split; [do 2 eexists; split; [reflexivity|split; reflexivity]|]. split; [repeat split; cbn; lia|]. vm_compute. reflexivity.
Qed.
Example C130_example : exists p u', h_plane opposed (Some 3%Q) None true = Ok (p, u') /\ (p 0%nat 0%nat 0%nat == 1)%Q /\ (u' 0%nat 1%nat 0%nat 0%nat == -1)%Q.
Proof. eexists. eexists. split; [reflexivity|]. split; vm_compute; reflexivity. Qed.
