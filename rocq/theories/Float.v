(** IEEE-754 binary interchange formats, as used by [struct.pack('<f')], [struct.pack('<d')] and the
    conversion of a python float to np.float32: rounding to nearest, ties to even, with subnormals, an
    explicit overflow outcome, and the bit patterns.  Finite numbers are rationals.
    SIMPLIFICATION: negative zero is not distinguished from zero; infinities and NaNs decode to None. *)
From Verif Require Import Py.
From Coq Require Import QArith Qabs Qround Qpower ZifyBool ZifyNat Lqa.
Open Scope Z_scope.

(** Nearest integer to n/d (d > 0), ties to even. *)
Definition round_ne (n d : Z) : Z :=
  let q := n / d in
  let r := n mod d in
  if 2 * r <? d then q
  else if d <? 2 * r then q + 1
  else if Z.even q then q else q + 1.

(** A format: [prec] significant bits (hidden bit included) and [wid] exponent bits. *)
Record fmt := { prec : Z; wid : Z }.
Definition binary32 : fmt := {| prec := 24; wid := 8 |}.
Definition binary64 : fmt := {| prec := 53; wid := 11 |}.
(** Exponent of the last bit of the smallest numbers. *)
Definition emin (f : fmt) : Z := 3 - 2 ^ (wid f - 1) - prec f.

Definition good_fmt (f : fmt) : Prop := 1 < prec f /\ 1 < wid f.

(** Exponent of the last bit of a/d once rounded to [prec] bits, before clamping. *)
Definition nexp (f : fmt) (a d : Z) : Z :=
  let k := Z.log2 a - Z.log2 d in
  (* a/d < 2^k ? *)
  if a * 2 ^ Z.max 0 (- k) <? d * 2 ^ Z.max 0 k then k - prec f else k - prec f + 1.
Definition fexp (f : fmt) (a d : Z) : Z := Z.max (emin f) (nexp f a d).

(** Significand and exponent of the rounded absolute value of [q]. *)
Definition mant (f : fmt) (q : Q) : Z * Z :=
  let a := Z.abs (Qnum q) in
  let d := Zpos (Qden q) in
  let e := fexp f a d in
  (round_ne (a * 2 ^ Z.max 0 (- e)) (d * 2 ^ Z.max 0 e), e).

(** The rounded value (as if the exponent range were unbounded above). *)
Definition rnd (f : fmt) (q : Q) : Q :=
  if Qnum q =? 0 then 0%Q else
  let '(m, e) := mant f q in (inject_Z (Z.sgn (Qnum q) * m) * Qpower (2#1) e)%Q.

(** Bit pattern: sign, biased exponent, fraction; None on overflow (python: OverflowError). *)
Definition encode (f : fmt) (q : Q) : option Z :=
  if Qnum q =? 0 then Some 0 else
  let '(m, e) := mant f q in
  let bits := (e - emin f) * 2 ^ (prec f - 1) + m in
  if bits <? (2 ^ wid f - 1) * 2 ^ (prec f - 1)
  then Some (bits + (if Qnum q <? 0 then 2 ^ (prec f - 1 + wid f) else 0))
  else None.
Definition decode (f : fmt) (b : Z) : option Q :=
  let s := b / 2 ^ (prec f - 1 + wid f) in
  let r := b mod 2 ^ (prec f - 1 + wid f) in
  let be := r / 2 ^ (prec f - 1) in
  let fr := r mod 2 ^ (prec f - 1) in
  let sg := if s =? 0 then 1 else -1 in
  if be =? 2 ^ wid f - 1 then None
  else if be =? 0 then Some (inject_Z (sg * fr) * Qpower (2#1) (emin f))%Q
  else Some (inject_Z (sg * (2 ^ (prec f - 1) + fr)) * Qpower (2#1) (emin f + be - 1))%Q.

(** ** Correctness of the rounding *)

Lemma round_ne_spec n d : 0 < d -> Z.abs (2 * (round_ne n d * d - n)) <= d.
Proof.
  intro Hd. unfold round_ne. cbv zeta. pose proof (Z.div_mod n d ltac:(lia)) as E.
  pose proof (Z.mod_pos_bound n d Hd) as B. set (q := n / d) in *. set (r := n mod d) in *.
  destruct (Z.ltb_spec (2 * r) d); [nia|].
  destruct (Z.ltb_spec d (2 * r)); [nia|].
  destruct (Z.even q); nia.
Qed.
Lemma round_ne_exact n d : 0 < d -> round_ne (n * d) d = n.
Proof.
  intro Hd. unfold round_ne. cbv zeta. rewrite Z.div_mul, Z_mod_mult by lia.
  destruct (Z.ltb_spec (2 * 0) d); lia.
Qed.
Lemma round_ne_ge n d k : 0 < d -> k * d <= n -> k <= round_ne n d.
Proof.
  intros Hd H. pose proof (round_ne_spec n d Hd). destruct (Z_lt_le_dec (round_ne n d) k) as [Hl|]; [|assumption].
  (* 2*(n - m*d) <= d, m <= k-1 -> n >= k d = ... *)
  nia.
Qed.
Lemma round_ne_le n d k : 0 < d -> n <= k * d -> round_ne n d <= k.
Proof.
  intros Hd H. pose proof (round_ne_spec n d Hd). destruct (Z_lt_le_dec k (round_ne n d)) as [Hl|]; [|assumption].
  nia.
Qed.

(** [2^k] as a fraction of two integer powers. *)
Definition p2n (k : Z) := 2 ^ Z.max 0 k.
Lemma p2n_pos k : 0 < p2n k.
Proof. unfold p2n. apply Z.pow_pos_nonneg; lia. Qed.
Lemma p2n_S k : p2n (k + 1) * p2n (- k) = 2 * (p2n k * p2n (- (k + 1))).
Proof.
  unfold p2n. destruct (Z_lt_le_dec k 0).
  - rewrite (Z.max_l 0 (k + 1)) by lia. rewrite (Z.max_l 0 k) by lia.
    rewrite (Z.max_r 0 (- k)) by lia. rewrite (Z.max_r 0 (- (k + 1))) by lia.
    change (2 ^ 0) with 1. replace (- k) with (Z.succ (- (k + 1))) by lia. rewrite Z.pow_succ_r by lia. lia.
  - rewrite (Z.max_r 0 (k + 1)) by lia. rewrite (Z.max_r 0 k) by lia.
    rewrite (Z.max_l 0 (- k)) by lia. rewrite (Z.max_l 0 (- (k + 1))) by lia.
    change (2 ^ 0) with 1. replace (k + 1) with (Z.succ k) by lia. rewrite Z.pow_succ_r by lia. lia.
Qed.
Lemma p2n_add j k : 0 <= j -> p2n (k + j) * p2n (- k) = 2 ^ j * (p2n k * p2n (- (k + j))).
Proof.
  intro Hj. unfold p2n. 
  destruct (Z_lt_le_dec k 0).
  - rewrite (Z.max_l 0 k) by lia. rewrite (Z.max_r 0 (- k)) by lia. change (2 ^ 0) with 1.
    destruct (Z_lt_le_dec (k + j) 0).
    + rewrite (Z.max_l 0 (k + j)), (Z.max_r 0 (- (k + j))) by lia. change (2 ^ 0) with 1.
      replace (- k) with (j + - (k + j)) by lia. rewrite Z.pow_add_r by lia. lia.
    + rewrite (Z.max_r 0 (k + j)), (Z.max_l 0 (- (k + j))) by lia. change (2 ^ 0) with 1.
      rewrite <- Z.pow_add_r by lia. rewrite !Z.mul_1_r. f_equal. lia.
  - rewrite (Z.max_r 0 k), (Z.max_l 0 (- k)), (Z.max_r 0 (k + j)), (Z.max_l 0 (- (k + j))) by lia.
    change (2 ^ 0) with 1. rewrite Z.pow_add_r by lia. lia.
Qed.

(** [nexp] is the exponent that puts a/d between 2^(p-1) and 2^p last bits. *)
Lemma log_ratio a d : 0 < a -> 0 < d -> let k := Z.log2 a - Z.log2 d in
  d * p2n (k - 1) < 2 * a * p2n (- (k - 1)) /\ d * p2n (k - 1) <= a * p2n (- (k - 1)) /\ a * p2n (- (k + 1)) < d * p2n (k + 1).
Proof.
  intros Ha Hd k. destruct (Z.log2_spec a Ha) as [A1 A2]. destruct (Z.log2_spec d Hd) as [D1 D2].
  pose proof (Z.log2_nonneg a). pose proof (Z.log2_nonneg d).
  set (la := Z.log2 a) in *. set (ld := Z.log2 d) in *.
  assert (H1 : d * p2n (k - 1) <= a * p2n (- (k - 1))).
  { unfold p2n. destruct (Z_lt_le_dec (k - 1) 0).
    - rewrite (Z.max_l 0 (k - 1)), (Z.max_r 0 (- (k - 1))) by lia. change (2 ^ 0) with 1.
      (* d < 2^(ld+1) = 2^(la - (k-1)) = 2^la * 2^-(k-1) *)
      assert (2 ^ Z.succ ld = 2 ^ la * 2 ^ (- (k - 1))) by (rewrite <- Z.pow_add_r by lia; f_equal; lia).
      pose proof (Z.pow_pos_nonneg 2 (- (k - 1))). nia.
    - rewrite (Z.max_r 0 (k - 1)), (Z.max_l 0 (- (k - 1))) by lia. change (2 ^ 0) with 1.
      assert (2 ^ la = 2 ^ Z.succ ld * 2 ^ (k - 1)) by (rewrite <- Z.pow_add_r by lia; f_equal; lia).
      pose proof (Z.pow_pos_nonneg 2 (k - 1)). nia. }
  split; [|split].
  - pose proof (p2n_pos (- (k - 1))). nia.
  - exact H1.
  - unfold p2n. destruct (Z_lt_le_dec (k + 1) 0).
    + rewrite (Z.max_l 0 (k + 1)), (Z.max_r 0 (- (k + 1))) by lia. change (2 ^ 0) with 1.
      assert (2 ^ Z.succ la * 2 ^ (- (k + 1)) = 2 ^ ld) by (rewrite <- Z.pow_add_r by lia; f_equal; lia).
      pose proof (Z.pow_pos_nonneg 2 (- (k + 1))). nia.
    + rewrite (Z.max_r 0 (k + 1)), (Z.max_l 0 (- (k + 1))) by lia. change (2 ^ 0) with 1.
      assert (2 ^ Z.succ la = 2 ^ ld * 2 ^ (k + 1)) by (rewrite <- Z.pow_add_r by lia; f_equal; lia).
      pose proof (Z.pow_pos_nonneg 2 (k + 1)). nia.
Qed.

Lemma shift_ge a d k j : 0 <= j -> d * p2n (k + j) <= a * p2n (- (k + j)) -> 2 ^ j * (d * p2n k) <= a * p2n (- k).
Proof.
  intros Hj H. pose proof (p2n_add j k Hj) as E.
  pose proof (p2n_pos k). pose proof (p2n_pos (- k)). pose proof (p2n_pos (k + j)). pose proof (p2n_pos (- (k + j))).
  pose proof (Z.pow_pos_nonneg 2 j eq_refl Hj).
  apply Z.mul_le_mono_pos_r with (p2n (- (k + j))); [assumption|].
  replace (2 ^ j * (d * p2n k) * p2n (- (k + j))) with (d * (2 ^ j * (p2n k * p2n (- (k + j))))) by ring.
  rewrite <- E. nia.
Qed.
Lemma shift_lt a d k j : 0 <= j -> a * p2n (- (k + j)) < d * p2n (k + j) -> a * p2n (- k) < 2 ^ j * (d * p2n k).
Proof.
  intros Hj H. pose proof (p2n_add j k Hj) as E.
  pose proof (p2n_pos k). pose proof (p2n_pos (- k)). pose proof (p2n_pos (k + j)). pose proof (p2n_pos (- (k + j))).
  pose proof (Z.pow_pos_nonneg 2 j eq_refl Hj).
  apply Z.mul_lt_mono_pos_r with (p2n (- (k + j))); [assumption|].
  replace (2 ^ j * (d * p2n k) * p2n (- (k + j))) with (d * (2 ^ j * (p2n k * p2n (- (k + j))))) by ring.
  rewrite <- E. nia.
Qed.

Lemma nexp_spec f a d : 0 < prec f -> 0 < a -> 0 < d -> let e := nexp f a d in
  2 ^ (prec f - 1) * (d * p2n e) <= a * p2n (- e) /\ a * p2n (- e) < 2 ^ prec f * (d * p2n e).
Proof.
  intros Hp Ha Hd. cbv zeta. unfold nexp. cbv zeta. destruct (log_ratio a d Ha Hd) as (_ & L1 & L2).
  set (k := Z.log2 a - Z.log2 d) in *. fold (p2n (- k)). fold (p2n k).
  destruct (Z.ltb_spec (a * p2n (- k)) (d * p2n k)) as [H|H]; split.
  - apply shift_ge; [lia|]. replace (k - prec f + (prec f - 1)) with (k - 1) by lia. exact L1.
  - apply shift_lt; [lia|]. replace (k - prec f + prec f) with k by lia. exact H.
  - apply shift_ge; [lia|]. replace (k - prec f + 1 + (prec f - 1)) with k by lia. exact H.
  - apply shift_lt; [lia|]. replace (k - prec f + 1 + prec f) with (k + 1) by lia. exact L2.
Qed.

(** Upper bound on the significand for the clamped exponent. *)
Lemma fexp_upper f a d : 0 < prec f -> 0 < a -> 0 < d -> let e := fexp f a d in
  a * p2n (- e) < 2 ^ prec f * (d * p2n e).
Proof.
  intros Hp Ha Hd. cbv zeta. unfold fexp. destruct (nexp_spec f a d Hp Ha Hd) as [_ H].
  set (e := nexp f a d) in *. destruct (Z_lt_le_dec e (emin f)) as [Hl|Hl].
  - rewrite Z.max_l by lia.
    assert (H' : a * p2n (- e) < 2 ^ prec f * d * p2n e) by lia.
    set (j := emin f - e). replace (emin f) with (e + j) by lia.
    pose proof (p2n_add j e ltac:(lia)) as E.
    pose proof (p2n_pos e). pose proof (p2n_pos (- e)). pose proof (p2n_pos (e + j)). pose proof (p2n_pos (- (e + j))).
    pose proof (Z.pow_pos_nonneg 2 j eq_refl ltac:(lia)).
    apply Z.mul_lt_mono_pos_r with (p2n (- e)); [assumption|].
    replace (2 ^ prec f * (d * p2n (e + j)) * p2n (- e)) with (2 ^ prec f * d * (p2n (e + j) * p2n (- e))) by ring.
    rewrite E. 
    assert (a * p2n (- e) * p2n (- (e + j)) < 2 ^ prec f * d * p2n e * p2n (- (e + j))) by nia.
    assert (0 < 2 ^ prec f * d * p2n e * p2n (- (e + j))).
    { pose proof (Z.pow_pos_nonneg 2 (prec f) eq_refl ltac:(lia)). repeat apply Z.mul_pos_pos; assumption. }
    nia.
  - rewrite Z.max_r by lia. exact H.
Qed.

Lemma mant_inv f q m e : mant f q = (m, e) ->
  round_ne (Z.abs (Qnum q) * p2n (- e)) (Zpos (Qden q) * p2n e) = m /\ fexp f (Z.abs (Qnum q)) (Zpos (Qden q)) = e.
Proof.
  intro H. pose proof (f_equal fst H) as H1. pose proof (f_equal snd H) as H2. unfold mant in H1, H2. cbv zeta in H1, H2.
  cbn [fst snd] in H1, H2. rewrite H2 in H1. split; assumption.
Qed.
Lemma mant_bounds f q m e : good_fmt f -> Qnum q <> 0 -> mant f q = (m, e) ->
  0 <= m <= 2 ^ prec f /\ emin f <= e /\ (emin f < e -> 2 ^ (prec f - 1) <= m).
Proof.
  intros [Hp _] Hq H. apply mant_inv in H as [Hm He]. subst e.
  assert (Ha : 0 < Z.abs (Qnum q)) by lia. set (a := Z.abs (Qnum q)) in *.
  assert (Hd : 0 < Zpos (Qden q)) by lia. set (d := Zpos (Qden q)) in *.
  pose proof (fexp_upper f a d ltac:(lia) Ha Hd) as U. cbv zeta in U.
  pose proof (p2n_pos (fexp f a d)). pose proof (p2n_pos (- fexp f a d)).
  subst m. split; [split|split].
  - apply round_ne_ge; nia.
  - apply round_ne_le; nia.
  - unfold fexp. lia.
  - intro Hlt. assert (E : fexp f a d = nexp f a d) by (unfold fexp in *; lia).
    destruct (nexp_spec f a d ltac:(lia) Ha Hd) as [L _]. cbv zeta in L. rewrite E.
    pose proof (p2n_pos (nexp f a d)).
    apply round_ne_ge; [nia|]. lia.
Qed.

Lemma two_nz : ~ (2 # 1 == 0)%Q. Proof. intro H. discriminate H. Qed.
Lemma qpow_pos e : (0 < Qpower (2 # 1) e)%Q.
Proof. apply Qpower_0_lt. reflexivity. Qed.
Lemma qpow_Z e : 0 <= e -> (Qpower (2 # 1) e == inject_Z (2 ^ e))%Q.
Proof. intro H. rewrite Zpower_Qpower by exact H. reflexivity. Qed.
Lemma qpow_p2n e : (Qpower (2 # 1) e * inject_Z (p2n (- e)) == inject_Z (p2n e))%Q.
Proof.
  unfold p2n. destruct (Z_lt_le_dec e 0).
  - rewrite (Z.max_l 0 e), (Z.max_r 0 (- e)) by lia. rewrite <- qpow_Z by lia.
    rewrite <- Qpower_plus by apply two_nz. replace (e + - e) with 0 by lia. reflexivity.
  - rewrite (Z.max_r 0 e), (Z.max_l 0 (- e)) by lia. rewrite qpow_Z by lia. change (inject_Z (2 ^ 0)) with 1%Q. ring.
Qed.
Lemma qpow_S e : (Qpower (2 # 1) (e + 1) == 2 * Qpower (2 # 1) e)%Q.
Proof. rewrite Qpower_plus by apply two_nz. change ((2 # 1) ^ 1)%Q with (2#1)%Q. ring. Qed.

(** ** Decoding what was encoded gives the rounded value *)

Lemma decode_encode f q b : good_fmt f -> encode f q = Some b -> exists v, decode f b = Some v /\ (v == rnd f q)%Q.
Proof.
  intros Hg H. pose proof Hg as [Hp Hw]. unfold encode in H. unfold rnd.
  set (P := 2 ^ (prec f - 1)) in *. assert (HP : 0 < P) by (apply Z.pow_pos_nonneg; lia).
  assert (HPW : 2 ^ (prec f - 1 + wid f) = P * 2 ^ wid f) by (unfold P; apply Z.pow_add_r; lia).
  assert (HPP : 2 ^ prec f = 2 * P) by (unfold P; rewrite <- Z.pow_succ_r by lia; f_equal; lia).
  set (W := 2 ^ wid f) in *. assert (HW : 4 <= W).
  { unfold W. change 4 with (2 ^ 2). apply Z.pow_le_mono_r; lia. }
  destruct (Z.eqb_spec (Qnum q) 0) as [H0|H0].
  - injection H as <-. unfold decode. cbv zeta. fold P W. rewrite HPW.
    rewrite (Z.mod_0_l (P * W)), (Z.div_0_l (P * W)), (Z.div_0_l P), (Z.mod_0_l P) by nia.
    destruct (Z.eqb_spec 0 (W - 1)); [lia|]. cbn [Z.eqb]. eexists. split; [reflexivity|]. 
    change (inject_Z (1 * 0)) with 0%Q. ring.
  - destruct (mant f q) as [m e] eqn:Em.
    destruct (mant_bounds f q m e Hg H0 Em) as (Hm & He & Hn). fold P in Hn. rewrite HPP in Hm.
    destruct (Z.ltb_spec ((e - emin f) * P + m) ((W - 1) * P)) as [Hb|]; [|discriminate].
    injection H as <-. set (sg := if Qnum q <? 0 then 2 ^ (prec f - 1 + wid f) else 0).
    set (r := (e - emin f) * P + m) in *.
    assert (Hr : 0 <= r < P * W) by nia.
    assert (Es : (r + sg) / (P * W) = if Qnum q <? 0 then 1 else 0).
    { unfold sg. rewrite HPW. destruct (Qnum q <? 0).
      - replace (r + P * W) with (r + 1 * (P * W)) by lia. rewrite Z.div_add by nia. rewrite Z.div_small by lia. lia.
      - rewrite Z.add_0_r. apply Z.div_small. lia. }
    assert (Er : (r + sg) mod (P * W) = r).
    { unfold sg. rewrite HPW. destruct (Qnum q <? 0).
      - replace (r + P * W) with (r + 1 * (P * W)) by lia. rewrite Z_mod_plus_full. apply Z.mod_small. lia.
      - rewrite Z.add_0_r. apply Z.mod_small. lia. }
    unfold decode. cbv zeta. fold P W. rewrite HPW, Es, Er.
    assert (Esg : (if (if Qnum q <? 0 then 1 else 0) =? 0 then 1 else -1) = Z.sgn (Qnum q)).
    { destruct (Z.ltb_spec (Qnum q) 0); cbn; lia. }
    rewrite Esg. set (g := Z.sgn (Qnum q)).
    (* three cases: m < P, P <= m < 2P, m = 2P *)
    destruct (Z_lt_le_dec m P) as [C1|C1].
    + assert (e = emin f) by (destruct (Z_lt_le_dec (emin f) e); [specialize (Hn ltac:(assumption)); lia|lia]).
      subst e. assert (r = m) by (unfold r; lia).
      assert (Eb : r / P = 0) by (apply Z.div_small; lia).
      assert (Ef : r mod P = m) by (rewrite Z.mod_small; lia).
      rewrite Eb, Ef. destruct (Z.eqb_spec 0 (W - 1)); [lia|]. cbn [Z.eqb]. eexists. split; [reflexivity|]. reflexivity.
    + destruct (Z_lt_le_dec m (2 * P)) as [C2|C2].
      * assert (Eb : r / P = e - emin f + 1).
        { symmetry. apply Z.div_unique with (m - P); unfold r; lia. }
        assert (Ef : r mod P = m - P).
        { symmetry. apply Z.mod_unique with (e - emin f + 1); unfold r; lia. }
        rewrite Eb, Ef. destruct (Z.eqb_spec (e - emin f + 1) (W - 1)); [exfalso; unfold r in Hb; nia|].
        destruct (Z.eqb_spec (e - emin f + 1) 0); [lia|]. eexists. split; [reflexivity|].
        replace (P + (m - P)) with m by lia. replace (emin f + (e - emin f + 1) - 1) with e by lia. reflexivity.
      * assert (m = 2 * P) by lia. subst m.
        assert (Eb : r / P = e - emin f + 2).
        { symmetry. apply Z.div_unique with 0; unfold r; lia. }
        assert (Ef : r mod P = 0).
        { symmetry. apply Z.mod_unique with (e - emin f + 2); unfold r; lia. }
        rewrite Eb, Ef. destruct (Z.eqb_spec (e - emin f + 2) (W - 1)); [exfalso; unfold r in Hb; nia|].
        destruct (Z.eqb_spec (e - emin f + 2) 0); [lia|]. eexists. split; [reflexivity|].
        replace (emin f + (e - emin f + 2) - 1) with (e + 1) by lia. rewrite qpow_S.
        rewrite Z.add_0_r. replace (g * (2 * P)) with (2 * (g * P)) by lia.
        rewrite (inject_Z_mult 2). change (inject_Z 2) with 2%Q. ring.
Qed.

Lemma encode_range f q b : good_fmt f -> encode f q = Some b -> 0 <= b < 2 ^ (prec f + wid f).
Proof.
  intros Hg H. pose proof Hg as [Hp Hw]. unfold encode in H.
  assert (HPW : 2 ^ (prec f + wid f) = 2 * (2 ^ (prec f - 1) * 2 ^ wid f)).
  { rewrite <- Z.pow_add_r by lia. rewrite <- Z.pow_succ_r by lia. f_equal. lia. }
  assert (HPW' : 2 ^ (prec f - 1 + wid f) = 2 ^ (prec f - 1) * 2 ^ wid f) by (apply Z.pow_add_r; lia).
  pose proof (Z.pow_pos_nonneg 2 (prec f - 1) eq_refl ltac:(lia)) as PP. pose proof (Z.pow_pos_nonneg 2 (wid f) eq_refl ltac:(lia)) as PW.
  rewrite HPW. rewrite HPW' in H. set (P := 2 ^ (prec f - 1)) in *. set (W := 2 ^ wid f) in *.
  destruct (Z.eqb_spec (Qnum q) 0) as [H0|H0]; [injection H as <-; nia|].
  destruct (mant f q) as [m e] eqn:Em.
  destruct (mant_bounds f q m e Hg H0 Em) as (Hm & He & Hn).
  destruct (Z.ltb_spec ((e - emin f) * P + m) ((W - 1) * P)); [|discriminate]. injection H as <-.
  destruct (Qnum q <? 0); nia.
Qed.

(** ** Rounding error *)

Lemma abs_div_num (q : Q) : (Qabs q == inject_Z (Z.abs (Qnum q)) / inject_Z (Zpos (Qden q)))%Q.
Proof. destruct q as [n d]. unfold Qabs, Qdiv, Qeq. cbn. lia. Qed.
Lemma sgn_q (q : Q) : (q == inject_Z (Z.sgn (Qnum q)) * Qabs q)%Q.
Proof. destruct q as [n d]. unfold Qeq. cbn. destruct n; cbn; lia. Qed.

Lemma rnd_sgn f q m e : Qnum q <> 0 -> mant f q = (m, e) ->
  (rnd f q == inject_Z (Z.sgn (Qnum q)) * (inject_Z m * Qpower (2 # 1) e))%Q.
Proof.
  intros H0 Hm. unfold rnd. destruct (Z.eqb_spec (Qnum q) 0); [contradiction|]. rewrite Hm.
  rewrite inject_Z_mult. ring.
Qed.

(** Absolute error: half a unit of the last place. *)
Lemma rnd_abs_err f q m e : good_fmt f -> Qnum q <> 0 -> mant f q = (m, e) ->
  (2 * Qabs (rnd f q - q) <= Qpower (2 # 1) e)%Q.
Proof.
  intros Hg H0 Hm. rewrite (rnd_sgn f q m e H0 Hm).
  set (s := inject_Z (Z.sgn (Qnum q))). pose proof (sgn_q q) as Eq. fold s in Eq.
  assert (Es : (Qabs s == 1)%Q) by (unfold s; destruct (Qnum q) eqn:E; [contradiction| |]; reflexivity).
  assert (E1 : (s * (inject_Z m * Qpower (2 # 1) e) - q == s * (inject_Z m * Qpower (2 # 1) e - Qabs q))%Q).
  { rewrite Eq at 1. ring. }
  rewrite E1, Qabs_Qmult, Es, Qmult_1_l.
  apply mant_inv in Hm as [Hm He].
  set (a := Z.abs (Qnum q)) in *. set (d := Zpos (Qden q)) in *.
  assert (Ha : 0 < a) by (unfold a; lia). assert (Hd : 0 < d) by (unfold d; lia).
  pose proof (p2n_pos e) as Pe. pose proof (p2n_pos (- e)) as Pn.
  pose proof (round_ne_spec (a * p2n (- e)) (d * p2n e) ltac:(nia)) as R. rewrite Hm in R.
  rewrite (abs_div_num q). fold a d.
  pose proof (qpow_p2n e) as EP. set (x := Qpower (2 # 1) e) in *. pose proof (qpow_pos e) as Hx. fold x in Hx.
  (* multiply by d * p2n(-e) *)
  assert (Hdq : (0 < inject_Z d)%Q) by (change 0%Q with (inject_Z 0); rewrite <- Zlt_Qlt; exact Hd).
  assert (Hnq : (0 < inject_Z (p2n (- e)))%Q) by (change 0%Q with (inject_Z 0); rewrite <- Zlt_Qlt; exact Pn).
  assert (Hdn : ~ (inject_Z d == 0)%Q) by (intro Hc; rewrite Hc in Hdq; apply (Qlt_irrefl 0); exact Hdq).
  assert (Hz : (Qabs (inject_Z (2 * (m * (d * p2n e) - a * p2n (- e)))) <= inject_Z (d * p2n e))%Q).
  { change (Qabs (inject_Z (2 * (m * (d * p2n e) - a * p2n (- e))))) with (inject_Z (Z.abs (2 * (m * (d * p2n e) - a * p2n (- e))))).
    rewrite <- Zle_Qle. exact R. }
  assert (E2 : (inject_Z (2 * (m * (d * p2n e) - a * p2n (- e))) ==
                (inject_Z d * inject_Z (p2n (- e))) * (2 * (inject_Z m * x - inject_Z a / inject_Z d)))%Q).
  { unfold Z.sub. rewrite !inject_Z_mult, inject_Z_plus, inject_Z_opp, !inject_Z_mult. rewrite <- EP.
    change (inject_Z 2) with 2%Q. field. exact Hdn. }
  rewrite E2, Qabs_Qmult in Hz. rewrite (Qabs_Qmult 2) in Hz. change (Qabs 2) with 2%Q in Hz.
  rewrite (Qabs_pos (inject_Z d * inject_Z (p2n (- e)))) in Hz.
  2:{ apply Qlt_le_weak. apply Qmult_lt_0_compat; assumption. }
  rewrite inject_Z_mult, <- EP in Hz.
  assert (Hc : (0 < inject_Z d * inject_Z (p2n (- e)))%Q) by (apply Qmult_lt_0_compat; assumption).
  apply Qmult_le_l with (z := (inject_Z d * inject_Z (p2n (- e)))%Q); [exact Hc|].
  setoid_replace (inject_Z d * inject_Z (p2n (- e)) * x)%Q with (inject_Z d * (x * inject_Z (p2n (- e))))%Q by ring.
  exact Hz.
Qed.

(** Relative error at most 2^-prec for numbers in the normal range. *)
Lemma rnd_rel_err f q : good_fmt f -> (Qpower (2 # 1) (emin f + prec f - 1) <= Qabs q)%Q ->
  (Qabs (rnd f q - q) <= Qabs q * Qpower (2 # 1) (- prec f))%Q.
Proof.
  intros Hg Hn. pose proof Hg as [Hp Hw].
  assert (H0 : Qnum q <> 0).
  { intro E. assert (Eq : (Qabs q == 0)%Q) by (destruct q as [n d]; cbn in E; subst n; reflexivity).
    rewrite Eq in Hn. pose proof (qpow_pos (emin f + prec f - 1)). apply (Qlt_irrefl 0). eapply Qlt_le_trans; eassumption. }
  destruct (mant f q) as [m e] eqn:Em. pose proof (rnd_abs_err f q m e Hg H0 Em) as A.
  (* 2^(p-1) 2^e <= |q| *)
  assert (B : (inject_Z (2 ^ (prec f - 1)) * Qpower (2 # 1) e <= Qabs q)%Q).
  { apply mant_inv in Em as [_ He].
    set (a := Z.abs (Qnum q)) in *. set (d := Zpos (Qden q)) in *.
    assert (Ha : 0 < a) by (unfold a; lia). assert (Hd : 0 < d) by (unfold d; lia).
    destruct (Z_lt_le_dec (nexp f a d) (emin f)) as [Hl|Hl].
    - assert (e = emin f) by (subst e; unfold fexp; lia). subst e. rewrite H.
      rewrite <- qpow_Z by lia. rewrite <- Qpower_plus by apply two_nz.
      replace (prec f - 1 + emin f) with (emin f + prec f - 1) by lia. exact Hn.
    - assert (E : e = nexp f a d) by (subst e; unfold fexp; lia).
      destruct (nexp_spec f a d ltac:(lia) Ha Hd) as [L _]. cbv zeta in L. rewrite <- E in L.
      rewrite (abs_div_num q). fold a d.
      pose proof (p2n_pos e) as Pe. pose proof (p2n_pos (- e)) as Pn. pose proof (qpow_p2n e) as EP.
      set (x := Qpower (2 # 1) e) in *.
      assert (Hdq : (0 < inject_Z d)%Q) by (change 0%Q with (inject_Z 0); rewrite <- Zlt_Qlt; exact Hd).
      assert (Hnq : (0 < inject_Z (p2n (- e)))%Q) by (change 0%Q with (inject_Z 0); rewrite <- Zlt_Qlt; exact Pn).
      apply Qle_shift_div_l; [exact Hdq|].
      rewrite Zle_Qle in L. rewrite !inject_Z_mult in L. rewrite <- EP in L.
      apply Qmult_le_r with (z := inject_Z (p2n (- e))); [exact Hnq|].
      setoid_replace (inject_Z (2 ^ (prec f - 1)) * x * inject_Z d * inject_Z (p2n (- e)))%Q
        with (inject_Z (2 ^ (prec f - 1)) * (inject_Z d * (x * inject_Z (p2n (- e)))))%Q by ring.
      exact L. }
  rewrite <- qpow_Z in B by lia.
  assert (E3 : (Qpower (2 # 1) e == 2 * (Qpower (2 # 1) (prec f - 1) * Qpower (2 # 1) e * Qpower (2 # 1) (- prec f)))%Q).
  { rewrite <- !Qpower_plus by apply two_nz. rewrite <- qpow_S.
    replace (prec f - 1 + e + - prec f + 1) with e by lia. reflexivity. }
  rewrite E3 in A.
  assert (C : (Qabs (rnd f q - q) <= Qpower (2 # 1) (prec f - 1) * Qpower (2 # 1) e * Qpower (2 # 1) (- prec f))%Q) by lra.
  eapply Qle_trans; [exact C|]. apply Qmult_le_compat_r; [exact B|]. apply Qlt_le_weak, qpow_pos.
Qed.

(** Numbers of the format are not changed. *)
Lemma rnd_exact f q M E : good_fmt f -> Z.abs M < 2 ^ prec f -> emin f <= E ->
  (q == inject_Z M * Qpower (2 # 1) E)%Q -> (rnd f q == q)%Q.
Proof.
  intros Hg HM HE Hq. pose proof Hg as [Hp Hw].
  destruct (Z.eq_dec (Qnum q) 0) as [H0|H0].
  { unfold rnd. rewrite H0. destruct q as [n d]. cbn in H0. subst n. reflexivity. }
  destruct (mant f q) as [m e] eqn:Em. rewrite (rnd_sgn f q m e H0 Em).
  rewrite (sgn_q q) at 2. apply Qmult_comp; [reflexivity|].
  apply mant_inv in Em as [Hm He].
  set (a := Z.abs (Qnum q)) in *. set (d := Zpos (Qden q)) in *.
  assert (Ha : 0 < a) by (unfold a; lia). assert (Hd : 0 < d) by (unfold d; lia).
  (* a * p2n(-E) = |M| * d * p2n E *)
  assert (HME : a * p2n (- E) = Z.abs M * (d * p2n E)).
  { assert (Hq' : (Qabs q == inject_Z (Z.abs M) * Qpower (2 # 1) E)%Q).
    { rewrite Hq, Qabs_Qmult. rewrite (Qabs_pos (Qpower (2 # 1) E)) by (apply Qlt_le_weak, qpow_pos). reflexivity. }
    rewrite abs_div_num in Hq'. fold a d in Hq'. pose proof (qpow_p2n E) as EP.
    assert (Hdn : ~ (inject_Z d == 0)%Q) by (change 0%Q with (inject_Z 0); rewrite inject_Z_injective; lia).
    apply inject_Z_injective. rewrite !inject_Z_mult. rewrite <- EP.
    setoid_replace (inject_Z a) with (inject_Z a / inject_Z d * inject_Z d)%Q by (field; exact Hdn).
    rewrite Hq'. ring. }
  assert (Hle : e <= E).
  { subst e. unfold fexp. apply Z.max_lub; [exact HE|].
    destruct (Z_lt_le_dec E (nexp f a d)) as [Hlt|]; [|assumption]. exfalso.
    destruct (nexp_spec f a d ltac:(lia) Ha Hd) as [L _]. cbv zeta in L.
    set (j := nexp f a d - E) in *. replace (nexp f a d) with (E + j) in L by lia.
    pose proof (p2n_add j E ltac:(lia)) as EA.
    pose proof (p2n_pos E). pose proof (p2n_pos (- E)). pose proof (p2n_pos (E + j)). pose proof (p2n_pos (- (E + j))).
    assert (HP : 2 ^ prec f = 2 * 2 ^ (prec f - 1)) by (rewrite <- Z.pow_succ_r by lia; f_equal; lia).
    assert (Hj : 2 <= 2 ^ j) by (change 2 with (2 ^ 1) at 1; apply Z.pow_le_mono_r; lia).
    set (P := 2 ^ (prec f - 1)) in *.
    (* P*d*p2n(E+j)*p2n(-E) <= a*p2n(-(E+j))*p2n(-E) = |M| d p2n E p2n(-(E+j)) *)
    assert (L2 : P * (d * p2n (E + j)) * p2n (- E) <= a * p2n (- (E + j)) * p2n (- E)) by nia.
    replace (P * (d * p2n (E + j)) * p2n (- E)) with (P * d * (p2n (E + j) * p2n (- E))) in L2 by ring.
    rewrite EA in L2.
    replace (a * p2n (- (E + j)) * p2n (- E)) with (a * p2n (- E) * p2n (- (E + j))) in L2 by ring.
    rewrite HME in L2.
    set (X := d * (p2n E * p2n (- (E + j)))). assert (HX : 0 < X) by (unfold X; repeat apply Z.mul_pos_pos; assumption).
    replace (P * d * (2 ^ j * (p2n E * p2n (- (E + j))))) with (P * 2 ^ j * X) in L2 by (unfold X; ring).
    replace (Z.abs M * (d * p2n E) * p2n (- (E + j))) with (Z.abs M * X) in L2 by (unfold X; ring).
    assert (HP0 : 0 < P) by (apply Z.pow_pos_nonneg; lia).
    assert (P * 2 <= P * 2 ^ j) by (apply Z.mul_le_mono_nonneg_l; lia).
    assert (P * 2 ^ j <= Z.abs M) by (apply Z.mul_le_mono_pos_r with X; assumption). lia. }
  set (j := E - e) in *. assert (Hj : 0 <= j) by lia.
  assert (HN : a * p2n (- e) = (Z.abs M * 2 ^ j) * (d * p2n e)).
  { pose proof (p2n_add j e Hj) as EA. replace (e + j) with E in EA by lia.
    pose proof (p2n_pos (- E)).
    apply Z.mul_reg_r with (p2n (- E)); [lia|].
    replace (a * p2n (- e) * p2n (- E)) with (a * p2n (- E) * p2n (- e)) by ring. rewrite HME.
    replace (Z.abs M * (d * p2n E) * p2n (- e)) with (Z.abs M * d * (p2n E * p2n (- e))) by ring. rewrite EA. ring. }
  rewrite HN, round_ne_exact in Hm by (pose proof (p2n_pos e); nia). subst m.
  rewrite Hq, Qabs_Qmult. rewrite (Qabs_pos (Qpower (2 # 1) E)) by (apply Qlt_le_weak, qpow_pos).
  change (Qabs (inject_Z M)) with (inject_Z (Z.abs M)). rewrite inject_Z_mult, <- qpow_Z by exact Hj.
  rewrite <- Qmult_assoc, <- Qpower_plus by apply two_nz. replace (j + e) with E by lia. reflexivity.
Qed.

Lemma good32 : good_fmt binary32. Proof. split; reflexivity. Qed.
Lemma good64 : good_fmt binary64. Proof. split; reflexivity. Qed.

(** Tests against known patterns. *)
Example f32_one : encode binary32 1 = Some 0x3f800000. Proof. vm_compute. reflexivity. Qed.
Example f32_third : encode binary32 (-1 # 3) = Some 0xbeaaaaab. Proof. vm_compute. reflexivity. Qed.
Example f32_min : encode binary32 (Qpower (2#1) (-149)) = Some 1. Proof. vm_compute. reflexivity. Qed.
Example f32_max : encode binary32 (inject_Z (2 ^ 128)) = None. Proof. vm_compute. reflexivity. Qed.
Example f64_tenth : encode binary64 (1 # 10) = Some 0x3fb999999999999a. Proof. vm_compute. reflexivity. Qed.

(** Numbers below the overflow threshold can be packed. *)
Lemma encode_some f q : good_fmt f -> (Qabs q < Qpower (2 # 1) (2 ^ (wid f - 1) - 1))%Q -> exists b, encode f q = Some b.
Proof.
  intros Hg Hq. pose proof Hg as [Hp Hw]. unfold encode.
  destruct (Z.eqb_spec (Qnum q) 0) as [H0|H0]; [eexists; reflexivity|].
  destruct (mant f q) as [m e] eqn:Em. destruct (mant_bounds f q m e Hg H0 Em) as (Hm & He & _).
  set (P := 2 ^ (prec f - 1)) in *. assert (HP : 0 < P) by (apply Z.pow_pos_nonneg; lia).
  assert (HPP : 2 ^ prec f = 2 * P) by (unfold P; rewrite <- Z.pow_succ_r by lia; f_equal; lia).
  assert (HW : 2 ^ wid f = 2 * 2 ^ (wid f - 1)) by (rewrite <- Z.pow_succ_r by lia; f_equal; lia).
  set (H := 2 ^ (wid f - 1)) in *. assert (HH : 2 <= H).
  { unfold H. change 2 with (2 ^ 1) at 1. apply Z.pow_le_mono_r; lia. }
  assert (Hee : e - emin f <= 2 * H - 4).
  { apply mant_inv in Em as [_ He']. unfold fexp in He'.
    set (a := Z.abs (Qnum q)) in *. set (d := Zpos (Qden q)) in *.
    assert (Ha : 0 < a) by (unfold a; lia). assert (Hd : 0 < d) by (unfold d; lia).
    destruct (Z_lt_le_dec (nexp f a d) (emin f)) as [Hl|Hl]; [lia|].
    assert (E : e = nexp f a d) by lia. clear He'.
    destruct (nexp_spec f a d ltac:(lia) Ha Hd) as [L _]. cbv zeta in L. rewrite <- E in L.
    rewrite (abs_div_num q) in Hq. fold a d in Hq.
    pose proof (qpow_p2n e) as EP. pose proof (p2n_pos e) as P1. pose proof (p2n_pos (- e)) as P2.
    assert (Hdq : (0 < inject_Z d)%Q) by (change 0%Q with (inject_Z 0); rewrite <- Zlt_Qlt; exact Hd).
    assert (Hnq : (0 < inject_Z (p2n (- e)))%Q) by (change 0%Q with (inject_Z 0); rewrite <- Zlt_Qlt; exact P2).
    assert (B : (Qpower (2#1) (e + prec f - 1) <= inject_Z a / inject_Z d)%Q).
    { apply Qle_shift_div_l; [exact Hdq|]. apply Qmult_le_r with (z := inject_Z (p2n (- e))); [exact Hnq|].
      rewrite Zle_Qle in L. rewrite !inject_Z_mult in L. unfold P in L. rewrite <- EP, <- qpow_Z in L by lia.
      setoid_replace (Qpower (2#1) (e + prec f - 1) * inject_Z d * inject_Z (p2n (- e)))%Q
        with ((2 ^ (prec f - 1)) * (inject_Z d * (2 ^ e * inject_Z (p2n (- e)))))%Q; [exact L|].
      replace (e + prec f - 1) with ((prec f - 1) + e) by lia. rewrite Qpower_plus by apply two_nz. ring. }
    assert (C : (Qpower (2 # 1) (e + prec f - 1) < Qpower (2#1) (H - 1))%Q) by (eapply Qle_lt_trans; eassumption).
    apply Qpower_lt_compat_l_inv in C; [|reflexivity]. unfold emin. fold H. lia. }
  destruct (Z.ltb_spec ((e - emin f) * P + m) ((2 ^ wid f - 1) * P)) as [|Hge]; [eexists; reflexivity|].
  exfalso. rewrite HPP in Hm. rewrite HW in Hge. nia.
Qed.
