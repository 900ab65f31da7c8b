From Verif Require Import Py PyFacts ListFacts FS Bytes Float MannBox_Model MannBox_Proofs TurbSim_Model TurbSim_Proofs TurbSim_Quant TurbSim_More FASTOut_Model FASTOut_Proofs FASTOut_Round.
From Coq Require Import QArith Qminmax Qabs Lqa.
Local Open Scope nat_scope.

Lemma clip16_id q : (-32768 <= q)%Q -> (q <= 32767)%Q -> (clip16 q == q)%Q.
Proof.
  intros A B. unfold clip16.
  assert (E : (Qmax q (-32768) == q)%Q) by (apply Q.max_l; exact A). rewrite E. apply Q.min_l. exact B.
Qed.
Lemma clip16_near q d : (0 <= d)%Q -> (-32768 - d <= q)%Q -> (q <= 32767 + d)%Q -> (Qabs (clip16 q - q) <= d)%Q.
Proof.
  intros Hd A B. apply Qabs_Qle_condition. unfold clip16.
  destruct (Q.max_spec q (-32768)) as [[H1 E1]|[H1 E1]]; rewrite E1;
    destruct (Q.min_spec (-32768) 32767) as [[H2 E2]|[H2 E2]];
    destruct (Q.min_spec q 32767) as [[H3 E3]|[H3 E3]]; try rewrite E2; try rewrite E3; lra.
Qed.

(** Whatever the scale and offset, when the scaled value is within [d] of the range the value read back is
    within (1+d) steps. *)
Lemma pack16_core s o x d : (0 < s)%Q -> (0 <= d)%Q -> (-32768 - d <= s * x + o)%Q -> (s * x + o <= 32767 + d)%Q ->
  (Qabs ((inject_Z (pack16 s o x) - o) / s - x) * s < 1 + d)%Q.
Proof.
  intros Hs Hd A B. rewrite pack16_trunc. set (y := (s * x + o)%Q) in *.
  pose proof (clip16_near y d Hd A B) as C. pose proof (Qtrunc_spec (clip16 y)) as T.
  set (n := inject_Z (Qtrunc (clip16 y))) in *. set (c := clip16 y) in *.
  rewrite <- (Qabs_pos s) at 2 by lra. rewrite <- Qabs_Qmult.
  setoid_replace (((n - o) / s - x) * s)%Q with ((c - y) + - (c - n))%Q by (unfold y; field; lra).
  eapply Qle_lt_trans; [apply Qabs_triangle|]. rewrite Qabs_opp. lra.
Qed.

(** ** Exact arithmetic *)
Lemma pack16_exact fl lo hi x : (forall q, fl q == q)%Q -> (lo <= x)%Q -> (x <= hi)%Q ->
  let s := col_scl fl lo hi in let o := col_off fl lo hi in let n := pack16 s o x in
  (0 < s)%Q /\ (Qabs ((inject_Z n - o) / s - x) <= (hi - lo) / 65535)%Q.
Proof.
  intros Hfl H1 H2. cbv zeta. unfold col_off. set (s := col_scl fl lo hi). set (o := fl (-32768 - fl (fl lo * s))%Q).
  assert (Eo : (o == -32768 - lo * s)%Q) by (unfold o; rewrite !Hfl; reflexivity).
  assert (Es : (s == 65535 / col_range fl lo hi)%Q) by apply Hfl.
  unfold col_range in Es. destruct (Qeq_bool (fl (hi - lo)%Q) 0) eqn:Eq.
  - apply Qeq_bool_iff in Eq. rewrite Hfl in Eq. assert (Ex : (x == lo)%Q) by lra.
    assert (Hs : (s == 65535)%Q) by (rewrite Es; field). split; [lra|].
    assert (En : pack16 s o x = (-32768)%Z).
    { rewrite pack16_trunc. apply Qtrunc_Z. change (inject_Z (-32768)) with (-32768)%Q. 
      assert (Ey : (s * x + o == -32768)%Q) by (rewrite Eo, Ex; ring). rewrite clip16_id; [exact Ey|rewrite Ey..]; lra. }
    rewrite En. change (inject_Z (-32768)) with (-32768)%Q.
    setoid_replace ((-32768 - o) / s - x)%Q with 0%Q; [|rewrite Eo, Ex; field; lra].
    change (Qabs 0) with 0%Q. setoid_replace (hi - lo)%Q with 0%Q by exact Eq. setoid_replace (0 / 65535)%Q with 0%Q by field. lra.
  - apply Qeq_bool_neq in Eq. rewrite Hfl in Eq, Es. assert (HR : (0 < hi - lo)%Q) by lra.
    assert (Hs : (0 < s)%Q) by (rewrite Es; apply Qlt_shift_div_l; lra). split; [exact Hs|].
    assert (Esr : (s * (hi - lo) == 65535)%Q) by (rewrite Es; field; lra).
    assert (A : (0 <= (x - lo) * s)%Q) by (apply Qmult_le_0_compat; lra).
    assert (B : (0 <= (hi - x) * s)%Q) by (apply Qmult_le_0_compat; lra).
    assert (Ey : (s * x + o == (x - lo) * s - 32768)%Q) by (rewrite Eo; ring).
    assert (Ey2 : (s * x + o == s * (hi - lo) - (hi - x) * s - 32768)%Q) by (rewrite Eo; ring).
    pose proof (pack16_core s o x 0 Hs (Qle_refl 0)) as C.
    assert (C' : (Qabs ((inject_Z (pack16 s o x) - o) / s - x) * s < 1 + 0)%Q) by (apply C; lra).
    apply Qmult_le_r with s; [exact Hs|].
    setoid_replace ((hi - lo) / 65535 * s)%Q with (s * (hi - lo) / 65535)%Q by field. rewrite Esr.
    setoid_replace (65535 / 65535)%Q with 1%Q by reflexivity. lra.
Qed.

(** ** Single precision *)
Lemma rnd32_err' q : (Qabs (rnd binary32 q - q) <= Qabs q * (1 # 16777216) + (1 # 10 ^ 40))%Q.
Proof.
  eapply Qle_trans; [apply rnd_err, good32|]. change (- prec binary32)%Z with (-24)%Z. change (emin binary32 - 1)%Z with (-150)%Z.
  apply Qplus_le_compat.
  - assert (E : (Qpower (2 # 1) (-24) == 1 # 16777216)%Q) by reflexivity. rewrite E. apply Qle_refl.
  - vm_compute. discriminate.
Qed.
Lemma rnd_zero f q : (q == 0)%Q -> rnd f q = 0%Q.
Proof.
  intro H. unfold rnd. destruct q as [n d]. unfold Qeq in H. cbn in *. assert (n = 0)%Z by lia. subst. reflexivity.
Qed.

(** The range used: that of the column, or 1 for a constant column. *)
Definition eff_range (lo hi : Q) : Q := if Qeq_bool lo hi then 1%Q else (hi - lo)%Q.
Definition fair_range (lo hi : Q) : Prop := (lo == hi)%Q \/ ((1 # 1000000) <= hi - lo)%Q /\ (hi - lo <= 1000000000)%Q.

Lemma col_scl_single lo hi : (lo <= hi)%Q -> fair_range lo hi ->
  let R := eff_range lo hi in let s := col_scl (rnd binary32) lo hi in
  (0 < R)%Q /\ (hi - lo <= R)%Q /\ (0 < s)%Q /\ (s <= 70000000000)%Q /\
  (65535 * (1 - (1 # 4000000)) <= s * R)%Q /\ (s * R <= 65535 * (1 + (1 # 4000000)))%Q.
Proof.
  intros Hle Hf. cbv zeta. set (R := eff_range lo hi). set (s := col_scl (rnd binary32) lo hi).
  assert (HRb : ((1 # 1000000) <= R)%Q /\ (R <= 1000000000)%Q /\ (hi - lo <= R)%Q).
  { unfold R, eff_range. destruct (Qeq_bool lo hi) eqn:E.
    - apply Qeq_bool_iff in E. repeat split; lra.
    - apply Qeq_bool_neq in E. destruct Hf as [Hf|Hf]; [contradiction|]. repeat split; lra. }
  destruct HRb as (HR1 & HR2 & HR3).
  assert (Hc : (Qabs (col_range (rnd binary32) lo hi - R) <= R * (1 # 10000000))%Q).
  { unfold col_range, R, eff_range. destruct (Qeq_bool lo hi) eqn:E.
    - apply Qeq_bool_iff in E. rewrite (rnd_zero _ (hi - lo)) by lra. cbn [Qeq_bool]. vm_compute. discriminate.
    - apply Qeq_bool_neq in E. destruct Hf as [Hf|[Hf1 Hf2]]; [contradiction|].
      pose proof (rnd32_err' (hi - lo)) as Er. rewrite (Qabs_pos (hi - lo)) in Er by lra.
      destruct (Qeq_bool (rnd binary32 (hi - lo)) 0) eqn:E2.
      + apply Qeq_bool_iff in E2. rewrite E2 in Er. apply Qabs_bound in Er as [Er _].
        assert ((1 # 10 ^ 40) <= (1 # 1000000000))%Q by (vm_compute; discriminate). lra.
      + assert ((1 # 10 ^ 40) <= (1 # 1000000) * (1 # 1000000000))%Q by (vm_compute; discriminate). lra. }
  apply Qabs_bound in Hc as [Hc1 Hc2]. set (r := col_range (rnd binary32) lo hi) in *.
  assert (Hr : (0 < r)%Q) by lra.
  assert (Eq : (65535 / r * r == 65535)%Q) by (field; lra).
  assert (Hq : (0 < 65535 / r)%Q) by (apply Qlt_shift_div_l; lra).
  assert (Hqb : ((1 # 1000000) <= 65535 / r)%Q) by (apply Qle_shift_div_l; lra).
  assert (Hqu : (65535 / r <= 69000000000)%Q).
  { apply Qle_shift_div_r; [lra|]. apply Qle_trans with (69000000000 * ((1 # 1000000) * (1 - (1 # 10000000))))%Q; [vm_compute; discriminate|].
    apply Qmult_le_l; lra. }
  pose proof (rnd32_err' (65535 / r)) as Es. rewrite (Qabs_pos (65535 / r)) in Es by lra.
  change (rnd binary32 (65535 / r)) with s in Es. apply Qabs_bound in Es as [Es1 Es2].
  set (q := (65535 / r)%Q) in *.
  assert (T : (1 # 10 ^ 40 <= (1 # 1000000) * (1 # 1000000000))%Q) by (vm_compute; discriminate).
  split; [lra|]. split; [exact HR3|]. split; [lra|]. split; [lra|].
  (* s*R against q*r *)
  assert (A1 : (q * (1 - (1 # 16000000)) <= s)%Q) by lra. assert (A2 : (s <= q * (1 + (1 # 16000000)))%Q) by lra.
  assert (B1 : (r * (1 - (1 # 9000000)) <= R)%Q) by lra. assert (B2 : (R <= r * (1 + (1 # 9000000)))%Q) by lra.
  split.
  - apply Qle_trans with (q * (1 - (1 # 16000000)) * (r * (1 - (1 # 9000000))))%Q.
    + setoid_replace (q * (1 - (1 # 16000000)) * (r * (1 - (1 # 9000000))))%Q with (q * r * ((1 - (1 # 16000000)) * (1 - (1 # 9000000))))%Q by ring.
      rewrite Eq. vm_compute. discriminate.
    + apply Qle_trans with (s * (r * (1 - (1 # 9000000))))%Q; [apply Qmult_le_compat_r; [exact A1|]; lra|].
      apply Qmult_le_l; lra.
  - apply Qle_trans with (q * (1 + (1 # 16000000)) * (r * (1 + (1 # 9000000))))%Q.
    + apply Qle_trans with (s * (r * (1 + (1 # 9000000))))%Q; [apply Qmult_le_l; lra|].
      apply Qmult_le_compat_r; [exact A2|]. lra.
    + setoid_replace (q * (1 + (1 # 16000000)) * (r * (1 + (1 # 9000000))))%Q with (q * r * ((1 + (1 # 16000000)) * (1 + (1 # 9000000))))%Q by ring.
      rewrite Eq. vm_compute. discriminate.
Qed.

Lemma col_off_single lo hi : (lo <= hi)%Q -> fair_range lo hi ->
  let s := col_scl (rnd binary32) lo hi in let o := col_off (rnd binary32) lo hi in
  (Qabs (o - (-32768 - s * lo)) <= (2 # 1000) + (s * Qabs lo) * (1 # 5000000))%Q.
Proof.
  intros Hle Hf. cbv zeta. destruct (col_scl_single lo hi Hle Hf) as (_ & _ & Hs & Hsu & _ & _).
  unfold col_off. set (s := col_scl (rnd binary32) lo hi) in *. cbv zeta.
  set (m := rnd binary32 lo). set (pr := rnd binary32 (m * s)). set (o := rnd binary32 (-32768 - pr)).
  set (e := (1 # 10 ^ 40)%Q). assert (He : (e * 70000000000 <= (1 # 1000000000000))%Q) by (vm_compute; discriminate).
  assert (He0 : (0 < e)%Q) by reflexivity.
  pose proof (rnd32_err' lo) as E1. pose proof (rnd32_err' (m * s)) as E2. pose proof (rnd32_err' (-32768 - pr)) as E3.
  fold m in E1. fold pr in E2. fold o in E3. fold e in E1, E2, E3.
  rewrite Qabs_Qmult, (Qabs_pos s) in E2 by lra.
  assert (Es : (e * s <= (1 # 1000000000000))%Q).
  { apply Qle_trans with (e * 70000000000)%Q; [|exact He]. apply Qmult_le_l; lra. }
  assert (M1 : (Qabs m <= Qabs lo * (1 + (1 # 16777216)) + e)%Q).
  { setoid_replace m with ((m - lo) + lo)%Q by ring. eapply Qle_trans; [apply Qabs_triangle|]. lra. }
  assert (M2 : (Qabs m * s <= s * Qabs lo * (1 + (1 # 16777216)) + e * s)%Q).
  { setoid_replace (s * Qabs lo * (1 + (1 # 16777216)) + e * s)%Q with ((Qabs lo * (1 + (1 # 16777216)) + e) * s)%Q by ring.
    apply Qmult_le_compat_r; lra. }
  assert (D : (Qabs ((m - lo) * s) <= s * Qabs lo * (1 # 16777216) + e * s)%Q).
  { rewrite Qabs_Qmult, (Qabs_pos s) by lra.
    setoid_replace (s * Qabs lo * (1 # 16777216) + e * s)%Q with ((Qabs lo * (1 # 16777216) + e) * s)%Q by ring.
    apply Qmult_le_compat_r; lra. }
  assert (P : (0 <= s * Qabs lo)%Q) by (apply Qmult_le_0_compat; [lra|apply Qabs_nonneg]).
  set (PL := (s * Qabs lo)%Q) in *. set (ms := (Qabs m * s)%Q) in *.
  assert (P2 : (Qabs pr <= ms * (1 + (1 # 16777216)) + e)%Q).
  { setoid_replace pr with ((pr - m * s) + m * s)%Q by ring. eapply Qle_trans; [apply Qabs_triangle|].
    rewrite (Qabs_Qmult m s), (Qabs_pos s) by lra. fold ms. lra. }
  assert (O : (Qabs (-32768 - pr) <= 32768 + Qabs pr)%Q).
  { eapply Qle_trans; [apply Qabs_triangle|]. rewrite Qabs_opp. change (Qabs (-32768)) with 32768%Q. lra. }
  setoid_replace (o - (-32768 - s * lo))%Q with ((o - (-32768 - pr)) + - ((pr - m * s) + (m - lo) * s))%Q by ring.
  eapply Qle_trans; [apply Qabs_triangle|]. rewrite Qabs_opp.
  pose proof (Qabs_triangle (pr - m * s) ((m - lo) * s)) as TR.
  assert (e <= (1 # 1000000000000))%Q by (vm_compute; discriminate). lra.
Qed.

Lemma pack16_single lo hi x : (lo <= x)%Q -> (x <= hi)%Q -> fair_range lo hi ->
  let s := col_scl (rnd binary32) lo hi in let o := col_off (rnd binary32) lo hi in
  (0 < s)%Q /\ (Qabs ((inject_Z (pack16 s o x) - o) / s - x) <= eff_range lo hi / 65535 * (1 + (1 # 20)) + Qabs lo * (1 # 4000000))%Q.
Proof.
  intros H1 H2 Hf. cbv zeta. assert (Hle : (lo <= hi)%Q) by lra.
  pose proof (col_off_single lo hi Hle Hf) as Ho. cbv zeta in Ho.
  destruct (col_scl_single lo hi Hle Hf) as (HR & HR2 & Hs & _ & HsR1 & HsR2).
  set (R := eff_range lo hi) in *. set (s := col_scl (rnd binary32) lo hi) in *. set (o := col_off (rnd binary32) lo hi) in *.
  split; [exact Hs|].
  assert (P : (0 <= s * Qabs lo)%Q) by (apply Qmult_le_0_compat; [lra|apply Qabs_nonneg]).
  assert (A : (0 <= (x - lo) * s)%Q) by (apply Qmult_le_0_compat; lra).
  assert (B : ((x - lo) * s <= s * R)%Q).
  { rewrite (Qmult_comm s R). apply Qmult_le_compat_r; lra. }
  apply Qabs_bound in Ho as [Ho1 Ho2].
  assert (Ey : (s * x + o == (x - lo) * s - 32768 + (o - (-32768 - s * lo)))%Q) by ring.
  pose proof (pack16_core s o x ((2 # 100) + (s * Qabs lo) * (1 # 5000000)) Hs) as C.
  assert (C' : (Qabs ((inject_Z (pack16 s o x) - o) / s - x) * s < 1 + ((2 # 100) + (s * Qabs lo) * (1 # 5000000)))%Q).
  { apply C; lra. }
  apply Qmult_le_r with s; [exact Hs|].
  setoid_replace ((R / 65535 * (1 + (1 # 20)) + Qabs lo * (1 # 4000000)) * s)%Q
    with (s * R * ((1 + (1 # 20)) / 65535) + s * Qabs lo * (1 # 4000000))%Q by field.
  assert (G : (1 + (3 # 100) <= s * R * ((1 + (1 # 20)) / 65535))%Q).
  { apply Qle_trans with (65535 * (1 - (1 # 4000000)) * ((1 + (1 # 20)) / 65535))%Q; [vm_compute; discriminate|].
    apply Qmult_le_compat_r; [exact HsR1|]. vm_compute. discriminate. }
  lra.
Qed.

(** ** Columns *)
Lemma column_in c i j : i < c_nT c -> In (c_v c i j) (column c j).
Proof. intro H. unfold column. apply in_map_iff. exists i. split; [reflexivity|]. apply in_seq. lia. Qed.

(** Minimum and maximum of a column, stated without the model. *)
Definition col_bounds (c : chans) (j : nat) (lo hi : Q) : Prop :=
  (forall i, i < c_nT c -> (lo <= c_v c i j)%Q /\ (c_v c i j <= hi)%Q) /\
  (exists i, i < c_nT c /\ (c_v c i j == lo)%Q) /\ (exists i, i < c_nT c /\ (c_v c i j == hi)%Q).

Lemma minimum_attained l m : minimum l = Ok m -> exists y, In y l /\ (m == y)%Q.
Proof.
  intro H. destruct l as [|x l]; [discriminate|]. destruct (minimum_ex (x :: l)) as (m' & E & y & Hy & Ey); [discriminate|].
  rewrite H in E. apply Ok_inj in E. subst m'. exists y. split; assumption.
Qed.
Lemma maximum_attained l m : maximum l = Ok m -> exists y, In y l /\ (m == y)%Q.
Proof.
  intro H. destruct l as [|x l]; [discriminate|]. destruct (maximum_ex (x :: l)) as (m' & E & y & Hy & Ey); [discriminate|].
  rewrite H in E. apply Ok_inj in E. subst m'. exists y. split; assumption.
Qed.
Lemma col_params_bounds fl c j s o : col_params fl c j = Ok (s, o) ->
  exists lo hi, col_bounds c j lo hi /\ s = col_scl fl lo hi /\ o = col_off fl lo hi.
Proof.
  unfold col_params. destruct (minimum (column c j)) as [lo|] eqn:E1; cbn [bind]; [|discriminate].
  destruct (maximum (column c j)) as [hi|] eqn:E2; cbn [bind]; [|discriminate]. intro H. apply Ok_inj in H.
  pose proof (f_equal fst H) as A. pose proof (f_equal snd H) as B. cbn [fst snd] in A, B.
  exists lo, hi. split; [|auto]. split.
  - intros i Hi. pose proof (column_in c i j Hi). split; [eapply minimum_le|eapply maximum_ge]; eassumption.
  - apply minimum_attained in E1 as (y & Hy & Ey). apply maximum_attained in E2 as (z & Hz & Ez).
    unfold column in Hy, Hz. apply in_map_iff in Hy as (i & <- & Hi). apply in_map_iff in Hz as (k & <- & Hk).
    apply in_seq in Hi, Hk. split; [exists i|exists k]; (split; [lia|symmetry; assumption]).
Qed.
Lemma col_params_total fl c j : 0 < c_nT c -> exists s o, col_params fl c j = Ok (s, o).
Proof.
  intro H. unfold col_params, column. destruct (c_nT c) as [|n]; [lia|]. cbn [seq map minimum maximum bind]. eauto.
Qed.
Lemma col_bounds_unique c j lo hi lo' hi' : col_bounds c j lo hi -> col_bounds c j lo' hi' -> (lo == lo')%Q /\ (hi == hi')%Q.
Proof.
  intros (A & (i1 & H1 & E1) & (k1 & K1 & F1)) (B & (i2 & H2 & E2) & (k2 & K2 & F2)).
  pose proof (A _ H2). pose proof (A _ K2). pose proof (B _ H1). pose proof (B _ K1). lra.
Qed.

(** ** Accuracy of a whole file *)
Theorem out_accuracy f p c names units desc f' ub :
  writeBinary f p c names units 2 desc = (f', Ok tt) ->
  List.length names = c_nC c -> List.length units = c_nC c -> 2 <= c_nC c -> (Z.of_nat (c_nC c - 1) <= 163840)%Z ->
  exists b o, f' p = Reg b /\ load_binary ub b = Ok o /\ ob_nT o = c_nT c /\ ob_nC o = c_nC c - 1 /\
    forall j, j < c_nC c - 1 -> exists lo hi, col_bounds c (S j) lo hi /\
      (fair_range lo hi -> forall i, i < c_nT c -> exists v, ob_value o i j = Some v /\
        (Qabs (v - c_v c i (S j)) <= eff_range lo hi / 65535 * (1 + (1 # 20)) + Qabs lo * (1 # 4000000))%Q).
Proof.
  intros H HN HU HC HB. destruct (out_roundtrip f p c names units desc f' ub H HN HU HC HB) as
    (b & o & units' & params & EF & EL & EO & EU & EP & _ & ET & EC & _ & _ & _ & _ & (ss & oo & E1 & E2 & F1 & F2) & _ & HI).
  exists b, o. split; [exact EF|]. split; [exact EL|]. split; [exact ET|]. split; [exact EC|].
  intros j Hj. pose proof (map_res_length _ _ _ EP) as LP. rewrite seq_length in LP.
  apply map_res_inv in EP. destruct (nth_error params j) as [[s r]|] eqn:Ej; [|apply nth_error_None in Ej; lia].
  assert (Es : nth_error (seq 0 (c_nC c - 1)) j = Some j).
  { rewrite (nth_error_nth' _ 0) by (rewrite seq_length; exact Hj). rewrite seq_nth by exact Hj. reflexivity. }
  pose proof (Forall2_nth_error _ _ _ _ _ _ EP Es Ej) as Hp. cbn beta in Hp.
  destruct (col_params_bounds _ _ _ _ _ Hp) as (lo & hi & Hb & -> & ->).
  exists lo, hi. split; [exact Hb|]. intros Hf i Hi.
  assert (L1 : List.length ss = List.length params) by (clear -F1; induction F1; cbn; congruence).
  assert (L2 : List.length oo = List.length params) by (clear -F2; induction F2; cbn; congruence).
  destruct (nth_error ss j) as [s'|] eqn:Es'; [|apply nth_error_None in Es'; lia].
  destruct (nth_error oo j) as [o'|] eqn:Eo'; [|apply nth_error_None in Eo'; lia].
  pose proof (Forall2_nth_error _ _ _ _ _ _ F1 Es' Ej) as G1. pose proof (Forall2_nth_error _ _ _ _ _ _ F2 Eo' Ej) as G2.
  cbn [fst snd] in G1, G2. unfold ob_value. rewrite (HI i j _ _ Hi Ej), E1, E2, !nth_error_map, Es', Eo'. cbn [option_map].
  destruct Hb as [Hb _]. destruct (Hb i Hi) as [X1 X2].
  destruct (pack16_single lo hi (c_v c i (S j)) X1 X2 Hf) as [Hs He].
  assert (Q1 : (s' == col_scl (rnd binary32) lo hi)%Q).
  { rewrite G1. unfold col_scl. apply rnd_proper0, good32. }
  assert (Q2 : (o' == col_off (rnd binary32) lo hi)%Q).
  { rewrite G2. unfold col_off. apply rnd_proper0, good32. }
  unfold dequantise. destruct (Qeq_bool s' 0) eqn:E0; [apply Qeq_bool_iff in E0; rewrite Q1 in E0; lra|].
  eexists. split; [reflexivity|]. rewrite Q1, Q2. exact He.
Qed.

(** ** When writing succeeds *)
Definition table_ok (c : chans) : Prop :=
  1 <= c_nC c /\ 2 <= c_nT c /\ (Z.of_nat (c_nC c) <= 2147483647)%Z /\ (Z.of_nat (c_nT c) <= 2147483647)%Z /\
  (forall i j, i < c_nT c -> j < c_nC c -> (Qabs (c_v c i j) <= 500000000)%Q) /\
  (forall j lo hi, 1 <= j < c_nC c -> col_bounds c j lo hi -> (lo == hi)%Q \/ ((1 # 1000000) <= hi - lo)%Q).

Lemma pack_f64_ok q : (Qabs q <= 4000000000)%Q -> exists b, pack_f64 q = Ok b.
Proof.
  intro H. destruct (encode_some binary64 q good64) as (b & Hb).
  - eapply Qle_lt_trans; [exact H|]. vm_compute. reflexivity.
  - unfold pack_f64. rewrite Hb. eexists; reflexivity.
Qed.
Lemma map_res_total {A B} (g : A -> res B) l : (forall x, In x l -> exists y, g x = Ok y) -> exists ys, map_res g l = Ok ys.
Proof.
  induction l as [|x l IH]; intro H; [exists []; reflexivity|]. cbn.
  destruct (H x) as (y & ->); [left; reflexivity|]. cbn. destruct IH as (ys & ->); [intros; apply H; right; assumption|].
  cbn. eexists; reflexivity.
Qed.
Lemma all_ok {A B} (g : A -> res B) l : (forall x, In x l -> exists y, g x = Ok y) -> exists ys, map g l = map Ok ys.
Proof.
  induction l as [|x l IH]; intro H; [exists []; reflexivity|]. cbn.
  destruct (H x) as (y & ->); [left; reflexivity|]. destruct IH as (ys & ->); [intros; apply H; right; assumption|].
  exists (y :: ys). reflexivity.
Qed.

(** All pieces can be computed, so that nothing fails once the file is open. *)
Lemma out_pieces_ok f p c names units units' desc : table_ok c -> wrap_units units = Ok units' -> time_first names = true ->
  (forall n, In n names -> List.length n <= 10) -> (forall u, In u units' -> List.length u <= 10) ->
  (Z.of_nat (List.length desc) <= 2147483647)%Z ->
  exists bs, writeBinary f p c names units 2 desc = write_file f p (map Ok bs).
Proof.
  intros (HC & HT & HC2 & HT2 & HV & HR) HU HN Hn Hu Hd. unfold writeBinary. rewrite HU. cbn [bind]. rewrite HN. cbn [bind].
  destruct (Nat.eqb_spec (c_nC c) 0); [lia|]. cbn [bind]. destruct (Nat.ltb_spec (c_nT c) 2); [lia|]. cbn [bind].
  destruct (map_res_total (fun j => col_params (rnd binary32) c (S j)) (seq 0 (c_nC c - 1))) as (params & EP).
  { intros j _. destruct (col_params_total (rnd binary32) c (S j)) as (s & o & E); [lia|]. exists (s, o). exact E. }
  rewrite EP. cbn [bind]. change (2 =? 2)%Z with true. cbn [negb].
  assert (HP : forall q, In q params -> exists lo hi, (lo <= hi)%Q /\ (Qabs lo <= 1000000000)%Q /\ fair_range lo hi /\
     q = (col_scl (rnd binary32) lo hi, col_off (rnd binary32) lo hi)).
  { intros [s o] Hq. apply In_nth_error in Hq as (j & Ej). pose proof (map_res_length _ _ _ EP) as LP. rewrite seq_length in LP.
    assert (Hj : j < c_nC c - 1) by (rewrite <- LP; apply nth_error_Some; congruence).
    apply map_res_inv in EP. assert (Es : nth_error (seq 0 (c_nC c - 1)) j = Some j).
    { rewrite (nth_error_nth' _ 0) by (rewrite seq_length; exact Hj). rewrite seq_nth by exact Hj. reflexivity. }
    pose proof (Forall2_nth_error _ _ _ _ _ _ EP Es Ej) as Hp. cbn beta in Hp.
    destruct (col_params_bounds _ _ _ _ _ Hp) as (lo & hi & Hb & -> & ->). exists lo, hi.
    pose proof Hb as (B1 & (i & Hi & Ei) & (k & Hk & Ek)). pose proof (B1 i Hi).
    pose proof (HV i (S j) Hi ltac:(lia)) as V1. pose proof (HV k (S j) Hk ltac:(lia)) as V2.
    apply Qabs_bound in V1 as [V11 V12]. apply Qabs_bound in V2 as [V21 V22].
    split; [lra|]. split; [apply Qabs_Qle_condition; lra|]. split; [|reflexivity].
    destruct (HR (S j) lo hi ltac:(lia) Hb) as [E|E]; [left; exact E|]. 
    right. split; [exact E|].
    lra. }
  destruct (all_ok (fun q => pack_f32 (fst q)) params) as (w1 & W1).
  { intros q Hq. destruct (HP q Hq) as (lo & hi & Hle & Hlo & Hf & ->). apply pack_f32_ok. cbn [fst].
    destruct (col_scl_single lo hi Hle Hf) as (_ & _ & S1 & S2 & _). rewrite Qabs_pos by lra.
    eapply Qle_lt_trans; [exact S2|]. vm_compute. reflexivity. }
  destruct (all_ok (fun q => pack_f32 (snd q)) params) as (w2 & W2).
  { intros q Hq. destruct (HP q Hq) as (lo & hi & Hle & Hlo & Hf & ->). apply pack_f32_ok. cbn [snd].
    destruct (col_scl_single lo hi Hle Hf) as (_ & _ & S1 & S2 & _). pose proof (col_off_single lo hi Hle Hf) as O. cbv zeta in O.
    set (s := col_scl _ _ _) in *. set (o := col_off _ _ _) in *.
    assert (A : (s * Qabs lo <= 70000000000 * 1000000000)%Q).
    { apply Qle_trans with (70000000000 * Qabs lo)%Q; [apply Qmult_le_compat_r; [exact S2|apply Qabs_nonneg]|]. apply Qmult_le_l; [lra|exact Hlo]. }
    assert (B : (Qabs o <= 100000000000000000000)%Q).
    { setoid_replace o with ((o - (-32768 - s * lo)) + (-32768 - s * lo))%Q by ring. eapply Qle_trans; [apply Qabs_triangle|].
      assert (Qabs (-32768 - s * lo) <= 32768 + s * Qabs lo)%Q.
      { eapply Qle_trans; [apply Qabs_triangle|]. rewrite Qabs_opp, Qabs_Qmult, (Qabs_pos s) by lra. change (Qabs (-32768)) with 32768%Q. lra. }
      lra. }
    eapply Qle_lt_trans; [exact B|]. vm_compute. reflexivity. }
  rewrite W1, W2, !concat_res_ok.
  assert (V0 : (Qabs (c_v c 0 0) <= 500000000)%Q) by (apply HV; lia). assert (V1 : (Qabs (c_v c 1 0) <= 500000000)%Q) by (apply HV; lia).
  destruct (pack_f64_ok (c_v c 0 0)) as (t0 & ->); [lra|].
  destruct (pack_f64_ok (c_v c 1 0 - c_v c 0 0)) as (t1 & ->).
  { apply Qabs_bound in V0, V1. apply Qabs_Qle_condition. lra. }
  destruct (all_ok pack_name names) as (bn & ->).
  { intros s Hs. unfold pack_name. specialize (Hn s Hs). destruct (Nat.leb_spec (List.length s) 10); [eexists; reflexivity|lia]. }
  destruct (all_ok pack_name units') as (bu & ->).
  { intros s Hs. unfold pack_name. specialize (Hu s Hs). destruct (Nat.leb_spec (List.length s) 10); [eexists; reflexivity|lia]. }
  rewrite (pack_s_ok 2 2) by reflexivity. rewrite !(pack_s_ok 4) by (apply in_int32; lia).
  eexists. 
  match goal with |- _ = write_file _ _ (map Ok ?e) =>
    instantiate (1 := [le 2 2; le 4 (Z.of_nat (c_nC c - 1)); le 4 (Z.of_nat (c_nT c)); t0; t1; concat w1; concat w2;
      le 4 (Z.of_nat (List.length desc)); map N_of_ascii desc] ++ bn ++ bu ++ [concat (map tobytes16 (packed_rows c params))]) end.
  rewrite !map_app. reflexivity.
Qed.

Theorem out_write_ok f p c names units units' desc : table_ok c -> wrap_units units = Ok units' -> time_first names = true ->
  (forall n, In n names -> List.length n <= 10) -> (forall u, In u units' -> List.length u <= 10) ->
  (Z.of_nat (List.length desc) <= 2147483647)%Z -> f p <> Dir ->
  exists f', writeBinary f p c names units 2 desc = (f', Ok tt).
Proof.
  intros A B C D E F G. destruct (out_pieces_ok f p c names units units' desc A B C D E F) as (bs & ->).
  destruct (write_file_ok f p bs G) as (f' & H & _). exists f'. exact H.
Qed.
