(** Accuracy of the TurbSim quantisation, in exact and in single precision arithmetic. *)
From Verif Require Import Py PyFacts ListFacts FS Bytes Float TurbSim_Model TurbSim_Proofs.
From Coq Require Import QArith Qround Qminmax Qabs Qpower Lqa Zquot ZifyBool ZifyNat ZifyN Setoid.
Local Open Scope nat_scope.

(** ** Truncation *)
Lemma Qtrunc_spec q : (Qabs (q - inject_Z (Qtrunc q)) < 1)%Q.
Proof.
  destruct q as [n d]. unfold Qtrunc. cbn [Qnum Qden].
  pose proof (Z.quot_rem' n (Zpos d)) as E. pose proof (Z.rem_bound_abs n (Zpos d) ltac:(lia)) as B.
  set (t := Z.quot n (Zpos d)) in *. set (r := Z.rem n (Zpos d)) in *.
  unfold Qabs, Qlt, Qminus, Qplus, Qopp, inject_Z. cbn [Qnum Qden]. 
  rewrite Pos2Z.inj_mul. nia.
Qed.
Lemma Qtrunc_lower q z : (z <= 0)%Z -> (inject_Z (z - 1) < q)%Q -> (z <= Qtrunc q)%Z.
Proof.
  intros Hz H. destruct q as [n d]. unfold Qtrunc, Qlt, inject_Z in *. cbn [Qnum Qden] in *.
  pose proof (Z.quot_rem' n (Zpos d)) as E. 
  set (t := Z.quot n (Zpos d)) in *.
  destruct (Z_lt_le_dec n 0) as [Hn|Hn].
  - pose proof (Zquot.Zrem_lt_neg n (Zpos d) ltac:(lia) ltac:(lia)). nia.
  - pose proof (Z.quot_pos n (Zpos d) ltac:(lia) ltac:(lia)). fold t in H0. lia.
Qed.
Lemma Qtrunc_upper q z : (0 <= z)%Z -> (q < inject_Z (z + 1))%Q -> (Qtrunc q <= z)%Z.
Proof.
  intros Hz H. destruct q as [n d]. unfold Qtrunc, Qlt, inject_Z in *. cbn [Qnum Qden] in *.
  pose proof (Z.quot_rem' n (Zpos d)) as E. 
  set (t := Z.quot n (Zpos d)) in *.
  destruct (Z_lt_le_dec n 0) as [Hn|Hn].
  - pose proof (Zquot.Zrem_lt_neg n (Zpos d) ltac:(lia) ltac:(lia)). nia.
  - pose proof (Z.rem_bound_pos n (Zpos d) ltac:(lia) ltac:(lia)). nia.
Qed.
Lemma Qtrunc_Z q z : (q == inject_Z z)%Q -> Qtrunc q = z.
Proof.
  destruct q as [n d]. unfold Qtrunc, Qeq, inject_Z. cbn [Qnum Qden]. intro H.
  replace n with (z * Zpos d)%Z by lia. apply Z.quot_mul. lia.
Qed.

(** A sample that falls strictly inside (-32769, 32768) after scaling is stored without wrapping and read
    back within one step 1/scl. *)
Lemma quantise_core s o x : (0 < s)%Q -> (-32769 < x * s + o)%Q -> (x * s + o < 32768)%Q ->
  (-32768 <= quantise s o x <= 32767)%Z /\ (Qabs ((inject_Z (quantise s o x) - o) / s - x) < 1 / s)%Q.
Proof.
  intros Hs Hlo Hhi. unfold quantise, to_int16.
  assert (B1 : (-32768 <= Qtrunc (x * s + o))%Z) by (apply Qtrunc_lower; [lia|exact Hlo]).
  assert (B2 : (Qtrunc (x * s + o) <= 32767)%Z) by (apply Qtrunc_upper; [lia|exact Hhi]).
  rewrite wrap16_id by lia. split; [lia|].
  pose proof (Qtrunc_spec (x * s + o)) as T. set (n := inject_Z (Qtrunc (x * s + o))) in *.
  assert (Hs0 : ~ (s == 0)%Q) by lra.
  setoid_replace ((n - o) / s - x)%Q with (- ((x * s + o - n) / s))%Q by (field; exact Hs0).
  rewrite Qabs_opp. unfold Qdiv at 1. rewrite Qabs_Qmult, (Qabs_pos (/ s)) by (apply Qlt_le_weak, Qinv_lt_0_compat, Hs).
  unfold Qdiv. apply Qmult_lt_r; [apply Qinv_lt_0_compat, Hs|exact T].
Qed.

(** ** Exact arithmetic *)
Lemma quantise_exact fl lo hi x : (forall q, fl q == q)%Q -> (lo <= x)%Q -> (x <= hi)%Q ->
  let s := scl_of fl lo hi in let o := off_of fl lo hi in let n := quantise s o x in
  (-32768 <= n <= 32767)%Z /\ (0 < s)%Q /\
  (Qabs ((inject_Z n - o) / s - x) <= (hi - lo) / 65535)%Q.
Proof.
  intros Hfl H1 H2. cbv zeta. unfold off_of. rewrite !Hfl || idtac.
  set (s := scl_of fl lo hi). set (o := fl (-32768 - s * lo)%Q).
  assert (Eo : (o == -32768 - s * lo)%Q) by apply Hfl.
  destruct (Qeq_bool lo hi) eqn:Eq.
  - assert (Es : s = 1%Q) by (unfold s, scl_of; rewrite Eq; reflexivity).
    apply Qeq_bool_iff in Eq. assert (Ex : (x == lo)%Q) by lra.
    assert (En : quantise s o x = (-32768)%Z).
    { unfold quantise, to_int16. rewrite (Qtrunc_Z _ (-32768)); [reflexivity|]. rewrite Eo, Es, Ex. change (inject_Z (-32768)) with (-32768)%Q. ring. }
    rewrite En. split; [lia|]. rewrite Es. split; [lra|].
    setoid_replace ((inject_Z (-32768) - o) / 1 - x)%Q with 0%Q.
    + change (Qabs 0) with 0%Q. rewrite Eq. setoid_replace ((hi - hi) / 65535)%Q with 0%Q by field. lra.
    + rewrite Eo, Es, Ex. change (inject_Z (-32768)) with (-32768)%Q. field.
  - apply Qeq_bool_neq in Eq. assert (Hlt : (lo < hi)%Q) by lra.
    assert (Es : (s == 65535 / (hi - lo))%Q).
    { unfold s, scl_of. destruct (Qeq_bool lo hi) eqn:Eq'; [apply Qeq_bool_iff in Eq'; lra|]. apply Hfl. }
    assert (Hs : (0 < s)%Q).
    { rewrite Es. unfold Qdiv. apply Qmult_lt_0_compat; [lra|]. apply Qinv_lt_0_compat. lra. }
    assert (Esr : (s * (hi - lo) == 65535)%Q) by (rewrite Es; field; lra).
    assert (A : (0 <= (x - lo) * s)%Q) by (apply Qmult_le_0_compat; lra).
    assert (B : (0 <= (hi - x) * s)%Q) by (apply Qmult_le_0_compat; lra).
    destruct (quantise_core s o x Hs) as [R E].
    + rewrite Eo. setoid_replace (x * s + (-32768 - s * lo))%Q with ((x - lo) * s - 32768)%Q by ring. lra.
    + rewrite Eo. setoid_replace (x * s + (-32768 - s * lo))%Q with (s * (hi - lo) - (hi - x) * s - 32768)%Q by ring. lra.
    + split; [exact R|]. split; [exact Hs|]. apply Qlt_le_weak. 
      assert (E2 : (1 / s == (hi - lo) / 65535)%Q).
      { rewrite <- Esr. field. lra. }
      rewrite <- E2. exact E.
Qed.

(** ** Single precision scale and offset *)
Lemma emin32 : emin binary32 = (-149)%Z. Proof. reflexivity. Qed.
Lemma rnd32_err q : (Qabs (rnd binary32 q - q) <= Qabs q * (1 # 16777216) + (1 # 1000000000000))%Q.
Proof.
  eapply Qle_trans; [apply rnd_err, good32|]. change (- prec binary32)%Z with (-24)%Z. change (emin binary32 - 1)%Z with (-150)%Z.
  apply Qplus_le_compat.
  - assert (E : (Qpower (2 # 1) (-24) == 1 # 16777216)%Q) by reflexivity. rewrite E. apply Qle_refl.
  - vm_compute. discriminate.
Qed.
Lemma Qabs_bound q b : (Qabs q <= b)%Q -> (- b <= q)%Q /\ (q <= b)%Q.
Proof. intro H. apply Qabs_Qle_condition. exact H. Qed.

Lemma quantise_single lo hi x : (lo <= x)%Q -> (x <= hi)%Q ->
  ((1 # 1000000) <= hi - lo)%Q -> (hi - lo <= 1000000000)%Q -> (Qabs lo <= 128 * (hi - lo))%Q ->
  let s := scl_of (rnd binary32) lo hi in let o := off_of (rnd binary32) lo hi in let n := quantise s o x in
  (-32768 <= n <= 32767)%Z /\ (0 < s)%Q /\
  (Qabs ((inject_Z n - o) / s - x) <= (hi - lo) / 65535 * (1 + (1 # 1000000)))%Q.
Proof.
  intros H1 H2 Hr1 Hr2 Hlo. cbv zeta. set (R := (hi - lo)%Q) in *.
  set (s := scl_of (rnd binary32) lo hi). unfold off_of. fold s. set (o := rnd binary32 (-32768 - s * lo)%Q).
  assert (HR : (0 < R)%Q) by lra.
  assert (Hs1 : (Qabs (s - 65535 / R) <= 65535 / R * (1 # 4000000))%Q).
  { unfold s, scl_of. destruct (Qeq_bool lo hi) eqn:Eq; [apply Qeq_bool_iff in Eq; unfold R in HR; lra|].
    fold R. eapply Qle_trans; [apply rnd32_err|].
    assert (Hp : ((65535 # 1000000000) <= 65535 / R)%Q).
    { apply Qle_shift_div_l; [exact HR|]. lra. }
    rewrite (Qabs_pos (65535 / R)) by lra. lra. }
  apply Qabs_bound in Hs1 as [Hs1 Hs2].
  assert (Er : (65535 / R * R == 65535)%Q) by (field; lra).
  set (r := (65535 / R)%Q) in *.
  assert (Hr : (0 < r)%Q) by (apply Qlt_shift_div_l; [exact HR|]; lra).
  assert (Hs : (0 < s)%Q) by lra.
  assert (HsR1 : (s * R <= 65535 * (1 + (1 # 4000000)))%Q).
  { setoid_replace (65535 * (1 + (1 # 4000000)))%Q with (r * (1 + (1 # 4000000)) * R)%Q.
    - apply Qmult_le_compat_r; lra.
    - setoid_replace (r * (1 + (1 # 4000000)) * R)%Q with (r * R * (1 + (1 # 4000000)))%Q by ring. rewrite Er. reflexivity. }
  assert (HsR2 : (65535 * (1 - (1 # 4000000)) <= s * R)%Q).
  { setoid_replace (65535 * (1 - (1 # 4000000)))%Q with (r * (1 - (1 # 4000000)) * R)%Q.
    - apply Qmult_le_compat_r; lra.
    - setoid_replace (r * (1 - (1 # 4000000)) * R)%Q with (r * R * (1 - (1 # 4000000)))%Q by ring. rewrite Er. reflexivity. }
  assert (Hsl : (Qabs (s * lo) <= 8389000)%Q).
  { rewrite Qabs_Qmult, (Qabs_pos s) by lra.
    apply Qle_trans with (s * (128 * R))%Q; [apply Qmult_le_l; assumption|].
    setoid_replace (s * (128 * R))%Q with (128 * (s * R))%Q by ring. lra. }
  assert (Ho : (Qabs (o - (-32768 - s * lo)) <= (1 # 1) * (502 # 1000))%Q).
  { unfold o. eapply Qle_trans; [apply rnd32_err|].
    assert (Ha : (Qabs (-32768 - s * lo) <= 8389000 + 32768)%Q).
    { eapply Qle_trans; [apply Qabs_triangle|]. rewrite Qabs_opp. change (Qabs (-32768)) with 32768%Q. lra. }
    lra. }
  apply Qabs_bound in Ho as [Ho1 Ho2].
  assert (A : (0 <= (x - lo) * s)%Q) by (apply Qmult_le_0_compat; lra).
  assert (B : (0 <= (hi - x) * s)%Q) by (apply Qmult_le_0_compat; lra).
  assert (ERs : (s * R == (x - lo) * s + (hi - x) * s)%Q) by (unfold R; ring).
  assert (Ex : (x * s == (x - lo) * s + s * lo)%Q) by ring.
  destruct (quantise_core s o x Hs) as [Hn He].
  - rewrite Ex. lra.
  - rewrite Ex. lra.
  - split; [exact Hn|]. split; [exact Hs|]. apply Qlt_le_weak. eapply Qlt_le_trans; [exact He|].
    apply Qle_shift_div_r; [exact Hs|].
    setoid_replace (R / 65535 * (1 + (1 # 1000000)) * s)%Q with (s * R * ((1 + (1 # 1000000)) / 65535))%Q by field.
    apply Qle_trans with (65535 * (1 - (1 # 4000000)) * ((1 + (1 # 1000000)) / 65535))%Q.
    + vm_compute. discriminate.
    + apply Qmult_le_compat_r; [exact HsR2|]. vm_compute. discriminate.
Qed.

(** ** Bounds of a component *)
Lemma fold_min_le l x y : (In y l \/ y = x) -> (fold_left Qmin l x <= y)%Q.
Proof.
  revert x y. induction l as [|a l IH]; intros x y H; cbn.
  - destruct H as [H|H]; [destruct H|subst; apply Qle_refl].
  - destruct H as [[H|H]|H]; [subst|idtac|subst].
    + apply Qle_trans with (Qmin x y); [apply IH; right; reflexivity|apply Q.le_min_r].
    + apply IH. left. exact H.
    + apply Qle_trans with (Qmin x a); [apply IH; right; reflexivity|apply Q.le_min_l].
Qed.
Lemma fold_max_ge l x y : (In y l \/ y = x) -> (y <= fold_left Qmax l x)%Q.
Proof.
  revert x y. induction l as [|a l IH]; intros x y H; cbn.
  - destruct H as [H|H]; [destruct H|subst; apply Qle_refl].
  - destruct H as [[H|H]|H]; [subst|idtac|subst].
    + apply Qle_trans with (Qmax x y); [apply Q.le_max_r|apply IH; right; reflexivity].
    + apply IH. left. exact H.
    + apply Qle_trans with (Qmax x a); [apply Q.le_max_l|apply IH; right; reflexivity].
Qed.
Lemma minimum_le l m y : minimum l = Ok m -> In y l -> (m <= y)%Q.
Proof.
  destruct l as [|x l]; [discriminate|]. intros H Hy. apply Ok_inj in H. subst m. apply fold_min_le.
  destruct Hy as [->|Hy]; auto.
Qed.
Lemma maximum_ge l m y : maximum l = Ok m -> In y l -> (y <= m)%Q.
Proof.
  destruct l as [|x l]; [discriminate|]. intros H Hy. apply Ok_inj in H. subst m. apply fold_max_ge.
  destruct Hy as [->|Hy]; auto.
Qed.
Lemma in_comp_values u nt ny nz k it iy iz : it < nt -> iy < ny -> iz < nz -> In (u k it iy iz) (comp_values u nt ny nz k).
Proof.
  intros Ht Hy Hz. unfold comp_values. apply in_flat_map. exists it. split; [apply in_seq; lia|].
  apply in_flat_map. exists iy. split; [apply in_seq; lia|]. apply in_map_iff. exists iz. split; [reflexivity|apply in_seq; lia].
Qed.
Lemma in_twr_values w nt n k it j : it < nt -> j < n -> In (w k it j) (twr_values w nt n k).
Proof.
  intros Ht Hj. unfold twr_values. apply in_flat_map. exists it. split; [apply in_seq; lia|].
  apply in_map_iff. exists j. split; [reflexivity|apply in_seq; lia].
Qed.
Lemma comp_bounds_grid o k lo hi it iy iz : comp_bounds o k = Ok (lo, hi) -> it < o_nt o -> iy < o_ny o -> iz < o_nz o ->
  (lo <= o_u o k it iy iz)%Q /\ (o_u o k it iy iz <= hi)%Q.
Proof.
  intros H Ht Hy Hz. pose proof (in_comp_values (o_u o) _ _ _ k it iy iz Ht Hy Hz) as Hin. unfold comp_bounds in H.
  destruct (minimum _) as [a|] eqn:E1; cbn [bind] in H; [|discriminate].
  destruct (maximum (comp_values _ _ _ _ _)) as [b|] eqn:E2; cbn [bind] in H; [|discriminate].
  pose proof (minimum_le _ _ _ E1 Hin). pose proof (maximum_ge _ _ _ E2 Hin).
  destruct (Nat.ltb 0 (n_twr o)).
  - destruct (minimum (twr_values _ _ _ _)) as [a2|]; cbn [bind] in H; [|discriminate].
    destruct (maximum (twr_values _ _ _ _)) as [b2|]; cbn [bind] in H; [|discriminate].
    apply Ok_inj in H. injection H as <- <-. split.
    + apply Qle_trans with a; [apply Q.le_min_l|assumption].
    + apply Qle_trans with b; [assumption|apply Q.le_max_l].
  - apply Ok_inj in H. injection H as <- <-. split; assumption.
Qed.
Lemma comp_bounds_twr o k lo hi it j : comp_bounds o k = Ok (lo, hi) -> it < o_nt o -> j < n_twr o ->
  (lo <= u_twr o k it j)%Q /\ (u_twr o k it j <= hi)%Q.
Proof.
  intros H Ht Hj. pose proof (in_twr_values (u_twr o) _ _ k it j Ht Hj) as Hin. unfold comp_bounds in H.
  destruct (minimum _) as [a|] eqn:E1; cbn [bind] in H; [|discriminate].
  destruct (maximum (comp_values _ _ _ _ _)) as [b|] eqn:E2; cbn [bind] in H; [|discriminate].
  destruct (Nat.ltb_spec 0 (n_twr o)); [|lia].
  destruct (minimum (twr_values _ _ _ _)) as [a2|] eqn:E3; cbn [bind] in H; [|discriminate].
  destruct (maximum (twr_values _ _ _ _)) as [b2|] eqn:E4; cbn [bind] in H; [|discriminate].
  pose proof (minimum_le _ _ _ E3 Hin). pose proof (maximum_ge _ _ _ E4 Hin).
  apply Ok_inj in H. injection H as <- <-. split.
  - apply Qle_trans with a2; [apply Q.le_min_r|assumption].
  - apply Qle_trans with b2; [assumption|apply Q.le_max_r].
Qed.

(** ** End to end: what a reader of the written file sees *)
Theorem ts_file_accuracy f p info o f' :
  forallb (fun c => (N_of_ascii c <? 128)%N) info = true ->
  ts_write f p info o = (f', Ok tt) ->
  exists r, ts_read f' p = Ok r /\
  forall k lo hi, k < 3 -> comp_bounds o k = Ok (lo, hi) ->
    ((1 # 1000000) <= hi - lo)%Q -> (hi - lo <= 1000000000)%Q -> (Qabs lo <= 128 * (hi - lo))%Q ->
    (forall it iy iz, it < o_nt o -> iy < o_ny o -> iz < o_nz o -> exists v,
       r_u r k it iy iz = Some v /\ (Qabs (v - o_u o k it iy iz) <= (hi - lo) / 65535 * (1 + (1 # 1000000)))%Q) /\
    (forall it j, it < o_nt o -> j < n_twr o -> exists v,
       r_uTwr r k it j = Some v /\ (Qabs (v - u_twr o k it j) <= (hi - lo) / 65535 * (1 + (1 # 1000000)))%Q).
Proof.
  intros Hinfo H. destruct (ts_roundtrip f p info o f' Hinfo H) as (r & Hr & _ & _ & _ & _ & _ & _ & _ & HK & _).
  exists r. split; [exact Hr|]. intros k lo hi Hk Hb R1 R2 R3.
  destruct (HK k Hk) as (scl & off & s' & off' & Hsc & Es & Eo & [Qs Qo] & HI & HJ).
  unfold scaling in Hsc. rewrite Hb in Hsc. cbn [bind] in Hsc. apply Ok_inj in Hsc.
  pose proof (f_equal fst Hsc) as C1. pose proof (f_equal snd Hsc) as C2. cbn [fst snd] in C1, C2. clear Hsc.
  assert (G : forall x n, (lo <= x)%Q -> (x <= hi)%Q -> n = quantise scl off x ->
     exists v, dequantise (Some s') (Some off') n = Some v /\ (Qabs (v - x) <= (hi - lo) / 65535 * (1 + (1 # 1000000)))%Q).
  { intros x n X1 X2 ->. destruct (quantise_single lo hi x X1 X2 R1 R2 R3) as (_ & Hs & He).
    rewrite C1, C2 in *. unfold dequantise.
    destruct (Qeq_bool s' 0) eqn:E0; [apply Qeq_bool_iff in E0; rewrite <- Qs, E0 in Hs; lra|].
    eexists. split; [reflexivity|]. rewrite Qs, Qo. exact He. }
  split.
  - intros it iy iz Ht Hy Hz. unfold r_u. rewrite Es, Eo.
    destruct (comp_bounds_grid o k lo hi it iy iz Hb Ht Hy Hz). apply G; try assumption. apply HI; assumption.
  - intros it j Ht Hj. unfold r_uTwr. rewrite Es, Eo.
    destruct (comp_bounds_twr o k lo hi it j Hb Ht Hj). apply G; try assumption. apply HJ; assumption.
Qed.
