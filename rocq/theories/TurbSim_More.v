(** TurbSim: when writing succeeds, makePeriodic, effect of the queries. *)
From Verif Require Import Py PyFacts ListFacts FS Bytes Float TurbSim_Model TurbSim_Proofs TurbSim_Quant.
From Coq Require Import QArith Qround Qminmax Qabs Qpower Lqa ZifyBool ZifyNat ZifyN Setoid.
Local Open Scope nat_scope.

Definition big : Q := Qpower (2#1) 127.
Lemma pack_f32_ok q : (Qabs q < big)%Q -> exists b, pack_f32 q = Ok b.
Proof.
  intro H. destruct (encode_some binary32 q good32) as (b & Hb); [exact H|].
  unfold pack_f32. rewrite Hb. eexists; reflexivity.
Qed.
Lemma pack_s_ok n z : in_sint n z = true -> pack_s n z = Ok (le n z).
Proof. intro H. unfold pack_s. rewrite H. reflexivity. Qed.

Lemma minimum_ex l : l <> [] -> exists m, minimum l = Ok m /\ exists y, In y l /\ (m == y)%Q.
Proof.
  destruct l as [|x l]; [congruence|]. intros _. eexists. split; [reflexivity|].
  assert (G : exists y, (In y l \/ y = x) /\ (fold_left Qmin l x == y)%Q).
  { revert x. induction l as [|a l IH]; intro x; cbn; [exists x; split; [right; reflexivity|reflexivity]|].
    destruct (IH (Qmin x a)) as (y & [Hy|Hy] & Ey); [exists y; auto|].
    destruct (Q.min_dec x a) as [E|E]; [exists x|exists a]; (split; [auto|]); rewrite Ey, Hy; exact E. }
  destruct G as (y & [Hy|Hy] & E); exists y; (split; [|exact E]); [right; exact Hy|left; congruence].
Qed.
Lemma maximum_ex l : l <> [] -> exists m, maximum l = Ok m /\ exists y, In y l /\ (m == y)%Q.
Proof.
  destruct l as [|x l]; [congruence|]. intros _. eexists. split; [reflexivity|].
  assert (G : exists y, (In y l \/ y = x) /\ (fold_left Qmax l x == y)%Q).
  { revert x. induction l as [|a l IH]; intro x; cbn; [exists x; split; [right; reflexivity|reflexivity]|].
    destruct (IH (Qmax x a)) as (y & [Hy|Hy] & Ey); [exists y; auto|].
    destruct (Q.max_dec x a) as [E|E]; [exists x|exists a]; (split; [auto|]); rewrite Ey, Hy; exact E. }
  destruct G as (y & [Hy|Hy] & E); exists y; (split; [|exact E]); [right; exact Hy|left; congruence].
Qed.

(** The values of a component, grid and tower together. *)
Definition sample (o : tsobj) (k : nat) (x : Q) : Prop :=
  (exists it iy iz, it < o_nt o /\ iy < o_ny o /\ iz < o_nz o /\ x = o_u o k it iy iz) \/
  (exists it j, it < o_nt o /\ j < n_twr o /\ x = u_twr o k it j).

Lemma comp_values_in o k x : In x (comp_values (o_u o) (o_nt o) (o_ny o) (o_nz o) k) -> sample o k x.
Proof.
  unfold comp_values. intro H. apply in_flat_map in H as (it & Hit & H). apply in_flat_map in H as (iy & Hiy & H).
  apply in_map_iff in H as (iz & <- & Hiz). apply in_seq in Hit, Hiy, Hiz. left. exists it, iy, iz.
  repeat split; lia.
Qed.
Lemma twr_values_in o k x : In x (twr_values (u_twr o) (o_nt o) (n_twr o) k) -> sample o k x.
Proof.
  unfold twr_values. intro H. apply in_flat_map in H as (it & Hit & H).
  apply in_map_iff in H as (j & <- & Hj). apply in_seq in Hit, Hj. right. exists it, j. repeat split; lia.
Qed.
(** The bounds are attained by samples. *)
Lemma comp_bounds_ex o k : 0 < o_nt o -> 0 < o_ny o -> 0 < o_nz o ->
  exists lo hi x y, comp_bounds o k = Ok (lo, hi) /\ sample o k x /\ sample o k y /\ (lo == x)%Q /\ (hi == y)%Q.
Proof.
  intros Ht Hy Hz.
  assert (NE : comp_values (o_u o) (o_nt o) (o_ny o) (o_nz o) k <> []).
  { pose proof (in_comp_values (o_u o) _ _ _ k 0 0 0 Ht Hy Hz) as Hin. intro E. rewrite E in Hin. exact Hin. }
  destruct (minimum_ex _ NE) as (a & Ea & x1 & Ix1 & Qa). destruct (maximum_ex _ NE) as (b & Eb & y1 & Iy1 & Qb).
  apply comp_values_in in Ix1, Iy1. unfold comp_bounds. rewrite Ea, Eb. cbn [bind].
  destruct (Nat.ltb_spec 0 (n_twr o)) as [Hn|Hn].
  - assert (NT : twr_values (u_twr o) (o_nt o) (n_twr o) k <> []).
    { pose proof (in_twr_values (u_twr o) _ _ k 0 0 Ht Hn) as Hin. intro E. rewrite E in Hin. exact Hin. }
    destruct (minimum_ex _ NT) as (a2 & Ea2 & x2 & Ix2 & Qa2). destruct (maximum_ex _ NT) as (b2 & Eb2 & y2 & Iy2 & Qb2).
    apply twr_values_in in Ix2, Iy2. rewrite Ea2, Eb2. cbn [bind]. eexists _, _.
    assert (GX : exists x, sample o k x /\ (Qmin a a2 == x)%Q).
    { destruct (Q.min_dec a a2) as [E|E]; [exists x1|exists x2]; (split; [assumption|]); rewrite E; assumption. }
    assert (GY : exists x, sample o k x /\ (Qmax b b2 == x)%Q).
    { destruct (Q.max_dec b b2) as [E|E]; [exists y1|exists y2]; (split; [assumption|]); rewrite E; assumption. }
    destruct GX as (x & Sx & Ex). destruct GY as (y & Sy & Ey). exists x, y. repeat split; assumption.
  - exists a, b, x1, y1. repeat split; assumption.
Qed.

(** A sufficient condition, met by any physical wind field: sizes fit 32 bits, two points at least in each
    direction, finite values, and a component is either constant or varies by more than 1e-9. *)
Theorem ts_write_ok f p info o :
  p <> [] -> f p <> Dir ->
  in_sint 2 (the_ID o) = true ->
  in_sint 4 (Z.of_nat (o_nz o)) = true -> in_sint 4 (Z.of_nat (o_ny o)) = true ->
  in_sint 4 (Z.of_nat (n_twr o)) = true -> in_sint 4 (Z.of_nat (o_nt o)) = true ->
  in_sint 4 (Z.of_nat (List.length info)) = true ->
  0 < o_nt o -> 0 < o_ny o -> 0 < o_nz o ->
  2 <= List.length (o_z o) -> 2 <= List.length (o_y o) -> 2 <= List.length (o_t o) ->
  (forall x, In x (o_z o ++ o_y o ++ o_t o) -> (Qabs x <= 1000000000)%Q) ->
  (Qabs (fst (o_hub o)) <= 1000000000)%Q -> (Qabs (snd (o_hub o)) <= 1000000000)%Q ->
  (forall k x, k < 3 -> sample o k x -> (Qabs x <= 1000000000)%Q) ->
  (forall k x y, k < 3 -> sample o k x -> sample o k y -> (x < y)%Q ->
     exists x' y', sample o k x' /\ sample o k y' /\ ((1 # 1000000000) <= y' - x')%Q) ->
  exists f', ts_write f p info o = (f', Ok tt).
Proof.
  intros Hp Hdir HID Rz Ry Rw Rt Ri Ht Hy Hz Lz Ly Lt HC Hh1 Hh2 HS HV.
  assert (BB : (2000000000 < big)%Q) by (vm_compute; reflexivity).
  assert (SC : forall k, k < 3 -> exists s o', scaling o k = Ok (s, o') /\ (Qabs s < big)%Q /\ (Qabs o' < big)%Q).
  { intros k Hk. destruct (comp_bounds_ex o k Ht Hy Hz) as (lo & hi & x & y & Eb & Sx & Sy & Qx & Qy).
    unfold scaling. rewrite Eb. cbn [bind]. eexists _, _. split; [reflexivity|].
    assert (Alo : (Qabs lo <= 1000000000)%Q) by (rewrite Qx; apply (HS k); assumption).
    assert (AS : (Qabs (scl_of (rnd binary32) lo hi) <= 70000000000000)%Q).
    { unfold scl_of. destruct (Qeq_bool lo hi) eqn:E; [vm_compute; discriminate|].
      apply Qeq_bool_neq in E.
      assert (Hle : (lo <= hi)%Q).
      { destruct (comp_bounds_grid o k lo hi 0 0 0 Eb Ht Hy Hz). lra. }
      assert (Hxy : (x < y)%Q) by lra.
      destruct (HV k x y Hk Sx Sy Hxy) as (x' & y' & Sx' & Sy' & Hd).
      assert (Hgap : ((1 # 1000000000) <= hi - lo)%Q).
      { assert (forall z, sample o k z -> (lo <= z)%Q /\ (z <= hi)%Q) as HB.
        { intros z [(it & iy & iz & A & B & C & ->)|(it & j & A & B & ->)].
          - eapply comp_bounds_grid; eassumption.
          - eapply comp_bounds_twr; eassumption. }
        destruct (HB _ Sx'), (HB _ Sy'). lra. }
      assert (Hq1 : (65535 / (hi - lo) <= 65535000000000)%Q).
      { apply Qle_shift_div_r; [lra|]. lra. }
      assert (Hq0 : (0 <= 65535 / (hi - lo))%Q) by (apply Qle_shift_div_l; lra).
      pose proof (rnd32_err (65535 / (hi - lo))) as Er.
      rewrite (Qabs_pos (65535 / (hi - lo)) Hq0) in Er.
      set (t := (65535 / (hi - lo))%Q) in *.
      apply Qabs_bound in Er as [Er1 Er2]. apply Qabs_case; intros; lra. }
    split; [assert (70000000000000 < big)%Q by (vm_compute; reflexivity); lra|].
    unfold off_of. set (s := scl_of (rnd binary32) lo hi) in *.
    assert (Asl : (Qabs (s * lo) <= 70000000000000 * 1000000000)%Q).
    { rewrite Qabs_Qmult. apply Qmult_le_compat_nonneg; split; try assumption; apply Qabs_nonneg. }
    pose proof (rnd32_err (-32768 - s * lo)) as Er.
    assert (Ha : (Qabs (-32768 - s * lo) <= 70000000000000 * 1000000000 + 32768)%Q).
    { eapply Qle_trans; [apply Qabs_triangle|]. rewrite Qabs_opp. change (Qabs (-32768)) with 32768%Q. lra. }
    assert (HB2 : (70000000000000 * 1000000000 * 3 < big)%Q) by (vm_compute; reflexivity).
    set (t := (-32768 - s * lo)%Q) in *.
    apply Qabs_bound in Ha as [Ha1 Ha2].
    assert (Hc : (Qabs t * (1 # 16777216) <= 70000000000000 * 1000000000 + 32768)%Q).
    { assert (Qabs t <= 70000000000000 * 1000000000 + 32768)%Q by (apply Qabs_Qle_condition; split; assumption). 
      pose proof (Qabs_nonneg t). lra. }
    apply Qabs_bound in Er as [Er1 Er2]. apply Qabs_case; intros; lra. }
  destruct (SC 0) as (s0 & f0 & E0 & S0 & F0); [lia|]. destruct (SC 1) as (s1 & f1 & E1 & S1 & F1); [lia|].
  destruct (SC 2) as (s2 & f2 & E2 & S2 & F2); [lia|].
  destruct (o_z o) as [|z0 [|z1 zs]] eqn:Ez; cbn in Lz; try lia.
  destruct (o_y o) as [|y0 [|y1 ys]] eqn:Ey; cbn in Ly; try lia.
  destruct (o_t o) as [|t0 [|t1 ts]] eqn:Et; cbn in Lt; try lia.
  assert (Bz0 : (Qabs z0 <= 1000000000)%Q) by (apply HC; cbn; auto).
  assert (Bz1 : (Qabs z1 <= 1000000000)%Q) by (apply HC; cbn; auto).
  assert (By0 : (Qabs y0 <= 1000000000)%Q) by (apply HC; rewrite !in_app_iff; cbn; auto).
  assert (By1 : (Qabs y1 <= 1000000000)%Q) by (apply HC; rewrite !in_app_iff; cbn; auto 6).
  assert (Bt0 : (Qabs t0 <= 1000000000)%Q) by (apply HC; rewrite !in_app_iff; cbn; auto 6).
  assert (Bt1 : (Qabs t1 <= 1000000000)%Q) by (apply HC; rewrite !in_app_iff; cbn; auto 8).
  assert (DIFF : forall a b, (Qabs a <= 1000000000)%Q -> (Qabs b <= 1000000000)%Q -> (Qabs (b - a) < big)%Q).
  { intros a b Ha Hb. apply Qabs_bound in Ha as [? ?]. apply Qabs_bound in Hb as [? ?]. apply Qabs_case; intros; lra. }
  unfold ts_write. destruct p as [|c p0]; [congruence|]. rewrite E0, E1, E2. cbn [bind]. rewrite Ez, Ey, Et.
  cbn [bind first_of step_of].
  destruct (pack_f32_ok (z1 - z0) (DIFF _ _ Bz0 Bz1)) as (w1 & W1). destruct (pack_f32_ok (y1 - y0) (DIFF _ _ By0 By1)) as (w2 & W2).
  destruct (pack_f32_ok (t1 - t0) (DIFF _ _ Bt0 Bt1)) as (w3 & W3).
  destruct (pack_f32_ok (snd (o_hub o)) ltac:(lra)) as (w4 & W4). destruct (pack_f32_ok (fst (o_hub o)) ltac:(lra)) as (w5 & W5).
  destruct (pack_f32_ok z0 ltac:(lra)) as (w6 & W6).
  destruct (pack_f32_ok s0 S0) as (x1 & X1). destruct (pack_f32_ok f0 F0) as (x2 & X2).
  destruct (pack_f32_ok s1 S1) as (x3 & X3). destruct (pack_f32_ok f1 F1) as (x4 & X4).
  destruct (pack_f32_ok s2 S2) as (x5 & X5). destruct (pack_f32_ok f2 F2) as (x6 & X6).
  rewrite W1, W2, W3, W4, W5, W6, X1, X2, X3, X4, X5, X6.
  rewrite (pack_s_ok _ _ HID), (pack_s_ok _ _ Rz), (pack_s_ok _ _ Ry), (pack_s_ok _ _ Rw), (pack_s_ok _ _ Rt), (pack_s_ok _ _ Ri).
  match goal with |- context [write_file f ?p (?l ++ map (fun it => Ok (@?g it)) ?s)] =>
    let L := constr:([concat [le 2 (the_ID o); le 4 (Z.of_nat (o_nz o)); le 4 (Z.of_nat (o_ny o)); le 4 (Z.of_nat (n_twr o)); le 4 (Z.of_nat (o_nt o))];
              concat [w1; w2; w3; w4; w5; w6]; concat [x1; x2; x3; x4; x5; x6]; le 4 (Z.of_nat (List.length info)); map N_of_ascii info]) in
    replace (l ++ map (fun it => Ok (g it)) s) with (map (@Ok bytes) (L ++ map g s))
  end.
  - match goal with |- context [write_file f ?p (map Ok ?l)] => destruct (write_file_ok f p l Hdir) as (f' & Hf & _) end.
    exists f'. exact Hf.
  - rewrite map_app, map_map. reflexivity.
Qed.

(** ** makePeriodic *)
Theorem makePeriodic_spec o o' : List.length (o_t o) = o_nt o -> makePeriodic o = Ok o' ->
  2 <= o_nt o /\ o_nt o' = 2 * o_nt o - 2 /\ List.length (o_t o') = o_nt o' /\
  o_ny o' = o_ny o /\ o_nz o' = o_nz o /\ o_y o' = o_y o /\ o_z o' = o_z o /\ n_twr o' = n_twr o /\ o_ID o' = Some 8%Z /\
  (forall k it iy iz, it < o_nt o -> o_u o' k it iy iz = o_u o k it iy iz) /\
  (forall k it iy iz, 0 < it < o_nt o' -> o_u o' k it iy iz = o_u o' k (o_nt o' - it) iy iz) /\
  (forall k it j, it < o_nt o -> u_twr o' k it j = u_twr o k it j) /\
  (forall k it j, 0 < it < o_nt o' -> u_twr o' k it j = u_twr o' k (o_nt o' - it) j).
Proof.
  intros Hl H. unfold makePeriodic in H. destruct (o_t o) as [|t0 [|t1 ts]] eqn:Et; try discriminate.
  rewrite Hl in H. cbn [step_of bind] in H. apply Ok_inj in H.
  assert (H2 : 2 <= o_nt o) by (rewrite <- Hl; cbn; lia).
  assert (M1 : forall (A : Type) (g : nat -> A) it, it < o_nt o -> mirror (o_nt o) g it = g it).
  { intros A g it Hit. unfold mirror. destruct (Nat.ltb_spec it (o_nt o)); [reflexivity|lia]. }
  assert (M2 : forall (A : Type) (g : nat -> A) it, 0 < it < 2 * o_nt o - 2 ->
     mirror (o_nt o) g it = mirror (o_nt o) g (2 * o_nt o - 2 - it)).
  { intros A g it Hit. unfold mirror. destruct (Nat.ltb_spec it (o_nt o)), (Nat.ltb_spec (2 * o_nt o - 2 - it) (o_nt o)); f_equal; lia. }
  subst o'. cbn. repeat (split; [first [assumption|reflexivity|lia|unfold arange; rewrite !map_length, seq_length; lia]|]).
  split; [unfold n_twr; cbn; destruct (o_twr o) as [[n w]|]; reflexivity|]. split; [reflexivity|].
  split; [intros k it iy iz Hit; rewrite (M1 _ _ _ Hit); reflexivity|].
  split; [intros k it iy iz Hit; rewrite (M2 _ _ it) by lia; reflexivity|].
  unfold u_twr. cbn. destruct (o_twr o) as [[n w]|]; [|split; reflexivity].
  split; [intros k it j Hit; rewrite (M1 _ _ _ Hit); reflexivity|].
  intros k it j Hit; rewrite (M2 _ _ it) by lia; reflexivity.
Qed.
Theorem makePeriodic_total o : (exists o', makePeriodic o = Ok o') <-> 2 <= List.length (o_t o).
Proof.
  unfold makePeriodic. destruct (o_t o) as [|a [|b l]]; cbn; split; try lia; try (intros [? ?]; discriminate); try (eexists; reflexivity).
Qed.

(** ** Effect of the queries *)
Lemma sumQ_sub l c : (sumQ (map (fun x => x - c) l) == sumQ l - inject_Z (Z.of_nat (List.length l)) * c)%Q.
Proof.
  induction l as [|x l IH]; cbn [map sumQ fold_right List.length]; [change (inject_Z (Z.of_nat 0)) with 0%Q; ring|].
  fold (sumQ (map (fun x => x - c)%Q l)). fold (sumQ l). rewrite IH, Nat2Z.inj_succ, <- Z.add_1_r, inject_Z_plus.
  change (inject_Z 1) with 1%Q. ring.
Qed.
Lemma sumQ_ext {A} (f g : A -> Q) l : (forall x, In x l -> f x == g x)%Q -> (sumQ (map f l) == sumQ (map g l))%Q.
Proof.
  induction l as [|x l IH]; intro H; [reflexivity|]. cbn. fold (sumQ (map f l)). fold (sumQ (map g l)).
  rewrite (H x) by (left; reflexivity). rewrite IH by (intros y Hy; apply H; right; exact Hy). reflexivity.
Qed.
Lemma mean_ext {A} (f g : A -> Q) l : (forall x, In x l -> f x == g x)%Q -> (mean (map f l) == mean (map g l))%Q.
Proof. intro H. unfold mean. rewrite !map_length, (sumQ_ext f g l H). reflexivity. Qed.
Lemma mean_centered l : l <> [] -> (mean (map (fun x => x - mean l) l) == 0)%Q.
Proof.
  intro H. unfold mean at 1. rewrite map_length, sumQ_sub. unfold mean.
  assert (Hn : ~ (inject_Z (Z.of_nat (List.length l)) == 0)%Q).
  { change 0%Q with (inject_Z 0). rewrite inject_Z_injective. destruct l; [congruence|cbn; lia]. }
  field. exact Hn.
Qed.

Section Q.
Variables nt ny nz : nat.
(** [v] is [u] with the time mean removed at the grid points selected by [P]. *)
Definition centered (P : nat -> nat -> bool) (u v : arr4) : Prop :=
  forall k it iy iz, it < nt ->
    (v k it iy iz == u k it iy iz - (if P iy iz then mean (line_t nt u k iy iz) else 0))%Q.
Lemma longiline_centered P u v iy0 iz0 : centered P u v ->
  centered (fun iy iz => P iy iz || (Nat.eqb iy iy0 && Nat.eqb iz iz0)) u (longiline nt true iy0 iz0 v).
Proof.
  intros H k it iy iz Hit. unfold longiline.
  destruct (Nat.eqb_spec iy iy0) as [->|N1]; cbn [andb].
  2:{ rewrite orb_false_r. apply H. exact Hit. }
  destruct (Nat.eqb_spec iz iz0) as [->|N2].
  2:{ rewrite orb_false_r. apply H. exact Hit. }
  rewrite orb_true_r. rewrite (H k it iy0 iz0 Hit). unfold line_t at 2.
  rewrite (mean_ext _ (fun it => u k it iy0 iz0 - (if P iy0 iz0 then mean (line_t nt u k iy0 iz0) else 0))%Q).
  2:{ intros x Hx. apply H. apply in_seq in Hx. lia. }
  destruct (P iy0 iz0).
  - assert (E : (mean (map (fun it => u k it iy0 iz0 - mean (line_t nt u k iy0 iz0)) (seq 0 nt)) == 0)%Q).
    { rewrite <- (map_map (fun it => u k it iy0 iz0) (fun x => x - mean (line_t nt u k iy0 iz0)))%Q.
      apply mean_centered. unfold line_t. destruct nt; [lia|discriminate]. }
    rewrite E. ring.
  - rewrite (mean_ext _ (fun it => u k it iy0 iz0)) by (intros; ring). fold (line_t nt u k iy0 iz0). ring.
Qed.
Lemma centered_ext P P' u v : (forall iy iz, P iy iz = P' iy iz) -> centered P u v -> centered P' u v.
Proof. intros E H k it iy iz Hit. rewrite <- E. apply H. exact Hit. Qed.
Lemma fold_longi_y P u v iz0 l : centered P u v ->
  centered (fun iy iz => P iy iz || (existsb (Nat.eqb iy) l && Nat.eqb iz iz0)) u
    (fold_left (fun u iy => longiline nt true iy iz0 u) l v).
Proof.
  revert P v. induction l as [|a l IH]; intros P v H; cbn [fold_left existsb].
  - eapply centered_ext; [|exact H]. intros. cbn. rewrite orb_false_r. reflexivity.
  - apply (longiline_centered _ _ _ a iz0) in H. apply IH in H. eapply centered_ext; [|exact H].
    intros iy iz. cbn. destruct (P iy iz), (iy =? a), (existsb (Nat.eqb iy) l), (iz =? iz0); reflexivity.
Qed.
Lemma fold_longi_z P u v iy0 l : centered P u v ->
  centered (fun iy iz => P iy iz || (Nat.eqb iy iy0 && existsb (Nat.eqb iz) l)) u
    (fold_left (fun u iz => longiline nt true iy0 iz u) l v).
Proof.
  revert P v. induction l as [|a l IH]; intros P v H; cbn [fold_left existsb].
  - eapply centered_ext; [|exact H]. intros. cbn. rewrite andb_false_r, orb_false_r. reflexivity.
  - apply (longiline_centered _ _ _ iy0 a) in H. apply IH in H. eapply centered_ext; [|exact H].
    intros iy iz. cbn. destruct (P iy iz), (iy =? iy0), (existsb (Nat.eqb iz) l), (iz =? a); reflexivity.
Qed.
Lemma existsb_seq n i : existsb (Nat.eqb i) (seq 0 n) = Nat.ltb i n.
Proof.
  apply eq_true_iff_eq. rewrite existsb_exists, Nat.ltb_lt. split.
  - intros (x & Hx & E). apply Nat.eqb_eq in E. apply in_seq in Hx. lia.
  - intro H. exists i. rewrite in_seq, Nat.eqb_refl. split; [lia|reflexivity].
Qed.

Theorem toDataFrame_effect u iy0 iz0 it0 k it iy iz : iy0 < ny -> iz0 < nz -> it < nt -> iy < ny -> iz < nz ->
  (toDataFrame nt ny nz false iy0 iz0 it0 u k it iy iz ==
   u k it iy iz - (if Nat.eqb iy iy0 || Nat.eqb iz iz0 then mean (line_t nt u k iy iz) else 0))%Q.
Proof.
  intros Hy0 Hz0 Hit Hy Hz. unfold toDataFrame, crosscorr_y, crosscorr_z.
  assert (H0 : centered (fun _ _ => false) u u) by (intros k' it' iy' iz' _; ring).
  apply (longiline_centered _ _ _ iy0 iz0) in H0. apply (fold_longi_y _ _ _ iz0 (seq 0 ny)) in H0.
  apply (longiline_centered _ _ _ iy0 iz0) in H0. apply (fold_longi_z _ _ _ iy0 (seq 0 nz)) in H0.
  rewrite (H0 k it iy iz Hit). cbn [orb]. rewrite !existsb_seq.
  destruct (Nat.ltb_spec iy ny); [|lia]. destruct (Nat.ltb_spec iz nz); [|lia].
  destruct (iy =? iy0), (iz =? iz0); cbn; reflexivity.
Qed.

Theorem queries_keep u qs : forallb (fun q => negb (removes_mean q)) qs = true -> run_queries nt ny nz u qs = u.
Proof.
  unfold run_queries. induction qs as [|q qs IH]; intro H; [reflexivity|]. cbn in H. apply andb_true_iff in H as [Hq H].
  cbn [fold_left]. assert (E : run_query nt ny nz u q = u) by (destruct q as [[] ? ?|[] ? ?|[] ? ?|[] ?|[] ?| | | | | | | | |]; try discriminate Hq; reflexivity).
  rewrite E. apply IH. exact H.
Qed.
End Q.

(** ** Coordinates *)
Lemma sumQ_arange n : (sumQ (arange n) == inject_Z (Z.of_nat n) * (inject_Z (Z.of_nat n) - 1) / 2)%Q.
Proof.
  unfold arange. induction n as [|n IH]; [reflexivity|].
  rewrite seq_S, map_app. cbn [map Nat.add].
  assert (Happ : forall a b, (sumQ (a ++ b) == sumQ a + sumQ b)%Q).
  { intros a b. induction a as [|x a IHa]; [cbn [app]; change (sumQ []) with 0%Q; ring|].
    change (sumQ ((x :: a) ++ b)) with (x + sumQ (a ++ b))%Q. change (sumQ (x :: a)) with (x + sumQ a)%Q. rewrite IHa. ring. }
  rewrite Happ, IH. cbn [sumQ fold_right]. rewrite Nat2Z.inj_succ, <- Z.add_1_r, inject_Z_plus.
  change (inject_Z 1) with 1%Q. field.
Qed.
Lemma sumQ_scale l c : (sumQ (map (fun i => i * c) l) == sumQ l * c)%Q.
Proof.
  induction l as [|x l IH]; [cbn [map]; change (sumQ []) with 0%Q; ring|].
  change (sumQ (map (fun i => i * c) (x :: l)))%Q with (x * c + sumQ (map (fun i => i * c) l))%Q.
  change (sumQ (x :: l)) with (x + sumQ l)%Q. rewrite IH. ring.
Qed.
Lemma arange_nth n i : i < n -> nth_error (arange n) i = Some (inject_Z (Z.of_nat i)).
Proof. intro H. unfold arange. rewrite map_seq_nth_error by exact H. reflexivity. Qed.
Lemma arange_length n : List.length (arange n) = n.
Proof. unfold arange. rewrite map_length, seq_length. reflexivity. Qed.
Lemma coord_y_nth ny dy i : i < ny ->
  exists v, nth_error (coord_y ny dy) i = Some v /\
            (v == (inject_Z (Z.of_nat i) - (inject_Z (Z.of_nat ny) - 1) / 2) * dy)%Q.
Proof.
  intro Hi. unfold coord_y. rewrite nth_error_map, nth_error_map, arange_nth by exact Hi.
  cbn [option_map]. eexists. split; [reflexivity|]. unfold mean.
  rewrite map_length, arange_length.
  rewrite sumQ_scale, sumQ_arange.
  assert (Hn : ~ (inject_Z (Z.of_nat ny) == 0)%Q).
  { change 0%Q with (inject_Z 0). rewrite inject_Z_injective. lia. }
  field. exact Hn.
Qed.
Lemma coord_z_nth nz dz zb i : i < nz -> nth_error (coord_z nz dz zb) i = Some (inject_Z (Z.of_nat i) * dz + zb)%Q.
Proof. intro Hi. unfold coord_z. rewrite nth_error_map. unfold arange. rewrite map_seq_nth_error by exact Hi. reflexivity. Qed.
Lemma coord_t_nth nt dt i : i < nt -> nth_error (coord_t nt dt) i = Some (inject_Z (Z.of_nat i) * dt)%Q.
Proof. intro Hi. unfold coord_t. rewrite nth_error_map. unfold arange. rewrite map_seq_nth_error by exact Hi. reflexivity. Qed.

(** Two lists of numbers equal as numbers. *)
Definition same_numbers (a b : list Q) : Prop := Forall2 Qeq a b.
Lemma same_numbers_nth a b : List.length a = List.length b ->
  (forall i, i < List.length a -> exists x y, nth_error a i = Some x /\ nth_error b i = Some y /\ (x == y)%Q) -> same_numbers a b.
Proof.
  revert b. induction a as [|x a IH]; intros [|y b] Hl H; try discriminate; [constructor|]. constructor.
  - destruct (H 0) as (x' & y' & E1 & E2 & E); [cbn; lia|]. cbn in E1, E2. injection E1 as ->. injection E2 as ->. exact E.
  - apply IH; [cbn in Hl; lia|]. intros i Hi. apply (H (S i)). cbn; lia.
Qed.

(** A regular grid: n points from [start] with spacing [d]. *)
Definition regular (l : list Q) (n : nat) (start d : Q) : Prop :=
  List.length l = n /\ forall i, i < n -> exists v, nth_error l i = Some v /\ (v == start + inject_Z (Z.of_nat i) * d)%Q.

(** [q] is a (finite) single precision number. *)
Definition is_f32 (q : Q) : Prop :=
  exists M E, (Z.abs M < 2 ^ 24)%Z /\ (-149 <= E)%Z /\ (q == inject_Z M * Qpower (2#1) E)%Q.
Lemma rnd_f32 q x : is_f32 q -> (x == q)%Q -> (rnd binary32 x == q)%Q.
Proof.
  intros (M & E & HM & HE & Hq) Hx. rewrite (rnd_exact binary32 x M E good32 HM HE); [exact Hx|]. rewrite Hx. exact Hq.
Qed.

Theorem ts_coordinates f p info o f' z0 dz dy dt :
  forallb (fun c => (N_of_ascii c <? 128)%N) info = true ->
  ts_write f p info o = (f', Ok tt) ->
  regular (o_z o) (o_nz o) z0 dz -> regular (o_y o) (o_ny o) (- ((inject_Z (Z.of_nat (o_ny o)) - 1) / 2 * dy)) dy ->
  regular (o_t o) (o_nt o) 0 dt ->
  is_f32 z0 -> is_f32 dz -> is_f32 dy -> is_f32 dt ->
  exists r dz' dy' dt' zb', ts_read f' p = Ok r /\
    r_dz r = Some dz' /\ r_dy r = Some dy' /\ r_dt r = Some dt' /\ r_zBottom r = Some zb' /\
    same_numbers (coord_z (r_nz r) dz' zb') (o_z o) /\ same_numbers (coord_y (r_ny r) dy') (o_y o) /\
    same_numbers (coord_t (r_nt r) dt') (o_t o) /\
    List.length (coord_zTwr (r_nTwr r) dz' zb') = n_twr o /\
    (forall j, j < n_twr o -> exists v, nth_error (coord_zTwr (r_nTwr r) dz' zb') j = Some v /\ (v == z0 - inject_Z (Z.of_nat j) * dz)%Q).
Proof.
  intros Hinfo H [Lz Rz] [Ly Ry] [Lt Rt] Hf0 Hfz Hfy Hft.
  destruct (ts_roundtrip f p info o f' Hinfo H) as (r & Hr & _ & Nz & Ny & NT & Nt & _ & HH & _).
  destruct HH as (x0 & xz & xy & xt & v1 & v2 & v3 & v4 & v5 & v6 & F0 & Fz & Fy & Ft & A1 & A2 & A3 & A4 & _ & _ & Q1 & Q2 & Q3 & Q4 & _).
  exists r, v2, v3, v4, v1. split; [exact Hr|]. do 4 (split; [assumption|]).
  assert (S : forall l n st d x, List.length l = n ->
     (forall i, i < n -> exists v, nth_error l i = Some v /\ (v == st + inject_Z (Z.of_nat i) * d)%Q) ->
     step_of l = Ok x -> (x == d)%Q).
  { intros l n st d x Hl HR Hx. destruct l as [|a [|b l]]; try discriminate. cbn in Hx. apply Ok_inj in Hx. subst x.
    destruct (HR 0) as (w0 & E0 & W0); [rewrite <- Hl; cbn; lia|]. destruct (HR 1) as (w1 & E1 & W1); [rewrite <- Hl; cbn; lia|].
    cbn in E0, E1. injection E0 as ->. injection E1 as ->. rewrite W0, W1. change (inject_Z (Z.of_nat 0)) with 0%Q.
    change (inject_Z (Z.of_nat 1)) with 1%Q. ring. }
  assert (Ez : (v2 == dz)%Q) by (rewrite Q2; apply rnd_f32; [exact Hfz|]; exact (S _ _ _ _ _ Lz Rz Fz)).
  assert (Ey : (v3 == dy)%Q) by (rewrite Q3; apply rnd_f32; [exact Hfy|]; exact (S _ _ _ _ _ Ly Ry Fy)).
  assert (Et : (v4 == dt)%Q) by (rewrite Q4; apply rnd_f32; [exact Hft|]; exact (S _ _ _ _ _ Lt Rt Ft)).
  assert (E0 : (v1 == z0)%Q).
  { rewrite Q1. apply rnd_f32; [exact Hf0|]. destruct (o_z o) as [|a l]; [discriminate|]. cbn in F0. apply Ok_inj in F0. subst a.
    destruct (Rz 0) as (w & Ew & W); [rewrite <- Lz; cbn; lia|]. cbn in Ew. injection Ew as ->. rewrite W.
    change (inject_Z (Z.of_nat 0)) with 0%Q. ring. }
  assert (Tw : List.length (coord_zTwr (r_nTwr r) v2 v1) = n_twr o /\
    (forall j, j < n_twr o -> exists v, nth_error (coord_zTwr (r_nTwr r) v2 v1) j = Some v /\ (v == z0 - inject_Z (Z.of_nat j) * dz)%Q)).
  { rewrite NT. split; [unfold coord_zTwr, arange; rewrite !map_length, seq_length; reflexivity|].
    intros j Hj. exists (- inject_Z (Z.of_nat j) * v2 + v1)%Q. split.
    - unfold coord_zTwr, arange. rewrite nth_error_map, map_seq_nth_error by exact Hj. reflexivity.
    - rewrite Ez, E0. ring. }
  split; [|split; [|split; [|exact Tw]]]; (apply same_numbers_nth; [unfold coord_z, coord_y, coord_t, arange; rewrite ?map_length, ?seq_length; lia|]).
  - intros i Hi. unfold coord_z, arange in Hi. rewrite !map_length, seq_length in Hi. rewrite Nz in *.
    destruct (Rz i Hi) as (v & Ev & V). exists (inject_Z (Z.of_nat i) * v2 + v1)%Q, v. rewrite coord_z_nth by exact Hi.
    split; [reflexivity|]. split; [exact Ev|]. rewrite V, Ez, E0. ring.
  - intros i Hi. unfold coord_y, arange in Hi. rewrite !map_length, seq_length in Hi. rewrite Ny in *.
    destruct (Ry i Hi) as (v & Ev & V). destruct (coord_y_nth (o_ny o) v3 i Hi) as (w & Ew & W). exists w, v.
    split; [exact Ew|]. split; [exact Ev|]. rewrite V, W, Ey. field.
  - intros i Hi. unfold coord_t, arange in Hi. rewrite !map_length, seq_length in Hi. rewrite Nt in *.
    destruct (Rt i Hi) as (v & Ev & V). exists (inject_Z (Z.of_nat i) * v4)%Q, v. rewrite coord_t_nth by exact Hi.
    split; [reflexivity|]. split; [exact Ev|]. rewrite V, Et. ring.
Qed.
