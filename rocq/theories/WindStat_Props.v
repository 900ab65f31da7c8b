(** Property theorems C126 (scaling), C127 (periodicity), C128 (tables of TurbSim boxes). *)
From Verif Require Import Py PyFacts ListFacts FS Bytes Float Registry_Model MannBox_Model TurbSim_Model.
From Verif Require Import WindBox_Model WindBox_Spec WindBox_Proofs WindBox_Props.
From Coq Require Import QArith Qround Qminmax Qabs Lqa ZifyNat ZifyBool.
Local Open Scope nat_scope.

(** The reference point of a scaling: the middle of the box, or the point nearest to a location *)
Definition IsReference (o : wind) (r : reference) (iy iz : nat) : Prop :=
  match r with
  | RMid => Nearest (w_y o) ((nth 0 (w_y o) 0 + nth (w_ny o - 1) (w_y o) 0) / 2)%Q iy /\ Nearest (w_z o) ((nth 0 (w_z o) 0 + nth (w_nz o - 1) (w_z o) 0) / 2)%Q iz
  | RPoint y (Some z) => Nearest (w_y o) y iy /\ Nearest (w_z o) z iz
  | _ => False
  end.
Lemma the_point_ok o r iy iz : shaped_wind o -> IsReference o r iy iz -> the_point o r = Ok (iy, iz) /\ iy < w_ny o /\ iz < w_nz o.
Proof.
  intros H R. pose proof H as (Ly & Lz & _).
  assert (B : iy < w_ny o /\ iz < w_nz o). { destruct r as [|y [z|]|]; cbn in R; try contradiction; destruct R as ((? & _) & (? & _)); lia. }
  split; [|exact B]. destruct r as [|y [z|]|]; cbn in R |- *; try contradiction; destruct R as (R1 & R2).
  - destruct (mid_ok o H) as (jy & jz & E & _ & _ & N1 & N2). rewrite E. rewrite (Nearest_unique _ _ _ _ R1 N1), (Nearest_unique _ _ _ _ R2 N2). reflexivity.
  - apply C122_closest. split; assumption.
Qed.

Section Root.
Variable root : Q -> Q.
Hypothesis root_eq : forall a b, (a == b)%Q -> (root a == root b)%Q.
Lemma std_seq n f : (std root (map f (seq 0 n)) == root (var n f))%Q.
Proof. unfold std. apply root_eq. apply variance_seq. Qed.

(** ** C126: scaling.  The average at the reference becomes the new mean and all averages move with it; all fluctuations are multiplied
    by the same number, such that the variance at the reference becomes the square of the new deviation; other components stay *)
Theorem C126_scale : forall o new_mean new_std c r iy iz, shaped_wind o -> c < 3 -> IsReference o r iy iz ->
  let V := var (w_nt o) (fun it => w_u o c it iy iz) in
  (new_std <> None -> ~ (V == 0)%Q /\ (root V * root V == V)%Q) ->
  exists u', scale root o new_mean new_std c r = Ok (Some u') /\
    (forall k it jy jz, k <> c -> u' k it jy jz = w_u o k it jy jz) /\
    (forall jy jz,
       (avg (w_nt o) (fun it => u' c it jy jz)
        == avg (w_nt o) (fun it => w_u o c it jy jz)
           + match new_mean with Some m => m - avg (w_nt o) (fun it => w_u o c it iy iz) | None => 0 end)%Q /\
       (var (w_nt o) (fun it => u' c it jy jz)
        == match new_std with Some s => s * s / V | None => 1 end * var (w_nt o) (fun it => w_u o c it jy jz))%Q /\
       forall it, (u' c it jy jz - avg (w_nt o) (fun it => u' c it jy jz)
                   == match new_std with Some s => s / root V | None => 1 end * (w_u o c it jy jz - avg (w_nt o) (fun it => w_u o c it jy jz)))%Q) /\
    match new_mean with Some m => (avg (w_nt o) (fun it => u' c it iy iz) == m)%Q | None => True end /\
    match new_std with Some s => (var (w_nt o) (fun it => u' c it iy iz) == s * s)%Q | None => True end.
Proof.
  intros o nm ns c r iy iz H Hc R V HV. destruct (the_point_ok o r iy iz H R) as (E & By & Bz). pose proof H as (_ & _ & _ & P1 & _).
  set (F := match ns with Some s => (s / root V)%Q | None => 1%Q end).
  set (D := match nm with Some m => (m - avg (w_nt o) (fun it => w_u o c it iy iz))%Q | None => 0%Q end).
  assert (M : exists u', scale root o nm ns c r = Ok (Some u') /\ (forall k it jy jz, k <> c -> u' k it jy jz = w_u o k it jy jz) /\
     forall it jy jz, (u' c it jy jz == F * w_u o c it jy jz + ((1 - F) * avg (w_nt o) (fun it => w_u o c it jy jz) + D))%Q).
  { unfold scale. replace (negb (c <? 3)) with false by lia. cbn zeta. rewrite E. cbn [bind]. rewrite series_ok by assumption. cbn [bind].
    rewrite mean_res_ok by exact P1. cbn [bind].
    assert (D' : (match nm with Some m => - mean (line_t (w_nt o) (w_u o) c iy iz) + m | None => 0 end == D)%Q).
    { unfold D. destruct nm as [m|]; [|reflexivity]. rewrite mean_line. ring. }
    destruct ns as [s|].
    - destruct (HV ltac:(discriminate)) as (V0 & VV).
      assert (R0 : (std root (line_t (w_nt o) (w_u o) c iy iz) == root V)%Q) by (unfold line_t; apply std_seq).
      assert (NZ : ~ (root V == 0)%Q). { intro X. apply V0. rewrite <- VV, X. ring. }
      destruct (Qeq_bool (std root (line_t (w_nt o) (w_u o) c iy iz)) 0) eqn:C.
      { apply Qeq_bool_iff in C. exfalso. apply NZ. rewrite <- R0. exact C. }
      eexists. split; [reflexivity|]. split.
      + intros k it jy jz Hk. unfold set_comp. replace (k =? c) with false by lia. reflexivity.
      + intros it jy jz. unfold set_comp. rewrite Nat.eqb_refl. rewrite D'. rewrite R0, mean_line. unfold F. field. exact NZ.
    - eexists. split; [reflexivity|]. split.
      + intros k it jy jz Hk. unfold set_comp. replace (k =? c) with false by lia. reflexivity.
      + intros it jy jz. unfold set_comp. rewrite Nat.eqb_refl. rewrite D'. rewrite mean_line. unfold F. ring. }
  destruct M as (u' & M1 & M2 & M3). exists u'. split; [exact M1|]. split; [exact M2|].
  assert (A : forall jy jz, (avg (w_nt o) (fun it => u' c it jy jz) == avg (w_nt o) (fun it => w_u o c it jy jz) + D)%Q).
  { intros jy jz. rewrite (avg_ext _ _ _ (fun i _ => M3 i jy jz)). rewrite (avg_lin (w_nt o) (fun it => w_u o c it jy jz)) by exact P1. ring. }
  assert (FF : (F * F == match ns with Some s => s * s / V | None => 1 end)%Q).
  { unfold F. destruct ns as [s|]; [|ring]. destruct (HV ltac:(discriminate)) as (V0 & VV).
    assert (NZ : ~ (root V == 0)%Q). { intro X. apply V0. rewrite <- VV, X. ring. }
    transitivity (s * s / (root V * root V))%Q; [field; exact NZ|rewrite VV; reflexivity]. }
  assert (B : forall jy jz, (var (w_nt o) (fun it => u' c it jy jz) == match ns with Some s => s * s / V | None => 1 end * var (w_nt o) (fun it => w_u o c it jy jz))%Q).
  { intros jy jz. rewrite (var_ext _ _ _ (fun i _ => M3 i jy jz)). rewrite (var_lin (w_nt o) (fun it => w_u o c it jy jz)) by exact P1. rewrite FF. reflexivity. }
  split; [|split].
  - intros jy jz. split; [apply A|]. split; [apply B|]. intro it. rewrite A, M3. ring.
  - destruct nm as [m|]; [|exact I]. rewrite A. unfold D. ring.
  - destruct ns as [s|]; [|exact I]. rewrite B. fold V. destruct (HV ltac:(discriminate)) as (V0 & VV). field. exact V0.
Qed.
(** Steady wind at the reference has no fluctuation to scale: the component is lost *)
Theorem C126_steady_refuted : forall o new_mean s c r iy iz v, shaped_wind o -> c < 3 -> IsReference o r iy iz -> (root 0 == 0)%Q ->
  (forall it, it < w_nt o -> (w_u o c it iy iz == v)%Q) -> scale root o new_mean (Some s) c r = Ok None.
Proof.
  intros o nm s c r iy iz v H Hc R R0 St. destruct (the_point_ok o r iy iz H R) as (E & By & Bz). pose proof H as (_ & _ & _ & P1 & _).
  unfold scale. replace (negb (c <? 3)) with false by lia. cbn zeta. rewrite E. cbn [bind]. rewrite series_ok by assumption. cbn [bind].
  rewrite mean_res_ok by exact P1. cbn [bind].
  replace (Qeq_bool (std root (line_t (w_nt o) (w_u o) c iy iz)) 0) with true; [reflexivity|]. symmetry. apply Qeq_bool_iff.
  unfold line_t. rewrite std_seq. rewrite <- R0. apply root_eq. apply (var_const _ _ v P1). exact St.
Qed.
Theorem C126_refused : forall o nm ns c r,
  (3 <= c -> scale root o nm ns c r = Err IndexError) /\
  (c < 3 -> scale root o nm ns c ROther = Err NotImplementedError /\ forall y, scale root o nm ns c (RPoint y None) = Err TypeError).
Proof.
  intros. unfold scale. split.
  - intro H. replace (c <? 3) with false by lia. reflexivity.
  - intro H. replace (c <? 3) with true by lia. split; reflexivity.
Qed.

(** ** C127: a box is called periodic when, at every point, the first and the last step differ by less than [sigmaTol] deviations, and on
    average by less than [aTol] *)
Lemma maximum_lt l m t : maximum l = Ok m -> (m < t <-> forall x, In x l -> x < t)%Q.
Proof.
  destruct l as [|a l]; cbn; [discriminate|]. intro H. injection H as <-. revert a. induction l as [|b l IH]; intro a; cbn.
  - split; [intros X x [<-|[]]; exact X|intro X; apply X; left; reflexivity].
  - rewrite IH. split.
    + intros X x [<-|[<-|Y]].
      * apply (Qle_lt_trans _ (Qmax a b)); [apply Q.le_max_l|apply X; left; reflexivity].
      * apply (Qle_lt_trans _ (Qmax a b)); [apply Q.le_max_r|apply X; left; reflexivity].
      * apply X. right. exact Y.
    + intros X x [<-|Y]; [|apply X; right; right; exact Y]. apply Q.max_lub_lt; apply X; [left; reflexivity|right; left; reflexivity].
Qed.
Lemma qlt_iff a b : qlt a b = true <-> (a < b)%Q.
Proof.
  unfold qlt. rewrite negb_true_iff. split.
  - intro H. apply Qnot_le_lt. intro X. apply Qle_bool_iff in X. congruence.
  - intro H. destruct (Qle_bool b a) eqn:E; [|reflexivity]. apply Qle_bool_iff in E. exfalso. apply (Qlt_not_le _ _ H E).
Qed.
Lemma points_in ny nz p : In p (points ny nz) <-> fst p < ny /\ snd p < nz.
Proof.
  unfold points. rewrite in_flat_map. split.
  - intros (i & H1 & H2). apply in_map_iff in H2. destruct H2 as (j & <- & H2). apply in_seq in H1. apply in_seq in H2. cbn. lia.
  - intros (H1 & H2). exists (fst p). split; [apply in_seq; lia|]. apply in_map_iff. exists (snd p). split; [destruct p; reflexivity|apply in_seq; lia].
Qed.
Lemma points_sum f ny nz : (sumQ (map f (points ny nz)) == sum_to ny (fun iy => sum_to nz (fun iz => f (iy, iz))))%Q.
Proof.
  unfold points. induction ny as [|ny IH]; [reflexivity|]. rewrite seq_S, flat_map_app, map_app, sum_app, IH. cbn [flat_map Nat.add]. rewrite app_nil_r, map_map, sum_seq. reflexivity.
Qed.
Lemma points_length ny nz : List.length (points ny nz) = ny * nz.
Proof.
  unfold points. induction ny as [|ny IH]; [reflexivity|]. rewrite seq_S, flat_map_app, app_length, IH. cbn [flat_map]. rewrite app_nil_r, map_length, seq_length. lia.
Qed.
Theorem C127_periodic : forall o sigmaTol aTol, shaped_wind o ->
  let sigma iy iz := root (var (w_nt o) (fun it => w_u o 0 it iy iz)) in
  let gap iy iz := Qabs (w_u o 0 0 iy iz - w_u o 0 (w_nt o - 1) iy iz) in
  exists b, check_periodic root o sigmaTol aTol = Ok b /\
    (b = true <-> (forall iy iz, iy < w_ny o -> iz < w_nz o -> ~ (sigma iy iz == 0)%Q /\ (gap iy iz / sigma iy iz < sigmaTol)%Q) /\
                  (sum_to (w_ny o) (fun iy => sum_to (w_nz o) (fun iz => gap iy iz)) / inject_Z (Z.of_nat (w_ny o * w_nz o)) < aTol)%Q).
Proof.
  intros o sT aT (Ly & Lz & Lt & P1 & P2 & P3) sigma gap. unfold check_periodic. replace (w_nt o =? 0) with false by lia. cbn zeta.
  set (sig := fun p : nat * nat => std root (line_t (w_nt o) (w_u o) 0 (fst p) (snd p))).
  set (dif := fun p : nat * nat => Qabs (w_u o 0 0 (fst p) (snd p) - w_u o 0 (w_nt o - 1) (fst p) (snd p))).
  assert (S : forall p, (sig p == sigma (fst p) (snd p))%Q) by (intro p; unfold sig, sigma, line_t; apply std_seq).
  assert (L := points_length (w_ny o) (w_nz o)).
  assert (Z0 : 0 < w_ny o * w_nz o) by (apply Nat.mul_pos_pos; lia).
  destruct (points (w_ny o) (w_nz o)) as [|p0 ps0] eqn:EP; [cbn in L; lia|]. rewrite <- EP in *.
  match goal with |- exists b, _ /\ @?G b =>
    change (exists b, (if existsb (fun p => Qeq_bool (sig p) 0) (points (w_ny o) (w_nz o)) then Ok false
      else m <- maximum (map (fun p => dif p / sig p)%Q (points (w_ny o) (w_nz o))) ;; Ok (qlt m sT && qlt (mean (map dif (points (w_ny o) (w_nz o)))) aT)) = Ok b /\ G b) end.
  cbv beta.
  destruct (existsb (fun p => Qeq_bool (sig p) 0) (points (w_ny o) (w_nz o))) eqn:EX.
  { exists false. split; [reflexivity|]. split; [discriminate|]. intros (A & _). exfalso. apply existsb_exists in EX. destruct EX as (p & Ip & Zp).
    apply points_in in Ip. destruct (A (fst p) (snd p)) as (A1 & _); try lia. apply A1. rewrite <- S. apply Qeq_bool_iff. exact Zp. }
  assert (MM : exists m, maximum (map (fun p => dif p / sig p)%Q (points (w_ny o) (w_nz o))) = Ok m) by (rewrite EP; cbn; eauto).
  destruct MM as (m & Em). rewrite Em. cbn [bind]. eexists. split; [reflexivity|]. rewrite andb_true_iff, !qlt_iff, (maximum_lt _ _ _ Em).
  assert (MD : (mean (map dif (points (w_ny o) (w_nz o))) == sum_to (w_ny o) (fun iy => sum_to (w_nz o) (fun iz => gap iy iz)) / inject_Z (Z.of_nat (w_ny o * w_nz o)))%Q).
  { unfold mean. rewrite map_length, L, points_sum. reflexivity. }
  rewrite MD. apply and_iff_compat_r. split.
  - intros A iy iz Hy Hz. assert (I : In (iy, iz) (points (w_ny o) (w_nz o))) by (apply points_in; cbn; lia). split.
    + intro X. assert (Y : existsb (fun p => Qeq_bool (sig p) 0) (points (w_ny o) (w_nz o)) = true); [|congruence].
      apply existsb_exists. exists (iy, iz). split; [exact I|]. apply Qeq_bool_iff. rewrite S. exact X.
    + pose proof (A (dif (iy, iz) / sig (iy, iz))%Q) as A'. rewrite <- (S (iy, iz)). apply A'. apply in_map_iff. exists (iy, iz). split; [reflexivity|exact I].
  - intros A x Hx. apply in_map_iff in Hx. destruct Hx as (p & <- & Ip). apply points_in in Ip. destruct (A (fst p) (snd p)) as (_ & A2); try lia. rewrite (S p). exact A2.
Qed.
(** Steady wind, which repeats itself exactly, is never called periodic *)
Theorem C127_steady_refuted : forall o sigmaTol aTol iy iz v, shaped_wind o -> (root 0 == 0)%Q -> iy < w_ny o -> iz < w_nz o ->
  (forall it, it < w_nt o -> (w_u o 0%nat it iy iz == v)%Q) -> check_periodic root o sigmaTol aTol = Ok false.
Proof.
  intros o sT aT iy iz v H R0 Hy Hz St. destruct (C127_periodic o sT aT H) as (b & E & X). rewrite E. f_equal. destruct b; [|reflexivity].
  exfalso. destruct X as (X & _). destruct (X eq_refl) as (A & _). destruct (A iy iz Hy Hz) as (A1 & _). apply A1. rewrite <- R0. apply root_eq.
  pose proof H as (_ & _ & _ & P1 & _). apply (var_const _ _ v P1). exact St.
Qed.

(** ** C128: the tables *)
(** Two columns agree: the same names, and equal values *)
Definition same_cell (a b : option Q) : Prop := match a, b with Some x, Some y => (x == y)%Q | None, None => True | _, _ => False end.
Definition same_table (a b : list (str * list (option Q))) : Prop := Forall2 (fun c d => fst c = fst d /\ Forall2 same_cell (snd c) (snd d)) a b.
Definition by_height (n : nat) (f : nat -> option Q) : list (option Q) := map f (seq 0 n).
Definition ti (m s : Q) : option Q := if Qeq_bool m 0 then None else Some (s / m * 100)%Q.
Lemma same_refl l : Forall2 same_cell l l.
Proof. induction l as [|[x|] l IH]; constructor; cbn; auto; reflexivity. Qed.
Lemma by_height_same n f g : (forall i, i < n -> same_cell (f i) (g i)) -> Forall2 same_cell (map f (seq 0 n)) (by_height n g).
Proof.
  unfold by_height. intro H. assert (K : forall l, (forall i, In i l -> i < n) -> Forall2 same_cell (map f l) (map g l)).
  { induction l as [|i l IH]; intro B; constructor; [apply H, B; left; reflexivity|apply IH; intros j Hj; apply B; right; exact Hj]. }
  apply K. intros i Hi. apply in_seq in Hi. lia.
Qed.
Lemma ti_same m s m' s' : (m == m')%Q -> (s == s')%Q -> same_cell (percent m s) (ti m' s').
Proof.
  intros A B. unfold percent, ti. destruct (Qeq_bool m 0) eqn:C, (Qeq_bool m' 0) eqn:D; cbn.
  - exact I.
  - apply Qeq_bool_iff in C. assert (X : Qeq_bool m' 0 = true) by (apply Qeq_bool_iff; rewrite <- A; exact C). congruence.
  - apply Qeq_bool_iff in D. assert (X : Qeq_bool m 0 = true) by (apply Qeq_bool_iff; rewrite A; exact D). congruence.
  - rewrite A, B. reflexivity.
Qed.
Lemma profile_mean o k iz : (fst (profile_full root o k iz) == avg (w_ny o) (fun iy => avg (w_nt o) (fun it => w_u o k it iy iz)))%Q.
Proof. unfold profile_full, line_yz. cbn [fst]. rewrite mean_seq. apply avg_ext. intros. apply mean_line. Qed.
Lemma profile_std o k iz : (snd (profile_full root o k iz) == root (var (w_ny o) (fun iy => root (var (w_nt o) (fun it => w_u o k it iy iz)))))%Q.
Proof. unfold profile_full, line_yz. cbn [snd]. rewrite std_seq. apply root_eq. apply var_ext. intros. unfold line_t. apply std_seq. Qed.
(** The first four tables: the profile, with the averages over the width and, as deviations, the deviation over the width of the
    deviations in time; and the series at mid height in the middle, at the first and at the last lateral position *)
Theorem C128_tables : forall o, shaped_wind o ->
  let M k iz := avg (w_ny o) (fun iy => avg (w_nt o) (fun it => w_u o k it iy iz)) in
  let D k iz := root (var (w_ny o) (fun iy => root (var (w_nt o) (fun it => w_u o k it iy iz)))) in
  let line iy iz := [ (S_ "t_[s]", map Some (w_t o)); (S_ "u_[m/s]", map (fun it => Some (w_u o 0 it iy iz)) (seq 0 (w_nt o)));
                      (S_ "v_[m/s]", map (fun it => Some (w_u o 1 it iy iz)) (seq 0 (w_nt o))); (S_ "w_[m/s]", map (fun it => Some (w_u o 2 it iy iz)) (seq 0 (w_nt o))) ] in
  let col f := by_height (w_nz o) (fun iz => Some (f iz)) in
  exists iy iz profile,
    Nearest (w_y o) ((nth 0 (w_y o) 0 + nth (w_ny o - 1) (w_y o) 0) / 2)%Q iy /\ Nearest (w_z o) ((nth 0 (w_z o) 0 + nth (w_nz o - 1) (w_z o) 0) / 2)%Q iz /\
    ts_tables root o = Ok [ (S_ "VertProfile", profile); (S_ "ZMidLine", line iy iz); (S_ "ZMidYStartLine", line 0 iz); (S_ "ZMidYEndLine", line (w_ny o - 1) iz) ] /\
    same_table profile
      [ (S_ "z_[m]", map Some (w_z o)); (S_ "u_[m/s]", col (M 0)); (S_ "v_[m/s]", col (M 1)); (S_ "w_[m/s]", col (M 2));
        (S_ "sigma_u_[m/s]", col (D 0)); (S_ "sigma_v_[m/s]", col (D 1)); (S_ "sigma_w_[m/s]", col (D 2));
        (S_ "TI_[%]", by_height (w_nz o) (fun iz => ti (M 0 iz) (D 0 iz))) ].
Proof.
  intros o H M D line col. destruct (mid_ok o H) as (iy & iz & E & By & Bz & Ny & Nz). destruct H as (Ly & Lz & Lt & P1 & P2 & P3).
  unfold ts_tables. rewrite E. cbn [bind]. replace (negb ((iy <? w_ny o) && (iz <? w_nz o))) with false by lia.
  replace (negb ((List.length (w_z o) =? w_nz o) && (List.length (w_t o) =? w_nt o))) with false by lia. replace (w_nt o =? 0) with false by lia.
  exists iy, iz. eexists. split; [exact Ny|]. split; [exact Nz|]. split.
  - unfold ts_line, line_t, line, finite. rewrite !map_map. reflexivity.
  - repeat (apply Forall2_cons; [split; [reflexivity|]|]); [..|apply Forall2_nil]; cbn [snd];
      try (apply same_refl); try (apply by_height_same; intros i Hi; first [apply ti_same; [apply profile_mean|apply profile_std]|cbn; first [apply profile_mean|apply profile_std]]).
Qed.
(** The profile on one vertical line has the average and the deviation in time of each component *)
Theorem C128_mid : forall o iy k iz,
  (fst (profile_mid root o iy k iz) == avg (w_nt o) (fun it => w_u o k it iy iz))%Q /\ (snd (profile_mid root o iy k iz) == root (var (w_nt o) (fun it => w_u o k it iy iz)))%Q.
Proof. intros o iy k iz. unfold profile_mid. cbn [fst snd]. split; [apply mean_line|unfold line_t; apply std_seq]. Qed.
(** The deviations of the profile are not those of the wind: with one lateral position they vanish whatever the turbulence *)
Theorem C128_sigma_refuted : forall o, shaped_wind o -> w_ny o = 1 -> (root 0 == 0)%Q ->
  exists profile rest, ts_tables root o = Ok ((S_ "VertProfile", profile) :: rest) /\
    forall k, In k [4; 5; 6] -> exists c, nth_error profile k = Some c /\ Forall2 same_cell (snd c) (repeat (Some 0%Q) (w_nz o)).
Proof.
  intros o H N1 R0. destruct (C128_tables o H) as (iy & iz & profile & _ & _ & E & T). rewrite E. exists profile. eexists. split; [reflexivity|].
  assert (K : forall k, Forall2 same_cell (by_height (w_nz o) (fun iz => Some (root (var (w_ny o) (fun iy => root (var (w_nt o) (fun it => w_u o k it iy iz))))))) (repeat (Some 0%Q) (w_nz o))).
  { intro k. unfold by_height. assert (X : forall n a, Forall2 same_cell (map (fun iz => Some (root (var (w_ny o) (fun iy => root (var (w_nt o) (fun it => w_u o k it iy iz)))))) (seq a n)) (repeat (Some 0%Q) n)); [|apply X].
    induction n as [|n IH]; intro a; constructor; [|apply IH]. cbn. rewrite <- R0. apply root_eq. rewrite N1. apply (var_const 1 _ (root (var (w_nt o) (fun it => w_u o k it 0 a)))); [lia|].
    intros i Hi. replace i with 0 by lia. reflexivity. }
  assert (TR : forall a b c, Forall2 same_cell a b -> Forall2 same_cell b c -> Forall2 same_cell a c).
  { induction a as [|x a IH]; intros b c A B; inversion A; subst; inversion B; subst; constructor; [|eapply IH; eassumption].
    destruct x, y, y0; cbn in *; try easy. rewrite H2. assumption. }
  unfold same_table in T.
  repeat match goal with T : Forall2 _ _ (_ :: _) |- _ => let c := fresh "c" in let r := fresh "r" in let h := fresh "h" in inversion T as [|c ? r ? h T']; subst; clear T; rename T' into T end.
  intros k [<-|[<-|[<-|[]]]]; eexists; (split; [reflexivity|]).
  - eapply TR; [apply (proj2 h3)|apply (K 0)].
  - eapply TR; [apply (proj2 h4)|apply (K 1)].
  - eapply TR; [apply (proj2 h5)|apply (K 2)].
Qed.
End Root.
Print Assumptions C126_scale.
Print Assumptions C126_steady_refuted.
Print Assumptions C126_refused.
Print Assumptions C127_periodic.
Print Assumptions C127_steady_refuted.
Print Assumptions C128_tables.
Print Assumptions C128_mid.
Print Assumptions C128_sigma_refuted.
