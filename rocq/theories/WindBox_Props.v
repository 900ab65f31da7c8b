(** Property theorems C122 (points), C123 (probes), C126 (scaling), C127 (periodicity), C128 (tables of TurbSim boxes). *)
From Verif Require Import Py PyFacts ListFacts FS Bytes Float Registry_Model MannBox_Model TurbSim_Model.
From Verif Require Import WindBox_Model WindBox_Spec WindBox_Proofs.
From Coq Require Import QArith Qround Qminmax Qabs Lqa ZifyNat ZifyBool.
Local Open Scope nat_scope.

(** The sizes of the arrays of a box agree *)
Definition shaped_wind (o : wind) : Prop :=
  List.length (w_y o) = w_ny o /\ List.length (w_z o) = w_nz o /\ List.length (w_t o) = w_nt o /\ 0 < w_nt o /\ 0 < w_ny o /\ 0 < w_nz o.

Ltac invb H := match type of H with bind ?r _ = Ok _ => let E := fresh "E" in destruct r eqn:E; cbn [bind] in H; [|discriminate H] end.

(** ** C122: points *)
Theorem C122_closest : forall o y z iy iz, closest o y z = Ok (iy, iz) <-> Nearest (w_y o) y iy /\ Nearest (w_z o) z iz.
Proof.
  intros. unfold closest. split.
  - intro H. invb H. invb H. injection H as <- <-. split; apply nearest_iff; assumption.
  - intros (A & B). apply nearest_iff in A. apply nearest_iff in B. rewrite A. cbn. rewrite B. reflexivity.
Qed.
Print Assumptions C122_closest.
Theorem C122_closest_total : forall o y z,
  (w_y o <> [] -> w_z o <> [] -> exists iy iz, closest o y z = Ok (iy, iz)) /\ (w_y o = [] \/ w_z o = [] -> closest o y z = Err ValueError).
Proof.
  intros o y z. unfold closest. split.
  - intros A B. destruct (nearest_total _ y A) as (i & Hi). destruct (nearest_total _ z B) as (j & Hj). rewrite Hi. cbn. rewrite Hj. cbn. eauto.
  - intros [A|A].
    + rewrite A. reflexivity.
    + rewrite A. destruct (w_y o) as [|a l]; [reflexivity|]. cbn. reflexivity.
Qed.
Print Assumptions C122_closest_total.
(** A point of the grid is its own nearest point *)
Theorem C122_on_grid : forall o iy iz,
  (forall i j, i < List.length (w_y o) -> j < List.length (w_y o) -> (nth i (w_y o) 0 == nth j (w_y o) 0)%Q -> i = j) ->
  (forall i j, i < List.length (w_z o) -> j < List.length (w_z o) -> (nth i (w_z o) 0 == nth j (w_z o) 0)%Q -> i = j) ->
  iy < List.length (w_y o) -> iz < List.length (w_z o) ->
  closest o (nth iy (w_y o) 0%Q) (nth iz (w_z o) 0%Q) = Ok (iy, iz).
Proof.
  assert (K : forall l i, (forall i j, i < List.length l -> j < List.length l -> (nth i l 0 == nth j l 0)%Q -> i = j) -> i < List.length l -> Nearest l (nth i l 0%Q) i).
  { intros l i H Hi.
    assert (E : (Qabs (nth i l 0 - nth i l 0) == 0)%Q) by (rewrite (Qabs_wd _ 0) by ring; reflexivity).
    split; [exact Hi|]. split.
    - intros j _. rewrite E. apply Qabs_nonneg.
    - intros j Hj. rewrite E. destruct (Qlt_le_dec 0%Q (Qabs (nth j l 0 - nth i l 0))%Q) as [X|X]; [exact X|exfalso].
      assert (Y : (nth j l 0 == nth i l 0)%Q). { apply Qabs_Qle_condition in X. lra. }
      apply H in Y; lia. }
  intros o iy iz A B Hy Hz. apply C122_closest. split; apply K; assumption.
Qed.
Print Assumptions C122_on_grid.
(** valuesAt: the three series of the nearest point *)
Theorem C122_values : forall o y z, shaped_wind o ->
  exists iy iz u v w, Nearest (w_y o) y iy /\ Nearest (w_z o) z iz /\ values_at o y z true = Ok (u, v, w) /\
    List.length u = w_nt o /\ List.length v = w_nt o /\ List.length w = w_nt o /\
    forall it, it < w_nt o -> nth_error u it = Some (w_u o 0 it iy iz) /\ nth_error v it = Some (w_u o 1 it iy iz) /\ nth_error w it = Some (w_u o 2 it iy iz).
Proof.
  intros o y z (Ly & Lz & Lt & P1 & P2 & P3).
  assert (Ny : w_y o <> []) by (intro X; rewrite X in Ly; cbn in Ly; lia).
  assert (Nz : w_z o <> []) by (intro X; rewrite X in Lz; cbn in Lz; lia).
  destruct (Nearest_exists (w_y o) y Ny) as (iy & Hy). destruct (Nearest_exists (w_z o) z Nz) as (iz & Hz).
  assert (C : closest o y z = Ok (iy, iz)) by (apply C122_closest; split; assumption).
  assert (B : (iy <? w_ny o) && (iz <? w_nz o) = true). { destruct Hy as (Hy & _). destruct Hz as (Hz & _). rewrite Ly in Hy. rewrite Lz in Hz. lia. }
  exists iy, iz. unfold values_at. rewrite C. cbn [bind]. unfold series. rewrite B. cbn [bind].
  do 3 eexists. split; [exact Hy|]. split; [exact Hz|]. split; [reflexivity|]. unfold line_t. rewrite !map_length, seq_length.
  split; [reflexivity|]. split; [reflexivity|]. split; [reflexivity|]. intros it Hit.
  rewrite !nth_error_map, (nth_error_nth' (seq 0 (w_nt o)) 0) by (rewrite seq_length; exact Hit). rewrite seq_nth by exact Hit. cbn. auto.
Qed.
Print Assumptions C122_values.
Theorem C122_other_method : forall o y z, values_at o y z false = Err NotImplementedError.
Proof. reflexivity. Qed.
Print Assumptions C122_other_method.

(** The middle of the box: the point nearest to the middle of the two ends *)
Lemma mid_ok o : shaped_wind o -> exists iy iz, i_mid o = Ok (iy, iz) /\ iy < w_ny o /\ iz < w_nz o /\
  Nearest (w_y o) ((nth 0 (w_y o) 0 + nth (w_ny o - 1) (w_y o) 0) / 2)%Q iy /\ Nearest (w_z o) ((nth 0 (w_z o) 0 + nth (w_nz o - 1) (w_z o) 0) / 2)%Q iz.
Proof.
  intros (Ly & Lz & Lt & P1 & P2 & P3).
  assert (K : forall l n, List.length l = n -> 0 < n -> middle l = Ok ((nth 0 l 0 + nth (n - 1) l 0) / 2)%Q).
  { intros l n <- Hn. destruct l as [|a l]; [cbn in Hn; lia|]. unfold middle. do 2 f_equal. cbn [nth]. f_equal.
    assert (forall (l : list Q) a d, last (a :: l) d = nth (List.length (a :: l) - 1) (a :: l) d) as X.
    { clear. induction l as [|b l IH]; intros a d; [reflexivity|]. change (last (a :: b :: l) d) with (last (b :: l) d). rewrite IH. cbn. rewrite Nat.sub_0_r. reflexivity. }
    exact (X l a 0%Q). }
  unfold i_mid. rewrite (K _ _ Ly P2). cbn [bind].
  assert (Ny : w_y o <> []) by (intro X; rewrite X in Ly; cbn in Ly; lia).
  assert (Nz : w_z o <> []) by (intro X; rewrite X in Lz; cbn in Lz; lia).
  destruct (nearest_total (w_y o) ((nth 0 (w_y o) 0 + nth (w_ny o - 1) (w_y o) 0) / 2)%Q Ny) as (iy & Hy). rewrite Hy. cbn [bind].
  rewrite (K _ _ Lz P3). cbn [bind].
  destruct (nearest_total (w_z o) ((nth 0 (w_z o) 0 + nth (w_nz o - 1) (w_z o) 0) / 2)%Q Nz) as (iz & Hz). rewrite Hz. cbn [bind].
  apply nearest_iff in Hy. apply nearest_iff in Hz. exists iy, iz. split; [reflexivity|].
  destruct Hy as (By & Hy'). destruct Hz as (Bz & Hz'). split; [lia|]. split; [lia|]. split; split; assumption.
Qed.
Lemma middle_ok l : l <> [] -> middle l = Ok ((nth 0 l 0 + nth (List.length l - 1) l 0) / 2)%Q.
Proof.
  intro H. destruct l as [|a l]; [easy|]. unfold middle. do 2 f_equal. cbn [nth]. f_equal.
  assert (forall (l : list Q) a d, last (a :: l) d = nth (List.length (a :: l) - 1) (a :: l) d) as X.
  { clear. induction l as [|b l IH]; intros a d; [reflexivity|]. change (last (a :: b :: l) d) with (last (b :: l) d). rewrite IH. cbn. rewrite Nat.sub_0_r. reflexivity. }
  exact (X l a 0%Q).
Qed.
Lemma series_ok o k iy iz : iy < w_ny o -> iz < w_nz o -> series o k iy iz = Ok (line_t (w_nt o) (w_u o) k iy iz).
Proof. intros A B. unfold series. replace ((iy <? w_ny o) && (iz <? w_nz o)) with true by lia. reflexivity. Qed.
Lemma mean_res_ok o k iy iz : 0 < w_nt o -> mean_res (line_t (w_nt o) (w_u o) k iy iz) = Ok (mean (line_t (w_nt o) (w_u o) k iy iz)).
Proof. intro H. unfold line_t. destruct (w_nt o) as [|n]; [lia|]. reflexivity. Qed.
Lemma mean_line nt u k iy iz : (mean (line_t nt u k iy iz) == avg nt (fun it => u k it iy iz))%Q.
Proof. unfold line_t. apply mean_seq. Qed.

(** midValues: the height of the middle point, and the average of the first component there *)
Theorem C122_mid : forall o, shaped_wind o ->
  exists iy iz m,
    Nearest (w_y o) ((nth 0 (w_y o) 0 + nth (w_ny o - 1) (w_y o) 0) / 2)%Q iy /\ Nearest (w_z o) ((nth 0 (w_z o) 0 + nth (w_nz o - 1) (w_z o) 0) / 2)%Q iz /\
    mid_values o = Ok (nth iz (w_z o) 0%Q, m) /\ (m == avg (w_nt o) (fun it => w_u o 0%nat it iy iz))%Q.
Proof.
  intros o H. destruct (mid_ok o H) as (iy & iz & E & By & Bz & Ny & Nz). destruct H as (_ & _ & _ & P1 & _).
  exists iy, iz. unfold mid_values. rewrite E. cbn [bind]. rewrite series_ok by assumption. cbn [bind]. rewrite mean_res_ok by exact P1. cbn [bind].
  eexists. split; [exact Ny|]. split; [exact Nz|]. split; [reflexivity|]. apply mean_line.
Qed.
Print Assumptions C122_mid.
(** hubValues without stored values: the middle height, and the average at the nearest point; a height that is given is used instead *)
Theorem C122_hub : forall o zHub, shaped_wind o -> w_uRef o = None ->
  exists iy iz z u b, hub_values o zHub = Ok (z, u, b) /\
    match zHub, w_zRef o with
    | Some h, _ => z = h /\ b = true
    | None, Some h => z = h /\ b = true
    | None, None => b = false /\ exists i, Nearest (w_z o) ((nth 0 (w_z o) 0 + nth (w_nz o - 1) (w_z o) 0) / 2)%Q i /\ z = nth i (w_z o) 0%Q
    end /\
    Nearest (w_y o) ((nth 0 (w_y o) 0 + nth (w_ny o - 1) (w_y o) 0) / 2)%Q iy /\ Nearest (w_z o) z iz /\
    (u == avg (w_nt o) (fun it => w_u o 0%nat it iy iz))%Q.
Proof.
  intros o zHub H U. pose proof H as (Ly & Lz & Lt & P1 & P2 & P3).
  assert (Ny : w_y o <> []) by (intro X; rewrite X in Ly; cbn in Ly; lia).
  assert (Nz : w_z o <> []) by (intro X; rewrite X in Lz; cbn in Lz; lia).
  destruct (Nearest_exists (w_y o) ((nth 0 (w_y o) 0 + nth (w_ny o - 1) (w_y o) 0) / 2)%Q Ny) as (iy & Hy).
  destruct (Nearest_exists (w_z o) ((nth 0 (w_z o) 0 + nth (w_nz o - 1) (w_z o) 0) / 2)%Q Nz) as (im & Hm).
  assert (K : exists z b, match zHub, w_zRef o with
             | Some z, _ => Ok (z, true)
             | None, Some z => Ok (z, true)
             | None, None => m <- middle (w_z o) ;; iz <- nearest (w_z o) m ;; Ok (nth iz (w_z o) 0%Q, false)
             end = Ok (z, b) /\ match zHub, w_zRef o with
    | Some h, _ => z = h /\ b = true
    | None, Some h => z = h /\ b = true
    | None, None => b = false /\ exists i, Nearest (w_z o) ((nth 0 (w_z o) 0 + nth (w_nz o - 1) (w_z o) 0) / 2)%Q i /\ z = nth i (w_z o) 0%Q
    end).
  { destruct zHub as [h|]; [exists h, true; auto|]. destruct (w_zRef o) as [h|]; [exists h, true; auto|].
    exists (nth im (w_z o) 0%Q), false. rewrite middle_ok by exact Nz. cbn [bind]. rewrite Lz. pose proof Hm as Hm2. apply nearest_iff in Hm2. rewrite Hm2. cbn [bind].
    split; [reflexivity|]. split; [reflexivity|]. exists im. split; [exact Hm|reflexivity]. }
  destruct K as (z & b & K1 & K2). destruct (Nearest_exists (w_z o) z Nz) as (iz & Hz).
  unfold hub_values. rewrite K1. cbn [bind]. rewrite U. pose proof Hz as Hz2. apply nearest_iff in Hz2. rewrite Hz2. cbn [bind]. rewrite middle_ok by exact Ny. cbn [bind].
  rewrite Ly. pose proof Hy as Hy2. apply nearest_iff in Hy2. rewrite Hy2. cbn [bind].
  rewrite series_ok by (destruct Hy as (? & _); destruct Hz as (? & _); lia). cbn [bind]. rewrite mean_res_ok by exact P1. cbn [bind].
  exists iy, iz, z. do 2 eexists. split; [reflexivity|]. split; [exact K2|]. split; [exact Hy|]. split; [exact Hz|]. apply mean_line.
Qed.
Print Assumptions C122_hub.
(** A stored reference speed, as every file has, is returned for every height that is asked for *)
Theorem C122_hub_refuted : forall o u z, w_uRef o = Some u -> hub_values o (Some z) = Ok (z, u, true).
Proof. intros o u z H. unfold hub_values. cbn. rewrite H. reflexivity. Qed.
Print Assumptions C122_hub_refuted.

(** ** C123: probes *)
Lemma round_ne_Rounded n p : (0 <= n)%Z -> Rounded (n # p) (round_ne n (Zpos p)) /\ (0 <= round_ne n (Zpos p))%Z.
Proof.
  intros Hn. remember (Zpos p) as d eqn:Ed. assert (Hd : (0 < d)%Z) by lia. pose proof (round_ne_spec n d Hd) as S.
  assert (N : forall m, (Qabs ((n # p) - inject_Z m) == Z.abs (m * d - n) # p)%Q).
  { intro m. unfold Qminus, Qplus, Qopp, inject_Z, Qabs, Qeq. cbn [Qnum Qden]. rewrite Pos.mul_1_r. rewrite <- Ed. f_equal.
    rewrite Z.mul_1_r. rewrite <- (Z.abs_opp (m * d - n)). f_equal. ring. }
  assert (E : forall m, (Qabs ((n # p) - inject_Z m) <= 1 # 2)%Q <-> (Z.abs (2 * (m * d - n)) <= d)%Z).
  { intro m. rewrite N. unfold Qle. cbn [Qnum Qden]. rewrite <- Ed. rewrite Z.abs_mul. split; intro H; lia. }
  assert (F : forall m, (Qabs ((n # p) - inject_Z m) == 1 # 2)%Q -> (Z.abs (2 * (m * d - n)) = d)%Z).
  { intro m. rewrite N. unfold Qeq. cbn [Qnum Qden]. rewrite <- Ed. rewrite Z.abs_mul. intro H. lia. }
  split; [split|].
  - apply E. exact S.
  - intro H. apply F in H. revert H. unfold round_ne. pose proof (Z.div_mod n d ltac:(lia)) as D. pose proof (Z.mod_pos_bound n d Hd) as B.
    set (q := (n / d)%Z) in *. set (r := (n mod d)%Z) in *.
    destruct (2 * r <? d)%Z eqn:C1; [intro H; exfalso; assert (q * d - n = - r)%Z by lia; lia|].
    destruct (d <? 2 * r)%Z eqn:C2; [intro H; exfalso; assert ((q + 1) * d - n = d - r)%Z by lia; lia|].
    intros _. destruct (Z.even q) eqn:C3; [exact C3|]. rewrite Z.even_add, C3. reflexivity.
  - apply round_ne_ge; lia.
Qed.
Lemma fmt0_ok q : Text0 q (fmt0 q).
Proof.
  destruct (round_ne_Rounded (Z.abs (Qnum q)) (Qden q) ltac:(lia)) as (R & P).
  exists (round_ne (Z.abs (Qnum q)) (Zpos (Qden q))). split; [|split; [exact P|]].
  - destruct q as [n d]. exact R.
  - unfold fmt0. destruct (Qle_bool 0 q) eqn:C.
    + apply Qle_bool_iff in C. split; [reflexivity|intro X; exfalso; lra].
    + split; [intro X; apply Qle_bool_iff in X; congruence|reflexivity].
Qed.
(** The three columns of a probe at the point (iy, iz) *)
Definition probe_cols (o : wind) (iy iz : nat) (c : list (str * list Q)) : Prop :=
  exists ty tz, Text0 (nth iy (w_y o) 0%Q) ty /\ Text0 (nth iz (w_z o) 0%Q) tz /\
    c = [ (S_ "u_y" ++ ty ++ S_ "_z" ++ tz ++ S_ "_[m/s]", map (fun it => w_u o 0 it iy iz) (seq 0 (w_nt o)));
          (S_ "v_y" ++ ty ++ S_ "_z" ++ tz ++ S_ "_[m/s]", map (fun it => w_u o 1 it iy iz) (seq 0 (w_nt o)));
          (S_ "w_y" ++ ty ++ S_ "_z" ++ tz ++ S_ "_[m/s]", map (fun it => w_u o 2 it iy iz) (seq 0 (w_nt o))) ].
(** The locations in order: every y, and for it every z *)
Fixpoint locations (ys zs : list Q) : list (Q * Q) := match ys with [] => [] | y :: ys' => map (fun z => (y, z)) zs ++ locations ys' zs end.
Lemma pairs_locations ys zs : pairs ys zs = locations ys zs.
Proof. induction ys as [|y ys IH]; [reflexivity|]. cbn. f_equal. exact IH. Qed.
Lemma probes_ok o : shaped_wind o -> forall ps acc, exists cs,
  Forall2 (fun p c => exists iy iz, Nearest (w_y o) (fst p) iy /\ Nearest (w_z o) (snd p) iz /\ probe_cols o iy iz c) ps cs /\
  probes o acc ps = Ok (acc ++ concat cs).
Proof.
  intro H. pose proof H as (Ly & Lz & Lt & P1 & P2 & P3).
  assert (Ny : w_y o <> []) by (intro X; rewrite X in Ly; cbn in Ly; lia).
  assert (Nz : w_z o <> []) by (intro X; rewrite X in Lz; cbn in Lz; lia).
  induction ps as [|(y, z) ps IH]; intro acc; [exists []; split; [constructor|]; cbn; rewrite app_nil_r; reflexivity|].
  destruct (Nearest_exists (w_y o) y Ny) as (iy & Hy). destruct (Nearest_exists (w_z o) z Nz) as (iz & Hz).
  assert (C : closest o y z = Ok (iy, iz)) by (apply C122_closest; split; assumption).
  cbn [probes]. rewrite C. cbn [bind]. rewrite !series_ok by (destruct Hy as (? & _); destruct Hz as (? & _); lia). cbn [bind].
  rewrite Lt, Nat.eqb_refl.
  match goal with |- context[probes o ?a ps] => destruct (IH a) as (cs & F & E) end.
  rewrite E. eexists (_ :: cs). split; [apply Forall2_cons; [|exact F]|].
  - exists iy, iz. split; [exact Hy|]. split; [exact Hz|]. exists (fmt0 (nth iy (w_y o) 0%Q)), (fmt0 (nth iz (w_z o) 0%Q)).
    split; [apply fmt0_ok|]. split; [apply fmt0_ok|]. reflexivity.
  - cbn [concat]. rewrite <- app_assoc. reflexivity.
Qed.
(** writeProbes: a line of names after a sign, then a line for each step; the columns are the time, and u, v, w at the nearest point of
    each location in turn *)
Theorem C123_probes : forall fmt o ys zs, shaped_wind o ->
  exists cs cols,
    Forall2 (fun p c => exists iy iz, Nearest (w_y o) (fst p) iy /\ Nearest (w_z o) (snd p) iz /\ probe_cols o iy iz c) (locations ys zs) cs /\
    cols = (S_ "Time_[s]", w_t o) :: concat cs /\
    write_probes fmt o ys zs =
      Ok ((S_ "# " ++ join (S_ ",") (map fst cols))
          :: map (fun it => join (S_ ",") (map (fun c => fmt (nth it (snd c) 0%Q)) cols)) (seq 0 (w_nt o))).
Proof.
  intros fmt o ys zs H. destruct (probes_ok o H (pairs ys zs) [(S_ "Time_[s]", w_t o)]) as (cs & F & E).
  exists cs, ((S_ "Time_[s]", w_t o) :: concat cs). rewrite <- pairs_locations. split; [exact F|]. split; [reflexivity|].
  unfold write_probes. rewrite E. cbn [bind]. pose proof H as (_ & _ & Lt & _). rewrite Lt. reflexivity.
Qed.
Print Assumptions C123_probes.
(** The names are rounded: probes at different points may have the same names *)
Definition close_points : wind :=
  mk_wind 1 2 1 (fun _ _ iy _ => inject_Z (Z.of_nat iy)) [1 # 10; 3 # 10]%Q [10]%Q [0]%Q None None None None None.
Theorem C123_names_refuted : exists o ys zs c1 c2,
  shaped_wind o /\ probes o [] (pairs ys zs) = Ok (c1 ++ c2) /\ map fst c1 = map fst c2 /\ map snd c1 <> map snd c2.
Proof.
  exists close_points, [1 # 10; 3 # 10]%Q, [10]%Q,
    [(S_ "u_y0_z10_[m/s]", [0%Q]); (S_ "v_y0_z10_[m/s]", [0%Q]); (S_ "w_y0_z10_[m/s]", [0%Q])],
    [(S_ "u_y0_z10_[m/s]", [1%Q]); (S_ "v_y0_z10_[m/s]", [1%Q]); (S_ "w_y0_z10_[m/s]", [1%Q])].
  split; [repeat split; cbn; lia|]. split; [vm_compute; reflexivity|]. split; [reflexivity|]. intro X. discriminate X.
Qed.
Print Assumptions C123_names_refuted.
(** Times of another number of steps are refused *)
Theorem C123_times : forall fmt o ys zs, List.length (w_y o) = w_ny o -> List.length (w_z o) = w_nz o -> 0 < w_ny o -> 0 < w_nz o ->
  ys <> [] -> zs <> [] -> List.length (w_t o) <> w_nt o -> write_probes fmt o ys zs = Err ValueError.
Proof.
  intros fmt o ys zs Ly Lz P2 P3 Hy Hz Lt. destruct ys as [|y ys]; [easy|]. destruct zs as [|z zs]; [easy|].
  assert (Ny : w_y o <> []) by (intro X; rewrite X in Ly; cbn in Ly; lia).
  assert (Nz : w_z o <> []) by (intro X; rewrite X in Lz; cbn in Lz; lia).
  destruct (Nearest_exists (w_y o) y Ny) as (iy & By). destruct (Nearest_exists (w_z o) z Nz) as (iz & Bz).
  assert (C : closest o y z = Ok (iy, iz)) by (apply C122_closest; split; assumption).
  unfold write_probes. cbn [pairs flat_map map app probes]. rewrite C. cbn [bind]. rewrite !series_ok by (destruct By as (? & _); destruct Bz as (? & _); lia). cbn [bind].
  replace (List.length (w_t o) =? w_nt o) with false by lia. reflexivity.
Qed.
Print Assumptions C123_times.
