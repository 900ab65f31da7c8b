(** C13-C16, C50, C51: TurbSim full-field files (weio/turbsim_file.py). *)
From Verif Require Import Py PyFacts ListFacts FS Bytes Float TurbSim_Model TurbSim_Proofs TurbSim_Quant TurbSim_More.
From Coq Require Import QArith Qabs.
Local Open Scope nat_scope.

Definition is_ascii (s : str) : bool := forallb (fun c => (N_of_ascii c <? 128)%N) s.

(** A concrete object used to show that the hypotheses below can be met: 2 x 2 x 3 grid, one tower point. *)
Definition ex_obj : tsobj :=
  {| o_ID := None; o_nt := 2; o_ny := 2; o_nz := 3;
     o_u := fun k it iy iz => (inject_Z (Z.of_nat (10 * k + it)) + (inject_Z (Z.of_nat iy) - inject_Z (Z.of_nat iz)) / 3)%Q;
     o_twr := Some (1, fun k it j => inject_Z (Z.of_nat (k + it + j)));
     o_y := [-5#1; 5#1]%Q; o_z := [10; 20; 30]%Q; o_t := [0; 1#2]%Q; o_hub := (20, 8)%Q |}.
Definition ex_fs : fs := fun _ => Missing.

(** ** C13 *)
Theorem C13_turbsim_roundtrip : forall f p info o f',
  is_ascii info = true -> ts_write f p info o = (f', Ok tt) ->
  exists r,
    ts_read f' p = Ok r /\
    r_ID r = the_ID o /\ r_nz r = o_nz o /\ r_ny r = o_ny o /\ r_nTwr r = n_twr o /\ r_nt r = o_nt o /\
    r_info r = info /\
    (exists z0 dz dy dt v1 v2 v3 v4 v5 v6,
       first_of (o_z o) = Ok z0 /\ step_of (o_z o) = Ok dz /\ step_of (o_y o) = Ok dy /\ step_of (o_t o) = Ok dt /\
       r_zBottom r = Some v1 /\ r_dz r = Some v2 /\ r_dy r = Some v3 /\ r_dt r = Some v4 /\
       r_zHub r = Some v5 /\ r_uHub r = Some v6 /\
       (v1 == rnd binary32 z0 /\ v2 == rnd binary32 dz /\ v3 == rnd binary32 dy /\ v4 == rnd binary32 dt /\
        v5 == rnd binary32 (fst (o_hub o)) /\ v6 == rnd binary32 (snd (o_hub o)))%Q) /\
    (forall k, k < 3 -> exists scl off s' off',
       scaling o k = Ok (scl, off) /\ r_scl r k = Some s' /\ r_off r k = Some off' /\ (s' == scl /\ off' == off)%Q /\
       (forall it iy iz, it < o_nt o -> iy < o_ny o -> iz < o_nz o ->
          r_int r k it iy iz = quantise scl off (o_u o k it iy iz)) /\
       (forall it j, it < o_nt o -> j < n_twr o ->
          r_intTwr r k it j = quantise scl off (u_twr o k it j))) /\
    (forall q, q <> p -> f' q = f q).
Proof. exact ts_roundtrip. Qed.
Print Assumptions C13_turbsim_roundtrip.

Theorem C13_turbsim_write_succeeds : forall f p info o,
  p <> [] -> f p <> Dir ->
  in_sint 2 (the_ID o) = true ->
  in_sint 4 (Z.of_nat (o_nz o)) = true -> in_sint 4 (Z.of_nat (o_ny o)) = true ->
  in_sint 4 (Z.of_nat (n_twr o)) = true -> in_sint 4 (Z.of_nat (o_nt o)) = true ->
  in_sint 4 (Z.of_nat (List.length info)) = true ->
  0 < o_nt o -> 0 < o_ny o -> 0 < o_nz o ->
  2 <= List.length (o_z o) -> 2 <= List.length (o_y o) -> 2 <= List.length (o_t o) ->
  (forall x, In x (o_z o ++ o_y o ++ o_t o) -> (Qabs x <= 1000000000)%Q) ->
  (Qabs (fst (o_hub o)) <= 1000000000)%Q -> (Qabs (snd (o_hub o)) <= 1000000000)%Q ->
  (forall k x, k < 3 -> sample o k x -> (Qabs x <= 1000000000)%Q) ->
  (forall k x y, k < 3 -> sample o k x -> sample o k y -> (x < y)%Q ->
     exists x' y', sample o k x' /\ sample o k y' /\ ((1 # 1000000000) <= y' - x')%Q) ->
  exists f', ts_write f p info o = (f', Ok tt).
Proof. exact ts_write_ok. Qed.
Print Assumptions C13_turbsim_write_succeeds.

Example C13_nontrivial : exists f', ts_write ex_fs (S_ "a.bts") (S_ "info") ex_obj = (f', Ok tt) /\
  (exists b, f' (S_ "a.bts") = Reg b /\ List.length b = 2 + 4*4 + 6*4 + 6*4 + 4 + 4 + 2 * (2*3*2*3 + 2*3*1)).
Proof. eexists. split; [vm_compute; reflexivity|]. eexists. split; vm_compute; reflexivity. Qed.

(** ** C14 *)
Theorem C14_quantisation_exact : forall fl, (forall q, fl q == q)%Q ->
  forall o k lo hi x, comp_bounds o k = Ok (lo, hi) -> sample o k x ->
  let s := scl_of fl lo hi in let off := off_of fl lo hi in let n := quantise s off x in
  (-32768 <= n <= 32767)%Z /\ (0 < s)%Q /\ (Qabs ((inject_Z n - off) / s - x) <= (hi - lo) / 65535)%Q.
Proof.
  exact (fun fl Hfl o k lo hi x Hb Hx =>
    let B := match Hx with
      | or_introl (ex_intro _ it (ex_intro _ iy (ex_intro _ iz (conj A (conj B (conj C E)))))) =>
          eq_ind_r (fun x => lo <= x /\ x <= hi)%Q (comp_bounds_grid o k lo hi it iy iz Hb A B C) E
      | or_intror (ex_intro _ it (ex_intro _ j (conj A (conj B E)))) =>
          eq_ind_r (fun x => lo <= x /\ x <= hi)%Q (comp_bounds_twr o k lo hi it j Hb A B) E
      end in quantise_exact fl lo hi x Hfl (proj1 B) (proj2 B)).
Qed.
Print Assumptions C14_quantisation_exact.

(** The bounds used are attained, so (hi - lo) is the true range of the component; for a constant component it
    is zero and the value is read back exactly. *)
Theorem C14_bounds_attained : forall o k, 0 < o_nt o -> 0 < o_ny o -> 0 < o_nz o ->
  exists lo hi x y, comp_bounds o k = Ok (lo, hi) /\ sample o k x /\ sample o k y /\ (lo == x)%Q /\ (hi == y)%Q.
Proof. exact comp_bounds_ex. Qed.
Print Assumptions C14_bounds_attained.

Example C14_nontrivial : exists lo hi, comp_bounds ex_obj 0 = Ok (lo, hi) /\ (lo < hi)%Q /\ sample ex_obj 0 (o_u ex_obj 0 1 1 2) /\
  quantise (scl_of (fun q => q) lo hi) (off_of (fun q => q) lo hi) (o_u ex_obj 0 1 1 2) = 10922%Z.
Proof.
  eexists _, _. split; [vm_compute; reflexivity|]. split; [vm_compute; reflexivity|].
  split; [left; exists 1, 1, 2; cbn; repeat split; lia|vm_compute; reflexivity].
Qed.

(** ** C50: with the single precision scale and offset that the file really stores *)
Theorem C50_single_precision_partial : forall f p info o f',
  is_ascii info = true -> ts_write f p info o = (f', Ok tt) ->
  exists r, ts_read f' p = Ok r /\
  forall k lo hi, k < 3 -> comp_bounds o k = Ok (lo, hi) ->
    ((1 # 1000000) <= hi - lo)%Q -> (hi - lo <= 1000000000)%Q -> (Qabs lo <= 128 * (hi - lo))%Q ->
    (forall it iy iz, it < o_nt o -> iy < o_ny o -> iz < o_nz o -> exists v,
       r_u r k it iy iz = Some v /\ (Qabs (v - o_u o k it iy iz) <= (hi - lo) / 65535 * (1 + (1 # 1000000)))%Q) /\
    (forall it j, it < o_nt o -> j < n_twr o -> exists v,
       r_uTwr r k it j = Some v /\ (Qabs (v - u_twr o k it j) <= (hi - lo) / 65535 * (1 + (1 # 1000000)))%Q).
Proof. exact ts_file_accuracy. Qed.
Print Assumptions C50_single_precision_partial.

Example C50_nontrivial : exists f' lo hi, ts_write ex_fs (S_ "a.bts") (S_ "info") ex_obj = (f', Ok tt) /\
  comp_bounds ex_obj 0 = Ok (lo, hi) /\ ((1 # 1000000) <= hi - lo)%Q /\ (hi - lo <= 1000000000)%Q /\ (Qabs lo <= 128 * (hi - lo))%Q.
Proof.
  eexists _, _, _. split; [vm_compute; reflexivity|]. split; [vm_compute; reflexivity|].
  repeat split; vm_compute; discriminate.
Qed.

(** A steady wind of 12493/1024 = 12.2001953125 m/s is read back as 13.19921875 m/s. *)
Theorem C50_constant_field_refuted : exists o f f' r v,
  (forall k it iy iz, o_u o k it iy iz = (12493 # 1024)%Q) /\ n_twr o = 0 /\
  ts_write f (S_ "a.bts") (S_ "info") o = (f', Ok tt) /\ ts_read f' (S_ "a.bts") = Ok r /\
  r_u r 0 0 0 0 = Some v /\ (v == 13 + (51 # 256))%Q.
Proof.
  exists {| o_ID := None; o_nt := 2; o_ny := 2; o_nz := 2; o_u := fun _ _ _ _ => (12493 # 1024)%Q; o_twr := None;
            o_y := [-5#1; 5#1]%Q; o_z := [10; 20]%Q; o_t := [0; 1#2]%Q; o_hub := (20, 8)%Q |}, ex_fs.
  eexists _, _, _. split; [reflexivity|]. split; [reflexivity|]. split; [vm_compute; reflexivity|].
  split; [vm_compute; reflexivity|]. split; vm_compute; reflexivity.
Qed.
Print Assumptions C50_constant_field_refuted.

(** A component of range 1 around 1e6: the lowest value is stored as an integer that wraps around and is read
    back as the highest. *)
Theorem C50_wrap_refuted : exists o f f' r v,
  comp_bounds o 0 = Ok (1000000, 1000001)%Q /\ o_u o 0 0 0 0 = 1000000%Q /\
  ts_write f (S_ "a.bts") (S_ "info") o = (f', Ok tt) /\ ts_read f' (S_ "a.bts") = Ok r /\
  r_u r 0 0 0 0 = Some v /\ ((1000001 - (1 # 10)) <= v)%Q.
Proof.
  exists {| o_ID := None; o_nt := 2; o_ny := 2; o_nz := 2;
            o_u := fun k it _ _ => inject_Z (1000000 + Z.of_nat it); o_twr := None;
            o_y := [-5#1; 5#1]%Q; o_z := [10; 20]%Q; o_t := [0; 1#2]%Q; o_hub := (20, 8)%Q |}, ex_fs.
  eexists _, _, _. split; [vm_compute; reflexivity|]. split; [reflexivity|]. split; [vm_compute; reflexivity|].
  split; [vm_compute; reflexivity|]. split; [vm_compute; reflexivity|vm_compute; discriminate].
Qed.
Print Assumptions C50_wrap_refuted.

(** ** C51: coordinate vectors *)
Theorem C51_coordinates_recovered : forall f p info o f' z0 dz dy dt,
  is_ascii info = true -> ts_write f p info o = (f', Ok tt) ->
  regular (o_z o) (o_nz o) z0 dz -> regular (o_y o) (o_ny o) (- ((inject_Z (Z.of_nat (o_ny o)) - 1) / 2 * dy)) dy ->
  regular (o_t o) (o_nt o) 0 dt ->
  is_f32 z0 -> is_f32 dz -> is_f32 dy -> is_f32 dt ->
  exists r dz' dy' dt' zb', ts_read f' p = Ok r /\
    r_dz r = Some dz' /\ r_dy r = Some dy' /\ r_dt r = Some dt' /\ r_zBottom r = Some zb' /\
    same_numbers (coord_z (r_nz r) dz' zb') (o_z o) /\ same_numbers (coord_y (r_ny r) dy') (o_y o) /\
    same_numbers (coord_t (r_nt r) dt') (o_t o) /\
    (* the tower points go down from the lowest grid point, one grid spacing apart *)
    List.length (coord_zTwr (r_nTwr r) dz' zb') = n_twr o /\
    (forall j, j < n_twr o -> exists v, nth_error (coord_zTwr (r_nTwr r) dz' zb') j = Some v /\ (v == z0 - inject_Z (Z.of_nat j) * dz)%Q).
Proof. exact ts_coordinates. Qed.
Print Assumptions C51_coordinates_recovered.

Example C51_nontrivial : regular (o_z ex_obj) (o_nz ex_obj) 10 10 /\
  regular (o_y ex_obj) (o_ny ex_obj) (- ((inject_Z (Z.of_nat (o_ny ex_obj)) - 1) / 2 * 10)) 10 /\
  regular (o_t ex_obj) (o_nt ex_obj) 0 (1#2) /\ is_f32 10 /\ is_f32 (1#2).
Proof.
  split; [|split; [|split]]; try (split; [reflexivity|]; intros [|[|[|i]]] Hi; cbn in Hi; try lia; eexists; split; reflexivity).
  split; [exists 10%Z, 0%Z|exists 1%Z, (-1)%Z]; repeat split; discriminate.
Qed.

(** ** C15 *)
Theorem C15_makePeriodic : forall o o', List.length (o_t o) = o_nt o -> makePeriodic o = Ok o' ->
  2 <= o_nt o /\ o_nt o' = 2 * o_nt o - 2 /\ List.length (o_t o') = o_nt o' /\
  o_ny o' = o_ny o /\ o_nz o' = o_nz o /\ o_y o' = o_y o /\ o_z o' = o_z o /\ n_twr o' = n_twr o /\ o_ID o' = Some 8%Z /\
  (forall k it iy iz, it < o_nt o -> o_u o' k it iy iz = o_u o k it iy iz) /\
  (forall k it iy iz, 0 < it < o_nt o' -> o_u o' k it iy iz = o_u o' k (o_nt o' - it) iy iz) /\
  (forall k it j, it < o_nt o -> u_twr o' k it j = u_twr o k it j) /\
  (forall k it j, 0 < it < o_nt o' -> u_twr o' k it j = u_twr o' k (o_nt o' - it) j).
Proof. exact makePeriodic_spec. Qed.
Print Assumptions C15_makePeriodic.

Theorem C15_makePeriodic_total : forall o, (exists o', makePeriodic o = Ok o') <-> 2 <= List.length (o_t o).
Proof. exact makePeriodic_total. Qed.
Print Assumptions C15_makePeriodic_total.

Example C15_nontrivial :
  let o := {| o_ID := None; o_nt := 4; o_ny := 1; o_nz := 1; o_u := fun _ it _ _ => inject_Z (Z.of_nat it); o_twr := None;
              o_y := [0]%Q; o_z := [0]%Q; o_t := [0; 1; 2; 3]%Q; o_hub := (0, 0)%Q |} in
  exists o', makePeriodic o = Ok o' /\ map (fun it => o_u o' 0 it 0 0) (seq 0 (o_nt o')) = [0; 1; 2; 3; 2; 1]%Q.
Proof. eexists. split; [reflexivity|]. vm_compute. reflexivity. Qed.

(** ** C16 *)
Theorem C16_toDataFrame_changes_field_refuted : exists nt ny nz iy iz it0 u,
  iy < ny /\ iz < nz /\ it0 < nt /\
  ~ (toDataFrame nt ny nz false iy iz it0 u 0%nat 0%nat iy iz == u 0%nat 0%nat iy iz)%Q /\
  zmid_table nt iy iz (toDataFrame nt ny nz false iy iz it0 u) <> zmid_table nt iy iz u.
Proof.
  exists 2, 2, 2, 0, 0, 1, (fun k it iy iz => inject_Z (Z.of_nat (k + it))).
  repeat split; try lia; vm_compute; intro H; discriminate H.
Qed.
Print Assumptions C16_toDataFrame_changes_field_refuted.

(** What it does change: the time mean is removed at the points of the middle row and column, and nothing else. *)
Theorem C16_toDataFrame_effect : forall nt ny nz u iy0 iz0 it0 k it iy iz,
  iy0 < ny -> iz0 < nz -> it < nt -> iy < ny -> iz < nz ->
  (toDataFrame nt ny nz false iy0 iz0 it0 u k it iy iz ==
   u k it iy iz - (if Nat.eqb iy iy0 || Nat.eqb iz iz0 then mean (line_t nt u k iy iz) else 0))%Q.
Proof. exact toDataFrame_effect. Qed.
Print Assumptions C16_toDataFrame_effect.

Theorem C16_queries_without_removeMean_partial : forall nt ny nz u qs,
  forallb (fun q => negb (removes_mean q)) qs = true -> run_queries nt ny nz u qs = u.
Proof. exact queries_keep. Qed.
Print Assumptions C16_queries_without_removeMean_partial.

Example C16_nontrivial : forallb (fun q => negb (removes_mean q)) [QLongi false 1 1; QValues; QHoriz false 0; QProfile] = true.
Proof. reflexivity. Qed.
