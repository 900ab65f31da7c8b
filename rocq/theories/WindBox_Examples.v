(** Concrete cases for C122 to C128. *)
From Verif Require Import Py PyFacts ListFacts FS Bytes Float Registry_Model MannBox_Model TurbSim_Model.
From Verif Require Import WindBox_Model WindBox_Spec WindBox_Proofs WindBox_Props WindStat_Props WindConv_Props.
From Coq Require Import QArith Qround Qminmax Qabs Lqa ZifyNat ZifyBool.
Local Open Scope nat_scope.

(** Two steps, two lateral positions, three heights; the first component alternates around 8 + iz *)
Definition ex_wind : wind :=
  mk_wind 2 2 3 (fun k it iy iz => inject_Z (match k with 0 => 7 + 2 * Z.of_nat it + Z.of_nat iz | 1 => Z.of_nat iy | _ => Z.of_nat (it + iz) end))
    [-5; 5]%Q [10; 20; 30]%Q [0; 1 # 2]%Q (Some (1 # 2)%Q) None None None (Some (1, 2, fun _ _ _ => 0%Q)).
Example ex_wind_shaped : shaped_wind ex_wind.
Proof. repeat split; cbn; lia. Qed.
Example C122_example : closest ex_wind 4 24 = Ok (1, 1) /\ values_at ex_wind 4 24 true = Ok ([8; 10], [1; 1], [1; 2])%Q /\ mid_values ex_wind = Ok (20, 18 # 2)%Q.
Proof. split; [|split]; reflexivity. Qed.
Example C122_tie_example : closest ex_wind 0 15 = Ok (0, 0).
Proof. reflexivity. Qed.
Example C123_example : probes ex_wind [] (pairs [4]%Q [24]%Q)
  = Ok [(S_ "u_y5_z20_[m/s]", [8; 10]%Q); (S_ "v_y5_z20_[m/s]", [1; 1]%Q); (S_ "w_y5_z20_[m/s]", [1; 2]%Q)].
Proof. vm_compute. reflexivity. Qed.
(** a root that is exact for the variance of this box *)
Definition ex_root (q : Q) : Q := if Qeq_bool q 1 then 1%Q else 0%Q.
Example ex_root_eq : forall a b, (a == b)%Q -> (ex_root a == ex_root b)%Q.
Proof. intros a b H. unfold ex_root. rewrite H. reflexivity. Qed.
Example C126_example :
  IsReference ex_wind (RPoint 4 (Some 24%Q)) 1 1 /\ (var 2 (fun it => w_u ex_wind 0%nat it 1%nat 1%nat) == 1)%Q /\
  exists u', scale ex_root ex_wind (Some 12%Q) (Some 3%Q) 0 (RPoint 4 (Some 24%Q)) = Ok (Some u') /\ (u' 0%nat 0%nat 1%nat 1%nat == 9)%Q /\ (u' 0%nat 1%nat 1%nat 1%nat == 15)%Q.
Proof.
  split; [|split; [vm_compute; reflexivity|]].
  - split; apply nearest_iff; reflexivity.
  - destruct (scale ex_root ex_wind (Some 12%Q) (Some 3%Q) 0 (RPoint 4 (Some 24%Q))) as [[u'|]|e] eqn:E; [|exfalso; vm_compute in E; discriminate E..].
    exists u'. split; [reflexivity|]. vm_compute in E. injection E as <-. split; vm_compute; reflexivity.
Qed.
(** first and last steps two deviations apart *)
Example C127_example : check_periodic ex_root ex_wind 3 3 = Ok true /\ check_periodic ex_root ex_wind 2 3 = Ok false /\ check_periodic ex_root ex_wind 3 2 = Ok false.
Proof. vm_compute. auto. Qed.
Example C128_example : exists p rest, ts_tables ex_root ex_wind = Ok ((S_ "VertProfile", p) :: rest) /\ map fst rest = [S_ "ZMidLine"; S_ "ZMidYStartLine"; S_ "ZMidYEndLine"] /\ List.length p = 8.
Proof. eexists. eexists. split; [reflexivity|]. split; reflexivity. Qed.
Definition ex_mann : mann := mk_mann (mk_box 4 3 2 (fun it iy iz => inject_Z (Z.of_nat (it + 10 * iy + 100 * iz)))) 2 5 None 0 (Some 50%Q).
Example C124_example : exists ys zs, mann_y ex_mann = Ok ys /\ map Qred ys = [-2; 0; 2]%Q /\ mann_z ex_mann = Ok zs /\ map Qred zs = [95 # 2; 105 # 2]%Q /\
  mann_values ex_mann 1 100 true = Ok (map (fun it => inject_Z (110 + it)) [0; 1; 2; 3]%Z).
Proof. eexists. eexists. split; [reflexivity|]. split; [vm_compute; reflexivity|]. split; [reflexivity|]. split; vm_compute; reflexivity. Qed.
Definition ex_u : box := mk_box 2 2 2 (fun it iy iz => inject_Z (Z.of_nat (it + 2 * iy + 4 * iz))).
Definition ex_v : box := mk_box 2 2 2 (fun it iy iz => inject_Z (Z.of_nat (it * iy * iz))).
Example C125_example :
  exists o' f', from_mann ex_wind ex_u ex_v ex_v 4 8 [-1; 1]%Q [10; 20]%Q (Some 8%Q) = (o', Ok tt) /\
    to_mann (fun _ => Missing) (S_ "d/box.bts") None o' (Some 8%Q) false = (f', Ok tt) /\
    f' (S_ "d/box_2x2x2.u") <> Missing /\ f' (S_ "d/box_2x2x2.w") <> Missing /\ f' (S_ "d/box.bts") = Missing /\ w_twr o' = w_twr ex_wind.
Proof.
  destruct (from_mann ex_wind ex_u ex_v ex_v 4 8 [-1; 1]%Q [10; 20]%Q (Some 8%Q)) as [o' r] eqn:E.
  exists o'. destruct (to_mann (fun _ => Missing) (S_ "d/box.bts") None o' (Some 8%Q) false) as [f' r'] eqn:E'. exists f'.
  vm_compute in E. injection E as Eo <-. split; [reflexivity|]. subst o'.
  vm_compute in E'. injection E' as Ef <-. split; [reflexivity|]. subst f'.
  split; [vm_compute; discriminate|]. split; [vm_compute; discriminate|]. split; vm_compute; reflexivity.
Qed.
