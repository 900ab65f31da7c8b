(** Correlations of a TurbSim box (turbsim_file.py:351-387, 616-627) and the planes through it (turbsim_file.py:291-325).
    Numbers are exact rationals, with the square root as a parameter; None is a value that is not finite. *)
From Verif Require Import Py FS Bytes Float Registry_Model MannBox_Model TurbSim_Model WindBox_Model.
From Coq Require Import QArith.
Local Open Scope nat_scope.

Section Corr.
Variable root : Q -> Q.
(** np.mean(a*b)/(np.std(a)*np.std(b)) *)
Definition rho (a b : list Q) : option Q :=
  let d := (std root a * std root b)%Q in
  if Qeq_bool d 0 then None else Some (mean (map (fun p => fst p * snd p)%Q (combine a b)) / d)%Q.
(** The loops of crosscorr_y and crosscorr_z: the field is changed by every extraction, because the lines are views of it *)
Fixpoint corr_from (nt : nat) (p0 : nat * nat) (ps : list (nat * nat)) (u : arr4) : arr4 * list (option Q * option Q * option Q) :=
  match ps with
  | [] => (u, [])
  | p :: ps' =>
      let u := longiline nt true (fst p) (snd p) u in
      let r k := rho (line_t nt u k (fst p0) (snd p0)) (line_t nt u k (fst p) (snd p)) in
      let '(u', rs) := corr_from nt p0 ps' u in (u', (r 0, r 1, r 2) :: rs)
  end.
Definition corr_line (nt : nat) (p0 : nat * nat) (ps : list (nat * nat)) (u : arr4) : arr4 * list (option Q * option Q * option Q) :=
  corr_from nt p0 ps (longiline nt true (fst p0) (snd p0) u).
(** crosscorr_y and crosscorr_z (turbsim_file.py:351-387): the field afterwards, the coordinates and the three columns; [None] for the
    indices means the middle of the box.  Negative indices are not modelled, nor the field left behind by an IndexError. *)
Definition start (o : wind) (i : option (nat * nat)) : res (nat * nat) := match i with None => i_mid o | Some p => Ok p end.
Definition crosscorr_y (o : wind) (i : option (nat * nat)) (u : arr4) : res (arr4 * list Q * list (option Q * option Q * option Q)) :=
  '(iy0, iz0) <- start o i ;;
  if negb ((iy0 <? w_ny o) && (iz0 <? w_nz o)) || (w_ny o <? List.length (w_y o)) then Err IndexError
  else if w_nt o =? 0 then Err Unmodelled
  else let '(u', rs) := corr_line (w_nt o) (iy0, iz0) (map (fun iy => (iy, iz0)) (seq 0 (List.length (w_y o)))) u in Ok (u', w_y o, rs).
Definition crosscorr_z (o : wind) (i : option (nat * nat)) (u : arr4) : res (arr4 * list Q * list (option Q * option Q * option Q)) :=
  '(iy0, iz0) <- start o i ;;
  if negb ((iy0 <? w_ny o) && (iz0 <? w_nz o)) || (w_nz o <? List.length (w_z o)) then Err IndexError
  else if w_nt o =? 0 then Err Unmodelled
  else let '(u', rs) := corr_line (w_nt o) (iy0, iz0) (map (fun iz => (iy0, iz)) (seq 0 (List.length (w_z o)))) u in Ok (u', w_z o, rs).
(** toDataFrame (turbsim_file.py:616-627): the tables Mid_xcorr_y and Mid_xcorr_z, one after the other *)
Definition xcorr_tables (o : wind) : res (list (list Q * list (option Q * option Q * option Q))) :=
  '(u1, ys, ry) <- crosscorr_y o None (w_u o) ;;
  '(u2, zs, rz) <- crosscorr_z o None u1 ;;
  Ok [(ys, ry); (zs, rz)].
End Corr.

(** horizontalPlane and verticalPlane (turbsim_file.py:291-325): the three components on the plane (nt x ny, nt x nz) and the field afterwards,
    of which the plane is a view *)
Definition h_index (o : wind) (z : option Q) (iz0 : option nat) : res nat :=
  match z, iz0 with
  | Some z, _ => match w_y o with [] => Err IndexError | y0 :: _ => p <- closest o y0 z ;; Ok (snd p) end
  | None, None => p <- i_mid o ;; Ok (snd p)
  | None, Some i => Ok i
  end.
Definition v_index (o : wind) (y : option Q) (iy0 : option nat) : res nat :=
  match y, iy0 with
  | Some y, _ => match w_z o with [] => Err IndexError | z0 :: _ => p <- closest o y z0 ;; Ok (fst p) end
  | None, None => p <- i_mid o ;; Ok (fst p)
  | None, Some i => Ok i
  end.
Definition h_plane (o : wind) (z : option Q) (iz0 : option nat) (removeMean : bool) : res ((nat -> nat -> nat -> Q) * arr4) :=
  iz <- h_index o z iz0 ;;
  if negb (iz <? w_nz o) then Err IndexError
  else let u := horizontalPlane (w_nt o) (w_ny o) removeMean iz (w_u o) in Ok (fun k it iy => u k it iy iz, u).
Definition v_plane (o : wind) (y : option Q) (iy0 : option nat) (removeMean : bool) : res ((nat -> nat -> nat -> Q) * arr4) :=
  iy <- v_index o y iy0 ;;
  if negb (iy <? w_ny o) then Err IndexError
  else let u := verticalPlane (w_nt o) (w_nz o) removeMean iy (w_u o) in Ok (fun k it iz => u k it iy iz, u).
