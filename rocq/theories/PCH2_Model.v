(** Model of the lift of PC files on a grid of whole degrees, as HAWC2 does it (weio/wetb/hawc2/pc_file.py:65-79, 99-100).
    SIMPLIFICATIONS: numbers are exact rationals; one angle and one thickness at a time. *)
From Verif Require Import Py FASTOut_Model AEPC_Model.
From Coq Require Import QArith.
Local Open Scope nat_scope.

(** np.arange(360) *)
Definition degrees : list Q := map (fun i => inject_Z (Z.of_nat i)) (seq 0 360).
(** (profile[:,0]+180, profile[:,column]) *)
Definition shifted (column : nat) (p : list (list Q)) : list (Q * Q) := map (fun row => (nth 0 row 0 + 180, nth column row 0)%Q) p.
(** np.interp(np.arange(360), profile[:,0]+180, profile[:,column]) *)
Definition on_grid (column : nat) (p : list (list Q)) : res (list Q) := map_res (fun x => interp x (shifted column p)) degrees.
(** Cx0 + (Cx1 - Cx0) * (thickness - th0) / (th1 - th0), for each degree *)
Definition blend (w0 w1 : Q) (c0 c1 : list Q) : list Q := map (fun cc => (fst cc + (snd cc - fst cc) * w0 / w1)%Q) (combine c0 c1).
(** _CxxxH2 for the set found under pc_set_nr, pc_file.py:65-79.  [Ok None]: division by th1-th0 = 0, numpy gives nan or inf. *)
Definition CxxxH2 (thicknesses : list Q) (profiles : list (list (list Q))) (thickness alpha : Q) (column : nat) : res (option Q) :=
  let index := searchsorted thicknesses thickness in
  let index := if Nat.eqb index 0 then 1 else index in
  match firstn 2 (skipn (index - 1) profiles) with
  | [p0; p1] =>
      c0 <- on_grid column p0 ;;
      c1 <- on_grid column p1 ;;
      match firstn 2 (skipn (index - 1) thicknesses) with
      | [th0; th1] =>
          if Qeq_bool th1 th0 then Ok None
          else v <- interp (alpha + 180)%Q (combine degrees (blend (thickness - th0) (th1 - th0) c0 c1)) ;; Ok (Some v)
      | _ => Err ValueError
      end
  | _ => Err ValueError
  end.
(** CL_H2, pc_file.py:99-100 *)
Definition CL_H2 (sets : list (Z * (list Q * list (list (list Q))))) (thickness alpha : Q) (pc_set_nr : Z) : res (option Q) :=
  match zget sets pc_set_nr with
  | Some (ths, profs) => CxxxH2 ths profs thickness alpha 1
  | None => Err KeyError
  end.
