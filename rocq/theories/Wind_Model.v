(** Model of FASTWndFile.stepWind (weio/fast_wind_file.py:56-84).
    SIMPLIFICATION: exact rational arithmetic instead of doubles; the columns 2 to 7 of the table, which stay zero, are
    added at the end. *)
From Verif Require Import Py.
From Coq Require Import QArith Qround Qminmax.
Local Open Scope nat_scope.

(** [np.arange(a, b, d)] *)
Definition arange (a b d : Q) : res (list Q) :=
  if Qeq_bool d 0 then Err ZeroDivisionError
  else Ok (map (fun i => a + inject_Z (Z.of_nat i) * d)%Q (seq 0 (Z.to_nat (Qceiling ((b - a) / d))))).
(** [np.around(x, 0)]: to the nearest integer, ties to even *)
Definition around (x : Q) : Q :=
  let f := Qfloor x in
  match Qcompare (x - inject_Z f) (1 # 2) with
  | Lt => inject_Z f
  | Gt => inject_Z (f + 1)
  | Eq => if Z.even f then inject_Z f else inject_Z (f + 1)
  end.
(** [np.linspace(a, b, n)] *)
Definition linspace (a b : Q) (n : nat) : list Q :=
  map (fun i => if n =? 1 then a else (a + inject_Z (Z.of_nat i) * ((b - a) / inject_Z (Z.of_nat (n - 1))))%Q) (seq 0 n).
(** The argument tstep: a number or a sequence *)
Inductive durations := Number (d : Q) | Sequence (l : list Q).

(** [M[i, :2] = v]; an index out of range raises *)
Fixpoint upd {A} (l : list A) (i : nat) (v : A) : option (list A) :=
  match l, i with
  | [], _ => None
  | _ :: l', O => Some (v :: l')
  | x :: l', S i' => option_map (cons x) (upd l' i' v)
  end.
Definition set_ (m : list (Q * Q)) (i : nat) (v : Q * Q) : res (list (Q * Q)) := match upd m i v with Some m' => Ok m' | None => Err IndexError end.
Definition at_ (l : list Q) (i : nat) : res Q := match nth_error l i with Some x => Ok x | None => Err IndexError end.
(** [a[-1]] *)
Definition at_last (l : list Q) : res Q := at_ l (List.length l - 1).

(** The loop over Steps[:-1] (fast_wind_file.py:72-80); [tmin] grows.  The two assignments to a row are done at once. *)
Fixpoint loop (steps tstep : list Q) (dt : Q) (todo : list nat) (m : list (Q * Q)) (tmin : Q) : res (list (Q * Q) * Q) :=
  match todo with
  | [] => Ok (m, tmin)
  | i :: todo' =>
    d <- at_ tstep i ;;
    s <- at_ steps i ;;
    s' <- (if i <? List.length steps - 1 then at_ steps (i + 1) else at_last steps) ;;
    m1 <- set_ m (2 * i + 1) ((tmin + d - dt)%Q, s) ;;
    m2 <- set_ m1 (2 * i + 2) ((tmin + d)%Q, s') ;;
    loop steps tstep dt todo' m2 (tmin + d)%Q
  end.
Definition stepWind (WSstep WSmin WSmax : Q) (tstep : durations) (dt tmin tmax : Q) : res (list (list Q)) :=
  steps <- arange WSmin (WSmax + WSstep) WSstep ;;
  ts <- match tstep with
        | Number d => Ok (repeat d (List.length steps))
        | Sequence l => a <- at_ l 0 ;; b <- at_ l 1 ;; Ok (map around (linspace a b (List.length steps)))
        end ;;
  let nRow := List.length steps * 2 in
  let m := repeat (0, 0)%Q nRow in
  m0 <- set_ m 0 (tmin, WSmin) ;;
  '(m1, tmin') <- loop steps ts dt (seq 0 (List.length steps - 1)) m0 tmin ;;
  d <- at_last ts ;;
  m2 <- set_ m1 (nRow - 1) (Qmax tmax (tmin' + d), WSmax)%Q ;;
  Ok (map (fun p => fst p :: snd p :: repeat 0%Q 6) m2).
