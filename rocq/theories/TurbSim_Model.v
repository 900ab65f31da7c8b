(** Model of weio/turbsim_file.py: read, write, makePeriodic, the extraction helpers and toDataFrame.
    A numpy array of shape (3,nt,ny,nz) is a function of four indices together with its sizes; only the
    indices below the sizes are meaningful.
    SIMPLIFICATIONS: double precision operations on the data are exact rational operations; single
    precision storage (scl, off, header floats) is modelled exactly (Float.v); the arrays are finite. *)
From Verif Require Import Py FS Bytes Float.
From Coq Require Import QArith Qround Qminmax Qabs.
Local Open Scope nat_scope.

(** ** Writing a file piece by piece *)

(** [with open(p,'wb') as fh: fh.write(c1); fh.write(c2); ...] where computing a piece may raise: the pieces
    before the failing one are in the file when the exception leaves the block. *)
Fixpoint write_pieces (f : fs) (p : str) (cs : list (res bytes)) : fs * res unit :=
  match cs with
  | [] => (f, Ok tt)
  | Ok b :: r => write_pieces (fs_append f p b) p r
  | Err e :: _ => (f, Err e)
  end.
Definition write_file (f : fs) (p : str) (cs : list (res bytes)) : fs * res unit :=
  match fs_open_w f p with
  | Err e => (f, Err e)
  | Ok f1 => write_pieces f1 p cs
  end.

(** ** Single precision words *)
(** [struct.pack('<f', x)] *)
Definition pack_f32 (q : Q) : res bytes :=
  match encode binary32 q with Some b => Ok (le 4 b) | None => Err OverflowError end.
(** [struct.unpack('<f', ...)]; None is an infinity or a NaN. *)
Definition take_f32 (b : bytes) : res (option Q * bytes) :=
  '(w, r) <- take 4 b ;; Ok (decode binary32 (unle w), r).

(** ** Quantisation: turbsim_file.py:130-152 *)

Definition arr4 := nat -> nat -> nat -> nat -> Q.      (* k, it, iy, iz *)
Definition arr3 := nat -> nat -> nat -> Q.             (* k, it, itwr *)

(** All the values of one component, in C order. *)
Definition comp_values (u : arr4) (nt ny nz k : nat) : list Q :=
  flat_map (fun it => flat_map (fun iy => map (fun iz => u k it iy iz) (seq 0 nz)) (seq 0 ny)) (seq 0 nt).
Definition twr_values (w : arr3) (nt n k : nat) : list Q :=
  flat_map (fun it => map (fun j => w k it j) (seq 0 n)) (seq 0 nt).
(** [a.min()], [a.max()]: ValueError on an empty array. *)
Definition minimum (l : list Q) : res Q :=
  match l with [] => Err ValueError | x :: r => Ok (fold_left Qmin r x) end.
Definition maximum (l : list Q) : res Q :=
  match l with [] => Err ValueError | x :: r => Ok (fold_left Qmax r x) end.

(** Lines 141-148, with [fl] the rounding performed when a number is stored in the float32 arrays scl and
    off. *)
Definition scl_of (fl : Q -> Q) (lo hi : Q) : Q :=
  if Qeq_bool lo hi then 1%Q else fl (65535 / (hi - lo))%Q.
Definition off_of (fl : Q -> Q) (lo hi : Q) : Q := fl (-32768 - scl_of fl lo hi * lo)%Q.

(** [float64 array].astype(np.int16): truncation towards zero, then (out of range) the low 16 bits. *)
Definition wrap16 (z : Z) : Z := ((z + 32768) mod 65536 - 32768)%Z.
Definition Qtrunc (q : Q) : Z := Z.quot (Qnum q) (Zpos (Qden q)).
Definition to_int16 (q : Q) : Z := wrap16 (Qtrunc q).
Definition quantise (scl off x : Q) : Z := to_int16 (x * scl + off)%Q.

(** ** The object *)

Record tsobj := {
  o_ID : option Z;                  (* self['ID'], 7 when the key is missing (line 123) *)
  o_nt : nat; o_ny : nat; o_nz : nat; o_u : arr4;
  o_twr : option (nat * arr3);      (* self['uTwr'], empty when the key is missing (line 121) *)
  o_y : list Q; o_z : list Q; o_t : list Q;
  o_hub : Q * Q;                    (* (zHub, uHub) as computed by hubValues, lines 205-221: only stored *)
}.
Definition n_twr (o : tsobj) : nat := match o_twr o with Some (n, _) => n | None => 0 end.
Definition u_twr (o : tsobj) : arr3 := match o_twr o with Some (_, w) => w | None => fun _ _ _ => 0%Q end.
Definition the_ID (o : tsobj) : Z := match o_ID o with Some i => i | None => 7%Z end.

(** Minimum and maximum of a component over grid and tower: lines 139-143. *)
Definition comp_bounds (o : tsobj) (k : nat) : res (Q * Q) :=
  lo <- minimum (comp_values (o_u o) (o_nt o) (o_ny o) (o_nz o) k) ;;
  hi <- maximum (comp_values (o_u o) (o_nt o) (o_ny o) (o_nz o) k) ;;
  if Nat.ltb 0 (n_twr o) then
    lo2 <- minimum (twr_values (u_twr o) (o_nt o) (n_twr o) k) ;;
    hi2 <- maximum (twr_values (u_twr o) (o_nt o) (n_twr o) k) ;;
    Ok (Qmin lo lo2, Qmax hi hi2)
  else Ok (lo, hi).
Definition scaling (o : tsobj) (k : nat) : res (Q * Q) :=
  '(lo, hi) <- comp_bounds o k ;; Ok (scl_of (rnd binary32) lo hi, off_of (rnd binary32) lo hi).

(** [a[1] - a[0]] *)
Definition step_of (l : list Q) : res Q :=
  match l with a :: b :: _ => Ok (b - a)%Q | _ => Err IndexError end.
Definition first_of (l : list Q) : res Q :=
  match l with a :: _ => Ok a | _ => Err IndexError end.

(** [out[:,it,:,:].tobytes(order='F')]: first index fastest. *)
Definition frame (g : nat -> nat -> nat -> Z) (ny nz : nat) : list Z :=
  flat_map (fun iz => flat_map (fun iy => map (fun k => g k iy iz) (seq 0 3)) (seq 0 ny)) (seq 0 nz).
Definition frame_twr (g : nat -> nat -> Z) (n : nat) : list Z :=
  flat_map (fun j => map (fun k => g k j) (seq 0 3)) (seq 0 n).
Definition tobytes16 (l : list Z) : bytes := concat (map (le 2) l).

Definition concat_res (l : list (res bytes)) : res bytes :=
  fold_right (fun x acc => a <- x ;; b <- acc ;; Ok (a ++ b)) (Ok []) l.

Definition sel3 {A} (a b c : A) (k : nat) : A := match k with 0 => a | 1 => b | _ => c end.

(** turbsim_file.py:110-171; [info] is the text of line 133 (it contains the current time). *)
Definition ts_write (f : fs) (filename : str) (info : str) (o : tsobj) : fs * res unit :=
  match filename with
  | [] => (f, Err PlainException)
  | _ =>
    match
      '(s0, f0) <- scaling o 0 ;; '(s1, f1) <- scaling o 1 ;; '(s2, f2) <- scaling o 2 ;;
      z0 <- first_of (o_z o) ;; dz <- step_of (o_z o) ;; dy <- step_of (o_y o) ;; dt <- step_of (o_t o) ;;
      Ok (s0, f0, s1, f1, s2, f2, z0, dz, dy, dt)
    with
    | Err e => (f, Err e)
    | Ok (s0, f0, s1, f1, s2, f2, z0, dz, dy, dt) =>
      let q k x := quantise (sel3 s0 s1 s2 k) (sel3 f0 f1 f2 k) x in
      write_file f filename (
        [ concat_res [pack_s 2 (the_ID o); pack_s 4 (Z.of_nat (o_nz o)); pack_s 4 (Z.of_nat (o_ny o));
                      pack_s 4 (Z.of_nat (n_twr o)); pack_s 4 (Z.of_nat (o_nt o))];
          concat_res [pack_f32 dz; pack_f32 dy; pack_f32 dt; pack_f32 (snd (o_hub o)); pack_f32 (fst (o_hub o));
                      pack_f32 z0];
          concat_res [pack_f32 s0; pack_f32 f0; pack_f32 s1; pack_f32 f1; pack_f32 s2; pack_f32 f2];
          pack_s 4 (Z.of_nat (List.length info));
          Ok (map N_of_ascii info) ]
        ++ map (fun it => Ok (tobytes16 (frame (fun k iy iz => q k (o_u o k it iy iz)) (o_ny o) (o_nz o))
                           ++ tobytes16 (frame_twr (fun k j => q k (u_twr o k it j)) (n_twr o))))
               (seq 0 (o_nt o)))
    end
  end.

(** ** Reading: turbsim_file.py:61-108 *)

Record tsread := {
  r_ID : Z; r_nz : nat; r_ny : nat; r_nTwr : nat; r_nt : nat;
  r_dz : option Q; r_dy : option Q; r_dt : option Q; r_uHub : option Q; r_zHub : option Q; r_zBottom : option Q;
  r_scl : nat -> option Q; r_off : nat -> option Q;
  r_info : str;
  r_int : nat -> nat -> nat -> nat -> Z;       (* integers of the grid: k it iy iz *)
  r_intTwr : nat -> nat -> nat -> Z;           (* integers of the tower: k it j *)
}.

(** Lines 86-91: one time step; reshape(order='F') puts item k + 3*(iy + ny*iz) at [k,iy,iz]. *)
Fixpoint read_steps (nt ny nz nTwr : nat) (b : bytes) : res (list (list Z * list Z)) :=
  match nt with
  | O => Ok []
  | S nt' =>
      g <- frombuffer_s 2 (firstn (2 * 3 * ny * nz) b) ;;
      (if Nat.eqb (List.length g) (3 * ny * nz) then
         let b1 := skipn (2 * 3 * ny * nz) b in
         w <- frombuffer_s 2 (firstn (2 * 3 * nTwr) b1) ;;
         if Nat.eqb (List.length w) (3 * nTwr) then
           rest <- read_steps nt' ny nz nTwr (skipn (2 * 3 * nTwr) b1) ;;
           Ok ((g, w) :: rest)
         else Err ValueError
       else Err ValueError)
  end.

(** [(f.read(n)).decode()] with the rest of the file.  SIMPLIFICATION: a byte above 127 is refused (multi-byte
    UTF-8 sequences are not modelled); a negative count reads everything, a large one what there is. *)
Definition read_text (n : Z) (b : bytes) : res (str * bytes) :=
  let k := if (n <? 0)%Z then List.length b else Nat.min (Z.to_nat n) (List.length b) in
  if forallb (fun x => (x <? 128)%N) (firstn k b) then Ok (map ascii_of_N (firstn k b), skipn k b)
  else Err UnicodeDecodeError.

Definition ts_read_bytes (b : bytes) : res tsread :=
  '(id, b) <- take_s 2 b ;; '(nz, b) <- take_s 4 b ;; '(ny, b) <- take_s 4 b ;; '(nTwr, b) <- take_s 4 b ;;
  '(nt, b) <- take_s 4 b ;;
  '(dz, b) <- take_f32 b ;; '(dy, b) <- take_f32 b ;; '(dt, b) <- take_f32 b ;; '(uHub, b) <- take_f32 b ;;
  '(zHub, b) <- take_f32 b ;; '(zBottom, b) <- take_f32 b ;;
  '(s0, b) <- take_f32 b ;; '(f0, b) <- take_f32 b ;; '(s1, b) <- take_f32 b ;; '(f1, b) <- take_f32 b ;;
  '(s2, b) <- take_f32 b ;; '(f2, b) <- take_f32 b ;;
  '(nChar, b) <- take_s 4 b ;;
  '(info, b) <- read_text nChar b ;;
  if ((nt <? 0) || (ny <? 0) || (nz <? 0) || (nTwr <? 0))%Z then Err ValueError else    (* np.zeros *)
  let nt := Z.to_nat nt in let ny := Z.to_nat ny in let nz := Z.to_nat nz in let nTwr := Z.to_nat nTwr in
  steps <- read_steps nt ny nz nTwr b ;;
  Ok {| r_ID := id; r_nz := nz; r_ny := ny; r_nTwr := nTwr; r_nt := nt;
        r_dz := dz; r_dy := dy; r_dt := dt; r_uHub := uHub; r_zHub := zHub; r_zBottom := zBottom;
        r_scl := sel3 s0 s1 s2; r_off := sel3 f0 f1 f2; r_info := info;
        r_int := fun k it iy iz => nth (k + 3 * (iy + ny * iz)) (fst (nth it steps ([], []))) 0%Z;
        r_intTwr := fun k it j => nth (k + 3 * j) (snd (nth it steps ([], []))) 0%Z |}.

Definition ts_read (f : fs) (filename : str) : res tsread :=
  match filename with
  | [] => Err PlainException
  | _ => match f filename with
         | Missing | Dir => Err OSError2
         | Reg [] => Err EmptyFileError
         | Reg b => ts_read_bytes b
         end
  end.

(** Lines 92-97: [u -= off; u /= scl]; None when the header is not finite or scl is zero. *)
Definition dequantise (scl off : option Q) (n : Z) : option Q :=
  match scl, off with
  | Some s, Some o => if Qeq_bool s 0 then None else Some ((inject_Z n - o) / s)%Q
  | _, _ => None
  end.
Definition r_u (r : tsread) (k it iy iz : nat) : option Q :=
  dequantise (r_scl r k) (r_off r k) (r_int r k it iy iz).
Definition r_uTwr (r : tsread) (k it j : nat) : option Q :=
  dequantise (r_scl r k) (r_off r k) (r_intTwr r k it j).

(** Lines 101-105: the coordinate vectors (None when the header is not finite). *)
Definition arange (n : nat) : list Q := map (fun i => inject_Z (Z.of_nat i)) (seq 0 n).
Definition sumQ (l : list Q) : Q := fold_right Qplus 0%Q l.
(** [np.mean]: nan (with a warning) on an empty array; never used on one below. *)
Definition mean (l : list Q) : Q := (sumQ l / inject_Z (Z.of_nat (List.length l)))%Q.
Definition coord_y (ny : nat) (dy : Q) : list Q :=
  let y := map (fun i => i * dy)%Q (arange ny) in map (fun v => v - mean y)%Q y.
Definition coord_z (nz : nat) (dz zb : Q) : list Q := map (fun i => i * dz + zb)%Q (arange nz).
Definition coord_t (nt : nat) (dt : Q) : list Q := map (fun i => i * dt)%Q (arange nt).
Definition coord_zTwr (n : nat) (dz zb : Q) : list Q := map (fun i => - i * dz + zb)%Q (arange n).

(** ** makePeriodic: turbsim_file.py:508-529, on an object whose arrays have consistent sizes
    (len(t) = nt = shape of u and uTwr along time). *)
Definition mirror {A} (nt : nat) (u : nat -> A) : nat -> A :=
  fun it => if Nat.ltb it nt then u it
            else (* np.flip(u[:,1:-1],axis=1)[it-nt] *) u (1 + (nt - 2 - 1 - (it - nt))).
Definition makePeriodic (o : tsobj) : res tsobj :=
  let nt := 2 * List.length (o_t o) - 2 in
  dt <- step_of (o_t o) ;;
  Ok {| o_ID := Some 8%Z; o_nt := nt; o_ny := o_ny o; o_nz := o_nz o;
        o_u := fun k => mirror (o_nt o) (o_u o k);
        o_twr := match o_twr o with
                 | Some (n, w) => Some (n, fun k => mirror (o_nt o) (w k))
                 | None => None
                 end;
        o_y := o_y o; o_z := o_z o; o_t := map (fun i => i * dt)%Q (arange nt); o_hub := o_hub o |}.

(** ** Extraction helpers and toDataFrame: turbsim_file.py:190-345, 351-397, 579-659.
    With removeMean=True the slices are views, so [u -= np.mean(u)] writes into self['u']. *)
Section Queries.
Variables nt ny nz : nat.

Definition line_t (u : arr4) k iy iz := map (fun it => u k it iy iz) (seq 0 nt).
Definition line_y (u : arr4) k it iz := map (fun iy => u k it iy iz) (seq 0 ny).
Definition line_z (u : arr4) k it iy := map (fun iz => u k it iy iz) (seq 0 nz).
Definition plane_ty (u : arr4) k iz := flat_map (fun it => map (fun iy => u k it iy iz) (seq 0 ny)) (seq 0 nt).
Definition plane_tz (u : arr4) k iy := flat_map (fun it => map (fun iz => u k it iy iz) (seq 0 nz)) (seq 0 nt).

(** _longiline, lines 235-248: new content of self['u']. *)
Definition longiline (rm : bool) (iy0 iz0 : nat) (u : arr4) : arr4 :=
  if rm then fun k it iy iz => if Nat.eqb iy iy0 && Nat.eqb iz iz0
                               then (u k it iy iz - mean (line_t u k iy0 iz0))%Q else u k it iy iz
  else u.
(** _latline, lines 250-264 *)
Definition latline (rm : bool) (it0 iz0 : nat) (u : arr4) : arr4 :=
  if rm then fun k it iy iz => if Nat.eqb it it0 && Nat.eqb iz iz0
                               then (u k it iy iz - mean (line_y u k it0 iz0))%Q else u k it iy iz
  else u.
(** _vertline, lines 266-280 *)
Definition vertline (rm : bool) (it0 iy0 : nat) (u : arr4) : arr4 :=
  if rm then fun k it iy iz => if Nat.eqb it it0 && Nat.eqb iy iy0
                               then (u k it iy iz - mean (line_z u k it0 iy0))%Q else u k it iy iz
  else u.
(** horizontalPlane, lines 285-303 *)
Definition horizontalPlane (rm : bool) (iz0 : nat) (u : arr4) : arr4 :=
  if rm then fun k it iy iz => if Nat.eqb iz iz0 then (u k it iy iz - mean (plane_ty u k iz0))%Q else u k it iy iz
  else u.
(** verticalPlane, lines 305-322 *)
Definition verticalPlane (rm : bool) (iy0 : nat) (u : arr4) : arr4 :=
  if rm then fun k it iy iz => if Nat.eqb iy iy0 then (u k it iy iz - mean (plane_tz u k iy0))%Q else u k it iy iz
  else u.
(** crosscorr_y, lines 351-367, and crosscorr_z, lines 369-387: only their effect on self['u']. *)
Definition crosscorr_y (iy0 iz0 : nat) (u : arr4) : arr4 :=
  fold_left (fun u iy => longiline true iy iz0 u) (seq 0 ny) (longiline true iy0 iz0 u).
Definition crosscorr_z (iy0 iz0 : nat) (u : arr4) : arr4 :=
  fold_left (fun u iz => longiline true iy0 iz u) (seq 0 nz) (longiline true iy0 iz0 u).

(** toDataFrame, lines 579-659: the effects in order; [scipy] tells whether scipy.signal can be imported
    (otherwise csd_longi raises before extracting anything and the exception is caught).
    (iy, iz) = iMid, it0 = int(len(t)/2).  It returns the field after the call. *)
Definition toDataFrame (scipy : bool) (iy iz it0 : nat) (u : arr4) : arr4 :=
  let u := crosscorr_y iy iz u in
  let u := crosscorr_z iy iz u in
  if scipy then vertline true it0 iy (latline true it0 iz (longiline true iy iz u)) else u.
(** The table 'ZMidLine' (lines 597-600) of a call, computed before the correlations: the three time series
    at mid box. *)
Definition zmid_table (iy iz : nat) (u : arr4) : list (Q * Q * Q) :=
  map (fun it => (u 0 it iy iz, u 1 it iy iz, u 2 it iy iz)) (seq 0 nt).

Inductive query :=
| QLongi (rm : bool) (iy iz : nat) | QLat (rm : bool) (it iz : nat) | QVert (rm : bool) (it iy : nat)
| QHoriz (rm : bool) (iz : nat) | QVertPlane (rm : bool) (iy : nat)
| QValues | QProfile | QHub                     (* valuesAt, vertProfile, hubValues/midValues: no assignment *)
| QCrossY (iy iz : nat) | QCrossZ (iy iz : nat)
| QCsdLongi (iy iz : nat) | QCsdLat (it iz : nat) | QCsdVert (it iy : nat)
| QDataFrame (scipy : bool) (iy iz it0 : nat).
Definition run_query (u : arr4) (q : query) : arr4 :=
  match q with
  | QLongi rm iy iz => longiline rm iy iz u
  | QLat rm it iz => latline rm it iz u
  | QVert rm it iy => vertline rm it iy u
  | QHoriz rm iz => horizontalPlane rm iz u
  | QVertPlane rm iy => verticalPlane rm iy u
  | QValues | QProfile | QHub => u
  | QCrossY iy iz => crosscorr_y iy iz u
  | QCrossZ iy iz => crosscorr_z iy iz u
  | QCsdLongi iy iz => longiline true iy iz u
  | QCsdLat it iz => latline true it iz u
  | QCsdVert it iy => vertline true it iy u
  | QDataFrame s iy iz it0 => toDataFrame s iy iz it0 u
  end.
Definition run_queries (u : arr4) (qs : list query) : arr4 := fold_left run_query qs u.
Definition removes_mean (q : query) : bool :=
  match q with
  | QLongi rm _ _ | QLat rm _ _ | QVert rm _ _ | QHoriz rm _ | QVertPlane rm _ => rm
  | QValues | QProfile | QHub => false
  | _ => true
  end.
End Queries.
