(** Model of weio/flex_out_file.py: FLEX result files (.res, .int) and their sensor file.
    SIMPLIFICATION: infinities and NaNs are None; negative zero is zero. *)
From Verif Require Import Py FS Bytes Float MannBox_Model.
From Coq Require Import QArith Qround.
Local Open Scope nat_scope.

(** [np.fromfile(fid, dtype, count)] with items of [nb] bytes: the items and the rest of the file.  A short file
    gives fewer items; a negative count reads all whole items. *)
Definition fromfile (nb : nat) (count : Z) (b : bytes) : list bytes * bytes :=
  if (count <? 0)%Z then (items nb b, skipn (nb * (List.length b / nb)) b)
  else (items nb (firstn (nb * Z.to_nat count) b), skipn (nb * Z.to_nat count) b).
Definition ints (nb : nat) (count : Z) (b : bytes) : list Z * bytes := let (l, r) := fromfile nb count b in (map (sint nb) l, r).
Definition singles (count : Z) (b : bytes) : list (option Q) * bytes := let (l, r) := fromfile 4 count b in (map (fun w => decode binary32 (unle w)) l, r).
(** [a[i]] *)
Definition at_ {A} (l : list A) (i : nat) : res A := match nth_error l i with Some x => Ok x | None => Err IndexError end.
(** [bytes.strip()] *)
Definition byte_blank (x : N) : bool := ((9 <=? x) && (x <=? 13) || (x =? 32))%N.
Fixpoint drop_blank (b : bytes) : bytes := match b with x :: b' => if byte_blank x then drop_blank b' else b | [] => [] end.
Definition strip_bytes (b : bytes) : bytes := rev (drop_blank (rev (drop_blank b))).

(** Product of a stored integer and a scale factor in single precision; None: not finite. *)
Definition to_single (q : Q) : option Q := match encode binary32 q with Some _ => Some (rnd binary32 q) | None => None end.
Definition scaled (scale : option Q) (raw : Z) : option Q := match scale with Some s => to_single (inject_Z raw * s)%Q | None => None end.

Record flex := mk_flex { x_data : list (list (option Q)); x_n : nat; x_tmin : option Q; x_dt : option Q; x_version : Z; x_date : list Z; x_title : bytes }.

(** Line 82: the test on the numbers stored after the first word; [and] stops at the first false. *)
Definition has_date (d : list Z) : res bool :=
  d0 <- at_ d 0 ;; if negb (d0 <? 32)%Z then Ok false else
  d1 <- at_ d 1 ;; if negb (d1 <? 13)%Z then Ok false else
  d3 <- at_ d 3 ;; if negb (d3 <? 25)%Z then Ok false else
  d4 <- at_ d 4 ;; Ok (d4 <? 61)%Z.
Fixpoint map_at {A} (l : list A) (js : list nat) : res (list A) :=
  match js with [] => Ok [] | j :: js' => x <- at_ l j ;; xs <- map_at l js' ;; Ok (x :: xs) end.
Definition transpose (nt : nat) (rows : list (list Z)) : list (list Z) := map (fun i => map (fun r => nth i r 0%Z) rows) (seq 0 nt).
Definition scale_row (scales : list (option Q)) (row : list Z) : list (option Q) := map (fun p => scaled (fst p) (snd p)) (combine scales row).

(** read_flex_res (flex_out_file.py:74-128) on the content of the file *)
Definition read_flex_res (b : bytes) : res flex :=
  let b4 := skipn 4 b in
  let (d6, b28) := ints 4 6 b4 in
  isd <- has_date d6 ;;
  let '(date, title, b68) := if isd then (d6, firstn 40 b28, skipn 40 b28)
                             else let (d1, b8) := ints 4 1 b4 in (d1, firstn 60 b8, skipn 60 b8) in
  let b76 := snd (ints 4 2 b68) in
  let (ln, b80) := ints 4 1 b76 in
  nS <- at_ ln 0 ;;
  let bI := snd (ints 4 nS b80) in
  let bD := snd (ints 4 1 bI) in
  let (lv, bV) := ints 4 1 bD in
  version <- at_ lv 0 ;;
  if (version =? 12)%Z then Err NotImplementedError else
  let known := ((version =? 0) || (version =? 2) || (version =? 3))%Z in
  '(params, bS) <- (if known then
        let (l1, b1) := singles 1 bV in tmin <- at_ l1 0 ;;
        let (l2, b2) := singles 1 b1 in dt <- at_ l2 0 ;;
        let (sc, b3) := singles nS b2 in Ok (Some (tmin, dt, sc), b3)
      else Ok (None, bV)) ;;
  let data := fst (ints 2 (-1) bS) in
  (* int(len(data) / nSensors) *)
  if (nS =? 0)%Z then match data with [] => Err ValueError | _ => Err OverflowError end else
  if (nS <? 0)%Z then Err Unmodelled else
  let n := Z.to_nat nS in
  let nt := List.length data / n in
  match (if (version =? 3)%Z then rows <- reshape n nt data ;; Ok (transpose nt rows) else reshape nt n data) with
  | Err ValueError => Err WrongFormatError
  | Err e => Err e
  | Ok rows =>
    match params with
    | None => Err UnboundLocalError
    | Some (tmin, dt, sc) =>
      scales <- map_at sc (seq 0 n) ;;
      Ok (mk_flex (map (scale_row scales) rows) n tmin dt version date (strip_bytes title))
    end
  end.

(** ** The time vector (flex_out_file.py:44): np.arange(tmin, tmin + nt*dt, dt).reshape(nt,1)
    tmin and dt are numpy single precision scalars and nt a python int.  numpy computes the length as
    ceil((stop - start)/step) with the arithmetic of the scalars: nt*dt is a double up to numpy 1 and a single from
    numpy 2 (NEP 50), so the format is a parameter.  None: overflow. *)
Definition op (f : fmt) (q : Q) : res Q := match encode f q with Some _ => Ok (rnd f q) | None => Err ValueError end.
Definition time_length (f : fmt) (tmin dt : option Q) (nt : nat) : res Z :=
  match tmin, dt with
  | Some t0, Some d =>
    p <- op f (inject_Z (Z.of_nat nt) * d) ;; stop <- op f (t0 + p) ;; diff <- op f (stop - t0) ;;
    if Qeq_bool d 0 then Err ValueError else
    q <- op f (diff / d) ;; Ok (Z.max 0 (Qceiling q))
  | _, _ => Err ValueError
  end.
(** The values: numpy stores start and start+step, and fills the rest with start + i*(second - first) in single
    precision. *)
Definition s32 (q : Q) : Q := rnd binary32 q.
Definition time_value (tmin dt : Q) (i : nat) : Q :=
  let second := s32 (tmin + dt) in
  match i with
  | O => tmin
  | 1 => second
  | _ => s32 (tmin + s32 (s32 (inject_Z (Z.of_nat i)) * s32 (second - tmin)))
  end.
Definition time_vector (f : fmt) (tmin dt : option Q) (nt : nat) : res (list Q) :=
  len <- time_length f tmin dt nt ;;
  match tmin, dt with
  | Some t0, Some d => if (len =? Z.of_nat nt)%Z then Ok (map (time_value t0 d) (seq 0 nt)) else Err ValueError
  | _, _ => Err ValueError
  end.

(** ** The sensor file: read_flex_sensor (flex_out_file.py:131-144); [float_] is python's float() *)
Section Sensors.
Variable float_ : str -> res Q.
Record sensors := mk_sensors { s_ID : list Z; s_unit : list str; s_name : list str; s_desc : list str }.
Definition sensor_line (line : str) : res (Z * str * str * str) :=
  let w := split_ws line in
  w0 <- at_ w 0 ;; id <- int_ w0 ;;
  w1 <- at_ w 1 ;; _ <- float_ w1 ;; w2 <- at_ w 2 ;; _ <- float_ w2 ;;
  u <- at_ w 5 ;; n <- at_ w 6 ;;
  Ok (id, u, n, join (S_ " ") (skipn 7 w)).
Fixpoint sensor_lines (ls : list str) : res sensors :=
  match ls with
  | [] => Ok (mk_sensors [] [] [] [])
  | l :: ls' => '(id, u, n, d) <- sensor_line l ;; s <- sensor_lines ls' ;;
                Ok (mk_sensors (id :: s_ID s) (u :: s_unit s) (n :: s_name s) (d :: s_desc s))
  end.
(** [lines] as given by fid.readlines() *)
Definition read_flex_sensor (lines : list str) : res sensors := sensor_lines (skipn 2 lines).
(** read_flex_sensor_fake (flex_out_file.py:146-155); 'S{:04d}' *)
Definition pad4 (s : str) : str := repeat (ch 48) (4 - List.length s) ++ s.
Definition fake_sensors (n : nat) : sensors :=
  mk_sensors (map (fun i => Z.of_nat (S i)) (seq 0 n)) (repeat (S_ "(NA)") n) (map (fun i => S_ "S" ++ pad4 (str_of_N (N.of_nat (S i)))) (seq 0 n)) (repeat (S_ "NA") n).

(** FLEXOutFile._read (flex_out_file.py:35-56); [sensor_file]: the lines of the file called sensor in the same directory *)
Record flexfile := mk_file { f_res : flex; f_time : list Q; f_sensors : sensors }.
Definition flex_read (f : fmt) (b : bytes) (sensor_file : option (list str)) : res flexfile :=
  x <- read_flex_res b ;;
  let nt := List.length (x_data x) in
  time <- time_vector f (x_tmin x) (x_dt x) nt ;;
  s <- match sensor_file with
       | None => Ok (fake_sensors (x_n x))
       | Some ls => s <- read_flex_sensor ls ;; if Nat.eqb (List.length (s_ID s)) (x_n x) then Ok s else Err BrokenFormatError
       end ;;
  Ok (mk_file x time s).
(** _toDataFrame (flex_out_file.py:64-71): column names and rows *)
Definition clean_unit (u : str) : str := filter (fun c => negb (mem_chr c (S_ "()[]"))) u.
Definition flex_columns (o : flexfile) : list str :=
  map (fun p => fst p ++ S_ "_[" ++ snd p ++ S_ "]") (combine (S_ "Time" :: s_name (f_sensors o)) (map clean_unit (S_ "s" :: s_unit (f_sensors o)))).
Definition flex_rows (o : flexfile) : list (list (option Q)) := map (fun p => Some (fst p) :: snd p) (combine (f_time o) (x_data (f_res o))).
End Sensors.
