(** Model of the binary part of weio/fast_output_file.py: load_binary_output, writeDataFrame, writeBinary and
    the parts of FASTOutputFile that call them.
    SIMPLIFICATIONS: double precision operations on channel values are exact rational operations; single
    precision results (np.single) are rounded as in Float.v; values are finite; where numpy would store an
    infinity in a header word the model raises OverflowError; text is one-byte characters. *)
From Verif Require Import Py FS Bytes Float MannBox_Model TurbSim_Model.
From Coq Require Import QArith Qminmax.
Local Open Scope nat_scope.

(** ** Reading primitives *)

(** [fread(fid, n, type)] for items of [nb] bytes (fast_output_file.py:206-208): [struct.unpack(fmt*n, fid.read(nb*n))].
    For a negative count the format is empty but [fid.read] returns the whole rest. *)
Definition fread (nb : nat) (n : Z) (b : bytes) : res (list bytes * bytes) :=
  if (n <? 0)%Z then match b with [] => Ok ([], []) | _ => Err StructError end
  else let k := Z.to_nat n in
       '(w, r) <- take (nb * k) b ;; Ok (chunks k nb w, r).

(** The while loop of freadRowOrderTableBuffered, fast_output_file.py:234-243.  [n] items in all, [nread] read so
    far; any exception inside is replaced by the one the faulty message of line 245 causes (TypeError). *)
Fixpoint table_loop (fuel nb nCols bufsize n nread : nat) (b : bytes) (acc : list (list bytes)) : res (list (list bytes) * bytes) :=
  if Nat.ltb nread n then
    match fuel with
    | O => Err OutOfFuel
    | S fuel' =>
        let k := Nat.min (n - nread) bufsize in
        if Nat.ltb (List.length b) (nb * k) then Err TypeError
        else if negb (Nat.eqb (k mod nCols) 0) then Err TypeError         (* reshape(-1,nCols) *)
        else table_loop fuel' nb nCols bufsize n (nread + k) (skipn (nb * k) b)
               (acc ++ chunks (k / nCols) nCols (chunks k nb (firstn (nb * k) b)))
    end
  else Ok (acc, b).
(** freadRowOrderTableBuffered, fast_output_file.py:210-246, without the extra time column. [good] is
    GoodBufferSize. *)
Definition read_table (good : N) (nb nCols n : nat) (b : bytes) : res (list (list bytes) * bytes) :=
  if Nat.eqb nCols 0 then Err ZeroDivisionError
  else let bufsize := nCols * N.to_nat (good / N.of_nat nCols)%N in
       if Nat.eqb bufsize 0 then Err ZeroDivisionError
       else table_loop (S n) nb nCols bufsize n 0 b [].
Definition good_buffer : N := 163840%N.        (* 4096*40 *)

(** The other branch, fast_output_file.py:315-326 (use_buffer=False): all at once. *)
Definition read_table_direct (nb nCols n : nat) (b : bytes) : res (list (list bytes) * bytes) :=
  '(w, r) <- take (nb * n) b ;;
  if Nat.eqb nCols 0 then Ok ([], r)
  else Ok (chunks (n / nCols) nCols (chunks n nb w), r).

(** ** load_binary_output: fast_output_file.py:194-358 *)

Definition take_f64 (b : bytes) : res (option Q * bytes) :=
  '(w, r) <- take 8 b ;; Ok (decode binary64 (unle w), r).
Definition pack_f64 (q : Q) : res bytes :=
  match encode binary64 q with Some b => Ok (le 8 b) | None => Err OverflowError end.

Definition text_of (ws : list bytes) : str := map (fun w => ascii_of_N (hd 0%N w)) ws.

(** [range(n+1)] times: read [len] characters and strip. *)
Fixpoint read_names (k : nat) (len : Z) (b : bytes) : res (list str * bytes) :=
  match k with
  | O => Ok ([], b)
  | S k' => '(ws, b) <- fread 1 len b ;;
            '(r, b) <- read_names k' len b ;;
            Ok (strip (text_of ws) :: r, b)
  end.
(** Python [s[1:-1]]. *)
Definition inner (s : str) : str := match s with [] => [] | _ :: r => removelast r end.

Record outb := {
  ob_ID : Z; ob_nT : nat; ob_nC : nat;                 (* rows, channels without time *)
  ob_names : list str; ob_units : list str; ob_desc : str;
  ob_t0 : option Q; ob_dt : option Q;                  (* TimeOut1, TimeIncr (or TimeOff, TimeScl for FileID 1) *)
  ob_ptime : list bytes;                               (* packed times, FileID 1 only *)
  ob_scl : list (option Q); ob_off : list (option Q);
  ob_data : list (list bytes);                         (* items: int16, or float64 for FileID 3 *)
}.

Definition load_binary (use_buffer : bool) (b : bytes) : res outb :=
  '(id, b) <- take_s 2 b ;;
  if negb ((id =? 1) || (id =? 2) || (id =? 3) || (id =? 4))%Z then Err PlainException else
  '(len, b) <- (if (id =? 4)%Z then take_s 2 b else Ok (10%Z, b)) ;;
  '(nch, b) <- take_s 4 b ;;
  '(nt, b) <- take_s 4 b ;;
  '(t0, b) <- take_f64 b ;;                            (* TimeScl first for FileID 1, TimeOut1 otherwise *)
  '(dt, b) <- take_f64 b ;;
  '(scl, b) <- (if (id =? 3)%Z then Ok (repeat (Some 1%Q) (Z.to_nat nch), b)
                else '(ws, b) <- fread 4 nch b ;; Ok (map (fun w => decode binary32 (unle w)) ws, b)) ;;
  '(off, b) <- (if (id =? 3)%Z then Ok (repeat (Some 0%Q) (Z.to_nat nch), b)
                else '(ws, b) <- fread 4 nch b ;; Ok (map (fun w => decode binary32 (unle w)) ws, b)) ;;
  '(ld, b) <- take_s 4 b ;;
  '(dw, b) <- fread 1 ld b ;;
  '(names, b) <- read_names (Z.to_nat (nch + 1)) len b ;;
  '(units, b) <- read_names (Z.to_nat (nch + 1)) len b ;;
  '(pt, b) <- (if (id =? 1)%Z then fread 4 nt b else Ok ([], b)) ;;
  if ((nch <? 0) || (nt <? 0))%Z then Err ValueError else       (* np.zeros / reshape of negative sizes *)
  let nC := Z.to_nat nch in let nT := Z.to_nat nt in
  let nb := if (id =? 3)%Z then 8 else 2 in
  '(data, _) <- (if use_buffer then read_table good_buffer nb nC (nT * nC) b
                 else read_table_direct nb nC (nT * nC) b) ;;
  Ok {| ob_ID := id; ob_nT := nT; ob_nC := nC; ob_names := names; ob_units := map inner units;
        ob_desc := strip (text_of dw); ob_t0 := t0; ob_dt := dt; ob_ptime := pt; ob_scl := scl; ob_off := off;
        ob_data := data |}.

(** Integer of row i, channel j (without time) of a compressed file. *)
Definition ob_int (o : outb) (i j : nat) : option Z :=
  match nth_error (ob_data o) i with
  | Some row => match nth_error row j with Some w => Some (sint 2 w) | None => None end
  | None => None
  end.
(** Scaled value, fast_output_file.py:337-343; None for non finite scale or offset. *)
Definition ob_value (o : outb) (i j : nat) : option Q :=
  match ob_int o i j, nth_error (ob_scl o) j, nth_error (ob_off o) j with
  | Some n, Some s, Some f => dequantise s f n
  | _, _, _ => None
  end.
(** Time of row i for FileID 2, 3, 4: line 332. *)
Definition ob_time (o : outb) (i : nat) : option Q :=
  match ob_t0 o, ob_dt o with
  | Some a, Some d => Some (a + d * inject_Z (Z.of_nat i))%Q
  | _, _ => None
  end.

(** ** writeBinary: fast_output_file.py:394-490 *)

(** A table of [nT] rows and [nC] columns, time first. *)
Record chans := { c_nT : nat; c_nC : nat; c_v : nat -> nat -> Q }.

Definition column (c : chans) (j : nat) : list Q := map (fun i => c_v c i j) (seq 0 (c_nT c)).

(** Lines 440-448, [fl] being the rounding to single precision. *)
Definition col_range (fl : Q -> Q) (lo hi : Q) : Q := let r := fl (hi - lo)%Q in if Qeq_bool r 0 then 1%Q else r.
Definition col_scl (fl : Q -> Q) (lo hi : Q) : Q := fl (65535 / col_range fl lo hi)%Q.
Definition col_off (fl : Q -> Q) (lo hi : Q) : Q :=
  let s := col_scl fl lo hi in fl (-32768 - fl (fl lo * s))%Q.
(** np.clip then the assignment to an int16 array: lines 484-486. *)
Definition clip16 (q : Q) : Q := Qmin (Qmax q (-32768)) 32767.
Definition pack16 (s o x : Q) : Z := to_int16 (clip16 (s * x + o)%Q).

Definition col_params (fl : Q -> Q) (c : chans) (j : nat) : res (Q * Q) :=
  lo <- minimum (column c j) ;; hi <- maximum (column c j) ;; Ok (col_scl fl lo hi, col_off fl lo hi).

Fixpoint map_res {A B} (f : A -> res B) (l : list A) : res (list B) :=
  match l with
  | [] => Ok []
  | x :: r => y <- f x ;; ys <- map_res f r ;; Ok (y :: ys)
  end.

(** Names and units, lines 475-482: [struct.pack('@10B', ...)] wants exactly ten characters. *)
Definition pack_name (s : str) : res bytes :=
  if Nat.leb (List.length s) 10 then Ok (map N_of_ascii s ++ repeat 32%N (10 - List.length s)) else Err StructError.

Definition time_name : str := S_ "Time".
(** [chanNames.index('Time')] followed by the test that it is 0. *)
Definition time_first (names : list str) : bool :=
  match names with n :: _ => str_eqb n time_name | [] => false end.

(** Line 414: parentheses are added to every unit unless the first one has one. *)
Definition paren (u : str) : str := S_ "(" ++ u ++ S_ ")".
Definition wrap_units (units : list str) : res (list str) :=
  match units with
  | [] => Err IndexError
  | [] :: _ => Err IndexError
  | (c :: _) :: _ => Ok (if chr_eqb c "("%char then units else map paren units)
  end.

Definition packed_rows (c : chans) (params : list (Q * Q)) : list (list Z) :=
  map (fun i => map (fun jp => pack16 (fst (snd jp)) (snd (snd jp)) (c_v c i (S (fst jp))))
                    (combine (seq 0 (List.length params)) params))
      (seq 0 (c_nT c)).

Definition writeBinary (f : fs) (p : str) (c : chans) (names units : list str) (fileID : Z) (desc : str) : fs * res unit :=
  match
    units' <- wrap_units units ;;
    _ <- (if time_first names then Ok tt else Err PlainException) ;;
    _ <- (if Nat.eqb (c_nC c) 0 then Err IndexError else if Nat.ltb (c_nT c) 2 then Err IndexError else Ok tt) ;;
    params <- map_res (fun j => col_params (rnd binary32) c (S j)) (seq 0 (c_nC c - 1)) ;;
    Ok (units', params)
  with
  | Err e => (f, Err e)
  | Ok (units', params) =>
      if negb (fileID =? 2)%Z then (f, Ok tt)          (* prints a message and returns *)
      else
      write_file f p (
        [ pack_s 2 fileID; pack_s 4 (Z.of_nat (c_nC c - 1)); pack_s 4 (Z.of_nat (c_nT c));
          pack_f64 (c_v c 0 0); pack_f64 (c_v c 1 0 - c_v c 0 0)%Q;
          concat_res (map (fun q => pack_f32 (fst q)) params); concat_res (map (fun q => pack_f32 (snd q)) params);
          pack_s 4 (Z.of_nat (List.length desc)); Ok (map N_of_ascii desc) ]
        ++ map pack_name names ++ map pack_name units'
        ++ [ Ok (concat (map tobytes16 (packed_rows c params))) ])
  end.

(** ** writeDataFrame: fast_output_file.py:361-391: the name and unit of a column. *)

(** [c.rfind(ch)]: index of the last occurrence. *)
Fixpoint rfind_from (ch : ascii) (s : str) (i : nat) (best : option nat) : option nat :=
  match s with
  | [] => best
  | x :: r => rfind_from ch r (S i) (if chr_eqb x ch then Some i else best)
  end.
Definition rfind (ch : ascii) (s : str) : option nat := rfind_from ch s 0 None.

(** [unit] is the local variable carried from column to column (None: not bound yet).  Returns name, unit
    appended to the list, and the variable after the iteration. *)
Definition split_column (unit : option str) (col : str) : res (str * str * option str) :=
  let c := strip col in
  match rev c with
  | [] => Err IndexError                                        (* c[-1] *)
  | last :: _ =>
      let br := if chr_eqb last "]"%char then Some ("["%char, "]"%char)
                else if chr_eqb last ")"%char then Some ("("%char, ")"%char) else None in
      let '(name, unit') :=
        match br with
        | None => (c, unit)
        | Some (op, cl) =>
            match rfind op c with
            | Some iu =>
                if Nat.ltb 1 iu then
                  let name := firstn iu c in
                  let u := filter (fun x => negb (chr_eqb x cl)) (skipn (S iu) c) in
                  ((match rev name with l :: r => if chr_eqb l "_"%char then rev r else name | [] => name end), Some u)
                else (c, unit)
            | None => (c, unit)
            end
        end in
      match unit' with
      | None => Err UnboundLocalError
      | Some u => Ok (name, u, unit')
      end
  end.
Fixpoint split_columns (unit : option str) (cols : list str) : res (list (str * str)) :=
  match cols with
  | [] => Ok []
  | c :: r => '(n, u, v) <- split_column unit c ;;
              rest <- split_columns v r ;; Ok ((n, u) :: rest)
  end.
Definition writeDataFrame (f : fs) (p : str) (c : chans) (cols : list str) : fs * res unit :=
  match split_columns None cols with
  | Err e => (f, Err e)
  | Ok nu => writeBinary f p c (map fst nu) (map snd nu) 2 []
  end.
