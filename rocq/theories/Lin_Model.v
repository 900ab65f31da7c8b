(** Model of weio/fast_linearization_file.py: OpenFAST linearization files.
    SIMPLIFICATIONS: a double is a value of type [V], read by [num] (python's float, also used by numpy to convert texts);
    encodings and carriage returns are not modelled; the last line of the header is kept without its end of line; the guards of
    File.read are in File_Model; the writer is in Writers_Model. *)
From Verif Require Import Py Dict.
From Verif Require TS_Model Tecplot_Model.
Local Open Scope nat_scope.

Section Lin.
Context {V : Type}.
Variable num : str -> option V.

(** The values of the dictionary *)
Record info := mk_info { i_rot : list str; i_der : list Z; i_descr : list str }.
Inductive lval := Lines (l : list str) | Num (v : V) | NoNum | Vec (l : list V) | Info (i : info) | Mat (rows : list (list V)) | Words (l : list str).
Notation ldict := (@dict lval).

(** [l.split(key)[1].split()[0]] for the first line that contains the key (fast_linearization_file.py:48-52); None: no such line *)
Fixpoint cut (s key : str) : option str := if startswith s key then Some (skipn (List.length key) s) else match s with [] => None | _ :: s' => cut s' key end.
Fixpoint upto (s key : str) : str := if startswith s key then [] else match s with [] => [] | c :: s' => c :: upto s' key end.
Fixpoint extractVal (lines : list str) (key : str) : res (option str) :=
  match lines with
  | [] => Ok None
  | l :: ls => match cut l key with
               | Some r => match split_ws (upto r key) with w :: _ => Ok (Some w) | [] => Err IndexError end
               | None => extractVal ls key
               end
  end.
Definition int_of (w : option str) : res Z := match w with Some s => int_ s | None => Err TypeError end.
(** The entries that become None on any exception (fast_linearization_file.py:108-119) *)
Definition float_or_none (r : res (option str)) : lval := match r with Ok (Some s) => match num s with Some v => Num v | None => NoNum end | _ => NoNum end.
(** readToMarker (fast_linearization_file.py:54-62): the lines, the last line, and what follows *)
Fixpoint readToMarker (marker : str) (nMax i : nat) (acc : list str) (last : option str) (ls : list str) : res (list str * str * list str) :=
  match ls with
  | [] => match last with Some l => Ok (acc, l, []) | None => Err UnboundLocalError end
  | l :: r => if Nat.ltb nMax i then Err BrokenFormatError else if contains l marker then Ok (acc, l, r) else readToMarker marker nMax (S i) (acc ++ [strip l]) (Some l) r
  end.
(** A line of an operating point (fast_linearization_file.py:71-87): the value, the frame, the order and the description *)
Definition at_ {A} (l : list A) (i : nat) : res A := match nth_error l i with Some x => Ok x | None => Err IndexError end.
Definition float_ (s : str) : res V := match num s with Some v => Ok v | None => Err ValueError end.
Definition op_line (bHasDeriv : bool) (l : str) : res (V * str * Z * str) :=
  let sp_ := split_ws (strip l) in
  w <- at_ sp_ 1 ;;
  let three := contains w (S_ ",") in
  v <- float_ (if three then removelast w else w) ;;
  let iRot := if three then 4 else 2 in
  rot <- at_ sp_ iRot ;;
  if bHasDeriv then
    d <- at_ sp_ (iRot + 1) ;; z <- int_ d ;; Ok (v, rot, z, strip (join [sp] (skipn (iRot + 2) sp_)))
  else Ok (v, rot, (-1)%Z, strip (join [sp] (skipn (iRot + 1) sp_))).
(** The loop of readOP (fast_linearization_file.py:70-90): it stops after [n] lines, but reads one at least *)
Fixpoint op_lines (bHasDeriv : bool) (n : nat) (ls : list str) : res (list (V * str * Z * str) * list str) :=
  match n with
  | O => Ok ([], ls)
  | S n' => match ls with
            | [] => Ok ([], [])
            | l :: r => x <- op_line bHasDeriv l ;; '(xs, r') <- op_lines bHasDeriv n' r ;; Ok (x :: xs, r')
            end
  end.
Definition readOP (ls : list str) (n : Z) : res (list V * info * list str) :=
  let '(colNames, r1) := TS_Model.readline ls in
  let '(_, r2) := TS_Model.readline r1 in
  '(xs, r) <- op_lines (contains (strip colNames) (S_ "Derivative Order")) (Z.to_nat (Z.max 1 n)) r2 ;;
  Ok (map (fun x => fst (fst (fst x))) xs, mk_info (map (fun x => snd (fst (fst x))) xs) (map (fun x => snd (fst x)) xs) (map snd xs), r).
(** readMat (fast_linearization_file.py:92-95): the number of columns is not looked at *)
Fixpoint take_lines (n : nat) (ls : list str) : list str * list str :=
  match n with O => ([], ls) | S n' => let '(l, r) := TS_Model.readline ls in let '(xs, r') := take_lines n' r in (l :: xs, r') end.
Definition readMat (ls : list str) (n : Z) : res (list (list V) * list str) :=
  let '(rows, r) := take_lines (Z.to_nat n) ls in m <- TS_Model.matrix num rows ;; Ok (m, r).

Definition KEYS : list str := map S_ ["Order of"; "A:"; "B:"; "C:"; "D:"; "ED M:"; "dUdu"; "dUdy"]%string.
Definition put_op (d : ldict) (ls : list str) (n : Z) (k ki : str) : ldict * res (list str) :=
  match readOP ls n with Ok (v, i, r) => (put (put d k (Vec v)) ki (Info i), Ok r) | Err e => (d, Err e) end.
Definition put_mat (d : ldict) (ls : list str) (n : Z) (k : str) : ldict * res (list str) :=
  match readMat ls n with Ok (m, r) => (put d k (Mat m), Ok r) | Err e => (d, Err e) end.
(** One turn of the loop (fast_linearization_file.py:123-149) *)
Definition turn (nx nu ny : Z) (d : ldict) (line0 : str) (ls : list str) : ldict * res (list str) :=
  let line := strip line0 in
  if existsb (contains line) KEYS then
    if contains line (S_ "Order of continuous states:") then put_op d ls nx (S_ "x") (S_ "x_info")
    else if contains line (S_ "Order of continuous state derivatives:") then put_op d ls nx (S_ "xdot") (S_ "xdot_info")
    else if contains line (S_ "Order of inputs") then put_op d ls nu (S_ "u") (S_ "u_info")
    else if contains line (S_ "Order of outputs") then put_op d ls ny (S_ "y") (S_ "y_info")
    else if contains line (S_ "A:") then put_mat d ls nx (S_ "A")
    else if contains line (S_ "B:") then put_mat d ls nx (S_ "B")
    else if contains line (S_ "C:") then put_mat d ls ny (S_ "C")
    else if contains line (S_ "D:") then put_mat d ls ny (S_ "D")
    else if contains line (S_ "dUdu:") then put_mat d ls nu (S_ "dUdu")
    else if contains line (S_ "dUdy:") then put_mat d ls nu (S_ "dUdy")
    else if contains line (S_ "ED M:") then put_mat (put d (S_ "EDDOF") (Words (split_ws (skipn 5 line)))) ls 24 (S_ "M")
    else (d, Ok ls)
  else (d, Ok ls).
(** [fuel]: every turn consumes a line *)
Fixpoint scan (fuel : nat) (nx nu ny : Z) (d : ldict) (ls : list str) : ldict * res unit :=
  match ls with
  | [] => (d, Ok tt)
  | l :: r => match fuel with
              | O => (d, Err OutOfFuel)
              | S fuel' => match turn nx nu ny d l r with (d', Ok r') => scan fuel' nx nu ny d' r' | (d', Err e) => (d', Err e) end
              end
  end.
(** _read (fast_linearization_file.py:43-149) *)
Definition lin_read (d0 : ldict) (text : str) : ldict * res unit :=
  let d1 := put d0 (S_ "header") (Lines []) in
  match readToMarker (S_ "Jacobians included") 30 0 [] None (TS_Model.file_lines text) with
  | Err e => (d1, Err e)
  | Ok (hs, lastLine, rest) =>
    let header := hs ++ [lastLine] in
    let d2 := put d1 (S_ "header") (Lines header) in
    match
      nx <- (w <- extractVal header (S_ "Number of continuous states:") ;; int_of w) ;;
      _ <- (w <- extractVal header (S_ "Number of discrete states:") ;; int_of w) ;;
      _ <- (w <- extractVal header (S_ "Number of constraint states:") ;; int_of w) ;;
      nu <- (w <- extractVal header (S_ "Number of inputs:") ;; int_of w) ;;
      ny <- (w <- extractVal header (S_ "Number of outputs:") ;; int_of w) ;;
      _ <- extractVal header (S_ "Jacobians included in this file?") ;; Ok (nx, nu, ny)
    with
    | Err e => (d2, Err e)
    | Ok (nx, nu, ny) =>
      let d3 := put d2 (S_ "Azimuth") (float_or_none (extractVal header (S_ "Azimuth:"))) in
      let d4 := put d3 (S_ "RotSpeed") (float_or_none (extractVal header (S_ "Rotor Speed:"))) in
      let d5 := put d4 (S_ "WindSpeed") (float_or_none (extractVal header (S_ "Wind Speed:"))) in
      scan (List.length rest) nx nu ny d5 rest
    end
  end.
End Lin.
Arguments lval : clear implicits.
Arguments info : clear implicits.

(** ** Short names (fast_linearization_file.py:159-291) *)
Definition reps (l : list (string * string)) (s : str) : str := fold_left (fun s p => Tecplot_Model.replace_ (S_ (fst p)) (S_ (snd p)) s) l s.
(** [re.sub(r'\([^)]*\)','',s)]: from an opening parenthesis to the first closing one *)
Fixpoint to_close (s : str) : option str := match s with [] => None | c :: s' => if chr_eqb c (ch 41) then Some s' else to_close s' end.
Fixpoint no_parens (fuel : nat) (s : str) : str :=
  match fuel with
  | O => s
  | S fuel' => match s with
               | [] => []
               | c :: s' => if chr_eqb c (ch 40) then match to_close s' with Some r => no_parens fuel' r | None => c :: no_parens fuel' s' end else c :: no_parens fuel' s'
               end
  end.
(** [s.count(t)]: occurrences that do not overlap *)
Fixpoint count_from (skip : nat) (s t : str) : nat :=
  match s with
  | [] => 0
  | _ :: s' => match skip with S k => count_from k s' t | O => if startswith s t then S (count_from (List.length t - 1) s' t) else count_from 0 s' t end
  end.
Definition units1 : list (string * string) :=
  [("(m/s)","_[m/s]");("(kW)","_[kW]");("(deg)","_[deg]");("(N)","_[N]");("(kN-m)","_[kNm]");("(N-m)","_[Nm]");("(kN)","_[kN]");("(rpm)","_[rpm]");("(rad)","_[rad]");("(rad/s)","_[rad/s]");
   ("(rad/s^2)","_[rad/s^2]");("(m/s^2)","_[m/s^2]");("(deg/s^2)","_[deg/s^2]");("(m)","_[m]");(", m/s/s","_[m/s^2]");(", m/s^2","_[m/s^2]");(", m/s","_[m/s]");(", m","_[m]");(", rad/s/s","_[rad/s^2]");
   (", rad/s^2","_[rad/s^2]");(", rad/s","_[rad/s]");(", rad","_[rad]");(", -","_[-]");(", Nm/m","_[Nm/m]");(", Nm","_[Nm]");(", N/m","_[N/m]");(", N","_[N]");("(1)","1");("(2)","2");("(3)","3")]%string.
Definition names1 : list (string * string) := [("ED ","");("BD_","BD_B");("IfW ","");("Extended input: ","");("1st tower ","qt1");("2nd tower ","qt2")]%string.
Definition names2 : list (string * string) :=
  [("Variable speed generator DOF ","psi_rot");("fore-aft bending mode DOF ","FA");("side-to-side bending mode DOF","SS");("bending-mode DOF of blade ","");(" rotational-flexibility DOF, rad","-ROT");
   ("rotational displacement in ","rot");("Drivetrain","DT");("translational displacement in ","trans");("finite element node ","N");("-component position of node ","posN");("-component inflow on tower node","TwrN");
   ("-component inflow on blade 1, node","Bld1N");("-component inflow on blade 2, node","Bld2N");("-component inflow on blade 3, node","Bld3N");("-component inflow velocity at node","N");
   ("X translation displacement, node","TxN");("Y translation displacement, node","TyN");("Z translation displacement, node","TzN");("X translation velocity, node","TVxN");("Y translation velocity, node","TVyN");
   ("Z translation velocity, node","TVzN");("X translation acceleration, node","TAxN");("Y translation acceleration, node","TAyN");("Z translation acceleration, node","TAzN");("X orientation angle, node","RxN");
   ("Y orientation angle, node","RyN");("Z orientation angle, node","RzN");("X rotation velocity, node","RVxN");("Y rotation velocity, node","RVyN");("Z rotation velocity, node","RVzN");
   ("X rotation acceleration, node","RAxN");("Y rotation acceleration, node","RAyN");("Z rotation acceleration, node","RAzN");("X force, node","FxN");("Y force, node","FyN");("Z force, node","FzN");
   ("X moment, node","MxN");("Y moment, node","MyN");("Z moment, node","MzN");("FX","Fx");("FY","Fy");("FZ","Fz");("MX","Mx");("MY","My");("MZ","Mz");("FKX","FKx");("FKY","FKy");("FKZ","FKz");
   ("MKX","MKx");("MKY","MKy");("MKZ","MKz");("Nodes motion","");("cosine","cos");("sine","sin");("collective","coll.");("Blade","Bld");("rotZ","TORS-R");("transX","FLAP-D");("transY","EDGE-D");
   ("rotX","EDGE-R");("rotY","FLAP-R");("flapwise","FLAP");("edgewise","EDGE");("horizontal surge translation DOF","Surge");("horizontal sway translation DOF","Sway");("vertical heave translation DOF","Heave");
   ("roll tilt rotation DOF","Roll");("pitch tilt rotation DOF","Pitch");("yaw rotation DOF","Yaw");("vertical power-law shear exponent","alpha");("horizontal wind speed ","WS");("propagation direction","WD");
   (" pitch command","pitch");("HSS_","HSS");("Bld","B");("tower","Twr");("Tower","Twr");("Nacelle","Nac");("Platform","Ptfm");("SrvD","SvD");("Generator torque","Qgen");
   ("coll. blade-pitch command","PitchColl");("wave elevation at platform ref point","WaveElevRefPoint");("1)","1");("2)","2");("3)","3");(",","");(" ","")]%string.
Definition derivative : str := S_ "First time derivative of ".
Definition shortname (s0 : str) : str :=
  let s := reps units1 (strip s0) in
  let s := no_parens (List.length s) s in
  let s := reps names1 s in
  let nd := count_from 0 s derivative in
  let s := Tecplot_Model.replace_ derivative [] s in
  let s := if Nat.eqb nd 1 then S_ "d_" ++ strip s else if Nat.eqb nd 2 then S_ "dd_" ++ strip s else s in
  strip (reps names2 s).

(** ** Tables (fast_linearization_file.py:293-353) *)
Section Tables.
Context {V : Type}.
Notation ldict := (@dict (lval V)).
(** A table: the names of its rows (none for the operating points), the names of its columns and the rows *)
Record table := mk_table { tb_index : option (list str); tb_columns : list str; tb_rows : list (list V) }.
(** xdescr, xdotdescr, ydescr, udescr; an entry of another kind is not modelled *)
Definition descr (d : ldict) (k : str) : res (list str) :=
  match get d k with None => Ok [] | Some (Info i) => Ok (map shortname (i_descr i)) | Some _ => Err Unmodelled end.
(** [pd.DataFrame(data=m, index=..., columns=...)]: both numbers of labels have to fit.  A matrix without rows is a vector for
    numpy: not modelled *)
Definition frame (idx cols : list str) (m : list (list V)) : res table :=
  match m with
  | [] => Err Unmodelled
  | _ => if Nat.eqb (List.length m) (List.length idx) && forallb (fun r => Nat.eqb (List.length r) (List.length cols)) m then Ok (mk_table (Some idx) cols m) else Err ValueError
  end.
Definition add_mat (d : ldict) (k : str) (idx cols : list str) (t : list (str * table)) : res (list (str * table)) :=
  match get d k with None => Ok t | Some (Mat m) => f <- frame idx cols m ;; Ok (t ++ [(k, f)]) | Some _ => Err Unmodelled end.
Definition add_vec (d : ldict) (k : str) (cols : list str) (t : list (str * table)) : res (list (str * table)) :=
  match get d k with
  | None => Ok t
  | Some (Vec v) => if Nat.eqb (List.length v) (List.length cols) then Ok (t ++ [(k, mk_table None cols [v])]) else Err ValueError
  | Some _ => Err Unmodelled
  end.
Definition lin_tables (d : ldict) : res (list (str * table)) :=
  x <- descr d (S_ "x_info") ;; xd <- descr d (S_ "xdot_info") ;; y <- descr d (S_ "y_info") ;; u <- descr d (S_ "u_info") ;;
  t <- add_mat d (S_ "A") x x [] ;; t <- add_mat d (S_ "B") x u t ;; t <- add_mat d (S_ "C") y x t ;; t <- add_mat d (S_ "D") y u t ;;
  t <- add_vec d (S_ "x") x t ;; t <- add_vec d (S_ "xdot") xd t ;; t <- add_vec d (S_ "u") u t ;; t <- add_vec d (S_ "y") y t ;;
  t <- match get d (S_ "M") with
       | None => Ok t
       | Some _ => match get d (S_ "EDDOF") with Some (Words w) => add_mat d (S_ "M") w w t | None => Err KeyError | Some _ => Err Unmodelled end
       end ;;
  t <- add_mat d (S_ "dUdu") u u t ;; add_mat d (S_ "dUdy") u y t.
End Tables.
Arguments table : clear implicits.
