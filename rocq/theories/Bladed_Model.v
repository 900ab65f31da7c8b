(** Model of weio/bladed_out_file.py: Bladed sensor files (.%NN), data files (.$NN), flattening of three-dimensional
    results and grouping of the files of a run into data sets.
    SIMPLIFICATIONS: python's float(), shlex.split, numpy.loadtxt and the text of a section position rounded to two
    decimals are function arguments; infinities and NaNs are None; a text table has at least two rows and two columns
    (numpy.loadtxt drops dimensions of size one); times are exact rationals; a negative number of time steps and
    numbers of dimensions other than 2 and 3 are not modelled. *)
From Verif Require Import Py FS Bytes Float File_Model MannBox_Model Flex_Model Dict.
From Coq Require Import QArith.
Local Open Scope nat_scope.
Local Notation get := Dict.get.

Section Bladed.
Variable float_ : str -> res Q.
Variable shlex : str -> res (list str).
Variable loadtxt : bytes -> res (list (list (option Q))).
Variable around2 : Q -> str.

(** An entry of SectionList: an array of floats (AXIVAL) or of texts (AXITICK) *)
Inductive section := Num (q : Q) | Txt (s : str).
(** The dictionary built from the sensor file; None: no such key *)
Record info := mk_info { i_ndim : option Z; i_nS : option Z; i_nMajor : option Z; i_nSec : option nat; i_secs : option (list section);
  i_prec : option fmt; i_cat : option str; i_chan : option (list str); i_unit : option (list str); i_min : option Q; i_step : option Q }.
Definition no_info : info := mk_info None None None None None None None None None None None.

Definition quote : ascii := ch 39.
(** [s.strip(c)] and [s.split(c + ' ' + c)] for the quote *)
Fixpoint drop_quotes (s : str) : str := match s with c :: s' => if chr_eqb c quote then drop_quotes s' else s | [] => [] end.
Definition strip_quotes (s : str) : str := rev (drop_quotes (rev (drop_quotes s))).
Fixpoint split_quoted (acc : str) (s : str) : list str :=
  match s with
  | x :: t => match t with
              | y :: z :: r => if chr_eqb x quote && chr_eqb y sp && chr_eqb z quote then rev acc :: split_quoted [] r else split_quoted (x :: acc) t
              | _ => split_quoted (x :: acc) t
              end
  | [] => [rev acc]
  end.
(** repUnits (bladed_out_file.py:104-107) *)
Fixpoint replace_TT (s : str) : str :=
  match s with
  | x :: t => match t with
              | y :: r => if chr_eqb x (ch 84) && chr_eqb y (ch 84) then S_ "s^2" ++ replace_TT r else x :: replace_TT t
              | [] => [x]
              end
  | [] => []
  end.
Definition rep_units (s : str) : str :=
  replace_chr (ch 77) (S_ "kg") (replace_chr (ch 70) (S_ "N") (replace_chr (ch 76) (S_ "m") (replace_chr (ch 80) (S_ "W")
  (replace_chr (ch 65) (S_ "rad") (replace_chr (ch 84) (S_ "s") (replace_TT s)))))).

(** [l[i]] with python's negative indices *)
Definition index {A} (l : list A) (i : Z) : res A :=
  let k := if (i <? 0)%Z then (Z.of_nat (List.length l) + i)%Z else i in
  if (k <? 0)%Z then Err IndexError else at_ l (Z.to_nat k).
Fixpoint floats (l : list str) : res (list Q) := match l with [] => Ok [] | w :: l' => q <- float_ w ;; qs <- floats l' ;; Ok (q :: qs) end.
(** The line joined with the next one unless that one starts with [stop] (lines 71-76, 85-90, 96-101) *)
Definition joined (stop : str) (line : str) (next : option str) : str :=
  match next with
  | None => line
  | Some l => let nl_ := strip l in if startswith nl_ stop then line else strip line ++ [sp] ++ nl_
  end.
(** One line of the sensor file (bladed_out_file.py:34-116); [line] after the replacement of tabs *)
Definition sensor_line (d : info) (line : str) (next : option str) : res info :=
  let '(mk_info nd nS nM nSec secs prec cat chan unit mn st) := d in
  if startswith line (S_ "NDIMENS") then
    w <- index (split_ws (skipn 7 line)) (-1) ;; z <- int_ w ;; Ok (mk_info (Some z) nS nM nSec secs prec cat chan unit mn st)
  else if startswith line (S_ "DIMENS") then
    let temp := split_ws (skipn 6 line) in
    w <- index temp 0 ;; z <- int_ w ;;
    match nd with
    | None => Err KeyError
    | Some n => wm <- index temp (n - 1) ;; m <- int_ wm ;;
                if (n =? 2)%Z then Ok (mk_info nd (Some z) (Some m) (Some 1) (Some []) prec cat chan unit mn st)
                else Ok (mk_info nd (Some z) (Some m) nSec secs prec cat chan unit mn st)
    end
  else if startswith line (S_ "FORMAT") then
    match rev (strip (skipn 7 line)) with
    | [] => Err IndexError
    | c :: _ => Ok (mk_info nd nS nM nSec secs (Some (if chr_eqb c (ch 56) then binary64 else binary32)) cat chan unit mn st)
    end
  else if startswith line (S_ "GENLAB") then
    Ok (mk_info nd nS nM nSec secs prec (Some (filter (fun c => negb (chr_eqb c quote)) (strip (skipn 6 line)))) chan unit mn st)
  else if startswith line (S_ "AXIVAL") then
    qs <- floats (split_ws (skipn 7 line)) ;; Ok (mk_info nd nS nM (Some (List.length qs)) (Some (map Num qs)) prec cat chan unit mn st)
  else if startswith line (S_ "AXITICK") then
    let temp := split_quoted [] (strip_quotes (strip (skipn 7 (joined (S_ "AXISLAB") line next)))) in
    Ok (mk_info nd nS nM (Some (List.length temp)) (Some (map Txt temp)) prec cat chan unit mn st)
  else if startswith line (S_ "VARIAB") then
    cs <- shlex (skipn 6 (joined (S_ "VARUNIT") line next)) ;; Ok (mk_info nd nS nM nSec secs prec cat (Some cs) unit mn st)
  else if startswith line (S_ "VARUNIT") then
    us <- shlex (strip (skipn 7 (joined (S_ "AXISLAB") line next))) ;; Ok (mk_info nd nS nM nSec secs prec cat chan (Some (map rep_units us)) mn st)
  else if startswith line (S_ "MIN ") then
    q <- float_ (strip (skipn 3 line)) ;; Ok (mk_info nd nS nM nSec secs prec cat chan unit (Some q) st)
  else if startswith line (S_ "STEP") then
    q <- float_ (strip (skipn 4 line)) ;; Ok (mk_info nd nS nM nSec secs prec cat chan unit mn (Some q))
  else Ok d.
(** The loop over the first 31 lines: [k] lines are left to be read. *)
Fixpoint sensor_loop (k : nat) (d : info) (lines : list str) : res info :=
  match k, lines with
  | S k', l :: rest => d' <- sensor_line d (replace_chr tab [sp] l) (hd_error rest) ;; sensor_loop k' d' rest
  | _, _ => Ok d
  end.
(** read_bladed_sensor_file (bladed_out_file.py:20-129); [lines] from readlines() *)
Record header := mk_header { h_ndim : Z; h_nS : nat; h_nMajor : Z; h_nSec : nat; h_secs : list section; h_prec : option fmt; h_cat : option str;
                             h_chan : list str; h_unit : option (list str); h_min : option Q; h_step : option Q }.
Definition read_sensor_file (lines : list str) : res header :=
  d <- sensor_loop 31 no_info lines ;;
  match i_chan d, i_nS d, i_nMajor d, i_nSec d with
  | Some cs, Some nS, Some nM, Some nSec =>
    if (Z.of_nat (List.length cs) =? nS)%Z then
      match i_ndim d, i_secs d with
      | Some nd, Some secs => Ok (mk_header nd (List.length cs) nM nSec secs (i_prec d) (i_cat d) cs (i_unit d) (i_min d) (i_step d))
      | _, _ => Err Unmodelled           (* not reachable: both are set together with nMajor and nSections *)
      end
    else Err BrokenFormatError
  | _, _, _, _ => Err BrokenFormatError
  end.

(** ** Flattening: OrgData (bladed_out_file.py:131-157) *)
Definition section_value (s : section) : res Q := match s with Num q => Ok q | Txt t => float_ t end.
(** [str(sec)] is only used for texts: float() of a number does not fail *)
Definition section_label (s : section) (chan : str) : res str :=
  match section_value s, s with
  | Ok q, _ => Ok (around2 q ++ S_ "m-" ++ chan)
  | Err ValueError, Txt t => Ok (t ++ S_ "-" ++ chan)
  | Err e, _ => Err e
  end.
Fixpoint labels (s : section) (cs : list str) : res (list str) := match cs with [] => Ok [] | c :: cs' => l <- section_label s c ;; ls <- labels s cs' ;; Ok (l :: ls) end.
Fixpoint all_labels (secs : list section) (cs : list str) : res (list str) := match secs with [] => Ok [] | s :: ss => l <- labels s cs ;; r <- all_labels ss cs ;; Ok (l ++ r) end.
Notation table3 := (list (list (list (option Q)))).
(** One row of the flattened table: the columns written, in order, then the zeros that were not written.
    [data[:,isec,ichan]] with an index out of range raises IndexError. *)
Definition flat_row (nsec nzip ncols : nat) (plane : list (list (option Q))) : list (option Q) :=
  let written := flat_map (fun s => map (fun c => nth c (nth s plane []) None) (seq 0 nzip)) (seq 0 nsec) in
  written ++ repeat (Some 0%Q) (ncols - List.length written).
Definition in_range (nsec nzip : nat) (plane : list (list (option Q))) : bool :=
  Nat.leb nsec (List.length plane) && forallb (fun r => Nat.leb nzip (List.length r)) plane.
Definition org_data (h : header) (data : table3) : res (list (list (option Q)) * list str * list str) :=
  let secs := h_secs h in let cs := h_chan h in
  match secs, h_unit h with
  | _ :: _, None => Err KeyError
  | _, u =>
    let us := match u with Some us => us | None => [] end in
    let nzip := Nat.min (List.length cs) (List.length us) in
    names <- all_labels secs (firstn nzip cs) ;;
    let units := flat_map (fun _ => firstn nzip us) secs in
    if forallb (in_range (List.length secs) nzip) data then
      Ok (map (flat_row (List.length secs) nzip (List.length secs * List.length cs)) data, names, units)
    else Err IndexError
  end.

(** ** Reading one pair of files: read_bladed_output (bladed_out_file.py:161-219) *)
Record table := mk_table { t_rows : list (list (option Q)); t_nMajor : nat; t_names : list str; t_units : option (list str); t_cat : option str; t_min : option Q; t_step : option Q }.
Definition decode_all (f : fmt) (b : bytes) : list (option Q) :=
  let nb := if (prec f =? 24)%Z then 4 else 8 in map (fun w => decode f (unle w)) (items nb b).
(** [np.reshape(data, (nMajor, nSections, nSensors))] *)
Definition reshape3 {A} (n1 n2 n3 : nat) (l : list A) : res (list (list (list A))) :=
  rows <- reshape n1 (n2 * n3) l ;;
  Ok (map (fun r => chunks n2 n3 r) rows).
Definition nans (n1 n2 n3 : nat) : table3 := repeat (repeat (repeat None n3) n2) n1.
Definition flat (h : header) (nM : nat) (data : table3) : res table :=
  '(rows, names, units) <- org_data h data ;; Ok (mk_table rows nM names (Some units) (h_cat h) (h_min h) (h_step h)).
(** None: nothing to return, the file has no time *)
Definition read_output (sensor : res (list str)) (data_file : res bytes) (timeOnly : bool) : res (option table) :=
  lines <- sensor ;;
  h <- read_sensor_file lines ;;
  if timeOnly && match h_step h with None => true | Some _ => false end then Ok None else
  b <- data_file ;;
  if (h_nMajor h <? 0)%Z then Err Unmodelled else
  let nM := Z.to_nat (h_nMajor h) in
  if isBinary (map ascii_of_N b) then
    match h_prec h with
    | None => Err KeyError
    | Some f =>
      let values := decode_all f b in
      if (h_ndim h =? 3)%Z then t <- reshape3 nM (h_nSec h) (h_nS h) values ;; r <- flat h nM t ;; Ok (Some r)
      else if (h_ndim h =? 2)%Z then rows <- reshape nM (h_nS h) values ;; Ok (Some (mk_table rows nM (h_chan h) (h_unit h) (h_cat h) (h_min h) (h_step h)))
      else Err Unmodelled
    end
  else if (h_ndim h =? 2)%Z then rows <- loadtxt b ;; Ok (Some (mk_table rows nM (h_chan h) (h_unit h) (h_cat h) (h_min h) (h_step h)))
  else if (h_ndim h =? 3)%Z then
    let t := match (rows <- loadtxt b ;; reshape3 nM (h_nSec h) (h_nS h) (concat rows)) with Ok t => t | Err _ => nans nM (h_nSec h) (h_nS h) end in
    r <- flat h nM t ;; Ok (Some r)
  else Err UnboundLocalError.

(** ** Grouping the files: BladedFile._read (bladed_out_file.py:266-357) *)
Record dataset := mk_dataset { d_rows : list (list (option Q)); d_sensors : list str; d_units : list str; d_name : str }.
(** [np.column_stack((a, b))] *)
Definition column_stack (a b : list (list (option Q))) : res (list (list (option Q))) :=
  if Nat.eqb (List.length a) (List.length b) then Ok (map (fun p => fst p ++ snd p) (combine a b)) else Err ValueError.
Fixpoint zget {A} (d : list (nat * A)) (k : nat) : option A := match d with [] => None | e :: d' => if Nat.eqb (fst e) k then Some (snd e) else zget d' k end.
Fixpoint zset {A} (d : list (nat * A)) (k : nat) (v : A) : list (nat * A) := match d with [] => [(k, v)] | e :: d' => if Nat.eqb (fst e) k then (k, v) :: d' else e :: zset d' k v end.
Definition need {A} (o : option A) : res A := match o with Some x => Ok x | None => Err KeyError end.
Definition times (nM : nat) (mn st : Q) : list (list (option Q)) := map (fun i => [Some (inject_Z (Z.of_nat i) * st + mn)%Q]) (seq 0 nM).
Definition add_table (sets : list (nat * dataset)) (t : table) : res (list (nat * dataset)) :=
  let key := t_nMajor t in
  match zget sets key with
  | Some ds =>
    rows <- column_stack (d_rows ds) (t_rows t) ;; us <- need (t_units t) ;;
    Ok (zset sets key (mk_dataset rows (d_sensors ds ++ t_names t) (d_units ds ++ us) (S_ "Misc_" ++ str_of_N (N.of_nat key))))
  | None =>
    '(rows, names, units) <- match t_step t with
       | Some st => mn <- need (t_min t) ;; rows <- column_stack (times key mn st) (t_rows t) ;; us <- need (t_units t) ;; Ok (rows, S_ "Time" :: t_names t, S_ "s" :: us)
       | None => us <- need (t_units t) ;; Ok (t_rows t, t_names t, us)
       end ;;
    cat <- need (t_cat t) ;;
    Ok (zset sets key (mk_dataset rows names units cat))
  end.
(** The loop over the files found, in sorted order; [single]: only one file was found *)
Fixpoint group (single timeOnly : bool) (sets : list (nat * dataset)) (files : list (res (list str) * res bytes)) : res (list (nat * dataset)) :=
  match files with
  | [] => Ok sets
  | (s, b) :: files' =>
    match read_output s b timeOnly with
    | Err OSError2 => if single then Err OSError2 else group single timeOnly sets files'
    | Err ValueError => if single then Err ValueError else group single timeOnly sets files'
    | Err e => Err e
    | Ok None => group single timeOnly sets files'
    | Ok (Some t) => if Nat.eqb (List.length (t_rows t)) 0 then group single timeOnly sets files' else sets' <- add_table sets t ;; group single timeOnly sets' files'
    end
  end.
(** Lines 349-357: the data sets under their names *)
Definition is_misc (e : nat * dataset) : bool := startswith (d_name (snd e)) (S_ "Misc_").
Definition publish (sets : list (nat * dataset)) : @dict dataset :=
  match filter is_misc sets with
  | [e] => [(S_ "Misc", snd e)]
  | _ => fold_left (fun d e => put d (d_name (snd e)) (snd e)) sets []
  end.
Definition read_all (timeOnly : bool) (files : list (res (list str) * res bytes)) : res (@dict dataset) :=
  match files with
  | [] => Err OSError2
  | _ => let single := Nat.eqb (List.length files) 1 in
         sets <- group single (timeOnly && negb single) [] files ;; Ok (publish sets)
  end.

(** toDataFrame (bladed_out_file.py:360-372): columns of one data set, the first of the columns with the same title *)
Definition titles (ds : dataset) : list str := map (fun p => fst p ++ S_ " [" ++ snd p ++ S_ "]") (combine (d_sensors ds) (d_units ds)).
Fixpoint kept (seen : list str) (i : nat) (l : list str) : list nat :=
  match l with [] => [] | t :: l' => if existsb (str_eqb t) seen then kept seen (S i) l' else i :: kept (t :: seen) (S i) l' end.
Definition frame (ds : dataset) : res (list str * list (list (option Q))) :=
  let ts := titles ds in
  if forallb (fun r => Nat.eqb (List.length r) (List.length ts)) (d_rows ds) then
    let ks := kept [] 0 ts in Ok (map (fun k => nth k ts []) ks, map (fun r => map (fun k => nth k r None) ks) (d_rows ds))
  else Err ValueError.
End Bladed.
