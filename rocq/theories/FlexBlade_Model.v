(** Model of weio/flex_blade_file.py: FLEX blade files.
    SIMPLIFICATIONS: the file is the list of its lines, without line breaks; beyond the end of the file readline gives an empty text; a double
    is a value of type [V] read by [num] (python's float); a missing value of a data frame (NaN) is [None]. *)
From Verif Require Import Py.
Local Open Scope nat_scope.

Section Blade.
Context {V : Type}.
Variable num : str -> option V.

Record blade := mk_blade { b_version : Z; b_beta : V; b_flap : list V; b_edge : list V; b_tors : list V; b_profile : str; b_data : list (str * list (option V)) }.

(** headers_all (flex_blade_file.py:25-27) *)
Definition headers_all : list str :=
  map S_ ["r_[m]"; "EIFlap_[Nm2]"; "EIEdge_[Nm2]"; "GKt_[Nm2]"; "Mass_[kg/m]"; "Jxx_[kg.m]"; "PreBendFlap_[m]"; "PreBendEdge_[m]";
          "Str.Twist_[deg]"; "PhiOut_[deg]"; "Ycog_[m]"; "Yshc_[m]"; "CalcOutput_[0/1]";
          "Chord_[m]"; "AeroTwist_[deg]"; "RelThickness_[%]"; "AeroCenter_[m]"; "AeroTorsion_[0/1]"; "ProfileSet_[#]"]%string.
(** The names of the columns in the file (flex_blade_file.py:38-67) *)
Definition headers (version : Z) : option (list str * list str) :=
  match version with
  | 0 => Some (map S_ ["r_[m]"; "EIFlap_[Nm2]"; "EIEdge_[Nm2]"; "Mass_[kg/m]"; "Str.Twist_[deg]"; "CalcOutput_[0/1]"; "PreBendFlap_[m]"; "PreBendEdge_[m]"]%string,
               map S_ ["X_BladeRoot_[m]"; "Chord_[m]"; "AeroTwist_[deg]"; "RelThickness_[%]"; "AeroCenter_[m]"]%string)
  | 1 => Some (map S_ ["r_[m]"; "EIFlap_[Nm2]"; "EIEdge_[Nm2]"; "Mass_[kg/m]"; "Str.Twist_[deg]"; "CalcOutput_[0/1]"; "PreBendFlap_[m]"; "PreBendEdge_[m]"]%string,
               map S_ ["X_BladeRoot_[m]"; "Chord_[m]"; "AeroTwist_[deg]"; "RelThickness_[%]"; "AeroCenter_[m]"; "AeroTorsion_[0/1]"]%string)
  | 2 => Some (map S_ ["r_[m]"; "EIFlap_[Nm2]"; "EIEdge_[Nm2]"; "Mass_[kg/m]"; "Str.Twist_[deg]"; "CalcOutput_[0/1]"; "PreBendFlap_[m]"; "PreBendEdge_[m]"; "GKt_[Nm2]"]%string,
               map S_ ["X_BladeRoot_[m]"; "Chord_[m]"; "AeroTwist_[deg]"; "RelThickness_[%]"; "AeroCenter_[m]"; "AeroTorsion_[0/1]"; "ProfileSet_[#]"]%string)
  | 3 => Some (map S_ ["r_[m]"; "EIFlap_[Nm2]"; "EIEdge_[Nm2]"; "GKt_[Nm2]"; "Mass_[kg/m]"; "Jxx_[kg.m]"; "PreBendFlap_[m]"; "PreBendEdge_[m]"; "Str.Twist_[deg]"; "PhiOut_[deg]"; "Ycog_[m]"; "Yshc_[m]"; "CalcOutput_[0/1]"]%string,
               map S_ ["X_BladeRoot_[m]"; "Chord_[m]"; "AeroTwist_[deg]"; "RelThickness_[%]"; "AeroCenter_[m]"; "AeroTorsion_[0/1]"; "ProfileSet_[#]"]%string)
  | _ => None
  end%Z.
Fixpoint floats (ws : list str) : res (list V) := match ws with [] => Ok [] | w :: ws' => match num w with Some v => vs <- floats ws' ;; Ok (v :: vs) | None => Err ValueError end end.
(** struct[iSec,:] = np.array(vals[0:n]).astype(float) (lines 77-80, 110-112): one value fills the row. *)
Definition row (n : nat) (line : str) : res (list V) :=
  vs <- floats (firstn n (split_ws line)) ;;
  if Nat.eqb (List.length vs) n then Ok vs else match vs with [v] => Ok (repeat v n) | _ => Err ValueError end.
Definition line_at (lines : list str) : str := hd [] lines.
(** The rows of all sections, and the lines after them *)
Fixpoint rows (k n : nat) (lines : list str) : res (list (list V) * list str) :=
  match k with O => Ok ([], lines) | S k' => r <- row n (line_at lines) ;; '(rs, rest) <- rows k' n (tl lines) ;; Ok (r :: rs, rest) end.
(** float(f.readline().strip().split()[0]) *)
Definition first_float (line : str) : res V := match split_ws (strip line) with w :: _ => match num w with Some v => Ok v | None => Err ValueError end | [] => Err IndexError end.
Definition as_wrong {A} (r : res A) : res A := match r with Ok a => Ok a | Err _ => Err WrongFormatError end.
(** [float(v) for v in f.readline().strip().split(';')[0].split()] *)
Definition semi (line : str) : res (list V) := floats (split_ws (hd [] (split_chr (ch 59) (strip line)))).
(** The damping (flex_blade_file.py:91-106), and the lines after it *)
Definition damping (version : Z) (lines : list str) : res (V * list V * list V * list V * list str) :=
  b <- first_float (line_at lines) ;;
  let l := tl lines in
  if Z.eqb version 3 then
    let l := tl l in
    f <- semi (line_at l) ;; e <- semi (line_at (tl l)) ;; t <- semi (line_at (tl (tl l))) ;;
    Ok (b, f, e, t, tl (tl (tl (tl (tl l)))))
  else
    d <- floats (firstn 4 (split_ws (strip (line_at l)))) ;;
    Ok (b, firstn 2 d, firstn 2 (skipn 2 d), [], tl l).
(** The column [j] of rows *)
Definition nth_col (j : nat) (rs : list (list V)) : list (option V) := map (fun r => nth_error r j) rs.
Fixpoint position (c : str) (l : list str) (i : nat) : option nat := match l with [] => None | x :: l' => if str_eqb x c then Some i else position c l' (S i) end.
(** The data frame with all columns (flex_blade_file.py:119-127): those that are not in the file have missing values *)
Definition frame (cols : list str) (data : list (list V)) : list (str * list (option V)) :=
  map (fun c => (c, match position c cols 0 with Some j => nth_col j data | None => map (fun _ => None) data end)) headers_all.
(** FLEXBladeFile._read (flex_blade_file.py:24-127) *)
Definition read (file : list str) : res blade :=
  let firstline := strip (hd [] file) in
  match split_ws (strip (line_at (tl file))) with
  | [] => Err WrongFormatError
  | w :: _ =>
    nSections <- as_wrong (int_ w) ;;
    let version := match int_ (firstn 3 (skipn 1 firstline)) with Ok z => z | Err _ => 0%Z end in
    match headers version with
    | None => Err BrokenFormatError
    | Some (sh, ah) =>
      if (nSections <? 0)%Z then Err ValueError
      else
        let n := Z.to_nat nSections in
        '(st, rest) <- as_wrong (rows n (List.length sh) (tl (tl file))) ;;
        '(b, f, e, t, rest) <- damping version rest ;;
        '(ae, rest) <- as_wrong (rows n (List.length ah) rest) ;;
        Ok (mk_blade version b f e t (strip (line_at rest)) (frame (sh ++ tl ah) (map (fun p => fst p ++ tl (snd p)) (combine st ae))))
    end
  end.
End Blade.
