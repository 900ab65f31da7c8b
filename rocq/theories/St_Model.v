(** Model of HAWC2 st files (structural data of beam elements): weio/wetb/hawc2/st_file.py and weio/hawc2_st_file.py.
    SIMPLIFICATIONS: lines end with a newline character (python translates the other endings when it reads); a double is a value of
    type [V] read by [num] (python's float), exact rationals in the part about interpolation and stiffness; an array is the list of
    its rows, and an array without rows is the list without elements (numpy then has only one dimension). *)
From Verif Require Import Py AEPC_Model.
From Coq Require Import QArith.
Local Open Scope nat_scope.

(** Column names (st_file.py:11-13) *)
Definition stc : list str := split_ws (S_ "r m x_cg y_cg ri_x ri_y x_sh y_sh E G I_x I_y I_p k_x k_y A pitch x_e y_e").
Definition fpm : list str := split_ws (S_ "r m x_cg y_cg ri_x ri_y pitch x_e y_e K_11 K_12 K_13 K_14 K_15 K_16 K_22"
  ++ S_ " K_23 K_24 K_25 K_26 K_33 K_34 K_35 K_36 K_44 K_45 K_46 K_55 K_56 K_66").

(** The object: main_data_sets and cols (absent in an object that was created without a file) *)
Definition array V := list (list V).
Record st V := mk_st { main : list (Z * list (Z * array V)); cols : option (list str) }.
Arguments mk_st {V}. Arguments main {V}. Arguments cols {V}.

Section Text.
Context {V : Type}.
Variable num : str -> option V.

(** ** Reading (st_file.py:66-107) *)
(** The first two integers of the line of a set (st_file.py:85) *)
Definition two_ints (l : str) : res (Z * Z) :=
  match split_ws l with
  | a :: b :: _ => x <- int_ a ;; y <- int_ b ;; Ok (x, y)
  | _ => Err ValueError
  end.
(** The words of the rows (st_file.py:90) *)
Fixpoint words (lines : list str) (idx : list nat) : res (list (list str)) :=
  match idx with
  | [] => Ok []
  | i :: idx' => match nth_error lines i with
                 | Some l => ws <- words lines idx' ;; Ok (split_ws (hd [] (split_chr (ch 59) l)) :: ws)
                 | None => Err IndexError
                 end
  end.
(** [np.array(linelst, dtype=float)] (st_file.py:95): rows of different lengths are a ValueError *)
Fixpoint floats (ws : list str) : option (list V) := match ws with [] => Some [] | w :: ws' => match num w, floats ws' with Some x, Some xs => Some (x :: xs) | _, _ => None end end.
Fixpoint rows_of (ls : list (list str)) : option (array V) := match ls with [] => Some [] | l :: ls' => match floats l, rows_of ls' with Some x, Some xs => Some (x :: xs) | _, _ => None end end.
Definition to_array (ls : list (list str)) : res (array V) :=
  if forallb (fun l => Nat.eqb (List.length l) (List.length (hd [] ls))) ls
  then match rows_of ls with Some m => Ok m | None => Err ValueError end
  else Err ValueError.
(** One set (st_file.py:84-95); the words of the last set stay in [linelst] *)
Definition read_set (d : list (Z * array V)) (set_txt : str) : res (list (Z * array V) * list (list str)) :=
  let lines := split_chr nl set_txt in
  '(nr, rows) <- two_ints (hd [] lines) ;;
  if zmem d nr then Err AssertionError else
  linelst <- words lines (seq 1 (Z.to_nat rows)) ;;
  a <- to_array linelst ;;
  Ok (zset d nr a, linelst).
Fixpoint read_sets (d : list (Z * array V)) (last : option (list (list str))) (sets : list str) : res (list (Z * array V) * option (list (list str))) :=
  match sets with
  | [] => Ok (d, last)
  | s :: sets' => '(d', l) <- read_set d s ;; read_sets d' (Some l) sets'
  end.
(** One main set (st_file.py:79-96) *)
Definition read_main (m : list (Z * list (Z * array V))) (last : option (list (list str))) (mset : str) :=
  match split_ws (strip mset) with
  | [] => Err IndexError
  | w :: _ =>
      nr <- int_ w ;;
      '(d, last') <- read_sets [] last (tl (split_chr (ch 36) mset)) ;;
      Ok (zset m nr d, last')
  end.
Fixpoint read_mains (m : list (Z * list (Z * array V))) (last : option (list (list str))) (msets : list str) :=
  match msets with
  | [] => Ok (m, last)
  | s :: msets' => '(m', last') <- read_main m last s ;; read_mains m' last' msets'
  end.
(** StFile(filename) (st_file.py:78-107) *)
Definition read_st (txt : str) : res (st V) :=
  '(m, last) <- read_mains [] None (tl (split_chr (ch 35) txt)) ;;
  match last with
  | None => Err UnboundLocalError
  | Some [] => Err IndexError
  | Some (l :: _) =>
      if Nat.eqb (List.length l) (List.length stc) then Ok (mk_st m (Some stc))
      else if Nat.eqb (List.length l) (List.length fpm) then Ok (mk_st m (Some fpm))
      else Err TypeError
  end.
(** HAWC2StFile._read (hawc2_st_file.py:27-41): the first thirteen lines *)
Definition looks_like (txt : str) : bool :=
  let ls := firstn 13 (split_chr nl txt) in
  existsb (fun l => startswith l (S_ "#")) ls && existsb (fun l => startswith l (S_ "$")) ls.
Definition read (txt : str) : res (st V) := if looks_like txt then read_st txt else Err WrongFormatError.

(** ** Writing (st_file.py:121-161).  [fmt] is the format of a number, [one] the number 1 *)
Variable fmt : V -> str.
Variable one : V.
Definition to_str (a : array V) : str := join [nl] (map (fun row => List.concat (map fmt row)) a).
(** str.center: python puts the extra blank on the left when both the number of blanks and the width are odd *)
Definition center (w : nat) (s : str) : str :=
  let n := w - List.length s in
  let left := n / 2 + (if Nat.odd n && Nat.odd w then 1 else 0) in
  repeat sp left ++ s ++ repeat sp (n - left).
(** The columns of an object without cols (st_file.py:135-142); the first row of the array gives its shape *)
Definition zfind {A} (d : list (Z * A)) (k : Z) : res A := match zget d k with Some v => Ok v | None => Err KeyError end.
Definition width (a : array V) : res nat := match a with [] => Err IndexError | r :: _ => Ok (List.length r) end.
Definition default_cols (o : st V) : res (list str) :=
  match cols o with
  | Some c => Ok c
  | None =>
      d <- zfind (main o) 1%Z ;; a <- zfind d 1%Z ;; n <- width a ;;
      if Nat.eqb n 19 then Ok stc else if Nat.eqb n 30 then Ok fpm else Err TypeError
  end.
Definition set_str (head : str) (s : Z * array V) : str :=
  head ++ S_ "$" ++ str_of_Z (fst s) ++ [sp] ++ str_of_N (N.of_nat (List.length (snd s))) ++ [nl] ++ to_str (snd s) ++ [nl].
Definition main_str (head : str) (m : Z * list (Z * array V)) : str :=
  S_ "#" ++ str_of_Z (fst m) ++ S_ " ; set number" ++ [nl] ++ flat_map (set_str head) (snd m).
Definition save (o : st V) : res (st V * str) :=
  c <- default_cols o ;;
  let colwidth := List.length (fmt one) in
  let sep := repeat (ch 61) (colwidth * List.length c) ++ [nl] in
  let colhead := flat_map (center colwidth) c ++ [nl] in
  Ok (mk_st (main o) (Some c),
      str_of_N (N.of_nat (List.length (main o))) ++ S_ " ; number of sets, Nset" ++ [nl] ++ flat_map (main_str (sep ++ colhead ++ sep)) (main o)).

(** ** set_value (st_file.py:125-128): the value is one number, or one number per row *)
Inductive value1 := One (v : V) | Many (vs : list V).
Fixpoint replace_nth (n : nat) (v : V) (r : list V) : list V := match r, n with [], _ => [] | _ :: r', O => v :: r' | x :: r', S n' => x :: replace_nth n' v r' end.
Fixpoint index_of (k : str) (l : list str) : option nat := match l with [] => None | x :: l' => if str_eqb x k then Some 0 else option_map S (index_of k l') end.
Definition assign (a : array V) (c : nat) (v : value1) : res (array V) :=
  n <- width a ;;
  if Nat.leb n c then Err IndexError else
  match v with
  | One x => Ok (map (replace_nth c x) a)
  | Many [x] => Ok (map (replace_nth c x) a)
  | Many xs => if Nat.eqb (List.length xs) (List.length a) then Ok (map (fun p => replace_nth c (snd p) (fst p)) (combine a xs)) else Err ValueError
  end.
Definition set1 (o : st V) (m s : Z) (k : str) (v : value1) : res (st V) :=
  match cols o with
  | None => Err AttributeError
  | Some cs =>
      match index_of k cs with
      | None => Err ValueError
      | Some c => d <- zfind (main o) m ;; a <- zfind d s ;; a' <- assign a c v ;; Ok (mk_st (zset (main o) m (zset d s a')) (cols o))
      end
  end.
(** The object after the call, and the exception if there was one: columns assigned before it stay assigned *)
Fixpoint set_value (o : st V) (m s : Z) (kw : list (str * value1)) : st V * option exn :=
  match kw with
  | [] => (o, None)
  | (k, v) :: kw' => match set1 o m s k v with Ok o' => set_value o' m s kw' | Err e => (o, Some e) end
  end.

(** ** toDataFrame (hawc2_st_file.py:50-64) *)
Definition col_reg : list str := map S_ ["r_[m]";"m_[kg/m]";"x_cg_[m]";"y_cg_[m]";"ri_x_[m]";"ri_y_[m]";"x_sh_[m]";"y_sh_[m]";"E_[N/m^2]";"G_[N/m^2]";"I_x_[m^4]";"I_y_[m^4]";"I_p_[m^4]";"k_x_[-]";"k_y_[-]";"A_[m^2]";"pitch_[deg]";"x_e_[m]";"y_e_[m]"]%string.
Definition col_fpm : list str := map S_ ["r_[m]";"m_[kg/m]";"x_cg_[m]";"y_cg_[m]";"ri_x_[m]";"ri_y_[m]";"pitch_[deg]";"x_e_[m]";"y_e_[m]";"K11";"K12";"K13";"K14";"K15";"K16";"K22";"K23";"K24";"K25";"K26";"K33";"K34";"K35";"K36";"K44";"K45";"K46";"K55";"K56";"K66"]%string.
Definition frame (a : array V) : res (list str * array V) :=
  n <- width a ;;
  let c := if Nat.eqb n 19 then col_reg else col_fpm in
  if Nat.eqb n (List.length c) then Ok (c, a) else Err ValueError.
Fixpoint mapM {A B} (g : A -> res B) (l : list A) : res (list B) := match l with [] => Ok [] | x :: l' => y <- g x ;; ys <- mapM g l' ;; Ok (y :: ys) end.
Definition key (m s : Z) : str := str_of_Z m ++ S_ "_" ++ str_of_Z s.
(** The pairs in the order in which they are stored: two integers give two different names, so nothing is overwritten *)
Definition toDataFrame (o : st V) : res (list (str * (list str * array V))) :=
  mapM (fun p => f <- frame (snd p) ;; Ok (fst p, f)) (flat_map (fun m => map (fun s => (key (fst m) (fst s), snd s)) (snd m)) (main o)).
End Text.
Arguments value1 : clear implicits.

(** ** Access by name (st_file.py:105-119) *)
Definition column (a : array Q) (c : nat) : res (list (Q * Q)) :=
  n <- width a ;; if Nat.leb n c then Err IndexError else Ok (columns c a).
(** _value for one radius (st_file.py:109-113) *)
Definition value_at (o : st Q) (c : nat) (radius : Q) (m s : Z) : res Q :=
  d <- zfind (main o) m ;; a <- zfind d s ;; t <- column a c ;; interp radius t.
(** The method named after a column; a name that is not a column is an attribute that does not exist *)
Definition method (o : st Q) (name : str) (radius : option Q) (m s : Z) : res (list Q) :=
  match cols o with
  | None => Err AttributeError
  | Some cs =>
      match index_of name cs with
      | None => Err AttributeError
      | Some c =>
          match radius with
          | Some r => v <- value_at o c r m s ;; Ok [v]
          | None => d <- zfind (main o) m ;; a <- zfind d s ;; t <- column a 0 ;; mapM (fun p => value_at o c (fst p) m s) t
          end
      end
  end.
(** radius_st for one radius (st_file.py:115-119): np.argmin gives the first of the smallest *)
Fixpoint nearest (x best : Q) (l : list Q) : Q :=
  match l with
  | [] => best
  | y :: l' => nearest x (if Qle_bool (Qabs.Qabs (best - x)) (Qabs.Qabs (y - x)) then best else y) l'
  end.
Definition radius_st (o : st Q) (radius : Q) (m s : Z) : res Q :=
  d <- zfind (main o) m ;; a <- zfind d s ;; t <- column a 0 ;;
  match map fst t with [] => Err ValueError | r :: l => Ok (nearest radius r l) end.

(** ** Element matrices (st_file.py:163-278) *)
Record beam := mk_beam { ES1 : Q; ES2 : Q; EMOD : Q; GMOD : Q; IX : Q; IY : Q; IZ : Q; KX : Q; KY : Q; AREA : Q }.
Local Open Scope Q_scope.
(** The entries that are assigned (st_file.py:184-230), rows and columns counted from 1; the second assignment of ROY wins *)
Definition etax (b : beam) (L : Q) : Q := EMOD b * IX b / (KY b * GMOD b * AREA b * L ^ 2).
Definition etay (b : beam) (L : Q) : Q := EMOD b * IY b / (KX b * GMOD b * AREA b * L ^ 2).
Definition at_ (i j : nat) (v : Q) : nat * nat * Q := (i, j, v).
Definition upper (b : beam) (L : Q) : list (nat * nat * Q) :=
  let ETAX := etax b L in
  let ETAY := etay b L in
  let ROX := 1 / (1 + 12 * ETAX) in
  let ROY := 1 / (1 + 12 * ETAX) in
  let K1_1 := 12 * EMOD b * IY b * ROY / L ^ 3 in
  let K1_5 := 6 * EMOD b * IY b * ROY / L ^ 2 in
  let K1_6 := - K1_1 * ES2 b in
  let K1_12 := - K1_6 in
  let K2_2 := 12 * EMOD b * IX b * ROX / L ^ 3 in
  let K2_4 := -(6) * EMOD b * IX b * ROX / L ^ 2 in
  let K2_6 := K2_2 * ES1 b in
  let K2_12 := - K2_6 in
  let K3_3 := AREA b * EMOD b / L in
  let K4_4 := 4 * EMOD b * IX b * (1 + 3 * ETAX) * ROX / L in
  let K4_6 := K2_4 * ES1 b in
  let K4_12 := - K4_6 in
  let K5_5 := 4 * EMOD b * IY b * (1 + 3 * ETAY) * ROY / L in
  let K5_6 := - K1_5 * ES2 b in
  let K5_12 := - K5_6 in
  let K6_6 := GMOD b * IZ b / L + 12 * EMOD b * (IX b * ES1 b ^ 2 * ROX + IY b * ES2 b ^ 2 * ROY) / L ^ 3 in
  [at_ 1 1 K1_1; at_ 1 5 K1_5; at_ 1 6 K1_6; at_ 1 7 (- K1_1); at_ 1 11 K1_5; at_ 1 12 K1_12;
   at_ 2 2 K2_2; at_ 2 4 K2_4; at_ 2 6 K2_6; at_ 2 8 (- K2_2); at_ 2 10 K2_4; at_ 2 12 K2_12;
   at_ 3 3 K3_3; at_ 3 9 (- K3_3);
   at_ 4 4 K4_4; at_ 4 6 K4_6; at_ 4 8 (- K2_4); at_ 4 10 (2 * EMOD b * IX b * (1 - 6 * ETAX) * ROX / L); at_ 4 12 K4_12;
   at_ 5 5 K5_5; at_ 5 6 K5_6; at_ 5 7 (- K1_5); at_ 5 11 (2 * EMOD b * IY b * (1 - 6 * ETAY) * ROY / L); at_ 5 12 K5_12;
   at_ 6 6 K6_6; at_ 6 7 K1_12; at_ 6 8 K2_12; at_ 6 10 (- K4_12); at_ 6 11 (- K5_12); at_ 6 12 (- K6_6);
   at_ 7 7 K1_1; at_ 7 11 (- K1_5); at_ 7 12 K1_6;
   at_ 8 8 K2_2; at_ 8 10 (- K2_4); at_ 8 12 K2_6;
   at_ 9 9 K3_3;
   at_ 10 10 K4_4; at_ 10 12 (- K4_6);
   at_ 11 11 K5_5; at_ 11 12 (- K5_6);
   at_ 12 12 K6_6].
Definition entry (l : list (nat * nat * Q)) (i j : nat) : Q :=
  match find (fun e => Nat.eqb (fst (fst e)) i && Nat.eqb (snd (fst e)) j) l with Some e => snd e | None => 0 end.
(** [K + K.T - np.eye(12)*K] (st_file.py:231-232), rows and columns counted from 1 *)
Definition stiffness (b : beam) (L : Q) (i j : nat) : Q :=
  let K := entry (upper b L) in K i j + K j i - (if Nat.eqb i j then K i j else 0).

(** shape_function_ori (st_file.py:241-278): the matrix before it is transposed, a row for each of the twelve degrees of freedom *)
Definition shape (b : beam) (length z : Q) : list (list Q) :=
  let etax := EMOD b * IX b / KY b / GMOD b / AREA b / (length ^ 2) in
  let etay := EMOD b * IY b / KX b / GMOD b / AREA b / (length ^ 2) in
  let rhox := 1 / (1 + 12 * etax) in
  let rhoy := 1 / (1 + 12 * etay) in
  let XSC := ES1 b in let YSC := ES2 b in
  let f1 := z / length in
  let f2 := 1 - f1 in
  let f3x := f1 * (3 * f1 - 2 * f1 ^ 2 + 12 * etax) * rhox in
  let f4x := f2 * (3 * f2 - 2 * f2 ^ 2 + 12 * etax) * rhox in
  let f5x := length * (f1 ^ 2 - (1 - 6 * etax) * f1 - 6 * etax) * f1 * rhox in
  let f6x := length * (f2 ^ 2 - (1 - 6 * etax) * f2 - 6 * etax) * f2 * rhox in
  let f7x := 6 / length * f1 * f2 * rhox in
  let f8x := f1 * (3 * f1 - 2 * (1 - 6 * etax)) * rhox in
  let f9x := f2 * (3 * f2 - 2 * (1 - 6 * etax)) * rhox in
  let f3y := f1 * (3 * f1 - 2 * f1 ^ 2 + 12 * etay) * rhoy in
  let f4y := f2 * (3 * f2 - 2 * f2 ^ 2 + 12 * etay) * rhoy in
  let f5y := length * (f1 ^ 2 - (1 - 6 * etay) * f1 - 6 * etay) * f1 * rhoy in
  let f6y := length * (f2 ^ 2 - (1 - 6 * etay) * f2 - 6 * etay) * f2 * rhoy in
  let f7y := 6 / length * f1 * f2 * rhoy in
  let f8y := f1 * (3 * f1 - 2 * (1 - 6 * etay)) * rhoy in
  let f9y := f2 * (3 * f2 - 2 * (1 - 6 * etay)) * rhoy in
  [[f4y; 0; 0; 0; - f7y; 0];
   [0; f4x; 0; f7x; 0; 0];
   [0; 0; f2; 0; 0; 0];
   [0; f6x; 0; f9x; 0; 0];
   [- f6y; 0; 0; 0; f9y; 0];
   [(f2 - f4y) * YSC; - (f2 - f4x) * XSC; 0; f7x * XSC; f7y * YSC; f2];
   [f3y; 0; 0; 0; f7y; 0];
   [0; f3x; 0; - f7x; 0; 0];
   [0; 0; f1; 0; 0; 0];
   [0; - f5x; 0; f8x; 0; 0];
   [f5y; 0; 0; 0; f8y; 0];
   [(f1 - f3y) * YSC; - (f1 - f3x) * XSC; 0; - f7x * XSC; - f7y * YSC; f1]].
Local Close Scope Q_scope.

(** The properties at a radius (st_file.py:180-181 and 241-242), and nothing at all for the format with 30 columns (st_file.py:175, 238) *)
Definition beam_at (o : st Q) (radius : Q) (m s : Z) : res (option beam) :=
  match cols o with
  | None => Err AttributeError
  | Some cs =>
      if Nat.eqb (List.length cs) 30 then Ok None else
      vs <- mapM (fun n => method o (S_ n) (Some radius) m s) ["x_sh"; "y_sh"; "E"; "G"; "I_x"; "I_y"; "I_p"; "k_x"; "k_y"; "A"]%string ;;
      match List.concat vs with
      | [a; b; c; d; e; f; g; h; i; j] => Ok (Some (mk_beam a b c d e f g h i j))
      | _ => Err ValueError
      end
  end.
Definition element_stiffnessmatrix (o : st Q) (radius : Q) (m s : Z) (length : Q) : res (option (nat -> nat -> Q)) :=
  b <- beam_at o radius m s ;; Ok (option_map (fun b => stiffness b length) b).
Definition shape_function_ori (o : st Q) (radius : Q) (m s : Z) (length z : Q) : res (option (list (list Q))) :=
  b <- beam_at o radius m s ;; Ok (option_map (fun b => shape b length z) b).
