(** Model of the data frames of AeroDyn blades and polars (weio/fast_input_file.py:1418-1473, 1590-1631), which extend those of the base class
    (fast_input_file.py:756-827).
    SIMPLIFICATIONS: numbers are exact rationals; pi, the cosine and the sine are given; None is a value that is not a number; tables of mixed type and
    BeamDyn sections, two columns of the same name, and columns of the file with the name of an added column are not modelled.  The length of 15% of
    the span, int(len*0.15), is taken exactly (the product in floating point is rounded to the integer when it is one). *)
From Verif Require Import Py FASTIn_Model FASTTab_Model FASTFile_Model FASTSpec_Model.
From Verif Require Import Dict.
From Coq Require Import QArith.
Local Open Scope nat_scope.

Definition frame_ := (list str * list (list Q))%type.
Definition oframe := (list str * list (list (option Q)))%type.
Local Notation ent := (FASTFile_Model.entry Q).

Section Aero.
Variables (pi : Q) (cos sin : Q -> Q).
(** The number in an entry *)
Inductive numv := KNum (q : Q) | KNan | KText | KOther.
Variable number : val -> numv.
Definition value (v : val) : option Q := match number v with KNum q => Some q | _ => None end.

(** The frames of the tables, by label (fast_input_file.py:756-827) *)
Fixpoint base_frames (es l : list ent) (acc : @dict frame_) : res (@dict frame_) :=
  match l with
  | [] => Ok acc
  | Tab lab _ _ _ (Nums rows) (Some names) units :: l' =>
      f <- base_frame value es names units rows ;;
      base_frames es l' (if str_eqb lab (S_ "DampingCoeffs") then acc else put acc lab f)
  | Tab _ _ _ _ _ _ _ :: _ | Beam _ :: _ => Err Unmodelled
  | _ :: l' => base_frames es l' acc
  end.

(** ** Blades (fast_input_file.py:1418-1473) *)
Local Open Scope Q_scope.
Definition rad (a : Q) : Q := a * pi / 180.
Definition qn (n : nat) : Q := inject_Z (Z.of_nat n).
Definition n15 (L : nat) : nat := ((3 * L) / 20)%nat.
(** np.linspace(0.5, 0.25, n) *)
Definition linspace_ac (n i : nat) : Q := if (n =? 1)%nat then 1 # 2 else (1 # 2) + qn i * (((1 # 4) - (1 # 2)) / qn (n - 1)).
Definition ac_loc (L i : nat) : Q := if (i <? n15 L)%nat then linspace_ac (n15 L) i else 1 # 4.
Definition AD_COLS : list str := map S_ ["c2_Crv_Approx_[m]"; "c2_Swp_Approx_[m]"; "AC_Approx_[-]"]%string.
Definition taken (new cols : list str) : bool := existsb (fun c => existsb (str_eqb c) cols) new.
(** [r]: a row of the table; [r']: the same row in the frame *)
Definition ad_row (L i : nat) (r r' : list Q) : res (list Q) :=
  ch <- cell_at 5 r ;; tw <- cell_at 4 r ;; crv <- cell_at 1 r ;; swp <- cell_at 2 r ;;
  let dx := ch * ((1 # 2) - ac_loc L i) * sin (rad tw) in
  let dy := ch * ((1 # 2) - ac_loc L i) * cos (rad tw) in
  Ok (r' ++ [crv + dx; swp + dy; ac_loc L i]).
Fixpoint ad_rows (L i : nat) (rows rows' : list (list Q)) : res (list (list Q)) :=
  match rows, rows' with
  | r :: rows, r' :: rows' => x <- ad_row L i r r' ;; xs <- ad_rows L (S i) rows rows' ;; Ok (x :: xs)
  | [], [] => Ok []
  | _, _ => Err Unmodelled
  end.
Definition ad_blade (es : list ent) : res frame_ :=
  dfs <- base_frames es es [] ;;
  match dfs with
  | [(_, (cols, rows'))] =>
      match find_entry es (S_ "BldAeroNodes") with
      | None => Err KeyError
      | Some (Tab _ _ _ _ (Nums rows) (Some names) _) =>
          if (width names rows <? 6)%nat then Err IndexError
          else if taken AD_COLS cols then Err Unmodelled
          else new <- ad_rows (List.length rows) 0 rows rows' ;; Ok (cols ++ AD_COLS, new)
      | Some _ => Err Unmodelled
      end
  | _ => Err Unmodelled
  end.

(** ** Polars (fast_input_file.py:1590-1631) *)
Definition lookup (es : list ent) (k : str) : res numv :=
  match find_entry es k with None => Err KeyError | Some (Item d) => Ok (number (it_value d)) | Some _ => Ok KOther end.
(** A number in an expression with arrays; lists are not modelled *)
Definition scalar (v : numv) : res (option Q) :=
  match v with KNum q => Ok (Some q) | KNan => Ok None | KText => Err TypeError | KOther => Err Unmodelled end.
(** df[name].values *)
Definition column (cols : list str) (rows : list (list Q)) (name : str) : res (list Q) :=
  match filter (str_eqb name) cols, position name cols with
  | [], _ | _, None => Err KeyError
  | [_], Some i => mapM (cell_at i) rows
  | _, _ => Err Unmodelled
  end.
(** np.where(alpha<v)[0][-1] *)
Fixpoint last_below (v : Q) (i : nat) (l : list Q) : option nat :=
  match l with
  | [] => None
  | a :: l' => match last_below v (S i) l' with Some j => Some j | None => if Qle_bool v a then None else Some i end
  end.
Definition bound (es : list ent) (ts : list Q) (k : str) : option nat :=
  match lookup es k with Ok (KNum q) => last_below (rad q) 0 ts | _ => None end.
Definition POLAR_COLS : list str := map S_ ["Cn_[-]"; "Cn_Cd0off_[-]"; "Cn_pot_[-]"]%string.
Definition POINTS : str := S_ "Cn_012_[-]".
Definition two_from (i j : nat) : bool := ((j =? i) || (j =? i + 1))%nat.
Definition qlt (a b : Q) : bool := negb (Qle_bool b a).
Definition polar_row (cd0 c a0 : option Q) (pts : option (nat * nat * nat)) (i : nat) (t cl cd : Q) (r : list Q) : list (option Q) :=
  let cn := cl * cos t + cd * sin t in
  map Some r ++
  [ Some cn;
    match cd0 with Some d => Some (cl * cos t + (cd - d) * sin t) | None => None end;
    if qlt t (rad (- (20))) || qlt (rad 30) t then None else match c, a0 with Some c, Some a0 => Some (c * (t - rad a0)) | _, _ => None end ] ++
  match pts with Some (i2, i1, i0) => [if two_from i2 i || two_from i1 i || two_from i0 i then Some cn else None] | None => [] end.
Fixpoint polar_rows (row : nat -> Q -> Q -> Q -> list Q -> list (option Q)) (i : nat) (ts cl cd : list Q) (rows : list (list Q)) : list (list (option Q)) :=
  match ts, cl, cd, rows with
  | t :: ts, l :: cl, d :: cd, r :: rows => row i t l d r :: polar_rows row (S i) ts cl cd rows
  | _, _, _, _ => []
  end.
(** The offset of the labels of a table: what follows the underscore, when there is one *)
Definition lab_offset (k : str) : str := match split_chr "_"%char k with [_; b] => S_ "_" ++ b | _ => [] end.
Definition polar_one (es : list ent) (k : str) (f : frame_) : res oframe :=
  let off := lab_offset k in
  let (cols, rows) := f in
  al <- column cols rows (S_ "Alpha_[deg]") ;; let ts := map rad al in
  cl <- column cols rows (S_ "Cl_[-]") ;; cd <- column cols rows (S_ "Cd_[-]") ;;
  cd0 <- lookup es (S_ "Cd0" ++ off) ;; cd0 <- scalar cd0 ;;
  c <- lookup es (S_ "C_nalpha" ++ off) ;; a0 <- lookup es (S_ "alpha0" ++ off) ;; a0 <- scalar a0 ;; c <- scalar c ;;
  let pts := match bound es ts (S_ "alpha2" ++ off), bound es ts (S_ "alpha1" ++ off), bound es ts (S_ "alpha0" ++ off) with
             | Some i2, Some i1, Some i0 => Some (i2, i1, i0)
             | _, _, _ => None
             end in
  if taken (POINTS :: POLAR_COLS) cols then Err Unmodelled
  else Ok (cols ++ POLAR_COLS ++ match pts with Some _ => [POINTS] | None => [] end, polar_rows (polar_row cd0 c a0 pts) 0 ts cl cd rows).
Inductive polars := One (f : oframe) | Many (l : list (str * oframe)).
Definition polar_frames (es : list ent) : res polars :=
  dfs <- base_frames es es [] ;;
  let dfs := match dfs with [(_, f)] => [(S_ "AFCoeff", f)] | _ => dfs end in
  out <- mapM (fun p => f <- polar_one es (fst p) (snd p) ;; Ok (fst p, f)) dfs ;;
  match out with [(_, f)] => Ok (One f) | _ => Ok (Many out) end.
End Aero.
