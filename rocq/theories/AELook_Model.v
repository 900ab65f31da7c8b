(** Model of the values of an AE file along the blade (weio/wetb/hawc2/ae_file.py:46-80) and of the tables of AE and PC files
    (weio/hawc2_ae_file.py:57-75, weio/hawc2_pc_file.py:58-68).
    SIMPLIFICATIONS: numbers are exact rationals, 1e-4 being 1/10000; a radius is one number (or None), not an array; the warning of
    pc_set_nr is not modelled. *)
From Verif Require Import Py FASTOut_Model HTC_Model AEPC_Model.
From Coq Require Import QArith Qabs.
Local Open Scope nat_scope.

Definition rows := list (list Q).
(** self.ae_sets[set_nr] *)
Definition the_set (sets : list (Z * rows)) (set_nr : Z) : res rows := match zget sets set_nr with Some t => Ok t | None => Err KeyError end.
(** ae_data[:, c] *)
Definition col (t : rows) (c : nat) : list Q := map (fun row => nth c row 0%Q) t.
(** _value, ae_file.py:46-51 *)
Definition value (sets : list (Z * rows)) (radius : option Q) (column : nat) (set_nr : Z) : res (list Q) :=
  t <- the_set sets set_nr ;;
  match radius with
  | None => Ok (col t column)
  | Some r => v <- interp r (columns column t) ;; Ok [v]
  end.
(** chord and thickness, ae_file.py:53-57 *)
Definition chord (sets : list (Z * rows)) (radius : option Q) (set_nr : Z) := value sets radius 1 set_nr.
Definition thickness (sets : list (Z * rows)) (radius : option Q) (set_nr : Z) := value sets radius 2 set_nr.
(** np.argmin: the first of the smallest *)
Fixpoint argmin (l : list Q) : nat :=
  match l with
  | [] => 0
  | x :: l' => if forallb (fun y => Qle_bool x y) l' then 0 else S (argmin l')
  end.
(** np.argmin(np.abs(radii - radius)); an empty table is a ValueError *)
Definition closest (radii : list Q) (r : Q) : res nat :=
  match radii with [] => Err ValueError | _ => Ok (argmin (map (fun x => Qabs (x - r)) radii)) end.
(** radius_ae, ae_file.py:59-64: [if radius] is false for None and for zero *)
Definition radius_ae (sets : list (Z * rows)) (radius : option Q) (set_nr : Z) : res (list Q) :=
  t <- the_set sets set_nr ;;
  let radii := col t 0 in
  match radius with
  | Some r => if Qeq_bool r 0 then Ok radii else i <- closest radii r ;; Ok [nth i radii 0%Q]
  | None => Ok radii
  end.
(** np.max *)
Fixpoint maximum (m : Q) (l : list Q) : Q :=
  match l with [] => m | y :: l' => maximum (if Qle_bool m y then y else m) l' end.
(** pc_set_nr, ae_file.py:66-80 *)
Definition pc_set_nr (sets : list (Z * rows)) (r : Q) (set_nr : Z) : res Q :=
  t <- the_set sets set_nr ;;
  let radii := col t 0 in
  let index := Nat.max 1 (searchsorted radii r) in
  match radii with
  | [] => Err ValueError
  | x :: radii' =>
      let maxRad := maximum x radii' in
      i <- closest radii r ;;
      if negb (Qle_bool ((1 # 10000) * maxRad) (Qabs (nth i radii 0 - r)))%Q then Ok (nth i (col t 3) 0%Q)
      else Ok (nth (index - 1) (col t 3) 0%Q)
  end.

(** ** Tables *)
Inductive tables := OneTable (t : rows) | Tables (l : list (str * rows)).
(** HAWC2AEFile.toDataFrame, hawc2_ae_file.py:57-67 *)
Definition ae_tables (sets : list (Z * rows)) : res tables :=
  if List.length sets =? 1 then t <- the_set sets 1 ;; Ok (OneTable t)
  else
    l <- map_res (fun i => t <- the_set sets (Z.of_nat i + 1) ;; Ok (S_ "ae_set_" ++ str_of_N (N.of_nat (i + 1)), t)) (seq 0 (List.length sets)) ;;
    Ok (Tables l).
(** The property sets of HAWC2AEFile, hawc2_ae_file.py:69-75 *)
Definition ae_list (sets : list (Z * rows)) : res (list rows) := map_res (fun i => the_set sets (Z.of_nat i + 1)) (seq 0 (List.length sets)).
Section PC.
  (** '{}'.format of a thickness and of the number of a set *)
  Variable fmt : Q -> str.
  Variable fmtz : Z -> str.
  (** The loop over the profiles of one set, hawc2_pc_file.py:64-67 *)
  Fixpoint pc_add (dfs : list (str * rows)) (iset : Z) (vt : list Q) (vpolar : list rows) : res (list (str * rows)) :=
    match vt, vpolar with
    | [], _ => Ok dfs
    | _ :: _, [] => Err IndexError
    | t :: vt', p :: vpolar' => pc_add (dset dfs (S_ "pc_set_" ++ fmtz iset ++ S_ "_t_" ++ fmt t) p) iset vt' vpolar'
    end.
  (** HAWC2PCFile.toDataFrame, hawc2_pc_file.py:58-68 *)
  Fixpoint pc_tables_from (dfs : list (str * rows)) (sets : list (Z * (list Q * list rows))) : res (list (str * rows)) :=
    match sets with
    | [] => Ok dfs
    | (iset, (vt, vpolar)) :: sets' => dfs' <- pc_add dfs iset vt vpolar ;; pc_tables_from dfs' sets'
    end.
  Definition pc_tables := pc_tables_from [].
End PC.
