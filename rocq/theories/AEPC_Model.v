(** Model of weio/wetb/hawc2/ae_file.py (AEFile), weio/wetb/hawc2/pc_file.py (PCFile) and of the accessors of
    weio/hawc2_ae_file.py.
    SIMPLIFICATIONS: set numbers and labels are integers; a table entry is an element of an arbitrary type F
    with the formatting and parsing functions Python would use given as arguments (so the theorems hold for
    every choice); in the interpolation part values are exact rationals. *)
From Verif Require Import Py FS Bytes FASTOut_Model H2io_Model.
From Coq Require Import QArith.
Local Open Scope nat_scope.

(** ** Dictionaries with integer keys (insertion ordered, as Python's dict) *)
Fixpoint zget {V} (d : list (Z * V)) (k : Z) : option V :=
  match d with [] => None | (k', v) :: d' => if (k' =? k)%Z then Some v else zget d' k end.
Fixpoint zset {V} (d : list (Z * V)) (k : Z) (v : V) : list (Z * V) :=
  match d with
  | [] => [(k, v)]
  | (k', v') :: d' => if (k' =? k)%Z then (k', v) :: d' else (k', v') :: zset d' k v
  end.
Definition zmem {V} (d : list (Z * V)) (k : Z) : bool := match zget d k with Some _ => true | None => false end.

(** ** AEFile.add_set: ae_file.py:82-89 *)

(** The while loop of lines 85-87; [fuel] bounds the number of increments (proved sufficient). *)
Fixpoint free_id {V} (fuel : nat) (d : list (Z * V)) (k : Z) : option Z :=
  if zmem d k then match fuel with O => None | S f => free_id f d (k + 1)%Z end else Some k.
(** [np.array([radius, chord, thickness, pc_set_id]).T]: the rows; lists of different lengths are a ValueError. *)
Fixpoint rows4 {F} (a b c d : list F) : list (list F) :=
  match a, b, c, d with
  | x :: a', y :: b', z :: c', w :: d' => [x; y; z; w] :: rows4 a' b' c' d'
  | _, _, _, _ => []
  end.
Definition table4 {F} (a b c d : list F) : res (list (list F)) :=
  if Nat.eqb (List.length b) (List.length a) && Nat.eqb (List.length c) (List.length a) && Nat.eqb (List.length d) (List.length a)
  then Ok (rows4 a b c d) else Err ValueError.
Definition add_set {F} (sets : list (Z * list (list F))) (a b c d : list F) (set_id : option Z)
  : list (Z * list (list F)) * res Z :=
  match (match set_id with Some k => Some k | None => free_id (S (List.length sets)) sets 1 end) with
  | None => (sets, Err OutOfFuel)
  | Some k => match table4 a b c d with
              | Err e => (sets, Err e)
              | Ok t => (zset sets k t, Ok k)
              end
  end.

(** ['%25s'] / ['%5s']: right justified *)
Definition rjust (n : nat) (s : str) : str := repeat sp (n - List.length s) ++ s.

Section Fmt.
  Variable F : Type.
  Variable e17 : F -> str.          (* '%.17e' % x, without padding *)
  Variable trunc : F -> res Z.      (* int(x) as '%d' does it; nan and inf raise *)
  Variable float_ : str -> res F.   (* float(s) *)

  (** One row, ae_file.py:98; a row with fewer than 4 entries is an IndexError. *)
  Definition ae_row (row : list F) : res str :=
    match row with
    | x :: y :: z :: w :: _ =>
        n <- trunc w ;;
        Ok (rjust 25 (e17 x) ++ [sp] ++ rjust 25 (e17 y) ++ [sp] ++ rjust 25 (e17 z) ++ [sp] ++ rjust 5 (str_of_Z n))
    | _ => Err IndexError
    end.
  Fixpoint ae_sets_lines (sets : list (Z * list (list F))) : res (list str) :=
    match sets with
    | [] => Ok []
    | (k, t) :: sets' =>
        rs <- map_res ae_row t ;; ls <- ae_sets_lines sets' ;;
        Ok ((str_of_Z k ++ [sp] ++ str_of_N (N.of_nat (List.length t))) :: rs ++ ls)
    end.
  (** __str__, ae_file.py:91-99. *)
  Definition ae_str (sets : list (Z * list (list F))) : res str :=
    ls <- ae_sets_lines sets ;;
    Ok (concat (map add_nl
          ((str_of_N (N.of_nat (List.length sets)) ++ S_ " r[m]           Chord[m]    T/C[%]  Set no.") :: ls))).

  (** [np.array(list of rows)]: rows of different lengths raise ValueError. *)
  Definition np_array (rows : list (list F)) : res (list (list F)) :=
    match rows with
    | [] => Ok []
    | r :: rs => if forallb (fun r' => Nat.eqb (List.length r') (List.length r)) rs then Ok rows else Err ValueError
    end.
  Definition read_rows (ls : list str) : res (list (list F)) :=
    rows <- map_res (fun l => map_res float_ (firstn 4 (split_ws l))) ls ;; np_array rows.
  (** The loop of _read_file, ae_file.py:115-121, over the remaining [lines]; None: a negative number of rows
      (not modelled). *)
  Fixpoint ae_read_sets (n : nat) (ls : list str) (acc : list (Z * list (list F))) : option (res (list (Z * list (list F)))) :=
    match n with
    | O => Some (Ok acc)
    | S n' =>
        match ls with
        | [] => Some (Err IndexError)
        | l :: ls' =>
            match split_ws l with
            | t0 :: t1 :: _ =>
                match int_ t0, int_ t1 with
                | Ok k, Ok m =>
                    if (m <? 0)%Z then None
                    else match read_rows (firstn (Z.to_nat m) ls') with
                         | Err e => Some (Err e)
                         | Ok data => ae_read_sets n' (skipn (Z.to_nat m) ls') (zset acc k data)
                         end
                | Err e, _ => Some (Err e)
                | _, Err e => Some (Err e)
                end
            | _ => Some (Err ValueError)
            end
        end
    end.
  (** _read_file, ae_file.py:109-121. *)
  Definition ae_read (text : str) : option (res (list (Z * list (list F)))) :=
    match readlines [] text with
    | [] => Some (Err IndexError)
    | l0 :: ls =>
        match split_ws l0 with
        | [] => Some (Err IndexError)
        | t0 :: _ => match int_ t0 with
                     | Err e => Some (Err e)
                     | Ok n => ae_read_sets (Z.to_nat n) ls []
                     end
        end
    end.

  (** ** PCFile *)

  Variable e15 : F -> str.          (* '%.15e' % x *)
  Variable f8 : F -> str.           (* '%1.08f' % x *)

  (** [format(x, ' 19.015e')]: a blank instead of a plus sign, width 19. *)
  Definition e15s (x : F) : str :=
    rjust 19 (match e15 x with c :: _ => if chr_eqb c (ch 45) then e15 x else sp :: e15 x | [] => [sp] end).
  (** One profile row, pc_file.py:129,142: [linefmt.format] of the row's entries; fewer than 4 are an IndexError. *)
  Definition pc_row (row : list F) : res str :=
    match row with
    | x :: y :: z :: w :: _ =>
        Ok (e15s x ++ [sp] ++ e15s y ++ [sp] ++ e15s z ++ [sp] ++ e15s w)
    | _ => Err IndexError
    end.
  Fixpoint pc_profiles (i : N) (tcs : list F) (pcs : list (list (list F))) : res (list str) :=
    match tcs, pcs with
    | t :: tcs', p :: pcs' =>
        rs <- map_res pc_row p ;; ls <- pc_profiles (i + 1) tcs' pcs' ;;
        Ok ((str_of_N i ++ [sp] ++ str_of_N (N.of_nat (List.length p)) ++ [sp] ++ f8 t) :: rs ++ ls)
    | _, _ => Ok []
    end.
  Definition pcset : Type := (list F * list (list (list F)))%type.
  Fixpoint pc_sets_lines (sets : list (Z * pcset)) : res (list str) :=
    match sets with
    | [] => Ok []
    | (_, (tcs, pcs)) :: sets' =>
        ps <- pc_profiles 1 tcs pcs ;; ls <- pc_sets_lines sets' ;;
        Ok (str_of_N (N.of_nat (List.length tcs)) :: ps ++ ls)
    end.
  (** __str__, pc_file.py:121-143. *)
  Definition pc_str (sets : list (Z * pcset)) : res str :=
    ls <- pc_sets_lines sets ;;
    Ok (concat (map add_nl (str_of_N (N.of_nat (List.length sets)) :: ls))).

  (** The inner loop of _parse_lines, pc_file.py:42-50; None: a negative number of rows. *)
  Fixpoint pc_read_profiles (n : nat) (ls : list str) (tcs : list F) (pcs : list (list (list F)))
    : option (res (pcset * list str)) :=
    match n with
    | O => Some (Ok ((tcs, pcs), ls))
    | S n' =>
        match ls with
        | [] => Some (Err IndexError)
        | l :: ls' =>
            match split_ws l with
            | t0 :: t1 :: t2 :: _ =>
                match int_ t0, int_ t1, float_ t2 with
                | Ok _, Ok m, Ok th =>
                    if (m <? 0)%Z then None
                    else match read_rows (firstn (Z.to_nat m) ls') with
                         | Err e => Some (Err e)
                         | Ok data => pc_read_profiles n' (skipn (Z.to_nat m) ls') (tcs ++ [th]) (pcs ++ [data])
                         end
                | Err e, _, _ => Some (Err e)
                | _, Err e, _ => Some (Err e)
                | _, _, Err e => Some (Err e)
                end
            | _ => Some (Err ValueError)
            end
        end
    end.
  (** The outer loop, pc_file.py:35-51; [nset] counts from 1. *)
  Fixpoint pc_read_sets (n : nat) (nset : Z) (ls : list str) (acc : list (Z * pcset)) : option (res (list (Z * pcset))) :=
    match n with
    | O => Some (Ok acc)
    | S n' =>
        match ls with
        | [] => Some (Err IndexError)
        | l :: ls' =>
            match split_ws l with
            | [] => Some (Err IndexError)
            | t0 :: _ =>
                match int_ t0 with
                | Err e => Some (Err e)
                | Ok np =>
                    match pc_read_profiles (Z.to_nat np) ls' [] [] with
                    | None => None
                    | Some (Err e) => Some (Err e)
                    | Some (Ok (s, rest)) => pc_read_sets n' (nset + 1)%Z rest (zset acc nset s)
                    end
                end
            end
        end
    end.
  Definition pc_read (text : str) : option (res (list (Z * pcset))) :=
    match readlines [] text with
    | [] => Some (Err IndexError)
    | l0 :: ls =>
        match split_ws l0 with
        | [] => Some (Err IndexError)
        | t0 :: _ => match int_ t0 with
                     | Err e => Some (Err e)
                     | Ok n => pc_read_sets (Z.to_nat n) 1 ls []
                     end
        end
    end.
End Fmt.

(** ** HAWC2AEFile.sets, hawc2_ae_file.py:69-74: a list of all sets *)
Definition ae_list {V} (sets : list (Z * V)) : res (list V) :=
  map_res (fun i => match zget sets (Z.of_nat i + 1) with Some v => Ok v | None => Err KeyError end) (seq 0 (List.length sets)).

(** ** Polar interpolation: pc_file.py:53-63 *)

(** [np.interp(x, xp, fp)] for increasing [xp] (numpy only defines it then); an empty table is a ValueError. *)
Fixpoint interp_from (x x0 y0 : Q) (tab : list (Q * Q)) : Q :=
  match tab with
  | [] => y0
  | (x1, y1) :: tab' =>
      if Qle_bool x1 x then interp_from x x1 y1 tab'
      else (y0 + (y1 - y0) / (x1 - x0) * (x - x0))%Q
  end.
Definition interp (x : Q) (tab : list (Q * Q)) : res Q :=
  match tab with
  | [] => Err ValueError
  | (x0, y0) :: tab' => if Qle_bool x0 x then Ok (interp_from x x0 y0 tab') else Ok y0
  end.
(** [np.searchsorted(xs, x)] (left) for increasing [xs]. *)
Definition searchsorted (xs : list Q) (x : Q) : nat := List.length (filter (fun y => negb (Qle_bool x y)) xs).
(** Columns 0 and [col] of a profile. *)
Definition columns (col : nat) (prof : list (list Q)) : list (Q * Q) :=
  map (fun row => (nth 0 row 0%Q, nth col row 0%Q)) prof.
(** _Cxxx for the set found under pc_set_nr.  [Ok None]: division by th1-th0 = 0, numpy gives nan or inf. *)
Definition Cxxx (thicknesses : list Q) (profiles : list (list (list Q))) (thickness alpha : Q) (col : nat) : res (option Q) :=
  let index := searchsorted thicknesses thickness in
  let index := if Nat.eqb index 0 then 1 else index in
  match firstn 2 (skipn (index - 1) profiles) with
  | [p0; p1] =>
      c0 <- interp alpha (columns col p0) ;;
      c1 <- interp alpha (columns col p1) ;;
      match firstn 2 (skipn (index - 1) thicknesses) with
      | [th0; th1] =>
          if Qeq_bool th1 th0 then Ok None
          else Ok (Some (c0 + (c1 - c0) * (thickness - th0) / (th1 - th0))%Q)
      | _ => Err ValueError
      end
  | _ => Err ValueError
  end.
(** CL, CD and CM, pc_file.py:81-121: the columns after the angle of attack, for the set numbered [pc_set_nr]
    (default 1); an unknown number is the KeyError of the dictionary. *)
Definition coefficient (column : nat) (pc_sets : list (Z * (list Q * list (list (list Q))))) (thickness alpha : Q) (pc_set_nr : Z) : res (option Q) :=
  match zget pc_sets pc_set_nr with
  | None => Err KeyError
  | Some (thicknesses, profiles) => Cxxx thicknesses profiles thickness alpha column
  end.
Definition CL := coefficient 1.
Definition CD := coefficient 2.
Definition CM := coefficient 3.
