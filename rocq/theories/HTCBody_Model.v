(** Model of the bodies of an HTC file (weio/hawc2_htc_file.py:44-148).
    SIMPLIFICATIONS: as in HTC_Model a value is its text; a value is a number when [toQ] gives its (exact) value, so nan and inf are not values here; [ofQ] and
    [ofZ] are the texts of a number and of an integer; [argsort] is numpy.argsort (for equal keys its order is not specified); a table is the list of its rows;
    lines of unequal length make numpy.array raise ValueError (numpy 1.24 and later); the printed warnings are not modelled. *)
From Verif Require Import Py FASTOut_Model HTC_Model HTCSim_Model.
From Verif Require Deck_Model.
From Verif Require Import HTCCmp_Model.
From Coq Require Import QArith.
Local Open Scope nat_scope.

Definition keys {V} (d : list (str * V)) : list str := map fst d.
(** [[k for k in section.keys() if k.startswith(prefix)]] *)
Definition keys_with (prefix : str) (d : dict_) : list str := filter (fun k => startswith k prefix) (keys d).
(** [section.contents] of an item *)
Definition contents_of (n : node) : res dict_ := match n with Sec _ _ _ _ cont _ => Ok cont | Line _ _ _ => Err TypeError end.
(** [item.values]: a section is searched for an item of that name *)
Definition values_of (n : node) : res (list str) :=
  match n with
  | Line _ vs _ => Ok vs
  | Sec _ _ _ _ cont _ => if dmem cont (S_ "values") then Err Unmodelled else Err KeyError
  end.

Section Body.
  Variable toQ : str -> option Q.
  Variable ofQ : Q -> str.
  Variable ofZ : Z -> str.
  Variable argsort : list Q -> list nat.

  (** ** bodyDict, bodyNames, bodyByName: hawc2_htc_file.py:44-66 *)
  (** [data.new_htc_structure] *)
  Definition structure (d : dict_) : res dict_ := n <- attr d (S_ "new_htc_structure") ;; contents_of n.
  Definition body_keys (struct : dict_) : list str := keys_with (S_ "main_body") struct.
  (** [body.name[0]] *)
  Definition body_name (b : node) : res str := l <- sub b (S_ "name") ;; item l 0.
  Definition body_dict (d : dict_) : res dict_ :=
    struct <- structure d ;;
    (fix go (ks : list str) (acc : dict_) : res dict_ :=
       match ks with
       | [] => Ok acc
       | k :: ks' => b <- getitem struct k ;; nm <- body_name b ;; go ks' (dset acc nm b)
       end) (body_keys struct) [].
  Definition body_names (d : dict_) : res (list str) := bd <- body_dict d ;; Ok (keys bd).
  Definition body_by_name (d : dict_) (name : str) : res node :=
    bd <- body_dict d ;; match dget bd name with Some b => Ok b | None => Err PlainException end.

  (** ** bodyC2: hawc2_htc_file.py:68-77 *)
  Definition c2_contents (b : node) : res dict_ := c <- sub b (S_ "c2_def") ;; contents_of c.
  Definition sec_keys (c2 : dict_) : list str := keys_with (S_ "sec") c2.
  (** numpy.array of lists, then reshape((-1,5)) and astype(float) *)
  Definition same_length (ls : list (list str)) : bool :=
    match ls with [] => true | l :: ls' => forallb (fun x => Nat.eqb (List.length x) (List.length l)) ls' end.
  Fixpoint rows5 (l : list Q) : res (list (list Q)) :=
    match l with
    | [] => Ok []
    | a :: b :: c :: d :: e :: l' => r <- rows5 l' ;; Ok ([a; b; c; d; e] :: r)
    | _ => Err ValueError
    end.
  Definition number (v : str) : res Q := match toQ v with Some q => Ok q | None => Err ValueError end.
  Definition table (ls : list (list str)) : res (list (list Q)) :=
    if same_length ls then qs <- map_res number (concat ls) ;; rows5 qs else Err ValueError.
  (** [val[np.argsort(val[:,0]),:]] *)
  Definition sort_rows (rows : list (list Q)) : list (list Q) :=
    map (fun i => nth i rows []) (argsort (map (fun r => hd 0%Q r) rows)).
  Definition body_c2 (b : node) : res (list (list Q)) :=
    match (c <- sub b (S_ "c2_def") ;; n <- sub c (S_ "nsec") ;; item n 0) with
    | Err _ => Err PlainException
    | Ok _ =>
        c2 <- c2_contents b ;;
        ls <- map_res (fun k => n <- getitem c2 k ;; values_of n) (sec_keys c2) ;;
        rows <- table ls ;; Ok (sort_rows rows)
    end.

  (** ** setBodyC2: hawc2_htc_file.py:79-99 *)
  (** [int(x)] *)
  Definition trunc (q : Q) : Z := Z.quot (Qnum q) (Zpos (Qden q)).
  (** lines 95-97 for one line: the item after, or the exception *)
  Definition set_row (n : node) (row : option (list Q)) : res node :=
    match row with
    | None => Err IndexError
    | Some [] => Err IndexError
    | Some (x :: xs) =>
        match n with
        | Line nm (_ :: _) c => Ok (Line nm (ofZ (trunc x) :: map ofQ xs) c)
        | Line _ [] _ => Err IndexError
        | Sec _ _ _ _ cont _ => if dmem cont (S_ "values") then Err Unmodelled else Err KeyError
        end
    end.
  (** the loop of lines 95-97, with the contents of c2_def as they are left *)
  Fixpoint set_rows (c2 : dict_) (i : nat) (ks : list str) (val : list (list Q)) : dict_ * res unit :=
    match ks with
    | [] => (c2, Ok tt)
    | k :: ks' =>
        match (n <- getitem c2 k ;; set_row n (nth_error val i)) with
        | Ok n' => set_rows (dset c2 k n') (S i) ks' val
        | Err e => (c2, Err e)
        end
    end.
  (** lines 88-91: [del bdy.c2_def.k] deletes an item named k, whatever the variable k *)
  Fixpoint del_keys (c2 : dict_) (ks : list str) : dict_ :=
    match ks with [] => c2 | k :: ks' => del_keys (ddel (ddel c2 (S_ "k")) k) ks' end.
  (** the contents of c2_def that are left, and the outcome *)
  Definition set_c2 (c2 : dict_) (val : list (list Q)) : dict_ * res unit :=
    match (n <- attr c2 (S_ "nsec") ;; item n 0) with
    | Err e => (c2, Err e)
    | Ok nsec =>
        let n := List.length val in
        let ks := sec_keys c2 in
        let c2 := set_key c2 (S_ "nsec") [ofZ (Z.of_nat n)] in
        match toQ nsec with
        | None => (c2, Err TypeError)
        | Some q =>
            if Qeq_bool q (inject_Z (Z.of_nat n)) then set_rows c2 0 ks val
            else if Qle_bool q (inject_Z (Z.of_nat n)) then (c2, Err NotImplementedError)
            else set_rows (del_keys c2 (skipn n ks)) 0 (firstn n ks) val
        end
    end.
  (** setBodyC2 of a body *)
  Definition set_body_c2 (b : node) (val : list (list Q)) : node * res unit :=
    match b with
    | Sec k nm bc ec cont ss =>
        match dget cont (S_ "c2_def") with
        | Some (Sec k2 nm2 bc2 ec2 c2 ss2) =>
            let '(c2', r) := set_c2 c2 val in (Sec k nm bc ec (dset cont (S_ "c2_def") (Sec k2 nm2 bc2 ec2 c2' ss2)) ss, r)
        | Some (Line _ _ _) => (b, Err TypeError)
        | None => (b, Err KeyError)
        end
    | Line _ _ _ => (b, Err TypeError)
    end.

  (** ** _toDataFrame: hawc2_htc_file.py:102-148 *)
  Variable T : Type.   (* the data frame of one set of a structural file *)
  Inductive frame := C2Frame (columns : list str) (rows : list (list Q)) | StFrame (t : T).
  (** the structural file at a path: None when it does not exist; its frames, or the exception of reading it *)
  Variable st_file : str -> option (res (list (str * T))).
  Variable simdir : str.
  (** a text is concatenated or joined with a text only: a number raises TypeError *)
  Definition text (v : str) : res str := match toQ v with Some _ => Err TypeError | None => Ok v end.
  Definition c2_columns : list str := [S_ "z_[m]"; S_ "x_[m]"; S_ "y_[m]"; S_ "twist_[deg]"].
  (** [val[:,[3,1,2,4]]] *)
  Definition pick (r : list Q) : list Q := map (fun i => nth i r 0%Q) [3; 1; 2; 4].
  Definition set_name_of (tim : node) : res str :=
    if has tim (S_ "set") then s <- sub tim (S_ "set") ;; m <- item s 0 ;; i <- item s 1 ;; Ok (m ++ S_ "_" ++ i) else Ok (S_ "1_1").
  Definition st_frame (tim : node) : res (option T) :=
    f <- sub tim (S_ "filename") ;; v <- item f 0 ;; fn <- text v ;;
    match st_file (Deck_Model.path_join simdir fn) with
    | None => Ok None
    | Some r =>
        sets <- r ;; s <- set_name_of tim ;;
        match dget sets s with Some t => Ok (Some t) | None => Err PlainException end
    end.
  Definition add_body (dfs : list (str * frame)) (b : node) : res (list (str * frame)) :=
    match body_c2 b with
    | Err _ => Ok dfs
    | Ok val =>
        v <- body_name b ;; nm <- text v ;;
        let dfs1 := dset dfs (nm ++ S_ "_c2") (C2Frame c2_columns (map pick val)) in
        if has b (S_ "timoschenko_input") then
          tim <- sub b (S_ "timoschenko_input") ;; o <- st_frame tim ;;
          Ok (match o with Some t => dset dfs1 (nm ++ S_ "_st") (StFrame t) | None => dfs1 end)
        else Ok dfs1
    end.
  Fixpoint add_bodies (dfs : list (str * frame)) (struct : dict_) (ks : list str) : res (list (str * frame)) :=
    match ks with [] => Ok dfs | k :: ks' => b <- getitem struct k ;; d <- add_body dfs b ;; add_bodies d struct ks' end.
  Definition to_data_frame (d : dict_) : res (list (str * frame)) := struct <- structure d ;; add_bodies [] struct (body_keys struct).
End Body.
