(** Model of running a simulation of an HTC file (weio/wetb/hawc2/htc_file.py:439-496).
    SIMPLIFICATIONS: the paths are those that the code computes from [modelpath] with os.path.join; [mtime] gives the time of a file and None when there is no
    such file, it is that of the moment before the run; [reread] is str(HTCFile(f)), [raw] the joined lines of a file; the text of the file itself is
    [text]; [results] is res_file_lst (modelled in HTCSim_Model); [run] is pexec: error code, standard output and errors, command,
    and None as in this commit, where its import (line 7) is commented out; [read] is the contents of
    a file after the run, None when there is no such file; [fmt04] is the format %04d; what the run writes is not modelled, what this code does is the list
    of actions. *)
From Verif Require Import Py FASTOut_Model HTC_Model HTCPath_Model HTCSim_Model.
From Verif Require Deck_Model.
From Coq Require Import QArith ZArith.
Local Open Scope nat_scope.

Inductive action := Saved (text : str) | Ran (exe htcfile cwd : str).
Record output := mk_output { o_code : Z; o_out : str; o_err : str; o_cmd : str }.
(** what the caller sees: the returned pair, the report of a failed run, or another exception *)
Inductive outcome := Returned (out log : str) | Report (code : Z) (out err log cmd : str) | Raised (e : exn).

(** ** the report of a failed run, htc_file.py:471-488 *)
(** sorted(np.unique(...)) *)
Fixpoint insert_u (x : Z) (l : list Z) : list Z :=
  match l with [] => [x] | y :: l' => if (x <? y)%Z then x :: l else if (x =? y)%Z then l else y :: insert_u x l' end.
Definition unique (l : list Z) : list Z := fold_right insert_u [] l.
(** [i for i, l in enumerate(log_lines) if 'error' in l.lower()], line 472 *)
Fixpoint errors_from (i : nat) (ls : list str) : list Z :=
  match ls with [] => [] | l :: ls' => if contains (lower l) (S_ "error") then Z.of_nat i :: errors_from (S i) ls' else errors_from (S i) ls' end.
Definition clamp (n : nat) (i : Z) : Z := Z.max (Z.min i (Z.of_nat n - 1)) 0.
(** lines 475-477 *)
Definition shown (n : nat) (errs : list Z) : list Z :=
  unique (map (clamp n) (flat_map (fun i => map (fun e => (e + i)%Z) errs) [-3; -2; -1; 0; 1; 2; 3]%Z
                         ++ map (fun i => (i + Z.of_nat n)%Z) [-5; -4; -3; -2; -1]%Z)).
(** np.where(np.diff(line_i) > 1)[0], line 480 *)
Fixpoint jumps_from (k : nat) (l : list Z) : list nat :=
  match l with
  | a :: ((b :: _) as l') => if (1 <? b - a)%Z then k :: jumps_from (S k) l' else jumps_from (S k) l'
  | _ => []
  end.
(** lines.insert(jump, '...') *)
Definition insert_at {A} (k : nat) (x : A) (l : list A) : list A := firstn k l ++ x :: skipn k l.

Section Run.
  Variable num : str -> option (res str).
  Variable fmt04 : Z -> str.
  (** line 479 *)
  Definition numbered (ls : list str) (i : Z) : str := fmt04 i ++ S_ " " ++ nth (Z.to_nat i) ls [].
  (** lines 471-486 *)
  Definition report (log : str) : str :=
    let ls := split_chr nl log in
    match errors_from 0 ls with
    | [] => log
    | errs =>
        let li := shown (List.length ls) errs in
        join [nl] (fold_left (fun acc k => insert_at k (S_ "...") acc) (jumps_from 0 li) (map (numbered ls) li))
    end.
  (** lines 463-469 *)
  Definition find_log (read : str -> option str) (modelpath : str) (d : dict_) : res (option str) :=
    match dget d (S_ "simulation") with
    | None => Ok None
    | Some s =>
        if has s (S_ "logfile") then
          l <- sub s (S_ "logfile") ;; v <- item l 0 ;;
          if is_text num v then Ok (read (Deck_Model.path_join modelpath v)) else Err TypeError
        else Ok None
    end.

  Variable mtime : str -> option Q.
  Variable reread raw : str -> res str.
  Variable relpath : str -> str -> str.
  Variable run : option (str -> str -> str -> output).
  Definition isfile (f : str) : bool := match mtime f with Some _ => true | None => false end.
  Definition later (a b : str) : bool := match mtime a, mtime b with Some x, Some y => negb (Qle_bool x y) | _, _ => false end.
  (** htc_file.py:441-454; [results] as above *)
  Definition up_to_date (results : res (list str)) (modelpath filename exe text : str) : res bool :=
    rs <- results ;;
    match rs with
    | [] => Err IndexError
    | r :: _ =>
        let res_file := Deck_Model.path_join modelpath r in
        let htc_file := Deck_Model.path_join modelpath filename in
        let exe_file := if startswith exe (S_ "/") then exe else Deck_Model.path_join modelpath exe in
        if isfile htc_file && isfile res_file && isfile exe_file then
          t <- reread htc_file ;;
          if str_eqb t text && later res_file htc_file && later res_file exe_file then u <- raw htc_file ;; Ok (str_eqb u text) else Ok false
        else Ok false
    end.
  (** htc_file.py:439-459; [path] is os.environ['PATH']; None: nothing was run *)
  Definition start (path : str) (results : res (list str)) (modelpath filename exe text : str) (skip : bool) : list action * res (option output) :=
    match (if skip then up_to_date results modelpath filename exe text else Ok false) with
    | Err e => ([], Err e)
    | Ok true => ([], Ok None)
    | Ok false =>
        let htcfile := relpath filename modelpath in
        if existsb (fun f => isfile (Deck_Model.path_join f exe)) ([] :: split_chr (ch 59) path)
        then match run with
             | None => ([Saved text], Err NameError)
             | Some pexec => ([Saved text; Ran exe htcfile modelpath], Ok (Some (pexec exe htcfile modelpath)))
             end
        else ([Saved text], Err AssertionError)
    end.
  (** htc_file.py:461-488 *)
  Definition simulate (read : str -> option str) (path : str) (results : res (list str)) (modelpath filename exe text : str) (d : dict_) (skip : bool) : list action * outcome :=
    match start path results modelpath filename exe text skip with
    | (acts, Err e) => (acts, Raised e)
    | (acts, Ok None) => (acts, Raised TypeError)
    | (acts, Ok (Some o)) =>
        (acts,
         match find_log read modelpath d with
         | Err e => Raised e
         | Ok file =>
             let log := match file with Some t => t | None => o_out o ++ [nl] ++ o_err o end in
             if negb (o_code o =? 0)%Z || negb (contains log (S_ "Elapsed time")) then Report (o_code o) (o_out o) (o_err o) (report log) (o_cmd o)
             else Returned (o_out o ++ o_err o) log
         end)
    end.
  (** htc_file.py:490-496: None gives TypeError, but skipping is not asked for *)
  Definition simulate_stab (path : str) (results : res (list str)) (modelpath filename exe text : str) : list action * outcome :=
    match start path results modelpath filename exe text false with
    | (acts, Err e) => (acts, Raised e)
    | (acts, Ok None) => (acts, Raised TypeError)
    | (acts, Ok (Some o)) => (acts, if negb (o_code o =? 0)%Z then Report (o_code o) (o_out o) (o_err o) [] (o_cmd o) else Returned (o_out o ++ o_err o) [])
    end.
End Run.
