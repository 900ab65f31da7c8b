(** Model of the files an HTC file includes (weio/wetb/hawc2/htc_file.py:163-218) and of the search of a path in any case
    (htc_file.py:36-50, 510-523).
    SIMPLIFICATIONS: a path is absolute and has neither links nor "." and ".." components once it is resolved; jinja templates and the byte-order mark are not
    modelled; [lines_of]: the lines of a file (htc_file.py:186-194) or the exception of opening it; the fuel is the recursion limit. *)
From Verif Require Import Py HTC_Model.
From Verif Require Deck_Model.
Local Open Scope nat_scope.

(** ** A path in any case (htc_file.py:36-50 and 510-523) *)
Definition slash : ascii := ch 47.
Section Walk.
  (** os.listdir *)
  Variable listdir : str -> res (list str).
  Fixpoint walk (p : str) (fs : list str) : res str :=
    match fs with
    | [] => Ok p
    | f :: r =>
        es <- listdir p ;;
        let c := filter (fun e => str_eqb (lower e) (lower f)) es in
        let c := if 1 <? List.length c then filter (fun e => str_eqb e f) c else c in
        match c with [] => Err OSError2 | e :: _ => walk (Deck_Model.path_join p e) r end
    end.
  Definition unix_path (path : str) : res str := walk [slash] (split_chr slash (tl path)).
End Walk.

(** ** Included files (htc_file.py:196-218) *)
Section Include.
  Variable lines_of : str -> res (list str).
  (** os.path.isfile(os.path.abspath(path)) *)
  Variable isfile : str -> bool.
  (** self.filename and self.modelpath (None: 'unknown') *)
  Variables (self_name : str) (modelpath : option str).

  (** Line 202 *)
  Definition is_include (l : str) : bool := startswith (lstrip (lower l)) (S_ "continue_in_file").
  (** Line 203 *)
  Definition include_name (l : str) : str := lower (strip (skipn 16 (hd [] (split_chr semi (lstrip l))))).
  Definition ups (i : nat) : str := concat (repeat (S_ "../") i).
  Definition unback (s : str) : str := map (fun c => if chr_eqb c backslash then slash else c) s.
  (** Lines 205-211 *)
  Definition include_path (l : str) : res str :=
    let f := include_name l in
    match modelpath with
    | Some m => Ok (Deck_Model.path_join m f)
    | None =>
        let dir i := Deck_Model.path_join (Deck_Model.dirname self_name) (ups i) in
        match find (fun i => isfile (Deck_Model.path_join (dir i) (unback f))) [0; 1; 2; 3] with
        | Some i => Ok (Deck_Model.path_join (dir i) f)
        | None => Err ValueError
        end
    end.
  (** Lines 212-215 *)
  Fixpoint until_exit (ls : list str) : list str :=
    match ls with [] => [] | l :: r => if startswith (lower (lstrip l)) (S_ "exit") then [] else l :: until_exit r end.
  (** The lines of the file and of what it includes, and the included files (htc_inputfiles) *)
  Fixpoint readlines (fuel : nat) (filename : str) : res (list str * list str) :=
    match fuel with
    | O => Err RecursionError
    | S f =>
        ls <- lines_of filename ;;
        '(out, ins) <- (fix go (ls : list str) : res (list str * list str) :=
             match ls with
             | [] => Ok ([], [])
             | l :: r =>
                 if is_include l then
                   p <- include_path l ;; '(sub, i1) <- readlines f p ;; '(out, i2) <- go r ;; Ok (until_exit sub ++ out, i1 ++ i2)
                 else '(out, i2) <- go r ;; Ok (l :: out, i2)
             end) ls ;;
        Ok (out, (if str_eqb filename self_name then [] else [filename]) ++ ins)
    end.
  (** load (htc_file.py:163-184) *)
  Definition load_file (num : str -> option (res str)) (float_str : str -> res str) (fuel : nat) : res (htc * list str) :=
    '(out, ins) <- readlines fuel self_name ;;
    h <- load_loop num float_str (S (List.length out)) (mk_htc [] []) (map strip out) ;; Ok (h, ins).
End Include.
