(** Model of the methods of HTC files that name the files of a simulation and set its times (weio/wetb/hawc2/htc_file.py:246-290, 382-437, 546-556).
    SIMPLIFICATIONS: as in HTC_Model a value is its text; a value is a number when [num] says so (values are those read from a file or assigned as texts);
    [abspath] is os.path.abspath; subfolders with "." or ".." components and absolute ones are not modelled; what is left of the object after an exception is
    not modelled. *)
From Verif Require Import Py FASTOut_Model HTC_Model.
From Verif Require Deck_Model.
From Verif Require Import HTCPath_Model.
Local Open Scope nat_scope.

Definition dict_ := list (str * node).
(** [self.k] of the contents, htc_contents.py:58-69: KeyError *)
Definition attr (d : dict_) (k : str) : res node := match dget d k with Some n => Ok n | None => Err KeyError end.
(** [k in node], htc_contents.py:101-104: a line has no contents *)
Definition has (n : node) (k : str) : bool := match n with Sec _ _ _ _ cont _ => dmem cont k | Line _ _ _ => false end.
(** [node.k]: a line has no contents to search *)
Definition sub (n : node) (k : str) : res node := match n with Sec _ _ _ _ cont _ => attr cont k | Line _ _ _ => Err TypeError end.
(** [node.k = values], htc_contents.py:71-88 *)
Definition set_key (cont : dict_) (k : str) (vs : list str) : dict_ :=
  dset cont k (match dget cont k with Some n => set_values n vs | None => mk_line k vs [] end).
Definition set_in (n : node) (k : str) (vs : list str) : res node :=
  match n with Sec kd nm bc ec cont ss => Ok (Sec kd nm bc ec (set_key cont k vs) ss) | Line _ _ _ => Err TypeError end.
(** [self.a.k = values] *)
Definition set2 (d : dict_) (a k : str) (vs : list str) : res dict_ := n <- attr d a ;; n' <- set_in n k vs ;; Ok (dset d a n').
(** [self.a.b.k = values] *)
Definition set3 (d : dict_) (a b k : str) (vs : list str) : res dict_ :=
  n <- attr d a ;;
  match n with
  | Sec kd nm bc ec cont ss => m <- attr cont b ;; m' <- set_in m k vs ;; Ok (dset d a (Sec kd nm bc ec (dset cont b m') ss))
  | Line _ _ _ => Err TypeError
  end.
(** [line[i]], htc_contents.py:320-324; a section has no values *)
Definition item (n : node) (i : nat) : res str :=
  match n with Line _ vs _ => match nth_error vs i with Some v => Ok v | None => Err IndexError end | Sec _ _ _ _ _ _ => Err KeyError end.

Section Sim.
  Variable num : str -> option (res str).
  (** [node.k = 'text'], htc_contents.py:77-78 *)
  Definition words (text : str) : res (list str) := map_res (fmt_value num) (split_ws text).
  Definition set2_text (d : dict_) (a k : str) (text : str) : res dict_ := n <- attr d a ;; vs <- words text ;; set2 d a k vs.

  (** ** set_name, htc_file.py:246-277 *)
  (** os.path.relpath of a relative path *)
  Definition rel (p : str) : res str :=
    let cs := filter nonempty (split_chr slash p) in
    if startswith p [slash] || existsb (fun c => str_eqb c (S_ ".") || str_eqb c (S_ "..")) cs then Err Unmodelled
    else Ok (match cs with [] => S_ "." | _ => join [slash] cs end).
  Definition fmt_folder (folder subfolder : str) : res str := r <- rel (Deck_Model.path_join folder subfolder) ;; Ok (S_ "./" ++ unback r).
  Definition in_folder (folder subfolder file : str) : res str := f <- fmt_folder folder subfolder ;; Ok (unback (Deck_Model.path_join f file)).
  (** [self.simulation.visualization[0] = f] *)
  Definition set_first (n : node) (f : str) : res node :=
    match n with Line nm (_ :: vs) c => Ok (Line nm (f :: vs) c) | Line _ [] _ => Err IndexError | Sec _ _ _ _ _ _ => Err TypeError end.
  Definition set2_first (d : dict_) (a k f : str) : res dict_ :=
    n <- attr d a ;;
    match n with
    | Sec kd nm bc ec cont ss => m <- attr cont k ;; m' <- set_first m f ;; Ok (dset d a (Sec kd nm bc ec (dset cont k m') ss))
    | Line _ _ _ => Err TypeError
    end.
  Definition has2 (d : dict_) (a k : str) : bool := match dget d a with Some n => has n k | None => false end.
  Variable abspath : str -> str.
  Definition set_name (modelpath name subfolder : str) (d : dict_) : res (str * dict_) :=
    h <- fmt_folder (S_ "htc") subfolder ;;
    let filename := unback (abspath (Deck_Model.path_join (Deck_Model.path_join modelpath h) (name ++ S_ ".htc"))) in
    d1 <- (if has2 d (S_ "simulation") (S_ "logfile") then
             l <- in_folder (S_ "log") subfolder (name ++ S_ ".log") ;;
             d <- set2_text d (S_ "simulation") (S_ "logfile") l ;;
             d <- (if has2 d (S_ "simulation") (S_ "animation")
                   then a <- in_folder (S_ "animation") subfolder (name ++ S_ ".dat") ;; set2_text d (S_ "simulation") (S_ "animation") a else Ok d) ;;
             (if has2 d (S_ "simulation") (S_ "visualization")
              then v <- in_folder (S_ "visualization") subfolder (name ++ S_ ".hdf5") ;; set2_first d (S_ "simulation") (S_ "visualization") v else Ok d)
           else if has2 d (S_ "test_structure") (S_ "logfile") then
             l <- in_folder (S_ "log") subfolder (name ++ S_ ".log") ;; set2_text d (S_ "test_structure") (S_ "logfile") l
           else Ok d) ;;
    d2 <- (if dmem d1 (S_ "output") then r <- in_folder (S_ "res") subfolder name ;; set2_text d1 (S_ "output") (S_ "filename") r else Ok d1) ;;
    Ok (filename, d2).

  (** ** set_time, htc_file.py:279-290 *)
  Definition set_time (start stop step : option str) (d : dict_) : res dict_ :=
    '(d, stop) <- (match stop with
                   | Some t => d <- set2 d (S_ "simulation") (S_ "time_stop") [t] ;; Ok (d, t)
                   | None => n <- attr d (S_ "simulation") ;; l <- sub n (S_ "time_stop") ;; t <- item l 0 ;; Ok (d, t)
                   end) ;;
    d <- (match step with Some dt => set3 d (S_ "simulation") (S_ "newmark") (S_ "deltat") [dt] | None => Ok d end) ;;
    match start with
    | Some t =>
        d <- set2 d (S_ "output") (S_ "time") [t; stop] ;;
        if dmem d (S_ "wind") then set2 d (S_ "wind") (S_ "scale_time_start") [t] else Ok d
    | None => Ok d
    end.
  (** set_time of H2aeroHTCFile, htc_file.py:546-556; [positive]: value > 0 *)
  Variable positive : str -> res bool.
  Definition set_time_aero (start stop step : option str) (d : dict_) : res dict_ :=
    '(d, stop) <- (match stop with
                   | Some t => d <- set2 d (S_ "test_structure") (S_ "time_stop") [t] ;; Ok (d, t)
                   | None => n <- attr d (S_ "test_structure") ;; l <- sub n (S_ "time_stop") ;; t <- item l 0 ;; Ok (d, t)
                   end) ;;
    d <- (match step with Some dt => set2 d (S_ "test_structure") (S_ "deltat") [dt] | None => Ok d end) ;;
    match start with
    | Some t =>
        d <- set2 d (S_ "output") (S_ "time") [t; stop] ;;
        match dget d (S_ "wind") with
        | Some w =>
            l <- sub w (S_ "turb_format") ;; v <- item l 0 ;; b <- positive v ;;
            if b then set2 d (S_ "wind") (S_ "scale_time_start") [t] else Ok d
        | None => Ok d
        end
    | None => Ok d
    end.

  (** ** Files of the results, htc_file.py:424-437 *)
  Definition is_text (v : str) : bool := match num v with None => true | Some _ => false end.
  (** [v + '.ext'] *)
  Definition plus (v ext : str) : res str := if is_text v then Ok (v ++ ext) else Err TypeError.
  Definition output_name (nm : str) : bool := startswith nm (S_ "output") && negb (startswith nm (S_ "output_at_time")).
  Definition res_files (n : node) : res (list str) :=
    match n with
    | Line _ _ _ => Err TypeError
    | Sec _ _ _ _ cont _ =>
        f <- (l <- attr cont (S_ "filename") ;; item l 0) ;;
        fmt <- (match dget cont (S_ "data_format") with Some l => item l 0 | None => Ok (S_ "h") end) ;;
        if str_eqb fmt (S_ "gtsdf") || str_eqb fmt (S_ "gtsdf64") then h <- plus f (S_ ".hdf5") ;; Ok [h]
        else if str_eqb fmt (S_ "flex_int") then i <- plus f (S_ ".int") ;; Ok [i; Deck_Model.path_join (Deck_Model.dirname f) (S_ "sensor")]
        else s <- plus f (S_ ".sel") ;; t <- plus f (S_ ".dat") ;; Ok [s; t]
    end.
  Definition res_file_lst (d : dict_) : res (list str) :=
    l <- map_res res_files (filter (fun n => output_name (node_name n)) (map snd d)) ;; Ok (concat l).

  (** ** turbulence_files, htc_file.py:414-422; the keys are looked for one after the other and a missing one gives nothing *)
  Definition get3 (d : dict_) (a b c : str) : res (option str) :=
    match dget d a with
    | None => Ok None
    | Some (Line _ _ _) => Err TypeError
    | Some (Sec _ _ _ _ cont _) =>
        match dget cont b with
        | None => Ok None
        | Some (Line _ _ _) => Err TypeError
        | Some (Sec _ _ _ _ cont' _) => match dget cont' c with None => Ok None | Some n => v <- item n 0 ;; Ok (Some v) end
        end
    end.
  (** [if f]: neither None nor the number 0 *)
  Definition present (l : list (option str)) : list str := flat_map (fun o => match o with Some v => if nonempty v && (is_text v || negb (str_eqb v (S_ "0"))) then [v] else [] | None => [] end) l.
  Definition turbulence_files (d : dict_) : res (list str) :=
    match dget d (S_ "wind") with
    | None => Ok []
    | Some w =>
        l <- sub w (S_ "turb_format") ;; t <- item l 0 ;;
        if str_eqb t (S_ "0") then Ok []
        else
          let files b := (fs <- map_res (fun c => get3 d (S_ "wind") (S_ b) (S_ "filename_" ++ S_ c)) ["u"; "v"; "w"]%string ;; Ok (present fs)) in
          if str_eqb t (S_ "1") then files "mann"%string
          else if str_eqb t (S_ "2") then files "flex"%string
          else Err UnboundLocalError
    end.

  (** ** output_files, htc_file.py:382-412 *)
  Definition get2 (d : dict_) (a b : str) : res (option str) :=
    match dget d a with
    | None => Ok None
    | Some (Line _ _ _) => Err TypeError
    | Some (Sec _ _ _ _ cont _) => match dget cont b with None => Ok None | Some n => v <- item n 0 ;; Ok (Some v) end
    end.
  Definition OUT2 : list (str * str) :=
    map (fun p => (S_ (fst p), S_ (snd p)))
      [("simulation", "logfile"); ("simulation", "animation"); ("simulation", "visualization"); ("new_htc_structure", "beam_output_file_name");
       ("new_htc_structure", "body_output_file_name"); ("new_htc_structure", "struct_inertia_output_file_name");
       ("new_htc_structure", "body_eigenanalysis_file_name"); ("new_htc_structure", "constraint_output_file_name")]%string.
  Definition modes (d : dict_) (k : str) : res (list str) :=
    if has2 d (S_ "new_htc_structure") k then
      n <- attr d (S_ "new_htc_structure") ;; l <- sub n k ;; f <- item l 0 ;;
      if is_text f then Ok [f; unback (Deck_Model.path_join (Deck_Model.dirname f) (S_ "mode*.dat"))] else Err TypeError
    else Ok [].
  Definition low (v : str) : res str := if is_text v then Ok (lower v) else Err AttributeError.
  Definition output_files (d : dict_) : res (list str) :=
    a <- map_res (fun p => get2 d (fst p) (snd p)) OUT2 ;;
    b <- map_res (fun c => get3 d (S_ "wind") (S_ "turb_export") (S_ "filename_" ++ S_ c)) ["u"; "v"; "w"]%string ;;
    m1 <- modes d (S_ "system_eigenanalysis") ;; m2 <- modes d (S_ "structure_eigenanalysis_file_name") ;;
    r <- res_file_lst d ;;
    t <- map_res (fun p => l <- sub (snd p) (S_ "filename") ;; f <- item l 0 ;; plus f (S_ ".dat")) (filter (fun p => startswith (fst p) (S_ "output_at_time")) d) ;;
    map_res low (present a ++ present b ++ m1 ++ m2 ++ r ++ t).
End Sim.
