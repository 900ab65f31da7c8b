(** Model of the list of the input files of an HTC file (weio/wetb/hawc2/htc_file.py:315-380).
    SIMPLIFICATIONS: as in HTCSim_Model a value is its text and is a number when [num] says so (the names of the file itself and of the files it includes are
    texts); [abspath] and [relpath] are those of os.path, [unix] is self.unix_path; [toQ] is the (exact) value of a text that is a number and [fmtd] the format
    %d; [order] lists the elements of a set in the order in which Python visits it; the test of a controller (line 353) on nan is not modelled. *)
From Verif Require Import Py FASTOut_Model HTC_Model HTCPath_Model HTCSim_Model.
From Verif Require Deck_Model Registry_Model HTCCmp_Model.
From Coq Require Import QArith.
Local Open Scope nat_scope.

Section Input.
  Variable num : str -> option (res str).
  Variable toQ : str -> option Q.
  Variable fmtd : Q -> str.
  Variables abspath unix : str -> res str.
  Variable relpath : str -> str -> str.
  Variable order : list str -> list str.

  (** [section.get(k, [None] * n)[i]] with i < n, htc_contents.py:106-110 *)
  Definition one (n : node) (k : string) (i : nat) : res (list (option str)) :=
    match n with
    | Line _ _ _ => Err TypeError
    | Sec _ _ _ _ cont _ => match dget cont (S_ k) with None => Ok [None] | Some l => v <- item l i ;; Ok [Some v] end
    end.
  (** [section.k[i]] *)
  Definition must (n : node) (k : string) (i : nat) : res (list (option str)) := l <- sub n (S_ k) ;; v <- item l i ;; Ok [Some v].
  Fixpoint appends (l : list (res (list (option str)))) : res (list (option str)) :=
    match l with [] => Ok [] | r :: l' => a <- r ;; b <- appends l' ;; Ok (a ++ b) end.
  (** [if k in section: ...] *)
  Definition if_in (n : node) (k : string) (f : node -> res (list (option str))) : res (list (option str)) :=
    if has n (S_ k) then m <- sub n (S_ k) ;; f m else Ok [].
  Definition if_file (d : dict_) (k : string) (f : node -> res (list (option str))) : res (list (option str)) :=
    match dget d (S_ k) with Some n => f n | None => Ok [] end.
  (** [section.keys()], htc_contents.py:126-127 *)
  Definition keys_of (n : node) : res (list str) := match n with Sec _ _ _ _ cont _ => Ok (map fst cont) | Line _ _ _ => Err AttributeError end.

  (** lines 321-326 *)
  Definition body_inputs (mb : node) : res (list (option str)) :=
    appends [if_in mb "timoschenko_input" (fun t => must t "filename" 0); one mb "external_bladedata_dll" 2].
  Definition structure_inputs (d : dict_) : res (list (option str)) :=
    if_file d "new_htc_structure" (fun s =>
      ks <- keys_of s ;; appends (map (fun k => mb <- sub s k ;; body_inputs mb) (filter (fun k => startswith k (S_ "main_body")) ks))).
  (** lines 327-335 *)
  Definition aero_inputs (d : dict_) : res (list (option str)) :=
    if_file d "aero" (fun a =>
      appends [must a "ae_filename" 0; must a "pc_filename" 0; one a "external_bladedata_dll" 2; one a "output_profile_coef_filename" 0;
               if_in a "dynstall_ateflap" (fun s => one s "flap" 2); if_in a "bemwake_method" (fun s => one s "a-ct-filename" 0)]).
  (** lines 336-339 *)
  Definition with_64 (v : str) : res str :=
    if is_text num v then
      let ext := Registry_Model.splitext_ext v in Ok (firstn (List.length v - List.length ext) v ++ S_ "_64" ++ ext)
    else Err TypeError.
  Definition dll_inputs (d : dict_) : res (list (option str)) :=
    if_file d "dll" (fun s =>
      ks <- keys_of s ;;
      appends (map (fun k => n <- sub s k ;; if has n (S_ "filename") then l <- sub n (S_ "filename") ;; v <- item l 0 ;; w <- with_64 v ;; Ok [Some v; Some w] else Ok []) ks)).
  (** lines 340-347: the files of the wakes are looked for in the wind section *)
  Definition wind_inputs (d : dict_) : res (list (option str)) :=
    appends [if_file d "wind" (fun w => appends [one w "user_defined_shear" 0; one w "user_defined_shear_turbulence" 0; one w "met_mast_wind" 0]);
             if dmem d (S_ "wakes") then
               w <- attr d (S_ "wind") ;; appends [one w "use_specific_deficit_file" 0; one w "write_ct_cq_file" 0; one w "write_final_deficits" 0]
             else Ok []].
  (** lines 348-354 *)
  Definition ground_inputs (d : dict_) : res (list (option str)) :=
    appends [if_file d "hydro" (fun h => if_in h "water_properties" (fun w => appends [one w "water_kinematics_dll" 0; one w "water_kinematics_dll" 1]));
             if_file d "soil" (fun s => if_in s "soil_element" (fun e => one e "datafile" 0))].
  (** lines 355-367: an exception means that there is no such file *)
  Definition wpdata (d : dict_) : res (list (option str)) :=
    s <- attr d (S_ "dll") ;;
    match s with
    | Line _ _ _ => Err TypeError
    | Sec _ _ _ _ cont _ =>
        c <- HTCCmp_Model.get_section cont (S_ "name") (S_ "dtu_we_controller") ;;
        i <- sub c (S_ "init") ;; l <- sub i (S_ "constant__5") ;; t <- item l 1 ;;
        match toQ t with
        | None => Err TypeError
        | Some q =>
            if Qle_bool 90 q then
              l <- sub c (S_ "filename") ;; f <- item l 0 ;;
              if is_text num f then Ok [Some (unback (Deck_Model.path_join (Deck_Model.dirname f) (S_ "wpdata." ++ fmtd q)))] else Err TypeError
            else Ok []
        end
    end.
  Definition force (d : dict_) : res (list (option str)) := f <- attr d (S_ "force") ;; s <- sub f (S_ "dll") ;; must s "dll" 0.
  Definition passed (r : res (list (option str))) : list (option str) := match r with Ok l => l | Err _ => [] end.

  (** lines 316-320 *)
  Definition own_names (modelpath : option str) (names : list str) : res (list str) :=
    match modelpath with None => Ok (map unback names) | Some _ => map_res (fun f => p <- abspath f ;; Ok (unback p)) names end.
  (** lines 369-380; modelpath None: 'unknown' *)
  Definition fix_path_case (modelpath : option str) (f : str) : res str :=
    if negb (is_text num f) then Err TypeError
    else if startswith f (S_ "/") then unix f
    else match modelpath with
         | None => Ok f
         | Some m => match (p <- unix (Deck_Model.path_join m f) ;; Ok (S_ "./" ++ unback (relpath p m))) with Err OSError2 => Ok f | r => r end
         end.
  Definition input_files (modelpath : option str) (names : list str) (d : dict_) : res (list str) :=
    own <- own_names modelpath names ;;
    named <- appends [structure_inputs d; aero_inputs d; dll_inputs d; wind_inputs d; ground_inputs d] ;;
    map_res (fix_path_case modelpath) (order (present num (map Some own ++ named ++ passed (wpdata d) ++ passed (force d)))).
End Input.
