(** Model of the extensions of HTC files (weio/wetb/hawc2/htc_extensions.py:47-140).
    SIMPLIFICATIONS: as in HTC_Model a value is its text; [toQ] is the (exact) value of a text that is a number, [ofQ] and [ofZ] the texts of a number and of
    an integer, [fmt04d], [fmt4f], [fmtf] and [fmt6E] the formats of Python; the package wetb is installed ([Some]) or not ([None]); a file name with another
    conversion than one %s is not modelled; nan and inf are not values. Each function gives the contents that are left, and the outcome. *)
From Verif Require Import Py FASTOut_Model HTC_Model HTCSim_Model.
From Coq Require Import QArith Qround.
Local Open Scope nat_scope.

(** Changes of a dictionary: what is left, and the outcome. *)
Definition change := dict_ -> dict_ * res unit.
Definition done : change := fun d => (d, Ok tt).
Definition fail (e : exn) : change := fun d => (d, Err e).
Definition andthen (f g : change) : change := fun d => let '(d1, r) := f d in match r with Ok _ => g d1 | Err e => (d1, Err e) end.
Notation "f >>> g" := (andthen f g) (at level 60, right associativity).
(** [x = compute(...)] from what is there, then a change *)
Definition with_ {A} (get : dict_ -> res A) (k : A -> change) : change := fun d => match get d with Ok a => k a d | Err e => (d, Err e) end.
(** the changes one after the other *)
Fixpoint all_ (l : list change) : change := match l with [] => done | f :: l' => f >>> all_ l' end.
(** [self.add_section(name)], htc_contents.py:139-156 for a name that is neither "output" nor "output_at_time ...", followed by the change [f] of that section;
    a line of that name makes the next step fail with [e] *)
Definition in_new (name : str) (e : exn) (f : change) : change := fun d =>
  match dget d name with
  | Some (Sec k nm bc ec cont ss) => let '(c, r) := f cont in (dset d name (Sec k nm bc ec c ss), r)
  | Some (Line _ _ _) => (d, Err e)
  | None => let '(c, r) := f [] in (dset d name (Sec Plain name [] [] c []), r)
  end.
(** [self.name...]: an item that must exist *)
Definition in_ (name : str) (e : exn) (f : change) : change := fun d =>
  match dget d name with
  | Some (Sec k nm bc ec cont ss) => let '(c, r) := f cont in (dset d name (Sec k nm bc ec c ss), r)
  | Some (Line _ _ _) => (d, Err e)
  | None => (d, Err KeyError)
  end.
(** [section.k = values] *)
Definition put (k : str) (vs : list str) : change := fun d => (set_key d k vs, Ok tt).
(** [section.add_line(k, values, comments)], htc_contents.py:212-215 *)
Definition line_ (k : str) (vs : list str) (c : str) : change := fun d =>
  match add_contents d (mk_line k vs c) with Ok d' => (d', Ok tt) | Err e => (d, Err e) end.
(** [del section.k], htc_contents.py:90-93 *)
Definition del (k : str) : change := fun d => (ddel d k, Ok tt).

Section Ext.
  Variable num : str -> option (res str).
  Variable toQ : str -> option Q.
  Variable ofQ : Q -> str.
  Variable ofZ : Z -> str.
  Variable fmt04d : str -> str.
  Variable fmt4f fmtf : Q -> str.

  (** [section.k = 'text'], htc_contents.py:77-78 *)
  Definition put_text (k text : str) : change := fun d => match words num text with Ok vs => (set_key d k vs, Ok tt) | Err e => (d, Err e) end.

  (** ** add_mann_turbulence, htc_extensions.py:47-89 *)
  Inductive files := Default | Stem (s : str) | Names (l : list str).
  Definition uvw : list str := [S_ "u"; S_ "v"; S_ "w"].
  (** lines 57-61; a section of that name is given an item named values *)
  Definition turb_parameters (pars : list str) : change := fun d =>
    if dmem d (S_ "create_turb_parameters") then (set_key d (S_ "create_turb_parameters") pars, Ok tt)
    else line_ (S_ "create_turb_parameters") pars (S_ "L, alfaeps, gamma, seed, highfrq compensation") d.
  (** lines 62-71; [wetb] gives the names of the package, for a component *)
  Definition file_names (wetb : option (str -> str)) (fs : files) (seed : str) : res (list str) :=
    match fs with
    | Default => match wetb with None => Err ModuleNotFoundError | Some nm => Ok (map (fun c => S_ "./turb/" ++ nm c) uvw) end
    | Stem s => Ok (map (fun c => S_ "./turb/" ++ s ++ S_ "_s" ++ fmt04d seed ++ c ++ S_ ".bin") uvw)
    | Names l => Ok l
    end.
  (** lines 72-73 *)
  Definition set_files (l : list str) : change := all_ (map (fun p => put_text (S_ "filename_" ++ snd p) (fst p)) (combine l uvw)).
  (** lines 74-75 *)
  Definition set_dim (c : str) (n : Z) (dim : Q) : change :=
    if Z.eqb n 0 then fail ZeroDivisionError else put_text (S_ "box_dim_" ++ c) (ofZ n ++ S_ " " ++ fmt4f (dim / inject_Z n)%Q).
  Definition set_dims (ns : list Z) (dims : list Q) : change :=
    all_ (map (fun p => set_dim (fst p) (fst (snd p)) (snd (snd p))) (combine uvw (combine ns dims))).
  (** lines 76-89 *)
  Definition scaling (dont_scale : bool) (std : option (Q * Q * Q)) : change :=
    (if dont_scale then put (S_ "dont_scale") [S_ "1"] else del (S_ "dont_scale")) >>>
    match std with
    | Some (a, b, c) => put_text (S_ "std_scaling") (fmtf a ++ S_ " " ++ fmtf b ++ S_ " " ++ fmtf c)
    | None => del (S_ "std_scaling")
    end.
  Definition hfc (b : bool) : str := if b then S_ "1" else S_ "0".
  Definition add_mann (wetb : option (str -> str)) (L ae23 gamma seed : str) (high : bool) (fs : files) (ns : list Z) (dims : list Q)
      (dont_scale : bool) (std : option (Q * Q * Q)) : change :=
    in_new (S_ "wind") TypeError
      (put (S_ "turb_format") [S_ "1"] >>>
       in_new (S_ "mann") TypeError
         (turb_parameters [L; ae23; gamma; seed; hfc high] >>>
          with_ (fun _ => file_names wetb fs seed) (fun l => set_files l) >>>
          set_dims ns dims >>> scaling dont_scale std)).

  (** ** add_turb_export, htc_extensions.py:91-104 *)
  (** [filename % c] *)
  Fixpoint percent (f c : str) : res str :=
    match f with
    | [] => Err TypeError
    | x :: f' =>
        if chr_eqb x (ch 37) then
          match f' with y :: f'' => if chr_eqb y (ch 115) && negb (existsb (chr_eqb (ch 37)) f'') then Ok (c ++ f'') else Err Unmodelled | [] => Err ValueError end
        else r <- percent f' c ;; Ok (x :: r)
    end.
  (** [self.a.b[i]] and [self.a.b.c[i]] *)
  Definition value2 (a b : string) (i : nat) (d : dict_) : res str := n <- attr d (S_ a) ;; m <- sub n (S_ b) ;; item m i.
  Definition value3 (a b c : string) (i : nat) (d : dict_) : res str := n <- attr d (S_ a) ;; m <- sub n (S_ b) ;; l <- sub m (S_ c) ;; item l i.
  Definition number (v : str) : res Q := match toQ v with Some q => Ok q | None => Err TypeError end.
  Definition deltat (d : dict_) : res Q := v <- value3 "simulation" "newmark" "deltat" 0 d ;; number v.
  (** [int(q)] *)
  Definition trunc (q : Q) : Z := Z.quot (Qnum q) (Zpos (Qden q)).
  Definition divide (a b : Q) : res Q := if Qeq_bool b 0 then Err ZeroDivisionError else Ok (a / b)%Q.
  (** line 95; [None] or the number 0 as samplefrq *)
  Definition sample (sf : option Z) (d : dict_) : res Z :=
    match sf with
    | Some (Zpos p) => Ok (Zpos p)
    | Some (Zneg p) => Ok (Zneg p)
    | _ =>
        b <- value3 "wind" "mann" "box_dim_u" 1 d ;; b <- number b ;;
        w <- value2 "wind" "wsp" 0 d ;; w <- number w ;;
        t <- deltat d ;; q <- divide b (w * t)%Q ;; Ok (Z.max 1 (trunc q))
    end.
  (** lines 97-100 *)
  Definition export_start (d : dict_) : res str :=
    o <- attr d (S_ "output") ;; if has o (S_ "time") then l <- sub o (S_ "time") ;; item l 0 else Ok (S_ "0").
  (** line 101 *)
  Definition export_steps (start : str) (d : dict_) : res Q :=
    t <- value2 "simulation" "time_stop" 0 d ;; t <- number t ;; s <- number start ;; dt <- deltat d ;; divide (t - s)%Q dt.
  (** [self.wind.mann['box_dim_v'].values] *)
  Definition mann_dim (c : str) (d : dict_) : res (list str) :=
    n <- attr d (S_ "wind") ;; m <- sub n (S_ "mann") ;; l <- sub m (S_ "box_dim_" ++ c) ;;
    match l with Line _ vs _ => Ok vs | Sec _ _ _ _ cont _ => if dmem cont (S_ "values") then Err Unmodelled else Err KeyError end.
  (** changes of the item [key] of the wind section: the new turb_export *)
  Definition in_export (key : str) (f : change) : change := in_ (S_ "wind") TypeError (in_ key TypeError f).
  Definition turb_export (filename : str) (sf : option Z) : change := fun d =>
    match dget d (S_ "wind") with
    | None => (d, Err KeyError)
    | Some (Line _ _ _) => (d, Err NotImplementedError)
    | Some (Sec k nm bc ec cont ss) =>
        match new_key cont (S_ "turb_export") with
        | None => (d, Err Unmodelled)
        | Some key =>
            (all_ (map (fun c => with_ (fun _ => percent filename c) (fun f => in_export key (line_ (S_ "filename_" ++ c) [f] []))) uvw) >>>
             with_ (sample sf) (fun z => in_export key (put (S_ "samplefrq") [ofZ z])) >>>
             with_ export_start (fun s => in_export key (put (S_ "time_start") [s]) >>>
                with_ (export_steps s) (fun q => in_export key (put (S_ "nsteps") [ofQ q]))) >>>
             all_ (map (fun c => with_ (mann_dim c) (fun vs => in_export key (line_ (S_ "box_dim_" ++ c) vs []))) [S_ "v"; S_ "w"]))
              (dset d (S_ "wind") (Sec k nm bc ec (dset cont key (Sec Plain (S_ "turb_export") [] [] [] [])) ss))
        end
    end.

  (** ** import_dtu_we_controller_input, htc_extensions.py:106-124 *)
  (** [text.replace(old, new)] for an [old] that is not empty *)
  Fixpoint replace_ (fuel : nat) (old text : str) : str :=
    match fuel with
    | 0 => text
    | S f =>
        match text with
        | [] => []
        | x :: t => if startswith text old then replace_ f old (skipn (List.length old) text) else x :: replace_ f old t
        end
    end.
  Definition remove_ (old : string) (text : str) : str := replace_ (S (List.length text)) (S_ old) text.
  Variable F : Type.
  Variable float_ : str -> option F.
  Variable fmt6E : F -> str.
  Definition value_of (text : str) : res F := match float_ text with Some x => Ok x | None => Err ValueError end.
  Definition nth_line (lines : list str) (i : nat) : res str := match nth_error lines i with Some l => Ok l | None => Err IndexError end.
  (** lines 110-117 *)
  Definition gain (lines : list str) (i : nat) (a b : string) : res F := l <- nth_line lines i ;; value_of (remove_ b (remove_ a l)).
  Definition gains (lines : list str) : res (list (str * F)) :=
    k <- gain lines 1 "K = " "[Nm/(rad/s)^2]" ;; p2 <- gain lines 4 "Kp = " "[Nm/(rad/s)]" ;; i2 <- gain lines 5 "Ki = " "[Nm/rad]" ;;
    p3 <- gain lines 7 "Kp = " "[rad/(rad/s)]" ;; i3 <- gain lines 8 "Ki = " "[rad/rad]" ;;
    l <- nth_line lines 9 ;;
    let kk := split_chr (ch 93) l in
    k1 <- gain kk 0 "K1 = " "[deg" ;; k2 <- gain kk 1 ", K2 = " "[deg^2" ;;
    Ok [(S_ "constant__11", k); (S_ "constant__12", p2); (S_ "constant__13", i2); (S_ "constant__16", p3); (S_ "constant__17", i3);
        (S_ "constant__21", k1); (S_ "constant__22", k2)].
  (** [cs.constant__11.values[1] = text] *)
  Definition set_second (k : str) (v : str) : change := fun d =>
    match dget d k with
    | None => (d, Err KeyError)
    | Some (Line nm (x :: _ :: vs) c) => (dset d k (Line nm (x :: v :: vs) c), Ok tt)
    | Some (Line _ _ _) => (d, Err IndexError)
    | Some (Sec _ _ _ _ cont _) => if dmem cont (S_ "values") then (d, Err Unmodelled) else (d, Err KeyError)
    end.
  (** line 107: the key of the first dll of that name; all are looked at *)
  Fixpoint controllers (l : list (str * node)) : res (list str) :=
    match l with
    | [] => Ok []
    | (k, n) :: l' => m <- sub n (S_ "name") ;; v <- item m 0 ;; r <- controllers l' ;; Ok (if str_eqb v (S_ "dtu_we_controller") then k :: r else r)
    end.
  Definition import_controller (lines : option (list str)) : change :=
    in_ (S_ "dll") TypeError (fun dll =>
      match controllers (iter_order node_name dll) with
      | Err e => (dll, Err e)
      | Ok [] => (dll, Err IndexError)
      | Ok (k :: _) =>
          match lines with
          | None => (dll, Err OSError2)
          | Some ls =>
              match gains ls with
              | Err e => (dll, Err e)
              | Ok gs => in_ k TypeError (in_ (S_ "init") TypeError (all_ (map (fun g => set_second (fst g) (fmt6E (snd g))) gs))) dll
              end
          end
      end).

  (** ** add_hydro, htc_extensions.py:126-131: the numbers by their texts *)
  Definition add_hydro (mudlevel mwl gravity rho : str) : change :=
    in_new (S_ "hydro") NotImplementedError
      (in_new (S_ "water_properties") TypeError
         (put (S_ "mudlevel") [mudlevel] >>> put (S_ "mwl") [mwl] >>> put (S_ "gravity") [gravity] >>> put (S_ "rho") [rho])).

  (** ** get_shear, htc_extensions.py:134-146: the wind speed at a height; [power] is that of the package wetb *)
  Definition get_shear (wetb : option (Q -> Q -> Q -> Q -> Q)) (d : dict_) : res (Q -> res str) :=
    w <- attr d (S_ "wind") ;;
    l <- sub w (S_ "shear_format") ;;
    '(t, p) <- (match l with
                | Line _ [t; p] _ => Ok (t, p)
                | Line _ _ _ => Err ValueError
                | Sec _ _ _ _ cont _ => if dmem cont (S_ "values") then Err Unmodelled else Err KeyError
                end) ;;
    c <- sub w (S_ "center_pos0") ;; z <- item c 2 ;; z <- number z ;;
    s <- sub w (S_ "wsp") ;; wsp <- item s 0 ;;
    match toQ t with
    | Some q =>
        if Qeq_bool q 1 then Ok (fun _ => Ok wsp)
        else if Qeq_bool q 3 then
          match wetb with
          | None => Err ModuleNotFoundError
          | Some f => Ok (fun h => p <- number p ;; v <- number wsp ;; Ok (ofQ (f p (- z)%Q v h)))
          end
        else Err NotImplementedError
    | None => Err NotImplementedError
    end.
End Ext.
