(** Model of weio/cactus_file.py: what is read of the files of a CACTUS simulation, and the data frame with OpenFAST labels.
    SIMPLIFICATIONS: numbers are exact rationals; pi, the cosine and the sine are given; the namelist parser and the CSV reader are those
    of other modules (the CSV reader is CSV_Model): the model starts from the two groups of the namelist and the frames of the CSV files;
    paths are not joined; the object is fresh when it is read; messages are not modelled. *)
From Verif Require Import Py.
From Verif Require Import Dict.
From Coq Require Import QArith Qround.
Local Open Scope nat_scope.

(** A frame: named columns in order; two columns may have the same name *)
Definition frame := list (str * list Q).
Definition rows (df : frame) : nat := match df with [] => 0 | (_, c) :: _ => List.length c end.
Definition names (df : frame) : list str := map fst df.
(** Values of the namelist and of the geometry *)
Inductive gv := GNum (q : Q) | GInt (n : nat) | GArr (l : list Q) | GText (s : str) | GNone.

(** ** Reading (cactus_file.py:51-129) *)
Section Read.
Variable num : str -> option Q.
Fixpoint mapO {A B} (f : A -> option B) (l : list A) : option (list B) :=
  match l with [] => Some [] | x :: l' => match f x, mapO f l' with Some y, Some ys => Some (y :: ys) | _, _ => None end end.
(** The value of a line of the geometry: an array of floats, a number when there is one, else the text as it is (lines 77-82) *)
Definition geom_value (s : str) : gv :=
  match mapO num (split_ws s) with Some [q] => GNum q | Some l => GArr l | None => GText s end.
(** One line (lines 72-83) *)
Definition geom_line (g : @dict gv) (line : str) : res (@dict gv) :=
  let line := hd [] (split_chr "!"%char (strip line)) in
  let sp := split_chr ":"%char (strip line) in
  let key := lower (strip (hd [] sp)) in
  if nonempty key then match sp with _ :: v :: _ => Ok (put g key (geom_value v)) | _ => Err IndexError end
  else Ok g.
(** The loop stops after the line of index 10 (lines 70-85) *)
Definition NMAX : nat := 10.
Fixpoint geom_lines (g : @dict gv) (i : nat) (lines : list str) : res (@dict gv) :=
  match lines with
  | [] => Ok g
  | l :: lines' => g' <- geom_line g l ;; if i =? NMAX then Ok g' else geom_lines g' (S i) lines'
  end.
Definition default_geom : @dict gv := [(S_ "nblade", GInt 1); (S_ "refr", GNum (328084 # 100000)); (S_ "refar", GNum (2 # 1)); (S_ "file", GNone)].
(** The geometry: [file] is the content of the file of that path, if there is one (lines 66-90) *)
Definition read_geom (path : str) (file : option (list str)) : res (@dict gv) :=
  match file with None => Ok default_geom | Some lines => g <- geom_lines [] 0 lines ;; Ok (put g (S_ "file") (GText path)) end.

(** The names of the columns of the time data (lines 95-103) *)
Definition FIRST : nat := 8.
Definition blade_cols (i : nat) : list str :=
  map (fun x => S_ "Blade" ++ str_of_N (N.of_nat i) ++ S_ x) [" Fx Coeff. (-)"; " Fy Coeff. (-)"; " Fz Coeff. (-)"; " Torque Coeff. (-)"]%string.
Definition count_name (k : str) (l : list str) : nat := List.length (filter (str_eqb k) l).
Definition nblades (df : frame) : nat := count_name (S_ "Blade Fx Coeff. (-)") (names df).
Definition new_names (df : frame) : list str := firstn FIRST (names df) ++ flat_map (fun i => blade_cols (i + 1)) (seq 0 (nblades df)).
Definition rename (df : frame) : res frame :=
  if List.length (new_names df) =? List.length df then Ok (combine (new_names df) (map snd df)) else Err ValueError.

(** A CSV file of the output directory *)
Inductive csv := Missing | Empty | Broken (e : exn) | Found (df : frame).
Record cactus := mk_cactus { config : @dict gv; cases : @dict gv; geom : @dict gv; dfTime : option frame; dfElem : option frame; dfDS : option frame }.
Definition group (nml : @dict (@dict gv)) (k : string) : res (@dict gv) := match get nml (S_ k) with Some d => Ok d | None => Err KeyError end.
Definition item (d : @dict gv) (k : string) : res gv := match get d (S_ k) with Some v => Ok v | None => Err KeyError end.
Definition text (v : gv) : res str := match v with GText s => Ok s | _ => Err TypeError end.
Definition read_cactus (nml : @dict (@dict gv)) (geometry : str -> option (list str)) (time elem ds : csv) : res cactus :=
  co <- group nml "configinputs" ;; ca <- group nml "caseinputs" ;;
  a <- item ca "afdpath" ;; _ <- text a ;; p <- item ca "geomfilepath" ;; p <- text p ;;
  g <- read_geom p (geometry p) ;;
  '(g, t) <- match time with
             | Missing => Ok (g, None)
             | Empty => Err EmptyFileError
             | Broken e => Err e
             | Found df => df' <- rename df ;; Ok (put g (S_ "nblade") (GInt (nblades df)), Some df')
             end ;;
  e <- match elem with Missing => Ok None | Empty => Err EmptyFileError | Broken e => Err e | Found df => Ok (Some df) end ;;
  d <- match ds with Missing | Empty => Ok None | Broken OSError2 => Ok None | Broken EmptyFileError => Ok None | Broken e => Err e | Found df => Ok (Some df) end ;;
  Ok (mk_cactus co ca g t e d).
End Read.

(** ** Labels of OpenFAST (cactus_file.py:132-361) *)
Section Labels.
Variables (pi : Q) (cos sin : Q -> Q).
Local Open Scope Q_scope.
Definition number (v : gv) : res Q := match v with GNum q => Ok q | GInt n => Ok (inject_Z (Z.of_nat n)) | _ => Err Unmodelled end.
Definition num_item (d : @dict gv) (k : string) : res Q := v <- item d k ;; number v.
(** Division of python floats *)
Definition pydiv (a b : Q) : res Q := if Qeq_bool b 0 then Err ZeroDivisionError else Ok (a / b).
Definition FEET : Q := 328084 # 100000.
(** omega, dt, R, A (lines 132-172); [U] divides a numpy number when there is a geometry file: its infinity is not modelled *)
Definition omega_of (o : cactus) : res Q := r <- num_item (cases o) "rpm" ;; Ok (r * 2 * pi / 60).
Definition dt_of (o : cactus) : res Q :=
  _ <- num_item (config o) "nr" ;; n <- num_item (config o) "nti" ;; w <- omega_of o ;; t <- pydiv (2 * pi) w ;; pydiv t n.
Definition R_of (o : cactus) : res Q := f <- item (geom o) "file" ;; match f with GNone => Ok 1 | _ => r <- num_item (geom o) "refr" ;; Ok (r / FEET) end.
Definition A_of (o : cactus) : res Q :=
  a <- item (geom o) "refar" ;;
  match a with GNone => r <- R_of o ;; Ok ((2 * r) ^ 2) | _ => a <- number a ;; r <- num_item (geom o) "refr" ;; Ok (a * r ^ 2 / FEET ^ 2) end.
Definition U_of (o : cactus) : res Q :=
  w <- omega_of o ;; r <- R_of o ;; u <- num_item (cases o) "ut" ;;
  f <- item (geom o) "file" ;; match f with GNone => pydiv (w * r) u | _ => if Qeq_bool u 0 then Err Unmodelled else Ok (w * r / u) end.
(** time = np.arange(0, nr*nti) * dt (lines 179-185) *)
Definition time_of (o : cactus) : res (list Q) :=
  a <- num_item (config o) "nr" ;; b <- num_item (config o) "nti" ;; d <- dt_of o ;;
  Ok (map (fun i => inject_Z (Z.of_nat i) * d) (seq 0 (Z.to_nat (Qceiling (a * b))))).

(** df[name] *)
Definition col (df : frame) (k : str) : res (list Q) :=
  match filter (fun c => str_eqb (fst c) k) df with [] => Err KeyError | [c] => Ok (snd c) | _ => Err Unmodelled end.
(** df.insert(c, name, values): the name must be new, the length that of the frame *)
Definition insert (c : nat) (k : str) (v : list Q) (df : frame) : res frame :=
  if existsb (str_eqb k) (names df) then Err ValueError
  else if negb (List.length v =? rows df)%nat then Err ValueError else Ok (firstn c df ++ (k, v) :: skipn c df).
(** df[name].values[0] = df[name].values[1] *)
Definition second_first (v : list Q) : res (list Q) := match v with _ :: b :: r => Ok (b :: b :: r) | _ => Err IndexError end.
Definition set_col (k : str) (v : list Q) (df : frame) : frame := map (fun c => if str_eqb (fst c) k then (k, v) else c) df.
(** What is done to the frame, in order; the frame is changed in place, so that it is known also when something fails *)
Inductive step := Ins (k : str) (f : frame -> res (list Q)) | Fix (k : str).
Fixpoint run (c : nat) (df : frame) (l : list step) : frame * res nat :=
  match l with
  | [] => (df, Ok c)
  | Ins k f :: l' => match v <- f df ;; insert c k v df with Ok df' => run (S c) df' l' | Err e => (df, Err e) end
  | Fix k :: l' => match v <- col df k ;; second_first v with Ok v => run c (set_col k v df) l' | Err e => (df, Err e) end
  end.
Definition zip (f : Q -> Q -> Q) (a b : list Q) : list Q := map (fun p => f (fst p) (snd p)) (combine a b).
Definition scaled (k : string) (x : Q) (df : frame) : res (list Q) := v <- col df (S_ k) ;; Ok (map (fun a => a * x) v).
Definition minus (k : string) (x : Q) (df : frame) : res (list Q) := v <- col df (S_ k) ;; Ok (map (fun a => - a * x) v).
(** (cos*X - sin*Z)*F and -(cos*Z + sin*X)*F *)
Definition turned_y (ang : list Q) (kx kz : str) (F : Q) (df : frame) : res (list Q) :=
  x <- col df kx ;; z <- col df kz ;; Ok (map (fun a => a * F) (zip Qminus (zip (fun t a => cos t * a) ang x) (zip (fun t a => sin t * a) ang z))).
Definition turned_z (ang : list Q) (kx kz : str) (F : Q) (df : frame) : res (list Q) :=
  z <- col df kz ;; x <- col df kx ;; Ok (map (fun a => - a * F) (zip Qplus (zip (fun t a => cos t * a) ang z) (zip (fun t a => sin t * a) ang x))).
Definition qmod (a b : Q) : Q := a - b * inject_Z (Qfloor (a / b)).
Definition ones (l : list Q) (x : Q) : list Q := map (fun _ => x) l.
Definition bl (i : nat) : str := str_of_N (N.of_nat i).
(** Lines 219-244 *)
Definition rotor_steps (time theta : list Q) (U rpm P0 F0 Q0 : Q) : list step :=
  [ Ins (S_ "Time_[s]") (fun _ => Ok time);
    Ins (S_ "Azimuth_[deg]") (fun _ => Ok (map (fun t => qmod (t * 180 / pi) 360) theta));
    Ins (S_ "HWindSpeedX_[m/s]") (fun _ => Ok (ones time U));
    Ins (S_ "RtAeroCp_[-]") (fun df => col df (S_ "Power Coeff. (-)"));
    Ins (S_ "RtAeroCq_[-]") (fun df => col df (S_ "Torque Coeff. (-)"));
    Ins (S_ "ZAeroFxg_[N]") (scaled "Fx Coeff. (-)" F0);
    Ins (S_ "ZAeroFyg_[N]") (minus "Fz Coeff. (-)" F0);
    Ins (S_ "ZAeroFzg_[N]") (scaled "Fy Coeff. (-)" F0);
    Ins (S_ "ZAeroMzg_[N-m]") (scaled "Torque Coeff. (-)" Q0);
    Ins (S_ "RtAeroFxh_[N]") (scaled "Fy Coeff. (-)" F0);
    Ins (S_ "RtAeroFyh_[N]") (turned_y theta (S_ "Fx Coeff. (-)") (S_ "Fz Coeff. (-)") F0);
    Ins (S_ "RtAeroFzh_[N]") (turned_z theta (S_ "Fx Coeff. (-)") (S_ "Fz Coeff. (-)") F0);
    Ins (S_ "RtAeroMxh_[N-m]") (scaled "Torque Coeff. (-)" Q0);
    Ins (S_ "RtAeroPwr_[W]") (scaled "Power Coeff. (-)" P0);
    Fix (S_ "RtAeroPwr_[W]");
    Ins (S_ "RotSpeed_[rpm]") (fun _ => Ok (ones time rpm)) ].
Definition bcol (i : nat) (x : string) : str := S_ "Blade" ++ bl i ++ S_ x.
Definition scaled_b (i : nat) (k : string) (x : Q) (df : frame) : res (list Q) := v <- col df (bcol i k) ;; Ok (map (fun a => a * x) v).
Definition minus_b (i : nat) (k : string) (x : Q) (df : frame) : res (list Q) := v <- col df (bcol i k) ;; Ok (map (fun a => - a * x) v).
(** One blade (lines 254-270) *)
Definition blade_steps (theta : list Q) (F0 Q0 w azi : Q) (i : nat) : list step :=
  let psi := map (fun t => t - azi) theta in
  let X := bcol i " Fx Coeff. (-)" in let Z := bcol i " Fz Coeff. (-)" in
  [ Ins (S_ "Y" ++ bl i ++ S_ "AeroFxb_[N]") (turned_z psi X Z F0);
    Ins (S_ "Y" ++ bl i ++ S_ "AeroFyb_[N]") (turned_y psi X Z F0);
    Ins (S_ "Y" ++ bl i ++ S_ "AeroFzb_[N]") (minus_b i " Fy Coeff. (-)" F0);
    Ins (S_ "Y" ++ bl i ++ S_ "AeroMxb_[N-m]") (scaled_b i " Torque Coeff. (-)" Q0);
    Ins (S_ "Y" ++ bl i ++ S_ "AeroPwr_[W]") (fun df => v <- scaled_b i " Torque Coeff. (-)" Q0 df ;; Ok (map (fun a => a * w) v));
    Ins (S_ "Z" ++ bl i ++ S_ "AeroFxg_[N]") (scaled_b i " Fx Coeff. (-)" F0);
    Ins (S_ "Z" ++ bl i ++ S_ "AeroFyg_[N]") (minus_b i " Fz Coeff. (-)" F0);
    Ins (S_ "Z" ++ bl i ++ S_ "AeroFzg_[N]") (scaled_b i " Fy Coeff. (-)" F0);
    Ins (S_ "Z" ++ bl i ++ S_ "AeroMzg_[N-m]") (scaled_b i " Torque Coeff. (-)" Q0);
    Fix (S_ "Y" ++ bl i ++ S_ "AeroPwr_[W]") ].
(** np.linspace(0, 2*np.pi, nBld+1)[:-1] *)
Definition azimuths (n : nat) : list Q := map (fun i => inject_Z (Z.of_nat i) * (2 * pi / inject_Z (Z.of_nat n))) (seq 0 n).
Definition blade_number (o : cactus) : res nat := v <- item (geom o) "nblade" ;; match v with GInt n => Ok n | _ => Err Unmodelled end.
(** The quantities of lines 191-214: time, theta, R, U, P0, F0, Q0 *)
Record scales := mk_scales { s_time : list Q; s_theta : list Q; s_U : Q; s_rpm : Q; s_w : Q; s_P0 : Q; s_F0 : Q; s_Q0 : Q }.
Definition scales_of (o : cactus) (n : nat) : res scales :=
  _ <- num_item (config o) "nr" ;; _ <- num_item (config o) "nti" ;; _ <- num_item (cases o) "ut" ;; _ <- item (cases o) "ctexcrm" ;;
  rho <- num_item (cases o) "rho" ;;
  let rho := rho * (12 # 10) / (2328 # 1000000) in
  time <- time_of o ;;
  let time := if (n <? List.length time)%nat then firstn n time else time in
  w <- omega_of o ;; R <- R_of o ;; U <- U_of o ;; A <- A_of o ;; rpm <- num_item (cases o) "rpm" ;;
  Ok (mk_scales time (map (fun t => t * w) time) U rpm w ((1 # 2) * rho * A * U ^ 3) ((1 # 2) * rho * A * U ^ 2) ((1 # 2) * rho * A * U ^ 2 * R)).
(** timeDataToOpenFAST (lines 188-275): the frame of the object, changed, and the number of columns inserted; a missing frame is answered by None *)
Definition time_data (o : cactus) (df : frame) : frame * res nat :=
  match scales_of o (rows df) with
  | Err e => (df, Err e)
  | Ok s =>
      match run 0 df (rotor_steps (s_time s) (s_theta s) (s_U s) (s_rpm s) (s_P0 s) (s_F0 s) (s_Q0 s)) with
      | (df, Err e) => (df, Err e)
      | (df, Ok c) =>
          match blade_number o with
          | Err e => (df, Err e)
          | Ok n =>
              run c df (flat_map (fun i => blade_steps (s_theta s) (s_F0 s) (s_Q0 s) (s_w s) (nth i (azimuths n) 0) (i + 1)) (seq 0 n)
                        ++ [Ins (S_ "Wind1VelX_[m/s]") (fun _ => Ok (ones (s_time s) (s_U s)))])
          end
      end
  end.

(** *** Elements (lines 278-361) *)
(** np.unique(values).astype(int) *)
Fixpoint qinsert (x : Q) (l : list Q) : list Q := match l with [] => [x] | y :: l' => if Qeq_bool x y then l else if Qle_bool x y then x :: l else y :: qinsert x l' end.
Definition unique (l : list Q) : list Q := fold_left (fun acc x => qinsert x acc) l [].
Definition trunc (q : Q) : Z := Z.quot (Qnum q) (Zpos (Qden q)).
(** df[df[name]==z] *)
Definition pick {A} (m : list bool) (l : list A) : list A := map snd (filter fst (combine m l)).
Definition where_ (df : frame) (k : string) (z : Z) : res frame :=
  v <- col df (S_ k) ;; let m := map (fun x => Qeq_bool x (inject_Z z)) v in Ok (map (fun c => (fst c, pick m (snd c))) df).
(** '{:d}' and '{:03d}' *)
Definition d3 (z : Z) : str :=
  if (z <? 0)%Z then let s := str_of_Z (- z) in "-"%char :: repeat "0"%char (2 - List.length s) ++ s
  else let s := str_of_Z z in repeat "0"%char (3 - List.length s) ++ s.
Definition label (b e : Z) (x : string) : str := S_ "AB" ++ str_of_Z b ++ S_ "N" ++ d3 e ++ S_ x.
Definition times (a : Q) (sec : frame) (k : string) : res (list Q) := v <- col sec (S_ k) ;; Ok (map (fun x => a * x) v).
Definition after (sec : frame) (k : string) (f : Q -> Q) : res (list Q) := v <- col sec (S_ k) ;; Ok (map f v).
(** Lines 316-345: the induced velocities are computed first *)
Definition elem_steps (b e : Z) (sg U R : Q) (psi ux uz : list Q) (sec : frame) : list step :=
  [ Ins (label b e "Alpha_[deg]") (fun _ => times sg sec "AOA25 (deg)"); Ins (label b e "Alpha50_[deg]") (fun _ => times sg sec "AOA50 (deg)");
    Ins (label b e "Alpha75_[deg]") (fun _ => times sg sec "AOA75 (deg)"); Ins (label b e "Cl_[-]") (fun _ => times sg sec "CL (-)");
    Ins (label b e "Cd_[-]") (fun _ => col sec (S_ "CD (-)")); Ins (label b e "Cm_[-]") (fun _ => times sg sec "CM25 (-)");
    Ins (label b e "Cn_[-]") (fun _ => times sg sec "CN (-)"); Ins (label b e "Ct_[-]") (fun _ => times sg sec "CT (-)");
    Ins (label b e "Ct2_[-]") (fun _ => cl <- col sec (S_ "CL (-)") ;; cd <- col sec (S_ "CD (-)") ;; al <- after sec "AOA25 (deg)" (fun x => x * pi / 180) ;;
                               Ok (map (fun x => sg * x) (zip Qplus (zip (fun a c => - c * sin a) al cl) (zip (fun a c => c * cos a) al cd))));
    Ins (label b e "Cxg_[-]") (fun _ => col sec (S_ "Fx (-)")); Ins (label b e "Cyg_[-]") (fun _ => after sec "Fz (-)" Qopp); Ins (label b e "Czg_[-]") (fun _ => col sec (S_ "Fy (-)"));
    Ins (label b e "ClC_[-]") (fun _ => times sg sec "CLCirc (-)"); Ins (label b e "Re_[-]") (fun _ => after sec "Re (-)" (fun x => x / 1000000));
    Ins (label b e "Gam_[m^2/s]") (fun _ => after sec "GB (?)" (fun x => sg * x * U * R)); Ins (label b e "Vrel_[m/s]") (fun _ => after sec "Ur (-)" (fun x => x * U));
    Ins (label b e "Vindx_[m/s]") (fun _ => Ok (map Qopp (zip Qplus (zip (fun t a => cos t * a) psi uz) (zip (fun t a => sin t * a) psi ux))));
    Ins (label b e "Vindy_[m/s]") (fun _ => Ok (zip Qminus (zip (fun t a => cos t * a) psi ux) (zip (fun t a => sin t * a) psi uz))) ].
(** Lines 347-353, dynamic stall, and 355-369, in which every exception is ignored: after the column dalphaD and after alphaDot2 the
    position is not moved, and the latter always ends with a TypeError *)
Definition ds_steps (b e : Z) (sg : Q) (sec : frame) : list step :=
  [ Ins (label b e "alpha_34_[deg]") (fun _ => times sg sec "alpha (deg)"); Ins (label b e "alphaE_[deg]") (fun _ => times sg sec "alrefL (deg)");
    Ins (label b e "alphaED_[deg]") (fun _ => times sg sec "alrefD (deg)"); Ins (label b e "adotnorm_[-]") (fun _ => times sg sec "adotnorm (-)") ].
Definition try_steps (b e : Z) (sg : Q) (sec : frame) : list (step * bool) :=
  [ (Ins (label b e "activeL_[-]") (fun _ => col sec (S_ "DynamicFlagL")), true); (Ins (label b e "activeD_[-]") (fun _ => col sec (S_ "DynamicFlagD")), true);
    (Ins (label b e "alphaLagD_[deg]") (fun _ => times sg sec "alphaLagD (deg)"), true); (Ins (label b e "delP_[-]") (fun _ => col sec (S_ "delN")), true);
    (Ins (label b e "delN_[-]") (fun _ => col sec (S_ "delP")), true); (Ins (label b e "transA_[-]") (fun _ => col sec (S_ "transA")), true);
    (Ins (label b e "gammaL_[-]") (fun _ => col sec (S_ "gammaL")), true); (Ins (label b e "gammaD_[-]") (fun _ => col sec (S_ "gammaD")), true);
    (Ins (label b e "dalphaL_[deg]") (fun _ => times sg sec "dalphaL (deg)"), true);
    (Ins (label b e "dalphaD_[deg]") (fun _ => a <- col sec (S_ "alpha (deg)") ;; d <- col sec (S_ "alrefD (deg)") ;; Ok (zip (fun x y => sg * (x - y)) a d)), false);
    (Ins (label b e "Tu_[s]") (fun _ => col sec (S_ "Tu")), true); (Ins (label b e "alphaDot_[rad/s]") (fun _ => times sg sec "alphadot"), true);
    (Ins (label b e "alphaDot2_[rad/s]") (fun _ => a <- after sec "alpha (deg)" Qopp ;; Ok (0 :: zip (fun x y => y - x) a (tl a))), false) ].
Fixpoint run_try (c : nat) (df : frame) (l : list (step * bool)) : frame * nat :=
  match l with
  | [] => (df, c)
  | (s, moves) :: l' => match run c df [s] with (df', Ok c') => run_try (if moves then c' else c) df' l' | (df', Err _) => (df', c) end
  end.
Section Elements.
Variables (o : cactus) (sg U R : Q) (theta : list Q) (elem : frame) (ds : option frame) (az : list Q).
(** l[z] of python *)
Definition py_at (l : list Q) (z : Z) : res Q :=
  let z := if (z <? 0)%Z then (z + Z.of_nat (List.length l))%Z else z in
  if (z <? 0)%Z then Err IndexError else match nth_error l (Z.to_nat z) with Some x => Ok x | None => Err IndexError end.
(** An element (lines 311-369): skipped when it has not as many rows as the frame *)
Definition element (b : Z) (psi : list Q) (bld : frame) (bds : option frame) (c : nat) (df : frame) (e : Z) : frame * res nat :=
  match where_ bld "Element" e with
  | Err x => (df, Err x)
  | Ok sec =>
      if negb (rows sec =? rows df)%nat then (df, Ok c)
      else
        match ux <- after sec "IndU (-)" (fun x => x * U) ;; _ <- col sec (S_ "IndV (-)") ;; uz <- after sec "IndW (-)" (fun x => x * U) ;; Ok (ux, uz) with
        | Err x => (df, Err x)
        | Ok (ux, uz) =>
            match run c df (elem_steps b e sg U R psi ux uz sec) with
            | (df, Err x) => (df, Err x)
            | (df, Ok c) =>
                match bds with
                | None => (df, Ok c)
                | Some bds =>
                    match where_ bds "Element" e with
                    | Err x => (df, Err x)
                    | Ok secds =>
                        match run c df (ds_steps b e sg secds) with
                        | (df, Err x) => (df, Err x)
                        | (df, Ok c) => let (df, c) := run_try c df (try_steps b e sg secds) in (df, Ok c)
                        end
                    end
                end
            end
        end
  end.
Fixpoint elements (b : Z) (psi : list Q) (bld : frame) (bds : option frame) (c : nat) (df : frame) (es : list Z) : frame * res nat :=
  match es with
  | [] => (df, Ok c)
  | e :: es' => match element b psi bld bds c df e with (df', Ok c') => elements b psi bld bds c' df' es' | (df', Err x) => (df', Err x) end
  end.
(** A blade (lines 302-310) *)
Definition blade (c : nat) (df : frame) (b : Z) : frame * res nat :=
  match
    bld <- where_ elem "Blade" b ;;
    bds <- match ds with None => Ok None | Some d => x <- where_ d "Blade" b ;; Ok (Some x) end ;;
    es <- col bld (S_ "Element") ;; azi <- py_at az (b - 1) ;; Ok (bld, bds, map trunc (unique es), azi)
  with
  | Err x => (df, Err x)
  | Ok (bld, bds, es, azi) => elements b (map (fun t => t - azi) theta) bld bds c df es
  end.
Fixpoint blades (c : nat) (df : frame) (bs : list Z) : frame * res nat :=
  match bs with
  | [] => (df, Ok c)
  | b :: bs' => match blade c df b with (df', Ok c') => blades c' df' bs' | (df', Err x) => (df', Err x) end
  end.
End Elements.
Definition elem_data (o : cactus) (sg : Q) (elem : frame) (ds : option frame) (df : frame) (c : nat) : frame * res nat :=
  match
    U <- U_of o ;; R <- R_of o ;; n <- blade_number o ;; time <- time_of o ;; w <- omega_of o ;; bs <- col elem (S_ "Blade") ;;
    let time := if (rows df <? List.length time)%nat then firstn (rows df) time else time in
    Ok (U, R, n, map (fun t => t * w) time, map trunc (unique bs))
  with
  | Err x => (df, Err x)
  | Ok (U, R, n, theta, bs) => blades sg U R theta elem ds (azimuths n) c df bs
  end.
(** toDataFrame (lines 377-381): the object afterwards, and the frame. Without time data, and without element data, the answer of the
    method is not a pair; a frame unpacked as a pair has too many columns. *)
Definition with_time (o : cactus) (df : frame) : cactus := mk_cactus (config o) (cases o) (geom o) (Some df) (dfElem o) (dfDS o).
Definition to_frame (sg : Q) (o : cactus) : cactus * res frame :=
  match dfTime o with
  | None => (o, Err TypeError)
  | Some df =>
      match time_data o df with
      | (df, Err e) => (with_time o df, Err e)
      | (df, Ok c) =>
          match dfElem o with
          | None => (with_time o df, if (List.length df =? 2)%nat then Err Unmodelled else Err ValueError)
          | Some elem => match elem_data o sg elem (dfDS o) df c with (df, Ok _) => (with_time o df, Ok df) | (df, Err e) => (with_time o df, Err e) end
          end
      end
  end.
End Labels.
