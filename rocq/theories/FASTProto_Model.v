(** Model of the empty files of the dedicated FAST formats (weio/fast_input_file.py:248-279, 990-991, 1309-1344, 1395-1405, 1489-1554):
    [EDBladeFile()], [ADBladeFile()] and [ADPolarFile(hasUA=, numTabs=)].
    SIMPLIFICATIONS: a number with decimals is the text that it is written with; None is the answer when a line would replace a table, which is not modelled;
    a negative number of tables is not modelled. *)
From Verif Require Import Py FASTIn_Model FASTTab_Model FASTFile_Model FASTSpec_Model.
Local Open Scope nat_scope.

(** The calls that build the file *)
Inductive step :=
| add_comment (s : str)
| add_key_val (k : str) (v : val) (descr : str)
| add_table (label : str) (kind : tkind) (dim : dimvar) (cols units : list str).
Section Proto.
Context {V : Type}.
Local Notation ent := (FASTFile_Model.entry V).
(** [addKeyVal] (fast_input_file.py:249-260): the first entry of that label in any case is replaced *)
Fixpoint put_line (k : str) (v : val) (descr : str) (es : list ent) : option (list ent) :=
  match es with
  | [] => Some [Item (mkItem v k false descr NOT_A_TAB)]
  | e :: es' =>
      if str_eqb (lower (label_of e)) (lower k) then match e with Item d => Some (Item (mkItem v k (it_comment d) descr (it_tab d)) :: es') | _ => None end
      else option_map (cons e) (put_line k v descr es')
  end.
(** [addComment], [addTable] (fast_input_file.py:265-279); np.zeros((0,n)) *)
Definition do_step (es : list ent) (s : step) : option (list ent) :=
  match s with
  | add_comment c => Some (es ++ [Item (mkItem (VStr c) [] true [] NOT_A_TAB)])
  | add_key_val k v d => put_line k v d es
  | add_table l k dim cols units => Some (es ++ [Tab l [] k dim (Nums []) (Some cols) (Some units)])
  end.
Fixpoint run (l : list step) (es : list ent) : option (list ent) :=
  match l with [] => Some es | s :: l' => match do_step es s with Some es' => run l' es' | None => None end end.
End Proto.

(** fast_input_file.py:1314-1343 *)
Definition ED_STEPS : list step :=
  [ add_comment (S_ "------- ELASTODYN V1.00.* INDIVIDUAL BLADE INPUT FILE --------------------------")
  ; add_comment (S_ "ElastoDyn blade definition, written by EDBladeFile.")
  ; add_comment (S_ "---------------------- BLADE PARAMETERS ----------------------------------------")
  ; add_key_val (S_ "NBlInpSt") (VInt 0) (S_ "Number of blade input stations (-)")
  ; add_key_val (S_ "BldFlDmp(1)") (VFloat (S_ "1.0")) (S_ "Blade flap mode #1 structural damping in percent of critical (%)")
  ; add_key_val (S_ "BldFlDmp(2)") (VFloat (S_ "1.0")) (S_ "Blade flap mode #2 structural damping in percent of critical (%)")
  ; add_key_val (S_ "BldEdDmp(1)") (VFloat (S_ "1.0")) (S_ "Blade edge mode #1 structural damping in percent of critical (%)")
  ; add_comment (S_ "---------------------- BLADE ADJUSTMENT FACTORS --------------------------------")
  ; add_key_val (S_ "FlStTunr(1)") (VFloat (S_ "1.0")) (S_ "Blade flapwise modal stiffness tuner, 1st mode (-)")
  ; add_key_val (S_ "FlStTunr(2)") (VFloat (S_ "1.0")) (S_ "Blade flapwise modal stiffness tuner, 2nd mode (-)")
  ; add_key_val (S_ "AdjBlMs") (VFloat (S_ "1.0")) (S_ "Factor to adjust blade mass density (-)")
  ; add_key_val (S_ "AdjFlSt") (VFloat (S_ "1.0")) (S_ "Factor to adjust blade flap stiffness (-)")
  ; add_key_val (S_ "AdjEdSt") (VFloat (S_ "1.0")) (S_ "Factor to adjust blade edge stiffness (-)")
  ; add_comment (S_ "---------------------- DISTRIBUTED BLADE PROPERTIES ----------------------------")
  ; add_table (S_ "BldProp") NumHeader (Key (S_ "NBlInpSt")) [S_ "BlFract"; S_ "PitchAxis"; S_ "StrcTwst"; S_ "BMassDen"; S_ "FlpStff"; S_ "EdgStff"] [S_ "(-)"; S_ "(-)"; S_ "(deg)"; S_ "(kg/m)"; S_ "(Nm^2)"; S_ "(Nm^2)"]
  ; add_comment (S_ "---------------------- BLADE MODE SHAPES ---------------------------------------")
  ; add_key_val (S_ "BldFl1Sh(2)") (VFloat (S_ "1.0")) (S_ "Flap mode 1, coeff of x^2")
  ; add_key_val (S_ "BldFl1Sh(3)") (VFloat (S_ "0.0")) (S_ "           , coeff of x^3")
  ; add_key_val (S_ "BldFl1Sh(4)") (VFloat (S_ "0.0")) (S_ "           , coeff of x^4")
  ; add_key_val (S_ "BldFl1Sh(5)") (VFloat (S_ "0.0")) (S_ "           , coeff of x^5")
  ; add_key_val (S_ "BldFl1Sh(6)") (VFloat (S_ "0.0")) (S_ "           , coeff of x^6")
  ; add_key_val (S_ "BldFl2Sh(2)") (VFloat (S_ "1.0")) (S_ "Flap mode 2, coeff of x^2")
  ; add_key_val (S_ "BldFl2Sh(3)") (VFloat (S_ "0.0")) (S_ "           , coeff of x^3")
  ; add_key_val (S_ "BldFl2Sh(4)") (VFloat (S_ "0.0")) (S_ "           , coeff of x^4")
  ; add_key_val (S_ "BldFl2Sh(5)") (VFloat (S_ "0.0")) (S_ "           , coeff of x^5")
  ; add_key_val (S_ "BldFl2Sh(6)") (VFloat (S_ "0.0")) (S_ "           , coeff of x^6")
  ; add_key_val (S_ "BldEdgSh(2)") (VFloat (S_ "1.0")) (S_ "Edge mode 1, coeff of x^2")
  ; add_key_val (S_ "BldEdgSh(3)") (VFloat (S_ "0.0")) (S_ "           , coeff of x^3")
  ; add_key_val (S_ "BldEdgSh(4)") (VFloat (S_ "0.0")) (S_ "           , coeff of x^4")
  ; add_key_val (S_ "BldEdgSh(5)") (VFloat (S_ "0.0")) (S_ "           , coeff of x^5")
  ; add_key_val (S_ "BldEdgSh(6)") (VFloat (S_ "0.0")) (S_ "           , coeff of x^6") ].
(** fast_input_file.py:1399-1403 *)
Definition AD_STEPS : list step :=
  [ add_comment (S_ "------- AERODYN BLADE DEFINITION INPUT FILE ----------------------------------------------")
  ; add_comment (S_ "Aerodynamic blade definition, written by ADBladeFile")
  ; add_comment (S_ "======  Blade Properties =================================================================")
  ; add_key_val (S_ "NumBlNds") (VInt 0) (S_ "Number of blade nodes used in the analysis (-)")
  ; add_table (S_ "BldAeroNodes") NumHeader (Key (S_ "NumBlNds")) [S_ "BlSpn"; S_ "BlCrvAC"; S_ "BlSwpAC"; S_ "BlCrvAng"; S_ "BlTwist"; S_ "BlChord"; S_ "BlAFID"] [S_ "(m)"; S_ "(m)"; S_ "(m)"; S_ "(deg)"; S_ "(deg)"; S_ "(m)"; S_ "(-)"] ].
(** fast_input_file.py:1493-1501 *)
Definition POLAR_HEAD (numTabs : nat) : list step :=
  [ add_comment (S_ "! ------------ AirfoilInfo Input File ------------------------------------------")
  ; add_comment (S_ "! Airfoil definition, written by ADPolarFile")
  ; add_comment (S_ "! ")
  ; add_comment (S_ "! ")
  ; add_comment (S_ "! ------------------------------------------------------------------------------")
  ; add_key_val (S_ "InterpOrd") (VStr (S_ "DEFAULT")) (S_ "Interpolation order to use for quasi-steady table lookup {1=linear; 3=cubic spline; ""default""} [default=3]")
  ; add_key_val (S_ "NonDimArea") (VInt 1) (S_ "The non-dimensional area of the airfoil (area/chord^2) (set to 1.0 if unsure or unneeded)")
  ; add_key_val (S_ "NumCoords") (VInt 0) (S_ "The number of coordinates in the airfoil shape file.  Set to zero if coordinates not included.")
  ; add_key_val (S_ "NumTabs") (VInt (Z.of_nat numTabs)) (S_ "Number of airfoil tables in this file.  Each table must have lines for Re and Ctrl.") ].
(** One table (fast_input_file.py:1508-1512) *)
Definition TABLE_HEAD (i : nat) (off : str) : list step :=
  [ add_comment (S_ "! ------------------------------------------------------------------------------")
  ; add_comment (S_ "! data for table " ++ str_of_N (N.of_nat i))
  ; add_comment (S_ "! ------------------------------------------------------------------------------")
  ; add_key_val ((S_ "Re" ++ off)) (VFloat (S_ "1.0")) (S_ "Reynolds number in millions")
  ; add_key_val ((S_ "Ctrl" ++ off)) (VInt 0) (S_ "Control setting") ].
(** fast_input_file.py:1514-1548 *)
Definition UA_STEPS (off : str) : list step :=
  [ add_key_val (S_ "InclUAdata") (VBool true) (S_ "Is unsteady aerodynamics data included in this table? If TRUE, then include 30 UA coefficients below this line")
  ; add_comment (S_ "!........................................")
  ; add_key_val ((S_ "alpha0" ++ off)) (VFloat (S_ "nan")) (S_ "0-lift angle of attack, depends on airfoil.")
  ; add_key_val ((S_ "alpha1" ++ off)) (VFloat (S_ "nan")) (S_ "Angle of attack at f=0.7, (approximately the stall angle) for AOA>alpha0. (deg)")
  ; add_key_val ((S_ "alpha2" ++ off)) (VFloat (S_ "nan")) (S_ "Angle of attack at f=0.7, (approximately the stall angle) for AOA<alpha0. (deg)")
  ; add_key_val ((S_ "eta_e" ++ off)) (VInt 1) (S_ "Recovery factor in the range [0.85 - 0.95] used only for UAMOD=1, it is set to 1 in the code when flookup=True. (-)")
  ; add_key_val ((S_ "C_nalpha" ++ off)) (VFloat (S_ "nan")) (S_ "Slope of the 2D normal force coefficient curve. (1/rad)")
  ; add_key_val ((S_ "T_f0" ++ off)) (VStr (S_ "DEFAULT")) (S_ "Initial value of the time constant associated with Df in the expression of Df and f''. [default = 3]")
  ; add_key_val ((S_ "T_V0" ++ off)) (VStr (S_ "DEFAULT")) (S_ "Initial value of the time constant associated with the vortex lift decay process; it is used in the expression of Cvn. It depends on Re,M, and airfoil class. [default = 6]")
  ; add_key_val ((S_ "T_p" ++ off)) (VStr (S_ "DEFAULT")) (S_ "Boundary-layer,leading edge pressure gradient time constant in the expression of Dp. It should be tuned based on airfoil experimental data. [default = 1.7]")
  ; add_key_val ((S_ "T_VL" ++ off)) (VStr (S_ "DEFAULT")) (S_ "Initial value of the time constant associated with the vortex advection process; it represents the non-dimensional time in semi-chords, needed for a vortex to travel from LE to trailing edge (TE); it is used in the expression of Cvn. It depends on Re, M (weakly), and airfoil. [valid range = 6 - 13, default = 11]")
  ; add_key_val ((S_ "b1" ++ off)) (VStr (S_ "DEFAULT")) (S_ "Constant in the expression of phi_alpha^c and phi_q^c.  This value is relatively insensitive for thin airfoils, but may be different for turbine airfoils. [from experimental results, defaults to 0.14]")
  ; add_key_val ((S_ "b2" ++ off)) (VStr (S_ "DEFAULT")) (S_ "Constant in the expression of phi_alpha^c and phi_q^c.  This value is relatively insensitive for thin airfoils, but may be different for turbine airfoils. [from experimental results, defaults to 0.53]")
  ; add_key_val ((S_ "b5" ++ off)) (VStr (S_ "DEFAULT")) (S_ "Constant in the expression of K'''_q,Cm_q^nc, and k_m,q.  [from  experimental results, defaults to 5]")
  ; add_key_val ((S_ "A1" ++ off)) (VStr (S_ "DEFAULT")) (S_ "Constant in the expression of phi_alpha^c and phi_q^c.  This value is relatively insensitive for thin airfoils, but may be different for turbine airfoils. [from experimental results, defaults to 0.3]")
  ; add_key_val ((S_ "A2" ++ off)) (VStr (S_ "DEFAULT")) (S_ "Constant in the expression of phi_alpha^c and phi_q^c.  This value is relatively insensitive for thin airfoils, but may be different for turbine airfoils. [from experimental results, defaults to 0.7]")
  ; add_key_val ((S_ "A5" ++ off)) (VStr (S_ "DEFAULT")) (S_ "Constant in the expression of K'''_q,Cm_q^nc, and k_m,q. [from experimental results, defaults to 1]")
  ; add_key_val ((S_ "S1" ++ off)) (VInt 0) (S_ "Constant in the f curve best-fit for alpha0<=AOA<=alpha1; by definition it depends on the airfoil. [ignored if UAMod<>1]")
  ; add_key_val ((S_ "S2" ++ off)) (VInt 0) (S_ "Constant in the f curve best-fit for         AOA> alpha1; by definition it depends on the airfoil. [ignored if UAMod<>1]")
  ; add_key_val ((S_ "S3" ++ off)) (VInt 0) (S_ "Constant in the f curve best-fit for alpha2<=AOA< alpha0; by definition it depends on the airfoil. [ignored if UAMod<>1]")
  ; add_key_val ((S_ "S4" ++ off)) (VInt 0) (S_ "Constant in the f curve best-fit for         AOA< alpha2; by definition it depends on the airfoil. [ignored if UAMod<>1]")
  ; add_key_val ((S_ "Cn1" ++ off)) (VFloat (S_ "nan")) (S_ "Critical value of C0n at leading edge separation. It should be extracted from airfoil data at a given Mach and Reynolds number. It can be calculated from the static value of Cn at either the break in the pitching moment or the loss of chord force at the onset of stall. It is close to the condition of maximum lift of the airfoil at low Mach numbers.")
  ; add_key_val ((S_ "Cn2" ++ off)) (VFloat (S_ "nan")) (S_ "As Cn1 for negative AOAs.")
  ; add_key_val ((S_ "St_sh" ++ off)) (VStr (S_ "DEFAULT")) (S_ "Strouhal's shedding frequency constant.  [default = 0.19]")
  ; add_key_val ((S_ "Cd0" ++ off)) (VFloat (S_ "nan")) (S_ "2D drag coefficient value at 0-lift.")
  ; add_key_val ((S_ "Cm0" ++ off)) (VFloat (S_ "nan")) (S_ "2D pitching moment coefficient about 1/4-chord location, at 0-lift, positive if nose up. [If the aerodynamics coefficients table does not include a column for Cm, this needs to be set to 0.0]")
  ; add_key_val ((S_ "k0" ++ off)) (VInt 0) (S_ "Constant in the \hat(x)_cp curve best-fit; = (\hat(x)_AC-0.25).  [ignored if UAMod<>1]")
  ; add_key_val ((S_ "k1" ++ off)) (VInt 0) (S_ "Constant in the \hat(x)_cp curve best-fit.  [ignored if UAMod<>1]")
  ; add_key_val ((S_ "k2" ++ off)) (VInt 0) (S_ "Constant in the \hat(x)_cp curve best-fit.  [ignored if UAMod<>1]")
  ; add_key_val ((S_ "k3" ++ off)) (VInt 0) (S_ "Constant in the \hat(x)_cp curve best-fit.  [ignored if UAMod<>1]")
  ; add_key_val ((S_ "k1_hat" ++ off)) (VInt 0) (S_ "Constant in the expression of Cc due to leading edge vortex effects.  [ignored if UAMod<>1]")
  ; add_key_val ((S_ "x_cp_bar" ++ off)) (VStr (S_ "DEFAULT")) (S_ "Constant in the expression of \hat(x)_cp^v. [ignored if UAMod<>1, default = 0.2]")
  ; add_key_val ((S_ "UACutout" ++ off)) (VStr (S_ "DEFAULT")) (S_ "Angle of attack above which unsteady aerodynamics are disabled (deg). [Specifying the string 'Default' sets UACutout to 45 degrees]")
  ; add_key_val ((S_ "filtCutOff" ++ off)) (VStr (S_ "DEFAULT")) (S_ "Reduced frequency cut-off for low-pass filtering the AoA input to UA, as well as the 1st and 2nd derivatives (-) [default = 0.5]")
  ; add_comment (S_ "!........................................") ].
(** fast_input_file.py:1550 *)
Definition NO_UA_STEPS (off : str) : list step :=
  [ add_key_val ((S_ "InclUAdata" ++ off)) (VBool false) (S_ "Is unsteady aerodynamics data included in this table? If TRUE, then include 30 UA coefficients below this line") ].
(** fast_input_file.py:1551-1553 *)
Definition TABLE_TAIL (off : str) : list step :=
  [ add_comment (S_ "! Table of aerodynamics coefficients")
  ; add_key_val ((S_ "NumAlf" ++ off)) (VInt 0) (S_ "! Number of data lines in the following table")
  ; add_table ((S_ "AFCoeff" ++ off)) NumCom (Key (S_ "NumAlf")) [S_ "Alpha"; S_ "Cl"; S_ "Cd"; S_ "Cm"] [S_ "(deg)"; S_ "(-)"; S_ "(-)"; S_ "(-)"] ].
(** fast_input_file.py:1503-1507 *)
Definition offset (n i : nat) : str := if n =? 1 then [] else S_ "_" ++ str_of_N (N.of_nat i).
Definition TABLE (ua : bool) (n i : nat) : list step :=
  TABLE_HEAD i (offset n i) ++ (if ua then UA_STEPS (offset n i) else NO_UA_STEPS (offset n i)) ++ TABLE_TAIL (offset n i).
Definition POLAR_STEPS (ua : bool) (n : nat) : list step := POLAR_HEAD n ++ flat_map (TABLE ua n) (seq 1 n).
Definition ed_proto {V} : option (list (FASTFile_Model.entry V)) := run ED_STEPS [].
Definition ad_proto {V} : option (list (FASTFile_Model.entry V)) := run AD_STEPS [].
Definition polar_proto {V} (ua : bool) (n : nat) : option (list (FASTFile_Model.entry V)) := run (POLAR_STEPS ua n) [].
