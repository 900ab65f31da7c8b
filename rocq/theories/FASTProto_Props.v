(** C136: the empty files of the dedicated FAST formats. *)
From Verif Require Import Py PyFacts ListFacts FASTIn_Model FASTTab_Model FASTFile_Model FASTSpec_Model FASTFile_Props FASTTab_Props FASTFileEnd_Props FASTSpec_Props.
From Verif Require Import FASTProto_Model.
From Coq Require Import ZifyNat ZifyBool.
Local Open Scope nat_scope.

(** ** Specification: the keys of an empty polar *)
Definition HEAD : list string := ["InterpOrd"; "NonDimArea"; "NumCoords"; "NumTabs"]%string.
Definition UNSTEADY : list string := ["alpha0"; "alpha1"; "alpha2"; "eta_e"; "C_nalpha"; "T_f0"; "T_V0"; "T_p"; "T_VL"; "b1"; "b2"; "b5"; "A1"; "A2"; "A5"; "S1"; "S2"; "S3"; "S4"; "Cn1"; "Cn2"; "St_sh"; "Cd0"; "Cm0"; "k0"; "k1"; "k2"; "k3"; "k1_hat"; "x_cp_bar"; "UACutout"; "filtCutOff"]%string.
Definition named (off : str) (l : list string) : list str := map (fun s => S_ s ++ off) l.
(** The suffix of the [i]-th table *)
Definition suffix (i : nat) : str := S_ "_" ++ str_of_N (N.of_nat i).

(** ** Proofs *)
Section Proto.
Context {V : Type}.
Local Notation ent := (FASTFile_Model.entry V).
Definition entry_of (s : step) : ent :=
  match s with
  | add_comment c => Item (mkItem (VStr c) [] true [] NOT_A_TAB)
  | add_key_val k v d => Item (mkItem v k false d NOT_A_TAB)
  | add_table l k dim cols units => Tab l [] k dim (Nums []) (Some cols) (Some units)
  end.
Definition step_label (s : step) : str := match s with add_comment _ => [] | add_key_val k _ _ => k | add_table l _ _ _ _ => l end.
Lemma label_entry s : label_of (entry_of s) = step_label s.
Proof. destruct s; reflexivity. Qed.
Fixpoint Fresh (seen : list str) (l : list step) : Prop :=
  match l with
  | [] => True
  | s :: l' => (match s with add_key_val k _ _ => ~ In (lower k) seen | _ => True end) /\ Fresh (lower (step_label s) :: seen) l'
  end.
Lemma put_new k v d (es : list ent) : ~ In (lower k) (map (fun e => lower (label_of e)) es) -> put_line k v d es = Some (es ++ [Item (mkItem v k false d NOT_A_TAB)]).
Proof.
  induction es as [|e es IH]; intro H; [reflexivity|]. cbn [put_line map In] in *. destruct (str_eqb (lower (label_of e)) (lower k)) eqn:E; [apply str_eqb_eq in E; tauto|]. rewrite IH by tauto. reflexivity.
Qed.
Lemma fresh_incl l : forall s s', (forall x, In x s' -> In x s) -> Fresh s l -> Fresh s' l.
Proof.
  induction l as [|a l IH]; intros s s' H F; [exact I|]. cbn [Fresh] in *. destruct F as (A & B). split.
  - destruct a; auto.
  - eapply IH; [|exact B]. intros x [<- | Hx]; [now left|right; now apply H].
Qed.
Lemma run_fresh l : forall (es : list ent), Fresh (map (fun e => lower (label_of e)) es) l -> run l es = Some (es ++ map entry_of l).
Proof.
  induction l as [|s l IH]; intros es F; [cbn; now rewrite app_nil_r|]. cbn [Fresh] in F. destruct F as (A & B). cbn [run].
  assert (E : do_step es s = Some (es ++ [entry_of s])). { destruct s; cbn [do_step entry_of]; try reflexivity. now apply put_new. }
  rewrite E. rewrite IH; [cbn [map]; now rewrite <- app_assoc|]. eapply fresh_incl; [|exact B]. intros x Hx. rewrite map_app, in_app_iff in Hx. cbn [map In] in Hx. rewrite label_entry in Hx. cbn [In]. tauto.
Qed.
Lemma run_app a b (es : list ent) : run (a ++ b) es = match run a es with Some es' => run b es' | None => None end.
Proof. revert es. induction a as [|s a IH]; intro es; [reflexivity|]. cbn [app run]. destruct (do_step es s); [apply IH|reflexivity]. Qed.
(** A line that is there already is put again *)
Lemma put_again k v d (a b : list ent) : ~ In (lower k) (map (fun e => lower (label_of e)) a) -> put_line k v d (a ++ Item (mkItem v k false d NOT_A_TAB) :: b) = Some (a ++ Item (mkItem v k false d NOT_A_TAB) :: b).
Proof.
  induction a as [|e a IH]; intro H; cbn [app put_line map In] in *; [cbn [label_of it_label]; rewrite str_eqb_refl; reflexivity|].
  destruct (str_eqb (lower (label_of e)) (lower k)) eqn:E; [apply str_eqb_eq in E; tauto|]. rewrite IH by tauto. reflexivity.
Qed.
(** Suffixes are told apart by what follows the last underscore *)
Definition us : ascii := "_"%char.
Lemma lower_app a b : lower (a ++ b) = lower a ++ lower b. Proof. apply map_app. Qed.
Lemma digits_free n : ~ In us (lower (str_of_N n)).
Proof.
  intro H. unfold lower in H. apply in_map_iff in H. destruct H as (c & E & I). assert (D : is_digit c = true) by (pose proof (str_of_N_digits n) as F; rewrite forallb_forall in F; now apply F).
  destruct c as [[] [] [] [] [] [] [] []]; try discriminate D; discriminate E.
Qed.
Lemma digits_lower n : lower (str_of_N n) = str_of_N n.
Proof.
  unfold lower. rewrite <- (map_id (str_of_N n)) at 2. apply map_ext_in. intros c I. assert (D : is_digit c = true) by (pose proof (str_of_N_digits n) as F; rewrite forallb_forall in F; now apply F).
  destruct c as [[] [] [] [] [] [] [] []]; try discriminate D; reflexivity.
Qed.
Lemma last_us (a b s t : str) : ~ In us s -> ~ In us t -> a ++ us :: s = b ++ us :: t -> s = t /\ a = b.
Proof.
  intros Hs Ht E. assert (E' : rev s ++ us :: rev a = rev t ++ us :: rev b). { apply (f_equal (@rev ascii)) in E. rewrite !rev_app_distr in E. cbn [rev] in E. rewrite <- !app_assoc in E. exact E. }
  assert (G : forall x y u v : str, ~ In us x -> ~ In us y -> x ++ us :: u = y ++ us :: v -> x = y /\ u = v).
  { induction x as [|c x IH]; intros [|d y] u v Hx Hy X; cbn [app In] in *.
    - injection X as ->. auto.
    - injection X as <- _. tauto.
    - injection X as -> _. tauto.
    - injection X as -> X. destruct (IH y u v) as (-> & ->); [tauto|tauto|exact X|auto]. }
  apply G in E'; [|now rewrite <- in_rev|now rewrite <- in_rev]. destruct E' as (A & B). split; [rewrite <- (rev_involutive s), A; apply rev_involutive|rewrite <- (rev_involutive a), B; apply rev_involutive].
Qed.
Lemma suffix_inj a b i j : lower (a ++ suffix i) = lower (b ++ suffix j) -> i = j /\ lower a = lower b.
Proof.
  intro E. unfold suffix in E. rewrite !lower_app in E. change (lower (S_ "_")) with [us] in E. apply last_us in E; [|apply digits_free|apply digits_free].
  destruct E as (A & B). split; [|exact B]. rewrite !digits_lower in A. apply (f_equal N_of_str) in A. rewrite !N_of_str_of_N in A. injection A as A. now apply Nat2N.inj.
Qed.
Lemma suffix_us a i : In us (lower (a ++ suffix i)).
Proof. unfold suffix. rewrite !lower_app. apply in_or_app. right. apply in_or_app. left. now left. Qed.

(** The steps of a table as names with a suffix *)
Inductive raw := RC (s : string) | RCN (s : str) | RK (k : string) (v : val) (d : str) | RT (l : string) (k : tkind) (dim : dimvar) (c u : list str).
Definition cook (off : str) (r : raw) : step := match r with RC s => add_comment (S_ s) | RCN s => add_comment s | RK k v d => add_key_val (S_ k ++ off) v d | RT l k dim c u => add_table (S_ l ++ off) k dim c u end.
Definition raw_names (l : list raw) : list string := flat_map (fun r => match r with RK k _ _ => [k] | RT l _ _ _ _ => [l] | _ => [] end) l.
Fixpoint FreshR (seen : list str) (l : list raw) : Prop :=
  match l with
  | [] => True
  | RK k _ _ :: l' => ~ In (lower (S_ k)) seen /\ FreshR (lower (S_ k) :: seen) l'
  | RT k _ _ _ _ :: l' => FreshR (lower (S_ k) :: seen) l'
  | _ :: l' => FreshR seen l'
  end.
(** What may be in the file before: names without an underscore, and those of other tables *)
Definition Other (i : nat) (x : str) : Prop := ~ In us x \/ exists a j, i <> j /\ x = lower (a ++ suffix j).
Lemma fresh_cook i l : forall seen names, (forall x, In x seen -> Other i x \/ exists a, In (lower a) names /\ x = lower (a ++ suffix i)) -> FreshR names l -> Fresh seen (map (cook (suffix i)) l).
Proof.
  induction l as [|r l IH]; intros seen names H F; [exact I|]. destruct r as [s|s|k v d|lb kd dm c u]; cbn [map cook Fresh step_label]; cbn [FreshR] in F.
  - split; [exact I|]. eapply IH; [|exact F]. intros x [<- | Hx]; [left; left; intros []|now apply H].
  - split; [exact I|]. eapply IH; [|exact F]. intros x [<- | Hx]; [left; left; intros []|now apply H].
  - destruct F as (F1 & F2). split.
    + intro X. apply H in X. destruct X as [[X|(a & j & N & X)]|(a & Ia & X)].
      * apply X. apply suffix_us.
      * apply suffix_inj in X. tauto.
      * apply suffix_inj in X. destruct X as (_ & X). rewrite X in F1. contradiction.
    + eapply IH; [|exact F2]. intros x [<- | Hx]; [right; exists (S_ k); split; [now left|reflexivity]|]. destruct (H x Hx) as [Y|(a & Ia & Y)]; [now left|right; exists a; split; [now right|exact Y]].
  - split; [exact I|]. eapply IH; [|exact F]. intros x [<- | Hx]; [right; exists (S_ lb); split; [now left|reflexivity]|]. destruct (H x Hx) as [Y|(a & Ia & Y)]; [now left|right; exists a; split; [now right|exact Y]].
Qed.
Definition HEAD_R (i : nat) : list raw :=
  [ RC "! ------------------------------------------------------------------------------"
  ; RCN (S_ "! data for table " ++ str_of_N (N.of_nat i))
  ; RC "! ------------------------------------------------------------------------------"
  ; RK "Re" (VFloat (S_ "1.0")) (S_ "Reynolds number in millions")
  ; RK "Ctrl" (VInt 0) (S_ "Control setting") ].
Definition UA_R : list raw :=
  [ RC "!........................................"
  ; RK "alpha0" (VFloat (S_ "nan")) (S_ "0-lift angle of attack, depends on airfoil.")
  ; RK "alpha1" (VFloat (S_ "nan")) (S_ "Angle of attack at f=0.7, (approximately the stall angle) for AOA>alpha0. (deg)")
  ; RK "alpha2" (VFloat (S_ "nan")) (S_ "Angle of attack at f=0.7, (approximately the stall angle) for AOA<alpha0. (deg)")
  ; RK "eta_e" (VInt 1) (S_ "Recovery factor in the range [0.85 - 0.95] used only for UAMOD=1, it is set to 1 in the code when flookup=True. (-)")
  ; RK "C_nalpha" (VFloat (S_ "nan")) (S_ "Slope of the 2D normal force coefficient curve. (1/rad)")
  ; RK "T_f0" (VStr (S_ "DEFAULT")) (S_ "Initial value of the time constant associated with Df in the expression of Df and f''. [default = 3]")
  ; RK "T_V0" (VStr (S_ "DEFAULT")) (S_ "Initial value of the time constant associated with the vortex lift decay process; it is used in the expression of Cvn. It depends on Re,M, and airfoil class. [default = 6]")
  ; RK "T_p" (VStr (S_ "DEFAULT")) (S_ "Boundary-layer,leading edge pressure gradient time constant in the expression of Dp. It should be tuned based on airfoil experimental data. [default = 1.7]")
  ; RK "T_VL" (VStr (S_ "DEFAULT")) (S_ "Initial value of the time constant associated with the vortex advection process; it represents the non-dimensional time in semi-chords, needed for a vortex to travel from LE to trailing edge (TE); it is used in the expression of Cvn. It depends on Re, M (weakly), and airfoil. [valid range = 6 - 13, default = 11]")
  ; RK "b1" (VStr (S_ "DEFAULT")) (S_ "Constant in the expression of phi_alpha^c and phi_q^c.  This value is relatively insensitive for thin airfoils, but may be different for turbine airfoils. [from experimental results, defaults to 0.14]")
  ; RK "b2" (VStr (S_ "DEFAULT")) (S_ "Constant in the expression of phi_alpha^c and phi_q^c.  This value is relatively insensitive for thin airfoils, but may be different for turbine airfoils. [from experimental results, defaults to 0.53]")
  ; RK "b5" (VStr (S_ "DEFAULT")) (S_ "Constant in the expression of K'''_q,Cm_q^nc, and k_m,q.  [from  experimental results, defaults to 5]")
  ; RK "A1" (VStr (S_ "DEFAULT")) (S_ "Constant in the expression of phi_alpha^c and phi_q^c.  This value is relatively insensitive for thin airfoils, but may be different for turbine airfoils. [from experimental results, defaults to 0.3]")
  ; RK "A2" (VStr (S_ "DEFAULT")) (S_ "Constant in the expression of phi_alpha^c and phi_q^c.  This value is relatively insensitive for thin airfoils, but may be different for turbine airfoils. [from experimental results, defaults to 0.7]")
  ; RK "A5" (VStr (S_ "DEFAULT")) (S_ "Constant in the expression of K'''_q,Cm_q^nc, and k_m,q. [from experimental results, defaults to 1]")
  ; RK "S1" (VInt 0) (S_ "Constant in the f curve best-fit for alpha0<=AOA<=alpha1; by definition it depends on the airfoil. [ignored if UAMod<>1]")
  ; RK "S2" (VInt 0) (S_ "Constant in the f curve best-fit for         AOA> alpha1; by definition it depends on the airfoil. [ignored if UAMod<>1]")
  ; RK "S3" (VInt 0) (S_ "Constant in the f curve best-fit for alpha2<=AOA< alpha0; by definition it depends on the airfoil. [ignored if UAMod<>1]")
  ; RK "S4" (VInt 0) (S_ "Constant in the f curve best-fit for         AOA< alpha2; by definition it depends on the airfoil. [ignored if UAMod<>1]")
  ; RK "Cn1" (VFloat (S_ "nan")) (S_ "Critical value of C0n at leading edge separation. It should be extracted from airfoil data at a given Mach and Reynolds number. It can be calculated from the static value of Cn at either the break in the pitching moment or the loss of chord force at the onset of stall. It is close to the condition of maximum lift of the airfoil at low Mach numbers.")
  ; RK "Cn2" (VFloat (S_ "nan")) (S_ "As Cn1 for negative AOAs.")
  ; RK "St_sh" (VStr (S_ "DEFAULT")) (S_ "Strouhal's shedding frequency constant.  [default = 0.19]")
  ; RK "Cd0" (VFloat (S_ "nan")) (S_ "2D drag coefficient value at 0-lift.")
  ; RK "Cm0" (VFloat (S_ "nan")) (S_ "2D pitching moment coefficient about 1/4-chord location, at 0-lift, positive if nose up. [If the aerodynamics coefficients table does not include a column for Cm, this needs to be set to 0.0]")
  ; RK "k0" (VInt 0) (S_ "Constant in the \hat(x)_cp curve best-fit; = (\hat(x)_AC-0.25).  [ignored if UAMod<>1]")
  ; RK "k1" (VInt 0) (S_ "Constant in the \hat(x)_cp curve best-fit.  [ignored if UAMod<>1]")
  ; RK "k2" (VInt 0) (S_ "Constant in the \hat(x)_cp curve best-fit.  [ignored if UAMod<>1]")
  ; RK "k3" (VInt 0) (S_ "Constant in the \hat(x)_cp curve best-fit.  [ignored if UAMod<>1]")
  ; RK "k1_hat" (VInt 0) (S_ "Constant in the expression of Cc due to leading edge vortex effects.  [ignored if UAMod<>1]")
  ; RK "x_cp_bar" (VStr (S_ "DEFAULT")) (S_ "Constant in the expression of \hat(x)_cp^v. [ignored if UAMod<>1, default = 0.2]")
  ; RK "UACutout" (VStr (S_ "DEFAULT")) (S_ "Angle of attack above which unsteady aerodynamics are disabled (deg). [Specifying the string 'Default' sets UACutout to 45 degrees]")
  ; RK "filtCutOff" (VStr (S_ "DEFAULT")) (S_ "Reduced frequency cut-off for low-pass filtering the AoA input to UA, as well as the 1st and 2nd derivatives (-) [default = 0.5]")
  ; RC "!........................................" ].
Definition NO_UA_R : list raw :=
  [ RK "InclUAdata" (VBool false) (S_ "Is unsteady aerodynamics data included in this table? If TRUE, then include 30 UA coefficients below this line") ].
Definition TAIL_R : list raw :=
  [ RC "! Table of aerodynamics coefficients"
  ; RK "NumAlf" (VInt 0) (S_ "! Number of data lines in the following table")
  ; RT "AFCoeff" NumCom (Key (S_ "NumAlf")) [S_ "Alpha"; S_ "Cl"; S_ "Cd"; S_ "Cm"] [S_ "(deg)"; S_ "(-)"; S_ "(-)"; S_ "(-)"] ].

Lemma table_cooked i off : TABLE_HEAD i off = map (cook off) (HEAD_R i) /\ UA_STEPS off = add_key_val (S_ "InclUAdata") (VBool true) (S_ "Is unsteady aerodynamics data included in this table? If TRUE, then include 30 UA coefficients below this line") :: map (cook off) UA_R /\
  NO_UA_STEPS off = map (cook off) NO_UA_R /\ TABLE_TAIL off = map (cook off) TAIL_R.
Proof. repeat split. Qed.
Fixpoint freshb (seen : list str) (l : list raw) : bool :=
  match l with
  | [] => true
  | RK k _ _ :: l' => negb (existsb (str_eqb (lower (S_ k))) seen) && freshb (lower (S_ k) :: seen) l'
  | RT k _ _ _ _ :: l' => freshb (lower (S_ k) :: seen) l'
  | _ :: l' => freshb seen l'
  end.
Lemma freshb_ok l : forall seen, freshb seen l = true -> FreshR seen l.
Proof.
  induction l as [|r l IH]; intros seen H; [exact I|]. destruct r; cbn [freshb FreshR] in *; auto. apply andb_prop in H. destruct H as (A & B). split; [|now apply IH]. rewrite negb_true_iff in A. intro X.
  assert (Y : existsb (str_eqb (lower (S_ k))) seen = true) by (apply existsb_exists; exists (lower (S_ k)); split; [exact X|apply str_eqb_refl]). congruence.
Qed.
Definition FLAG : ent := Item (mkItem (VBool true) (S_ "InclUAdata") false (S_ "Is unsteady aerodynamics data included in this table? If TRUE, then include 30 UA coefficients below this line") NOT_A_TAB).
Definition table_entries (ua first : bool) (i : nat) : list ent :=
  let m := fun l => map entry_of (map (cook (suffix i)) l) in
  if ua then m (HEAD_R i) ++ (if first then [FLAG] else []) ++ m UA_R ++ m TAIL_R else m (HEAD_R i) ++ m NO_UA_R ++ m TAIL_R.
Definition lows (es : list ent) : list str := map (fun e => lower (label_of e)) es.
Lemma lows_app a b : lows (a ++ b) = lows a ++ lows b. Proof. apply map_app. Qed.
Lemma lows_cook i l x : In x (lows (map entry_of (map (cook (suffix i)) l))) -> x = [] \/ exists a, In a (raw_names l) /\ x = lower (S_ a ++ suffix i).
Proof.
  unfold lows. rewrite !map_map. intro H. apply in_map_iff in H. destruct H as (r & <- & I). destruct r as [s|s|k v d|lb kd dm c u]; cbn [cook entry_of label_of it_label]; [now left|now left| |]; right;
    [exists k|exists lb]; (split; [|reflexivity]); unfold raw_names; apply in_flat_map; eexists; (split; [exact I|now left]).
Qed.
(** One more table *)
Lemma run_raw i l (es : list ent) names : (forall x, In x (lows es) -> Other i x \/ exists a, In (lower a) names /\ x = lower (a ++ suffix i)) -> freshb names l = true -> run (map (cook (suffix i)) l) es = Some (es ++ map entry_of (map (cook (suffix i)) l)).
Proof. intros H F. apply run_fresh. eapply fresh_cook; [exact H|now apply freshb_ok]. Qed.
Definition low_names (l : list raw) : list str := map (fun a => lower (S_ a)) (raw_names l).
Lemma seen_more i (es : list ent) l names : (forall x, In x (lows es) -> Other i x \/ exists a, In (lower a) names /\ x = lower (a ++ suffix i)) ->
  forall x, In x (lows (es ++ map entry_of (map (cook (suffix i)) l))) -> Other i x \/ exists a, In (lower a) (low_names l ++ names) /\ x = lower (a ++ suffix i).
Proof.
  intros H x Hx. rewrite lows_app, in_app_iff in Hx. destruct Hx as [Hx|Hx].
  - destruct (H x Hx) as [Y|(a & Ia & Y)]; [now left|right; exists a; split; [apply in_or_app; now right|exact Y]].
  - apply lows_cook in Hx. destruct Hx as [-> | (a & Ia & ->)]; [left; left; intros []|]. right. exists (S_ a). split; [|reflexivity]. apply in_or_app. left. unfold low_names. exact (in_map (fun a => lower (S_ a)) _ _ Ia).
Qed.
Definition head_entries (n : nat) : list ent := map entry_of (POLAR_HEAD n).
Definition all_entries (ua : bool) (n k : nat) : list ent := head_entries n ++ flat_map (fun i => table_entries ua (i =? 1) i) (seq 1 k).
Lemma table_lows ua first i x : In x (lows (table_entries ua first i)) -> x = [] \/ x = lower (S_ "InclUAdata") \/ exists a, x = lower (a ++ suffix i).
Proof.
  unfold table_entries. destruct ua.
  - rewrite !lows_app, !in_app_iff. intros [H|[H|[H|H]]]; [|destruct first; cbn in H; [|tauto]; destruct H as [<- | []]; right; left; reflexivity| |]; apply lows_cook in H; destruct H as [-> | (a & _ & ->)]; eauto.
  - rewrite !lows_app, !in_app_iff. intros [H|[H|H]]; apply lows_cook in H; destruct H as [-> | (a & _ & ->)]; eauto.
Qed.
Lemma head_lows n x : In x (lows (head_entries n)) -> ~ In us x /\ x <> lower (S_ "InclUAdata").
Proof. cbn. intros H. repeat (destruct H as [<- | H]; [split; [cbn; intuition discriminate|discriminate]|]). destruct H. Qed.
Lemma all_other ua n k x : In x (lows (all_entries ua n k)) -> Other (S k) x.
Proof.
  unfold all_entries. rewrite lows_app, in_app_iff. intros [H|H]; [left; exact (proj1 (head_lows n x H))|]. unfold lows in H. apply in_map_iff in H. destruct H as (e & <- & H). apply in_flat_map in H. destruct H as (i & Hi & H). apply in_seq in Hi.
  apply (in_map (fun e => lower (label_of e))) in H. apply table_lows in H. destruct H as [-> | [-> | (a & ->)]]; [left; intros []|left; cbn; intuition discriminate|]. right. exists a, i. split; [lia|reflexivity].
Qed.
Lemma no_flag n i : ~ In (lower (S_ "InclUAdata")) (lows (head_entries n ++ map entry_of (map (cook (suffix i)) (HEAD_R i)))).
Proof.
  rewrite lows_app, in_app_iff. intros [H|H]; [exact (proj2 (head_lows n _ H) eq_refl)|]. apply lows_cook in H. destruct H as [H|(a & _ & H)]; [discriminate H|]. pose proof (suffix_us (S_ a) i) as U. rewrite <- H in U. cbn in U. intuition discriminate.
Qed.
Lemma one_table ua n k : n <> 1 -> run (TABLE ua n (S k)) (all_entries ua n k) = Some (all_entries ua n (S k)).
Proof.
  intro N. unfold TABLE, offset. replace (n =? 1) with false by lia. fold (suffix (S k)). destruct (table_cooked (S k) (suffix (S k))) as (T1 & T2 & T3 & T4). rewrite T1, T2, T3, T4. clear T1 T2 T3 T4.
  assert (H0 : forall x, In x (lows (all_entries ua n k)) -> Other (S k) x \/ exists a, In (lower a) [] /\ x = lower (a ++ suffix (S k))) by (intros x Hx; left; now apply (all_other ua n)).
  rewrite run_app. rewrite (run_raw (S k) (HEAD_R (S k)) _ [] H0) by reflexivity. pose proof (seen_more (S k) _ (HEAD_R (S k)) [] H0) as H1.
  set (es1 := all_entries ua n k ++ _) in *. rewrite run_app.
  assert (ST : all_entries ua n (S k) = all_entries ua n k ++ table_entries ua (S k =? 1) (S k)). { unfold all_entries. rewrite seq_S, flat_map_app. cbn [flat_map plus]. now rewrite app_nil_r, app_assoc. }
  destruct ua.
  - cbn [run do_step].
    assert (X : put_line (S_ "InclUAdata") (VBool true) (S_ "Is unsteady aerodynamics data included in this table? If TRUE, then include 30 UA coefficients below this line") es1 = Some (es1 ++ if (S k =? 1) then [FLAG] else [])).
    { destruct k as [|k].
      - change (1 =? 1) with true. apply put_new. unfold es1, all_entries. cbn [seq flat_map]. rewrite app_nil_r. apply no_flag.
      - change (S (S k) =? 1) with false. rewrite app_nil_r.
        assert (Y : exists b, es1 = (head_entries n ++ map entry_of (map (cook (suffix 1)) (HEAD_R 1))) ++ FLAG :: b).
        { unfold es1, all_entries. change (seq 1 (S k)) with (1 :: seq 2 k). cbn [flat_map]. unfold table_entries at 1. change (1 =? 1) with true. cbv iota. rewrite <- !app_assoc. eexists. reflexivity. }
        destruct Y as (b & ->). unfold FLAG. apply put_again. apply no_flag. }
    rewrite X. set (es2 := es1 ++ (if S k =? 1 then [FLAG] else [])) in *.
    assert (H2 : forall x, In x (lows es2) -> Other (S k) x \/ exists a, In (lower a) (low_names (HEAD_R (S k)) ++ []) /\ x = lower (a ++ suffix (S k))).
    { intros x Hx. unfold es2 in Hx. rewrite lows_app, in_app_iff in Hx. destruct Hx as [Hx|Hx]; [now apply H1|]. destruct (S k =? 1); cbn in Hx; [|tauto]. destruct Hx as [<- | []]. left. left. cbn. intuition discriminate. }
    rewrite (run_raw (S k) UA_R _ _ H2) by (vm_compute; reflexivity). pose proof (seen_more (S k) _ UA_R _ H2) as H3. rewrite (run_raw (S k) TAIL_R _ _ H3) by (vm_compute; reflexivity).
    rewrite ST. unfold es2, es1, table_entries. now rewrite <- !app_assoc.
  - rewrite (run_raw (S k) NO_UA_R _ _ H1) by (vm_compute; reflexivity). pose proof (seen_more (S k) _ NO_UA_R _ H1) as H3. rewrite (run_raw (S k) TAIL_R _ _ H3) by (vm_compute; reflexivity).
    rewrite ST. unfold es1, table_entries. now rewrite <- !app_assoc.
Qed.
Lemma proto_entries ua n : n <> 1 -> polar_proto (V := V) ua n = Some (all_entries ua n n).
Proof.
  intro N. unfold polar_proto, POLAR_STEPS. rewrite run_app. assert (H : run (POLAR_HEAD n) (@nil ent) = Some (head_entries n)) by reflexivity. rewrite H.
  assert (G : forall m k, run (flat_map (TABLE ua n) (seq (S k) m)) (all_entries ua n k) = Some (all_entries ua n (k + m))).
  { induction m as [|m IH]; intro k; cbn [seq flat_map]; [cbn [run]; now rewrite Nat.add_0_r|]. rewrite run_app, (one_table ua n k N), IH. do 2 f_equal. lia. }
  specialize (G n 0). cbn [plus] in G. rewrite <- G. reflexivity.
Qed.
(** ** Theorems *)
(** Several tables: the keys, in order *)
Theorem C136_polar_keys : forall ua n, n <> 1 -> exists es, polar_proto (V := V) ua n = Some es /\
  keys_of es = named [] HEAD ++ flat_map (fun i => named (suffix i) ["Re"; "Ctrl"]%string ++
    (if ua then (if i =? 1 then [S_ "InclUAdata"] else []) ++ named (suffix i) UNSTEADY else [S_ "InclUAdata" ++ suffix i]) ++ named (suffix i) ["NumAlf"; "AFCoeff"]%string) (seq 1 n).
Proof.
  intros ua n N. exists (all_entries ua n n). split; [now apply proto_entries|]. unfold all_entries.
  assert (A : forall a b : list ent, keys_of (a ++ b) = keys_of a ++ keys_of b) by (intros a b; unfold keys_of; now rewrite filter_app, map_app).
  rewrite A. f_equal. assert (T : forall i, keys_of (table_entries ua (i =? 1) i) = named (suffix i) ["Re"; "Ctrl"]%string ++ (if ua then (if i =? 1 then [S_ "InclUAdata"] else []) ++ named (suffix i) UNSTEADY else [S_ "InclUAdata" ++ suffix i]) ++ named (suffix i) ["NumAlf"; "AFCoeff"]%string).
  { intro i. unfold table_entries. destruct ua; [destruct (i =? 1)|]; rewrite !A; reflexivity. }
  induction (seq 1 n) as [|i l IH]; [reflexivity|]. cbn [flat_map]. rewrite A, IH, T. reflexivity.
Qed.
(** One table: no suffix *)
Theorem C136_polar_one : forall ua, exists es, polar_proto (V := V) ua 1 = Some es /\
  keys_of es = named [] (HEAD ++ ["Re"; "Ctrl"; "InclUAdata"]%string ++ (if ua then UNSTEADY else []) ++ ["NumAlf"; "AFCoeff"]%string).
Proof. intros [|]; (eexists; split; [reflexivity|reflexivity]). Qed.
(** Each table is there, with no row, its number of rows is 0, and the number of tables is right *)
Lemma find_app (a b : list ent) k : find_entry (a ++ b) k = match find_entry a k with Some e => Some e | None => find_entry b k end.
Proof. unfold find_entry. induction a as [|e a IH]; [reflexivity|]. cbn [app find]. destruct (str_eqb _ _); [reflexivity|exact IH]. Qed.
Lemma find_none (es : list ent) k : ~ In (lower k) (lows es) -> find_entry es k = None.
Proof. unfold find_entry, lows. induction es as [|e es IH]; intro H; [reflexivity|]. cbn [find map In] in *. destruct (str_eqb (lower (label_of e)) (lower k)) eqn:E; [apply str_eqb_eq in E; tauto|]. apply IH. tauto. Qed.
Lemma find_table ua n i a e : 1 <= i <= n -> find_entry (table_entries ua (i =? 1) i) (a ++ suffix i) = Some e -> find_entry (all_entries ua n n) (a ++ suffix i) = Some e.
Proof.
  intros Hi F. unfold all_entries. rewrite find_app, find_none. 2:{ intro H. apply head_lows in H. apply (proj1 H). apply suffix_us. }
  assert (G : forall l, In i l -> find_entry (flat_map (fun i => table_entries ua (i =? 1) i) l) (a ++ suffix i) = Some e).
  { induction l as [|j l IH]; intro H; [destruct H|]. cbn [flat_map]. rewrite find_app. destruct (Nat.eq_dec j i) as [-> | D]; [now rewrite F|]. rewrite find_none; [apply IH; destruct H; [congruence|assumption]|].
    intro X. apply table_lows in X. pose proof (suffix_us a i) as U. destruct X as [X|[X|(b & X)]]; [rewrite X in U; destruct U|rewrite X in U; cbn in U; intuition discriminate|]. apply suffix_inj in X. destruct X; congruence. }
  apply G. apply in_seq. lia.
Qed.
Definition raw_is (a : string) (r : raw) : bool := match r with RK k _ _ => str_eqb (lower (S_ k)) (lower (S_ a)) | RT k _ _ _ _ => str_eqb (lower (S_ k)) (lower (S_ a)) | _ => false end.
Lemma find_cook i a l : find_entry (map entry_of (map (cook (suffix i)) l)) (S_ a ++ suffix i) = option_map (fun r => entry_of (cook (suffix i) r)) (find (raw_is a) l).
Proof.
  assert (Z : forall b, str_eqb (lower (S_ b ++ suffix i)) (lower (S_ a ++ suffix i)) = str_eqb (lower (S_ b)) (lower (S_ a))).
  { intro b. rewrite !lower_app. destruct (str_eqb (lower (S_ b)) (lower (S_ a))) eqn:E; [apply str_eqb_eq in E; rewrite E; apply str_eqb_refl|]. apply str_eqb_neq in E. apply str_eqb_neq. intro X. apply app_inv_tail in X. contradiction. }
  assert (U : str_eqb (lower []) (lower (S_ a ++ suffix i)) = false) by (apply str_eqb_neq; intro X; pose proof (suffix_us (S_ a) i) as U; rewrite <- X in U; destruct U).
  unfold find_entry. induction l as [|r l IH]; [reflexivity|]. destruct r as [s|s|k v d|lb kd dm c u]; cbn [map find cook entry_of label_of it_label raw_is]; rewrite ?U, ?Z; [exact IH|exact IH| |]; (match goal with |- context [str_eqb (lower (S_ ?x)) (lower (S_ a))] => destruct (str_eqb (lower (S_ x)) (lower (S_ a))); [reflexivity|exact IH] end).
Qed.
Lemma find_flag i a : find_entry [FLAG] (S_ a ++ suffix i) = None.
Proof. apply find_none. intro H. destruct H as [H|[]]. pose proof (suffix_us (S_ a) i) as U. rewrite <- H in U. cbn in U. intuition discriminate. Qed.
Lemma find_in_table ua first i a : find_entry (table_entries ua first i) (S_ a ++ suffix i) = option_map (fun r => entry_of (cook (suffix i) r)) (find (raw_is a) (HEAD_R i ++ (if ua then UA_R else NO_UA_R) ++ TAIL_R)).
Proof.
  assert (G : forall l l', find (raw_is a) (l ++ l') = match find (raw_is a) l with Some r => Some r | None => find (raw_is a) l' end) by (intros l l'; induction l as [|r l IH]; [reflexivity|]; cbn [app find]; destruct (raw_is a r); [reflexivity|exact IH]).
  rewrite !G. unfold table_entries. destruct ua; rewrite !find_app.
  - destruct first; rewrite ?find_flag, !find_cook; destruct (find (raw_is a) (HEAD_R i)); try reflexivity; cbn [option_map]; destruct (find (raw_is a) UA_R); reflexivity.
  - rewrite !find_cook. destruct (find (raw_is a) (HEAD_R i)); try reflexivity; cbn [option_map]. destruct (find (raw_is a) NO_UA_R); reflexivity.
Qed.
Theorem C136_tables : forall ua n i, 1 < n -> 1 <= i <= n -> exists es, polar_proto (V := V) ua n = Some es /\
  find_entry es (S_ "NumTabs") = Some (Item (mkItem (VInt (Z.of_nat n)) (S_ "NumTabs") false (S_ "Number of airfoil tables in this file.  Each table must have lines for Re and Ctrl.") NOT_A_TAB)) /\
  (exists d, find_entry es (S_ "NumAlf" ++ suffix i) = Some (Item d) /\ it_value d = VInt 0) /\
  (exists d, find_entry es (S_ "Re" ++ suffix i) = Some (Item d) /\ it_value d = VFloat (S_ "1.0")) /\
  exists ds kd dm, find_entry es (S_ "AFCoeff" ++ suffix i) = Some (Tab (S_ "AFCoeff" ++ suffix i) ds kd dm (Nums []) (Some (map S_ ["Alpha"; "Cl"; "Cd"; "Cm"]%string)) (Some (map S_ ["(deg)"; "(-)"; "(-)"; "(-)"]%string))).
Proof.
  intros ua n i N Hi. exists (all_entries ua n n). split; [apply proto_entries; lia|]. split; [reflexivity|].
  split; [|split].
  - eexists. split; [apply find_table; [exact Hi|]; rewrite find_in_table; destruct ua; reflexivity|reflexivity].
  - eexists. split; [apply find_table; [exact Hi|]; rewrite find_in_table; destruct ua; reflexivity|reflexivity].
  - eexists _, _, _. apply find_table; [exact Hi|]; rewrite find_in_table; destruct ua; reflexivity.
Qed.
(** With unsteady data and several tables there is a single flag: no table but the first one has its own *)
Theorem C136_flag_refuted : forall n, 1 < n -> exists es, polar_proto (V := V) true n = Some es /\ (forall i, find_entry es (S_ "InclUAdata" ++ suffix i) = None) /\
  List.length (filter (str_eqb (S_ "InclUAdata")) (keys_of es)) = 1.
Proof.
  intros n N. exists (all_entries true n n). split; [apply proto_entries; lia|]. split.
  - intro i. unfold all_entries. rewrite find_app, find_none. 2:{ intro H. apply head_lows in H. apply (proj1 H). apply suffix_us. }
    induction (seq 1 n) as [|j l IH]; [reflexivity|]. cbn [flat_map]. rewrite find_app, IH. destruct (Nat.eq_dec j i) as [-> | D]; [rewrite find_in_table; reflexivity|]. rewrite find_none; [reflexivity|].
    intro X. apply table_lows in X. pose proof (suffix_us (S_ "InclUAdata") i) as U. destruct X as [X|[X|(b & X)]]; [rewrite X in U; destruct U|rewrite X in U; cbn in U; intuition discriminate|]. apply suffix_inj in X. destruct X; congruence.
  - destruct (C136_polar_keys true n ltac:(lia)) as (es & E & K). rewrite proto_entries in E by lia. injection E as <-. rewrite K, filter_app. change (filter (str_eqb (S_ "InclUAdata")) (named [] HEAD)) with (@nil str). cbn [app].
    assert (Z : forall i names, filter (str_eqb (S_ "InclUAdata")) (named (suffix i) names) = []).
    { intros i names. induction names as [|a l IH]; [reflexivity|]. cbn [named map filter]. destruct (str_eqb (S_ "InclUAdata") (S_ a ++ suffix i)) eqn:X; [|exact IH]. exfalso. apply str_eqb_eq in X. pose proof (suffix_us (S_ a) i) as U. rewrite <- X in U. cbn in U. intuition discriminate. }
    destruct n as [|n]; [lia|]. change (seq 1 (S n)) with (1 :: seq 2 n). cbn [flat_map]. rewrite !filter_app, !Z. change (1 =? 1) with true. cbn [app filter]. rewrite str_eqb_refl. cbn [List.length].
    assert (R : forall l, ~ In 1 l -> filter (str_eqb (S_ "InclUAdata")) (flat_map (fun i => named (suffix i) ["Re"; "Ctrl"]%string ++ ((if i =? 1 then [S_ "InclUAdata"] else []) ++ named (suffix i) UNSTEADY) ++ named (suffix i) ["NumAlf"; "AFCoeff"]%string) l) = []).
    { induction l as [|i l IH]; intro H; [reflexivity|]. cbn [flat_map]. cbn [In] in H. replace (i =? 1) with false by lia. rewrite !filter_app, !Z, IH by tauto. reflexivity. }
    rewrite R; [reflexivity|]. rewrite in_seq. lia.
Qed.
(** The keys of the empty blades, and an empty AeroDyn blade cannot be written *)
Theorem C136_blades : exists ed ad, ed_proto (V := V) = Some ed /\ ad_proto (V := V) = Some ad /\ fixed_format ed = EDBlade /\ fixed_format ad = ADBlade /\
  keys_of ed = map S_ ["NBlInpSt"; "BldFlDmp(1)"; "BldFlDmp(2)"; "BldEdDmp(1)"; "FlStTunr(1)"; "FlStTunr(2)"; "AdjBlMs"; "AdjFlSt"; "AdjEdSt"; "BldProp";
    "BldFl1Sh(2)"; "BldFl1Sh(3)"; "BldFl1Sh(4)"; "BldFl1Sh(5)"; "BldFl1Sh(6)"; "BldFl2Sh(2)"; "BldFl2Sh(3)"; "BldFl2Sh(4)"; "BldFl2Sh(5)"; "BldFl2Sh(6)"; "BldEdgSh(2)"; "BldEdgSh(3)"; "BldEdgSh(4)"; "BldEdgSh(5)"; "BldEdgSh(6)"]%string /\
  keys_of ad = map S_ ["NumBlNds"; "BldAeroNodes"]%string.
Proof. eexists _, _. split; [reflexivity|]. split; [reflexivity|]. split; [reflexivity|]. split; [reflexivity|]. split; reflexivity. Qed.
(** What the empty blades hold: no station, no node, every factor is 1, each mode shape is x^2 *)
Definition holds (es : list ent) (k : string) (v : val) : Prop := exists d, find_entry es (S_ k) = Some (Item d) /\ it_value d = v.
Theorem C136_blade_values : exists ed ad, ed_proto (V := V) = Some ed /\ ad_proto (V := V) = Some ad /\
  holds ed "NBlInpSt" (VInt 0) /\ holds ad "NumBlNds" (VInt 0) /\
  Forall (fun k => holds ed k (VFloat (S_ "1.0"))) ["BldFlDmp(1)"; "BldFlDmp(2)"; "BldEdDmp(1)"; "FlStTunr(1)"; "FlStTunr(2)"; "AdjBlMs"; "AdjFlSt"; "AdjEdSt"; "BldFl1Sh(2)"; "BldFl2Sh(2)"; "BldEdgSh(2)"]%string /\
  Forall (fun k => holds ed k (VFloat (S_ "0.0"))) ["BldFl1Sh(3)"; "BldFl1Sh(4)"; "BldFl1Sh(5)"; "BldFl1Sh(6)"; "BldFl2Sh(3)"; "BldFl2Sh(4)"; "BldFl2Sh(5)"; "BldFl2Sh(6)"; "BldEdgSh(3)"; "BldEdgSh(4)"; "BldEdgSh(5)"; "BldEdgSh(6)"]%string /\
  find_entry ed (S_ "BldProp") = Some (Tab (S_ "BldProp") [] NumHeader (Key (S_ "NBlInpSt")) (Nums []) (Some (map S_ ["BlFract"; "PitchAxis"; "StrcTwst"; "BMassDen"; "FlpStff"; "EdgStff"]%string)) (Some (map S_ ["(-)"; "(-)"; "(deg)"; "(kg/m)"; "(Nm^2)"; "(Nm^2)"]%string))) /\
  find_entry ad (S_ "BldAeroNodes") = Some (Tab (S_ "BldAeroNodes") [] NumHeader (Key (S_ "NumBlNds")) (Nums []) (Some (map S_ ["BlSpn"; "BlCrvAC"; "BlSwpAC"; "BlCrvAng"; "BlTwist"; "BlChord"; "BlAFID"]%string)) (Some (map S_ ["(m)"; "(m)"; "(m)"; "(deg)"; "(deg)"; "(m)"; "(-)"]%string))).
Proof.
  eexists _, _. split; [reflexivity|]. split; [reflexivity|]. unfold holds. split; [eexists; split; reflexivity|]. split; [eexists; split; reflexivity|].
  split; [repeat constructor; eexists; split; reflexivity|]. split; [repeat constructor; eexists; split; reflexivity|]. split; reflexivity.
Qed.
Theorem C136_blade_write_refuted : forall f1 f2 f3 f4 f5 can_open, exists es es', ad_proto (V := V) = Some es /\ write_fixed f1 f2 f3 f4 f5 can_open es = Some (mk_written es' None (Err ValueError)).
Proof. intros. eexists _, _. split; [reflexivity|]. reflexivity. Qed.
End Proto.
Print Assumptions C136_polar_keys.
Print Assumptions C136_polar_one.
Print Assumptions C136_tables.
Print Assumptions C136_flag_refuted.
Print Assumptions C136_blades.
Print Assumptions C136_blade_values.
Print Assumptions C136_blade_write_refuted.

(** ** Cases *)
Example C136_nonvacuous : exists es, polar_proto (V := Z) true 3 = Some es /\ fixed_format es = ADPolar /\ In (S_ "filtCutOff_3") (keys_of es) /\ ~ In (S_ "InclUAdata_2") (keys_of es).
Proof. eexists. split; [vm_compute; reflexivity|]. split; [reflexivity|]. split; [vm_compute; intuition|]. vm_compute. intuition discriminate. Qed.
