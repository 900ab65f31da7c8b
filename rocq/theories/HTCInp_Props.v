(** Property C149 (input files of an HTC file). *)
From Verif Require Import Py PyFacts TextFacts FASTOut_Model HTC_Model HTCPath_Model HTCSim_Model.
From Verif Require HTCSim_Props HTCCmp_Model HTCCmp_Props H2dat_Props Registry_Model Registry_Proofs Deck_Model.
From Verif Require Import HTCExt_Props.
From Verif Require Import HTCInp_Model.
From Coq Require Import QArith Lia.
Local Open Scope nat_scope.

(** ** Specification *)

(** [m] is the item [k] of the section [n]. *)
Definition item_of (n : node) (k : str) (m : node) : Prop := exists kd nm bc ec c ss, n = Sec kd nm bc ec c ss /\ look c k = Some m.
Definition is_section (n : node) : Prop := exists kd nm bc ec c ss, n = Sec kd nm bc ec c ss.
(** [v] is the value number [i] of the line [k] of the section [n]. *)
Definition has_val (n : node) (k : string) (i : nat) (v : str) : Prop := exists nm vs cm, item_of n (S_ k) (Line nm vs cm) /\ nth_error vs i = Some v.
(** The name of the 64-bit version of a library: _64 before the extension. *)
Definition bits64 (g v : str) : Prop :=
  exists r e, g = r ++ e /\ v = r ++ S_ "_64" ++ e /\
    ((exists t, e = "."%char :: t /\ ~ In "."%char t /\ ~ In "/"%char t /\ H2dat_Props.proper r) \/
     (e = [] /\ forall r' t, r = r' ++ "."%char :: t -> ~ In "."%char t -> ~ In "/"%char t -> ~ H2dat_Props.proper r')).

(** The files that the contents of the file name, section by section. *)
Definition structure_file (d : list (str * node)) (v : str) : Prop :=
  exists s k mb, look d (S_ "new_htc_structure") = Some s /\ item_of s k mb /\ (exists t, k = S_ "main_body" ++ t) /\
    ((exists t, item_of mb (S_ "timoschenko_input") t /\ has_val t "filename" 0 v) \/ has_val mb "external_bladedata_dll" 2 v).
Definition aero_file (d : list (str * node)) (v : str) : Prop :=
  exists a, look d (S_ "aero") = Some a /\
    (has_val a "ae_filename" 0 v \/ has_val a "pc_filename" 0 v \/ has_val a "external_bladedata_dll" 2 v \/ has_val a "output_profile_coef_filename" 0 v \/
     (exists s, item_of a (S_ "dynstall_ateflap") s /\ has_val s "flap" 2 v) \/ (exists s, item_of a (S_ "bemwake_method") s /\ has_val s "a-ct-filename" 0 v)).
Definition dll_file (d : list (str * node)) (v : str) : Prop :=
  exists s k n g, look d (S_ "dll") = Some s /\ item_of s k n /\ has_val n "filename" 0 g /\ (v = g \/ bits64 g v).
Definition wind_file (d : list (str * node)) (v : str) : Prop :=
  exists w, look d (S_ "wind") = Some w /\ (has_val w "user_defined_shear" 0 v \/ has_val w "user_defined_shear_turbulence" 0 v \/ has_val w "met_mast_wind" 0 v).
(** The code takes the files of the wakes from the wind section. *)
Definition wake_file (d : list (str * node)) (v : str) : Prop :=
  exists w, look d (S_ "wakes") <> None /\ look d (S_ "wind") = Some w /\
    (has_val w "use_specific_deficit_file" 0 v \/ has_val w "write_ct_cq_file" 0 v \/ has_val w "write_final_deficits" 0 v).
Definition hydro_file (d : list (str * node)) (v : str) : Prop :=
  exists h w, look d (S_ "hydro") = Some h /\ item_of h (S_ "water_properties") w /\ (has_val w "water_kinematics_dll" 0 v \/ has_val w "water_kinematics_dll" 1 v).
Definition soil_file (d : list (str * node)) (v : str) : Prop :=
  exists s e, look d (S_ "soil") = Some s /\ item_of s (S_ "soil_element") e /\ has_val e "datafile" 0 v.
Definition controller_file (num : str -> option (res str)) (toQ : str -> option Q) (fmtd : Q -> str) (d : list (str * node)) (v : str) : Prop :=
  exists s kd nm bc ec cont ss c i t q f, look d (S_ "dll") = Some s /\ s = Sec kd nm bc ec cont ss /\
    HTCCmp_Props.the_item cont (HTCCmp_Props.holds (S_ "name") (S_ "dtu_we_controller")) c /\ item_of c (S_ "init") i /\ has_val i "constant__5" 1 t /\
    toQ t = Some q /\ (90 <= q)%Q /\ has_val c "filename" 0 f /\ num f = None /\
    v = map (fun c => if ascii_dec c (ch 92) then "/"%char else c) (Deck_Model.path_join (Deck_Model.dirname f) (S_ "wpdata." ++ fmtd q)).
Definition force_file (d : list (str * node)) (v : str) : Prop :=
  exists f s, look d (S_ "force") = Some f /\ item_of f (S_ "dll") s /\ has_val s "dll" 0 v.

(** ** Facts *)
Lemma item_of_sub n k m : sub n k = Ok m <-> item_of n k m.
Proof.
  unfold item_of. destruct n as [nm vs cm|kd nm bc ec c ss]; cbn [sub].
  - split; [discriminate|]. intros (? & ? & ? & ? & ? & ? & H & _). discriminate H.
  - unfold attr. split.
    + intro H. do 6 eexists. split; [reflexivity|]. rewrite look_dget. destruct (dget c k); [injection H as ->; reflexivity|discriminate].
    + intros (? & ? & ? & ? & ? & ? & H & L). injection H as _ _ _ _ <- _. rewrite look_dget in L. rewrite L. reflexivity.
Qed.
Lemma item_of_fun n k m m' : item_of n k m -> item_of n k m' -> m = m'.
Proof. intros A B. apply item_of_sub in A, B. congruence. Qed.
Lemma item_val n i v : item n i = Ok v <-> exists nm vs cm, n = Line nm vs cm /\ nth_error vs i = Some v.
Proof.
  destruct n as [nm vs cm|kd nm bc ec c ss]; cbn [item].
  - split.
    + intro H. exists nm, vs, cm. split; [reflexivity|]. destruct (nth_error vs i); [injection H as ->; reflexivity|discriminate].
    + intros (? & ? & ? & H & L). injection H as <- <- <-. rewrite L. reflexivity.
  - split; [discriminate|]. intros (? & ? & ? & H & _). discriminate H.
Qed.
Lemma has_sub n k : has n k = true <-> exists m, item_of n k m.
Proof.
  split.
  - destruct n as [nm vs cm|kd nm bc ec c ss]; cbn [has]; [discriminate|]. rewrite HTCSim_Props.dmem_dget. destruct (dget c k) as [m|] eqn:E; [|discriminate].
    intros _. exists m. do 6 eexists. split; [reflexivity|]. rewrite look_dget. exact E.
  - intros (m & kd & nm & bc & ec & c & ss & -> & H). cbn [has]. rewrite HTCSim_Props.dmem_dget. rewrite look_dget in H. rewrite H. reflexivity.
Qed.
Lemma bind_inv {A B} (r : res A) (k : A -> res B) b : bind r k = Ok b -> exists a, r = Ok a /\ k a = Ok b.
Proof. destruct r; cbn [bind]; [eauto|discriminate]. Qed.
Definition finds (f : node -> res (list (option str))) (P : node -> str -> Prop) : Prop := forall n l, f n = Ok l -> forall v, In (Some v) l <-> P n v.
Lemma finds_one k i : finds (fun n => one n k i) (fun n v => has_val n k i v).
Proof.
  intros n l H v. unfold one in H. destruct n as [nm vs cm|kd nm bc ec c ss]; [discriminate|]. destruct (dget c (S_ k)) as [m|] eqn:E.
  - apply bind_inv in H as (w & H1 & H2). injection H2 as <-. apply item_val in H1 as (nm' & vs & cm & -> & N). split.
    + intros [X|[]]. injection X as ->. exists nm', vs, cm. split; [|exact N]. apply item_of_sub. cbn [sub]. unfold attr. rewrite E. reflexivity.
    + intros (nm2 & vs2 & cm2 & X & N2). apply item_of_sub in X. cbn [sub] in X. unfold attr in X. rewrite E in X. injection X as _ <- _. left. congruence.
  - injection H as <-. split; [intros [X|[]]; discriminate X|]. intros (nm2 & vs2 & cm2 & X & N2). apply item_of_sub in X. cbn [sub] in X. unfold attr in X. rewrite E in X. discriminate X.
Qed.
Lemma finds_must k i : finds (fun n => must n k i) (fun n v => has_val n k i v).
Proof.
  intros n l H v. unfold must in H. apply bind_inv in H as (m & H1 & H). apply bind_inv in H as (w & H2 & H). injection H as <-. apply item_of_sub in H1.
  apply item_val in H2 as (nm & vs & cm & -> & N). split.
  - intros [X|[]]. injection X as ->. exists nm, vs, cm. auto.
  - intros (nm2 & vs2 & cm2 & X & N2). pose proof (item_of_fun _ _ _ _ H1 X) as Y. injection Y as _ <- _. left. congruence.
Qed.
Lemma finds_if_in k f P : finds f P -> finds (fun n => if_in n k f) (fun n v => exists m, item_of n (S_ k) m /\ P m v).
Proof.
  intros F n l H v. unfold if_in in H. destruct (has n (S_ k)) eqn:E.
  - apply bind_inv in H as (m & H1 & H). apply item_of_sub in H1. rewrite (F m l H v). split; [eauto|]. intros (m' & X & Y). rewrite (item_of_fun _ _ _ _ H1 X). exact Y.
  - injection H as <-. split; [intros []|]. intros (m & X & _). assert (Y : has n (S_ k) = true) by (apply has_sub; eauto). congruence.
Qed.
Lemma appends_inv rs : forall l, appends rs = Ok l -> (forall r, In r rs -> exists a, r = Ok a) /\ forall x, In x l <-> exists a, In (Ok a) rs /\ In x a.
Proof.
  induction rs as [|r rs IH]; intros l H; cbn [appends] in H.
  - injection H as <-. split; [intros r []|]. intro x. split; [intros []|intros (a & [] & _)].
  - apply bind_inv in H as (a & -> & H). apply bind_inv in H as (b & H1 & H). injection H as <-. destruct (IH b H1) as [I1 I2]. split.
    + intros r [<-|Hr]; [eauto|auto].
    + intro x. rewrite in_app_iff, I2. split.
      * intros [X|(c & Y & Z)]; [exists a; split; [left; reflexivity|exact X]|exists c; split; [right; exact Y|exact Z]].
      * intros (c & [X|X] & Z); [injection X as ->; left; exact Z|right; eauto].
Qed.
Lemma appends_total rs : (forall r, In r rs -> exists a, r = Ok a) -> exists l, appends rs = Ok l.
Proof.
  induction rs as [|r rs IH]; intro H; [eexists; reflexivity|]. destruct (H r (or_introl eq_refl)) as (a & ->). destruct IH as (b & E); [intros; apply H; right; assumption|].
  exists (a ++ b). cbn [appends bind]. rewrite E. reflexivity.
Qed.
Lemma finds_nil : finds (fun n => appends []) (fun n v => False).
Proof. intros n l H v. injection H as <-. split; intros []. Qed.
Lemma finds_cons f g P R : finds f P -> finds (fun n => appends (g n)) R -> finds (fun n => appends (f n :: g n)) (fun n v => P n v \/ R n v).
Proof.
  intros F G n l H v. cbn [appends] in H. apply bind_inv in H as (a & H1 & H). apply bind_inv in H as (b & H2 & H). injection H as <-.
  rewrite in_app_iff, (F n a H1 v), (G n b H2 v). reflexivity.
Qed.
Lemma if_file_in d k f P l : finds f P -> if_file d k f = Ok l -> forall v, In (Some v) l <-> exists n, look d (S_ k) = Some n /\ P n v.
Proof.
  intros F H v. unfold if_file in H. rewrite look_dget. destruct (dget d (S_ k)) as [n|].
  - rewrite (F n l H v). split; [eauto|]. intros (m & X & Y). injection X as ->. exact Y.
  - injection H as <-. split; [intros []|]. intros (m & X & _). discriminate X.
Qed.
Lemma finds_ext f P R : (forall n v, P n v <-> R n v) -> finds f P -> finds f R.
Proof. intros E F n l H v. rewrite <- E. exact (F n l H v). Qed.
Lemma starts_iff k p : startswith k p = true <-> exists t, k = p ++ t.
Proof.
  revert k. induction p as [|c p IH]; intro k; cbn [startswith app].
  - split; [eauto|]. reflexivity.
  - destruct k as [|x k]; [split; [discriminate|intros (t & X); discriminate X]|]. rewrite Bool.andb_true_iff, IH. split.
    + intros [A (t & ->)]. apply chr_eqb_eq in A. subst. eauto.
    + intros (t & X). injection X as -> ->. split; [apply chr_eqb_eq; reflexivity|eauto].
Qed.
Lemma finds_keys (sel : str -> bool) (f : node -> res (list (option str))) P : finds f P ->
  finds (fun s => ks <- keys_of s ;; appends (map (fun k => m <- sub s k ;; f m) (filter sel ks))) (fun s v => exists k m, item_of s k m /\ sel k = true /\ P m v).
Proof.
  intros F s l H v. apply bind_inv in H as (ks & H1 & H). destruct s as [|kd nm bc ec c ss]; [discriminate|]. cbn [keys_of] in H1. injection H1 as <-.
  destruct (appends_inv _ _ H) as [A1 A2]. rewrite A2. split.
  - intros (a & X & Y). apply in_map_iff in X as (k & X & Z). apply filter_In in Z as [Z1 Z2]. apply bind_inv in X as (m & X1 & X2). exists k, m.
    split; [apply item_of_sub; exact X1|]. split; [exact Z2|]. apply (F m a X2). exact Y.
  - intros (k & m & X & S & Y). assert (K : In k (filter sel (map fst c))).
    { apply filter_In. split; [|exact S]. destruct X as (? & ? & ? & ? & ? & ? & X & L). injection X as _ _ _ _ <- _. clear - L.
      induction c as [|[a n] c IH]; cbn [look] in L; [discriminate|]. cbn [map fst]. destruct (list_eq_dec ascii_dec a k) as [->|]; [left; reflexivity|right; apply IH; exact L]. }
    assert (I : In (m0 <- sub (Sec kd nm bc ec c ss) k ;; f m0) (map (fun k => m0 <- sub (Sec kd nm bc ec c ss) k ;; f m0) (filter sel (map fst c)))).
    { apply in_map_iff. exists k. split; [reflexivity|exact K]. }
    destruct (A1 _ I) as (a & E). rewrite E in I. exists a. split; [exact I|]. apply item_of_sub in X. rewrite X in E. cbn [bind] in E. apply (F m a E). exact Y.
Qed.
Lemma bits_iff num g w : with_64 num g = Ok w -> forall v, v = w <-> bits64 g v.
Proof.
  unfold with_64. destruct (is_text num g); [|discriminate]. intro H. injection H as <-.
  assert (A : forall r e, g = r ++ e -> Registry_Model.splitext_ext g = e -> firstn (List.length g - List.length (Registry_Model.splitext_ext g)) g ++ S_ "_64" ++ Registry_Model.splitext_ext g = r ++ S_ "_64" ++ e).
  { intros r e -> E. rewrite E, app_length. replace (List.length r + List.length e - List.length e) with (List.length r + 0) by lia. rewrite firstn_app_2. cbn [firstn]. rewrite app_nil_r. reflexivity. }
  assert (B : forall r t, g = r ++ "."%char :: t -> ~ In "."%char t -> ~ In "/"%char t -> H2dat_Props.proper r -> Registry_Model.splitext_ext g = "."%char :: t).
  { intros r t -> H1 H2 H3. apply H2dat_Props.ext_proper; assumption. }
  assert (C : (exists r t, g = r ++ "."%char :: t /\ ~ In "."%char t /\ ~ In "/"%char t /\ H2dat_Props.proper r) \/ Registry_Model.splitext_ext g = []).
  { clear A B. assert (X : exists h b, g = h ++ b /\ (h = [] \/ exists a', h = a' ++ ["/"%char]) /\ ~ In "/"%char b /\ Registry_Model.basename g = b).
    { unfold Registry_Model.basename. pose proof (Registry_Proofs.rsplit1_spec Registry_Model.slash g) as R. destruct (Registry_Model.rsplit1 _ g) as [[a b]|].
      - destruct R as [-> R]. exists (a ++ ["/"%char]), b. split; [rewrite <- app_assoc; reflexivity|]. split; [right; eauto|]. split; [exact R|reflexivity].
      - exists [], g. split; [reflexivity|]. split; [left; reflexivity|]. split; [exact R|reflexivity]. }
    destruct X as (h & b & E & Hh & Hb & EB). unfold Registry_Model.splitext_ext. rewrite EB. pose proof (Registry_Proofs.rsplit1_spec Registry_Model.dot b) as R.
    destruct (Registry_Model.rsplit1 _ b) as [[r e]|]; [|right; reflexivity]. destruct R as [R1 R2]. destruct (forallb _ r) eqn:Fb; [right; reflexivity|]. left.
    exists (h ++ r), e. split; [rewrite E, R1, <- app_assoc; reflexivity|]. split; [exact R2|]. split; [intro X; apply Hb; rewrite R1; apply in_or_app; right; right; exact X|].
    exists h, r. split; [reflexivity|]. split; [exact Hh|]. split; [intro X; apply Hb; rewrite R1; apply in_or_app; left; exact X|].
    clear - Fb. induction r as [|c r IH]; [discriminate|]. cbn [forallb] in Fb. destruct (chr_eqb c Registry_Model.dot) eqn:E.
    - destruct (IH Fb) as (x & X & Y). exists x. split; [right; exact X|exact Y].
    - exists c. split; [left; reflexivity|]. intro X. subst c. discriminate E. }
  intro v. split.
  - intros ->. destruct C as [(r & t & Eg & C2 & C3 & C4)|C1].
    + exists r, ("."%char :: t). split; [exact Eg|]. split; [apply A; [exact Eg|eapply B; eassumption]|]. left. exists t. auto.
    + exists g, []. split; [rewrite app_nil_r; reflexivity|]. split; [exact (A g [] (eq_sym (app_nil_r g)) C1)|]. right. split; [reflexivity|].
      intros r' t Eg H1 H2 H3. rewrite (B r' t Eg H1 H2 H3) in C1. discriminate C1.
  - intros (r & e & Eg & -> & D). symmetry. apply A; [exact Eg|]. destruct D as [(t & -> & D1 & D2 & D3)|[-> D]]; [eapply B; eassumption|].
    destruct C as [(r' & t & Eg' & C2 & C3 & C4)|C1]; [|exact C1]. exfalso. rewrite app_nil_r in Eg. exact (D r' t (eq_trans (eq_sym Eg) Eg') C2 C3 C4).
Qed.

Lemma structure_in d l : structure_inputs d = Ok l -> forall v, In (Some v) l <-> structure_file d v.
Proof.
  intros H v. unfold structure_inputs in H.
  assert (F : finds body_inputs (fun mb v => (exists t, item_of mb (S_ "timoschenko_input") t /\ has_val t "filename" 0 v) \/ has_val mb "external_bladedata_dll" 2 v)).
  { eapply finds_ext; [|apply (finds_cons (fun mb => if_in mb "timoschenko_input" (fun t => must t "filename" 0)) (fun mb => [one mb "external_bladedata_dll" 2]));
      [apply finds_if_in, finds_must|apply (finds_cons (fun mb => one mb "external_bladedata_dll" 2) (fun _ => [])); [apply finds_one|apply finds_nil]]]. cbn beta. tauto. }
  rewrite (if_file_in _ _ _ _ _ (finds_keys _ _ _ F) H v). unfold structure_file. split.
  - intros (s & A & k & m & B & C & D). exists s, k, m. split; [exact A|]. split; [exact B|]. split; [apply starts_iff; exact C|exact D].
  - intros (s & k & m & A & B & C & D). exists s. split; [exact A|]. exists k, m. split; [exact B|]. split; [apply starts_iff; exact C|exact D].
Qed.
Lemma aero_in d l : aero_inputs d = Ok l -> forall v, In (Some v) l <-> aero_file d v.
Proof.
  intros H v. unfold aero_inputs in H. unfold aero_file.
  match type of H with if_file _ _ ?f = _ => assert (F : finds f (fun a v => has_val a "ae_filename" 0 v \/ has_val a "pc_filename" 0 v \/ has_val a "external_bladedata_dll" 2 v \/
    has_val a "output_profile_coef_filename" 0 v \/ (exists s, item_of a (S_ "dynstall_ateflap") s /\ has_val s "flap" 2 v) \/
    (exists s, item_of a (S_ "bemwake_method") s /\ has_val s "a-ct-filename" 0 v))) end.
  { eapply finds_ext; [|
      apply (finds_cons (fun a => must a "ae_filename" 0)); [apply finds_must|]; apply (finds_cons (fun a => must a "pc_filename" 0)); [apply finds_must|];
      apply (finds_cons (fun a => one a "external_bladedata_dll" 2)); [apply finds_one|]; apply (finds_cons (fun a => one a "output_profile_coef_filename" 0)); [apply finds_one|];
      apply (finds_cons (fun a => if_in a "dynstall_ateflap" (fun s => one s "flap" 2))); [apply finds_if_in, finds_one|];
      apply (finds_cons (fun a => if_in a "bemwake_method" (fun s => one s "a-ct-filename" 0))); [apply finds_if_in, finds_one|apply finds_nil]].
    cbn beta. tauto. }
  rewrite (if_file_in _ _ _ _ _ F H v). reflexivity.
Qed.
Lemma dll_in num d l : dll_inputs num d = Ok l -> forall v, In (Some v) l <-> dll_file d v.
Proof.
  intros H v. unfold dll_inputs in H.
  assert (F : finds (fun n => if has n (S_ "filename") then l <- sub n (S_ "filename") ;; v <- item l 0 ;; w <- with_64 num v ;; Ok [Some v; Some w] else Ok [])
    (fun n v => exists g, has_val n "filename" 0 g /\ (v = g \/ bits64 g v))).
  { intros n a E x. destruct (has n (S_ "filename")) eqn:Hn.
    - apply bind_inv in E as (m & E1 & E). apply bind_inv in E as (g & E2 & E). apply bind_inv in E as (w & E3 & E). injection E as <-. apply item_of_sub in E1.
      apply item_val in E2 as (nm & vs & cm & -> & N). split.
      + intro X. exists g. split; [exists nm, vs, cm; auto|]. destruct X as [X|[X|[]]]; injection X as <-; [left; reflexivity|right; apply (bits_iff num g w E3); reflexivity].
      + intros (g' & (nm' & vs' & cm' & X & N') & Y). pose proof (item_of_fun _ _ _ _ E1 X) as Z. injection Z as _ <- _. assert (g' = g) by congruence. subst g'.
        destruct Y as [->|Y]; [left; reflexivity|right; left]. f_equal. symmetry. apply (bits_iff num g w E3). exact Y.
    - injection E as <-. split; [intros []|]. intros (g & (nm & vs & cm & X & _) & _). assert (Y : has n (S_ "filename") = true) by (apply has_sub; eauto). congruence. }
  assert (H' : if_file d "dll" (fun s => ks <- keys_of s ;; appends (map (fun k => n <- sub s k ;;
    (fun n => if has n (S_ "filename") then l <- sub n (S_ "filename") ;; v <- item l 0 ;; w <- with_64 num v ;; Ok [Some v; Some w] else Ok []) n) (filter (fun _ => true) ks))) = Ok l).
  { rewrite <- H. unfold if_file. destruct (dget d (S_ "dll")) as [s|]; [|reflexivity]. destruct (keys_of s) as [ks|]; [|reflexivity]. cbn [bind].
    assert (X : filter (fun _ : str => true) ks = ks) by (clear; induction ks as [|k ks IH]; [reflexivity|cbn [filter]; rewrite IH; reflexivity]). rewrite X. reflexivity. }
  rewrite (if_file_in _ _ _ _ _ (finds_keys _ _ _ F) H' v). unfold dll_file. split.
  - intros (s & A & k & m & B & C & g & D & E). exists s, k, m, g. auto.
  - intros (s & k & m & g & A & B & C & D). exists s. split; [exact A|]. exists k, m. split; [exact B|]. split; [reflexivity|]. exists g. auto.
Qed.
Lemma three a b c i j k : finds (fun w => appends [one w a i; one w b j; one w c k]) (fun w v => has_val w a i v \/ has_val w b j v \/ has_val w c k v).
Proof.
  eapply finds_ext; [|apply (finds_cons (fun w => one w a i)); [apply finds_one|]; apply (finds_cons (fun w => one w b j)); [apply finds_one|];
    apply (finds_cons (fun w => one w c k)); [apply finds_one|apply finds_nil]]. cbn beta. tauto.
Qed.
Lemma wind_in d l : wind_inputs d = Ok l -> forall v, In (Some v) l <-> wind_file d v \/ wake_file d v.
Proof.
  intros H v. unfold wind_inputs in H. cbn [appends] in H. apply bind_inv in H as (a & H1 & H). apply bind_inv in H as (b & H2 & H). injection H as <-.
  rewrite in_app_iff, (if_file_in _ _ _ _ _ (three _ _ _ _ _ _) H1 v). apply bind_inv in H2 as (c & H2 & H3). injection H3 as <-. rewrite app_nil_r.
  assert (X : In (Some v) c <-> wake_file d v); [|rewrite X; reflexivity]. unfold wake_file. rewrite !look_dget. rewrite HTCSim_Props.dmem_dget in H2.
  destruct (dget d (S_ "wakes")) as [k|].
  - apply bind_inv in H2 as (w & A & B). unfold attr in A. destruct (dget d (S_ "wind")) as [w'|]; [|discriminate]. injection A as ->. rewrite (three _ _ _ _ _ _ w c B v). split.
    + intro X. exists w. split; [discriminate|]. auto.
    + intros (w' & _ & E & X). injection E as <-. exact X.
  - injection H2 as <-. split; [intros []|]. intros (w & E & _). congruence.
Qed.
Lemma ground_in d l : ground_inputs d = Ok l -> forall v, In (Some v) l <-> hydro_file d v \/ soil_file d v.
Proof.
  intros H v. unfold ground_inputs in H. cbn [appends] in H. apply bind_inv in H as (a & H1 & H). apply bind_inv in H as (b & H2 & H). injection H as <-.
  apply bind_inv in H2 as (c & H2 & H3). injection H3 as <-. rewrite app_nil_r, in_app_iff.
  rewrite (if_file_in _ _ _ _ _ (finds_if_in _ _ _ (finds_one "datafile" 0)) H2 v).
  assert (F : finds (fun w => (appends [one w "water_kinematics_dll" 0; one w "water_kinematics_dll" 1])) (fun w v => has_val w "water_kinematics_dll" 0 v \/ has_val w "water_kinematics_dll" 1 v)).
  { eapply finds_ext; [|apply (finds_cons (fun w => one w "water_kinematics_dll" 0)); [apply finds_one|]; apply (finds_cons (fun w => one w "water_kinematics_dll" 1)); [apply finds_one|apply finds_nil]]. cbn beta. tauto. }
  rewrite (if_file_in _ _ _ _ _ (finds_if_in _ _ _ F) H1 v). unfold hydro_file, soil_file. split.
  - intros [(h & A & w & B & C)|(s & A & e & B & C)]; [left; exists h, w; auto|right; exists s, e; auto].
  - intros [(h & w & A & B & C)|(s & e & A & B & C)]; [left; exists h; split; [exact A|exists w; auto]|right; exists s; split; [exact A|exists e; auto]].
Qed.
Lemma force_in d v : In (Some v) (passed (force d)) <-> force_file d v.
Proof.
  unfold force_file. split.
  - destruct (force d) as [l|] eqn:E; cbn [passed]; [|intros []]. intro X. unfold force in E. apply bind_inv in E as (f & E1 & E). apply bind_inv in E as (s & E2 & E).
    exists f, s. split; [unfold attr in E1; rewrite look_dget; destruct (dget d (S_ "force")); [injection E1 as ->; reflexivity|discriminate]|].
    split; [apply item_of_sub; exact E2|]. apply (finds_must "dll" 0 s l E). exact X.
  - intros (f & s & A & B & nm & vs & cm & C & N). rewrite look_dget in A. apply item_of_sub in B, C. unfold force, attr. rewrite A. cbn [bind]. rewrite B. cbn [bind]. unfold must.
    rewrite C. cbn [bind item]. rewrite N. left. reflexivity.
Qed.
Lemma if_file_total d k f : (forall n, dget d (S_ k) = Some n -> exists l, f n = Ok l) -> exists l, if_file d k f = Ok l.
Proof. unfold if_file. destruct (dget d (S_ k)) as [n|]; [auto|eauto]. Qed.
Lemma if_in_total n k f : (forall m, item_of n (S_ k) m -> exists l, f m = Ok l) -> exists l, if_in n k f = Ok l.
Proof.
  intro H. unfold if_in. destruct (has n (S_ k)) eqn:E; [|eauto]. apply has_sub in E as (m & E). destruct (H m E) as (l & L). apply item_of_sub in E. rewrite E. cbn [bind]. eexists. exact L.
Qed.
Lemma must_total n k i : (exists v, has_val n k i v) -> exists l, must n k i = Ok l.
Proof. intros (v & nm & vs & cm & X & N). apply item_of_sub in X. unfold must. rewrite X. cbn [bind item]. rewrite N. eexists. reflexivity. Qed.
(** The section [n] has a value number [i] in the line [k], or no item [k]. *)
Definition may_have (n : node) (k : string) (i : nat) : Prop := is_section n /\ ((forall m, ~ item_of n (S_ k) m) \/ exists v, has_val n k i v).
Lemma one_total n k i : may_have n k i -> exists l, one n k i = Ok l.
Proof.
  intros ((kd & nm & bc & ec & c & ss & ->) & H). unfold one. destruct (dget c (S_ k)) as [m|] eqn:E; [|eauto].
  assert (I : item_of (Sec kd nm bc ec c ss) (S_ k) m) by (do 6 eexists; split; [reflexivity|rewrite look_dget; exact E]).
  destruct H as [H|(v & nm' & vs & cm & X & N)]; [destruct (H m I)|]. rewrite (item_of_fun _ _ _ _ I X). cbn [item]. rewrite N. cbn [bind]. eexists. reflexivity.
Qed.
Lemma key_item kd nm bc ec (c : list (str * node)) ss k : In k (map fst c) -> exists m, item_of (Sec kd nm bc ec c ss) k m.
Proof.
  intro H. assert (X : exists m, look c k = Some m).
  { induction c as [|[a n] c IH]; [contradiction|]. cbn [look]. destruct (list_eq_dec ascii_dec a k); [eauto|]. destruct H as [H|H]; [contradiction|auto]. }
  destruct X as (m & X). exists m. do 6 eexists. split; [reflexivity|exact X].
Qed.
Lemma last_step (o w a1 a2 a3 a4 a5 a6 a7 a8 a9 : Prop) : (o -> w) -> o \/ (a1 \/ a2 \/ a3 \/ (a4 \/ a5) \/ (a6 \/ a7) \/ False) \/ a8 \/ a9 ->
  w \/ (a1 \/ a2 \/ a3 \/ a4 \/ a5 \/ a6 \/ a7 \/ a8 \/ a9).
Proof. tauto. Qed.
Lemma last_iff (w u a1 a2 a3 a4 a5 a6 a7 a8 a9 : Prop) : (w \/ (a1 \/ a2 \/ a3 \/ (a4 \/ a5) \/ (a6 \/ a7) \/ False) \/ a8 \/ a9) /\ u <->
  (w \/ (a1 \/ a2 \/ a3 \/ a4 \/ a5 \/ a6 \/ a7 \/ a8 \/ a9)) /\ u.
Proof. tauto. Qed.
Lemma simple_name : HTCCmp_Props.simple (S_ "name").
Proof. split; intro X; cbn in X; intuition discriminate. Qed.

Section Inputs.
  Variable num : str -> option (res str).
  Variable toQ : str -> option Q.
  Variable fmtd : Q -> str.
  Variables abspath unix : str -> res str.
  Variable relpath : str -> str -> str.
  Variable order : list str -> list str.

  (** The dlls, if they are there, can be looked at by their name. *)
  Definition readable_dlls (d : list (str * node)) : Prop := forall kd nm bc ec cont ss, look d (S_ "dll") = Some (Sec kd nm bc ec cont ss) ->
    HTCCmp_Props.trees cont /\ Forall (fun p => HTCCmp_Props.readable (S_ "name") (snd p)) cont.
  Lemma unback_spec s : unback s = map (fun c => if ascii_dec c (ch 92) then "/"%char else c) s.
  Proof using.
    unfold unback. apply map_ext. intro c. destruct (ascii_dec c (ch 92)) as [->|N]; [reflexivity|]. replace (chr_eqb c backslash) with false; [reflexivity|]. symmetry. apply chr_eqb_neq. exact N.
  Qed.
  Lemma text_iff v : is_text num v = true <-> num v = None.
  Proof using. unfold is_text. destruct (num v); split; congruence. Qed.
  Lemma wp_in d v : readable_dlls d -> (In (Some v) (passed (wpdata num toQ fmtd d)) <-> controller_file num toQ fmtd d v).
  Proof using.
    intro R. unfold controller_file. split.
    - destruct (wpdata num toQ fmtd d) as [l|] eqn:E; cbn [passed]; [|intros []]. intro X. unfold wpdata in E. apply bind_inv in E as (s & E1 & E).
      assert (L : look d (S_ "dll") = Some s) by (unfold attr in E1; rewrite look_dget; destruct (dget d (S_ "dll")); [injection E1 as ->; reflexivity|discriminate]).
      destruct s as [|kd nm bc ec cont ss]; [discriminate|]. destruct (R _ _ _ _ _ _ L) as [R1 R2].
      apply bind_inv in E as (c & E2 & E). apply bind_inv in E as (i & E3 & E). apply bind_inv in E as (ln & E4 & E). apply bind_inv in E as (t & E5 & E).
      apply item_of_sub in E3, E4. apply item_val in E5 as (nm' & vs & cm & -> & N). destruct (toQ t) as [q|] eqn:Q; [|discriminate]. destruct (Qle_bool 90 q) eqn:B.
      + apply bind_inv in E as (lf & E6 & E). apply bind_inv in E as (f & E7 & E). apply item_of_sub in E6. apply item_val in E7 as (nf & vf & cf & -> & Nf).
        destruct (is_text num f) eqn:T; [|discriminate]. injection E as <-. destruct X as [X|[]]. injection X as <-.
        do 6 eexists. exists ss, c, i, t, q, f. split; [exact L|]. split; [reflexivity|]. split; [|split; [exact E3|split; [exists nm', vs, cm; auto|split; [exact Q|split; [apply Qle_bool_iff; exact B|]]]]].
        * apply (proj1 (HTCCmp_Props.C143_section cont (S_ "name") (S_ "dtu_we_controller") R1 simple_name R2)). exact E2.
        * split; [exists nf, vf, cf; auto|]. split; [apply text_iff; exact T|]. apply unback_spec.
      + injection E as <-. destruct X.
    - intros (s & kd & nm & bc & ec & cont & ss & c & i & t & q & f & L & -> & A & B & (n1 & v1 & c1 & C1 & C2) & Q & Le & (n2 & v2 & c2 & D1 & D2) & T & ->).
      destruct (R _ _ _ _ _ _ L) as [R1 R2]. rewrite look_dget in L. unfold wpdata, attr. rewrite L. cbn [bind].
      apply (proj1 (HTCCmp_Props.C143_section cont (S_ "name") (S_ "dtu_we_controller") R1 simple_name R2)) in A. rewrite A. cbn [bind].
      apply item_of_sub in B, C1, D1. rewrite B. cbn [bind]. rewrite C1. cbn [bind item]. rewrite C2. cbn [bind]. rewrite Q. apply Qle_bool_iff in Le. rewrite Le, D1. cbn [bind item]. rewrite D2. cbn [bind].
      apply text_iff in T. rewrite T. left. f_equal. apply unback_spec.
  Qed.

  (** ** C149 *)
  Definition named_by (d : list (str * node)) (v : str) : Prop :=
    structure_file d v \/ aero_file d v \/ dll_file d v \/ wind_file d v \/ wake_file d v \/ hydro_file d v \/ soil_file d v \/ controller_file num toQ fmtd d v \/ force_file d v.
  (** The names of the file and of the files it includes: absolute when the place of the model is known. *)
  Definition slashes (s : str) : str := map (fun c => if ascii_dec c (ch 92) then "/"%char else c) s.
  Definition own (modelpath : option str) (names : list str) (v : str) : Prop :=
    exists f, In f names /\ match modelpath with None => v = slashes f | Some _ => exists p, abspath f = Ok p /\ v = slashes p end.
  (** Where a file is: an absolute name is searched in any case; a relative one too, from the place of the model if it is known, and is kept when it is not found. *)
  Definition placed (modelpath : option str) (g f : str) : Prop :=
    num g = None /\
    (((exists t, g = "/"%char :: t) /\ unix g = Ok f) \/
     ((forall t, g <> "/"%char :: t) /\
      match modelpath with
      | None => f = g
      | Some m => (exists p, unix (Deck_Model.path_join m g) = Ok p /\ f = S_ "./" ++ slashes (relpath p m)) \/ (unix (Deck_Model.path_join m g) = Err OSError2 /\ f = g)
      end)).
  Definition a_set_order : Prop := forall l, NoDup (order l) /\ forall x, In x (order l) <-> In x l.
  Lemma slash_iff g : startswith g (S_ "/") = true <-> exists t, g = "/"%char :: t.
  Proof using. rewrite starts_iff. reflexivity. Qed.
  Lemma fix_iff modelpath g f : fix_path_case num unix relpath modelpath g = Ok f <-> placed modelpath g f.
  Proof using.
    unfold fix_path_case, placed. destruct (is_text num g) eqn:T; cbn [negb].
    2:{ split; [discriminate|]. intros [X _]. apply text_iff in X. congruence. }
    apply text_iff in T. destruct (startswith g (S_ "/")) eqn:S0.
    - apply slash_iff in S0. split; [intro H; split; [exact T|left; auto]|]. intros (_ & [[_ H]|[H _]]); [exact H|]. destruct S0 as (t & ->). destruct (H t eq_refl).
    - assert (N : forall t, g <> "/"%char :: t) by (intros t X; assert (Y : startswith g (S_ "/") = true) by (apply slash_iff; eauto); congruence).
      destruct modelpath as [m|].
      + destruct (unix (Deck_Model.path_join m g)) as [p|e] eqn:U; cbn [bind].
        * rewrite unback_spec. split; [intro H; injection H as <-; split; [exact T|right; split; [exact N|left; eauto]]|].
          intros (_ & [[(t & X) _]|[_ [(p' & X & ->)|[X _]]]]); [destruct (N t X)|injection X as ->; reflexivity|discriminate X].
        * split.
          -- intro H. split; [exact T|]. right. split; [exact N|]. right. destruct e; try discriminate. injection H as <-. auto.
          -- intros (_ & [[(t & X) _]|[_ [(p' & X & _)|[X ->]]]]); [destruct (N t X)|discriminate X|injection X as ->; reflexivity].
      + split; [intro H; injection H as <-; split; [exact T|right; auto]|]. intros (_ & [[(t & X) _]|[_ ->]]); [destruct (N t X)|reflexivity].
  Qed.
  Lemma own_in modelpath names l : own_names abspath modelpath names = Ok l -> forall v, In v l <-> own modelpath names v.
  Proof using.
    unfold own_names, own. destruct modelpath as [m|]; intros H v.
    - split.
      + intro X. destruct (HTCSim_Props.in_map_res2 _ _ _ _ H X) as (f & F & E). apply bind_inv in E as (p & E1 & E2). injection E2 as <-. exists f. split; [exact F|]. exists p. split; [exact E1|apply unback_spec].
      + intros (f & F & p & E & ->). destruct (HTCSim_Props.in_map_res _ _ _ _ H F) as (y & Y & Z). rewrite E in Y. cbn [bind] in Y. injection Y as <-. rewrite unback_spec in Z. exact Z.
    - injection H as <-. rewrite in_map_iff. split; [intros (f & <- & F); exists f; split; [exact F|apply unback_spec]|intros (f & F & ->); exists f; split; [apply unback_spec|exact F]].
  Qed.
  Lemma raw_in modelpath names d l : a_set_order -> readable_dlls d -> input_files num toQ fmtd abspath unix relpath order modelpath names d = Ok l ->
    exists xs, map_res (fix_path_case num unix relpath modelpath) xs = Ok l /\ forall g, In g xs <-> (own modelpath names g \/ named_by d g) /\ HTCSim_Props.usable num g.
  Proof using.
    intros O R H. unfold input_files in H. apply bind_inv in H as (o & H1 & H). apply bind_inv in H as (n & H2 & H). eexists. split; [exact H|]. intro g.
    cbn [appends] in H2. apply bind_inv in H2 as (a1 & A1 & H2). apply bind_inv in H2 as (r1 & H2 & X). injection X as <-.
    apply bind_inv in H2 as (a2 & A2 & H2). apply bind_inv in H2 as (r2 & H2 & X). injection X as <-.
    apply bind_inv in H2 as (a3 & A3 & H2). apply bind_inv in H2 as (r3 & H2 & X). injection X as <-.
    apply bind_inv in H2 as (a4 & A4 & H2). apply bind_inv in H2 as (r4 & H2 & X). injection X as <-.
    apply bind_inv in H2 as (a5 & A5 & H2). injection H2 as <-.
    rewrite (proj2 (O _) g), HTCSim_Props.in_present. unfold named_by. rewrite !in_app_iff.
    rewrite (structure_in d a1 A1 g), (aero_in d a2 A2 g), (dll_in num d a3 A3 g), (wind_in d a4 A4 g), (ground_in d a5 A5 g), (wp_in d g R), force_in.
    assert (M : In (Some g) (map Some o) <-> own modelpath names g).
    { rewrite <- (own_in _ _ _ H1 g), in_map_iff. split; [intros (x & X & Y); injection X as ->; exact Y|eauto]. }
    rewrite M. cbn [In]. apply last_iff.
  Qed.
  (** The list is exactly the files that the file names, each at its place. *)
  Theorem C149_listed : forall modelpath names d l, a_set_order -> readable_dlls d ->
    input_files num toQ fmtd abspath unix relpath order modelpath names d = Ok l ->
    forall f, In f l <-> exists g, (own modelpath names g \/ named_by d g) /\ HTCSim_Props.usable num g /\ placed modelpath g f.
  Proof using.
    intros modelpath names d l O R H f. destruct (raw_in _ _ _ _ O R H) as (xs & E & X). split.
    - intro Y. destruct (HTCSim_Props.in_map_res2 _ _ _ _ E Y) as (g & G & F). apply X in G as [G1 G2]. exists g. split; [exact G1|]. split; [exact G2|]. apply fix_iff. exact F.
    - intros (g & W & U & P). assert (G : In g xs) by (apply X; auto). destruct (HTCSim_Props.in_map_res _ _ _ _ E G) as (y & Y & Z). apply fix_iff in P. congruence.
  Qed.
  (** The contents are such that every file can be looked up: sections are sections, lines have the value that is needed. *)
  Definition fine (d : list (str * node)) : Prop :=
    (forall s, look d (S_ "new_htc_structure") = Some s -> is_section s /\ forall k mb, item_of s k mb -> (exists t, k = S_ "main_body" ++ t) ->
       (forall t, item_of mb (S_ "timoschenko_input") t -> exists v, has_val t "filename" 0 v) /\ may_have mb "external_bladedata_dll" 2) /\
    (forall a, look d (S_ "aero") = Some a -> (exists v, has_val a "ae_filename" 0 v) /\ (exists v, has_val a "pc_filename" 0 v) /\ may_have a "external_bladedata_dll" 2 /\
       may_have a "output_profile_coef_filename" 0 /\ (forall s, item_of a (S_ "dynstall_ateflap") s -> may_have s "flap" 2) /\
       (forall s, item_of a (S_ "bemwake_method") s -> may_have s "a-ct-filename" 0)) /\
    (forall s, look d (S_ "dll") = Some s -> is_section s /\ forall k n, item_of s k n -> forall m, item_of n (S_ "filename") m -> exists v, has_val n "filename" 0 v /\ num v = None) /\
    (forall w, look d (S_ "wind") = Some w -> Forall (fun k => may_have w k 0) ["user_defined_shear"; "user_defined_shear_turbulence"; "met_mast_wind"]%string) /\
    (look d (S_ "wakes") <> None -> exists w, look d (S_ "wind") = Some w /\
       Forall (fun k => may_have w k 0) ["use_specific_deficit_file"; "write_ct_cq_file"; "write_final_deficits"]%string) /\
    (forall h w, look d (S_ "hydro") = Some h -> item_of h (S_ "water_properties") w -> may_have w "water_kinematics_dll" 0 /\ may_have w "water_kinematics_dll" 1) /\
    (forall s e, look d (S_ "soil") = Some s -> item_of s (S_ "soil_element") e -> may_have e "datafile" 0).
  Lemma with64_total v : num v = None -> exists w, with_64 num v = Ok w.
  Proof using. intro H. unfold with_64. apply text_iff in H. rewrite H. eexists. reflexivity. Qed.
  Lemma map_res_total {A B} (f : A -> res B) l : (forall x, In x l -> exists y, f x = Ok y) -> exists ys, map_res f l = Ok ys.
  Proof using. induction l as [|x l IH]; intro H; [eexists; reflexivity|]. destruct (H x (or_introl eq_refl)) as (y & E). destruct IH as (ys & F); [intros z Hz; apply H; right; exact Hz|]. exists (y :: ys). cbn [map_res]. rewrite E, F. reflexivity. Qed.
  (** Such a file has a list of its input files as soon as each of them has a place. *)
  Theorem C149_answered : forall modelpath names d, a_set_order -> readable_dlls d -> fine d ->
    (modelpath <> None -> forall f, In f names -> exists p, abspath f = Ok p) ->
    (forall g, own modelpath names g \/ named_by d g -> HTCSim_Props.usable num g -> exists f, placed modelpath g f) ->
    exists l, input_files num toQ fmtd abspath unix relpath order modelpath names d = Ok l.
  Proof using.
    intros modelpath names d O R (F1 & F2 & F3 & F4 & F5 & F6 & F7) HA HP.
    assert (E0 : exists o, own_names abspath modelpath names = Ok o).
    { unfold own_names. destruct modelpath as [m|]; [|eauto]. apply map_res_total. intros f Hf. destruct (HA (fun X => eq_ind (Some m) (fun o => match o with Some _ => True | None => False end) Logic.I None X) f Hf) as (p & E). rewrite E. eexists. reflexivity. }
    assert (E1 : exists a, structure_inputs d = Ok a).
    { unfold structure_inputs. apply if_file_total. rewrite <- look_dget. intros s Hs. destruct (F1 s Hs) as [(kd & nm & bc & ec & c & ss & ->) Fb]. cbn [keys_of bind]. apply appends_total. intros r Hr.
      apply in_map_iff in Hr as (k & <- & Hk). apply filter_In in Hk as [Hk1 Hk2]. destruct (key_item kd nm bc ec c ss k Hk1) as (mb & Hm). destruct (Fb k mb Hm) as [B1 B2]; [apply starts_iff; exact Hk2|].
      apply item_of_sub in Hm. rewrite Hm. cbn [bind]. unfold body_inputs. apply appends_total. intros r [<-|[<-|[]]]; [|apply one_total; exact B2]. apply if_in_total. intros t Ht. apply must_total. exact (B1 t Ht). }
    assert (E2 : exists a, aero_inputs d = Ok a).
    { unfold aero_inputs. apply if_file_total. rewrite <- look_dget. intros a Ha. destruct (F2 a Ha) as (B1 & B2 & B3 & B4 & B5 & B6). apply appends_total.
      intros r [<-|[<-|[<-|[<-|[<-|[<-|[]]]]]]]; [apply must_total; exact B1|apply must_total; exact B2|apply one_total; exact B3|apply one_total; exact B4| |];
        apply if_in_total; intros t Ht; apply one_total; auto. }
    assert (E3 : exists a, dll_inputs num d = Ok a).
    { unfold dll_inputs. apply if_file_total. rewrite <- look_dget. intros s Hs. destruct (F3 s Hs) as [(kd & nm & bc & ec & c & ss & ->) Fb]. cbn [keys_of bind]. apply appends_total. intros r Hr.
      apply in_map_iff in Hr as (k & <- & Hk). destruct (key_item kd nm bc ec c ss k Hk) as (n & Hn). pose proof (Fb k n Hn) as B. apply item_of_sub in Hn. rewrite Hn. cbn [bind].
      destruct (has n (S_ "filename")) eqn:H; [|eauto]. apply has_sub in H as (m & H). destruct (B m H) as (v & (nm' & vs & cm & X & N) & T). apply item_of_sub in X. rewrite X. cbn [bind item]. rewrite N. cbn [bind].
      destruct (with64_total v T) as (w & W). rewrite W. eexists. reflexivity. }
    assert (E4 : exists a, wind_inputs d = Ok a).
    { unfold wind_inputs. apply appends_total. intros r [<-|[<-|[]]].
      - apply if_file_total. rewrite <- look_dget. intros w Hw. specialize (F4 w Hw). inversion F4 as [|? ? G1 G2]; subst. inversion G2 as [|? ? G3 G4]; subst. inversion G4 as [|? ? G5 _]; subst.
        apply appends_total. intros r [<-|[<-|[<-|[]]]]; apply one_total; assumption.
      - rewrite HTCSim_Props.dmem_dget. rewrite look_dget in F5. destruct (dget d (S_ "wakes")) as [k|]; [|eauto]. destruct F5 as (w & Hw & G); [discriminate|]. rewrite look_dget in Hw. unfold attr. rewrite Hw. cbn [bind].
        inversion G as [|? ? G1 G2]; subst. inversion G2 as [|? ? G3 G4]; subst. inversion G4 as [|? ? G5 _]; subst. apply appends_total. intros r [<-|[<-|[<-|[]]]]; apply one_total; assumption. }
    assert (E5 : exists a, ground_inputs d = Ok a).
    { unfold ground_inputs. apply appends_total. intros r [<-|[<-|[]]]; apply if_file_total; rewrite <- look_dget.
      - intros h Hh. apply if_in_total. intros w Hw. destruct (F6 h w Hh Hw) as [B1 B2]. apply appends_total. intros r [<-|[<-|[]]]; apply one_total; assumption.
      - intros s Hs. apply if_in_total. intros e He. apply one_total. exact (F7 s e Hs He). }
    destruct E0 as (o & E0). destruct E1 as (a1 & E1). destruct E2 as (a2 & E2). destruct E3 as (a3 & E3). destruct E4 as (a4 & E4). destruct E5 as (a5 & E5).
    unfold input_files. rewrite E0, E1, E2, E3, E4, E5. cbn [appends bind]. apply map_res_total. intros g G. apply (proj1 (proj2 (O _) g)) in G. apply HTCSim_Props.in_present in G as [G U].
    destruct (HP g) as (f & P); [|exact U|exists f; apply fix_iff; exact P].
    rewrite !in_app_iff in G. unfold named_by. rewrite (structure_in d a1 E1 g), (aero_in d a2 E2 g), (dll_in num d a3 E3 g), (wind_in d a4 E4 g), (ground_in d a5 E5 g), (wp_in d g R), force_in in G.
    assert (M : In (Some g) (map Some o) -> own modelpath names g).
    { rewrite in_map_iff. intros (x & X & Y). injection X as ->. apply (own_in _ _ _ E0). exact Y. }
    cbn [In] in G. apply last_step with (o := In (Some g) (map Some o)); assumption.
  Qed.
  (** One file that has no place, such as a file that is not saved yet or an absolute name that is not found, and there is no list at all. *)
  Theorem C149_absent_refuted : forall modelpath names d g, a_set_order -> readable_dlls d -> own modelpath names g \/ named_by d g ->
    HTCSim_Props.usable num g -> (exists t, g = "/"%char :: t) -> unix g = Err OSError2 -> forall l, input_files num toQ fmtd abspath unix relpath order modelpath names d <> Ok l.
  Proof using.
    intros modelpath names d g O R W U (t & T) E l H. destruct (raw_in _ _ _ _ O R H) as (xs & F & X). assert (G : In g xs) by (apply X; auto).
    destruct (HTCSim_Props.in_map_res _ _ _ _ F G) as (y & Y & _). apply fix_iff in Y as (_ & [[_ Y]|[Y _]]); [congruence|]. exact (Y t T).
  Qed.
  Theorem C149_number_refuted : forall modelpath names d g r, a_set_order -> readable_dlls d -> own modelpath names g \/ named_by d g ->
    HTCSim_Props.usable num g -> num g = Some r -> forall l, input_files num toQ fmtd abspath unix relpath order modelpath names d <> Ok l.
  Proof using.
    intros modelpath names d g r O R W U T l H. destruct (raw_in _ _ _ _ O R H) as (xs & F & X). assert (G : In g xs) by (apply X; auto).
    destruct (HTCSim_Props.in_map_res _ _ _ _ F G) as (y & Y & _). apply fix_iff in Y as (Y & _). congruence.
  Qed.
  (** A library with fewer than three values, and there is no list. *)
  Theorem C149_short_refuted : forall modelpath names d a nm vs cm, look d (S_ "aero") = Some a -> item_of a (S_ "external_bladedata_dll") (Line nm vs cm) -> List.length vs < 3 ->
    forall l, input_files num toQ fmtd abspath unix relpath order modelpath names d <> Ok l.
  Proof using.
    intros modelpath names d a nm vs cm A I L l H. unfold input_files in H. apply bind_inv in H as (o & _ & H). apply bind_inv in H as (n & H & _). cbn [appends] in H.
    apply bind_inv in H as (a1 & _ & H). apply bind_inv in H as (r1 & H & _). apply bind_inv in H as (a2 & A2 & _). unfold aero_inputs, if_file in A2. rewrite look_dget in A. rewrite A in A2.
    cbn [appends] in A2. apply bind_inv in A2 as (b1 & _ & A2). apply bind_inv in A2 as (r2 & A2 & _). apply bind_inv in A2 as (b2 & _ & A2). apply bind_inv in A2 as (r3 & A2 & _).
    apply bind_inv in A2 as (b3 & A2 & _). unfold one in A2. apply item_of_sub in I. destruct a as [|kd nm' bc ec c ss]; [discriminate|]. cbn [sub] in I. unfold attr in I.
    destruct (dget c (S_ "external_bladedata_dll")) as [m|]; [|discriminate]. injection I as ->. cbn [item] in A2. rewrite (proj2 (nth_error_None vs 2)) in A2 by lia. discriminate A2.
  Qed.
  (** What the wakes section says does not matter: its files are not listed. And without a wind section there is no list. *)
  Theorem C149_wakes_refuted : forall modelpath names d, look d (S_ "wakes") <> None ->
    (forall n, input_files num toQ fmtd abspath unix relpath order modelpath names (dset d (S_ "wakes") n) = input_files num toQ fmtd abspath unix relpath order modelpath names d) /\
    (look d (S_ "wind") = None -> forall l, input_files num toQ fmtd abspath unix relpath order modelpath names d <> Ok l).
  Proof using.
    intros modelpath names d W. split.
    - intro n. rewrite look_dget in W. assert (G : forall k, str_eqb (S_ "wakes") (S_ k) = false -> dget (dset d (S_ "wakes") n) (S_ k) = dget d (S_ k)).
      { intros k Hk. rewrite HTCSim_Props.dget_dset, Hk. reflexivity. }
      unfold input_files, structure_inputs, aero_inputs, dll_inputs, wind_inputs, ground_inputs, wpdata, force, if_file, attr.
      rewrite !HTCSim_Props.dmem_dget. rewrite (G "new_htc_structure"%string eq_refl), (G "aero"%string eq_refl), (G "dll"%string eq_refl), (G "wind"%string eq_refl), (G "hydro"%string eq_refl), (G "soil"%string eq_refl), (G "force"%string eq_refl).
      rewrite HTCSim_Props.dget_dset, str_eqb_refl. destruct (dget d (S_ "wakes")); [reflexivity|congruence].
    - intros N l H. rewrite look_dget in W, N. unfold input_files in H. apply bind_inv in H as (o & _ & H). apply bind_inv in H as (x & H & _). cbn [appends] in H.
      apply bind_inv in H as (a1 & _ & H). apply bind_inv in H as (r1 & H & _). apply bind_inv in H as (a2 & _ & H). apply bind_inv in H as (r2 & H & _). apply bind_inv in H as (a3 & _ & H).
      apply bind_inv in H as (r3 & H & _). apply bind_inv in H as (a4 & H & _). unfold wind_inputs in H. cbn [appends] in H. apply bind_inv in H as (b1 & _ & H). apply bind_inv in H as (b2 & H & _).
      apply bind_inv in H as (b3 & H & _). rewrite HTCSim_Props.dmem_dget in H. unfold attr in H. rewrite N in H. destruct (dget d (S_ "wakes")); [discriminate H|congruence].
  Qed.
  Lemma twice {A B} (f : A -> res B) (xs : list A) : forall ys x1 x2 y, map_res f xs = Ok ys -> In x1 xs -> In x2 xs -> x1 <> x2 -> f x1 = Ok y -> f x2 = Ok y -> ~ NoDup ys.
  Proof using.
    induction xs as [|x xs IH]; intros ys x1 x2 y H I1 I2 N F1 F2 D; [contradiction|]. cbn [map_res] in H. apply bind_inv in H as (z & Hz & H). apply bind_inv in H as (zs & Hs & H). injection H as <-.
    inversion D as [|? ? D1 D2]; subst. destruct I1 as [->|I1], I2 as [->|I2].
    - contradiction.
    - assert (z = y) by congruence. subst z. destruct (HTCSim_Props.in_map_res _ _ _ _ Hs I2) as (w & W1 & W2). assert (w = y) by congruence. subst w. contradiction.
    - assert (z = y) by congruence. subst z. destruct (HTCSim_Props.in_map_res _ _ _ _ Hs I1) as (w & W1 & W2). assert (w = y) by congruence. subst w. contradiction.
    - exact (IH zs x1 x2 y Hs I1 I2 N F1 F2 D2).
  Qed.
  (** A file that is named in two ways is listed twice. *)
  Theorem C149_twice_refuted : forall modelpath names d l g1 g2 f, a_set_order -> readable_dlls d -> (own modelpath names g1 \/ named_by d g1) -> (own modelpath names g2 \/ named_by d g2) -> g1 <> g2 ->
    HTCSim_Props.usable num g1 -> HTCSim_Props.usable num g2 -> placed modelpath g1 f -> placed modelpath g2 f ->
    input_files num toQ fmtd abspath unix relpath order modelpath names d = Ok l -> ~ NoDup l.
  Proof using.
    intros modelpath names d l g1 g2 f O R W1 W2 N U1 U2 P1 P2 H. destruct (raw_in _ _ _ _ O R H) as (xs & E & X). apply fix_iff in P1, P2.
    apply (twice _ xs l g1 g2 f E); [apply X; auto|apply X; auto|exact N|exact P1|exact P2].
  Qed.
End Inputs.

(** ** Examples *)
Definition ex_n (s : str) : option (res str) := match s with c :: _ => if existsb (chr_eqb c) (S_ "0123456789") then Some (Ok s) else None | [] => None end.
Definition ex_q (s : str) : option Q := if str_eqb s (S_ "90") then Some 90%Q else if str_eqb s (S_ "3") then Some 3%Q else None.
Definition ex_li (k : string) (vs : list string) : str * node := (S_ k, Line (S_ k) (map S_ vs) []).
Definition ex_se (k : string) (c : list (str * node)) : str * node := (S_ k, Sec Plain (S_ k) [] [] c []).
Definition ex_inputs : list (str * node) :=
  [ex_se "new_htc_structure" [ex_se "main_body" [ex_se "timoschenko_input" [ex_li "filename" ["./data/Tower.st"%string]]]; ex_se "main_body__2" []];
   ex_se "aero" [ex_li "ae_filename" ["data/Blade.ae"%string]; ex_li "pc_filename" ["data/Blade.pc"%string]; ex_se "dynstall_ateflap" [ex_li "flap" ["1"; "2"; "data/flap.ds"]%string]];
   ex_se "dll" [ex_se "type2_dll" [ex_li "name" ["dtu_we_controller"%string]; ex_li "filename" ["control/dtu.dll"%string];
                                   ex_se "init" [ex_li "constant" ["1"; "3"]%string; ex_li "constant__5" ["5"; "90"]%string]];
                ex_se "type2_dll__2" [ex_li "name" ["servo"%string]]];
   ex_se "wind" [ex_li "turb_format" ["1"%string]]].
Definition ex_order (l : list str) : list str := nodup (list_eq_dec ascii_dec) l.
Definition ex_abs (f : str) : res str := Ok (S_ "/m/" ++ f).
Definition ex_unix (f : str) : res str := if endswith f (S_ "_64.dll") then Err OSError2 else Ok (lower f).
Definition ex_rel (p m : str) : str := skipn (List.length m) p.
Example ex_a_set : a_set_order ex_order.
Proof. intro l. split; [apply NoDup_nodup|]. intro x. apply nodup_In. Qed.
Example ex_list : input_files ex_n ex_q (fun _ => S_ "90") ex_abs ex_unix ex_rel ex_order (Some (S_ "/m/")) [S_ "htc\A.htc"] ex_inputs =
  Ok (map S_ ["/m/htc/a.htc"; "././data/tower.st"; "./data/blade.ae"; "./data/blade.pc"; "./data/flap.ds"; "./control/dtu.dll"; "control/dtu_64.dll"; "./control/wpdata.90"]%string).
Proof. vm_compute. reflexivity. Qed.
Ltac no_item := let m := fresh in let X := fresh in intros m X; apply item_of_sub in X; vm_compute in X; discriminate X.
Example ex_fine : fine ex_n ex_inputs.
Proof.
  assert (V : forall n k i v, (l <- sub n (S_ k) ;; item l i) = Ok v -> has_val n k i v).
  { intros n k i v H. apply bind_inv in H as (m & A & B). apply item_of_sub in A. apply item_val in B as (nm & vs & cm & -> & N). exists nm, vs, cm. auto. }
  unfold fine. split; [|split; [|split; [|split; [|split; [|split]]]]].
  - intros s Hs. vm_compute in Hs. injection Hs as <-. split; [do 6 eexists; reflexivity|]. intros k mb I _. destruct I as (? & ? & ? & ? & ? & ? & E & L). injection E as _ _ _ _ <- _. cbn [look] in L.
    repeat (destruct (list_eq_dec ascii_dec _ k) in L; [injection L as <-|]); [| |discriminate L].
    + split; [|split; [do 6 eexists; reflexivity|left; no_item]]. intros t T. apply item_of_sub in T. vm_compute in T. injection T as <-. eexists. apply V. vm_compute. reflexivity.
    + split; [|split; [do 6 eexists; reflexivity|left; no_item]]. intros t T. apply item_of_sub in T. vm_compute in T. discriminate T.
  - intros a Ha. vm_compute in Ha. injection Ha as <-. split; [eexists; apply V; vm_compute; reflexivity|]. split; [eexists; apply V; vm_compute; reflexivity|].
    split; [split; [do 6 eexists; reflexivity|left; no_item]|]. split; [split; [do 6 eexists; reflexivity|left; no_item]|]. split.
    + intros s T. apply item_of_sub in T. vm_compute in T. injection T as <-. split; [do 6 eexists; reflexivity|]. right. eexists. apply V. vm_compute. reflexivity.
    + intros s T. apply item_of_sub in T. vm_compute in T. discriminate T.
  - intros s Hs. vm_compute in Hs. injection Hs as <-. split; [do 6 eexists; reflexivity|]. intros k n I m M. destruct I as (? & ? & ? & ? & ? & ? & E & L). injection E as _ _ _ _ <- _. cbn [look] in L.
    repeat (destruct (list_eq_dec ascii_dec _ k) in L; [injection L as <-|]); [| |discriminate L].
    + exists (S_ "control/dtu.dll"). split; [apply V; vm_compute; reflexivity|reflexivity].
    + apply item_of_sub in M. vm_compute in M. discriminate M.
  - intros w Hw. vm_compute in Hw. injection Hw as <-. repeat (constructor; [split; [do 6 eexists; reflexivity|left; no_item]|]). constructor.
  - intro W. destruct W. reflexivity.
  - intros h w H. vm_compute in H. discriminate H.
  - intros h w H. vm_compute in H. discriminate H.
Qed.
Example ex_readable : readable_dlls ex_inputs.
Proof.
  intros kd nm bc ec cont ss H. vm_compute in H. injection H as <- <- <- <- <- <-. split.
  - assert (sk : forall s, (if existsb (fun c => chr_eqb c (ch 46) || chr_eqb c (ch 47)) s then false else true) = true -> HTCCmp_Props.simple s).
    { intros s H. destruct (existsb _ s) eqn:E; [discriminate|]. split; intro X;
        (assert (Y : existsb (fun c => chr_eqb c (ch 46) || chr_eqb c (ch 47)) s = true) by (apply existsb_exists; eexists; split; [exact X|reflexivity])); congruence. }
    repeat split.
    + HTCCmp_Props.nd.
    + repeat constructor; cbn [fst]; apply sk; vm_compute; reflexivity.
    + repeat constructor; cbn [fst]; try (apply sk; vm_compute; reflexivity); cbn; intuition discriminate.
  - repeat constructor; intros k nm bc ec c ss n E I; cbn [snd] in E; injection E as <- <- <- <- <- <-; cbn in I;
      repeat (destruct I as [I|I]; [try discriminate I; injection I as <-; do 4 eexists; reflexivity|]); contradiction.
Qed.

Print Assumptions C149_listed.
Print Assumptions C149_answered.
Print Assumptions C149_absent_refuted.
Print Assumptions C149_number_refuted.
Print Assumptions C149_short_refuted.
Print Assumptions C149_wakes_refuted.
Print Assumptions C149_twice_refuted.
