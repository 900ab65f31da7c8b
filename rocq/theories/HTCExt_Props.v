(** Properties C146 (turbulence boxes of an HTC file), C147 (exported turbulence) and C148 (controller, water and shear of an HTC file). *)
From Verif Require Import Py PyFacts TextFacts FASTOut_Model HTC_Model HTCSim_Model.
From Verif Require HTCSim_Props HTC_Names HTCBody_Props.
From Verif Require Import HTCExt_Model.
From Coq Require Import QArith Qround Lia.
Local Open Scope nat_scope.

(** ** Specification *)

(** The item of a key, and the item at the end of a path of keys, section in section. *)
Fixpoint look (d : list (str * node)) (k : str) : option node :=
  match d with [] => None | (k', n) :: d' => if list_eq_dec ascii_dec k' k then Some n else look d' k end.
Fixpoint at_ (d : list (str * node)) (path : list str) : option node :=
  match path with
  | [] => None
  | [k] => look d k
  | k :: path' => match look d k with Some (Sec _ _ _ _ c _) => at_ c path' | _ => None end
  end.
Definition p1 (a : string) : list str := [S_ a].
Definition p2 (a b : string) : list str := [S_ a; S_ b].
Definition p3 (a b c : string) : list str := [S_ a; S_ b; S_ c].
(** A line is given these values: it keeps its name and comment, or is new. *)
Definition given (d d' : list (str * node)) (path : list str) (vs : list str) : Prop :=
  match at_ d path with
  | Some (Line nm _ cm) => at_ d' path = Some (Line nm vs cm)
  | Some (Sec _ _ _ _ _ _) => False
  | None => exists cm, at_ d' path = Some (Line (last path []) vs cm)
  end.
(** Nothing else is changed: the items that do not lead to a path and are not under it. *)
Definition only (d d' : list (str * node)) (paths : list (list str)) : Prop :=
  forall p, (forall q, In q paths -> (forall r, q <> p ++ r) /\ (forall r, p <> q ++ r)) -> at_ d' p = at_ d p.
(** There is no section where a line is expected, nor a line where a section is. *)
Definition line_place (d : list (str * node)) (path : list str) : Prop := match at_ d path with Some (Sec _ _ _ _ _ _) => False | _ => True end.
Definition section_place (d : list (str * node)) (path : list str) : Prop := match at_ d path with Some (Line _ _ _) => False | _ => True end.
(** A text that is one word and not a number. *)
Definition a_word (num : str -> option (res str)) (s : str) : Prop := is_token s = true /\ num s = None /\ ~ In (ch 92) s.
(** The texts of numbers are words that are read as numbers; [rd] is how the number of a text is written in the file. *)
Definition number_texts (num : str -> option (res str)) (ofZ : Z -> str) (fmt : Q -> str) (rd : Q -> str) : Prop :=
  (forall z, is_token (ofZ z) = true /\ num (ofZ z) = Some (Ok (ofZ z))) /\ (forall q, is_token (fmt q) = true /\ num (fmt q) = Some (Ok (rd q))).

(** The lines of the Mann box, and a file where they can be set: no line named wind or mann, no section named as one of the lines. *)
Definition mann_keys : list string :=
  ["create_turb_parameters"; "filename_u"; "filename_v"; "filename_w"; "box_dim_u"; "box_dim_v"; "box_dim_w"; "dont_scale"; "std_scaling"]%string.
Definition ready (d : list (str * node)) : Prop :=
  section_place d (p1 "wind") /\ section_place d (p2 "wind" "mann") /\ line_place d (p2 "wind" "turb_format") /\
  Forall (fun k => line_place d (p3 "wind" "mann" k)) mann_keys.
Definition given_or_gone (d d' : list (str * node)) (path : list str) (o : option (list str)) : Prop :=
  match o with Some vs => given d d' path vs | None => at_ d' path = None end.
(** The names of the three files: those given, or made of the given text, the seed and the component. *)
Definition named (fmt04d : str -> str) (fs : files) (seed : str) (l : list str) : Prop :=
  match fs with
  | Names l' => l = l'
  | Stem s => l = map (fun c => S_ "./turb/" ++ s ++ S_ "_s" ++ fmt04d seed ++ S_ c ++ S_ ".bin") ["u"; "v"; "w"]%string
  | Default => False
  end.

(** ** Facts on dictionaries *)
Lemma look_dget d k : look d k = dget d k.
Proof.
  unfold dget. induction d as [|[a n] d IH]; [reflexivity|]. cbn [look find fst]. destruct (list_eq_dec ascii_dec a k) as [->|H].
  - rewrite str_eqb_refl. reflexivity.
  - apply str_eqb_neq in H. rewrite H. exact IH.
Qed.
Lemma dset_same (d : list (str * node)) k n : dget d k = Some n -> dset d k n = d.
Proof.
  unfold dget. induction d as [|[a m] d IH]; cbn [find dset fst]; [discriminate|]. destruct (str_eqb a k) eqn:E; intro H.
  - apply str_eqb_eq in E. cbn in H. congruence.
  - rewrite IH; [reflexivity|exact H].
Qed.
Lemma dget_ddel (d : list (str * node)) k j : dget (ddel d k) j = if str_eqb k j then None else dget d j.
Proof.
  unfold dget, ddel. induction d as [|[a m] d IH]; cbn [filter find fst]; [destruct (str_eqb k j); reflexivity|].
  destruct (str_eqb a k) eqn:E; cbn [negb].
  - rewrite IH. apply str_eqb_eq in E. subst a. destruct (str_eqb k j); reflexivity.
  - cbn [find fst]. destruct (str_eqb a j) eqn:E2; [|exact IH]. apply str_eqb_eq in E2. subst j. destruct (str_eqb k a) eqn:E3; [|reflexivity].
    apply str_eqb_eq in E3. subst. rewrite str_eqb_refl in E. discriminate.
Qed.
Lemma ddel_absent (d : list (str * node)) k : dget d k = None -> ddel d k = d.
Proof.
  unfold dget, ddel. induction d as [|[a m] d IH]; [reflexivity|]. cbn [filter find fst]. destruct (str_eqb a k); cbn [negb]; [discriminate|].
  intro H. rewrite IH; [reflexivity|exact H].
Qed.
Definition lineish (o : option node) : Prop := match o with Some (Sec _ _ _ _ _ _) => False | _ => True end.
(** The change of one line. *)
Definition upd (d d' : list (str * node)) (k : str) (vs : list str) : Prop :=
  match dget d k with
  | Some (Line nm _ cm) => dget d' k = Some (Line nm vs cm)
  | Some (Sec _ _ _ _ _ _) => False
  | None => exists cm, dget d' k = Some (Line k vs cm)
  end /\ forall j, j <> k -> dget d' j = dget d j.
Lemma set_key_upd d k vs : cut_uu k = k -> lineish (dget d k) -> upd d (set_key d k vs) k vs.
Proof.
  intros Hk H. unfold upd, set_key. destruct (dget d k) as [[nm v cm|? ? ? ? ? ?]|] eqn:E; [|contradiction|];
    rewrite HTCSim_Props.dget_dset, str_eqb_refl; (split; [|intros j Hj; rewrite HTCSim_Props.dget_dset; destruct (str_eqb k j) eqn:E2; [apply str_eqb_eq in E2; congruence|reflexivity]]).
  - reflexivity.
  - exists []. unfold mk_line. rewrite Hk. reflexivity.
Qed.
Lemma set_key_same d k nm vs cm : dget d k = Some (Line nm vs cm) -> set_key d k vs = d.
Proof. intro H. unfold set_key. rewrite H. cbn [set_values]. apply dset_same. exact H. Qed.
Lemma line_new_upd d k vs c : cut_uu k = k -> dget d k = None -> exists d', line_ k vs c d = (d', Ok tt) /\ upd d d' k vs.
Proof.
  intros Hk H. unfold line_, add_contents, new_key. cbn [mk_line node_name]. rewrite Hk. rewrite HTCSim_Props.dmem_dget, H. eexists. split; [reflexivity|].
  unfold upd. rewrite H. split.
  - exists (strip_bt c). rewrite HTCSim_Props.dget_dset, str_eqb_refl. unfold mk_line. rewrite Hk. reflexivity.
  - intros j Hj. rewrite HTCSim_Props.dget_dset. destruct (str_eqb k j) eqn:E2; [apply str_eqb_eq in E2; congruence|reflexivity].
Qed.
Lemma words_word num s : a_word num s -> words num s = Ok [s].
Proof.
  intros (H1 & H2 & H3). unfold words. rewrite (split_ws_token _ H1). cbn [map_res]. unfold fmt_value. rewrite H2. cbn [bind]. do 2 f_equal.
  f_equal. clear - H3. unfold replace_chr. induction s as [|c s IH]; [reflexivity|]. cbn [flat_map]. rewrite IH by (intro; apply H3; right; assumption).
  destruct (chr_eqb c backslash) eqn:E; [|reflexivity]. destruct H3. left. apply Ascii.eqb_eq in E. exact E.
Qed.

(** What a change of a dictionary does: the lines that are given values and the items that are deleted; it does nothing when they are so already. *)
Definition revalued (k : str) (o : option node) (vs : list str) (o' : option node) : Prop :=
  match o with Some (Line nm _ cm) => o' = Some (Line nm vs cm) | Some (Sec _ _ _ _ _ _) => False | None => exists cm, o' = Some (Line k vs cm) end.
Definition updates := list (str * option (list str)).
Definition sat (U : updates) (d : list (str * node)) : Prop :=
  forall k o, In (k, o) U -> match o with Some vs => exists nm cm, dget d k = Some (Line nm vs cm) | None => dget d k = None end.
Definition effect (U : updates) (d d' : list (str * node)) : Prop :=
  (forall k o, In (k, o) U -> match o with Some vs => revalued k (dget d k) vs (dget d' k) | None => dget d' k = None end) /\
  (forall j, ~ In j (map fst U) -> dget d' j = dget d j).
Definition performs (f : change) (U : updates) : Prop :=
  (forall d, (forall k vs, In (k, Some vs) U -> lineish (dget d k)) -> exists d', f d = (d', Ok tt) /\ effect U d d') /\
  (forall d, sat U d -> f d = (d, Ok tt)).
Lemma effect_sat U d d' : effect U d d' -> sat U d'.
Proof.
  intros [H _] k o Hin. specialize (H k o Hin). destruct o as [vs|]; [|exact H]. unfold revalued in H. destruct (dget d k) as [[nm v cm|? ? ? ? ? ?]|]; [|contradiction|].
  - eauto.
  - destruct H as (cm & H). eauto.
Qed.
Lemma performs_then f g U V : performs f U -> performs g V -> NoDup (map fst U ++ map fst V) -> performs (f >>> g) (U ++ V).
Proof.
  intros [F1 F2] [G1 G2] N. assert (D : forall k, In k (map fst U) -> ~ In k (map fst V)).
  { clear - N. intros k H1 H2. induction (map fst U) as [|x l IH]; [contradiction|]. cbn in N. inversion N as [|? ? Hx Hn]; subst. destruct H1 as [->|H1]; [|auto].
    apply Hx. apply in_or_app. right. exact H2. }
  split.
  - intros d H. destruct (F1 d) as (d1 & E1 & [A1 B1]); [intros k vs Hk; apply (H k vs); apply in_or_app; left; exact Hk|].
    destruct (G1 d1) as (d2 & E2 & [A2 B2]).
    { intros k vs Hk. rewrite B1; [apply (H k vs); apply in_or_app; right; exact Hk|]. intro X. apply (D k X). apply in_map_iff. exists (k, Some vs). auto. }
    exists d2. unfold andthen. rewrite E1, E2. split; [reflexivity|]. split.
    + intros k o Hin. apply in_app_or in Hin as [Hin|Hin].
      * rewrite B2 by (apply D; apply in_map_iff; exists (k, o); auto). exact (A1 k o Hin).
      * specialize (A2 k o Hin). rewrite B1 in A2; [exact A2|]. intro X. apply (D k X). apply in_map_iff. exists (k, o). auto.
    + intros j Hj. rewrite map_app in Hj. rewrite B2, B1; [reflexivity| |]; intro X; apply Hj; apply in_or_app; auto.
  - intros d H. unfold andthen. rewrite F2 by (intros k o Hk; apply H; apply in_or_app; auto). apply G2. intros k o Hk. apply H. apply in_or_app. auto.
Qed.
Lemma performs_done : performs done [].
Proof. split; [|reflexivity]. intros d _. exists d. split; [reflexivity|]. split; [intros k o []|auto]. Qed.
Lemma performs_put k vs : cut_uu k = k -> performs (put k vs) [(k, Some vs)].
Proof.
  intro Hk. split.
  - intros d H. exists (set_key d k vs). split; [reflexivity|]. destruct (set_key_upd d k vs Hk (H k vs (or_introl eq_refl))) as [A B]. split.
    + intros k0 o [E|[]]. injection E as <- <-. exact A.
    + intros j Hj. apply B. intros ->. apply Hj. left. reflexivity.
  - intros d H. destruct (H k (Some vs) (or_introl eq_refl)) as (nm & cm & E). unfold put. rewrite (set_key_same _ _ _ _ _ E). reflexivity.
Qed.
Lemma performs_del k : performs (del k) [(k, None)].
Proof.
  split.
  - intros d _. exists (ddel d k). split; [reflexivity|]. split.
    + intros k0 o [E|[]]. injection E as <- <-. rewrite dget_ddel, str_eqb_refl. reflexivity.
    + intros j Hj. rewrite dget_ddel. destruct (str_eqb k j) eqn:E; [|reflexivity]. apply str_eqb_eq in E. subst. destruct Hj. left. reflexivity.
  - intros d H. unfold del. rewrite ddel_absent; [reflexivity|]. exact (H k None (or_introl eq_refl)).
Qed.
Lemma performs_ext f g U : (forall d, f d = g d) -> performs f U -> performs g U.
Proof. intros H [A B]. split; intros d X; rewrite <- H; auto. Qed.
Lemma performs_parameters pars : performs (turb_parameters pars) [(S_ "create_turb_parameters", Some pars)].
Proof.
  destruct (performs_put (S_ "create_turb_parameters") pars eq_refl) as [A B]. split.
  - intros d H. unfold turb_parameters. rewrite HTCSim_Props.dmem_dget. destruct (dget d _) as [n|] eqn:E.
    + apply (A d). exact H.
    + destruct (line_new_upd d (S_ "create_turb_parameters") pars (S_ "L, alfaeps, gamma, seed, highfrq compensation") eq_refl E) as (d' & E1 & [U1 U2]).
      exists d'. split; [exact E1|]. split.
      * intros k0 o [X|[]]. injection X as <- <-. exact U1.
      * intros j Hj. apply U2. intros ->. apply Hj. left. reflexivity.
  - intros d H. destruct (H _ _ (or_introl eq_refl)) as (nm & cm & E). unfold turb_parameters. rewrite HTCSim_Props.dmem_dget, E.
    rewrite (set_key_same _ _ _ _ _ E). reflexivity.
Qed.

(** Sections in sections. *)
Definition inside (d : list (str * node)) (k : str) : list (str * node) := match dget d k with Some (Sec _ _ _ _ c _) => c | _ => [] end.
Definition sectionish (o : option node) : Prop := match o with Some (Line _ _ _) => False | _ => True end.
Lemma in_new_ok name e f d : sectionish (dget d name) ->
  exists kd nm bc ec ss, in_new name e f d = (dset d name (Sec kd nm bc ec (fst (f (inside d name))) ss), snd (f (inside d name))) /\
    (forall kd0 nm0 bc0 ec0 c0 ss0, dget d name = Some (Sec kd0 nm0 bc0 ec0 c0 ss0) -> kd = kd0 /\ nm = nm0 /\ bc = bc0 /\ ec = ec0 /\ ss = ss0).
Proof.
  intro H. unfold in_new, inside. destruct (dget d name) as [[? ? ?|kd nm bc ec c ss]|]; [contradiction| |].
  - exists kd, nm, bc, ec, ss. destruct (f c) as [c' r]. split; [reflexivity|]. intros * X. injection X as <- <- <- <- <- <-. auto.
  - exists Plain, name, [], [], []. destruct (f []) as [c' r]. split; [reflexivity|]. intros * X. discriminate.
Qed.
Lemma at_inside d k p : p <> [] -> sectionish (dget d k) -> at_ d (k :: p) = at_ (inside d k) p.
Proof.
  intros Hp H. destruct p as [|x p]; [congruence|]. cbn [at_]. rewrite look_dget. unfold inside. destruct (dget d k) as [[? ? ?|? ? ? ? ? ?]|]; [contradiction|reflexivity|].
  clear. revert x. induction p as [|y p IH]; intro x; reflexivity.
Qed.
Lemma at_deep d k p kd nm bc ec c ss : p <> [] -> at_ (dset d k (Sec kd nm bc ec c ss)) (k :: p) = at_ c p.
Proof. intro Hp. destruct p as [|x p]; [congruence|]. cbn [at_]. rewrite look_dget, HTCSim_Props.dget_dset, str_eqb_refl. reflexivity. Qed.
Lemma at_other d k n j p : j <> k -> at_ (dset d k n) (j :: p) = at_ d (j :: p).
Proof.
  intro H. assert (E : look (dset d k n) j = look d j).
  { rewrite !look_dget, HTCSim_Props.dget_dset. destruct (str_eqb k j) eqn:E; [apply str_eqb_eq in E; congruence|reflexivity]. }
  destruct p as [|x p]; cbn [at_]; rewrite E; reflexivity.
Qed.
Lemma given_deep d k p kd nm bc ec c ss vs : p <> [] -> sectionish (dget d k) -> given (inside d k) c p vs -> given d (dset d k (Sec kd nm bc ec c ss)) (k :: p) vs.
Proof. intros Hp H G. unfold given. rewrite (at_inside _ _ _ Hp H), (at_deep _ _ _ _ _ _ _ _ _ Hp). destruct p as [|x p]; [congruence|]. exact G. Qed.
Lemma given_one d d' k vs : revalued k (dget d k) vs (dget d' k) -> given d d' [k] vs.
Proof. intro H. unfold given. cbn [at_ last]. rewrite !look_dget. exact H. Qed.
(** Nothing else is changed, section in section. *)
Definition under (k : str) (qs : list (list str)) : list (list str) := map (cons k) qs.
Lemma only_deep d k kd nm bc ec c ss qs : qs <> [] -> sectionish (dget d k) -> only (inside d k) c qs -> only d (dset d k (Sec kd nm bc ec c ss)) (under k qs).
Proof.
  intros Hq H O p Hp. destruct p as [|j p]; [reflexivity|]. destruct (list_eq_dec ascii_dec j k) as [->|Hj]; [|apply at_other; exact Hj].
  destruct p as [|x p].
  - destruct qs as [|q qs]; [congruence|]. destruct (Hp (k :: q) (or_introl eq_refl)) as [A _]. destruct (A q). reflexivity.
  - rewrite at_deep, (at_inside d k (x :: p)) by (try discriminate; assumption). apply O. intros q Hin. destruct (Hp (k :: q) (in_map _ _ _ Hin)) as [A B]. split; intros r E.
    + apply (A r). cbn. f_equal. exact E.
    + apply (B r). cbn. f_equal. exact E.
Qed.
Lemma only_effect U d d' : effect U d d' -> only d d' (map (fun u => [fst u]) U).
Proof.
  intros [_ B] p Hp. destruct p as [|j p]; [reflexivity|]. assert (E : dget d' j = dget d j).
  { apply B. intro X. apply in_map_iff in X as (u & E & Hu). destruct (Hp [j]) as [_ Y]; [apply in_map_iff; exists u; rewrite E; auto|]. destruct (Y p). reflexivity. }
  destruct p as [|x p]; cbn [at_]; rewrite !look_dget, E; reflexivity.
Qed.
Lemma only_trans d d1 d2 qs rs : only d d1 qs -> only d1 d2 rs -> only d d2 (qs ++ rs).
Proof. intros A B p Hp. rewrite B by (intros q Hq; apply Hp; apply in_or_app; auto). apply A. intros q Hq. apply Hp. apply in_or_app. auto. Qed.
Lemma only_incl d d' qs rs : incl qs rs -> only d d' qs -> only d d' rs.
Proof. intros H O p Hp. apply O. intros q Hq. apply Hp. apply H. exact Hq. Qed.

Ltac notin := let H := fresh in intro H; repeat (destruct H as [H|H]; [discriminate H|]); contradiction.
Ltac nodup := vm_compute; repeat (constructor; [notin|]); constructor.
Section Mann.
  Variable num : str -> option (res str).
  Variable ofZ : Z -> str.
  Variable fmt04d : str -> str.
  Variable fmt4f fmtf rd4 rdf : Q -> str.
  Hypothesis H4 : number_texts num ofZ fmt4f rd4.
  Hypothesis Hf : number_texts num ofZ fmtf rdf.

  Lemma performs_text k t vs : words num t = Ok vs -> cut_uu k = k -> performs (put_text num k t) [(k, Some vs)].
  Proof using. intros E Hk. eapply performs_ext; [|apply (performs_put k vs Hk)]. intro d. unfold put_text. rewrite E. reflexivity. Qed.
  Lemma words_two a b x y : is_token a = true -> is_token b = true -> num a = Some (Ok x) -> num b = Some (Ok y) -> words num (a ++ S_ " " ++ b) = Ok [x; y].
  Proof using.
    intros A B X Y. unfold words. change (a ++ S_ " " ++ b) with (join [sp] [a; b]). rewrite split_ws_words by (cbn [forallb]; rewrite A, B; reflexivity).
    cbn [map_res]. unfold fmt_value. rewrite X, Y. reflexivity.
  Qed.
  Lemma words_three a b c x y z : is_token a = true -> is_token b = true -> is_token c = true -> num a = Some (Ok x) -> num b = Some (Ok y) -> num c = Some (Ok z) ->
    words num (a ++ S_ " " ++ b ++ S_ " " ++ c) = Ok [x; y; z].
  Proof using.
    intros A B C X Y Z. unfold words. change (a ++ S_ " " ++ b ++ S_ " " ++ c) with (join [sp] [a; b; c]).
    rewrite split_ws_words by (cbn [forallb]; rewrite A, B, C; reflexivity). cbn [map_res]. unfold fmt_value. rewrite X, Y, Z. reflexivity.
  Qed.
  (** The lines of a Mann box. *)
  Definition mann_lines (pars : list str) (f1 f2 f3 : list str) (n1 n2 n3 : Z) (d1 d2 d3 : Q) (ds : bool) (std : option (Q * Q * Q)) : updates :=
    [(S_ "create_turb_parameters", Some pars); (S_ "filename_u", Some f1); (S_ "filename_v", Some f2); (S_ "filename_w", Some f3);
     (S_ "box_dim_u", Some [ofZ n1; rd4 (d1 / inject_Z n1)%Q]); (S_ "box_dim_v", Some [ofZ n2; rd4 (d2 / inject_Z n2)%Q]); (S_ "box_dim_w", Some [ofZ n3; rd4 (d3 / inject_Z n3)%Q]);
     (S_ "dont_scale", if ds then Some [S_ "1"] else None);
     (S_ "std_scaling", match std with Some (a, b, c) => Some [rdf a; rdf b; rdf c] | None => None end)].
  Lemma mann_body wetb pars fs seed t1 t2 t3 f1 f2 f3 n1 n2 n3 d1 d2 d3 ds std :
    file_names fmt04d wetb fs seed = Ok [t1; t2; t3] -> words num t1 = Ok f1 -> words num t2 = Ok f2 -> words num t3 = Ok f3 -> n1 <> 0%Z -> n2 <> 0%Z -> n3 <> 0%Z ->
    performs (turb_parameters pars >>> with_ (fun _ => file_names fmt04d wetb fs seed) (fun l => set_files num l) >>> set_dims num ofZ fmt4f [n1; n2; n3] [d1; d2; d3] >>>
              scaling num fmtf ds std) (mann_lines pars f1 f2 f3 n1 n2 n3 d1 d2 d3 ds std).
  Proof using H4 Hf.
    intros E W1 W2 W3 N1 N2 N3.
    apply (performs_then _ _ [_]); [apply performs_parameters| |nodup].
    apply (performs_then _ _ [_; _; _]); [| |nodup].
    { eapply performs_ext; [intro d; unfold with_; rewrite E; reflexivity|]. unfold set_files. cbn [combine uvw map all_ fst snd].
      apply (performs_then _ _ [_]); [apply performs_text; [exact W1|reflexivity]| |nodup]. apply (performs_then _ _ [_]); [apply performs_text; [exact W2|reflexivity]| |nodup].
      apply (performs_then _ _ [_] []); [apply performs_text; [exact W3|reflexivity]|apply performs_done|nodup]. }
    apply (performs_then _ _ [_; _; _]); [| |destruct ds, std as [[[? ?] ?]|]; nodup].
    { unfold set_dims. cbn [combine uvw map all_ fst snd]. unfold set_dim. rewrite (proj2 (Z.eqb_neq _ _) N1), (proj2 (Z.eqb_neq _ _) N2), (proj2 (Z.eqb_neq _ _) N3).
      assert (X : forall n q, words num (ofZ n ++ S_ " " ++ fmt4f q) = Ok [ofZ n; rd4 q]) by (intros n q; apply words_two; try apply H4; apply H4).
      apply (performs_then _ _ [_]); [apply performs_text; [apply X|reflexivity]| |nodup]. apply (performs_then _ _ [_]); [apply performs_text; [apply X|reflexivity]| |nodup].
      apply (performs_then _ _ [_] []); [apply performs_text; [apply X|reflexivity]|apply performs_done|nodup]. }
    unfold scaling. apply (performs_then _ _ [_]); [destruct ds; [apply performs_put; reflexivity|apply performs_del]| |destruct ds, std as [[[? ?] ?]|]; nodup].
    destruct std as [[[a b] c]|]; [|apply performs_del]. apply performs_text; [|reflexivity]. apply words_three; apply Hf.
  Qed.
  Lemma ready_in d : ready d -> sectionish (dget d (S_ "wind")) /\ sectionish (dget (inside d (S_ "wind")) (S_ "mann")) /\
    lineish (dget (inside d (S_ "wind")) (S_ "turb_format")) /\ forall k, In k (map S_ mann_keys) -> lineish (dget (inside (inside d (S_ "wind")) (S_ "mann")) k).
  Proof using.
    intros (A & B & C & D). unfold section_place, line_place in *. unfold p1, p2, p3 in *.
    assert (A' : sectionish (dget d (S_ "wind"))) by (rewrite <- look_dget; exact A). rewrite at_inside in B, C by (try discriminate; assumption). cbn [at_] in B, C.
    rewrite look_dget in B, C. split; [exact A'|]. split; [exact B|]. split; [exact C|]. intros k Hk. apply in_map_iff in Hk as (k0 & <- & Hk).
    pose proof (proj1 (Forall_forall _ _) D k0 Hk) as X. cbn beta in X. rewrite at_inside in X by (try discriminate; assumption).
    rewrite at_inside in X by (try discriminate; assumption). cbn [at_] in X. rewrite look_dget in X. exact X.
  Qed.
  Definition changed_paths : list (list str) := p2 "wind" "turb_format" :: map (fun k => p3 "wind" "mann" k) mann_keys.
  Lemma mann_core wetb L ae gamma seed high fs t1 t2 t3 f1 f2 f3 n1 n2 n3 d1 d2 d3 ds std d :
    file_names fmt04d wetb fs seed = Ok [t1; t2; t3] -> words num t1 = Ok f1 -> words num t2 = Ok f2 -> words num t3 = Ok f3 -> n1 <> 0%Z -> n2 <> 0%Z -> n3 <> 0%Z ->
    ready d ->
    exists d', add_mann num ofZ fmt04d fmt4f fmtf wetb L ae gamma seed high fs [n1; n2; n3] [d1; d2; d3] ds std d = (d', Ok tt) /\
      given d d' (p2 "wind" "turb_format") [S_ "1"] /\
      (forall k o, In (k, o) (mann_lines [L; ae; gamma; seed; hfc high] f1 f2 f3 n1 n2 n3 d1 d2 d3 ds std) -> given_or_gone d d' [S_ "wind"; S_ "mann"; k] o) /\
      only d d' changed_paths /\
      add_mann num ofZ fmt04d fmt4f fmtf wetb L ae gamma seed high fs [n1; n2; n3] [d1; d2; d3] ds std d' = (d', Ok tt).
  Proof using H4 Hf.
    intros E W1 W2 W3 N1 N2 N3 Hd. destruct (ready_in d Hd) as (R1 & R2 & R3 & R4).
    destruct (mann_body wetb [L; ae; gamma; seed; hfc high] fs seed t1 t2 t3 f1 f2 f3 n1 n2 n3 d1 d2 d3 ds std E W1 W2 W3 N1 N2 N3) as [P1 P2].
    unfold add_mann. set (body := turb_parameters _ >>> _) in *. set (U := mann_lines _ _ _ _ _ _ _ _ _ _ _ _) in *.
    assert (KU : map fst U = map S_ mann_keys) by reflexivity. clearbody U body.
    set (w := inside d (S_ "wind")) in *. destruct (performs_put (S_ "turb_format") [S_ "1"] eq_refl) as [T1 T2].
    destruct (T1 w) as (w1 & Ew1 & FW1). { intros k vs [X|[]]. injection X as <- _. exact R3. }
    assert (M : dget w1 (S_ "mann") = dget w (S_ "mann")). { apply FW1. intros [X|[]]. discriminate X. }
    destruct (P1 (inside w (S_ "mann"))) as (m1 & Em1 & FM1). { intros k vs X. apply R4. rewrite <- KU. apply in_map_iff. exists (k, Some vs). auto. }
    assert (I1 : inside w1 (S_ "mann") = inside w (S_ "mann")) by (unfold inside; rewrite M; reflexivity).
    destruct (in_new_ok (S_ "mann") TypeError body w1) as (kd & nm & bc & ec & ss & Ew2 & _). { rewrite M. exact R2. }
    rewrite I1, Em1 in Ew2. cbn [fst snd] in Ew2.
    set (fw := put (S_ "turb_format") [S_ "1"] >>> in_new (S_ "mann") TypeError body). set (w2 := dset w1 (S_ "mann") (Sec kd nm bc ec m1 ss)) in *.
    assert (EF : fw w = (w2, Ok tt)). { unfold fw, andthen. rewrite Ew1. exact Ew2. }
    destruct (in_new_ok (S_ "wind") TypeError fw d R1) as (kd' & nm' & bc' & ec' & ss' & Ed & _). fold w in Ed. rewrite EF in Ed. cbn [fst snd] in Ed.
    eexists. split; [exact Ed|].
    assert (G : forall k, k <> S_ "mann" -> dget w2 k = dget w1 k).
    { intros k Hk. unfold w2. rewrite HTCSim_Props.dget_dset. destruct (str_eqb (S_ "mann") k) eqn:X; [apply str_eqb_eq in X; congruence|reflexivity]. }
    split; [|split; [|split]].
    - unfold p2. apply given_deep; [discriminate|exact R1|]. apply given_one. rewrite G by (intro X0; discriminate X0). apply (proj1 FW1 (S_ "turb_format") (Some [S_ "1"])). left. reflexivity.
    - intros k o Hin. pose proof (proj1 FM1 k o Hin) as X. destruct o as [vs|]; cbn [given_or_gone].
      + apply given_deep; [discriminate|exact R1|]. fold w. unfold given. rewrite (at_inside w (S_ "mann") [k]) by (try discriminate; assumption).
        unfold w2. rewrite at_deep by discriminate. cbn [at_ last]. rewrite !look_dget. exact X.
      + rewrite at_deep by discriminate. unfold w2. rewrite at_deep by discriminate. cbn [at_]. rewrite look_dget. exact X.
    - pose proof (only_effect _ _ _ FW1) as O1. pose proof (only_effect _ _ _ FM1) as O2.
      assert (O3 : only w1 w2 (under (S_ "mann") (map (fun u => [fst u]) U))).
      { apply only_deep; [intro X; apply (f_equal (@List.length _)) in X; rewrite map_length, <- (map_length fst), KU in X; discriminate X|rewrite M; exact R2|rewrite I1; exact O2]. }
      pose proof (only_trans _ _ _ _ _ O1 O3) as O4.
      eapply only_incl; [|eapply (only_deep d (S_ "wind") kd' nm' bc' ec' w2 ss'); [|exact R1|exact O4]; cbn [map app]; intro X0; discriminate X0].
      assert (X : map (fun u : str * option (list str) => [fst u]) U = map (fun k => [S_ k]) mann_keys).
      { rewrite <- (map_map fst (fun k => [k])), KU, map_map. reflexivity. }
      rewrite X. unfold under. cbn [map app fst]. intros q Hq. exact Hq.
    - assert (S2 : fw w2 = (w2, Ok tt)).
      { unfold fw, andthen. rewrite T2.
        - unfold in_new. unfold w2 at 1. rewrite HTCSim_Props.dget_dset, str_eqb_refl. rewrite (P2 m1) by (eapply effect_sat; exact FM1). f_equal. apply dset_same.
          unfold w2. rewrite HTCSim_Props.dget_dset, str_eqb_refl. reflexivity.
        - intros k o Hin. pose proof (effect_sat _ _ _ FW1 k o Hin) as X. destruct Hin as [Y|[]]. injection Y as <- <-. rewrite G by (intro X0; discriminate X0). exact X. }
      unfold in_new. rewrite HTCSim_Props.dget_dset, str_eqb_refl, S2. f_equal. apply dset_same. rewrite HTCSim_Props.dget_dset, str_eqb_refl. reflexivity.
  Qed.

  (** ** C146: the Mann box *)
  Notation add := (add_mann num ofZ fmt04d fmt4f fmtf).
  Lemma named_files wetb fs seed l : named fmt04d fs seed l -> file_names fmt04d wetb fs seed = Ok l.
  Proof using. destruct fs; cbn [named file_names]; [contradiction|intros ->; reflexivity|intros ->; reflexivity]. Qed.
  (** Adding a Mann box sets the turbulence format, the parameters, the three files and the three sizes, whatever the file had; an option that is not asked is
      removed, and nothing else is changed. *)
  Theorem C146_added : forall wetb L ae gamma seed (high : bool) fs t1 t2 t3 n1 n2 n3 d1 d2 d3 (ds : bool) std d,
    named fmt04d fs seed [t1; t2; t3] -> Forall (a_word num) [t1; t2; t3] -> n1 <> 0%Z -> n2 <> 0%Z -> n3 <> 0%Z -> ready d ->
    exists d', add wetb L ae gamma seed high fs [n1; n2; n3] [d1; d2; d3] ds std d = (d', Ok tt) /\
      given d d' (p2 "wind" "turb_format") [S_ "1"] /\
      given d d' (p3 "wind" "mann" "create_turb_parameters") [L; ae; gamma; seed; if high then S_ "1" else S_ "0"] /\
      given d d' (p3 "wind" "mann" "filename_u") [t1] /\ given d d' (p3 "wind" "mann" "filename_v") [t2] /\ given d d' (p3 "wind" "mann" "filename_w") [t3] /\
      given d d' (p3 "wind" "mann" "box_dim_u") [ofZ n1; rd4 (d1 / inject_Z n1)%Q] /\
      given d d' (p3 "wind" "mann" "box_dim_v") [ofZ n2; rd4 (d2 / inject_Z n2)%Q] /\
      given d d' (p3 "wind" "mann" "box_dim_w") [ofZ n3; rd4 (d3 / inject_Z n3)%Q] /\
      (if ds then given d d' (p3 "wind" "mann" "dont_scale") [S_ "1"] else at_ d' (p3 "wind" "mann" "dont_scale") = None) /\
      match std with
      | Some (a, b, c) => given d d' (p3 "wind" "mann" "std_scaling") [rdf a; rdf b; rdf c]
      | None => at_ d' (p3 "wind" "mann" "std_scaling") = None
      end /\
      only d d' (p2 "wind" "turb_format" :: map (fun k => p3 "wind" "mann" k) mann_keys).
  Proof using H4 Hf.
    intros wetb L ae gamma seed high fs t1 t2 t3 n1 n2 n3 d1 d2 d3 ds std d Hn Hw N1 N2 N3 Hd.
    inversion Hw as [|? ? A1 Hw1]; subst. inversion Hw1 as [|? ? A2 Hw2]; subst. inversion Hw2 as [|? ? A3 _]; subst.
    destruct (mann_core wetb L ae gamma seed high fs t1 t2 t3 [t1] [t2] [t3] n1 n2 n3 d1 d2 d3 ds std d (named_files wetb fs seed _ Hn)
      (words_word _ _ A1) (words_word _ _ A2) (words_word _ _ A3) N1 N2 N3 Hd) as (d' & E & T & M & O & _).
    exists d'. split; [exact E|]. split; [exact T|].
    split; [exact (M _ (Some _) ltac:(left; reflexivity))|]. split; [exact (M _ (Some _) ltac:(right; left; reflexivity))|].
    split; [exact (M _ (Some _) ltac:(do 2 right; left; reflexivity))|]. split; [exact (M _ (Some _) ltac:(do 3 right; left; reflexivity))|].
    split; [exact (M _ (Some _) ltac:(do 4 right; left; reflexivity))|]. split; [exact (M _ (Some _) ltac:(do 5 right; left; reflexivity))|].
    split; [exact (M _ (Some _) ltac:(do 6 right; left; reflexivity))|].
    pose proof (M (S_ "dont_scale") _ ltac:(do 7 right; left; reflexivity)) as MD. pose proof (M (S_ "std_scaling") _ ltac:(do 8 right; left; reflexivity)) as MS.
    split; [destruct ds; exact MD|]. split; [destruct std as [[[a b] c]|]; exact MS|]. exact O.
  Qed.
  (** Adding the same box again changes nothing. *)
  Theorem C146_again : forall wetb L ae gamma seed (high : bool) fs t1 t2 t3 n1 n2 n3 d1 d2 d3 (ds : bool) std d,
    named fmt04d fs seed [t1; t2; t3] -> Forall (a_word num) [t1; t2; t3] -> n1 <> 0%Z -> n2 <> 0%Z -> n3 <> 0%Z -> ready d ->
    forall d', add wetb L ae gamma seed high fs [n1; n2; n3] [d1; d2; d3] ds std d = (d', Ok tt) ->
      add wetb L ae gamma seed high fs [n1; n2; n3] [d1; d2; d3] ds std d' = (d', Ok tt).
  Proof using H4 Hf.
    intros wetb L ae gamma seed high fs t1 t2 t3 n1 n2 n3 d1 d2 d3 ds std d Hn Hw N1 N2 N3 Hd d' E'.
    inversion Hw as [|? ? A1 Hw1]; subst. inversion Hw1 as [|? ? A2 Hw2]; subst. inversion Hw2 as [|? ? A3 _]; subst.
    destruct (mann_core wetb L ae gamma seed high fs t1 t2 t3 [t1] [t2] [t3] n1 n2 n3 d1 d2 d3 ds std d (named_files wetb fs seed _ Hn)
      (words_word _ _ A1) (words_word _ _ A2) (words_word _ _ A3) N1 N2 N3 Hd) as (d1' & E & _ & _ & _ & Z). rewrite E' in E. injection E as <-. exact Z.
  Qed.
  (** The spacing is written with four decimals: with the default arguments (16384 points, 6000 m) the box of the file is not 6000 m long. *)
  Theorem C146_length_refuted : forall toQ : str -> option Q, (forall q, exists z, toQ (rd4 q) = Some (z # 10000)%Q) -> (forall z, toQ (ofZ z) = Some (inject_Z z)) ->
    forall wetb L ae gamma seed (high : bool) fs t1 t2 t3 n2 n3 d2 d3 (ds : bool) std d,
    named fmt04d fs seed [t1; t2; t3] -> Forall (a_word num) [t1; t2; t3] -> n2 <> 0%Z -> n3 <> 0%Z -> ready d ->
    exists d' nm a b cm x y, add wetb L ae gamma seed high fs [16384; n2; n3]%Z [6000%Q; d2; d3] ds std d = (d', Ok tt) /\
      at_ d' (p3 "wind" "mann" "box_dim_u") = Some (Line nm [a; b] cm) /\ toQ a = Some x /\ toQ b = Some y /\ ~ (x * y == 6000)%Q.
  Proof using H4 Hf.
    intros toQ HQ HZ wetb L ae gamma seed high fs t1 t2 t3 n2 n3 d2 d3 ds std d Hn Hw N2 N3 Hd.
    destruct (C146_added wetb L ae gamma seed high fs t1 t2 t3 16384 n2 n3 6000 d2 d3 ds std d Hn Hw ltac:(discriminate) N2 N3 Hd) as (d' & E & _ & _ & _ & _ & _ & B & _).
    destruct (HQ (6000 / inject_Z 16384)%Q) as (z & Hz).
    assert (X : exists nm cm, at_ d' (p3 "wind" "mann" "box_dim_u") = Some (Line nm [ofZ 16384; rd4 (6000 / inject_Z 16384)%Q] cm)).
    { unfold given in B. destruct (at_ d _) as [[nm v cm|? ? ? ? ? ?]|]; [eauto|contradiction|]. destruct B as (cm & B). eauto. }
    destruct X as (nm & cm & X). exists d', nm, (ofZ 16384), (rd4 (6000 / inject_Z 16384)%Q), cm, (inject_Z 16384), (z # 10000)%Q.
    split; [exact E|]. split; [exact X|]. split; [apply HZ|]. split; [exact Hz|]. unfold Qeq, Qmult, inject_Z. cbn [Qnum Qden]. rewrite Pos.mul_1_l. lia.
  Qed.
  (** A text with a blank gives a line with two values, and the first is not the file. *)
  Theorem C146_blank_refuted : forall wetb L ae gamma seed (high : bool) s1 s2 n1 n2 n3 d1 d2 d3 (ds : bool) std d,
    a_word num (S_ "./turb/" ++ s1) -> (forall c, In c [S_ "u"; S_ "v"; S_ "w"] -> a_word num (s2 ++ S_ "_s" ++ fmt04d seed ++ c ++ S_ ".bin")) ->
    n1 <> 0%Z -> n2 <> 0%Z -> n3 <> 0%Z -> ready d ->
    exists d', add wetb L ae gamma seed high (Stem (s1 ++ S_ " " ++ s2)) [n1; n2; n3] [d1; d2; d3] ds std d = (d', Ok tt) /\
      given d d' (p3 "wind" "mann" "filename_u") [S_ "./turb/" ++ s1; s2 ++ S_ "_s" ++ fmt04d seed ++ S_ "u.bin"].
  Proof using H4 Hf.
    intros wetb L ae gamma seed high s1 s2 n1 n2 n3 d1 d2 d3 ds std d A B N1 N2 N3 Hd.
    assert (W : forall c, In c [S_ "u"; S_ "v"; S_ "w"] ->
      words num (S_ "./turb/" ++ (s1 ++ S_ " " ++ s2) ++ S_ "_s" ++ fmt04d seed ++ c ++ S_ ".bin") = Ok [S_ "./turb/" ++ s1; s2 ++ S_ "_s" ++ fmt04d seed ++ c ++ S_ ".bin"]).
    { intros c Hc. specialize (B c Hc). rewrite <- !app_assoc, app_assoc. unfold words. change (S_ " " ++ ?x) with (sp :: x).
      rewrite split_ws_app by reflexivity. rewrite (split_ws_token _ (proj1 A)), (split_ws_token _ (proj1 B)). cbn [app map_res].
      pose proof (words_word _ _ A) as WA. pose proof (words_word _ _ B) as WB. unfold words in WA, WB. rewrite split_ws_token in WA, WB by apply A || apply B.
      cbn [map_res] in WA, WB. destruct (fmt_value num (S_ "./turb/" ++ s1)) as [va|]; [|discriminate].
      destruct (fmt_value num (s2 ++ S_ "_s" ++ fmt04d seed ++ c ++ S_ ".bin")) as [vb|]; [|discriminate]. cbn [bind] in *. congruence. }
    destruct (mann_core wetb L ae gamma seed high (Stem (s1 ++ S_ " " ++ s2)) _ _ _ _ _ _ n1 n2 n3 d1 d2 d3 ds std d eq_refl
      (W _ (or_introl eq_refl)) (W _ (or_intror (or_introl eq_refl))) (W _ (or_intror (or_intror (or_introl eq_refl)))) N1 N2 N3 Hd) as (d' & E & _ & M & _).
    exists d'. split; [exact E|]. exact (M (S_ "filename_u") (Some _) ltac:(right; left; reflexivity)).
  Qed.
  (** What the change of the Mann section leaves, whatever the outcome. *)
  Lemma mann_shell body U ks m1 r d : ready d -> body (inside (inside d (S_ "wind")) (S_ "mann")) = (m1, r) -> effect U (inside (inside d (S_ "wind")) (S_ "mann")) m1 ->
    map fst U = map S_ ks -> ks <> [] ->
    exists d', in_new (S_ "wind") TypeError (put (S_ "turb_format") [S_ "1"] >>> in_new (S_ "mann") TypeError body) d = (d', r) /\
      given d d' (p2 "wind" "turb_format") [S_ "1"] /\ (forall k o, In (k, o) U -> given_or_gone d d' [S_ "wind"; S_ "mann"; k] o) /\
      only d d' (p2 "wind" "turb_format" :: map (fun k => p3 "wind" "mann" k) ks).
  Proof using.
    intros Hd Em1 FM1 KU Hks. destruct (ready_in d Hd) as (R1 & R2 & R3 & _).
    set (w := inside d (S_ "wind")) in *. destruct (performs_put (S_ "turb_format") [S_ "1"] eq_refl) as [T1 T2].
    destruct (T1 w) as (w1 & Ew1 & FW1). { intros k vs [X|[]]. injection X as <- _. exact R3. }
    assert (M : dget w1 (S_ "mann") = dget w (S_ "mann")). { apply FW1. intros [X|[]]. discriminate X. }
    assert (I1 : inside w1 (S_ "mann") = inside w (S_ "mann")) by (unfold inside; rewrite M; reflexivity).
    destruct (in_new_ok (S_ "mann") TypeError body w1) as (kd & nm & bc & ec & ss & Ew2 & _). { rewrite M. exact R2. }
    rewrite I1, Em1 in Ew2. cbn [fst snd] in Ew2.
    set (fw := put (S_ "turb_format") [S_ "1"] >>> in_new (S_ "mann") TypeError body). set (w2 := dset w1 (S_ "mann") (Sec kd nm bc ec m1 ss)) in *.
    assert (EF : fw w = (w2, r)). { unfold fw, andthen. rewrite Ew1. exact Ew2. }
    destruct (in_new_ok (S_ "wind") TypeError fw d R1) as (kd' & nm' & bc' & ec' & ss' & Ed & _). fold w in Ed. rewrite EF in Ed. cbn [fst snd] in Ed.
    eexists. split; [exact Ed|].
    assert (G : forall k, k <> S_ "mann" -> dget w2 k = dget w1 k).
    { intros k Hk. unfold w2. rewrite HTCSim_Props.dget_dset. destruct (str_eqb (S_ "mann") k) eqn:X; [apply str_eqb_eq in X; congruence|reflexivity]. }
    split; [|split].
    - unfold p2. apply given_deep; [discriminate|exact R1|]. apply given_one. rewrite G by (intro X0; discriminate X0). apply (proj1 FW1 (S_ "turb_format") (Some [S_ "1"])). left. reflexivity.
    - intros k o Hin. pose proof (proj1 FM1 k o Hin) as X. destruct o as [vs|]; cbn [given_or_gone].
      + apply given_deep; [discriminate|exact R1|]. fold w. unfold given. rewrite (at_inside w (S_ "mann") [k]) by (try discriminate; assumption).
        unfold w2. rewrite at_deep by discriminate. cbn [at_ last]. rewrite !look_dget. exact X.
      + rewrite at_deep by discriminate. unfold w2. rewrite at_deep by discriminate. cbn [at_]. rewrite look_dget. exact X.
    - pose proof (only_effect _ _ _ FW1) as O1. pose proof (only_effect _ _ _ FM1) as O2.
      assert (Y : map (fun u : str * option (list str) => [fst u]) U = map (fun k => [S_ k]) ks).
      { rewrite <- (map_map fst (fun k => [k])), KU, map_map. reflexivity. }
      assert (O3 : only w1 w2 (under (S_ "mann") (map (fun u => [fst u]) U))).
      { apply only_deep; [rewrite Y; destruct ks; [congruence|discriminate]|rewrite M; exact R2|rewrite I1; exact O2]. }
      pose proof (only_trans _ _ _ _ _ O1 O3) as O4.
      eapply only_incl; [|eapply (only_deep d (S_ "wind") kd' nm' bc' ec' w2 ss'); [|exact R1|exact O4]; cbn [map app]; intro X0; discriminate X0].
      rewrite Y. unfold under. cbn [map app fst]. rewrite !map_map. intros q Hq. exact Hq.
  Qed.
  (** Without file names the method needs the package wetb, which is not part of this one: it fails, and the turbulence format and the parameters are changed
      all the same. *)
  Theorem C146_default_refuted : forall L ae gamma seed (high : bool) ns dims (ds : bool) std d, ready d ->
    exists d', add None L ae gamma seed high Default ns dims ds std d = (d', Err ModuleNotFoundError) /\
      given d d' (p2 "wind" "turb_format") [S_ "1"] /\
      given d d' (p3 "wind" "mann" "create_turb_parameters") [L; ae; gamma; seed; if high then S_ "1" else S_ "0"] /\
      only d d' [p2 "wind" "turb_format"; p3 "wind" "mann" "create_turb_parameters"].
  Proof using.
    intros L ae gamma seed high ns dims ds std d Hd. destruct (ready_in d Hd) as (_ & _ & _ & R4).
    destruct (performs_parameters [L; ae; gamma; seed; hfc high]) as [P1 _]. destruct (P1 (inside (inside d (S_ "wind")) (S_ "mann"))) as (m1 & Em1 & FM1).
    { intros k vs [X|[]]. injection X as <- _. apply R4. left. reflexivity. }
    destruct (mann_shell (turb_parameters [L; ae; gamma; seed; hfc high] >>> with_ (fun _ => file_names fmt04d None Default seed) (fun l => set_files num l) >>>
      set_dims num ofZ fmt4f ns dims >>> scaling num fmtf ds std)
      [(S_ "create_turb_parameters", Some [L; ae; gamma; seed; hfc high])] ["create_turb_parameters"%string] m1 (Err ModuleNotFoundError) d Hd) as (d' & E & T & M & O).
    - unfold andthen. rewrite Em1. reflexivity.
    - exact FM1.
    - reflexivity.
    - discriminate.
    - exists d'. split; [exact E|]. split; [exact T|]. split; [exact (M _ (Some _) (or_introl eq_refl))|exact O].
  Qed.
  (** A list of two file names is accepted: the third file is the one that was there before, if any. *)
  Theorem C146_few_refuted : forall wetb L ae gamma seed (high : bool) t1 t2 n1 n2 n3 d1 d2 d3 d,
    Forall (a_word num) [t1; t2] -> n1 <> 0%Z -> n2 <> 0%Z -> n3 <> 0%Z -> ready d ->
    exists d', add wetb L ae gamma seed high (Names [t1; t2]) [n1; n2; n3] [d1; d2; d3] false None d = (d', Ok tt) /\
      given d d' (p3 "wind" "mann" "filename_u") [t1] /\ given d d' (p3 "wind" "mann" "filename_v") [t2] /\
      at_ d' (p3 "wind" "mann" "filename_w") = at_ d (p3 "wind" "mann" "filename_w").
  Proof using H4.
    intros wetb L ae gamma seed high t1 t2 n1 n2 n3 d1 d2 d3 d Hw N1 N2 N3 Hd. destruct (ready_in d Hd) as (_ & _ & _ & R4).
    inversion Hw as [|? ? A1 Hw1]; subst. inversion Hw1 as [|? ? A2 _]; subst.
    set (U := [(S_ "create_turb_parameters", Some [L; ae; gamma; seed; hfc high]); (S_ "filename_u", Some [t1]); (S_ "filename_v", Some [t2]);
     (S_ "box_dim_u", Some [ofZ n1; rd4 (d1 / inject_Z n1)%Q]); (S_ "box_dim_v", Some [ofZ n2; rd4 (d2 / inject_Z n2)%Q]); (S_ "box_dim_w", Some [ofZ n3; rd4 (d3 / inject_Z n3)%Q]);
     (S_ "dont_scale", None); (S_ "std_scaling", None)]).
    assert (P : performs (turb_parameters [L; ae; gamma; seed; hfc high] >>> with_ (fun _ => file_names fmt04d wetb (Names [t1; t2]) seed) (fun l => set_files num l) >>>
      set_dims num ofZ fmt4f [n1; n2; n3] [d1; d2; d3] >>> scaling num fmtf false None) U).
    { unfold U. apply (performs_then _ _ [_]); [apply performs_parameters| |nodup]. apply (performs_then _ _ [_; _]); [| |nodup].
      { eapply performs_ext; [intro x; unfold with_; reflexivity|]. unfold set_files. cbn [combine uvw map all_ fst snd].
        apply (performs_then _ _ [_]); [apply performs_text; [apply words_word; exact A1|reflexivity]| |nodup].
        apply (performs_then _ _ [_] []); [apply performs_text; [apply words_word; exact A2|reflexivity]|apply performs_done|nodup]. }
      apply (performs_then _ _ [_; _; _]); [| |nodup].
      { unfold set_dims. cbn [combine uvw map all_ fst snd]. unfold set_dim. rewrite (proj2 (Z.eqb_neq _ _) N1), (proj2 (Z.eqb_neq _ _) N2), (proj2 (Z.eqb_neq _ _) N3).
        assert (X : forall n q, words num (ofZ n ++ S_ " " ++ fmt4f q) = Ok [ofZ n; rd4 q]) by (intros n q; apply words_two; try apply H4; apply H4).
        apply (performs_then _ _ [_]); [apply performs_text; [apply X|reflexivity]| |nodup]. apply (performs_then _ _ [_]); [apply performs_text; [apply X|reflexivity]| |nodup].
        apply (performs_then _ _ [_] []); [apply performs_text; [apply X|reflexivity]|apply performs_done|nodup]. }
      unfold scaling. apply (performs_then _ _ [_]); [apply performs_del|apply performs_del|nodup]. }
    destruct (proj1 P (inside (inside d (S_ "wind")) (S_ "mann"))) as (m1 & Em1 & FM1).
    { intros k vs X. apply R4. assert (Y : In k (map fst U)) by (apply in_map_iff; exists (k, Some vs); auto). cbn in Y. cbn. intuition. }
    destruct (mann_shell _ U ["create_turb_parameters"; "filename_u"; "filename_v"; "box_dim_u"; "box_dim_v"; "box_dim_w"; "dont_scale"; "std_scaling"]%string m1 (Ok tt) d Hd Em1 FM1
      eq_refl ltac:(discriminate)) as (d' & E & _ & M & O).
    exists d'. split; [exact E|]. split; [exact (M _ (Some _) ltac:(right; left; reflexivity))|]. split; [exact (M _ (Some _) ltac:(do 2 right; left; reflexivity))|].
    apply O. intros q Hq. cbn in Hq. repeat (destruct Hq as [<-|Hq]; [split; intros r X; discriminate X|]). contradiction.
  Qed.
End Mann.

(** ** C148: water, shear and controller *)
Lemma two_shell a b e f U ks d : sectionish (dget d (S_ a)) -> sectionish (dget (inside d (S_ a)) (S_ b)) -> performs f U -> map fst U = map S_ ks -> ks <> [] ->
  (forall k, In k ks -> lineish (dget (inside (inside d (S_ a)) (S_ b)) (S_ k))) ->
  exists d', in_new (S_ a) e (in_new (S_ b) TypeError f) d = (d', Ok tt) /\
    (forall k o, In (k, o) U -> given_or_gone d d' [S_ a; S_ b; k] o) /\ only d d' (map (fun k => p3 a b k) ks).
Proof.
  intros R1 R2 P KU Hks R4. destruct (proj1 P (inside (inside d (S_ a)) (S_ b))) as (m1 & Em1 & FM1).
  { intros k vs X. assert (Y : In k (map fst U)) by (apply in_map_iff; exists (k, Some vs); auto). rewrite KU in Y. apply in_map_iff in Y as (k0 & <- & Y). auto. }
  destruct (in_new_ok (S_ b) TypeError f (inside d (S_ a)) R2) as (kd & nm & bc & ec & ss & Ew & _). rewrite Em1 in Ew. cbn [fst snd] in Ew.
  destruct (in_new_ok (S_ a) e (in_new (S_ b) TypeError f) d R1) as (kd' & nm' & bc' & ec' & ss' & Ed & _). rewrite Ew in Ed. cbn [fst snd] in Ed.
  eexists. split; [exact Ed|]. split.
  - intros k o Hin. pose proof (proj1 FM1 k o Hin) as X. destruct o as [vs|]; cbn [given_or_gone].
    + apply given_deep; [discriminate|exact R1|]. apply given_deep; [discriminate|exact R2|]. apply given_one. exact X.
    + rewrite !at_deep by discriminate. cbn [at_]. rewrite look_dget. exact X.
  - assert (Y : map (fun u : str * option (list str) => [fst u]) U = map (fun k => [S_ k]) ks).
    { rewrite <- (map_map fst (fun k => [k])), KU, map_map. reflexivity. }
    pose proof (only_effect _ _ _ FM1) as O. rewrite Y in O.
    assert (N : map (fun k => [S_ k]) ks <> []) by (destruct ks; [congruence|discriminate]).
    pose proof (only_deep (inside d (S_ a)) (S_ b) kd nm bc ec m1 ss _ N R2 O) as O2.
    eapply only_incl; [|apply (only_deep d (S_ a) kd' nm' bc' ec' _ ss' _) with (3 := O2); [unfold under; destruct ks; [congruence|discriminate]|exact R1]].
    unfold under. rewrite !map_map. intros q Hq. exact Hq.
Qed.
(** Adding water sets the four properties, in the existing sections if there are any, and nothing else. *)
Theorem C148_water : forall mudlevel mwl gravity rho d, section_place d (p1 "hydro") -> section_place d (p2 "hydro" "water_properties") ->
  Forall (fun k => line_place d (p3 "hydro" "water_properties" k)) ["mudlevel"; "mwl"; "gravity"; "rho"]%string ->
  exists d', add_hydro mudlevel mwl gravity rho d = (d', Ok tt) /\
    given d d' (p3 "hydro" "water_properties" "mudlevel") [mudlevel] /\ given d d' (p3 "hydro" "water_properties" "mwl") [mwl] /\
    given d d' (p3 "hydro" "water_properties" "gravity") [gravity] /\ given d d' (p3 "hydro" "water_properties" "rho") [rho] /\
    only d d' (map (fun k => p3 "hydro" "water_properties" k) ["mudlevel"; "mwl"; "gravity"; "rho"]%string).
Proof.
  intros mudlevel mwl gravity rho d A B C. assert (A' : sectionish (dget d (S_ "hydro"))) by (rewrite <- look_dget; exact A).
  assert (B' : sectionish (dget (inside d (S_ "hydro")) (S_ "water_properties"))).
  { unfold section_place, p2 in B. rewrite at_inside in B by (try discriminate; assumption). cbn [at_] in B. rewrite look_dget in B. exact B. }
  destruct (two_shell "hydro" "water_properties" NotImplementedError
    (put (S_ "mudlevel") [mudlevel] >>> put (S_ "mwl") [mwl] >>> put (S_ "gravity") [gravity] >>> put (S_ "rho") [rho])
    [(S_ "mudlevel", Some [mudlevel]); (S_ "mwl", Some [mwl]); (S_ "gravity", Some [gravity]); (S_ "rho", Some [rho])] ["mudlevel"; "mwl"; "gravity"; "rho"]%string d A' B')
    as (d' & E & M & O).
  - apply (performs_then _ _ [_]); [apply performs_put; reflexivity| |nodup]. apply (performs_then _ _ [_]); [apply performs_put; reflexivity| |nodup].
    apply (performs_then _ _ [_]); [apply performs_put; reflexivity|apply performs_put; reflexivity|nodup].
  - reflexivity.
  - discriminate.
  - intros k Hk. pose proof (proj1 (Forall_forall _ _) C k Hk) as X. unfold line_place, p3 in X. rewrite !at_inside in X by (try discriminate; assumption).
    cbn [at_] in X. rewrite look_dget in X. exact X.
  - exists d'. split; [exact E|]. split; [exact (M _ (Some _) ltac:(left; reflexivity))|]. split; [exact (M _ (Some _) ltac:(right; left; reflexivity))|].
    split; [exact (M _ (Some _) ltac:(do 2 right; left; reflexivity))|]. split; [exact (M _ (Some _) ltac:(do 3 right; left; reflexivity))|]. exact O.
Qed.
(** The wind section gives these values. *)
Definition wind_values (toQ : str -> option Q) (d : list (str * node)) (t p : str) (z : Q) (v : str) : Prop :=
  (exists nm cm, at_ d (p2 "wind" "shear_format") = Some (Line nm [t; p] cm)) /\
  (exists nm x y c zs cm, at_ d (p2 "wind" "center_pos0") = Some (Line nm (x :: y :: c :: zs) cm) /\ toQ c = Some z) /\
  (exists nm vs cm, at_ d (p2 "wind" "wsp") = Some (Line nm (v :: vs) cm)).
Lemma shear_values toQ ofQ d t p z v wetb : wind_values toQ d t p z v -> get_shear toQ ofQ wetb d =
  match toQ t with
  | Some q => if Qeq_bool q 1 then Ok (fun _ => Ok v) else if Qeq_bool q 3 then
      match wetb with None => Err ModuleNotFoundError | Some f => Ok (fun h => p <- number toQ p ;; v <- number toQ v ;; Ok (ofQ (f p (- z)%Q v h))) end
      else Err NotImplementedError
  | None => Err NotImplementedError
  end.
Proof.
  intros ((nm1 & cm1 & A) & (nm2 & x & y & c0 & zs & cm2 & B & Bq) & (nm3 & vs & cm3 & C)). unfold p2 in *. cbn [at_] in *. rewrite !look_dget in *.
  destruct (dget d (S_ "wind")) as [[? ? ?|kd nm bc ec c ss]|] eqn:E; try discriminate. rewrite !look_dget in *.
  unfold get_shear, attr. rewrite E. cbn [bind sub]. unfold attr. rewrite A, B, C. cbn [bind item nth_error]. unfold number at 1. rewrite Bq. reflexivity.
Qed.
(** A constant shear is the wind speed of the file at all heights. *)
Theorem C148_shear_constant : forall toQ ofQ wetb d t p z v q, wind_values toQ d t p z v -> toQ t = Some q -> (q == 1)%Q ->
  exists f, get_shear toQ ofQ wetb d = Ok f /\ forall h, f h = Ok v.
Proof.
  intros toQ ofQ wetb d t p z v q H E Hq. pose proof (shear_values toQ ofQ d t p z v wetb H) as G. rewrite E in G. apply Qeq_bool_iff in Hq. rewrite Hq in G.
  eexists. split; [exact G|]. reflexivity.
Qed.
(** The other shears of the format are refused: the power law without the package wetb, the logarithmic and the linear one always. *)
Theorem C148_shear_refuted : forall toQ ofQ d t p z v q, wind_values toQ d t p z v -> toQ t = Some q ->
  ((q == 3)%Q -> get_shear toQ ofQ None d = Err ModuleNotFoundError) /\
  (~ (q == 1)%Q -> ~ (q == 3)%Q -> forall wetb, get_shear toQ ofQ wetb d = Err NotImplementedError).
Proof.
  intros toQ ofQ d t p z v q H E. split.
  - intro Hq. pose proof (shear_values toQ ofQ d t p z v None H) as G. rewrite E in G. rewrite G. destruct (Qeq_bool q 1) eqn:E1.
    + apply Qeq_bool_eq in E1. rewrite Hq in E1. discriminate E1.
    + apply Qeq_bool_iff in Hq. rewrite Hq. reflexivity.
  - intros H1 H3 wetb. pose proof (shear_values toQ ofQ d t p z v wetb H) as G. rewrite E in G. rewrite G.
    destruct (Qeq_bool q 1) eqn:E1; [apply Qeq_bool_eq in E1; contradiction|]. destruct (Qeq_bool q 3) eqn:E3; [apply Qeq_bool_eq in E3; contradiction|]. reflexivity.
Qed.
(** With the package wetb, a power law is that of the exponent of the file, its hub height (minus the third coordinate of the centre) and its wind speed. *)
Theorem C148_shear_power : forall toQ ofQ power d t p z v q a w, wind_values toQ d t p z v -> toQ t = Some q -> (q == 3)%Q -> toQ p = Some a -> toQ v = Some w ->
  exists f, get_shear toQ ofQ (Some power) d = Ok f /\ forall h, f h = Ok (ofQ (power a (- z)%Q w h)).
Proof.
  intros toQ ofQ power d t p z v q a w H E Hq Ha Hw. pose proof (shear_values toQ ofQ d t p z v (Some power) H) as G. rewrite E in G.
  destruct (Qeq_bool q 1) eqn:E1; [apply Qeq_bool_eq in E1; rewrite Hq in E1; discriminate E1|]. apply Qeq_bool_iff in Hq. rewrite Hq in G.
  eexists. split; [exact G|]. intro h. cbn beta. unfold number. rewrite Ha, Hw. reflexivity.
Qed.

(** *** Controller *)
  Lemma startswith_no c old x : ~ In c x -> x <> [] -> startswith x (c :: old) = false.
  Proof. intros H Hx. destruct x as [|y x]; [congruence|]. cbn [startswith]. destruct (chr_eqb y c) eqn:E; [|reflexivity]. apply Ascii.eqb_eq in E. subst. destruct H. left. reflexivity. Qed.
  Lemma replace_no c old x : forall f, ~ In c x -> replace_ f (c :: old) x = x.
  Proof.
    induction x as [|y x IH]; intros [|f] H; try reflexivity. cbn [replace_]. rewrite startswith_no by (try discriminate; assumption). rewrite IH; [reflexivity|].
    intro X. apply H. right. exact X.
  Qed.
  Lemma startswith_app old y : startswith (old ++ y) old = true.
  Proof. induction old as [|c old IH]; [destruct y; reflexivity|]. cbn [app startswith]. unfold chr_eqb. rewrite Ascii.eqb_refl. exact IH. Qed.
  Lemma replace_one c old x y : forall f, List.length x < f -> ~ In c x -> ~ In c y -> replace_ f (c :: old) (x ++ (c :: old) ++ y) = x ++ y.
  Proof.
    induction x as [|z x IH]; intros [|f] Hl Hx Hy; try (cbn in Hl; lia).
    - change ([] ++ (c :: old) ++ y) with ((c :: old) ++ y). cbn [replace_]. cbn [app]. change (c :: old ++ y) with ((c :: old) ++ y). rewrite startswith_app.
      rewrite skipn_app, skipn_all, Nat.sub_diag. cbn [app skipn]. apply replace_no. exact Hy.
    - cbn [app replace_]. destruct (startswith (z :: x ++ c :: old ++ y) (c :: old)) eqn:E.
      + cbn [startswith] in E. destruct (chr_eqb z c) eqn:E2; [|discriminate]. apply Ascii.eqb_eq in E2. subst. destruct Hx. left. reflexivity.
      + f_equal. change (c :: old ++ y) with ((c :: old) ++ y). apply IH; [cbn in Hl; lia| |exact Hy]. intro X. apply Hx. right. exact X.
  Qed.
  Lemma remove_one c old x y : ~ In c x -> ~ In c y -> remove_ (String c old) (x ++ S_ (String c old) ++ y) = x ++ y.
  Proof. intros Hx Hy. unfold remove_. change (S_ (String c old)) with (c :: S_ old). apply replace_one; [rewrite app_length; lia|exact Hx|exact Hy]. Qed.
  Lemma split_cut c x y : ~ In c x -> split_chr c (x ++ c :: y) = x :: split_chr c y.
  Proof.
    intro H. unfold split_chr. apply split_on_app_sep; [|unfold chr_eqb; apply Ascii.eqb_refl]. apply forallb_forall. intros z Hz. destruct (chr_eqb z c) eqn:E; [|reflexivity].
    apply Ascii.eqb_eq in E. subst. contradiction.
  Qed.
Lemma bind_some {A B} (r : res A) (k : A -> res B) b : bind r k = Ok b -> exists a, r = Ok a /\ k a = Ok b.
Proof. destruct r as [a|]; [intro H; exists a; split; [reflexivity|exact H]|discriminate]. Qed.
Section Controller.
  Variable F : Type.
  Variable float_ : str -> option F.
  (** The texts of the file of the controller. *)
  Definition clean (x : str) : Prop := forall c, In c x -> ~ In c (S_ "K[],").
  Definition reads (l : str) (a b : string) (g : F) : Prop := exists x y, clean x /\ clean y /\ l = S_ a ++ x ++ S_ b ++ y /\ float_ (x ++ y) = Some g.
  Definition reads2 (l : str) (g1 g2 : F) : Prop := exists x1 x2 rest, clean x1 /\ clean x2 /\
    l = S_ "K1 = " ++ x1 ++ S_ "[deg]" ++ S_ ", K2 = " ++ x2 ++ S_ "[deg^2]" ++ rest /\ float_ x1 = Some g1 /\ float_ x2 = Some g2.
  Definition tuned (ls : list str) (k p2 i2 p3 i3 k1 k2 : F) : Prop :=
    exists l0 l1 l2 l3 l4 l5 l6 l7 l8 l9 more, ls = l0 :: l1 :: l2 :: l3 :: l4 :: l5 :: l6 :: l7 :: l8 :: l9 :: more /\
      reads l1 "K = " "[Nm/(rad/s)^2]" k /\ reads l4 "Kp = " "[Nm/(rad/s)]" p2 /\ reads l5 "Ki = " "[Nm/rad]" i2 /\
      reads l7 "Kp = " "[rad/(rad/s)]" p3 /\ reads l8 "Ki = " "[rad/rad]" i3 /\ reads2 l9 k1 k2.
  Lemma gain_read lines i ca a cb b x y g : nth_error lines i = Some (S_ (String ca a) ++ x ++ S_ (String cb b) ++ y) ->
    ~ In ca (x ++ S_ (String cb b) ++ y) -> ~ In cb x -> ~ In cb y -> float_ (x ++ y) = Some g -> gain F float_ lines i (String ca a) (String cb b) = Ok g.
  Proof using.
    intros H A B C G. unfold gain, nth_line. rewrite H. cbn [bind]. pose proof (remove_one ca a [] _ (fun X => X) A) as R. cbn [app] in R. rewrite R.
    rewrite (remove_one cb b x y B C). unfold value_of. rewrite G. reflexivity.
  Qed.
  Lemma clean_no c x : clean x -> In c (S_ "K[],") -> ~ In c x.
  Proof using. intros H Hc X. exact (H c X Hc). Qed.
  Lemma tuned_gains ls k p2 i2 p3 i3 k1 k2 : tuned ls k p2 i2 p3 i3 k1 k2 -> gains F float_ ls =
    Ok [(S_ "constant__11", k); (S_ "constant__12", p2); (S_ "constant__13", i2); (S_ "constant__16", p3); (S_ "constant__17", i3); (S_ "constant__21", k1); (S_ "constant__22", k2)].
  Proof using.
    intros (l0 & l1 & l2 & l3 & l4 & l5 & l6 & l7 & l8 & l9 & more & -> & R1 & R4 & R5 & R7 & R8 & R9).
    assert (G : forall l i ca a cb b g lines, reads l (String ca a) (String cb b) g -> nth_error lines i = Some l -> In ca (S_ "K[],") -> In cb (S_ "K[],") -> ~ In ca (S_ (String cb b)) ->
      gain F float_ lines i (String ca a) (String cb b) = Ok g).
    { intros l i ca a cb b g lines (x & y & X & Y & E & Fl) Hn Ha Hb Hab. subst l. apply (gain_read lines i ca a cb b x y g Hn).
      - intro Z. apply in_app_or in Z as [Z|Z]; [exact (clean_no _ _ X Ha Z)|]. apply in_app_or in Z as [Z|Z]; [exact (Hab Z)|exact (clean_no _ _ Y Ha Z)].
      - exact (clean_no _ _ X Hb).
      - exact (clean_no _ _ Y Hb).
      - exact Fl. }
    unfold gains.
    rewrite (G l1 1 _ _ _ _ k) by first [exact R1|reflexivity|(cbn; tauto)|(cbn; notin)]. cbn [bind].
    rewrite (G l4 4 _ _ _ _ p2) by first [exact R4|reflexivity|(cbn; tauto)|(cbn; notin)]. cbn [bind].
    rewrite (G l5 5 _ _ _ _ i2) by first [exact R5|reflexivity|(cbn; tauto)|(cbn; notin)]. cbn [bind].
    rewrite (G l7 7 _ _ _ _ p3) by first [exact R7|reflexivity|(cbn; tauto)|(cbn; notin)]. cbn [bind].
    rewrite (G l8 8 _ _ _ _ i3) by first [exact R8|reflexivity|(cbn; tauto)|(cbn; notin)]. cbn [bind nth_line nth_error].
    destruct R9 as (x1 & x2 & rest & X1 & X2 & -> & F1 & F2).
    assert (S9 : exists t, split_chr (ch 93) (S_ "K1 = " ++ x1 ++ S_ "[deg]" ++ S_ ", K2 = " ++ x2 ++ S_ "[deg^2]" ++ rest) =
      (S_ "K1 = " ++ x1 ++ S_ "[deg" ++ []) :: (S_ ", K2 = " ++ x2 ++ S_ "[deg^2" ++ []) :: t).
    { replace (S_ "K1 = " ++ x1 ++ S_ "[deg]" ++ S_ ", K2 = " ++ x2 ++ S_ "[deg^2]" ++ rest)
        with ((S_ "K1 = " ++ x1 ++ S_ "[deg" ++ []) ++ ch 93 :: ((S_ ", K2 = " ++ x2 ++ S_ "[deg^2" ++ []) ++ ch 93 :: rest))
        by (rewrite <- !app_assoc; reflexivity).
      assert (N1 := clean_no (ch 93) x1 X1 ltac:(cbn; tauto)). assert (N2 := clean_no (ch 93) x2 X2 ltac:(cbn; tauto)).
      rewrite split_cut; [rewrite split_cut; [eexists; reflexivity|]|]; intro Z; (apply in_app_or in Z as [Z|Z]; [cbn in Z; revert Z; notin|]);
        (apply in_app_or in Z as [Z|Z]; [contradiction|]); cbn in Z; revert Z; notin. }
    destruct S9 as (t & S9). cbv zeta. rewrite S9.
    rewrite (G (S_ "K1 = " ++ x1 ++ S_ "[deg" ++ []) 0 _ _ _ _ k1);
      [|exists x1, []; repeat split; [exact X1|intros c []|rewrite app_nil_r; exact F1]|reflexivity|cbn; tauto|cbn; tauto|cbn; notin]. cbn [bind].
    rewrite (G (S_ ", K2 = " ++ x2 ++ S_ "[deg^2" ++ []) 1 _ _ _ _ k2);
      [|exists x2, []; repeat split; [exact X2|intros c []|rewrite app_nil_r; exact F2]|reflexivity|cbn; tauto|cbn; tauto|cbn; notin]. reflexivity.
  Qed.
  Variable fmt6E : F -> str.
  (** The constants of the controller, which are the lines of its init section called constant, in their order: the eleventh and so on. *)
  Definition constants (k p2 i2 p3 i3 k1 k2 : F) : list (string * F) :=
    [("constant__11", k); ("constant__12", p2); ("constant__13", i2); ("constant__16", p3); ("constant__17", i3); ("constant__21", k1); ("constant__22", k2)]%string.
  Lemma seconds_ok (gs : list (str * F)) : forall d, NoDup (map fst gs) -> (forall k g, In (k, g) gs -> exists nm x y vs cm, dget d k = Some (Line nm (x :: y :: vs) cm)) ->
    exists d', all_ (map (fun g => set_second (fst g) (fmt6E (snd g))) gs) d = (d', Ok tt) /\
      (forall k g, In (k, g) gs -> forall nm x y vs cm, dget d k = Some (Line nm (x :: y :: vs) cm) -> dget d' k = Some (Line nm (x :: fmt6E g :: vs) cm)) /\
      (forall j, ~ In j (map fst gs) -> dget d' j = dget d j).
  Proof using.
    induction gs as [|[k g] gs IH]; intros d N H.
    - exists d. repeat split; auto. intros k g [].
    - cbn [map fst] in N. inversion N as [|? ? Nk N']; subst. destruct (H k g (or_introl eq_refl)) as (nm & x & y & vs & cm & E).
      set (d1 := dset d k (Line nm (x :: fmt6E g :: vs) cm)).
      assert (O : forall j, j <> k -> dget d1 j = dget d j).
      { intros j Hj. unfold d1. rewrite HTCSim_Props.dget_dset. destruct (str_eqb k j) eqn:X; [apply str_eqb_eq in X; congruence|reflexivity]. }
      destruct (IH d1 N') as (d' & E' & A & B).
      + intros k0 g0 Hin. rewrite O; [apply (H k0 g0); right; exact Hin|]. intros ->. apply Nk. apply in_map_iff. exists (k, g0). auto.
      + exists d'. cbn [map all_ fst snd]. unfold andthen. unfold set_second at 1. rewrite E. fold d1. split; [exact E'|]. split.
        * intros k0 g0 [X|Hin] nm0 x0 y0 vs0 cm0 E0.
          { injection X as <- <-. rewrite B by exact Nk. unfold d1. rewrite HTCSim_Props.dget_dset, str_eqb_refl. rewrite E in E0. injection E0 as <- <- <- <- <-. reflexivity. }
          { apply (A k0 g0 Hin nm0 x0 y0 vs0 cm0). rewrite O; [exact E0|]. intros ->. apply Nk. apply in_map_iff. exists (k, g0). auto. }
        * intros j Hj. cbn [map fst] in Hj. rewrite B by (intro; apply Hj; right; assumption). apply O. intros ->. apply Hj. left. reflexivity.
  Qed.
  (** The first controller of the file: the items before it have another name, those after it have a name. *)
  Definition has_name (n : node) (v : str) : Prop :=
    node_name n <> S_ "main_body" /\ exists k nm bc ec c ss nm' vs cm, n = Sec k nm bc ec c ss /\ look c (S_ "name") = Some (Line nm' (v :: vs) cm).
  Definition first_controller (dll : list (str * node)) (key : str) : Prop :=
    exists before n after, dll = before ++ (key, n) :: after /\ (forall k m, In (k, m) before -> exists v, has_name m v /\ v <> S_ "dtu_we_controller") /\
      has_name n (S_ "dtu_we_controller") /\ (forall k m, In (k, m) after -> exists v, has_name m v) /\ ~ In key (map fst before).
  Lemma iter_same (dll : list (str * node)) : (forall k m, In (k, m) dll -> node_name m <> S_ "main_body") -> iter_order node_name dll = dll.
  Proof using.
    intro H. unfold iter_order. assert (X : forall p, In p dll -> is_mb node_name p = false).
    { intros [k m] Hp. unfold is_mb. apply str_eqb_neq. exact (H k m Hp). }
    clear H. induction dll as [|p dll IH]; [reflexivity|]. cbn [filter]. rewrite (X p (or_introl eq_refl)). cbn [negb].
    specialize (IH (fun q Hq => X q (or_intror Hq))). assert (N : filter (is_mb node_name) dll = []).
    { clear - X. induction dll as [|q dll IH]; [reflexivity|]. cbn [filter]. rewrite (X q (or_intror (or_introl eq_refl))). apply IH. intros r [<-|Hr]; apply X; [left; reflexivity|right; right; exact Hr]. }
    rewrite N in *. cbn [app] in *. congruence.
  Qed.
  Lemma controllers_first dll key : first_controller dll key -> exists r, controllers (iter_order node_name dll) = Ok (key :: r).
  Proof using.
    intros (before & n & after & -> & A & B & C & _). rewrite iter_same.
    - assert (Y : forall m v, has_name m v -> (x <- sub m (S_ "name") ;; item x 0) = Ok v).
      { intros m v (_ & k & nm & bc & ec & c & ss & nm' & vs & cm & -> & E). cbn [sub]. unfold attr. rewrite <- look_dget, E. reflexivity. }
      assert (Z : forall l, (forall k m, In (k, m) l -> exists v, has_name m v) -> exists r, controllers l = Ok r).
      { induction l as [|[k m] l IH]; intro H; [exists []; reflexivity|]. destruct (H k m (or_introl eq_refl)) as (v & Hv). pose proof (Y m v Hv) as E.
        destruct IH as (r & Er); [intros k0 m0 H0; exact (H k0 m0 (or_intror H0))|]. cbn [controllers].
        destruct (sub m (S_ "name")) as [x|]; [|discriminate]. cbn [bind] in *. rewrite E. cbn [bind]. rewrite Er. cbn [bind]. eauto. }
      induction before as [|[k m] before IH].
      + cbn [app controllers]. pose proof (Y n _ B) as E. destruct (Z after C) as (r & Er). destruct (sub n (S_ "name")) as [x|]; [|discriminate].
        cbn [bind] in *. rewrite E. cbn [bind]. rewrite Er. cbn [bind]. rewrite str_eqb_refl. eauto.
      + destruct IH as (r & Er); [intros k0 m0 H0; exact (A k0 m0 (or_intror H0))|]. cbn [app controllers]. destruct (A k m (or_introl eq_refl)) as (v & Hv & Nv).
        pose proof (Y m v Hv) as E. destruct (sub m (S_ "name")) as [x|]; [|discriminate]. cbn [bind] in *. rewrite E. cbn [bind]. rewrite Er. cbn [bind].
        apply str_eqb_neq in Nv. rewrite Nv. eauto.
    - intros k m Hin. apply in_app_or in Hin as [Hin|[X|Hin]].
      + destruct (A k m Hin) as (v & (N & _) & _). exact N.
      + injection X as <- <-. apply B.
      + destruct (C k m Hin) as (v & N & _). exact N.
  Qed.
  Lemma in_ok name e f d kd nm bc ec c ss : dget d name = Some (Sec kd nm bc ec c ss) -> in_ name e f d = (dset d name (Sec kd nm bc ec (fst (f c)) ss), snd (f c)).
  Proof using. intro H. unfold in_. rewrite H. destruct (f c). reflexivity. Qed.
  Lemma only_one d d' ks : (forall j, ~ In j ks -> dget d' j = dget d j) -> only d d' (map (fun k => [k]) ks).
  Proof using.
    intros H p Hp. destruct p as [|j p]; [reflexivity|]. assert (E : dget d' j = dget d j).
    { apply H. intro X. destruct (Hp [j]) as [_ Y]; [apply in_map_iff; eauto|]. destruct (Y p). reflexivity. }
    destruct p as [|x p]; cbn [at_]; rewrite !look_dget, E; reflexivity.
  Qed.
  (** The gains of the tuning file are written to the first controller of the file: the second value of seven of its constants, and nothing else. *)
  Theorem C148_controller : forall d kd nm bc ec dll ss key kd' nm' bc' ec' init ss' ls k p2 i2 p3 i3 k1 k2,
    at_ d (p1 "dll") = Some (Sec kd nm bc ec dll ss) -> first_controller dll key -> at_ d [S_ "dll"; key; S_ "init"] = Some (Sec kd' nm' bc' ec' init ss') ->
    tuned ls k p2 i2 p3 i3 k1 k2 ->
    (forall c g, In (c, g) (constants k p2 i2 p3 i3 k1 k2) -> exists nm x y vs cm, at_ init (p1 c) = Some (Line nm (x :: y :: vs) cm)) ->
    exists d', import_controller F float_ fmt6E (Some ls) d = (d', Ok tt) /\
      (forall c g, In (c, g) (constants k p2 i2 p3 i3 k1 k2) -> forall nm x y vs cm, at_ init (p1 c) = Some (Line nm (x :: y :: vs) cm) ->
         at_ d' [S_ "dll"; key; S_ "init"; S_ c] = Some (Line nm (x :: fmt6E g :: vs) cm)) /\
      only d d' (map (fun c => [S_ "dll"; key; S_ "init"; S_ (fst c)]) (constants k p2 i2 p3 i3 k1 k2)).
  Proof using.
    intros d kd nm bc ec dll ss key kd' nm' bc' ec' init ss' ls k p2 i2 p3 i3 k1 k2 Hd Hc Hi Ht Hk.
    unfold p1 in *. cbn [at_] in Hd, Hi. rewrite look_dget in Hd, Hi. rewrite Hd, look_dget in Hi.
    destruct (dget dll key) as [[? ? ?|kd2 nm2 bc2 ec2 ctl ss2]|] eqn:Ek; try discriminate. rewrite look_dget in Hi.
    unfold import_controller. rewrite (in_ok _ _ _ _ _ _ _ _ _ _ Hd). destruct (controllers_first dll key Hc) as (r & ->). rewrite (tuned_gains _ _ _ _ _ _ _ _ Ht).
    set (gs := [(S_ "constant__11", k); _; _; _; _; _; _]).
    assert (EG : gs = map (fun c => (S_ (fst c), snd c)) (constants k p2 i2 p3 i3 k1 k2)) by reflexivity.
    destruct (seconds_ok gs init) as (init' & Ei & A & B).
    { nodup. }
    { intros c g Hin. rewrite EG in Hin. apply in_map_iff in Hin as ([c0 g0] & X & Hin). cbn [fst snd] in X. injection X as <- <-. destruct (Hk c0 g0 Hin) as (n0 & x & y & vs & cm & E).
      cbn [at_] in E. rewrite look_dget in E. eauto 10. }
    rewrite (in_ok _ _ _ _ _ _ _ _ _ _ Ek). rewrite (in_ok _ _ _ _ _ _ _ _ _ _ Hi). rewrite Ei. cbn [fst snd].
    eexists. split; [reflexivity|]. split.
    - intros c g Hin n0 x y vs cm E. rewrite !at_deep by discriminate. cbn [at_] in *. rewrite look_dget in *. eapply (A (S_ c) g); [|exact E].
      rewrite EG. apply in_map_iff. exists (c, g). auto.
    - assert (O := only_one init init' (map fst gs) B). set (q1 := map (fun k => [k]) (map fst gs)) in *.
      assert (N1 : q1 <> []) by (intro X0; discriminate X0). assert (N2 : under (S_ "init") q1 <> []) by (intro X0; discriminate X0).
      assert (N3 : under key (under (S_ "init") q1) <> []) by (intro X0; discriminate X0).
      assert (I1 : inside d (S_ "dll") = dll) by (unfold inside; rewrite Hd; reflexivity). assert (I2 : inside dll key = ctl) by (unfold inside; rewrite Ek; reflexivity).
      assert (I3 : inside ctl (S_ "init") = init) by (unfold inside; rewrite Hi; reflexivity). rewrite <- I3 in O.
      assert (O1 := only_deep ctl (S_ "init") kd' nm' bc' ec' init' ss' q1 N1 ltac:(rewrite Hi; exact Logic.I) O). rewrite <- I2 in O1 at 1.
      assert (O2 := only_deep dll key kd2 nm2 bc2 ec2 _ ss2 (under (S_ "init") q1) N2 ltac:(rewrite Ek; exact Logic.I) O1). rewrite <- I1 in O2 at 1.
      assert (O3 := only_deep d (S_ "dll") kd nm bc ec _ ss (under key (under (S_ "init") q1)) N3 ltac:(rewrite Hd; exact Logic.I) O2).
      eapply only_incl; [|exact O3]. intros q Hq. exact Hq.
  Qed.
  (** The constants are counted, not looked for by their numbers: a file whose eleventh constant has another number loses that one. *)
  Theorem C148_number_refuted : forall d kd nm bc ec dll ss key kd' nm' bc' ec' init ss' ls k p2 i2 p3 i3 k1 k2,
    at_ d (p1 "dll") = Some (Sec kd nm bc ec dll ss) -> first_controller dll key -> at_ d [S_ "dll"; key; S_ "init"] = Some (Sec kd' nm' bc' ec' init ss') ->
    tuned ls k p2 i2 p3 i3 k1 k2 ->
    (forall c g, In (c, g) (constants k p2 i2 p3 i3 k1 k2) -> exists nm x y vs cm, at_ init (p1 c) = Some (Line nm (x :: y :: vs) cm)) ->
    forall nm x y vs cm, at_ init (p1 "constant__11") = Some (Line nm (x :: y :: vs) cm) -> x <> S_ "11" ->
    exists d', import_controller F float_ fmt6E (Some ls) d = (d', Ok tt) /\ at_ d' [S_ "dll"; key; S_ "init"; S_ "constant__11"] = Some (Line nm (x :: fmt6E k :: vs) cm).
  Proof using.
    intros d kd nm bc ec dll ss key kd' nm' bc' ec' init ss' ls k p2 i2 p3 i3 k1 k2 Hd Hc Hi Ht Hk n0 x y vs cm E _.
    destruct (C148_controller d kd nm bc ec dll ss key kd' nm' bc' ec' init ss' ls k p2 i2 p3 i3 k1 k2 Hd Hc Hi Ht Hk) as (d' & Ed & A & _).
    exists d'. split; [exact Ed|]. apply (A "constant__11"%string k (or_introl eq_refl) n0 x y vs cm E).
  Qed.
  (** A controller with eleven constants only is refused, but the eleventh is changed all the same. *)
  Theorem C148_short_refuted : forall d kd nm bc ec dll ss key kd' nm' bc' ec' init ss' ls k p2 i2 p3 i3 k1 k2 n0 x y vs cm,
    at_ d (p1 "dll") = Some (Sec kd nm bc ec dll ss) -> first_controller dll key -> at_ d [S_ "dll"; key; S_ "init"] = Some (Sec kd' nm' bc' ec' init ss') ->
    tuned ls k p2 i2 p3 i3 k1 k2 -> at_ init (p1 "constant__11") = Some (Line n0 (x :: y :: vs) cm) -> at_ init (p1 "constant__12") = None ->
    exists d', import_controller F float_ fmt6E (Some ls) d = (d', Err KeyError) /\ at_ d' [S_ "dll"; key; S_ "init"; S_ "constant__11"] = Some (Line n0 (x :: fmt6E k :: vs) cm).
  Proof using.
    intros d kd nm bc ec dll ss key kd' nm' bc' ec' init ss' ls k p2 i2 p3 i3 k1 k2 n0 x y vs cm Hd Hc Hi Ht E1 E2.
    unfold p1 in *. cbn [at_] in Hd, Hi, E1, E2. rewrite look_dget in Hd, Hi, E1, E2. rewrite Hd, look_dget in Hi.
    destruct (dget dll key) as [[? ? ?|kd2 nm2 bc2 ec2 ctl ss2]|] eqn:Ek; try discriminate. rewrite look_dget in Hi.
    unfold import_controller. rewrite (in_ok _ _ _ _ _ _ _ _ _ _ Hd). destruct (controllers_first dll key Hc) as (r & ->). rewrite (tuned_gains _ _ _ _ _ _ _ _ Ht).
    rewrite (in_ok _ _ _ _ _ _ _ _ _ _ Ek). rewrite (in_ok _ _ _ _ _ _ _ _ _ _ Hi).
    match goal with |- context [all_ ?l init] => assert (EA : all_ l init = (dset init (S_ "constant__11") (Line n0 (x :: fmt6E k :: vs) cm), Err KeyError)) end.
    { cbn [map all_ fst snd]. unfold andthen at 1. unfold set_second at 1. rewrite E1. unfold andthen at 1. unfold set_second at 1. rewrite HTCSim_Props.dget_dset.
      change (str_eqb (S_ "constant__11") (S_ "constant__12")) with false. cbv iota. rewrite E2. reflexivity. }
    rewrite EA. cbn [fst snd].
    eexists. split; [reflexivity|]. rewrite !at_deep by discriminate. cbn [at_]. rewrite look_dget, HTCSim_Props.dget_dset, str_eqb_refl. reflexivity.
  Qed.
  (** Without libraries, without a controller or without the tuning file nothing is written and the caller is told. *)
  Theorem C148_refused : forall d lines,
    (at_ d (p1 "dll") = None -> import_controller F float_ fmt6E lines d = (d, Err KeyError)) /\
    (forall kd nm bc ec dll ss, at_ d (p1 "dll") = Some (Sec kd nm bc ec dll ss) ->
       (forall k m, In (k, m) dll -> exists v, has_name m v /\ v <> S_ "dtu_we_controller") -> import_controller F float_ fmt6E lines d = (d, Err IndexError)) /\
    (forall kd nm bc ec dll ss key, at_ d (p1 "dll") = Some (Sec kd nm bc ec dll ss) -> first_controller dll key -> import_controller F float_ fmt6E None d = (d, Err OSError2)) /\
    (forall kd nm bc ec dll ss key ls, at_ d (p1 "dll") = Some (Sec kd nm bc ec dll ss) -> first_controller dll key -> List.length ls < 10 ->
       exists e, import_controller F float_ fmt6E (Some ls) d = (d, Err e)).
  Proof using.
    intros d lines. unfold p1. cbn [at_]. rewrite look_dget. split; [|split; [|split]].
    - intro H. unfold import_controller, in_. destruct (dget d (S_ "dll")); [discriminate|reflexivity].
    - intros kd nm bc ec dll ss H N. destruct (dget d (S_ "dll")) as [n|] eqn:E; [|discriminate]. injection H as ->.
      assert (C : controllers (iter_order node_name dll) = Ok []).
      { rewrite iter_same by (intros k m I; destruct (N k m I) as (v & (X & _) & _); exact X). clear E. induction dll as [|[k m] dll IH]; [reflexivity|]. cbn [controllers].
        destruct (N k m (or_introl eq_refl)) as (v & (_ & k0 & nm0 & bc0 & ec0 & c0 & ss0 & nm' & vs & cm & -> & L) & V). cbn [sub]. unfold attr. rewrite <- look_dget, L. cbn [bind item].
        cbn [nth_error bind]. rewrite IH by (intros k1 m1 I; exact (N k1 m1 (or_intror I))). cbn [bind]. apply str_eqb_neq in V. rewrite V. reflexivity. }
      unfold import_controller. rewrite (in_ok _ _ _ _ _ _ _ _ _ _ E), C. cbn [fst snd]. rewrite dset_same by exact E. reflexivity.
    - intros kd nm bc ec dll ss key H Hc. destruct (dget d (S_ "dll")) as [n|] eqn:E; [|discriminate]. injection H as ->. destruct (controllers_first dll key Hc) as (r & C).
      unfold import_controller. rewrite (in_ok _ _ _ _ _ _ _ _ _ _ E), C. cbn [fst snd]. rewrite dset_same by exact E. reflexivity.
    - intros kd nm bc ec dll ss key ls H Hc L. destruct (dget d (S_ "dll")) as [n|] eqn:E; [|discriminate]. injection H as ->. destruct (controllers_first dll key Hc) as (r & C).
      destruct (gains F float_ ls) as [gs|e] eqn:G.
      + exfalso. unfold gains in G. do 5 (apply bind_some in G as (? & _ & G)). apply bind_some in G as (l9 & G & _). unfold nth_line in G. rewrite (proj2 (nth_error_None ls 9)) in G by (clear - L; lia). discriminate G.
      + exists e. unfold import_controller. rewrite (in_ok _ _ _ _ _ _ _ _ _ _ E), C, G. cbn [fst snd]. rewrite dset_same by exact E. reflexivity.
  Qed.
End Controller.

(** ** C147: exported turbulence *)
(** The values that the export needs: the size of the Mann box, the wind speed, the time step and the end of the simulation. *)
Record exportable (toQ : str -> option Q) (d : list (str * node)) (bu wsp dt stop : Q) (vs ws : list str) : Prop := {
  x_u : exists nm a b l cm, at_ d (p3 "wind" "mann" "box_dim_u") = Some (Line nm (a :: b :: l) cm) /\ toQ b = Some bu;
  x_v : exists nm cm, at_ d (p3 "wind" "mann" "box_dim_v") = Some (Line nm vs cm);
  x_w : exists nm cm, at_ d (p3 "wind" "mann" "box_dim_w") = Some (Line nm ws cm);
  x_s : exists nm a l cm, at_ d (p2 "wind" "wsp") = Some (Line nm (a :: l) cm) /\ toQ a = Some wsp;
  x_d : exists nm a l cm, at_ d (p3 "simulation" "newmark" "deltat") = Some (Line nm (a :: l) cm) /\ toQ a = Some dt;
  x_t : exists nm a l cm, at_ d (p2 "simulation" "time_stop") = Some (Line nm (a :: l) cm) /\ toQ a = Some stop }.
(** The start of the output, or 0. *)
Definition starts_at (toQ : str -> option Q) (d : list (str * node)) (s : str) (start : Q) : Prop :=
  toQ s = Some start /\ exists kd nm bc ec c ss, at_ d (p1 "output") = Some (Sec kd nm bc ec c ss) /\
    ((exists nm' l cm, at_ c (p1 "time") = Some (Line nm' (s :: l) cm)) \/ (at_ c (p1 "time") = None /\ s = S_ "0")).
(** Every how many steps the box is exported: the number asked, or as many as give the spacing of the box, at least one. *)
Definition sampled (sf : option Z) (bu wsp dt : Q) (z : Z) : Prop :=
  match sf with
  | Some n => if Z.eq_dec n 0 then False else z = n
  | None => ~ (wsp * dt == 0)%Q /\ (1 <= z)%Z /\ ((bu / (wsp * dt) < 1)%Q -> z = 1%Z) /\
            ((1 <= bu / (wsp * dt))%Q -> (inject_Z z <= bu / (wsp * dt) < inject_Z (z + 1))%Q)
  end.
Definition export_lines (name : string -> str) (z s n : str) (vs ws : list str) : list (str * node) :=
  [(S_ "filename_u", Line (S_ "filename_u") [name "u"%string] []); (S_ "filename_v", Line (S_ "filename_v") [name "v"%string] []);
   (S_ "filename_w", Line (S_ "filename_w") [name "w"%string] []); (S_ "samplefrq", Line (S_ "samplefrq") [z] []); (S_ "time_start", Line (S_ "time_start") [s] []);
   (S_ "nsteps", Line (S_ "nsteps") [n] []); (S_ "box_dim_v", Line (S_ "box_dim_v") vs []); (S_ "box_dim_w", Line (S_ "box_dim_w") ws [])].

Lemma dset_dset (d : list (str * node)) k a b : dset (dset d k a) k b = dset d k b.
Proof.
  induction d as [|[j n] d IH]; cbn [dset fst]; [rewrite str_eqb_refl; reflexivity|]. destruct (str_eqb j k) eqn:E; cbn [dset fst].
  - rewrite str_eqb_refl. reflexivity.
  - rewrite E, IH. reflexivity.
Qed.
Lemma free_end (d : list (str * node)) name f : forall n m, free_ending f d name n = Some m -> dmem d (name ++ ending m) = false.
Proof.
  induction f as [|f IH]; intros n m H; cbn [free_ending] in H; destruct (dmem d (name ++ ending n)) eqn:E; try discriminate; try (injection H as <-; exact E).
  exact (IH _ _ H).
Qed.
Lemma new_key_new (d : list (str * node)) name k : new_key d name = Some k -> dget d k = None /\ exists e, k = name ++ e /\ (dget d name = None -> e = []) /\ (dget d name <> None -> e <> []).
Proof.
  unfold new_key. rewrite HTCSim_Props.dmem_dget. destruct (dget d name) as [n|] eqn:E; intro H.
  - destruct (free_ending _ d name 2) as [m|] eqn:F; [|discriminate]. injection H as <-. apply free_end in F. rewrite HTCSim_Props.dmem_dget in F.
    split; [destruct (dget d (name ++ ending m)); [discriminate|reflexivity]|]. exists (ending m). repeat split; [congruence|]. intros _ X. discriminate X.
  - injection H as <-. split; [exact E|]. exists []. rewrite app_nil_r. repeat split. congruence.
Qed.
Lemma percent_ok pre post c : ~ In (ch 37) pre -> ~ In (ch 37) post -> percent (pre ++ S_ "%s" ++ post) c = Ok (pre ++ c ++ post).
Proof.
  intros A B. induction pre as [|x pre IH].
  - cbn [app S_ list_ascii_of_string percent]. change (chr_eqb "%"%char (ch 37)) with true. change (chr_eqb "s"%char (ch 115)) with true. cbv iota. cbn [andb].
    assert (X : existsb (chr_eqb (ch 37)) post = false).
    { destruct (existsb _ post) eqn:E; [|reflexivity]. apply existsb_exists in E as (y & Hy & E). apply Ascii.eqb_eq in E. subst. contradiction. }
    rewrite X. reflexivity.
  - cbn [app percent]. destruct (chr_eqb x (ch 37)) eqn:E; [apply Ascii.eqb_eq in E; subst; destruct A; left; reflexivity|].
    rewrite IH by (intro X; apply A; right; exact X). reflexivity.
Qed.
Lemma percent_none f c : ~ In (ch 37) f -> percent f c = Err TypeError.
Proof.
  induction f as [|x f IH]; intro H; [reflexivity|]. cbn [percent]. destruct (chr_eqb x (ch 37)) eqn:E; [apply Ascii.eqb_eq in E; subst; destruct H; left; reflexivity|].
  rewrite IH by (intro X; apply H; right; exact X). reflexivity.
Qed.
Lemma trunc_sampled q : let z := Z.max 1 (trunc q) in (1 <= z)%Z /\ ((q < 1)%Q -> z = 1%Z) /\ ((1 <= q)%Q -> (inject_Z z <= q < inject_Z (z + 1))%Q).
Proof.
  cbv zeta. unfold trunc. split; [lia|]. split.
  - intro H. unfold Qlt in H. cbn in H. rewrite Z.mul_1_r in H. assert (Z.quot (Qnum q) (Zpos (Qden q)) <= 0)%Z; [|lia].
    destruct (Z.le_gt_cases 0 (Qnum q)) as [L|L].
    + rewrite Z.quot_small by lia. lia.
    + rewrite <- (Z.opp_involutive (Qnum q)), Z.quot_opp_l by lia. pose proof (Z.quot_pos (- Qnum q) (Zpos (Qden q)) ltac:(lia) ltac:(lia)). lia.
  - intro H. unfold Qle in H. cbn in H. rewrite Z.mul_1_r in H. rewrite Z.quot_div_nonneg by lia.
    assert (1 <= Qnum q / Zpos (Qden q))%Z by (apply Z.div_le_lower_bound; lia). rewrite Z.max_r by lia.
    change (Qnum q / Zpos (Qden q))%Z with (Qfloor (Qnum q # Qden q)). destruct q as [a b]. cbn [Qnum Qden]. split; [apply Qfloor_le|apply Qlt_floor].
Qed.
Section Export.
  Variable toQ : str -> option Q.
  Variable ofQ : Q -> str.
  Variable ofZ : Z -> str.
  Notation exp := (turb_export toQ ofQ ofZ).
  Section Step.
    Variables (d : list (str * node)) (k : kind) (nm bc ec : str) (cont : list (str * node)) (ss : list sensor) (key : str).
    Hypothesis Hw : dget d (S_ "wind") = Some (Sec k nm bc ec cont ss).
    Hypothesis Hkey : new_key cont (S_ "turb_export") = Some key.
    Definition D (e : list (str * node)) : list (str * node) := dset d (S_ "wind") (Sec k nm bc ec (dset cont key (Sec Plain (S_ "turb_export") [] [] e [])) ss).
    Lemma step f e : in_export key f (D e) = (D (fst (f e)), snd (f e)).
    Proof using.
      unfold in_export. rewrite (in_ok (S_ "wind") TypeError _ (D e) k nm bc ec (dset cont key (Sec Plain (S_ "turb_export") [] [] e [])) ss)
        by (unfold D; rewrite HTCSim_Props.dget_dset, str_eqb_refl; reflexivity).
      rewrite (in_ok key TypeError f _ Plain (S_ "turb_export") [] [] e []) by (rewrite HTCSim_Props.dget_dset, str_eqb_refl; reflexivity).
      cbn [fst snd]. unfold D. rewrite !dset_dset. reflexivity.
    Qed.
    Lemma key_other j : (exists c t, j = c :: t /\ c <> "t"%char) -> dget (dset cont key (Sec Plain (S_ "turb_export") [] [] [] [])) j = dget cont j /\ key <> j.
    Proof using Hkey.
      intros (c & t & -> & Hc). destruct (new_key_new _ _ _ Hkey) as (_ & e & -> & _). assert (X : S_ "turb_export" ++ e <> c :: t) by (intro X; injection X as X _; congruence).
      split; [|exact X]. rewrite HTCSim_Props.dget_dset. apply str_eqb_neq in X. rewrite X. reflexivity.
    Qed.
    Lemma attr_other e a : str_eqb (S_ "wind") a = false -> attr (D e) a = attr d a.
    Proof using. intro H. unfold attr, D. rewrite HTCSim_Props.dget_dset, H. reflexivity. Qed.
    Lemma sub_wind e j : (exists c t, j = c :: t /\ c <> "t"%char) -> (n <- attr (D e) (S_ "wind") ;; sub n j) = (n <- attr d (S_ "wind") ;; sub n j).
    Proof using Hw Hkey.
      intro H. unfold attr at 1. unfold D. rewrite HTCSim_Props.dget_dset, str_eqb_refl. cbn [bind sub]. unfold attr at 2. rewrite Hw. cbn [bind sub]. unfold attr.
      destruct H as (c & t & -> & Hc). rewrite HTCSim_Props.dget_dset. destruct (str_eqb key (c :: t)) eqn:E; [|reflexivity].
      apply str_eqb_eq in E. destruct (key_other (c :: t)) as [_ X]; [eauto|contradiction].
    Qed.
    Lemma bind_bind {A B C} (r : res A) (f : A -> res B) (g : B -> res C) : (y <- (x <- r ;; f x) ;; g y) = (x <- r ;; y <- f x ;; g y).
    Proof using. destruct r; reflexivity. Qed.
    Lemma deltat_D e : deltat toQ (D e) = deltat toQ d.
    Proof using. unfold deltat, value3. rewrite attr_other by reflexivity. reflexivity. Qed.
    Lemma wind2_D e b i : (exists c t, S_ b = c :: t /\ c <> "t"%char) -> value2 "wind" b i (D e) = value2 "wind" b i d.
    Proof using Hw Hkey. intro H. unfold value2. rewrite <- !bind_bind, sub_wind by exact H. reflexivity. Qed.
    Lemma mann_D {A} e (g : node -> res A) : (n <- attr (D e) (S_ "wind") ;; m <- sub n (S_ "mann") ;; g m) = (n <- attr d (S_ "wind") ;; m <- sub n (S_ "mann") ;; g m).
    Proof using Hw Hkey. rewrite <- !bind_bind, sub_wind; [reflexivity|]. exists "m"%char. eexists. split; [reflexivity|discriminate]. Qed.
    Lemma sample_D e sf : sample toQ sf (D e) = sample toQ sf d.
    Proof using Hw Hkey.
      unfold sample. unfold value3 at 1 2. rewrite mann_D. rewrite (wind2_D e "wsp" 0) by (exists "w"%char; eexists; split; [reflexivity|discriminate]). rewrite deltat_D. reflexivity.
    Qed.
    Lemma start_D e : export_start (D e) = export_start d.
    Proof using. unfold export_start. rewrite attr_other by reflexivity. reflexivity. Qed.
    Lemma steps_D e s : export_steps toQ s (D e) = export_steps toQ s d.
    Proof using. unfold export_steps, value2. rewrite attr_other, deltat_D by reflexivity. reflexivity. Qed.
    Lemma dim_D e c : mann_dim c (D e) = mann_dim c d.
    Proof using Hw Hkey. unfold mann_dim. apply mann_D. Qed.
  End Step.
  Lemma at2 d a b n : at_ d (p2 a b) = Some n -> (m <- attr d (S_ a) ;; sub m (S_ b)) = Ok n.
  Proof using.
    unfold p2. cbn [at_]. rewrite look_dget. unfold attr at 1. destruct (dget d (S_ a)) as [[? ? ?|? ? ? ? c ?]|]; try discriminate. rewrite look_dget. intro H.
    cbn [bind sub]. unfold attr. rewrite H. reflexivity.
  Qed.
  Lemma at3 d a b c n : at_ d (p3 a b c) = Some n -> (m <- attr d (S_ a) ;; o <- sub m (S_ b) ;; sub o (S_ c)) = Ok n.
  Proof using.
    unfold p3. cbn [at_]. rewrite look_dget. unfold attr at 1. destruct (dget d (S_ a)) as [[? ? ?|? ? ? ? e ?]|]; try discriminate. rewrite look_dget. intro H.
    cbn [bind sub]. unfold attr at 1. destruct (dget e (S_ b)) as [[? ? ?|? ? ? ? f ?]|]; try discriminate. rewrite look_dget in H. cbn [bind sub]. unfold attr. rewrite H. reflexivity.
  Qed.
  Lemma val2 d a b i nm vs cm v : at_ d (p2 a b) = Some (Line nm vs cm) -> nth_error vs i = Some v -> value2 a b i d = Ok v.
  Proof using. intros H E. apply at2 in H. unfold value2. rewrite <- bind_bind, H. cbn [bind item]. rewrite E. reflexivity. Qed.
  Lemma val3 d a b c i nm vs cm v : at_ d (p3 a b c) = Some (Line nm vs cm) -> nth_error vs i = Some v -> value3 a b c i d = Ok v.
  Proof using.
    intros H E. apply at3 in H. unfold value3. destruct (attr d (S_ a)) as [m|]; [|discriminate]. cbn [bind] in *. destruct (sub m (S_ b)) as [o|]; [|discriminate]. cbn [bind] in *.
    rewrite H. cbn [bind item]. rewrite E. reflexivity.
  Qed.
  Lemma dim_ok d c nm vs cm : at_ d [S_ "wind"; S_ "mann"; S_ "box_dim_" ++ c] = Some (Line nm vs cm) -> mann_dim c d = Ok vs.
  Proof using.
    cbn [at_]. rewrite look_dget. unfold mann_dim, attr at 1. destruct (dget d (S_ "wind")) as [[? ? ?|? ? ? ? e ?]|]; try discriminate. rewrite look_dget. intro H.
    cbn [bind sub]. unfold attr at 1. destruct (dget e (S_ "mann")) as [[? ? ?|? ? ? ? f ?]|]; try discriminate. rewrite look_dget in H. cbn [bind sub]. unfold attr. rewrite H. reflexivity.
  Qed.
  Lemma sample_ok sf d bu wsp dt stop vs ws z : exportable toQ d bu wsp dt stop vs ws -> sample toQ sf d = Ok z ->
    match sf with Some n => n <> 0%Z -> z = n | None => sampled None bu wsp dt z end.
  Proof using.
    intros [(? & a & b & l & ? & U & Ub) _ _ (? & a1 & l1 & ? & S1 & S1q) (? & a2 & l2 & ? & D1 & D1q) _] H. destruct sf as [[|p|p]|]; cbn [sample] in H; try (intro; congruence).
    unfold deltat in H. rewrite (val3 d _ _ _ 1 _ _ _ b U eq_refl), (val2 d _ _ 0 _ _ _ a1 S1 eq_refl), (val3 d _ _ _ 0 _ _ _ a2 D1 eq_refl) in H. cbn [bind] in H.
    unfold number in H. rewrite Ub, S1q, D1q in H. cbn [bind] in H. unfold divide in H. destruct (Qeq_bool (wsp * dt) 0) eqn:E; [discriminate|]. cbn [bind] in H. injection H as <-.
    unfold sampled. split; [intro X; apply Qeq_bool_iff in X; congruence|]. apply trunc_sampled.
  Qed.
  Lemma sample_some sf d bu wsp dt stop vs ws : exportable toQ d bu wsp dt stop vs ws -> match sf with Some n => n <> 0%Z | None => ~ (wsp * dt == 0)%Q end ->
    exists z, sample toQ sf d = Ok z /\ sampled sf bu wsp dt z.
  Proof using.
    intros X H. destruct sf as [n|].
    - exists n. split; [destruct n; [congruence|reflexivity|reflexivity]|]. cbn [sampled]. destruct (Z.eq_dec n 0); [contradiction|reflexivity].
    - assert (Y : exists z, sample toQ None d = Ok z).
      { destruct X as [(? & a & b & l & ? & U & Ub) _ _ (? & a1 & l1 & ? & S1 & S1q) (? & a2 & l2 & ? & D1 & D1q) _]. cbn [sample].
        unfold deltat. rewrite (val3 d _ _ _ 1 _ _ _ b U eq_refl), (val2 d _ _ 0 _ _ _ a1 S1 eq_refl), (val3 d _ _ _ 0 _ _ _ a2 D1 eq_refl). cbn [bind].
        unfold number. rewrite Ub, S1q, D1q. cbn [bind]. unfold divide. destruct (Qeq_bool (wsp * dt) 0) eqn:E; [apply Qeq_bool_eq in E; contradiction|]. cbn [bind]. eauto. }
      destruct Y as (z & Y). exists z. split; [exact Y|]. exact (sample_ok None d bu wsp dt stop vs ws z X Y).
  Qed.
  Lemma start_ok d s start : starts_at toQ d s start -> export_start d = Ok s.
  Proof using.
    intros (_ & kd & nm & bc & ec & c & ss & H & T). unfold p1 in *. cbn [at_] in *. rewrite look_dget in *. unfold export_start, attr. rewrite H. cbn [bind has sub].
    rewrite HTCSim_Props.dmem_dget. unfold attr. destruct T as [(nm' & l & cm & T)|[T ->]]; rewrite ?look_dget in T; rewrite T; reflexivity.
  Qed.
  (** The export is a new section of the wind section, under a key that was not used; it has the three files, the sampling, the start of the output, the
      number of steps to the end of the simulation and the sizes of the Mann box; nothing else is changed. *)
  Theorem C147_exported : forall d pre post sf bu wsp dt stop vs ws s start,
    exportable toQ d bu wsp dt stop vs ws -> starts_at toQ d s start -> ~ In (ch 37) pre -> ~ In (ch 37) post ->
    match sf with Some n => n <> 0%Z | None => ~ (wsp * dt == 0)%Q end -> ~ (dt == 0)%Q ->
    exists d' key z, exp (pre ++ S_ "%s" ++ post) sf d = (d', Ok tt) /\ at_ d [S_ "wind"; key] = None /\
      (at_ d (p2 "wind" "turb_export") = None -> key = S_ "turb_export") /\ sampled sf bu wsp dt z /\
      at_ d' [S_ "wind"; key] = Some (Sec Plain (S_ "turb_export") [] []
        (export_lines (fun c => pre ++ S_ c ++ post) (ofZ z) s (ofQ ((stop - start) / dt)%Q) vs ws) []) /\
      only d d' [[S_ "wind"; key]].
  Proof using.
    intros d pre post sf bu wsp dt stop vs ws s start X HS A B Hsf Hdt.
    destruct (sample_some sf d bu wsp dt stop vs ws X Hsf) as (z & Ez & Sz). pose proof (start_ok d s start HS) as Es.
    assert (En : export_steps toQ s d = Ok ((stop - start) / dt)%Q).
    { destruct X as [_ _ _ _ (? & a2 & l2 & ? & D1 & D1q) (? & a3 & l3 & ? & T1 & T1q)]. unfold export_steps, deltat.
      rewrite (val2 d _ _ 0 _ _ _ a3 T1 eq_refl), (val3 d _ _ _ 0 _ _ _ a2 D1 eq_refl). cbn [bind]. unfold number. rewrite T1q, (proj1 HS), D1q. cbn [bind].
      unfold divide. destruct (Qeq_bool dt 0) eqn:E; [apply Qeq_bool_eq in E; contradiction|reflexivity]. }
    assert (Hw : exists k nm bc ec cont ss, dget d (S_ "wind") = Some (Sec k nm bc ec cont ss)).
    { destruct X as [_ _ _ (? & a1 & l1 & ? & S1 & _) _ _]. unfold p2 in S1. cbn [at_] in S1. rewrite look_dget in S1.
      destruct (dget d (S_ "wind")) as [[? ? ?|? ? ? ? ? ?]|]; try discriminate. eauto 10. }
    destruct Hw as (k & nm & bc & ec & cont & ss & Hw).
    destruct (new_key cont (S_ "turb_export")) as [key|] eqn:Hkey.
    2:{ unfold new_key in Hkey. destruct (dmem cont (S_ "turb_export")); [|discriminate]. destruct (free_ending _ cont _ 2) eqn:F; [discriminate|]. exfalso. revert F. apply HTC_Names.free_enough. }
    set (n := ofQ ((stop - start) / dt)%Q). set (L := export_lines (fun c => pre ++ S_ c ++ post) (ofZ z) s n vs ws). set (DD := D d k nm bc ec cont ss key).
    destruct X as [_ (? & ? & V1) (? & ? & W1) _ _ _]. pose proof (dim_ok d (S_ "v") _ _ _ V1) as Ev. pose proof (dim_ok d (S_ "w") _ _ _ W1) as Ew.
    assert (ST : forall f i, f (firstn i L) = (firstn (S i) L, Ok tt) -> in_export key f (DD (firstn i L)) = (DD (firstn (S i) L), Ok tt)).
    { intros f i E. unfold DD. rewrite step, E. reflexivity. }
    destruct (new_key_new _ _ _ Hkey) as (Nk & e & Ke & Ke1 & _).
    exists (DD L), key, z. split; [|split; [|split; [|split; [exact Sz|split]]]].
    - unfold turb_export. rewrite Hw, Hkey. fold (D d k nm bc ec cont ss key []). fold DD. change (DD []) with (DD (firstn 0 L)).
      cbn [uvw map all_]. unfold andthen, with_.
      rewrite (percent_ok pre post (S_ "u") A B), (percent_ok pre post (S_ "v") A B), (percent_ok pre post (S_ "w") A B).
      rewrite (ST (line_ (S_ "filename_" ++ S_ "u") [pre ++ S_ "u" ++ post] []) 0) by reflexivity.
      rewrite (ST (line_ (S_ "filename_" ++ S_ "v") [pre ++ S_ "v" ++ post] []) 1) by reflexivity.
      rewrite (ST (line_ (S_ "filename_" ++ S_ "w") [pre ++ S_ "w" ++ post] []) 2) by reflexivity. unfold done.
      unfold DD at 1. rewrite (sample_D d k nm bc ec cont ss key Hw Hkey), Ez. fold DD. rewrite (ST (put (S_ "samplefrq") [ofZ z]) 3) by reflexivity.
      unfold DD at 1. rewrite start_D, Es. fold DD. rewrite (ST (put (S_ "time_start") [s]) 4) by reflexivity.
      unfold DD at 1. rewrite steps_D, En. fold DD. fold n. rewrite (ST (put (S_ "nsteps") [n]) 5) by reflexivity.
      unfold DD at 1. rewrite (dim_D d k nm bc ec cont ss key Hw Hkey), Ev. fold DD. rewrite (ST (line_ (S_ "box_dim_" ++ S_ "v") vs []) 6) by reflexivity.
      unfold DD at 1. rewrite (dim_D d k nm bc ec cont ss key Hw Hkey), Ew. fold DD. rewrite (ST (line_ (S_ "box_dim_" ++ S_ "w") ws []) 7) by reflexivity. reflexivity.
    - cbn [at_]. rewrite look_dget, Hw, look_dget. exact Nk.
    - unfold p2. cbn [at_]. rewrite look_dget, Hw, look_dget. intro Y. rewrite Ke, (Ke1 Y), app_nil_r. reflexivity.
    - unfold DD, D. rewrite at_deep by discriminate. cbn [at_]. rewrite look_dget, HTCSim_Props.dget_dset, str_eqb_refl. reflexivity.
    - unfold DD, D. apply (only_deep d (S_ "wind") k nm bc ec _ ss [[key]]); [discriminate|rewrite Hw; exact Logic.I|].
      unfold inside. rewrite Hw. apply (only_one cont _ [key]). intros j Hj. rewrite HTCSim_Props.dget_dset. destruct (str_eqb key j) eqn:E; [|reflexivity].
      apply str_eqb_eq in E. destruct Hj. left. exact E.
  Qed.
  Lemma export_key (cont : list (str * node)) : exists key, new_key cont (S_ "turb_export") = Some key.
  Proof using.
    unfold new_key. destruct (dmem cont (S_ "turb_export")); [|eexists; reflexivity]. destruct (free_ending _ cont _ 2) eqn:F; [cbn [option_map]; eexists; reflexivity|]. exfalso. revert F. apply HTC_Names.free_enough.
  Qed.
  Lemma only_D d k nm bc ec cont ss key e : dget d (S_ "wind") = Some (Sec k nm bc ec cont ss) -> only d (D d k nm bc ec cont ss key e) [[S_ "wind"; key]].
  Proof using.
    intro Hw. unfold D. apply (only_deep d (S_ "wind") k nm bc ec _ ss [[key]]); [discriminate|rewrite Hw; exact Logic.I|].
    unfold inside. rewrite Hw. apply (only_one cont _ [key]). intros j Hj. rewrite HTCSim_Props.dget_dset. destruct (str_eqb key j) eqn:E; [|reflexivity].
    apply str_eqb_eq in E. destruct Hj. left. exact E.
  Qed.
  (** Without a Mann box the export is refused unless the sampling is given, and the new section stays in the file, with its three files only. *)
  Theorem C147_left_refuted : forall d k nm bc ec cont ss pre post, at_ d (p1 "wind") = Some (Sec k nm bc ec cont ss) -> at_ cont (p1 "mann") = None ->
    ~ In (ch 37) pre -> ~ In (ch 37) post ->
    exists d' key, exp (pre ++ S_ "%s" ++ post) None d = (d', Err KeyError) /\ at_ d [S_ "wind"; key] = None /\
      at_ d' [S_ "wind"; key] = Some (Sec Plain (S_ "turb_export") [] []
        (map (fun c => (S_ "filename_" ++ S_ c, Line (S_ "filename_" ++ S_ c) [pre ++ S_ c ++ post] [])) ["u"; "v"; "w"]%string) []) /\
      only d d' [[S_ "wind"; key]].
  Proof using.
    intros d k nm bc ec cont ss pre post Hw Hm A B. unfold p1 in Hw, Hm. cbn [at_] in Hw, Hm. rewrite look_dget in Hw, Hm. destruct (export_key cont) as (key & Hkey).
    set (L := map (fun c => (S_ "filename_" ++ S_ c, Line (S_ "filename_" ++ S_ c) [pre ++ S_ c ++ post] [])) ["u"; "v"; "w"]%string).
    set (DD := D d k nm bc ec cont ss key). destruct (new_key_new _ _ _ Hkey) as (Nk & e & Ke & _).
    assert (ST : forall f i, f (firstn i L) = (firstn (S i) L, Ok tt) -> in_export key f (DD (firstn i L)) = (DD (firstn (S i) L), Ok tt)).
    { intros f i E. unfold DD. rewrite step, E. reflexivity. }
    exists (DD L), key. split; [|split; [|split]].
    - unfold turb_export. rewrite Hw, Hkey. fold (D d k nm bc ec cont ss key []). fold DD. change (DD []) with (DD (firstn 0 L)).
      cbn [uvw map all_]. unfold andthen, with_.
      rewrite (percent_ok pre post (S_ "u") A B), (percent_ok pre post (S_ "v") A B), (percent_ok pre post (S_ "w") A B).
      rewrite (ST (line_ (S_ "filename_" ++ S_ "u") [pre ++ S_ "u" ++ post] []) 0) by reflexivity.
      rewrite (ST (line_ (S_ "filename_" ++ S_ "v") [pre ++ S_ "v" ++ post] []) 1) by reflexivity.
      rewrite (ST (line_ (S_ "filename_" ++ S_ "w") [pre ++ S_ "w" ++ post] []) 2) by reflexivity. unfold done.
      unfold DD at 1. rewrite (sample_D d k nm bc ec cont ss key Hw Hkey). cbn [sample]. unfold value3, attr at 1. rewrite Hw. cbn [bind sub]. unfold attr. rewrite Hm. reflexivity.
    - cbn [at_]. rewrite look_dget, Hw, look_dget. exact Nk.
    - unfold DD, D. rewrite at_deep by discriminate. cbn [at_]. rewrite look_dget, HTCSim_Props.dget_dset, str_eqb_refl. reflexivity.
    - apply only_D. exact Hw.
  Qed.
  (** A file name without %s is refused, and an empty section stays in the file. *)
  Theorem C147_name_refuted : forall d k nm bc ec cont ss f sf, at_ d (p1 "wind") = Some (Sec k nm bc ec cont ss) -> ~ In (ch 37) f ->
    exists d' key, exp f sf d = (d', Err TypeError) /\ at_ d [S_ "wind"; key] = None /\
      at_ d' [S_ "wind"; key] = Some (Sec Plain (S_ "turb_export") [] [] [] []) /\ only d d' [[S_ "wind"; key]].
  Proof using.
    intros d k nm bc ec cont ss f sf Hw A. unfold p1 in Hw. cbn [at_] in Hw. rewrite look_dget in Hw. destruct (export_key cont) as (key & Hkey).
    destruct (new_key_new _ _ _ Hkey) as (Nk & e & Ke & _). exists (D d k nm bc ec cont ss key []), key. split; [|split; [|split]].
    - unfold turb_export. rewrite Hw, Hkey. fold (D d k nm bc ec cont ss key []). cbn [uvw map all_]. unfold andthen, with_. rewrite percent_none by exact A. reflexivity.
    - cbn [at_]. rewrite look_dget, Hw, look_dget. exact Nk.
    - unfold D. rewrite at_deep by discriminate. cbn [at_]. rewrite look_dget, HTCSim_Props.dget_dset, str_eqb_refl. reflexivity.
    - apply only_D. exact Hw.
  Qed.
  (** The number of steps is not a whole number unless the time step divides the time: it is written as it is. *)
  Theorem C147_steps_refuted : forall d pre post sf bu wsp dt stop vs ws s start,
    exportable toQ d bu wsp dt stop vs ws -> starts_at toQ d s start -> ~ In (ch 37) pre -> ~ In (ch 37) post ->
    match sf with Some n => n <> 0%Z | None => ~ (wsp * dt == 0)%Q end -> ~ (dt == 0)%Q -> (forall m, ~ (inject_Z m * dt == stop - start)%Q) ->
    exists d' key q, exp (pre ++ S_ "%s" ++ post) sf d = (d', Ok tt) /\
      at_ d' [S_ "wind"; key; S_ "nsteps"] = Some (Line (S_ "nsteps") [ofQ q] []) /\ forall m, ~ (q == inject_Z m)%Q.
  Proof using.
    intros d pre post sf bu wsp dt stop vs ws s start X HS A B Hsf Hdt Hm.
    destruct (C147_exported d pre post sf bu wsp dt stop vs ws s start X HS A B Hsf Hdt) as (d' & key & z & E & _ & _ & _ & L & _).
    exists d', key, ((stop - start) / dt)%Q. split; [exact E|]. split.
    - cbn [at_] in *. destruct (look d' (S_ "wind")) as [[? ? ?|? ? ? ? ? ?]|]; try discriminate. rewrite L. reflexivity.
    - intros m Y. apply (Hm m). rewrite <- Y. field. exact Hdt.
  Qed.
  Theorem C147_no_wind : forall d filename sf, at_ d (p1 "wind") = None -> exp filename sf d = (d, Err KeyError).
  Proof using. intros d filename sf H. unfold p1 in H. cbn [at_] in H. rewrite look_dget in H. unfold turb_export. destruct (dget d (S_ "wind")); [discriminate|reflexivity]. Qed.
End Export.
(** Two files that differ in one section only, whose name is not that of an output. *)
Lemma filter_dset (f : node -> bool) (d : list (str * node)) k n0 n : dget d k = Some n0 -> f n0 = false -> f n = false -> filter f (map snd (dset d k n)) = filter f (map snd d).
Proof.
  unfold dget. induction d as [|[a m] d IH]; cbn [find dset fst]; [discriminate|]. destruct (str_eqb a k) eqn:E; intros H F0 F1; cbn [map snd filter].
  - injection H as ->. rewrite F0, F1. reflexivity.
  - rewrite IH by assumption. reflexivity.
Qed.
Lemma filter_keys_dset (f : str -> bool) (d : list (str * node)) k n : f k = false -> filter (fun p => f (fst p)) (dset d k n) = filter (fun p => f (fst p)) d.
Proof.
  intro F. induction d as [|[a m] d IH]; cbn [dset fst filter]; [rewrite F; reflexivity|]. destruct (str_eqb a k) eqn:E; cbn [filter fst].
  - apply str_eqb_eq in E. subst. rewrite F. reflexivity.
  - rewrite IH. reflexivity.
Qed.
Lemma map_res_eq {A B} (f g : A -> res B) l : (forall x, In x l -> f x = g x) -> map_res f l = map_res g l.
Proof. induction l as [|x l IH]; intro H; [reflexivity|]. cbn [map_res]. rewrite (H x (or_introl eq_refl)), IH; [reflexivity|]. intros y Hy. apply H. right. exact Hy. Qed.
(** The files of a second export are not among the files that the simulation is said to write. *)
Theorem C147_second_refuted : forall num toQ ofQ ofZ d pre post sf bu wsp dt stop vs ws s start,
  exportable toQ d bu wsp dt stop vs ws -> starts_at toQ d s start -> ~ In (ch 37) pre -> ~ In (ch 37) post ->
  match sf with Some n => n <> 0%Z | None => ~ (wsp * dt == 0)%Q end -> ~ (dt == 0)%Q ->
  at_ d (p2 "wind" "turb_export") <> None -> (forall n, at_ d (p1 "wind") = Some n -> node_name n = S_ "wind") ->
  exists d' key, turb_export toQ ofQ ofZ (pre ++ S_ "%s" ++ post) sf d = (d', Ok tt) /\
    (exists cm, at_ d' [S_ "wind"; key; S_ "filename_u"] = Some (Line (S_ "filename_u") [pre ++ S_ "u" ++ post] cm)) /\ output_files num d' = output_files num d.
Proof.
  intros num toQ ofQ ofZ d pre post sf bu wsp dt stop vs ws s start X HS A B Hsf Hdt Ht Hn.
  destruct (C147_exported toQ ofQ ofZ d pre post sf bu wsp dt stop vs ws s start X HS A B Hsf Hdt) as (d' & key & z & E & N & _ & _ & L & O).
  exists d', key. split; [exact E|]. split.
  { exists []. cbn [at_] in *. destruct (look d' (S_ "wind")) as [[? ? ?|? ? ? ? ? ?]|]; try discriminate. rewrite L. reflexivity. }
  assert (Hw : exists k bc ec cont ss, dget d (S_ "wind") = Some (Sec k (S_ "wind") bc ec cont ss)).
  { unfold p2, p1 in *. cbn [at_] in *. rewrite look_dget in *. destruct (dget d (S_ "wind")) as [[? ? ?|k nm bc ec cont ss]|]; try congruence.
    specialize (Hn _ eq_refl). cbn [node_name] in Hn. subst. eauto 10. }
  destruct Hw as (k & bc & ec & cont & ss & Hw).
  assert (Hkey : exists key', new_key cont (S_ "turb_export") = Some key') by apply export_key. destruct Hkey as (key' & Hkey).
  assert (Hd' : exists e, d' = D d k (S_ "wind") bc ec cont ss key' e).
  { clear - E Hw Hkey. unfold turb_export in E. rewrite Hw, Hkey in E. fold (D d k (S_ "wind") bc ec cont ss key' []) in E.
    assert (G : forall f, (forall e, exists e' r, f (D d k (S_ "wind") bc ec cont ss key' e) = (D d k (S_ "wind") bc ec cont ss key' e', r)) ->
      forall g, (forall e, exists e' r, g (D d k (S_ "wind") bc ec cont ss key' e) = (D d k (S_ "wind") bc ec cont ss key' e', r)) ->
      forall e, exists e' r, (f >>> g) (D d k (S_ "wind") bc ec cont ss key' e) = (D d k (S_ "wind") bc ec cont ss key' e', r)).
    { intros f F g G e. destruct (F e) as (e1 & r1 & E1). unfold andthen. rewrite E1. destruct r1; [apply G|eauto]. }
    assert (I0 : forall f e, exists e' r, in_export key' f (D d k (S_ "wind") bc ec cont ss key' e) = (D d k (S_ "wind") bc ec cont ss key' e', r)) by (intros; rewrite step; eauto).
    assert (W : forall {T} (get : dict_ -> res T) h, (forall a e, exists e' r, h a (D d k (S_ "wind") bc ec cont ss key' e) = (D d k (S_ "wind") bc ec cont ss key' e', r)) ->
      forall e, exists e' r, with_ get h (D d k (S_ "wind") bc ec cont ss key' e) = (D d k (S_ "wind") bc ec cont ss key' e', r)).
    { intros T get h H e. unfold with_. destruct (get _); [apply H|eauto]. }
    assert (DN : forall e, exists e' r, done (D d k (S_ "wind") bc ec cont ss key' e) = (D d k (S_ "wind") bc ec cont ss key' e', r)) by (intro e; unfold done; eauto).
    match type of E with ?f ?x = _ => assert (Z : exists e' r, f x = (D d k (S_ "wind") bc ec cont ss key' e', r)) end.
    { cbn [uvw map all_]. repeat first [apply G | apply W; intros ? | apply I0 | apply DN]; intros; repeat first [apply G | apply W; intros ? | apply I0 | apply DN]. }
    destruct Z as (e' & r & Z). rewrite Z in E. injection E as <- _. eauto. }
  destruct Hd' as (e & ->). set (d' := D d k (S_ "wind") bc ec cont ss key' e).
  assert (G1 : forall a, str_eqb (S_ "wind") a = false -> dget d' a = dget d a) by (intros a Ha; unfold d', D; rewrite HTCSim_Props.dget_dset, Ha; reflexivity).
  assert (G2 : forall c, get3 d' (S_ "wind") (S_ "turb_export") c = get3 d (S_ "wind") (S_ "turb_export") c).
  { intro c. unfold get3, d', D. rewrite HTCSim_Props.dget_dset, str_eqb_refl, Hw, HTCSim_Props.dget_dset. destruct (str_eqb key' (S_ "turb_export")) eqn:Y; [|reflexivity].
    apply str_eqb_eq in Y. destruct (new_key_new _ _ _ Hkey) as (Y2 & _). rewrite Y in Y2. unfold p2 in Ht. cbn [at_] in Ht. rewrite look_dget, Hw, look_dget in Ht. congruence. }
  unfold output_files.
  rewrite (map_res_eq (fun p => get2 d' (fst p) (snd p)) (fun p => get2 d (fst p) (snd p))).
  2:{ intros [a b] Hin. unfold get2. cbn [fst snd]. rewrite G1; [reflexivity|]. cbn in Hin. repeat (destruct Hin as [Hin|Hin]; [injection Hin as <- _; reflexivity|]). contradiction. }
  rewrite (map_res_eq (fun c => get3 d' (S_ "wind") (S_ "turb_export") (S_ "filename_" ++ S_ c)) (fun c => get3 d (S_ "wind") (S_ "turb_export") (S_ "filename_" ++ S_ c))) by (intros; apply G2).
  assert (GM : forall c, modes num d' c = modes num d c) by (intro c; unfold modes, has2, attr; rewrite (G1 (S_ "new_htc_structure") eq_refl); reflexivity).
  rewrite !GM. assert (GR : res_file_lst num d' = res_file_lst num d).
  { unfold res_file_lst, d', D. rewrite (filter_dset (fun n => output_name (node_name n)) d (S_ "wind") _ _ Hw); reflexivity. }
  rewrite GR. unfold d' at 1, D. rewrite (filter_keys_dset (fun k => startswith k (S_ "output_at_time")) d (S_ "wind")) by reflexivity. reflexivity.
Qed.

(** ** Examples *)
Notation ex_ofQ := HTCBody_Props.ex_ofQ.
Notation ex_toQ := HTCBody_Props.ex_toQ.
Notation ones := HTCBody_Props.ones.
Definition ex_num (s : str) : option (res str) := match s with c :: _ => if chr_eqb c "+"%char || chr_eqb c "-"%char then Some (Ok s) else None | [] => None end.
Definition ex_ofZ (z : Z) : str := ex_ofQ (inject_Z z).
Definition ex_4f (q : Q) : str := ex_ofQ (Qfloor (q * 10000) # 10000)%Q.
Lemma ones_token n s : forallb (fun c => negb (is_space c)) s = true -> forallb (fun c => negb (is_space c)) (ones n ++ s) = true.
Proof. intro H. induction n as [|n IH]; [exact H|exact IH]. Qed.
Lemma ex_token q : is_token (ex_ofQ q) = true /\ ex_num (ex_ofQ q) = Some (Ok (ex_ofQ q)).
Proof.
  unfold HTCBody_Props.ex_ofQ, is_token, ex_num. destruct (Z.ltb (Qnum q) 0); cbn [nonempty negb andb forallb is_space chr_eqb]; (split; [|reflexivity]);
    apply (ones_token _ ("/"%char :: ones _)); cbn [forallb]; rewrite <- (app_nil_r (ones _)); apply (ones_token _ []); reflexivity.
Qed.
(** There are texts of numbers that meet the hypotheses on them. *)
Example ex_texts : number_texts ex_num ex_ofZ ex_4f ex_4f.
Proof. split; intros; apply ex_token. Qed.
Example ex_decimals : (forall q, exists z, ex_toQ (ex_4f q) = Some (z # 10000)%Q) /\ forall z, ex_toQ (ex_ofZ z) = Some (inject_Z z).
Proof. split; intros; unfold ex_4f, ex_ofZ; [eexists|]; apply (proj1 HTCBody_Props.ex_faithful). Qed.
Definition l_ (k : string) (vs : list str) : str * node := (S_ k, Line (S_ k) vs (S_ "note")).
Definition s_ (k : string) (c : list (str * node)) : str * node := (S_ k, Sec Plain (S_ k) [] [] c []).
Definition n_ (z : Z) : str := ex_ofZ z.
Definition ex_numbers : list string :=
  [""; "__2"; "__3"; "__4"; "__5"; "__6"; "__7"; "__8"; "__9"; "__10"; "__11"; "__12"; "__13"; "__14"; "__15"; "__16"; "__17"; "__18"; "__19"; "__20"; "__21"; "__22"]%string.
Definition ex_init : list (str * node) := map (fun e => (S_ "constant" ++ S_ e, Line (S_ "constant") [n_ 7; n_ 0] (S_ "a gain"))) ex_numbers.
Definition ex_file : list (str * node) :=
  [s_ "wind" [l_ "wsp" [n_ 8]; l_ "center_pos0" [n_ 0; n_ 0; n_ (-9)]; l_ "shear_format" [n_ 3; n_ 1]; l_ "turb_format" [n_ 2];
     s_ "mann" [l_ "box_dim_u" [n_ 4; n_ 40]; l_ "box_dim_v" [n_ 3; n_ 5]; l_ "box_dim_w" [n_ 2; n_ 6]; l_ "dont_scale" [n_ 1]]];
   s_ "simulation" [l_ "time_stop" [n_ 16]; s_ "newmark" [l_ "deltat" [n_ 2]]]; s_ "output" [l_ "time" [n_ 3; n_ 16]];
   s_ "dll" [s_ "type2_dll" [l_ "name" [S_ "servo"]]; s_ "type2_dll__2" [l_ "name" [S_ "dtu_we_controller"]; s_ "init" ex_init]]].
Example ex_ready : ready ex_file /\ ready [] /\ section_place ex_file (p1 "hydro").
Proof. split; [|split]; [repeat split; repeat (constructor; [vm_compute; exact Logic.I|]); constructor| |exact Logic.I]. repeat split. repeat (constructor; [exact Logic.I|]). constructor. Qed.
Example ex_words : Forall (a_word ex_num) [S_ "u.bin"; S_ "v.bin"; S_ "w.bin"] /\
  named (fun s => s) (Stem (S_ "t")) (S_ "1001") (map (fun c => S_ "./turb/" ++ S_ "t" ++ S_ "_s" ++ S_ "1001" ++ S_ c ++ S_ ".bin") ["u"; "v"; "w"]%string).
Proof. split; [|reflexivity]. repeat (constructor; [repeat split; vm_compute; intuition discriminate|]). constructor. Qed.
(** A box added to that file: the sizes are replaced, the option that is not asked is gone, the comments stay. *)
Example ex_added : exists d', add_mann ex_num ex_ofZ (fun s => s) ex_4f ex_4f None (n_ 29) (n_ 1) (n_ 4) (n_ 1) true (Names [S_ "u.bin"; S_ "v.bin"; S_ "w.bin"])
    [4; 2; 2]%Z [(8 # 10000)%Q; (4 # 10000)%Q; (2 # 10000)%Q] false None ex_file = (d', Ok tt) /\
  at_ d' (p3 "wind" "mann" "box_dim_v") = Some (Line (S_ "box_dim_v") [n_ 2; ex_ofQ (2 # 10000)] (S_ "note")) /\
  at_ d' (p3 "wind" "mann" "dont_scale") = None /\ at_ d' (p3 "wind" "mann" "filename_w") = Some (Line (S_ "filename_w") [S_ "w.bin"] []).
Proof. eexists. split; [vm_compute; reflexivity|]. split; [vm_compute; reflexivity|split; vm_compute; reflexivity]. Qed.
Example ex_export : exportable ex_toQ ex_file 40 8 2 16 [n_ 3; n_ 5] [n_ 2; n_ 6] /\ starts_at ex_toQ ex_file (n_ 3) 3 /\ ~ (8 * 2 == 0)%Q /\ ~ (2 == 0)%Q /\
  (forall m, ~ (inject_Z m * 2 == 16 - 3)%Q) /\ ~ In (ch 37) (S_ "export_") /\ ~ In (ch 37) (S_ ".turb").
Proof.
  split; [|split; [|split; [|split; [|split; [|split]]]]].
  - constructor; repeat eexists; vm_compute; reflexivity.
  - split; [reflexivity|]. do 6 eexists. split; [reflexivity|]. left. do 3 eexists. reflexivity.
  - intro X. discriminate X.
  - intro X. discriminate X.
  - intros m X. unfold Qeq in X. cbn in X. lia.
  - cbn. intuition discriminate.
  - cbn. intuition discriminate.
Qed.
Example ex_exported : exists d', turb_export ex_toQ ex_ofQ ex_ofZ (S_ "export_%s.turb") None ex_file = (d', Ok tt) /\
  at_ d' (p3 "wind" "turb_export" "samplefrq") = Some (Line (S_ "samplefrq") [n_ 2] []) /\
  at_ d' (p3 "wind" "turb_export" "nsteps") = Some (Line (S_ "nsteps") [ex_ofQ (13 # 2)] []).
Proof. eexists. split; [vm_compute; reflexivity|]. split; vm_compute; reflexivity. Qed.
Definition ex_controller : list str :=
  map S_ ["Region 1"; "K = 11[Nm/(rad/s)^2]"; ""; "Region 2"; "Kp = 12[Nm/(rad/s)]"; "Ki = 13[Nm/rad]"; "Region 3"; "Kp = 16[rad/(rad/s)]"; "Ki = 17[rad/rad]";
    "K1 = 21[deg], K2 = 22[deg^2]"]%string.
Example ex_tuned : tuned str (fun s => Some s) ex_controller (S_ "11") (S_ "12") (S_ "13") (S_ "16") (S_ "17") (S_ "21") (S_ "22").
Proof.
  assert (C : forall x, existsb (fun c => existsb (chr_eqb c) (S_ "K[],")) x = false -> clean x).
  { intros x H c Hc Hb. assert (X : existsb (fun c => existsb (chr_eqb c) (S_ "K[],")) x = true); [|congruence].
    apply existsb_exists. exists c. split; [exact Hc|]. apply existsb_exists. exists c. split; [exact Hb|apply Ascii.eqb_refl]. }
  unfold tuned. do 11 eexists. split; [reflexivity|]. repeat split.
  - exists (S_ "11"), []. repeat split; apply C; reflexivity.
  - exists (S_ "12"), []. repeat split; apply C; reflexivity.
  - exists (S_ "13"), []. repeat split; apply C; reflexivity.
  - exists (S_ "16"), []. repeat split; apply C; reflexivity.
  - exists (S_ "17"), []. repeat split; apply C; reflexivity.
  - exists (S_ "21"), (S_ "22"), []. repeat split; apply C; reflexivity.
Qed.
Example ex_first : exists dll, at_ ex_file (p1 "dll") = Some (Sec Plain (S_ "dll") [] [] dll []) /\ first_controller dll (S_ "type2_dll__2") /\
  at_ ex_file [S_ "dll"; S_ "type2_dll__2"; S_ "init"] = Some (Sec Plain (S_ "init") [] [] ex_init []) /\
  forall c g, In (c, g) (constants str (S_ "11") (S_ "12") (S_ "13") (S_ "16") (S_ "17") (S_ "21") (S_ "22")) ->
    exists nm x y vs cm, at_ ex_init (p1 c) = Some (Line nm (x :: y :: vs) cm) /\ x <> S_ "11".
Proof.
  eexists. split; [reflexivity|]. split; [|split; [reflexivity|]].
  - exists [s_ "type2_dll" [l_ "name" [S_ "servo"]]]. eexists. exists []. split; [reflexivity|]. split; [|split; [|split]].
    + intros k m [E|[]]. injection E as <- <-. exists (S_ "servo"). split; [|discriminate]. split; [discriminate|]. do 9 eexists. split; reflexivity.
    + split; [discriminate|]. do 9 eexists. split; reflexivity.
    + intros k m [].
    + cbn. intuition discriminate.
  - intros c g H. cbn in H. repeat (destruct H as [H|H]; [injection H as <- <-; do 5 eexists; split; [vm_compute; reflexivity|discriminate]|]). contradiction.
Qed.
Example ex_wind : wind_values ex_toQ ex_file (n_ 3) (n_ 1) (-9) (n_ 8).
Proof. repeat split; repeat eexists. Qed.
Example ex_imported : exists d', import_controller str (fun s => Some s) (fun s => s) (Some ex_controller) ex_file = (d', Ok tt) /\
  at_ d' [S_ "dll"; S_ "type2_dll__2"; S_ "init"; S_ "constant__16"] = Some (Line (S_ "constant") [n_ 7; S_ "16"] (S_ "a gain")).
Proof. eexists. split; vm_compute; reflexivity. Qed.

Print Assumptions C146_added.
Print Assumptions C146_again.
Print Assumptions C146_length_refuted.
Print Assumptions C146_blank_refuted.
Print Assumptions C146_default_refuted.
Print Assumptions C146_few_refuted.
Print Assumptions C148_water.
Print Assumptions C148_shear_constant.
Print Assumptions C148_shear_refuted.
Print Assumptions C148_shear_power.
Print Assumptions C148_controller.
Print Assumptions C148_number_refuted.
Print Assumptions C148_short_refuted.
Print Assumptions C147_exported.
Print Assumptions C147_left_refuted.
Print Assumptions C147_name_refuted.
Print Assumptions C147_steps_refuted.
Print Assumptions C147_second_refuted.
Print Assumptions C148_refused.
Print Assumptions C147_no_wind.
