(** Properties C139 (naming a simulation), C140 (times of a simulation) and C141 (lists of files) of HTC files. *)
From Verif Require Import Py PyFacts TextFacts FASTOut_Model HTC_Model HTC_Spec.
From Verif Require Deck_Model.
From Verif Require Import HTCPath_Model HTCPath_Props HTCSim_Model.
From Coq Require Import Lia.
Local Open Scope nat_scope.

(** ** Specification *)

(** The values of a line: the first entry of that name *)
Fixpoint lookup {V} (d : list (str * V)) (k : str) : option V := match d with [] => None | (a, v) :: d' => if str_eqb a k then Some v else lookup d' k end.
Definition entry (d : list (str * node)) (a k : str) : option node := match lookup d a with Some (Sec _ _ _ _ cont _) => lookup cont k | _ => None end.
Definition values (d : list (str * node)) (a k : str) : option (list str) := match entry d a k with Some (Line _ vs _) => Some vs | _ => None end.
(** The same section but for its contents *)
Definition same_heading (n n' : node) : Prop :=
  match n, n' with
  | Line a b c, Line a' b' c' => a = a' /\ b = b' /\ c = c'
  | Sec k a b c _ s, Sec k' a' b' c' _ s' => k = k' /\ a = a' /\ b = b' /\ c = c' /\ s = s'
  | _, _ => False
  end.
(** A name that a file system takes and that HTC files can hold: one word without backslash, not absolute *)
Definition file_name (s : str) : Prop := is_token s = true /\ ~ In "\"%char s /\ startswith s (S_ "/") = false.
Definition folder_name (s : str) : Prop := is_token s = true /\ ~ In "\"%char s /\ ~ In "/"%char s /\ s <> S_ "." /\ s <> S_ "..".
(** The path of a file of a simulation *)
Definition sim_file (folder : str) (subs : list str) (file : str) : str := S_ "./" ++ join (S_ "/") (folder :: subs ++ [file]).
(** A text with a slash is not a number *)
Definition numbers_have_no_slash (num : str -> option (res str)) : Prop := forall w, In "/"%char w -> num w = None.

(** ** Lemmas *)
Lemma lookup_dget {V} (d : list (str * V)) k : lookup d k = dget d k.
Proof. unfold dget. induction d as [|[a v] d IH]; [reflexivity|]. cbn [lookup find fst]. destruct (str_eqb a k); [reflexivity | exact IH]. Qed.
Lemma dmem_dget {V} (d : list (str * V)) k : dmem d k = match dget d k with Some _ => true | None => false end.
Proof. unfold dmem, dget. induction d as [|[a v] d IH]; [reflexivity|]. cbn [existsb find fst]. destruct (str_eqb a k); [reflexivity | exact IH]. Qed.
Lemma dget_dset {V} (d : list (str * V)) k v j : dget (dset d k v) j = if str_eqb k j then Some v else dget d j.
Proof.
  unfold dget. induction d as [|[a w] d IH]; cbn [dset find fst].
  - destruct (str_eqb k j); reflexivity.
  - destruct (str_eqb a k) eqn:E; cbn [find fst].
    + apply str_eqb_eq in E. subst a. destruct (str_eqb k j); reflexivity.
    + destruct (str_eqb a j) eqn:F; [|exact IH]. apply str_eqb_eq in F. subst a. rewrite str_eqb_sym, E. reflexivity.
Qed.
Lemma keys_dset {V} (d : list (str * V)) k v : dget d k <> None -> map fst (dset d k v) = map fst d.
Proof.
  unfold dget. induction d as [|[a w] d IH]; cbn [dset find fst map]; [congruence|]. destruct (str_eqb a k) eqn:E; cbn [map fst]; intro H.
  - apply str_eqb_eq in E. subst a. reflexivity.
  - f_equal. apply IH, H.
Qed.
Lemma bind_ok {A B} (r : res A) (f : A -> res B) b : bind r f = Ok b -> exists a, r = Ok a /\ f a = Ok b.
Proof. destruct r; [eauto | discriminate]. Qed.
Ltac ok H := apply bind_ok in H as (? & ? & H).
Lemma attr_ok d k n : attr d k = Ok n -> dget d k = Some n.
Proof. unfold attr. destruct (dget d k); [intro H; injection H as <-; reflexivity | discriminate]. Qed.

(** What an assignment of one entry of one section does *)
Definition touched (a k : str) (d d' : list (str * node)) : Prop :=
  map fst d' = map fst d /\ (forall j, j <> a -> dget d' j = dget d j) /\
  exists kd nm bc ec cont cont' ss, dget d a = Some (Sec kd nm bc ec cont ss) /\ dget d' a = Some (Sec kd nm bc ec cont' ss) /\
    (forall j, j <> k -> dget cont' j = dget cont j).
Lemma set2_touched d a k vs d' : set2 d a k vs = Ok d' -> touched a k d d' /\ (forall nm w c, entry d a k = Some (Line nm w c) -> entry d' a k = Some (Line nm vs c)) /\
  (entry d a k = None -> entry d' a k = Some (mk_line k vs [])).
Proof.
  unfold set2. intro H. ok H. ok H. injection H as <-. apply attr_ok in H0. destruct x as [|kd nm bc ec cont ss]; [discriminate|]. cbn [set_in] in H1. injection H1 as <-.
  split; [|split].
  - split; [apply keys_dset; congruence|]. split.
    + intros j N. rewrite dget_dset. destruct (str_eqb a j) eqn:E; [apply str_eqb_eq in E; congruence | reflexivity].
    + exists kd, nm, bc, ec, cont, (set_key cont k vs), ss. split; [exact H0|]. rewrite dget_dset, str_eqb_refl. split; [reflexivity|]. intros j N.
      unfold set_key. rewrite dget_dset. destruct (str_eqb k j) eqn:E; [apply str_eqb_eq in E; congruence | reflexivity].
  - unfold entry. rewrite !lookup_dget, dget_dset, str_eqb_refl, H0. intros n w c. rewrite !lookup_dget. intro E. unfold set_key. rewrite dget_dset, str_eqb_refl, E. reflexivity.
  - unfold entry. rewrite !lookup_dget, dget_dset, str_eqb_refl, H0. rewrite !lookup_dget. intro E. unfold set_key. rewrite dget_dset, str_eqb_refl, E. reflexivity.
Qed.
Lemma touched_entry a k d d' x y : touched a k d d' -> (x, y) <> (a, k) -> entry d' x y = entry d x y.
Proof.
  intros (_ & T & kd & nm & bc & ec & cont & cont' & ss & H & H' & C) N. unfold entry. rewrite !lookup_dget. destruct (str_eqb a x) eqn:E.
  - apply str_eqb_eq in E. subst x. rewrite H, H', !lookup_dget. apply C. intros ->. apply N. reflexivity.
  - rewrite T; [reflexivity|]. intros ->. rewrite str_eqb_refl in E. discriminate.
Qed.
Lemma touched_has a k d d' x y : touched a k d d' -> (x, y) <> (a, k) -> has2 d' x y = has2 d x y.
Proof.
  intros (_ & T & kd & nm & bc & ec & cont & cont' & ss & H & H' & C) N. unfold has2. destruct (str_eqb a x) eqn:E.
  - apply str_eqb_eq in E. subst x. rewrite H, H'. cbn [has]. rewrite !dmem_dget, C; [reflexivity|]. intros ->. apply N. reflexivity.
  - rewrite T; [reflexivity|]. intros ->. rewrite str_eqb_refl in E. discriminate.
Qed.
Lemma touched_mem a k d d' x : touched a k d d' -> dmem d' x = dmem d x.
Proof.
  intros (K & _). unfold dmem. revert d' K. induction d as [|p d IH]; intros [|q d'] K; try discriminate; [reflexivity|]. cbn [map] in K. injection K as E K. cbn [existsb]. rewrite E, (IH _ K). reflexivity.
Qed.
Lemma set2_first_touched d a k f d' : set2_first d a k f = Ok d' -> touched a k d d' /\ exists nm v vs c, entry d a k = Some (Line nm (v :: vs) c) /\ entry d' a k = Some (Line nm (f :: vs) c).
Proof.
  unfold set2_first. intro H. ok H. apply attr_ok in H0. destruct x as [|kd nm bc ec cont ss]; [discriminate|]. ok H. apply attr_ok in H1. ok H. injection H as <-.
  destruct x as [nm' [|v vs] c|]; try discriminate. cbn [set_first] in H2. injection H2 as <-. split.
  - split; [apply keys_dset; congruence|]. split.
    + intros j N. rewrite dget_dset. destruct (str_eqb a j) eqn:E; [apply str_eqb_eq in E; congruence | reflexivity].
    + exists kd, nm, bc, ec, cont, (dset cont k (Line nm' (f :: vs) c)), ss. split; [exact H0|]. rewrite dget_dset, str_eqb_refl. split; [reflexivity|]. intros j N.
      rewrite dget_dset. destruct (str_eqb k j) eqn:E; [apply str_eqb_eq in E; congruence | reflexivity].
  - exists nm', v, vs, c. unfold entry. rewrite !lookup_dget, dget_dset, str_eqb_refl, H0, !lookup_dget, dget_dset, str_eqb_refl. auto.
Qed.

(** Changes that are made of such assignments, in some places *)
Definition only (ps : list (str * str)) (d d' : list (str * node)) : Prop :=
  map fst d' = map fst d /\ (forall x y, ~ In (x, y) ps -> entry d' x y = entry d x y /\ has2 d' x y = has2 d x y) /\
  (forall x, ~ In x (map fst ps) -> dget d' x = dget d x) /\
  forall x n, dget d x = Some n -> exists n', dget d' x = Some n' /\ same_heading n n'.
Lemma heading_refl n : same_heading n n. Proof. destruct n; cbn; auto 6. Qed.
Lemma only_refl ps d : only ps d d.
Proof. split; [reflexivity|]. split; [auto|]. split; [auto|]. intros x n H. exists n. split; [exact H | apply heading_refl]. Qed.
Lemma touched_only a k ps d d' : touched a k d d' -> In (a, k) ps -> only ps d d'.
Proof.
  intros T I. split; [apply T|]. split; [intros x y N; assert (X : (x, y) <> (a, k)) by congruence; split; [eapply touched_entry | eapply touched_has]; eauto|]. split.
  - intros x N. destruct T as (_ & T & _). apply T. intros ->. apply N. apply (in_map fst) in I. exact I.
  - intros x n H. destruct T as (_ & T & kd & nm & bc & ec & cont & cont' & ss & H1 & H2 & C). destruct (str_eqb x a) eqn:E.
    + apply str_eqb_eq in E. subst x. rewrite H1 in H. injection H as <-. eexists. split; [exact H2|]. cbn. auto.
    + exists n. rewrite T; [split; [exact H | apply heading_refl]|]. intros ->. rewrite str_eqb_refl in E. discriminate.
Qed.
Lemma heading_trans a b c : same_heading a b -> same_heading b c -> same_heading a c.
Proof. destruct a, b, c; cbn; intuition congruence. Qed.
Lemma only_trans ps a b c : only ps a b -> only ps b c -> only ps a c.
Proof.
  intros (K1 & E1 & O1 & S1) (K2 & E2 & O2 & S2). split; [congruence|]. split; [intros x y N; destruct (E1 x y N), (E2 x y N); split; congruence|].
  split; [intros x N; rewrite O2, O1 by exact N; reflexivity|]. intros x n H. destruct (S1 x n H) as (n1 & H1 & T1). destruct (S2 x n1 H1) as (n2 & H2 & T2). exists n2. split; [exact H2 | eapply heading_trans; eauto].
Qed.
Lemma only_mem ps d d' x : only ps d d' -> dmem d' x = dmem d x.
Proof.
  intros (K & _). unfold dmem. revert d' K. induction d as [|p d IH]; intros [|q d'] K; try discriminate; [reflexivity|]. cbn [map] in K. injection K as E K. cbn [existsb]. rewrite E, (IH _ K). reflexivity.
Qed.
Lemma set2_text_ok num d a k t d' : set2_text num d a k t = Ok d' -> exists vs, words num t = Ok vs /\ set2 d a k vs = Ok d'.
Proof. unfold set2_text. intro H. ok H. ok H. eauto. Qed.
Lemma set2_text_touched num d a k t d' : set2_text num d a k t = Ok d' -> touched a k d d'.
Proof. intro H. apply set2_text_ok in H as (vs & _ & H). apply set2_touched in H as [H _]. exact H. Qed.

(** ** C139 *)
Definition RENAMED : list (str * str) :=
  map (fun p => (S_ (fst p), S_ (snd p))) [("simulation", "logfile"); ("simulation", "animation"); ("simulation", "visualization"); ("test_structure", "logfile"); ("output", "filename")]%string.
(** Naming a simulation changes the names of the log file, of the animation, of the visualization and of the results, and nothing else: the sections and their order,
    their headings and sensors, all other entries *)
Theorem C139_rest : forall num abspath modelpath name subfolder d f d', set_name num abspath modelpath name subfolder d = Ok (f, d') -> only RENAMED d d'.
Proof.
  intros num abspath modelpath name subfolder d f d' H. unfold set_name in H. ok H. ok H. ok H. injection H as _ <-.
  assert (A : only RENAMED d x0).
  { destruct (has2 d (S_ "simulation") (S_ "logfile")).
    - ok H1. ok H1. ok H1. assert (T1 := set2_text_touched _ _ _ _ _ _ H3). eapply only_trans; [eapply touched_only; [exact T1|cbn; auto 9]|].
      eapply only_trans; [instantiate (1 := x4)|].
      + destruct (has2 x3 (S_ "simulation") (S_ "animation")); [|injection H4 as <-; apply only_refl]. ok H4. eapply touched_only; [eapply set2_text_touched, H4|cbn; auto 9].
      + destruct (has2 x4 (S_ "simulation") (S_ "visualization")); [|injection H1 as <-; apply only_refl]. ok H1. apply set2_first_touched in H1 as [H1 _]. eapply touched_only; [exact H1|cbn; auto 9].
    - destruct (has2 d (S_ "test_structure") (S_ "logfile")); [|injection H1 as <-; apply only_refl]. ok H1. eapply touched_only; [eapply set2_text_touched, H1|cbn; auto 9]. }
  eapply only_trans; [exact A|]. destruct (dmem x0 (S_ "output")); [|injection H2 as <-; apply only_refl]. ok H2. eapply touched_only; [eapply set2_text_touched, H2|cbn; auto 9].
Qed.
Print Assumptions C139_rest.

(** *** Paths *)
Lemma ascii_dec (a b : ascii) : {a = b} + {a <> b}. Proof. apply Ascii.ascii_dec. Qed.
Lemma token_nonempty s : is_token s = true -> s <> [].
Proof. destruct s; [discriminate | discriminate]. Qed.
Lemma folder_head s : folder_name s -> exists c t, s = c :: t /\ chr_eqb c slash = false.
Proof.
  intros (T & _ & N & _). destruct s as [|c t]; [discriminate|]. exists c, t. split; [reflexivity|]. destruct (chr_eqb_spec c slash) as [->|]; [|reflexivity]. exfalso. apply N. left. reflexivity.
Qed.
Lemma join_head c t ws : join [slash] ((c :: t) :: ws) = c :: match ws with [] => t | _ => t ++ slash :: join [slash] ws end.
Proof. destruct ws; reflexivity. Qed.
Lemma unback_id s : ~ In "\"%char s -> unback s = s.
Proof.
  induction s as [|c s IH]; intro H; [reflexivity|]. cbn [unback map]. destruct (chr_eqb_spec c backslash) as [->|_]; [exfalso; apply H; left; reflexivity|]. f_equal. apply IH. intro I. apply H. right. exact I.
Qed.
Lemma no_back_join ws : Forall (fun w => ~ In "\"%char w) ws -> ~ In "\"%char (join [slash] ws).
Proof.
  induction 1 as [|w ws H _ IH]; [exact (fun x => x)|]. destruct ws as [|v ws]; [exact H|]. cbn [join]. intro I. apply in_app_or in I as [I|I]; [exact (H I)|]. destruct I as [I|I]; [discriminate | exact (IH I)].
Qed.
Lemma join_nonempty ws : ws <> [] -> Forall (fun w => w <> []) ws -> join [slash] ws <> [].
Proof. intros N H. destruct H as [|w ws H _]; [contradiction|]. destruct ws; [exact H|]. cbn [join]. destruct w; [contradiction | discriminate]. Qed.
Lemma path_join_plain a b : a <> [] -> Deck_Model.ends_slash a = false -> (forall t, b <> slash :: t) -> Deck_Model.path_join a b = a ++ slash :: b.
Proof.
  intros N E H. unfold Deck_Model.path_join. rewrite E. destruct a; [contradiction|]. cbn [nonempty negb orb]. destruct b as [|c b]; [reflexivity|].
  destruct (Deck_Model.is_slash c) eqn:F; [|reflexivity]. apply chr_eqb_eq in F. subst c. exfalso. apply (H b). reflexivity.
Qed.
Lemma ends_app a b : b <> [] -> Deck_Model.ends_slash (a ++ b) = Deck_Model.ends_slash b.
Proof. intro N. unfold Deck_Model.ends_slash. rewrite rev_app_distr. destruct (rev b) eqn:E; [|reflexivity]. apply (f_equal (@rev _)) in E. rewrite rev_involutive in E. contradiction. Qed.
Lemma ends_no s : ~ In slash s -> Deck_Model.ends_slash s = false.
Proof. intro H. unfold Deck_Model.ends_slash. destruct (rev s) as [|c t] eqn:E; [reflexivity|]. destruct (Deck_Model.is_slash c) eqn:F; [|reflexivity]. apply chr_eqb_eq in F. subst c. exfalso. apply H. apply in_rev. rewrite E. left. reflexivity. Qed.
Lemma ends_join ws : Forall (fun w => w <> [] /\ ~ In slash w) ws -> Deck_Model.ends_slash (join [slash] ws) = false.
Proof.
  induction 1 as [|w ws [H H'] HF IH]; [reflexivity|]. destruct ws as [|v ws]; [apply ends_no, H'|]. change (join [slash] (w :: v :: ws)) with (w ++ [slash] ++ join [slash] (v :: ws)). rewrite app_assoc, ends_app; [exact IH|]. apply join_nonempty; [discriminate|].
  eapply Forall_impl; [|exact HF]. intros ? []; assumption.
Qed.
Lemma keep_folders l : Forall folder_name l -> filter nonempty l = l.
Proof. induction 1 as [|x l (T & _) _ IH]; [reflexivity|]. cbn [filter]. destruct x; [discriminate|]. cbn [nonempty]. f_equal. exact IH. Qed.
Lemma rel_join folder subs : folder_name folder -> Forall folder_name subs -> rel (Deck_Model.path_join folder (join [slash] subs)) = Ok (join [slash] (folder :: subs)).
Proof.
  intros HF HS. destruct (folder_head _ HF) as (c & t & E & Hc). subst folder. set (w := c :: t) in *.
  assert (A : Forall folder_name (w :: subs)) by (constructor; assumption).
  assert (B : forallb (fun x => negb (mem_chr slash x)) (w :: subs) = true).
  { apply forallb_forall. intros x I. rewrite Forall_forall in A. destruct (A _ I) as (_ & _ & N & _). destruct (mem_chr slash x) eqn:F; [|reflexivity]. exfalso. apply N.
    unfold mem_chr in F. apply existsb_exists in F as (d & J & F). apply chr_eqb_eq in F. subst d. exact J. }
  assert (B' : forallb (fun x => negb (chr_eqb x slash)) w = true).
  { apply forallb_forall. intros d J. destruct (chr_eqb_spec d slash) as [->|]; [|reflexivity]. exfalso. destruct HF as (_ & _ & N & _). exact (N J). }
  assert (P : filter nonempty (split_chr slash (Deck_Model.path_join w (join [slash] subs))) = w :: subs /\ startswith (Deck_Model.path_join w (join [slash] subs)) [slash] = false).
  { rewrite path_join_plain; [|discriminate|destruct HF as (_ & _ & N & _); apply ends_no, N|].
    2:{ destruct HS as [|s ss H _]; [discriminate|]. destruct (folder_head _ H) as (d & u & -> & Hd). rewrite join_head. intros ? [= -> _]. rewrite chr_eqb_refl in Hd. discriminate. }
    split; [|unfold w; cbn [app startswith]; rewrite Hc; reflexivity]. unfold split_chr. rewrite split_on_app_sep; [|exact B'|apply chr_eqb_refl].
    destruct subs as [|s ss]; [reflexivity|]. cbn [forallb] in B. apply andb_inv in B as [_ B]. fold (split_chr slash (join [slash] (s :: ss))). rewrite split_chr_join; [|discriminate|exact B].
    cbn [filter]. change (nonempty w) with true. cbn iota. f_equal. apply Forall_inv_tail in A. exact (keep_folders _ A). }
  destruct P as [P1 P2]. unfold rel. rewrite P2, P1. cbn [orb].
  replace (existsb _ (w :: subs)) with false; [reflexivity|]. symmetry. apply Bool.not_true_iff_false. intro X. apply existsb_exists in X as (x & I & X). rewrite Forall_forall in A. destruct (A _ I) as (_ & _ & _ & N1 & N2).
  apply Bool.orb_true_iff in X as [X|X]; apply str_eqb_eq in X; contradiction.
Qed.
Lemma folder_ok folder subs : folder_name folder -> Forall folder_name subs -> fmt_folder folder (join [slash] subs) = Ok (S_ "./" ++ join [slash] (folder :: subs)).
Proof.
  intros HF HS. unfold fmt_folder. rewrite rel_join by assumption. cbn [bind]. rewrite unback_id; [reflexivity|]. apply no_back_join.
  constructor; [apply HF|]. eapply Forall_impl; [|exact HS]. intros ? (_ & N & _). exact N.
Qed.
Lemma join_snoc ws f : ws <> [] -> join [slash] (ws ++ [f]) = join [slash] ws ++ slash :: f.
Proof.
  induction ws as [|w ws IH]; [contradiction|]. intros _. destruct ws as [|v ws]; [reflexivity|]. change (join [slash] ((w :: v :: ws) ++ [f])) with (w ++ [slash] ++ join [slash] ((v :: ws) ++ [f])).
  rewrite IH by discriminate. change (join [slash] (w :: v :: ws)) with (w ++ [slash] ++ join [slash] (v :: ws)). rewrite <- !app_assoc. reflexivity.
Qed.
Lemma sim_file_eq folder subs f : sim_file folder subs f = (S_ "./" ++ join [slash] (folder :: subs)) ++ slash :: f.
Proof. unfold sim_file. change (S_ "/") with [slash]. rewrite app_comm_cons, join_snoc by discriminate. rewrite <- app_assoc. reflexivity. Qed.
Lemma folder_parts folder subs : folder_name folder -> Forall folder_name subs -> Forall (fun w => w <> [] /\ ~ In slash w) (folder :: subs).
Proof. intros HF HS. apply Forall_cons with (1 := HF) in HS. eapply Forall_impl; [|exact HS]. intros x (T & _ & N & _). split; [apply token_nonempty, T | exact N]. Qed.
Lemma folder_end folder subs : folder_name folder -> Forall folder_name subs -> Deck_Model.ends_slash (S_ "./" ++ join [slash] (folder :: subs)) = false.
Proof.
  intros HF HS. pose proof (folder_parts _ _ HF HS) as P. rewrite ends_app; [apply ends_join, P|]. apply join_nonempty; [discriminate|]. eapply Forall_impl; [|exact P]. intros ? []; assumption.
Qed.
Definition plain_file (s : str) : Prop := ~ In "\"%char s /\ startswith s (S_ "/") = false.
Lemma plain_head s t : startswith s (S_ "/") = false -> s <> slash :: t.
Proof. intros H ->. discriminate H. Qed.
Lemma in_folder_ok folder subs f : folder_name folder -> Forall folder_name subs -> plain_file f -> in_folder folder (join [slash] subs) f = Ok (sim_file folder subs f).
Proof.
  intros HF HS [N P]. unfold in_folder. rewrite folder_ok by assumption. cbn [bind]. rewrite path_join_plain; [|discriminate|apply folder_end; assumption|intro t; apply plain_head, P].
  rewrite sim_file_eq, unback_id; [reflexivity|]. intro I. apply in_app_or in I as [I|I].
  - cbn [S_ app] in I. destruct I as [I|[I|I]]; try discriminate. revert I. apply no_back_join. apply Forall_cons with (1 := HF) in HS. eapply Forall_impl; [|exact HS]. intros ? (_ & X & _). exact X.
  - destruct I as [I|I]; [discriminate | exact (N I)].
Qed.
Lemma plain_ext name e : file_name name -> ~ In "\"%char (S_ e) -> plain_file (name ++ S_ e).
Proof.
  intros (T & N & P) E. split.
  - intro I. apply in_app_or in I as [I|I]; auto.
  - destruct name as [|c t]; [discriminate|]. cbn [app startswith S_] in *. exact P.
Qed.
Lemma token_app a b : is_token a = true -> forallb (fun c => negb (is_space c)) b = true -> is_token (a ++ b) = true.
Proof. unfold is_token. intros H B. destruct a as [|c a]; [discriminate|]. cbn [app] in *. apply andb_inv in H as [_ H]. cbn [nonempty andb forallb] in *. rewrite forallb_app. apply andb_inv in H as [-> ->]. rewrite B. reflexivity. Qed.
Lemma join_chars ws : Forall (fun w => is_token w = true) ws -> forallb (fun c => negb (is_space c)) (join [slash] ws) = true.
Proof.
  induction 1 as [|w ws H _ IH]; [reflexivity|]. assert (W : forallb (fun c => negb (is_space c)) w = true) by (unfold is_token in H; apply andb_inv in H as [_ H]; exact H).
  destruct ws as [|v ws]; [exact W|]. change (join [slash] (w :: v :: ws)) with (w ++ [slash] ++ join [slash] (v :: ws)). rewrite !forallb_app, W, IH. reflexivity.
Qed.
Lemma sim_token folder subs f : folder_name folder -> Forall folder_name subs -> is_token f = true -> is_token (sim_file folder subs f) = true.
Proof.
  intros (HF & _) HS Hf. apply token_app; [reflexivity|]. apply (join_chars (folder :: subs ++ [f])). constructor; [exact HF|]. apply Forall_app. split; [|constructor; auto]. eapply Forall_impl; [|exact HS]. intros ? (T & _). exact T.
Qed.
Lemma replace_none s : ~ In backslash s -> replace_chr backslash (S_ "/") s = s.
Proof. unfold replace_chr. induction s as [|c s IH]; intro H; [reflexivity|]. cbn [flat_map]. destruct (chr_eqb_spec c backslash) as [->|_]; [exfalso; apply H; left; reflexivity|]. cbn [app]. f_equal. apply IH. intro I. apply H. right. exact I. Qed.
Lemma words_path num folder subs f : numbers_have_no_slash num -> folder_name folder -> Forall folder_name subs -> is_token f = true -> ~ In backslash f ->
  words num (sim_file folder subs f) = Ok [sim_file folder subs f].
Proof.
  intros HN HF HS Hf HB. unfold words. rewrite split_ws_token by (apply sim_token; assumption). cbn [map_res]. unfold fmt_value.
  rewrite HN by (right; left; reflexivity). cbn [bind]. f_equal. f_equal. apply replace_none. rewrite sim_file_eq. intro I. apply in_app_or in I as [I|I].
  - cbn [S_ app] in I. destruct I as [I|[I|I]]; try discriminate. revert I. apply no_back_join. apply Forall_cons with (1 := HF) in HS. eapply Forall_impl; [|exact HS]. intros ? (_ & X & _). exact X.
  - destruct I as [I|I]; [discriminate | exact (HB I)].
Qed.

Definition a_line (n : node) : Prop := exists nm v vs c, n = Line nm (v :: vs) c.
Definition a_section (n : node) : Prop := exists k nm bc ec cont ss, n = Sec k nm bc ec cont ss.
Lemma entry_has d a k : has2 d a k = true <-> entry d a k <> None.
Proof.
  unfold has2, entry. rewrite lookup_dget. destruct (dget d a) as [[|kd nm bc ec cont ss]|]; cbn [has]; try (split; congruence).
  rewrite dmem_dget, lookup_dget. destruct (dget cont k); split; congruence.
Qed.
Lemma set2_ok d a k vs : (exists n, dget d a = Some n /\ a_section n) -> (forall n, entry d a k = Some n -> a_line n) -> cut_uu k = k ->
  exists d', set2 d a k vs = Ok d' /\ touched a k d d' /\ values d' a k = Some vs.
Proof.
  intros (n & H & kd & nm & bc & ec & cont & ss & ->) L U. unfold set2, attr. rewrite H. cbn [bind set_in]. eexists. split; [reflexivity|].
  pose proof (set2_touched d a k vs) as T. unfold set2, attr in T. rewrite H in T. cbn [bind set_in] in T. destruct (T _ eq_refl) as (T1 & T2 & T3). split; [exact T1|]. unfold values.
  destruct (entry d a k) as [n|] eqn:E.
  - destruct (L _ eq_refl) as (nm' & v & w & c & ->). rewrite (T2 _ _ _ eq_refl). reflexivity.
  - rewrite (T3 eq_refl). reflexivity.
Qed.
Lemma entry_section d a k : entry d a k <> None -> exists n, dget d a = Some n /\ a_section n.
Proof. unfold entry. rewrite lookup_dget. destruct (dget d a) as [[|kd nm bc ec cont ss]|]; try congruence. intros _. eexists. split; [reflexivity|]. repeat eexists. Qed.
Lemma set2_first_ok d a k f nm v vs c : entry d a k = Some (Line nm (v :: vs) c) -> exists d', set2_first d a k f = Ok d' /\ touched a k d d' /\ values d' a k = Some (f :: vs).
Proof.
  intro H. unfold entry in H. rewrite lookup_dget in H. destruct (dget d a) as [[|kd nm' bc ec cont ss]|] eqn:E; try discriminate. rewrite lookup_dget in H.
  assert (X : exists d', set2_first d a k f = Ok d') by (unfold set2_first, attr; rewrite E; cbn [bind]; rewrite H; cbn [bind set_first]; eauto).
  destruct X as (d' & X). exists d'. split; [exact X|]. apply set2_first_touched in X as (T & n1 & v1 & w1 & c1 & E1 & E2). split; [exact T|]. unfold values. rewrite E2.
  unfold entry in E1. rewrite lookup_dget, E, lookup_dget, H in E1. injection E1 as _ _ -> _. reflexivity.
Qed.

(** A simulation that can be named: the entries at stake are lines with values, the output is a section *)
Definition nameable (d : list (str * node)) : Prop :=
  (forall a k n, In (a, k) RENAMED -> entry d a k = Some n -> a_line n) /\ (forall n, lookup d (S_ "output") = Some n -> a_section n).

Lemma set2_text_path num d a k folder subs f : numbers_have_no_slash num -> folder_name folder -> Forall folder_name subs -> is_token f = true -> ~ In backslash f ->
  (exists n, dget d a = Some n /\ a_section n) -> (forall n, entry d a k = Some n -> a_line n) -> cut_uu k = k ->
  exists d', set2_text num d a k (sim_file folder subs f) = Ok d' /\ touched a k d d' /\ values d' a k = Some [sim_file folder subs f].
Proof.
  intros HN HF HS Hf HB E L U. destruct (set2_ok d a k [sim_file folder subs f] E L U) as (d' & S2 & T & V). exists d'. split; [|auto]. destruct E as (n & E & _).
  unfold set2_text, attr. rewrite E. cbn [bind]. rewrite words_path by assumption. cbn [bind]. exact S2.
Qed.
Lemma only_values ps d d' a k : only ps d d' -> ~ In (a, k) ps -> values d' a k = values d a k.
Proof. intros (_ & H & _) N. unfold values. destruct (H a k N) as [-> _]. reflexivity. Qed.
Lemma touched_values a k d d' x y : touched a k d d' -> (x, y) <> (a, k) -> values d' x y = values d x y.
Proof. intros T N. unfold values. rewrite (touched_entry _ _ _ _ _ _ T N). reflexivity. Qed.
Lemma touched_section a k d d' x : touched a k d d' -> (exists n, dget d x = Some n /\ a_section n) -> exists n, dget d' x = Some n /\ a_section n.
Proof.
  intros (_ & T & kd & nm & bc & ec & cont & cont' & ss & H & H' & C) (n & E & A). destruct (str_eqb x a) eqn:F.
  - apply str_eqb_eq in F. subst x. eexists. split; [exact H'|]. repeat eexists.
  - exists n. rewrite T; [auto|]. intros ->. rewrite str_eqb_refl in F. discriminate.
Qed.
Lemma ext_token name e : file_name name -> forallb (fun c => negb (is_space c)) (S_ e) = true -> is_token (name ++ S_ e) = true.
Proof. intros (T & _) E. apply token_app; assumption. Qed.
Ltac folder := repeat split; [| |cbn; intuition discriminate|discriminate|discriminate]; [reflexivity | cbn; intuition discriminate].
Lemma ext_back name e : file_name name -> ~ In backslash (S_ e) -> ~ In backslash (name ++ S_ e).
Proof. intros (_ & N & _) E I. apply in_app_or in I as [I|I]; auto. Qed.
Lemma str_neq a b : str_eqb a b = false -> a <> b. Proof. intros H ->. rewrite str_eqb_refl in H. discriminate. Qed.
Lemma pair_neq (a b x y : str) : str_eqb a x && str_eqb b y = false -> (a, b) <> (x, y).
Proof. intros H [= -> ->]. rewrite !str_eqb_refl in H. discriminate. Qed.
Ltac neq := apply pair_neq; vm_compute; reflexivity.
Lemma under_path mp folder subs f : folder_name folder -> Forall folder_name subs -> plain_file f ->
  Deck_Model.path_join (Deck_Model.path_join mp (S_ "./" ++ join [slash] (folder :: subs))) f = Deck_Model.path_join mp (sim_file folder subs f).
Proof.
  intros HF HS [_ P]. pose proof (folder_end _ _ HF HS) as E. rewrite sim_file_eq. set (p := S_ "./" ++ join [slash] (folder :: subs)) in *.
  assert (X : exists q, p = ch 46 :: q) by (eexists; reflexivity). destruct X as (q & X).
  assert (J : forall r, Deck_Model.path_join mp (p ++ r) = (if negb (nonempty mp) || Deck_Model.ends_slash mp then mp else mp ++ [slash]) ++ p ++ r).
  { intro r. unfold Deck_Model.path_join. rewrite X. cbn [app]. change (Deck_Model.is_slash (ch 46)) with false. cbn iota. destruct (negb (nonempty mp) || Deck_Model.ends_slash mp); [reflexivity|]. rewrite <- app_assoc. reflexivity. }
  rewrite (J (slash :: f)). pose proof (J []) as J0. rewrite !app_nil_r in J0. rewrite J0. rewrite path_join_plain.
  - rewrite <- app_assoc. reflexivity.
  - rewrite X. intro Z. apply app_eq_nil in Z as [_ Z]. discriminate.
  - rewrite ends_app; [exact E|]. rewrite X. discriminate.
  - intro t. apply plain_head, P.
Qed.

(** A simulation with a log file, or without, gets the names that follow from its name and its subfolders *)
Theorem C139_files : forall num abspath modelpath name subs d,
  numbers_have_no_slash num -> file_name name -> Forall folder_name subs -> nameable d ->
  exists d', set_name num abspath modelpath name (join (S_ "/") subs) d = Ok (to_slashes (abspath (Deck_Model.path_join modelpath (sim_file (S_ "htc") subs (name ++ S_ ".htc")))), d') /\
    (entry d (S_ "simulation") (S_ "logfile") <> None ->
       values d' (S_ "simulation") (S_ "logfile") = Some [sim_file (S_ "log") subs (name ++ S_ ".log")] /\
       values d' (S_ "simulation") (S_ "animation") = (match entry d (S_ "simulation") (S_ "animation") with Some _ => Some [sim_file (S_ "animation") subs (name ++ S_ ".dat")] | None => None end) /\
       values d' (S_ "simulation") (S_ "visualization") = (match values d (S_ "simulation") (S_ "visualization") with Some vs => Some (sim_file (S_ "visualization") subs (name ++ S_ ".hdf5") :: tl vs) | None => None end) /\
       entry d' (S_ "test_structure") (S_ "logfile") = entry d (S_ "test_structure") (S_ "logfile")) /\
    (entry d (S_ "simulation") (S_ "logfile") = None ->
       values d' (S_ "test_structure") (S_ "logfile") = match entry d (S_ "test_structure") (S_ "logfile") with Some _ => Some [sim_file (S_ "log") subs (name ++ S_ ".log")] | None => None end) /\
    values d' (S_ "output") (S_ "filename") = match lookup d (S_ "output") with Some _ => Some [sim_file (S_ "res") subs name] | None => None end.
Proof.
  intros num abspath mp name subs d HN Hname HS [HL HO]. change (S_ "/") with [slash]. unfold set_name.
  assert (FH : forall f, In f ["htc"; "log"; "animation"; "visualization"; "res"]%string -> folder_name (S_ f)).
  { intros f I. cbn [In] in I. intuition (subst; unfold folder_name; repeat split; try reflexivity; try discriminate; cbn; intuition discriminate). }
  assert (PE : forall e, In e [".htc"; ".log"; ".dat"; ".hdf5"; ""]%string -> plain_file (name ++ S_ e) /\ is_token (name ++ S_ e) = true /\ ~ In backslash (name ++ S_ e)).
  { intros e I. assert (X : ~ In "\"%char (S_ e) /\ forallb (fun c => negb (is_space c)) (S_ e) = true) by (cbn [In] in I; intuition (subst; try reflexivity; match goal with H : In _ _ |- _ => cbn in H; intuition discriminate end)).
    destruct X as [X1 X2]. split; [apply plain_ext; assumption|]. split; [apply ext_token; assumption | apply ext_back; assumption]. }
  rewrite folder_ok by (auto; apply FH; cbn; auto). cbn [bind]. rewrite under_path; [|apply FH; cbn; auto 9|exact HS|apply PE; cbn; auto 9].
  match goal with |- context [bind ?r ?k] => set (R := r) end.
  assert (A : exists d1, R = Ok d1 /\ only (removelast RENAMED) d d1 /\
    (entry d (S_ "simulation") (S_ "logfile") <> None ->
       values d1 (S_ "simulation") (S_ "logfile") = Some [sim_file (S_ "log") subs (name ++ S_ ".log")] /\
       values d1 (S_ "simulation") (S_ "animation") = (match entry d (S_ "simulation") (S_ "animation") with Some _ => Some [sim_file (S_ "animation") subs (name ++ S_ ".dat")] | None => None end) /\
       values d1 (S_ "simulation") (S_ "visualization") = (match values d (S_ "simulation") (S_ "visualization") with Some vs => Some (sim_file (S_ "visualization") subs (name ++ S_ ".hdf5") :: tl vs) | None => None end) /\
       entry d1 (S_ "test_structure") (S_ "logfile") = entry d (S_ "test_structure") (S_ "logfile")) /\
    (entry d (S_ "simulation") (S_ "logfile") = None ->
       values d1 (S_ "test_structure") (S_ "logfile") = match entry d (S_ "test_structure") (S_ "logfile") with Some _ => Some [sim_file (S_ "log") subs (name ++ S_ ".log")] | None => None end)).
  { unfold R. clear R. destruct (has2 d (S_ "simulation") (S_ "logfile")) eqn:E1.
    - rewrite in_folder_ok; [|apply FH; cbn; auto 9|exact HS|apply PE; cbn; auto 9]. cbn [bind]. pose proof E1 as E1'. apply entry_has in E1'.
      destruct (set2_text_path num d (S_ "simulation") (S_ "logfile") (S_ "log") subs (name ++ S_ ".log")) as (d1 & Q1 & T1 & V1);
        [exact HN|apply FH; cbn; auto|exact HS|apply PE; cbn; auto|apply PE; cbn; auto|eapply entry_section, E1'|intros n; apply HL; cbn; auto|reflexivity|].
      rewrite Q1. cbn [bind]. rewrite (touched_has _ _ _ _ (S_ "simulation") (S_ "animation") T1) by neq.
      match goal with |- context [bind ?r ?k] => set (R := r) end.
      assert (A2 : exists d2, R = Ok d2 /\ only [(S_ "simulation", S_ "animation")] d1 d2 /\
        values d2 (S_ "simulation") (S_ "animation") = (match entry d (S_ "simulation") (S_ "animation") with Some _ => Some [sim_file (S_ "animation") subs (name ++ S_ ".dat")] | None => None end)).
      { unfold R. clear R. destruct (has2 d (S_ "simulation") (S_ "animation")) eqn:E2.
        - rewrite in_folder_ok; [|apply FH; cbn; auto 9|exact HS|apply PE; cbn; auto 9]. cbn [bind]. apply entry_has in E2.
          destruct (set2_text_path num d1 (S_ "simulation") (S_ "animation") (S_ "animation") subs (name ++ S_ ".dat")) as (d2 & Q2 & T2 & V2);
            [exact HN|apply FH; cbn; auto|exact HS|apply PE; cbn; auto|apply PE; cbn; auto|eapply touched_section, entry_section, E2; exact T1| |reflexivity|].
          { intros n. rewrite (touched_entry _ _ _ _ (S_ "simulation") (S_ "animation") T1) by neq. apply HL; cbn; auto. }
          exists d2. split; [exact Q2|]. split; [eapply touched_only; [exact T2 | left; reflexivity]|]. destruct (entry d (S_ "simulation") (S_ "animation")); [exact V2 | congruence].
        - exists d1. split; [reflexivity|]. split; [apply only_refl|]. rewrite (touched_values _ _ _ _ (S_ "simulation") (S_ "animation") T1) by neq. unfold values.
          destruct (entry d (S_ "simulation") (S_ "animation")) eqn:E3; [|reflexivity]. exfalso. assert (X : has2 d (S_ "simulation") (S_ "animation") = true) by (apply entry_has; congruence). congruence. }
      destruct A2 as (d2 & Q2 & O2 & V2). rewrite Q2. cbn [bind]. clear R Q2.
      assert (N1 : ~ In (S_ "simulation", S_ "logfile") [(S_ "simulation", S_ "animation")]) by (intros [X|[]]; revert X; neq).
      assert (N2 : ~ In (S_ "simulation", S_ "visualization") [(S_ "simulation", S_ "animation")]) by (intros [X|[]]; revert X; neq).
      assert (N3 : ~ In (S_ "test_structure", S_ "logfile") [(S_ "simulation", S_ "animation")]) by (intros [X|[]]; revert X; neq).
      assert (O12 : only (removelast RENAMED) d d2).
      { eapply only_trans; [eapply touched_only; [exact T1 | cbn; auto 9]|]. destruct O2 as (K & EE & G & H). split; [exact K|]. split; [|split].
        - intros x y N. apply EE. intros [Z|[]]. injection Z as <- <-. apply N. cbn. auto.
        - intros x N. apply G. intros [Z|[]]. apply N. cbn in Z. subst x. cbn. auto.
        - exact H. }
      assert (EV : entry d2 (S_ "simulation") (S_ "visualization") = entry d (S_ "simulation") (S_ "visualization")).
      { destruct O2 as (_ & O2 & _). destruct (O2 _ _ N2) as [-> _]. apply (touched_entry _ _ _ _ _ _ T1). neq. }
      assert (ET : entry d2 (S_ "test_structure") (S_ "logfile") = entry d (S_ "test_structure") (S_ "logfile")).
      { destruct O2 as (_ & O2 & _). destruct (O2 _ _ N3) as [-> _]. apply (touched_entry _ _ _ _ _ _ T1). neq. }
      assert (VL : values d2 (S_ "simulation") (S_ "logfile") = Some [sim_file (S_ "log") subs (name ++ S_ ".log")]) by (rewrite (only_values _ _ _ _ _ O2 N1); exact V1).
      destruct (has2 d2 (S_ "simulation") (S_ "visualization")) eqn:E3.
      + rewrite in_folder_ok; [|apply FH; cbn; auto 9|exact HS|apply PE; cbn; auto 9]. cbn [bind]. apply entry_has in E3. destruct (entry d2 (S_ "simulation") (S_ "visualization")) as [n|] eqn:E4; [|congruence].
        destruct (HL (S_ "simulation") (S_ "visualization") n) as (nm & v & vs & c & ->); [cbn; auto 9|symmetry; exact EV|].
        destruct (set2_first_ok _ _ _ (sim_file (S_ "visualization") subs (name ++ S_ ".hdf5")) _ _ _ _ E4) as (d3 & Q3 & T3 & V3). rewrite Q3. exists d3. split; [reflexivity|]. split.
        { eapply only_trans; [exact O12|]. eapply touched_only; [exact T3 | cbn; auto 9]. }
        split; [|congruence]. intros _. rewrite (touched_values _ _ _ _ (S_ "simulation") (S_ "logfile") T3), (touched_values _ _ _ _ (S_ "simulation") (S_ "animation") T3), (touched_entry _ _ _ _ (S_ "test_structure") (S_ "logfile") T3) by neq.
        rewrite V3, VL, V2, ET. unfold values. rewrite <- EV. cbn [tl]. auto.
      + exists d2. split; [reflexivity|]. split; [exact O12|]. split; [|congruence]. intros _. rewrite VL, V2, ET. repeat split. unfold values. rewrite EV.
        destruct (entry d (S_ "simulation") (S_ "visualization")) eqn:E5; [|reflexivity]. exfalso. assert (X : has2 d2 (S_ "simulation") (S_ "visualization") = true) by (apply entry_has; congruence). congruence.
    - assert (E1' : entry d (S_ "simulation") (S_ "logfile") = None).
      { destruct (entry d (S_ "simulation") (S_ "logfile")) eqn:X; [|reflexivity]. exfalso. assert (Y : has2 d (S_ "simulation") (S_ "logfile") = true) by (apply entry_has; congruence). congruence. }
      destruct (has2 d (S_ "test_structure") (S_ "logfile")) eqn:E2.
      + rewrite in_folder_ok; [|apply FH; cbn; auto 9|exact HS|apply PE; cbn; auto 9]. cbn [bind]. apply entry_has in E2.
        destruct (set2_text_path num d (S_ "test_structure") (S_ "logfile") (S_ "log") subs (name ++ S_ ".log")) as (d1 & Q1 & T1 & V1);
          [exact HN|apply FH; cbn; auto|exact HS|apply PE; cbn; auto|apply PE; cbn; auto|eapply entry_section, E2|intros n; apply HL; cbn; auto 9|reflexivity|].
        exists d1. split; [exact Q1|]. split; [eapply touched_only; [exact T1 | cbn; auto 9]|]. split; [congruence|]. intros _. rewrite V1. destruct (entry d (S_ "test_structure") (S_ "logfile")); [reflexivity | congruence].
      + exists d. split; [reflexivity|]. split; [apply only_refl|]. split; [congruence|]. intros _. unfold values. destruct (entry d (S_ "test_structure") (S_ "logfile")) eqn:X; [|reflexivity].
        exfalso. assert (Y : has2 d (S_ "test_structure") (S_ "logfile") = true) by (apply entry_has; congruence). congruence. }
  destruct A as (d1 & Q1 & O1 & A1 & A2). rewrite Q1. cbn [bind]. clear R Q1. rewrite (only_mem _ _ _ _ O1). rewrite dmem_dget, lookup_dget.
  assert (NO : ~ In (S_ "output", S_ "filename") (removelast RENAMED)) by (intro X; cbn in X; intuition discriminate).
  destruct (dget d (S_ "output")) as [n|] eqn:EO.
  - pose proof (in_folder_ok (S_ "res") subs name) as IF. assert (NN : name = name ++ S_ "") by (rewrite app_nil_r; reflexivity).
    rewrite IF; [|apply FH; cbn; auto 9|exact HS|rewrite NN; apply PE; cbn; auto 9]. cbn [bind].
    destruct (set2_text_path num d1 (S_ "output") (S_ "filename") (S_ "res") subs name) as (d2 & Q2 & T2 & V2);
      [exact HN|apply FH; cbn; auto 9|exact HS|apply Hname|apply Hname| | |reflexivity|].
    { exists n. destruct O1 as (_ & _ & G & _). rewrite G; [split; [exact EO|apply HO; rewrite lookup_dget; exact EO]|]. intro X. cbn in X. intuition discriminate. }
    { destruct O1 as (_ & O1 & _). destruct (O1 _ _ NO) as [-> _]. intros m. apply HL; cbn; auto 9. }
    rewrite Q2. cbn [bind]. exists d2. split; [reflexivity|]. rewrite !(touched_values _ _ _ _ _ _ T2) by neq. rewrite (touched_entry _ _ _ _ (S_ "test_structure") (S_ "logfile") T2) by neq. auto.
  - cbn [bind]. exists d1. split; [reflexivity|]. split; [exact A1|]. split; [exact A2|]. rewrite (only_values _ _ _ _ _ O1 NO). unfold values, entry. rewrite lookup_dget, EO. reflexivity.
Qed.
Print Assumptions C139_files.

(** Simulations with different names have different log files and results *)
Lemma sim_file_inj folder subs f subs' f' : Forall folder_name subs -> Forall folder_name subs' -> ~ In slash folder -> ~ In slash f -> ~ In slash f' ->
  sim_file folder subs f = sim_file folder subs' f' -> subs = subs' /\ f = f'.
Proof.
  intros HS HS' HF Hf Hf' E. unfold sim_file in E. apply app_inv_head in E. change (S_ "/") with [slash] in E. apply (f_equal (split_chr slash)) in E.
  assert (G : forall ss g, Forall folder_name ss -> ~ In slash g -> split_chr slash (join [slash] (folder :: ss ++ [g])) = folder :: ss ++ [g]).
  { intros ss g A B. apply split_chr_join; [discriminate|]. apply forallb_forall. intros w I. assert (N : ~ In slash w).
    { destruct I as [<-|I]; [exact HF|]. apply in_app_or in I as [I|[<-|[]]]; [|exact B]. rewrite Forall_forall in A. apply A in I as (_ & _ & N & _). exact N. }
    destruct (mem_chr slash w) eqn:F; [|reflexivity]. exfalso. apply N. unfold mem_chr in F. apply existsb_exists in F as (d & J & F). apply chr_eqb_eq in F. subst d. exact J. }
  rewrite !G in E by assumption. injection E as E. apply app_inj_tail in E. exact E.
Qed.
Lemma one_value {A} (a b : A) : Some [a] = Some [b] -> a = b. Proof. congruence. Qed.
Theorem C139_apart : forall num abspath modelpath name subs d f d1 name' subs' d0 f' d2,
  numbers_have_no_slash num -> file_name name -> file_name name' -> ~ In slash name -> ~ In slash name' -> Forall folder_name subs -> Forall folder_name subs' -> nameable d -> nameable d0 ->
  set_name num abspath modelpath name (join (S_ "/") subs) d = Ok (f, d1) -> set_name num abspath modelpath name' (join (S_ "/") subs') d0 = Ok (f', d2) ->
  (name, subs) <> (name', subs') ->
  (entry d (S_ "simulation") (S_ "logfile") <> None -> entry d0 (S_ "simulation") (S_ "logfile") <> None -> values d1 (S_ "simulation") (S_ "logfile") <> values d2 (S_ "simulation") (S_ "logfile")) /\
  (lookup d (S_ "output") <> None -> values d1 (S_ "output") (S_ "filename") <> values d2 (S_ "output") (S_ "filename")).
Proof.
  intros num abspath mp name subs d f d1 name' subs' d0 f' d2 HN Hn Hn' Ns Ns' HS HS' HD HD' E E' N.
  destruct (C139_files num abspath mp name subs d HN Hn HS HD) as (x & X & A & _ & B). rewrite E in X. injection X as _ <-.
  destruct (C139_files num abspath mp name' subs' d0 HN Hn' HS' HD') as (x' & X' & A' & _ & B'). rewrite E' in X'. injection X' as _ <-. split.
  - intros L L'. destruct (A L) as (-> & _). destruct (A' L') as (-> & _). intro Q. apply one_value in Q. apply sim_file_inj in Q as [-> Q]; auto.
    + apply app_inv_tail in Q. congruence.
    + cbn. intuition discriminate.
    + intro I. apply in_app_or in I as [I|I]; [auto|]. cbn in I. intuition discriminate.
    + intro I. apply in_app_or in I as [I|I]; [auto|]. cbn in I. intuition discriminate.
  - intros L. rewrite B, B'. destruct (lookup d (S_ "output")); [|congruence]. destruct (lookup d0 (S_ "output")); [|discriminate]. intro Q. apply one_value in Q. apply sim_file_inj in Q as [-> Q]; auto; [congruence|]. cbn. intuition discriminate.
Qed.
Print Assumptions C139_apart.

(** Without a log file, the animation and the visualization keep their names *)
Theorem C139_no_log_refuted : forall num abspath modelpath name subfolder d f d', set_name num abspath modelpath name subfolder d = Ok (f, d') ->
  entry d (S_ "simulation") (S_ "logfile") = None -> lookup d' (S_ "simulation") = lookup d (S_ "simulation").
Proof.
  intros num abspath mp name subfolder d f d' H L. unfold set_name in H. ok H. ok H. ok H. injection H as _ <-.
  destruct (has2 d (S_ "simulation") (S_ "logfile")) eqn:E; [apply entry_has in E; congruence|]. rewrite !lookup_dget.
  assert (A : dget x0 (S_ "simulation") = dget d (S_ "simulation")).
  { destruct (has2 d (S_ "test_structure") (S_ "logfile")); [|injection H1 as <-; reflexivity]. ok H1. apply set2_text_touched in H1 as (_ & T & _). apply T. discriminate. }
  rewrite <- A. destruct (dmem x0 (S_ "output")); [|injection H2 as <-; reflexivity]. ok H2. apply set2_text_touched in H2 as (_ & T & _). apply T. discriminate.
Qed.
Print Assumptions C139_no_log_refuted.

(** The other outputs keep their names: simulations with different names write the same files *)
Lemma in_map_res {A B} (f : A -> res B) l ys x : map_res f l = Ok ys -> In x l -> exists y, f x = Ok y /\ In y ys.
Proof.
  revert ys. induction l as [|a l IH]; intros ys H I; [destruct I|]. cbn [map_res] in H. ok H. ok H. injection H as <-. destruct I as [<-|I]; [exists x0; split; [assumption | left; reflexivity]|].
  destruct (IH _ H1 I) as (y & Y1 & Y2). exists y. split; [exact Y1 | right; exact Y2].
Qed.
Lemma dget_in {V} (d : list (str * V)) k v : dget d k = Some v -> In v (map snd d).
Proof. unfold dget. intro H. destruct (find _ d) as [[a w]|] eqn:E; [|discriminate]. injection H as ->. apply find_some in E as [E _]. apply (in_map snd) in E. exact E. Qed.
Theorem C139_shared_refuted : forall num abspath modelpath name1 sub1 name2 sub2 d f1 d1 f2 d2 k n fs l1 l2,
  set_name num abspath modelpath name1 sub1 d = Ok (f1, d1) -> set_name num abspath modelpath name2 sub2 d = Ok (f2, d2) ->
  ~ In k (map S_ ["simulation"; "test_structure"; "output"]%string) -> lookup d k = Some n -> startswith (node_name n) (S_ "output") = true -> startswith (node_name n) (S_ "output_at_time") = false ->
  res_files num n = Ok fs -> res_file_lst num d1 = Ok l1 -> res_file_lst num d2 = Ok l2 -> forall f, In f fs -> In f l1 /\ In f l2.
Proof.
  intros num abspath mp name1 sub1 name2 sub2 d f1 d1 f2 d2 k n fs l1 l2 H1 H2 K L P1 P2 R R1 R2 f I. rewrite lookup_dget in L.
  assert (G : forall f0 d0 l name sub, set_name num abspath mp name sub d = Ok (f0, d0) -> res_file_lst num d0 = Ok l -> In f l).
  { intros f0 d0 l name sub Q1 Q2. apply C139_rest in Q1 as (_ & _ & Q1 & _). assert (X : dget d0 k = Some n) by (rewrite Q1; [exact L|]; intro Z; apply K; cbn in Z |- *; intuition).
    unfold res_file_lst in Q2. ok Q2. injection Q2 as <-. destruct (in_map_res _ _ _ n H) as (y & Y1 & Y2).
    - apply filter_In. split; [eapply dget_in, X|]. unfold output_name. rewrite P1, P2. reflexivity.
    - rewrite R in Y1. injection Y1 as <-. apply in_concat. exists fs. auto. }
  split; [exact (G _ _ _ _ _ H1 R1) | exact (G _ _ _ _ _ H2 R2)].
Qed.
Print Assumptions C139_shared_refuted.

(** A name with a blank is cut: the log file is the part before the blank *)
Lemma ok_inj {A} (a b : A) : Ok a = Ok b -> b = a. Proof. congruence. Qed.
Theorem C139_blank_refuted : forall num abspath modelpath u v subs d f d',
  numbers_have_no_slash num -> file_name u -> is_token v = true -> ~ In "\"%char v -> Forall folder_name subs -> nameable d -> entry d (S_ "simulation") (S_ "logfile") <> None ->
  set_name num abspath modelpath (u ++ S_ " " ++ v) (join (S_ "/") subs) d = Ok (f, d') ->
  exists w, values d' (S_ "simulation") (S_ "logfile") = Some [sim_file (S_ "log") subs u; w].
Proof.
  intros num abspath mp u v subs d f d' HN Hu Tv Bv HS [HL HO] L H. change (S_ "/") with [slash] in H. unfold set_name in H. ok H. ok H. ok H. injection H as _ <-.
  assert (LH : has2 d (S_ "simulation") (S_ "logfile") = true) by (apply entry_has; exact L). rewrite LH in H1. apply bind_ok in H1 as (y & H3 & H1).
  assert (FL : folder_name (S_ "log")) by (unfold folder_name; repeat split; try reflexivity; try discriminate; cbn; intuition discriminate).
  rewrite in_folder_ok in H3; [|exact FL|exact HS|].
  2:{ destruct Hu as (Tu & Bu & Su). split.
      - intro I. apply in_app_or in I as [I|I]; [|cbn in I; intuition discriminate]. apply in_app_or in I as [I|I]; [auto|]. destruct I as [I|I]; [discriminate | auto].
      - destruct u as [|c t]; [discriminate|]. cbn [app startswith S_] in *. exact Su. }
  apply ok_inj in H3. subst y. apply bind_ok in H1 as (x2 & H3 & H1). apply set2_text_ok in H3 as (vs & W & H3).
  assert (E : exists w, vs = [sim_file (S_ "log") subs u; w]).
  { assert (Q : sim_file (S_ "log") subs ((u ++ S_ " " ++ v) ++ S_ ".log") = sim_file (S_ "log") subs u ++ sp :: (v ++ S_ ".log")) by (rewrite !sim_file_eq, <- !app_assoc; reflexivity).
    rewrite Q in W. unfold words in W. rewrite split_ws_app in W by reflexivity. rewrite split_ws_token in W by (apply sim_token; [exact FL|exact HS|apply Hu]).
    rewrite split_ws_token in W by (apply token_app; [exact Tv | reflexivity]). cbn [app map_res] in W. apply bind_ok in W as (p & H4 & W). apply bind_ok in W as (q & H5 & W). injection W as <-. apply bind_ok in H5 as (p' & H5 & H6). cbn [bind] in H6. injection H6 as <-.
    assert (Y := words_path num (S_ "log") subs u HN FL HS (proj1 Hu) (proj1 (proj2 Hu))). unfold words in Y. rewrite split_ws_token in Y by (apply sim_token; [exact FL|exact HS|apply Hu]).
    cbn [map_res] in Y. rewrite H4 in Y. cbn [bind] in Y. injection Y as ->. eauto. }
  destruct E as (w & ->). exists w. destruct (entry_section _ _ _ L) as (n & EN & SN). destruct (set2_touched _ _ _ _ _ H3) as (T & V1 & _).
  assert (VL : values x2 (S_ "simulation") (S_ "logfile") = Some [sim_file (S_ "log") subs u; w]).
  { unfold values. destruct (entry d (S_ "simulation") (S_ "logfile")) as [m|] eqn:EM; [|congruence]. destruct (HL (S_ "simulation") (S_ "logfile") m) as (nm & v0 & vs & c & ->); [cbn; auto|exact EM|]. rewrite (V1 _ _ _ eq_refl). reflexivity. }
  apply bind_ok in H1 as (x3 & H4 & H1). assert (V3 : values x3 (S_ "simulation") (S_ "logfile") = values x2 (S_ "simulation") (S_ "logfile")).
  { destruct (has2 x2 (S_ "simulation") (S_ "animation")); [|injection H4 as <-; reflexivity]. ok H4. apply set2_text_touched in H4. apply (touched_values _ _ _ _ _ _ H4). neq. }
  assert (V4 : values x0 (S_ "simulation") (S_ "logfile") = values x3 (S_ "simulation") (S_ "logfile")).
  { destruct (has2 x3 (S_ "simulation") (S_ "visualization")); [|injection H1 as <-; reflexivity]. ok H1. apply set2_first_touched in H1 as [H1 _]. apply (touched_values _ _ _ _ _ _ H1). neq. }
  assert (V5 : values x1 (S_ "simulation") (S_ "logfile") = values x0 (S_ "simulation") (S_ "logfile")).
  { destruct (dmem x0 (S_ "output")); [|injection H2 as <-; reflexivity]. ok H2. apply set2_text_touched in H2. apply (touched_values _ _ _ _ _ _ H2). neq. }
  congruence.
Qed.
Print Assumptions C139_blank_refuted.

(** ** C140 *)
(** A value of a section inside a section *)
Definition entry3 (d : list (str * node)) (a b k : str) : option node := match entry d a b with Some (Sec _ _ _ _ cont _) => lookup cont k | _ => None end.
Definition values3 (d : list (str * node)) (a b k : str) : option (list str) := match entry3 d a b k with Some (Line _ vs _) => Some vs | _ => None end.
Definition TIMES : list (str * str) := map (fun p => (S_ (fst p), S_ (snd p))) [("simulation", "time_stop"); ("simulation", "newmark"); ("output", "time"); ("wind", "scale_time_start")]%string.
(** A simulation with its times *)
Record timed (d : list (str * node)) : Prop := mk_timed {
  t_newmark : exists n, entry d (S_ "simulation") (S_ "newmark") = Some n /\ a_section n;
  t_stop : exists n, entry d (S_ "simulation") (S_ "time_stop") = Some n /\ a_line n;
  t_output : exists n, lookup d (S_ "output") = Some n /\ a_section n;
  t_wind : forall n, lookup d (S_ "wind") = Some n -> a_section n;
  t_time : forall n, entry d (S_ "output") (S_ "time") = Some n -> a_line n;
  t_scale : forall n, entry d (S_ "wind") (S_ "scale_time_start") = Some n -> a_line n;
  t_deltat : forall n, entry3 d (S_ "simulation") (S_ "newmark") (S_ "deltat") = Some n -> a_line n }.
Lemma set3_ok d a b k vs : (exists n, entry d a b = Some n /\ a_section n) -> (forall n, entry3 d a b k = Some n -> a_line n) ->
  exists d', set3 d a b k vs = Ok d' /\ touched a b d d' /\ values3 d' a b k = Some vs /\ (forall j, j <> k -> entry3 d' a b j = entry3 d a b j) /\
    exists n n', entry d a b = Some n /\ entry d' a b = Some n' /\ same_heading n n'.
Proof.
  intros (n & H & kd & nm & bc & ec & cont & ss & ->) L. unfold entry in H. rewrite lookup_dget in H. destruct (dget d a) as [[|kd' nm' bc' ec' cont' ss']|] eqn:E; try discriminate. rewrite lookup_dget in H.
  unfold set3, attr. rewrite E. cbn [bind]. rewrite H. cbn [bind set_in]. eexists. split; [reflexivity|].
  assert (EN : forall j, entry3 (dset d a (Sec kd' nm' bc' ec' (dset cont' b (Sec kd nm bc ec (set_key cont k vs) ss)) ss')) a b j = dget (set_key cont k vs) j).
  { intro j. unfold entry3, entry. rewrite !lookup_dget, dget_dset, str_eqb_refl, lookup_dget, dget_dset, str_eqb_refl, lookup_dget. reflexivity. }
  assert (EO : forall j, entry3 d a b j = dget cont j) by (intro j; unfold entry3, entry; rewrite lookup_dget, E, lookup_dget, H, lookup_dget; reflexivity).
  split; [|split; [|split]].
  - split; [apply keys_dset; congruence|]. split.
    + intros j N. rewrite dget_dset. destruct (str_eqb a j) eqn:X; [apply str_eqb_eq in X; congruence | reflexivity].
    + do 7 eexists. split; [reflexivity || exact E|]. rewrite dget_dset, str_eqb_refl. split; [reflexivity|]. intros j N. rewrite dget_dset. destruct (str_eqb b j) eqn:X; [apply str_eqb_eq in X; congruence | reflexivity].
  - unfold values3. rewrite EN. unfold set_key. rewrite dget_dset, str_eqb_refl. destruct (dget cont k) as [m|] eqn:M; [|reflexivity].
    destruct (L m) as (nm1 & v & w & c & ->); [rewrite EO; exact M|]. reflexivity.
  - intros j N. rewrite EN, EO. unfold set_key. rewrite dget_dset. destruct (str_eqb k j) eqn:X; [apply str_eqb_eq in X; congruence | reflexivity].
  - eexists _, _. unfold entry. rewrite !lookup_dget, E, dget_dset, str_eqb_refl, !lookup_dget, H, dget_dset, str_eqb_refl. split; [reflexivity|]. split; [reflexivity|]. cbn. auto.
Qed.
Lemma touched_entry3 a k d d' x y z : touched a k d d' -> (x, y) <> (a, k) -> entry3 d' x y z = entry3 d x y z.
Proof. intros T N. unfold entry3. rewrite (touched_entry _ _ _ _ _ _ T N). reflexivity. Qed.
Lemma touched_look a k d d' x : touched a k d d' -> x <> a -> lookup d' x = lookup d x.
Proof. intros (_ & T & _) N. rewrite !lookup_dget. apply T, N. Qed.
Definition or_old {A} (new : option A) (old : option (list A)) : option (list A) := match new with Some t => Some [t] | None => old end.
(** The times that are given are set, the last one being taken from the file when only the first is given; nothing else changes *)
Theorem C140_times : forall start stop step d, timed d ->
  exists d' last, set_time start stop step d = Ok d' /\ only TIMES d d' /\
    values d' (S_ "simulation") (S_ "time_stop") = or_old stop (values d (S_ "simulation") (S_ "time_stop")) /\
    (match stop with Some t => last = t | None => exists l, values d (S_ "simulation") (S_ "time_stop") = Some (last :: l) end) /\
    values3 d' (S_ "simulation") (S_ "newmark") (S_ "deltat") = or_old step (values3 d (S_ "simulation") (S_ "newmark") (S_ "deltat")) /\
    (forall j, j <> S_ "deltat" -> entry3 d' (S_ "simulation") (S_ "newmark") j = entry3 d (S_ "simulation") (S_ "newmark") j) /\
    match start with
    | Some t => values d' (S_ "output") (S_ "time") = Some [t; last] /\
                values d' (S_ "wind") (S_ "scale_time_start") = match lookup d (S_ "wind") with Some _ => Some [t] | None => None end
    | None => lookup d' (S_ "output") = lookup d (S_ "output") /\ lookup d' (S_ "wind") = lookup d (S_ "wind")
    end.
Proof.
  intros start stop step d T. unfold set_time. destruct (t_stop _ T) as (m & EM & nm & v & vs & c & ->).
  match goal with |- context [bind ?r _ = _] => set (R := r) end.
  assert (A : exists d1 last, R = Ok (d1, last) /\ (touched (S_ "simulation") (S_ "time_stop") d d1 \/ d1 = d) /\
     values d1 (S_ "simulation") (S_ "time_stop") = or_old stop (values d (S_ "simulation") (S_ "time_stop")) /\
     (match stop with Some t => last = t | None => exists l, values d (S_ "simulation") (S_ "time_stop") = Some (last :: l) end)).
  { unfold R. destruct stop as [t|].
    - destruct (set2_ok d (S_ "simulation") (S_ "time_stop") [t]) as (d1 & Q & T1 & V); [eapply entry_section; rewrite EM; discriminate|intros n E; rewrite EM in E; injection E as <-; repeat eexists|reflexivity|].
      rewrite Q. exists d1, t. split; [reflexivity|]. split; [left; exact T1|]. split; [exact V | reflexivity].
    - pose proof EM as EM'. unfold entry in EM'. rewrite lookup_dget in EM'. unfold attr. destruct (dget d (S_ "simulation")) as [[|kd nm' bc ec cont ss]|] eqn:ES; try discriminate. rewrite lookup_dget in EM'.
      cbn [bind sub]. unfold attr. rewrite EM'. cbn [bind item nth_error]. exists d, v. split; [reflexivity|]. split; [right; reflexivity|]. split; [reflexivity|]. exists vs. unfold values. rewrite EM. reflexivity. }
  destruct A as (d1 & last & Q1 & T1 & V1 & W1). rewrite Q1. cbn [bind]. clear R Q1.
  assert (E3 : forall j, entry3 d1 (S_ "simulation") (S_ "newmark") j = entry3 d (S_ "simulation") (S_ "newmark") j).
  { intro j. destruct T1 as [T1 | ->]; [|reflexivity]. apply (touched_entry3 _ _ _ _ _ _ _ T1). neq. }
  assert (EN : entry d1 (S_ "simulation") (S_ "newmark") = entry d (S_ "simulation") (S_ "newmark")).
  { destruct T1 as [T1 | ->]; [|reflexivity]. apply (touched_entry _ _ _ _ _ _ T1). neq. }
  assert (L1 : forall x, x <> S_ "simulation" -> lookup d1 x = lookup d x).
  { intros x N. destruct T1 as [T1 | ->]; [|reflexivity]. apply (touched_look _ _ _ _ _ T1), N. }
  assert (O1 : only TIMES d d1) by (destruct T1 as [T1 | ->]; [eapply touched_only; [exact T1 | cbn; auto] | apply only_refl]).
  match goal with |- context [bind ?r _ = _] => set (R := r) end.
  assert (A : exists d2, R = Ok d2 /\ (touched (S_ "simulation") (S_ "newmark") d1 d2 \/ d2 = d1) /\
     values3 d2 (S_ "simulation") (S_ "newmark") (S_ "deltat") = or_old step (values3 d (S_ "simulation") (S_ "newmark") (S_ "deltat")) /\
     (forall j, j <> S_ "deltat" -> entry3 d2 (S_ "simulation") (S_ "newmark") j = entry3 d (S_ "simulation") (S_ "newmark") j)).
  { unfold R. destruct step as [dt|].
    - destruct (set3_ok d1 (S_ "simulation") (S_ "newmark") (S_ "deltat") [dt]) as (d2 & Q & T2 & V & X & _); [rewrite EN; apply (t_newmark _ T)|intros n; rewrite E3; apply (t_deltat _ T)|].
      rewrite Q. exists d2. split; [reflexivity|]. split; [left; exact T2|]. split; [exact V|]. intros j N. rewrite X by exact N. apply E3.
    - exists d1. split; [reflexivity|]. split; [right; reflexivity|]. unfold values3. rewrite E3. split; [reflexivity|]. intros j _. apply E3. }
  destruct A as (d2 & Q2 & T2 & V2 & X2). rewrite Q2. cbn [bind]. clear R Q2.
  assert (VS : values d2 (S_ "simulation") (S_ "time_stop") = or_old stop (values d (S_ "simulation") (S_ "time_stop"))).
  { rewrite <- V1. destruct T2 as [T2 | ->]; [|reflexivity]. apply (touched_values _ _ _ _ _ _ T2). neq. }
  assert (L2 : forall x, x <> S_ "simulation" -> lookup d2 x = lookup d x).
  { intros x N. rewrite <- L1 by exact N. destruct T2 as [T2 | ->]; [|reflexivity]. apply (touched_look _ _ _ _ _ T2), N. }
  assert (O2 : only TIMES d d2).
  { eapply only_trans; [exact O1|]. destruct T2 as [T2 | ->]; [eapply touched_only; [exact T2 | cbn; auto] | apply only_refl]. }
  destruct start as [t0|].
  2:{ exists d2, last. split; [reflexivity|]. split; [exact O2|]. split; [exact VS|]. split; [exact W1|]. split; [exact V2|]. split; [exact X2|]. split; apply L2; discriminate. }
  destruct (set2_ok d2 (S_ "output") (S_ "time") [t0; last]) as (d3 & Q3 & T3 & V3).
  { destruct (t_output _ T) as (n & En & An). exists n. rewrite <- lookup_dget, L2 by discriminate. auto. }
  { intros n. unfold entry. rewrite L2 by discriminate. apply (t_time _ T). }
  { reflexivity. }
  rewrite Q3. cbn [bind]. rewrite (touched_mem _ _ _ _ (S_ "wind") T3), dmem_dget, <- lookup_dget, L2 by discriminate.
  assert (O3 : only TIMES d d3) by (eapply only_trans; [exact O2 | eapply touched_only; [exact T3 | cbn; auto]]).
  assert (E33 : forall j, entry3 d3 (S_ "simulation") (S_ "newmark") j = entry3 d2 (S_ "simulation") (S_ "newmark") j) by (intro j; apply (touched_entry3 _ _ _ _ _ _ _ T3); neq).
  assert (VS3 : values d3 (S_ "simulation") (S_ "time_stop") = values d2 (S_ "simulation") (S_ "time_stop")) by (apply (touched_values _ _ _ _ _ _ T3); neq).
  destruct (lookup d (S_ "wind")) as [w|] eqn:EW.
  - destruct (set2_ok d3 (S_ "wind") (S_ "scale_time_start") [t0]) as (d4 & Q4 & T4 & V4).
    { exists w. rewrite <- lookup_dget, (touched_look _ _ _ _ _ T3), L2 by discriminate. split; [exact EW | apply (t_wind _ T), EW]. }
    { intros n. rewrite (touched_entry _ _ _ _ _ _ T3) by neq. unfold entry. rewrite L2 by discriminate. apply (t_scale _ T). }
    { reflexivity. }
    rewrite Q4. exists d4, last. split; [reflexivity|]. split; [eapply only_trans; [exact O3 | eapply touched_only; [exact T4 | cbn; auto]]|].
    split; [rewrite (touched_values _ _ _ _ _ _ T4) by neq; congruence|]. split; [exact W1|].
    assert (E34 : forall j, entry3 d4 (S_ "simulation") (S_ "newmark") j = entry3 d2 (S_ "simulation") (S_ "newmark") j) by (intro j; rewrite (touched_entry3 _ _ _ _ _ _ _ T4) by neq; apply E33).
    split; [unfold values3; rewrite E34; exact V2|]. split; [intros j N; rewrite E34; auto|]. split; [rewrite (touched_values _ _ _ _ _ _ T4) by neq; exact V3 | exact V4].
  - exists d3, last. split; [reflexivity|]. split; [exact O3|]. split; [congruence|]. split; [exact W1|]. split; [unfold values3; rewrite E33; exact V2|]. split; [intros j N; rewrite E33; auto|]. split; [exact V3|].
    unfold values, entry. rewrite (touched_look _ _ _ _ _ T3), L2, EW by discriminate. reflexivity.
Qed.
Print Assumptions C140_times.
(** With a new stop and no start, the output still ends at the old time *)
Theorem C140_stop_refuted : forall t step d d' a b, timed d -> values d (S_ "output") (S_ "time") = Some [a; b] -> b <> t -> set_time None (Some t) step d = Ok d' ->
  values d' (S_ "simulation") (S_ "time_stop") = Some [t] /\ values d' (S_ "output") (S_ "time") = Some [a; b].
Proof.
  intros t step d d' a b T V N E. destruct (C140_times None (Some t) step d T) as (d1 & last & Q & _ & S & _ & _ & _ & L & _). rewrite E in Q. injection Q as <-. split; [exact S|]. unfold values, entry in *. rewrite L. exact V.
Qed.
Print Assumptions C140_stop_refuted.
(** The same for aerodynamic simulations, where the start of the wind is only set with turbulence *)
Definition TIMES_AERO : list (str * str) := map (fun p => (S_ (fst p), S_ (snd p))) [("test_structure", "time_stop"); ("test_structure", "deltat"); ("output", "time"); ("wind", "scale_time_start")]%string.
Record timed_aero (d : list (str * node)) : Prop := mk_timed_aero {
  a_stop : exists n, entry d (S_ "test_structure") (S_ "time_stop") = Some n /\ a_line n;
  a_deltat : forall n, entry d (S_ "test_structure") (S_ "deltat") = Some n -> a_line n;
  a_output : exists n, lookup d (S_ "output") = Some n /\ a_section n;
  a_time : forall n, entry d (S_ "output") (S_ "time") = Some n -> a_line n;
  a_scale : forall n, entry d (S_ "wind") (S_ "scale_time_start") = Some n -> a_line n }.
Theorem C140_aero : forall positive start stop step d turbulent, timed_aero d ->
  (lookup d (S_ "wind") <> None -> exists v vs, values d (S_ "wind") (S_ "turb_format") = Some (v :: vs) /\ positive v = Ok turbulent) ->
  exists d' last, set_time_aero positive start stop step d = Ok d' /\ only TIMES_AERO d d' /\
    values d' (S_ "test_structure") (S_ "time_stop") = or_old stop (values d (S_ "test_structure") (S_ "time_stop")) /\
    (match stop with Some t => last = t | None => exists l, values d (S_ "test_structure") (S_ "time_stop") = Some (last :: l) end) /\
    values d' (S_ "test_structure") (S_ "deltat") = or_old step (values d (S_ "test_structure") (S_ "deltat")) /\
    match start with
    | Some t => values d' (S_ "output") (S_ "time") = Some [t; last] /\
                match lookup d (S_ "wind"), turbulent with
                | Some _, true => values d' (S_ "wind") (S_ "scale_time_start") = Some [t]
                | _, _ => lookup d' (S_ "wind") = lookup d (S_ "wind")
                end
    | None => lookup d' (S_ "output") = lookup d (S_ "output") /\ lookup d' (S_ "wind") = lookup d (S_ "wind")
    end.
Proof.
  intros positive start stop step d turbulent T HW. unfold set_time_aero. destruct (a_stop _ T) as (m & EM & nm & v & vs & c & ->).
  match goal with |- context [bind ?r _ = _] => set (R := r) end.
  assert (A : exists d1 last, R = Ok (d1, last) /\ (touched (S_ "test_structure") (S_ "time_stop") d d1 \/ d1 = d) /\
     values d1 (S_ "test_structure") (S_ "time_stop") = or_old stop (values d (S_ "test_structure") (S_ "time_stop")) /\
     (match stop with Some t => last = t | None => exists l, values d (S_ "test_structure") (S_ "time_stop") = Some (last :: l) end)).
  { unfold R. destruct stop as [t|].
    - destruct (set2_ok d (S_ "test_structure") (S_ "time_stop") [t]) as (d1 & Q & T1 & V); [eapply entry_section; rewrite EM; discriminate|intros n E; rewrite EM in E; injection E as <-; repeat eexists|reflexivity|].
      rewrite Q. exists d1, t. split; [reflexivity|]. split; [left; exact T1|]. split; [exact V | reflexivity].
    - pose proof EM as EM'. unfold entry in EM'. rewrite lookup_dget in EM'. unfold attr. destruct (dget d (S_ "test_structure")) as [[|kd nm' bc ec cont ss]|] eqn:ES; try discriminate. rewrite lookup_dget in EM'.
      cbn [bind sub]. unfold attr. rewrite EM'. cbn [bind item nth_error]. exists d, v. split; [reflexivity|]. split; [right; reflexivity|]. split; [reflexivity|]. exists vs. unfold values. rewrite EM. reflexivity. }
  destruct A as (d1 & last & Q1 & T1 & V1 & W1). rewrite Q1. cbn [bind]. clear R Q1.
  assert (ED : entry d1 (S_ "test_structure") (S_ "deltat") = entry d (S_ "test_structure") (S_ "deltat")).
  { destruct T1 as [T1 | ->]; [|reflexivity]. apply (touched_entry _ _ _ _ _ _ T1). neq. }
  assert (L1 : forall x, x <> S_ "test_structure" -> lookup d1 x = lookup d x).
  { intros x N. destruct T1 as [T1 | ->]; [|reflexivity]. apply (touched_look _ _ _ _ _ T1), N. }
  assert (O1 : only TIMES_AERO d d1) by (destruct T1 as [T1 | ->]; [eapply touched_only; [exact T1 | cbn; auto] | apply only_refl]).
  assert (S1 : exists n, dget d1 (S_ "test_structure") = Some n /\ a_section n).
  { assert (X : exists n, dget d (S_ "test_structure") = Some n /\ a_section n) by (eapply entry_section; rewrite EM; discriminate). destruct T1 as [T1 | ->]; [eapply touched_section; eauto | exact X]. }
  match goal with |- context [bind ?r _ = _] => set (R := r) end.
  assert (A : exists d2, R = Ok d2 /\ (touched (S_ "test_structure") (S_ "deltat") d1 d2 \/ d2 = d1) /\
     values d2 (S_ "test_structure") (S_ "deltat") = or_old step (values d (S_ "test_structure") (S_ "deltat"))).
  { unfold R. destruct step as [dt|].
    - destruct (set2_ok d1 (S_ "test_structure") (S_ "deltat") [dt] S1) as (d2 & Q & T2 & V); [intros n; rewrite ED; apply (a_deltat _ T)|reflexivity|].
      rewrite Q. exists d2. split; [reflexivity|]. split; [left; exact T2|]. exact V.
    - exists d1. split; [reflexivity|]. split; [right; reflexivity|]. unfold values. rewrite ED. reflexivity. }
  destruct A as (d2 & Q2 & T2 & V2). rewrite Q2. cbn [bind]. clear R Q2.
  assert (VS : values d2 (S_ "test_structure") (S_ "time_stop") = or_old stop (values d (S_ "test_structure") (S_ "time_stop"))).
  { rewrite <- V1. destruct T2 as [T2 | ->]; [|reflexivity]. apply (touched_values _ _ _ _ _ _ T2). neq. }
  assert (L2 : forall x, x <> S_ "test_structure" -> lookup d2 x = lookup d x).
  { intros x N. rewrite <- L1 by exact N. destruct T2 as [T2 | ->]; [|reflexivity]. apply (touched_look _ _ _ _ _ T2), N. }
  assert (O2 : only TIMES_AERO d d2).
  { eapply only_trans; [exact O1|]. destruct T2 as [T2 | ->]; [eapply touched_only; [exact T2 | cbn; auto] | apply only_refl]. }
  destruct start as [t0|].
  2:{ exists d2, last. split; [reflexivity|]. split; [exact O2|]. split; [exact VS|]. split; [exact W1|]. split; [exact V2|]. split; apply L2; discriminate. }
  destruct (set2_ok d2 (S_ "output") (S_ "time") [t0; last]) as (d3 & Q3 & T3 & V3).
  { destruct (a_output _ T) as (n & En & An). exists n. rewrite <- lookup_dget, L2 by discriminate. auto. }
  { intros n. unfold entry. rewrite L2 by discriminate. apply (a_time _ T). }
  { reflexivity. }
  rewrite Q3. cbn [bind].
  assert (LW : lookup d3 (S_ "wind") = lookup d (S_ "wind")) by (rewrite (touched_look _ _ _ _ _ T3), L2 by discriminate; reflexivity).
  assert (O3 : only TIMES_AERO d d3) by (eapply only_trans; [exact O2 | eapply touched_only; [exact T3 | cbn; auto]]).
  assert (VS3 : forall k, values d3 (S_ "test_structure") k = values d2 (S_ "test_structure") k) by (intro k; apply (touched_values _ _ _ _ _ _ T3); intros [= X]; discriminate).
  rewrite <- lookup_dget, LW. destruct (lookup d (S_ "wind")) as [w|] eqn:EW.
  - destruct (HW ltac:(discriminate)) as (f & fs & VF & P). unfold values, entry in VF. rewrite EW in VF. destruct w as [|kd nm' bc ec cont ss]; [discriminate|]. rewrite lookup_dget in VF.
    cbn [sub]. unfold attr. destruct (dget cont (S_ "turb_format")) as [[? ? ?|]|]; try discriminate. injection VF as ->. cbn [bind item nth_error]. rewrite P. cbn [bind]. destruct turbulent.
    + destruct (set2_ok d3 (S_ "wind") (S_ "scale_time_start") [t0]) as (d4 & Q4 & T4 & V4).
      { eexists. rewrite <- lookup_dget, LW. split; [reflexivity|]. repeat eexists. }
      { intros n. rewrite (touched_entry _ _ _ _ _ _ T3) by neq. unfold entry. rewrite L2 by discriminate. apply (a_scale _ T). }
      { reflexivity. }
      rewrite Q4. exists d4, last. split; [reflexivity|]. split; [eapply only_trans; [exact O3 | eapply touched_only; [exact T4 | cbn; auto]]|].
      rewrite !(touched_values _ _ _ _ (S_ "test_structure") _ T4), !VS3 by neq. split; [exact VS|]. split; [exact W1|]. split; [exact V2|]. split; [rewrite (touched_values _ _ _ _ _ _ T4) by neq; exact V3 | exact V4].
    + exists d3, last. split; [reflexivity|]. split; [exact O3|]. rewrite !VS3. split; [exact VS|]. split; [exact W1|]. split; [exact V2|]. split; [exact V3 | exact LW].
  - exists d3, last. split; [reflexivity|]. split; [exact O3|]. rewrite !VS3. split; [exact VS|]. split; [exact W1|]. split; [exact V2|]. split; [exact V3 | exact LW].
Qed.
Print Assumptions C140_aero.

(** ** C141 *)
Lemma plus_ok num v e x : plus num v e = Ok x <-> num v = None /\ x = v ++ e.
Proof. unfold plus, is_text. destruct (num v); split; try discriminate; [intros [H _]; discriminate|intro H; injection H as <-; auto|intros [_ ->]; reflexivity]. Qed.
(** The files of an output: what its format says of its file name, which is a text *)
Definition first_value (cont : list (str * node)) (k : string) (v : str) : Prop := exists nm vs c, lookup cont (S_ k) = Some (Line nm (v :: vs) c).
Inductive results_of (num : str -> option (res str)) (cont : list (str * node)) : list str -> Prop :=
| results_gtsdf f fmt : first_value cont "filename" f -> num f = None -> first_value cont "data_format" fmt -> fmt = S_ "gtsdf" \/ fmt = S_ "gtsdf64" -> results_of num cont [f ++ S_ ".hdf5"]
| results_flex f : first_value cont "filename" f -> num f = None -> first_value cont "data_format" (S_ "flex_int") -> results_of num cont [f ++ S_ ".int"; Deck_Model.path_join (Deck_Model.dirname f) (S_ "sensor")]
| results_other f fmt : first_value cont "filename" f -> num f = None -> first_value cont "data_format" fmt -> ~ In fmt (map S_ ["gtsdf"; "gtsdf64"; "flex_int"]%string) -> results_of num cont [f ++ S_ ".sel"; f ++ S_ ".dat"]
| results_ascii f : first_value cont "filename" f -> num f = None -> lookup cont (S_ "data_format") = None -> results_of num cont [f ++ S_ ".sel"; f ++ S_ ".dat"].
Definition an_output (n : node) : Prop := exists t, node_name n = S_ "output" ++ t /\ forall u, t <> S_ "_at_time" ++ u.
Inductive all_results (num : str -> option (res str)) : list (str * node) -> list str -> Prop :=
| all_nil : all_results num [] []
| all_skip k n d l : ~ an_output n -> all_results num d l -> all_results num ((k, n) :: d) l
| all_take k kd nm bc ec cont ss d fs l : an_output (Sec kd nm bc ec cont ss) -> results_of num cont fs -> all_results num d l -> all_results num ((k, Sec kd nm bc ec cont ss) :: d) (fs ++ l).
Lemma item_first cont k v : (l <- attr cont (S_ k) ;; item l 0) = Ok v <-> first_value cont k v.
Proof.
  unfold attr, first_value. rewrite lookup_dget. destruct (dget cont (S_ k)) as [[nm vs c|]|]; cbn [bind item].
  - destruct vs as [|w vs]; cbn [nth_error]; split; try discriminate; [intros (? & ? & ? & H); discriminate|intro H; injection H as ->; eauto|intros (? & ? & ? & H); injection H as _ -> _ _; reflexivity].
  - split; [discriminate|]. intros (? & ? & ? & H). discriminate.
  - split; [discriminate|]. intros (? & ? & ? & H). discriminate.
Qed.
Lemma res_files_ok num kd nm bc ec cont ss fs : res_files num (Sec kd nm bc ec cont ss) = Ok fs <-> results_of num cont fs.
Proof.
  cbn [res_files]. split.
  - intro H. apply bind_ok in H as (f & F & H). apply bind_ok in H as (fmt & M & H). apply item_first in F.
    destruct (dget cont (S_ "data_format")) as [l|] eqn:E.
    + assert (FM : first_value cont "data_format" fmt) by (apply item_first; unfold attr; rewrite E; exact M).
      destruct (str_eqb fmt (S_ "gtsdf") || str_eqb fmt (S_ "gtsdf64")) eqn:G.
      { ok H. injection H as <-. apply plus_ok in H0 as [N ->]. apply results_gtsdf with (fmt := fmt); auto. apply Bool.orb_true_iff in G as [G|G]; apply str_eqb_eq in G; auto. }
      apply Bool.orb_false_iff in G as [G1 G2]. destruct (str_eqb fmt (S_ "flex_int")) eqn:G3.
      { apply str_eqb_eq in G3. subst fmt. ok H. injection H as <-. apply plus_ok in H0 as [N ->]. apply results_flex; auto. }
      ok H. ok H. injection H as <-. apply plus_ok in H0 as [N ->]. apply plus_ok in H1 as [_ ->]. apply results_other with (fmt := fmt); auto.
      intros [X|[X|[X|[]]]]; subst fmt; rewrite str_eqb_refl in *; discriminate.
    + injection M as <-. cbn in H. ok H. ok H. injection H as <-. apply plus_ok in H0 as [N ->]. apply plus_ok in H1 as [_ ->]. apply results_ascii; auto. rewrite lookup_dget. exact E.
  - intro H. assert (P : forall f e, num f = None -> plus num f e = Ok (f ++ e)) by (intros; apply plus_ok; auto).
    assert (D : forall fmt, first_value cont "data_format" fmt -> (match dget cont (S_ "data_format") with Some l => item l 0 | None => Ok (S_ "h") end) = Ok fmt).
    { intros fmt F. apply item_first in F. unfold attr in F. destruct (dget cont (S_ "data_format")); [exact F | discriminate]. }
    destruct H as [f fmt F N M G|f F N M|f fmt F N M G|f F N M]; apply item_first in F; rewrite F; cbn [bind].
    + rewrite (D _ M). cbn [bind]. replace (str_eqb fmt (S_ "gtsdf") || str_eqb fmt (S_ "gtsdf64")) with true by (destruct G as [-> | ->]; reflexivity). rewrite P by exact N. reflexivity.
    + rewrite (D _ M). cbn [bind]. change (str_eqb (S_ "flex_int") (S_ "gtsdf")) with false. change (str_eqb (S_ "flex_int") (S_ "gtsdf64")) with false. rewrite str_eqb_refl. cbn [orb]. rewrite P by exact N. reflexivity.
    + rewrite (D _ M). cbn [bind]. replace (str_eqb fmt (S_ "gtsdf")) with false; [replace (str_eqb fmt (S_ "gtsdf64")) with false; [replace (str_eqb fmt (S_ "flex_int")) with false|]|]; cbn [orb].
      * rewrite !P by exact N. reflexivity.
      * symmetry. apply Bool.not_true_iff_false. intro X. apply str_eqb_eq in X. apply G. subst. cbn. auto.
      * symmetry. apply Bool.not_true_iff_false. intro X. apply str_eqb_eq in X. apply G. subst. cbn. auto.
      * symmetry. apply Bool.not_true_iff_false. intro X. apply str_eqb_eq in X. apply G. subst. cbn. auto.
    + rewrite lookup_dget in M. rewrite M. cbn [bind]. change (str_eqb (S_ "h") (S_ "gtsdf")) with false. change (str_eqb (S_ "h") (S_ "gtsdf64")) with false. change (str_eqb (S_ "h") (S_ "flex_int")) with false. cbn [orb]. rewrite !P by exact N. reflexivity.
Qed.
Lemma output_name_ok n : output_name (node_name n) = true <-> an_output n.
Proof.
  unfold output_name, an_output. split.
  - intro H. apply andb_inv in H as [A B]. apply startswith_iff in A as (t & A). exists t. split; [exact A|]. intros u ->. rewrite A in B. discriminate B.
  - intros (t & -> & N). assert (X : startswith (S_ "output" ++ t) (S_ "output_at_time") = startswith t (S_ "_at_time")) by reflexivity. rewrite X.
    destruct (startswith t (S_ "_at_time")) eqn:E; [apply startswith_iff in E as (u & ->); exfalso; apply (N u); reflexivity | reflexivity].
Qed.
(** The list of results: the files of the outputs, in their order *)
Theorem C141_results : forall num d l, res_file_lst num d = Ok l <-> all_results num d l.
Proof.
  intros num d l. unfold res_file_lst. split.
  - intro H. apply bind_ok in H as (ls & H & E). injection E as <-. revert ls H. induction d as [|[k n] d IH]; intros ls H; cbn [map filter] in H.
    + injection H as <-. constructor.
    + destruct (output_name (node_name (snd (k, n)))) eqn:O; cbn [snd] in O.
      * cbn [map_res] in H. apply bind_ok in H as (fs & F & H). apply bind_ok in H as (r & R & H). injection H as <-. cbn [snd] in F. destruct n as [|kd nm bc ec cont ss]; [discriminate|]. cbn [concat]. apply res_files_ok in F. constructor; [apply output_name_ok, O|exact F|apply IH, R].
      * apply all_skip; [intro X; apply output_name_ok in X; congruence|]. apply IH, H.
  - induction 1 as [|k n d l O H IH|k kd nm bc ec cont ss d fs l O F H IH]; [reflexivity| |]; cbn [map filter snd].
    + replace (output_name (node_name n)) with false; [exact IH|]. symmetry. apply Bool.not_true_iff_false. intro X. apply output_name_ok in X. contradiction.
    + apply output_name_ok in O. rewrite O. cbn [map_res]. apply res_files_ok with (kd := kd) (nm := nm) (bc := bc) (ec := ec) (ss := ss) in F. rewrite F. cbn [bind].
      apply bind_ok in IH as (ls & E & L). rewrite E. cbn [bind]. injection L as <-. reflexivity.
Qed.
Print Assumptions C141_results.
(** The files of the turbulence: those of the section of the format, for the three components; a missing one is left out, and so is 0 *)
Definition usable (num : str -> option (res str)) (v : str) : Prop := v <> [] /\ (num v = None \/ v <> S_ "0").
Definition component (num : str -> option (res str)) (d : list (str * node)) (a b k : string) (o : list str) : Prop :=
  (exists v vs, values3 d (S_ a) (S_ b) (S_ k) = Some (v :: vs) /\ (usable num v /\ o = [v] \/ ~ usable num v /\ o = [])) \/
  (o = [] /\ (lookup d (S_ a) = None \/ (exists n, lookup d (S_ a) = Some n /\ a_section n) /\ (entry d (S_ a) (S_ b) = None \/ (exists n, entry d (S_ a) (S_ b) = Some n /\ a_section n) /\ entry3 d (S_ a) (S_ b) (S_ k) = None))).
Inductive turbulence (num : str -> option (res str)) (d : list (str * node)) : list str -> Prop :=
| turb_none : lookup d (S_ "wind") = None -> turbulence num d []
| turb_zero l : values d (S_ "wind") (S_ "turb_format") = Some (S_ "0" :: l) -> turbulence num d []
| turb_files l f b u v w : values d (S_ "wind") (S_ "turb_format") = Some (S_ f :: l) -> In (f, b) [("1", "mann"); ("2", "flex")]%string ->
    component num d "wind" b "filename_u" u -> component num d "wind" b "filename_v" v -> component num d "wind" b "filename_w" w -> turbulence num d (u ++ v ++ w).
Lemma present_app num a b : present num (a ++ b) = present num a ++ present num b. Proof. unfold present. apply flat_map_app. Qed.
Lemma usable_dec num v : nonempty v && (is_text num v || negb (str_eqb v (S_ "0"))) = true <-> usable num v.
Proof.
  unfold usable, is_text. split.
  - intro H. apply andb_inv in H as [A B]. split; [destruct v; discriminate|]. apply Bool.orb_true_iff in B as [B|B]; [destruct (num v); [discriminate | auto]|]. right. intros ->. rewrite str_eqb_refl in B. discriminate.
  - intros [A B]. destruct v as [|c t]; [contradiction|]. cbn [nonempty andb]. apply Bool.orb_true_iff. destruct B as [-> | B]; [auto|]. right. destruct (str_eqb (c :: t) (S_ "0")) eqn:E; [apply str_eqb_eq in E; contradiction | reflexivity].
Qed.
Lemma present_one num v o : present num [Some v] = o <-> (usable num v /\ o = [v] \/ ~ usable num v /\ o = []).
Proof.
  unfold present. cbn [flat_map]. rewrite app_nil_r. pose proof (usable_dec num v) as U. destruct (nonempty v && (is_text num v || negb (str_eqb v (S_ "0")))).
  - split; [intros <-; left; split; [apply U|]; reflexivity|]. intros [[_ ->]|[X _]]; [reflexivity|]. exfalso. apply X, U. reflexivity.
  - split; [intros <-; right; split; [intro X; apply U in X; discriminate | reflexivity]|]. intros [[X _]|[_ ->]]; [apply U in X; discriminate | reflexivity].
Qed.
Lemma get3_ok num d a b k o : (exists x, get3 d (S_ a) (S_ b) (S_ k) = Ok x /\ present num [x] = o) <-> component num d a b k o.
Proof.
  unfold get3, component, values3, entry3, entry. rewrite lookup_dget. destruct (dget d (S_ a)) as [[nm vs c|kd nm bc ec cont ss]|].
  - split; [intros (x & H & _); discriminate|]. intros [(v & l & H & _)|[_ [H|[(n & H & K) _]]]]; try discriminate. injection H as <-. destruct K as (? & ? & ? & ? & ? & ? & K). discriminate.
  - rewrite !lookup_dget. destruct (dget cont (S_ b)) as [[nm' vs c|kd' nm' bc' ec' cont' ss']|].
    + split; [intros (x & H & _); discriminate|]. intros [(v & l & H & _)|[_ [H|[_ [H|[(n & H & K) _]]]]]]; try discriminate. injection H as <-. destruct K as (? & ? & ? & ? & ? & ? & K). discriminate.
    + rewrite !lookup_dget. destruct (dget cont' (S_ k)) as [[nm2 [|v vs] c2|kd2 nm2 bc2 ec2 cont2 ss2]|]; cbn [item nth_error bind].
      * split; [intros (x & H & _); discriminate|]. intros [(v & l & H & _)|[_ [H|[_ [H|[_ H]]]]]]; discriminate.
      * split.
        { intros (x & H & P). injection H as <-. left. exists v, vs. split; [reflexivity|]. apply present_one, P. }
        { intros [(v' & l & H & P)|[_ [H|[_ [H|[_ H]]]]]]; try discriminate. injection H as -> ->. exists (Some v'). split; [reflexivity|]. apply present_one, P. }
      * split; [intros (x & H & _); discriminate|]. intros [(v & l & H & _)|[_ [H|[_ [H|[_ H]]]]]]; discriminate.
      * split; [intros (x & H & P); injection H as <-; right; split; [symmetry; exact P|]; right; split; [eexists; split; [reflexivity|]; repeat eexists|]; right; split; [eexists; split; [reflexivity|]; repeat eexists | reflexivity]|].
        intros [(v & l & H & _)|[-> _]]; [discriminate|]. eexists. split; reflexivity.
    + split; [intros (x & H & P); injection H as <-; right; split; [symmetry; exact P|]; right; split; [eexists; split; [reflexivity|]; repeat eexists | left; reflexivity]|].
      intros [(v & l & H & _)|[-> _]]; [discriminate|]. eexists. split; reflexivity.
  - split; [intros (x & H & P); injection H as <-; right; split; [symmetry; exact P | left; reflexivity]|]. intros [(v & l & H & _)|[-> _]]; [discriminate|]. eexists. split; reflexivity.
Qed.
Theorem C141_turbulence : forall num d l, turbulence_files num d = Ok l <-> turbulence num d l.
Proof.
  intros num d l. assert (FI : forall b l, (fs <- map_res (fun c => get3 d (S_ "wind") (S_ b) (S_ "filename_" ++ S_ c)) ["u"; "v"; "w"]%string ;; Ok (present num fs)) = Ok l <->
      exists u v w, component num d "wind" b "filename_u" u /\ component num d "wind" b "filename_v" v /\ component num d "wind" b "filename_w" w /\ l = u ++ v ++ w).
  { clear l. intros b l. cbn [map_res]. change (S_ "filename_" ++ S_ "u") with (S_ "filename_u"). change (S_ "filename_" ++ S_ "v") with (S_ "filename_v"). change (S_ "filename_" ++ S_ "w") with (S_ "filename_w"). split.
    - intro H. apply bind_ok in H as (fs & F & H). apply bind_ok in F as (u & U & F). apply bind_ok in F as (q & F' & F). apply ok_inj in F. subst fs. apply bind_ok in F' as (v & V & F'). apply bind_ok in F' as (q' & F & F'). apply ok_inj in F'. subst q.
      apply bind_ok in F as (w & W & F). cbn [bind] in F. apply ok_inj in F. subst q'. apply ok_inj in H. exists (present num [u]), (present num [v]), (present num [w]).
      split; [apply get3_ok; eauto|]. split; [apply get3_ok; eauto|]. split; [apply get3_ok; eauto|]. rewrite H, <- !present_app. reflexivity.
    - intros (u & v & w & U & V & W & ->). apply get3_ok in U as (xu & -> & <-). apply get3_ok in V as (xv & -> & <-). apply get3_ok in W as (xw & -> & <-). cbn [bind]. rewrite <- !present_app. reflexivity. }
  unfold turbulence_files. destruct (dget d (S_ "wind")) as [w|] eqn:E.
  2:{ split; [intro H; injection H as <-; apply turb_none; rewrite lookup_dget; exact E|]. intros [H|l0 H|l0 f b u v w H _ _ _ _]; [reflexivity| |]; unfold values, entry in H; rewrite lookup_dget, E in H; discriminate. }
  split.
  - intro H. apply bind_ok in H as (t & T & H). apply bind_ok in H as (x & X & H).
    assert (V : exists vs, values d (S_ "wind") (S_ "turb_format") = Some (x :: vs)).
    { unfold values, entry. rewrite lookup_dget, E. destruct w as [|kd nm bc ec cont ss]; [discriminate|]. cbn [sub] in T. apply attr_ok in T. rewrite lookup_dget, T. destruct t as [nm' [|y vs] c|]; try discriminate. injection X as ->. eauto. }
    destruct V as (vs & V). destruct (str_eqb x (S_ "0")) eqn:Z0; [apply str_eqb_eq in Z0; subst x; injection H as <-; eapply turb_zero, V|].
    destruct (str_eqb x (S_ "1")) eqn:Z1; [|destruct (str_eqb x (S_ "2")) eqn:Z2; [|discriminate]].
    + apply str_eqb_eq in Z1. subst x. apply FI in H as (u & v & w' & U & VV & W & ->). eapply turb_files; eauto. cbn. auto.
    + apply str_eqb_eq in Z2. subst x. apply FI in H as (u & v & w' & U & VV & W & ->). eapply turb_files; eauto. cbn. auto.
  - assert (G : forall x vs, values d (S_ "wind") (S_ "turb_format") = Some (x :: vs) -> exists n, sub w (S_ "turb_format") = Ok n /\ item n 0 = Ok x).
    { intros x vs V. unfold values, entry in V. rewrite lookup_dget, E in V. destruct w as [|kd nm bc ec cont ss]; [discriminate|]. cbn [sub]. rewrite lookup_dget in V. unfold attr. destruct (dget cont (S_ "turb_format")) as [[? ? ?|]|]; try discriminate. injection V as ->. eexists. split; reflexivity. }
    intros [H|l0 H|l0 f b u v w' H B U V W].
    + rewrite lookup_dget, E in H. discriminate.
    + destruct (G _ _ H) as (n & -> & X). cbn [bind]. rewrite X. cbn [bind]. rewrite str_eqb_refl. reflexivity.
    + destruct (G _ _ H) as (n & -> & X). cbn [bind]. rewrite X. cbn [bind].
      assert (R := proj2 (FI b (u ++ v ++ w'))). destruct B as [B|[B|[]]]; injection B as <- <-; apply R; eauto 9.
Qed.
Print Assumptions C141_turbulence.
(** Another format is not refused: the method fails on a variable of its own *)
Theorem C141_turbulence_refuted : forall num d t vs, values d (S_ "wind") (S_ "turb_format") = Some (t :: vs) -> ~ In t (map S_ ["0"; "1"; "2"]%string) -> turbulence_files num d = Err UnboundLocalError.
Proof.
  intros num d t vs V N. unfold turbulence_files. unfold values, entry in V. rewrite lookup_dget in V. destruct (dget d (S_ "wind")) as [[|kd nm bc ec cont ss]|]; try discriminate. cbn [sub]. rewrite lookup_dget in V. unfold attr.
  destruct (dget cont (S_ "turb_format")) as [[? ? ?|]|]; try discriminate. injection V as ->. cbn [bind item nth_error].
  assert (X : forall s, In (S_ s) (map S_ ["0"; "1"; "2"]%string) -> str_eqb t (S_ s) = false) by (intros s I; apply Bool.not_true_iff_false; intro Z; apply str_eqb_eq in Z; subst t; contradiction).
  rewrite !X by (cbn; auto). reflexivity.
Qed.
Print Assumptions C141_turbulence_refuted.

(** The files that a simulation writes *)
Definition NAMED : list (string * string) :=
  [("simulation", "logfile"); ("simulation", "animation"); ("simulation", "visualization"); ("new_htc_structure", "beam_output_file_name"); ("new_htc_structure", "body_output_file_name");
   ("new_htc_structure", "struct_inertia_output_file_name"); ("new_htc_structure", "body_eigenanalysis_file_name"); ("new_htc_structure", "constraint_output_file_name")]%string.
Inductive written (num : str -> option (res str)) (d : list (str * node)) : str -> Prop :=
| written_named a k g vs : In (a, k) NAMED -> values d (S_ a) (S_ k) = Some (g :: vs) -> usable num g -> written num d g
| written_turbulence k g vs : In k ["filename_u"; "filename_v"; "filename_w"]%string -> values3 d (S_ "wind") (S_ "turb_export") (S_ k) = Some (g :: vs) -> usable num g -> written num d g
| written_analysis k g vs : In k ["system_eigenanalysis"; "structure_eigenanalysis_file_name"]%string -> values d (S_ "new_htc_structure") (S_ k) = Some (g :: vs) -> written num d g
| written_modes k g vs : In k ["system_eigenanalysis"; "structure_eigenanalysis_file_name"]%string -> values d (S_ "new_htc_structure") (S_ k) = Some (g :: vs) -> written num d (to_slashes (Deck_Model.path_join (Deck_Model.dirname g) (S_ "mode*.dat")))
| written_results fs g : all_results num d fs -> In g fs -> written num d g
| written_at_time t kd nm bc ec cont ss g : In (S_ "output_at_time" ++ t, Sec kd nm bc ec cont ss) d -> first_value cont "filename" g -> written num d (g ++ S_ ".dat").
Lemma in_map_res2 {A B} (f : A -> res B) l ys y : map_res f l = Ok ys -> In y ys -> exists x, In x l /\ f x = Ok y.
Proof.
  revert ys. induction l as [|a l IH]; intros ys H I; cbn [map_res] in H; [injection H as <-; destruct I|]. apply bind_ok in H as (b & B' & H). apply bind_ok in H as (bs & BS & H). injection H as <-.
  destruct I as [<-|I]; [exists a; split; [left; reflexivity | exact B']|]. destruct (IH _ BS I) as (x & X & Y). exists x. split; [right; exact X | exact Y].
Qed.
Lemma in_present num l v : In v (present num l) <-> In (Some v) l /\ usable num v.
Proof.
  unfold present. rewrite in_flat_map. split.
  - intros ([w|] & I & H); [|destruct H]. destruct (nonempty w && (is_text num w || negb (str_eqb w (S_ "0")))) eqn:E; [|destruct H]. destruct H as [<-|[]]. apply usable_dec in E. auto.
  - intros [I U]. exists (Some v). split; [exact I|]. apply usable_dec in U. rewrite U. left. reflexivity.
Qed.
Lemma get2_values d a k v : get2 d a k = Ok (Some v) <-> exists vs, values d a k = Some (v :: vs).
Proof.
  unfold get2, values, entry. rewrite lookup_dget. destruct (dget d a) as [[nm vs c|kd nm bc ec cont ss]|]; try (split; [discriminate | intros (? & ?); discriminate]). rewrite lookup_dget.
  destruct (dget cont k) as [[nm' [|w vs] c|]|]; cbn [item nth_error bind]; try (split; [discriminate | intros (? & ?); discriminate]). split; [intro H; injection H as ->; eauto | intros (? & H); injection H as -> _; reflexivity].
Qed.
Lemma get3_values d a b k v : get3 d a b k = Ok (Some v) <-> exists vs, values3 d a b k = Some (v :: vs).
Proof.
  unfold get3, values3, entry3, entry. rewrite lookup_dget. destruct (dget d a) as [[nm vs c|kd nm bc ec cont ss]|]; try (split; [discriminate | intros (? & ?); discriminate]). rewrite lookup_dget.
  destruct (dget cont b) as [[nm' vs c|kd' nm' bc' ec' cont' ss']|]; try (split; [discriminate | intros (? & ?); discriminate]). rewrite lookup_dget.
  destruct (dget cont' k) as [[nm2 [|w vs] c|]|]; cbn [item nth_error bind]; try (split; [discriminate | intros (? & ?); discriminate]). split; [intro H; injection H as ->; eauto | intros (? & H); injection H as -> _; reflexivity].
Qed.
Lemma modes_in num d k l : modes num d (S_ k) = Ok l -> forall x, In x l <-> exists g vs, values d (S_ "new_htc_structure") (S_ k) = Some (g :: vs) /\ (x = g \/ x = to_slashes (Deck_Model.path_join (Deck_Model.dirname g) (S_ "mode*.dat"))).
Proof.
  intros H x. unfold modes in H. destruct (has2 d (S_ "new_htc_structure") (S_ k)) eqn:E.
  - apply bind_ok in H as (n & N & H). apply bind_ok in H as (m & M & H). apply bind_ok in H as (g & G & H). destruct (is_text num g); [|discriminate]. apply ok_inj in H. subst l.
    assert (V : exists vs, values d (S_ "new_htc_structure") (S_ k) = Some (g :: vs)).
    { apply attr_ok in N. unfold values, entry. rewrite lookup_dget, N. destruct n as [|kd nm bc ec cont ss]; [discriminate|]. cbn [sub] in M. apply attr_ok in M. rewrite lookup_dget, M. destruct m as [nm' [|y vs] c|]; try discriminate. injection G as ->. eauto. }
    destruct V as (vs & V). split.
    + intros [<-|[<-|[]]]; eauto.
    + intros (g' & vs' & V' & X). rewrite V in V'. injection V' as <- <-. destruct X as [-> | ->]; cbn [In]; auto.
  - apply ok_inj in H. subst l. split; [intros []|]. intros (g & vs & V & _). assert (X : has2 d (S_ "new_htc_structure") (S_ k) = true) by (apply entry_has; unfold values in V; destruct (entry d (S_ "new_htc_structure") (S_ k)); congruence). congruence.
Qed.
(** The list holds these files, and only these, but in lower case *)
Theorem C141_outputs : forall num d l, output_files num d = Ok l -> forall f, In f l <-> exists g, written num d g /\ f = lower g.
Proof.
  intros num d l H f. unfold output_files in H. apply bind_ok in H as (a & A & H). apply bind_ok in H as (b & B & H). apply bind_ok in H as (m1 & M1 & H). apply bind_ok in H as (m2 & M2 & H).
  apply bind_ok in H as (r & R & H). apply bind_ok in H as (t & T & H).
  assert (AI : forall g, In (Some g) a <-> exists x k vs, In (x, k) NAMED /\ values d (S_ x) (S_ k) = Some (g :: vs)).
  { intro g. split.
    - intro I. destruct (in_map_res2 _ _ _ _ A I) as ([x k] & P & G). cbn [fst snd] in G. apply get2_values in G as (vs & G). unfold OUT2 in P. apply in_map_iff in P as ([x' k'] & E & P). cbn [fst snd] in E. injection E as <- <-. exists x', k', vs. split; [exact P | exact G].
    - intros (x & k & vs & P & V). destruct (in_map_res _ _ _ (S_ x, S_ k) A) as (y & Y1 & Y2).
      + unfold OUT2. change (S_ x, S_ k) with ((fun p : string * string => (S_ (fst p), S_ (snd p))) (x, k)). apply in_map. exact P.
      + cbn [fst snd] in Y1. assert (Z : get2 d (S_ x) (S_ k) = Ok (Some g)) by (apply get2_values; eauto). rewrite Z in Y1. injection Y1 as <-. exact Y2. }
  assert (BI : forall g, In (Some g) b <-> exists k vs, In k ["filename_u"; "filename_v"; "filename_w"]%string /\ values3 d (S_ "wind") (S_ "turb_export") (S_ k) = Some (g :: vs)).
  { intro g. split.
    - intro I. destruct (in_map_res2 _ _ _ _ B I) as (c & P & G). apply get3_values in G as (vs & G). destruct P as [<-|[<-|[<-|[]]]]; [exists "filename_u"%string | exists "filename_v"%string | exists "filename_w"%string]; exists vs; (split; [cbn; auto | exact G]).
    - intros (k & vs & P & V). assert (Z : get3 d (S_ "wind") (S_ "turb_export") (S_ k) = Ok (Some g)) by (apply get3_values; eauto).
      assert (C : exists c, In c ["u"; "v"; "w"]%string /\ S_ k = S_ "filename_" ++ S_ c) by (destruct P as [<-|[<-|[<-|[]]]]; [exists "u"%string | exists "v"%string | exists "w"%string]; (split; [cbn; auto | reflexivity])).
      destruct C as (c & C & EC). rewrite EC in Z. destruct (in_map_res _ _ _ c B C) as (y & Y1 & Y2). rewrite Z in Y1. injection Y1 as <-. exact Y2. }
  assert (TI : forall g, In g t <-> exists u kd nm bc ec cont ss h, In (S_ "output_at_time" ++ u, Sec kd nm bc ec cont ss) d /\ first_value cont "filename" h /\ num h = None /\ g = h ++ S_ ".dat").
  { intro g. split.
    - intro I. destruct (in_map_res2 _ _ _ _ T I) as ([k n] & P & G). apply filter_In in P as [P S]. cbn [fst snd] in *. apply startswith_iff in S as (u & ->). destruct n as [|kd nm bc ec cont ss]; [discriminate|].
      cbn [sub] in G. apply bind_ok in G as (x & X & G). apply bind_ok in G as (h & Hh & G). apply plus_ok in G as [N ->]. exists u, kd, nm, bc, ec, cont, ss, h. split; [exact P|]. split; [apply item_first; rewrite X; exact Hh | auto].
    - intros (u & kd & nm & bc & ec & cont & ss & h & P & F & N & ->). destruct (in_map_res _ _ _ (S_ "output_at_time" ++ u, Sec kd nm bc ec cont ss) T) as (y & Y1 & Y2).
      + apply filter_In. split; [exact P|]. apply startswith_app.
      + cbn [snd sub] in Y1. apply item_first in F. apply bind_ok in F as (x & X & F). rewrite X in Y1. cbn [bind] in Y1. rewrite F in Y1. cbn [bind] in Y1. assert (Z : plus num h (S_ ".dat") = Ok (h ++ S_ ".dat")) by (apply plus_ok; auto). rewrite Z in Y1. injection Y1 as <-. exact Y2. }
  assert (WI : forall g, In g (present num a ++ present num b ++ m1 ++ m2 ++ r ++ t) <-> written num d g).
  { intro g. rewrite !in_app_iff, !in_present, AI, BI, TI, (modes_in _ _ _ _ M1), (modes_in _ _ _ _ M2). split.
    - intros [[(x & k & vs & P & V) U]|[[(k & vs & P & V) U]|[(h & vs & V & [-> | ->])|[(h & vs & V & [-> | ->])|[I|(u & kd & nm & bc & ec & cont & ss & h & P & F & _ & ->)]]]]].
      + eapply written_named; eauto.
      + eapply written_turbulence; eauto.
      + eapply written_analysis; [|exact V]. cbn. auto.
      + eapply written_modes; [|exact V]. cbn. auto.
      + eapply written_analysis; [|exact V]. cbn. auto.
      + eapply written_modes; [|exact V]. cbn. auto.
      + eapply written_results; [apply C141_results, R | exact I].
      + eapply written_at_time; eauto.
    - intros [x k h vs P V U|k h vs P V U|k h vs P V|k h vs P V|fs h F I|u kd nm bc ec cont ss h P F].
      + left. eauto 9.
      + right. left. eauto 9.
      + right. right. destruct P as [<-|[<-|[]]]; eauto 9.
      + right. right. destruct P as [<-|[<-|[]]]; eauto 9.
      + apply C141_results in F. rewrite R in F. injection F as <-. auto 9.
      + right. right. right. right. right. destruct (in_map_res _ _ _ (S_ "output_at_time" ++ u, Sec kd nm bc ec cont ss) T) as (y & Y1 & Y2); [apply filter_In; split; [exact P | apply startswith_app]|].
        cbn [snd sub] in Y1. pose proof F as F'. apply item_first in F. apply bind_ok in F as (x & X & F). rewrite X in Y1. cbn [bind] in Y1. rewrite F in Y1. cbn [bind] in Y1. apply plus_ok in Y1 as [N _]. exists u, kd, nm, bc, ec, cont, ss, h. split; [exact P|]. exact (conj F' (conj N eq_refl)). }
  split.
  - intro I. destruct (in_map_res2 _ _ _ _ H I) as (g & G & E). exists g. split; [apply WI, G|]. unfold low in E. destruct (is_text num g); [injection E as <-; reflexivity | discriminate].
  - intros (g & W & ->). apply WI in W. destruct (in_map_res _ _ _ _ H W) as (y & Y1 & Y2). unfold low in Y1. destruct (is_text num g); [injection Y1 as <-; exact Y2 | discriminate].
Qed.
Print Assumptions C141_outputs.
(** A file whose name has capitals is not in the list: the name that is there is another one, on file systems that tell them apart *)
Theorem C141_capitals_refuted : forall num d l f, output_files num d = Ok l -> lower f <> f -> ~ In f l.
Proof. intros num d l f H N I. apply (C141_outputs num d l H) in I as (g & _ & ->). apply N, lower_idem. Qed.
Print Assumptions C141_capitals_refuted.
(** A file with a number for a name makes both lists fail *)
Theorem C141_number_refuted : forall num d a k v vs r, In (a, k) NAMED -> values d (S_ a) (S_ k) = Some (v :: vs) -> num v = Some r -> v <> [] -> v <> S_ "0" -> exists e, output_files num d = Err e.
Proof.
  intros num d a k v vs r I V N E Z. destruct (output_files num d) as [l|e] eqn:O; [|eauto]. exfalso.
  unfold output_files in O. apply bind_ok in O as (xa & A & O). apply bind_ok in O as (b & B & O). apply bind_ok in O as (m1 & M1 & O). apply bind_ok in O as (m2 & M2 & O). apply bind_ok in O as (rs & R & O). apply bind_ok in O as (t & T & O).
  destruct (in_map_res _ _ _ (S_ a, S_ k) A) as (y & Y1 & Y2).
  { unfold OUT2. change (S_ a, S_ k) with ((fun p : string * string => (S_ (fst p), S_ (snd p))) (a, k)). apply in_map. exact I. }
  cbn [fst snd] in Y1. assert (G : get2 d (S_ a) (S_ k) = Ok (Some v)) by (apply get2_values; eauto). rewrite G in Y1. injection Y1 as <-.
  destruct (in_map_res _ _ _ v O) as (z & Z1 & _); [apply in_or_app; left; apply in_present; split; [exact Y2|]; unfold usable; auto|]. unfold low, is_text in Z1. rewrite N in Z1. discriminate.
Qed.
Print Assumptions C141_number_refuted.
Theorem C141_number_results_refuted : forall num d k kd nm bc ec cont ss f r, In (k, Sec kd nm bc ec cont ss) d -> an_output (Sec kd nm bc ec cont ss) -> first_value cont "filename" f -> num f = Some r -> exists e, res_file_lst num d = Err e.
Proof.
  intros num d k kd nm bc ec cont ss f r I O F N. destruct (res_file_lst num d) as [l|e] eqn:E; [|eauto]. exfalso. unfold res_file_lst in E. apply bind_ok in E as (ls & E & _).
  destruct (in_map_res _ _ _ (Sec kd nm bc ec cont ss) E) as (fs & Q & _).
  { apply filter_In. split; [apply (in_map snd) in I; exact I | apply output_name_ok, O]. }
  apply res_files_ok in Q. assert (U : forall g, first_value cont "filename" g -> g = f) by (intros g (? & ? & ? & G); destruct F as (? & ? & ? & F); congruence).
  destruct Q as [g ? G X|g G X|g ? G X|g G X]; rewrite (U g G) in X; congruence.
Qed.
Print Assumptions C141_number_results_refuted.

(** ** Cases *)
Definition ex_num (w : str) : option (res str) := if forallb (fun c => mem_chr c (S_ "0123456789.")) w then Some (Ok w) else None.
Definition ln (k vs : string) : str * node := (S_ k, Line (S_ k) (split_ws (S_ vs)) []).
Definition sc (k : string) (cont : list (str * node)) : str * node := (S_ k, Sec Plain (S_ k) [] [] cont []).
Definition ex_htc : list (str * node) :=
  [ sc "simulation" [ln "time_stop" "600"; ln "logfile" "./log/old.log"; ln "visualization" "old.hdf5 0 20"; sc "newmark" [ln "deltat" "0.02"]];
    sc "wind" [ln "turb_format" "1"; sc "mann" [ln "filename_u" "turb/u.bin"; ln "filename_w" "turb/w.bin"]];
    sc "output" [ln "filename" "./res/old"; ln "time" "100 600"; ln "data_format" "gtsdf"];
    (S_ "output__2", Sec Output (S_ "output") [] [] [ln "filename" "./res/Loads"] []) ].
Lemma ex_noslash : numbers_have_no_slash ex_num.
Proof. intros w I. unfold ex_num. destruct (forallb _ w) eqn:E; [|reflexivity]. rewrite forallb_forall in E. specialize (E _ I). discriminate. Qed.
Lemma ex_nameable : nameable ex_htc.
Proof.
  split.
  - intros a k n I E. cbn in I. repeat (destruct I as [I|I]; [injection I as <- <-; vm_compute in E; try discriminate; injection E as <-; repeat eexists|]). destruct I.
  - intros n E. vm_compute in E. injection E as <-. repeat eexists.
Qed.
Lemma ex_timed : timed ex_htc.
Proof.
  split; try (eexists; split; [vm_compute; reflexivity|]; repeat eexists); intros n E; vm_compute in E; try discriminate; injection E as <-; repeat eexists.
Qed.
Example C139_nonvacuous : file_name (S_ "run1") /\ Forall folder_name [S_ "dlc12"; S_ "wsp10"] /\ numbers_have_no_slash ex_num /\ nameable ex_htc /\
  exists f d', set_name ex_num (fun x => x) (S_ "/model") (S_ "run1") (S_ "dlc12/wsp10") ex_htc = Ok (f, d') /\ f = S_ "/model/./htc/dlc12/wsp10/run1.htc" /\
    values d' (S_ "simulation") (S_ "visualization") = Some (map S_ ["./visualization/dlc12/wsp10/run1.hdf5"; "0"; "20"]%string) /\
    res_file_lst ex_num d' = Ok (map S_ ["./res/dlc12/wsp10/run1.hdf5"; "./res/Loads.sel"; "./res/Loads.dat"]%string).
Proof.
  split; [repeat split; try reflexivity; cbn; intuition discriminate|].
  split; [repeat constructor; try reflexivity; try discriminate; cbn; intuition discriminate|]. split; [exact ex_noslash|]. split; [exact ex_nameable|]. do 2 eexists. split; [vm_compute; reflexivity|]. split; [reflexivity|]. split; reflexivity.
Qed.
Example C140_nonvacuous : timed ex_htc /\ exists d', set_time (Some (S_ "50")) None (Some (S_ "0.01")) ex_htc = Ok d' /\
  values d' (S_ "output") (S_ "time") = Some (map S_ ["50"; "600"]%string) /\ values d' (S_ "wind") (S_ "scale_time_start") = Some [S_ "50"] /\ values3 d' (S_ "simulation") (S_ "newmark") (S_ "deltat") = Some [S_ "0.01"].
Proof. split; [exact ex_timed|]. eexists. split; [vm_compute; reflexivity|]. split; [reflexivity|]. split; reflexivity. Qed.
Example C140_aero_nonvacuous : timed_aero [sc "test_structure" [ln "time_stop" "10"]; sc "output" []].
Proof. split; try (eexists; split; [vm_compute; reflexivity|]; repeat eexists); intros n E; vm_compute in E; try discriminate. Qed.
Example C141_nonvacuous : turbulence_files ex_num ex_htc = Ok (map S_ ["turb/u.bin"; "turb/w.bin"]%string) /\
  output_files ex_num ex_htc = Ok (map S_ ["./log/old.log"; "old.hdf5"; "./res/old.hdf5"; "./res/loads.sel"; "./res/loads.dat"]%string).
Proof. split; vm_compute; reflexivity. Qed.
