(** Properties of add_section of HTC files. *)
From Verif Require Import Py PyFacts HTC_Model.
From Verif Require HTC_Names HTC_Proofs HTC_Round HTCSim_Props HTCObj_Props.
From Verif Require Import HTCAdd_Model.
From Coq Require Import Lia.
Local Open Scope nat_scope.

(** ** Specification *)
(** A name without white space that is not one of the two names with sensors. *)
Definition ordinary (s : str) : Prop := Forall (fun c => is_space c = false) s /\ s <> S_ "output" /\ ~ exists t, s = S_ "output_at_time" ++ t.
(** The line or object that belongs to one member. *)
Definition line_for (k : str) (v : value) : node :=
  match v with Obj n => n | One t => Line k [t] [] | Many ts => Line k ts [] | Other => Line k [] [] end.
(** A member the library can use: a value it knows, under a key without the mark of duplicates. *)
Definition usable (p : str * value) : Prop := snd p <> Other /\ ~ exists a b, fst p = a ++ S_ "__" ++ b.
Definition known (l : list str) (k : str) : bool := existsb (str_eqb k) l.
(** The key under which something named [nm] is added to [d]: its name, or the name with the first free number. *)
Definition new_place (d : list (str * node)) (nm k : str) : Prop :=
  ~ In k (map fst d) /\ (~ In nm (map fst d) -> k = nm) /\
  (In nm (map fst d) -> exists n, k = nm ++ S_ "__" ++ str_of_N n /\ (2 <= n)%N /\ forall m, (2 <= m < n)%N -> In (nm ++ S_ "__" ++ str_of_N m) (map fst d)).
(** The contents [body] are those of [old] followed by the keyword arguments and the members, a member overriding
    the keyword argument of the same name in its place. *)
Definition filled (old : list (str * node)) (kw mb : list (str * value)) (body : list (str * node)) : Prop :=
  exists new, body = old ++ new /\
  map fst new = map fst kw ++ filter (fun k => negb (known (map fst kw) k)) (map fst mb) /\
  (forall k v, In (k, v) mb -> In (k, line_for k v) new) /\
  (forall k v, In (k, v) kw -> ~ In k (map fst mb) -> In (k, line_for k v) new).

(** ** Facts *)
Lemma place_ok d n : exists k, add_contents d n = Ok (d ++ [(k, n)]) /\ new_place d (node_name n) k.
Proof.
  unfold add_contents, new_key. destruct (dmem d (node_name n)) eqn:E.
  - destruct (free_ending _ d (node_name n) 2) as [m|] eqn:F; [|exfalso; revert F; apply HTC_Names.free_enough]. cbn [option_map].
    destruct (HTC_Names.free_spec d (node_name n) _ _ _ F) as (F1 & F2 & F3).
    exists (node_name n ++ ending m). split; [rewrite HTC_Names.dset_new by exact F2; reflexivity|].
    split; [exact F2|]. split; [intro X; apply HTC_Names.dmem_iff in E; contradiction|].
    intros _. exists m. split; [reflexivity|]. split; [exact F1|]. intros j Hj. apply F3; lia.
  - apply HTC_Names.dmem_false in E. exists (node_name n). split; [rewrite HTC_Names.dset_new by exact E; reflexivity|].
    split; [exact E|]. split; [reflexivity|]. intro X. contradiction.
Qed.
Lemma cut_id k : (~ exists a b, k = a ++ S_ "__" ++ b) -> cut_uu k = k.
Proof.
  induction k as [|c k IH]; intro H; [reflexivity|]. cbn [cut_uu].
  destruct (startswith (c :: k) uu) eqn:E.
  - exfalso. apply startswith_iff in E. destruct E as [t E]. apply H. exists [], t. exact E.
  - f_equal. apply IH. intros (a & b & X). apply H. exists (c :: a), b. rewrite X. reflexivity.
Qed.
Lemma items_fresh : forall l d, NoDup (map fst l) -> (forall k, In k (map fst l) -> ~ In k (map fst d)) -> Forall usable l ->
  set_items d l = (d ++ map (fun p => (fst p, line_for (fst p) (snd p))) l, None).
Proof.
  induction l as [|[k v] l IH]; intros d N F U; [cbn; rewrite app_nil_r; reflexivity|].
  inversion N as [|? ? N1 N2]; subst. inversion U as [|? ? [U1 U2] U3]; subst. cbn [fst snd] in *.
  assert (K : ~ In k (map fst d)) by (apply F; left; reflexivity).
  assert (A : set_item d k v = Ok (d ++ [(k, line_for k v)])).
  { assert (L : forall vs, add_contents d (mk_line k vs []) = Ok (d ++ [(k, Line k vs [])])).
    { intro vs. unfold mk_line. rewrite (cut_id k U2). destruct (place_ok d (Line k vs [])) as (j & E & _ & J & _). cbn [node_name] in J. rewrite (J K) in E. exact E. }
    destruct v as [n|t|ts|]; cbn [set_item line_for]; [|apply L|apply L|contradiction].
    rewrite HTC_Names.dset_new by exact K. reflexivity. }
  cbn [set_items]. rewrite A. rewrite IH; [cbn [map fst snd]; rewrite <- app_assoc; reflexivity|exact N2| |exact U3].
  intros j J. rewrite map_app, in_app_iff. intros [X|[X|[]]]; [revert X; apply F; right; exact J|]. cbn in X. subst j. contradiction.
Qed.
Lemma dset_keys {V} (d : list (str * V)) k v : map fst (dset d k v) = if known (map fst d) k then map fst d else map fst d ++ [k].
Proof.
  unfold known. induction d as [|[a w] d IH]; [reflexivity|]. cbn [dset map fst existsb].
  rewrite (str_eqb_sym k a). destruct (str_eqb a k) eqn:E; cbn [orb map fst].
  - apply str_eqb_eq in E. subst a. reflexivity.
  - rewrite IH. destruct (existsb (str_eqb k) (map fst d)); reflexivity.
Qed.
Lemma known_iff l k : known l k = true <-> In k l.
Proof.
  unfold known. rewrite existsb_exists. split; [intros (x & X & E); apply str_eqb_eq in E; subst x; exact X|].
  intro X. exists k. split; [exact X|apply str_eqb_refl].
Qed.
Lemma update_keys : forall mb kw, NoDup (map fst mb) ->
  map fst (update kw mb) = map fst kw ++ filter (fun k => negb (known (map fst kw) k)) (map fst mb).
Proof.
  induction mb as [|[k v] mb IH]; intros kw N; [cbn; rewrite app_nil_r; reflexivity|].
  inversion N as [|? ? N1 N2]; subst. unfold update in *. cbn [fold_left fst snd map filter]. rewrite IH by exact N2. rewrite dset_keys.
  destruct (known (map fst kw) k) eqn:E; cbn [negb]; [reflexivity|]. rewrite <- app_assoc. cbn [app]. do 2 f_equal.
  apply filter_ext_in. intros a A. f_equal. unfold known. rewrite existsb_app. cbn [existsb].
  destruct (str_eqb a k) eqn:X; [apply str_eqb_eq in X; subst a; contradiction|]. rewrite !orb_false_r. reflexivity.
Qed.
Lemma update_get : forall mb kw k, NoDup (map fst mb) -> dget (update kw mb) k = match dget mb k with Some v => Some v | None => dget kw k end.
Proof.
  induction mb as [|[j v] mb IH]; intros kw k N; [reflexivity|]. inversion N as [|? ? N1 N2]; subst.
  unfold update in *. cbn [fold_left fst snd]. rewrite IH by exact N2. rewrite HTCSim_Props.dget_dset.
  unfold dget at 3. cbn [find fst]. destruct (str_eqb j k) eqn:E; cbn [snd].
  - apply str_eqb_eq in E. subst j. assert (X : dget mb k = None) by (apply HTCObj_Props.HTCObj_dget_none; exact N1). rewrite X. reflexivity.
  - reflexivity.
Qed.
Lemma dget_in {V} (d : list (str * V)) k v : dget d k = Some v -> In (k, v) d.
Proof.
  unfold dget. intro H. destruct (find _ d) as [[a w]|] eqn:E; [|discriminate]. injection H as <-. apply find_some in E. destruct E as [I E].
  cbn in *. apply str_eqb_eq in E. subst a. exact I.
Qed.
Lemma nodup_app {A} (a b : list A) : NoDup a -> NoDup b -> (forall x, In x a -> In x b -> False) -> NoDup (a ++ b).
Proof.
  induction a as [|x a IH]; intros N M D; [exact M|]. inversion N as [|? ? N1 N2]; subst. cbn [app]. constructor.
  - rewrite in_app_iff. intros [X|X]; [contradiction|]. apply (D x); [left; reflexivity|exact X].
  - apply IH; [exact N2|exact M|]. intros y Y. apply D. right. exact Y.
Qed.
Lemma update_nodup kw mb : NoDup (map fst kw) -> NoDup (map fst mb) -> NoDup (map fst (update kw mb)).
Proof.
  intros A B. rewrite update_keys by exact B. apply nodup_app; [exact A|apply NoDup_filter; exact B|].
  intros x X Y. apply filter_In in Y. destruct Y as [_ Y]. apply known_iff in X. rewrite X in Y. discriminate.
Qed.
Lemma fill old kw mb : NoDup (map fst kw) -> NoDup (map fst mb) -> Forall usable (kw ++ mb) -> (forall k, In k (map fst (kw ++ mb)) -> ~ In k (map fst old)) ->
  exists body, set_items old (update kw mb) = (body, None) /\ filled old kw mb body.
Proof.
  intros A B U D. pose proof (update_nodup kw mb A B) as N. pose proof (update_keys mb kw B) as K.
  assert (I : forall p, In p (update kw mb) -> In p (kw ++ mb)).
  { intros [k v] X. pose proof (HTCObj_Props.dget_nodup _ k v N X) as G. rewrite update_get in G by exact B. apply in_app_iff.
    destruct (dget mb k) as [w|] eqn:E; [injection G as <-; right; apply dget_in; exact E|left; apply dget_in; exact G]. }
  exists (old ++ map (fun p => (fst p, line_for (fst p) (snd p))) (update kw mb)). split.
  - apply items_fresh; [exact N| |].
    + intros k X. apply in_map_iff in X. destruct X as (p & <- & X). apply D. apply in_map. apply I. exact X.
    + apply Forall_forall. intros p X. rewrite Forall_forall in U. apply U. apply I. exact X.
  - eexists. split; [reflexivity|]. split; [rewrite map_map; cbn [fst]; exact K|].
    assert (J : forall k v, dget (update kw mb) k = Some v -> In (k, line_for k v) (map (fun p => (fst p, line_for (fst p) (snd p))) (update kw mb))).
    { intros k v X. apply dget_in in X. apply in_map_iff. exists (k, v). split; [reflexivity|exact X]. }
    split; intros k v X; [|intro Y]; apply J; rewrite update_get by exact B.
    + rewrite (HTCObj_Props.dget_nodup mb k v B X). reflexivity.
    + apply HTCObj_Props.HTCObj_dget_none in Y. rewrite Y. apply HTCObj_Props.dget_nodup; assumption.
Qed.

Lemma clean_path s : ~ In (ch 46) s -> ~ In (ch 47) s -> path_like s = false.
Proof.
  intros A B. unfold path_like. destruct (existsb _ s) eqn:E; [|reflexivity]. exfalso. apply existsb_exists in E. destruct E as (c & C & E).
  apply orb_true_iff in E. destruct E as [E|E]; apply chr_eqb_eq in E; subst c; contradiction.
Qed.
Lemma clean_strip s : Forall (fun c => is_space c = false) s -> strip s = s.
Proof.
  intro H. apply strip_noedge. unfold no_edge_space. rewrite Forall_forall in H. apply andb_true_intro. split.
  - destruct s as [|c s]; [reflexivity|]. rewrite H; [reflexivity|left; reflexivity].
  - destruct (rev s) as [|c r] eqn:E; [reflexivity|]. rewrite H; [reflexivity|]. apply in_rev. rewrite E. left. reflexivity.
Qed.
Lemma ordinary_tests nm : ordinary nm -> str_eqb nm (S_ "output") = false /\ startswith nm output_at_time = false.
Proof.
  intros (C & O & T). split; [apply str_eqb_neq; exact O|].
  destruct (startswith nm output_at_time) eqn:E; [|reflexivity]. apply startswith_iff in E. contradiction.
Qed.
Lemma items_prefix : forall l d, Forall (fun p => forall n, snd p <> Obj n) l -> exists t, fst (set_items d l) = d ++ t.
Proof.
  induction l as [|[k v] l IH]; intros d H; [exists []; cbn; rewrite app_nil_r; reflexivity|]. inversion H as [|? ? H1 H2]; subst. cbn [snd] in H1.
  cbn [set_items]. destruct (set_item d k v) as [d'|e] eqn:E; [|exists []; cbn; rewrite app_nil_r; reflexivity].
  assert (X : exists t, d' = d ++ t).
  { destruct v as [n|t|ts|]; cbn [set_item] in E; [exfalso; apply (H1 n); reflexivity| | |discriminate];
      destruct (place_ok d (mk_line k [t] [])) as (j & F & _) || destruct (place_ok d (mk_line k ts [])) as (j & F & _); rewrite F in E; injection E as <-; eexists; reflexivity. }
  destruct X as (t & ->). destruct (IH (d ++ t) H2) as (t2 & F). exists (t ++ t2). rewrite F. rewrite app_assoc. reflexivity.
Qed.
Lemma update_in kw mb p : In p (update kw mb) -> In p kw \/ In p mb.
Proof.
  revert kw. induction mb as [|[k v] mb IH]; intros kw H; [left; exact H|]. unfold update in *. cbn [fold_left fst snd] in H. apply IH in H. destruct H as [H|H]; [|right; right; exact H].
  clear IH. induction kw as [|[a w] kw IH]; cbn [dset] in H; [destruct H as [<-|[]]; right; left; reflexivity|]. cbn [fst] in H.
  destruct (str_eqb a k); destruct H as [<-|H]; [right; left; reflexivity|left; right; exact H|left; left; reflexivity|].
  destruct (IH H) as [X|X]; [left; right; exact X|right; exact X].
Qed.

(** ** Theorems *)
Section Add.
  Variable float_str : str -> res str.
  (** A new section is added behind everything there is, and holds the keyword arguments and members, in their order. *)
  Theorem C152_added : forall d nm mb dup kw, ordinary nm -> (In nm (map fst d) -> dup = true) ->
    NoDup (map fst kw) -> NoDup (map fst mb) -> Forall usable (kw ++ mb) ->
    exists k body, add_section float_str d (Name nm None) mb dup kw = (d ++ [(k, Sec Plain nm [] [] body [])], Ok (Sec Plain nm [] [] body [])) /\
      new_place d nm k /\ filled [] kw mb body.
  Proof using.
    intros d nm mb dup kw O D A B U. destruct (ordinary_tests nm O) as (T2 & T3).
    destruct (fill [] kw mb A B U) as (body & F1 & F2); [intros k _ []|].
    unfold add_section. cbn [subject_name]. unfold chosen. cbn [subject_name subject_section]. rewrite T2, T3. cbn [orb].
    unfold new_section. rewrite T2, T3. cbn [bind]. rewrite F1. rewrite (clean_strip nm) by (apply O).
    destruct (place_ok d (Sec Plain nm [] [] body [])) as (k & K1 & K2). rewrite K1. exists k, body.
    split; [|split; [exact K2|exact F2]].
    destruct (dget d nm) as [n|] eqn:G; [|reflexivity]. rewrite D; [reflexivity|]. apply dget_in in G. apply in_map_iff. exists (nm, n). split; [reflexivity|exact G].
  Qed.
  (** A section that is passed is added with all it has, under its own name, and the members follow its contents. *)
  Theorem C152_given : forall d s n mb dup kw ki nm bc ec cont ss, n = Sec ki nm bc ec cont ss -> s = Section_ n \/ s = Name nm (Some n) ->
    ordinary nm -> (In nm (map fst d) -> dup = true) ->
    NoDup (map fst kw) -> NoDup (map fst mb) -> Forall usable (kw ++ mb) -> (forall k, In k (map fst (kw ++ mb)) -> ~ In k (map fst cont)) ->
    exists k body, add_section float_str d s mb dup kw = (d ++ [(k, Sec ki nm bc ec body ss)], Ok (Sec ki nm bc ec body ss)) /\
      new_place d nm k /\ filled cont kw mb body.
  Proof using.
    intros d s n mb dup kw ki nm bc ec cont ss -> Hs O D A B U C. destruct (ordinary_tests nm O) as (T2 & T3).
    destruct (fill cont kw mb A B U C) as (body & F1 & F2).
    assert (N : subject_name s = nm /\ subject_section s = Some (Sec ki nm bc ec cont ss)) by (destruct Hs as [->| ->]; split; reflexivity).
    destruct N as [N1 N2]. unfold add_section, chosen. rewrite N1, N2, T2, T3. cbn [orb]. rewrite F1.
    destruct (place_ok d (Sec ki nm bc ec body ss)) as (k & K1 & K2). rewrite K1. exists k, body.
    split; [|split; [exact K2|exact F2]].
    destruct (dget d nm) as [x|] eqn:G; [|reflexivity]. rewrite D; [reflexivity|]. apply dget_in in G. apply in_map_iff. exists (nm, x). split; [reflexivity|exact G].
  Qed.
  (** Whatever is asked for, and even when it fails, what the parent had stays as it was, and at most one entry follows. *)
  Theorem C152_kept : forall d s mb dup kw, exists t, fst (add_section float_str d s mb dup kw) = d ++ t /\ List.length t <= 1 /\ forall k, In k (map fst t) -> ~ In k (map fst d).
  Proof using.
    intros d s mb dup kw.
    assert (Z : exists t, d = d ++ t /\ List.length t <= 1 /\ forall k, In k (map fst t) -> ~ In k (map fst d)).
    { exists []. rewrite app_nil_r. split; [reflexivity|]. split; [apply Nat.le_0_l|]. intros k []. }
    assert (W : exists t, fst (match chosen float_str s with
        | Err e => (d, Err e)
        | Ok (Line _ _ _) => (d, Err Unmodelled)
        | Ok (Sec k name bc ec cont ss) =>
            let '(cont', e) := set_items cont (update kw mb) in
            match add_contents d (Sec k name bc ec cont' ss) with
            | Err e' => (d, Err e')
            | Ok d' => (d', match e with None => Ok (Sec k name bc ec cont' ss) | Some e => Err e end)
            end
        end) = d ++ t /\ List.length t <= 1 /\ forall k, In k (map fst t) -> ~ In k (map fst d)).
    { destruct (chosen float_str s) as [[? ? ?|ki nm bc ec cont ss]|e]; [exact Z| |exact Z].
      destruct (set_items cont (update kw mb)) as [body e]. destruct (place_ok d (Sec ki nm bc ec body ss)) as (k & K1 & K2 & _). rewrite K1.
      exists [(k, Sec ki nm bc ec body ss)]. split; [reflexivity|]. split; [apply le_n|]. intros j [<-|[]]. exact K2. }
    unfold add_section. destruct (dget d (subject_name s)); [destruct dup; [exact W|destruct (path_like (subject_name s)); exact Z]|exact W].
  Qed.
  (** Texts, numbers and lists never replace what a section has, even under a name it has already. *)
  Theorem C152_not_replaced : forall d n mb kw ki nm bc ec cont ss, n = Sec ki nm bc ec cont ss -> ordinary nm -> ~ In nm (map fst d) ->
    Forall (fun p => forall o, snd p <> Obj o) (kw ++ mb) ->
    exists t, fst (add_section float_str d (Section_ n) mb false kw) = d ++ [(nm, Sec ki nm bc ec (cont ++ t) ss)].
  Proof using.
    intros d n mb kw ki nm bc ec cont ss -> O D U. destruct (ordinary_tests nm O) as (T2 & T3).
    assert (U2 : Forall (fun p => forall o, snd p <> Obj o) (update kw mb)).
    { apply Forall_forall. intros p P. rewrite Forall_forall in U. apply U. apply in_app_iff. apply update_in. exact P. }
    destruct (items_prefix (update kw mb) cont U2) as (t & T).
    unfold add_section, chosen. cbn [subject_name subject_section node_name]. rewrite T2, T3. cbn [orb].
    assert (G : dget d nm = None) by (apply HTCObj_Props.HTCObj_dget_none; exact D). rewrite G.
    destruct (set_items cont (update kw mb)) as [body e]. cbn [fst] in T. subst body.
    destruct (place_ok d (Sec ki nm bc ec (cont ++ t) ss)) as (k & K1 & _ & K2 & _). rewrite K1. cbn [node_name] in K2. rewrite (K2 D). exists t. reflexivity.
  Qed.
  (** FINDING: when the name is there already and duplicates are not asked for, the object of that name, even a line,
      is returned as it is: the section that was passed, the members and the keyword arguments are dropped in silence. *)
  Theorem C152_existing_refuted : forall d s mb kw n, ~ In (ch 46) (subject_name s) -> ~ In (ch 47) (subject_name s) -> NoDup (map fst d) -> In (subject_name s, n) d ->
    add_section float_str d s mb false kw = (d, Ok n).
  Proof using.
    intros d s mb kw n C1 C2 N I. unfold add_section. rewrite (HTCObj_Props.dget_nodup d _ n N I). rewrite (clean_path _ C1 C2). reflexivity.
  Qed.
  (** FINDING: an output section that is passed is dropped: an empty one is added, without its lines and its sensors. *)
  Theorem C152_output_refuted : forall d n ki bc ec cont ss, n = Sec ki (S_ "output") bc ec cont ss -> ~ In (S_ "output") (map fst d) ->
    add_section float_str d (Section_ n) [] false [] = (d ++ [(S_ "output", Sec Output (S_ "output") [] [] [] [])], Ok (Sec Output (S_ "output") [] [] [] [])).
  Proof using.
    intros d n ki bc ec cont ss -> D. unfold add_section, chosen. cbn [subject_name node_name].
    
    assert (G : dget d (S_ "output") = None) by (apply HTCObj_Props.HTCObj_dget_none; exact D). rewrite G.
    change (str_eqb (S_ "output") (S_ "output") || startswith (S_ "output") output_at_time) with true. cbn iota.
    change (new_section float_str (S_ "output")) with (Ok (Sec Output (S_ "output") [] [] [] [])). cbn [update fold_left set_items].
    destruct (place_ok d (Sec Output (S_ "output") [] [] [] [])) as (k & K1 & _ & K2 & _). rewrite K1. cbn [node_name] in K2. rewrite (K2 D). reflexivity.
  Qed.
  (** A new output section holds the arguments as lines and has no sensors. *)
  Theorem C152_output : forall d mb dup kw sec, (In (S_ "output") (map fst d) -> dup = true) ->
    NoDup (map fst kw) -> NoDup (map fst mb) -> Forall usable (kw ++ mb) ->
    exists k body, add_section float_str d (Name (S_ "output") sec) mb dup kw = (d ++ [(k, Sec Output (S_ "output") [] [] body [])], Ok (Sec Output (S_ "output") [] [] body [])) /\
      new_place d (S_ "output") k /\ filled [] kw mb body.
  Proof using.
    intros d mb dup kw sec D A B U. destruct (fill [] kw mb A B U) as (body & F1 & F2); [intros k _ []|].
    unfold add_section, chosen. cbn [subject_name]. 
    change (str_eqb (S_ "output") (S_ "output") || startswith (S_ "output") output_at_time) with true. cbn iota.
    change (new_section float_str (S_ "output")) with (Ok (Sec Output (S_ "output") [] [] [] [])). cbn iota. rewrite F1.
    destruct (place_ok d (Sec Output (S_ "output") [] [] body [])) as (k & K1 & K2). rewrite K1. exists k, body.
    split; [|split; [exact K2|exact F2]].
    destruct (dget d (S_ "output")) as [x|] eqn:G; [|reflexivity]. rewrite D; [reflexivity|]. apply dget_in in G. apply in_map_iff. exists (S_ "output", x). split; [reflexivity|exact G].
  Qed.
  (** FINDING: no output_at_time section can be passed: its name alone lacks the keyword and the time. *)
  Theorem C152_at_time_refuted : forall d n ki typ t bc ec cont ss mb dup kw, n = Sec ki (S_ "output_at_time") bc ec cont ss -> ki = AtTime typ t ->
    (In (S_ "output_at_time") (map fst d) -> dup = true) -> add_section float_str d (Section_ n) mb dup kw = (d, Err ValueError).
  Proof using.
    intros d n ki typ t bc ec cont ss mb dup kw -> -> D. unfold add_section, chosen. cbn [subject_name node_name].
    
    change (str_eqb (S_ "output_at_time") (S_ "output") || startswith (S_ "output_at_time") output_at_time) with true. cbn iota.
    change (new_section float_str (S_ "output_at_time")) with (@Err node ValueError).
    destruct (dget d (S_ "output_at_time")) as [x|] eqn:G; [|reflexivity]. rewrite D; [reflexivity|]. apply dget_in in G. apply in_map_iff. exists (S_ "output_at_time", x). split; [reflexivity|exact G].
  Qed.
  (** FINDING: an output_at_time section is looked up by all three words and stored under the first: adding the same
      section again never finds it, and makes another one although duplicates were not asked for. *)
  Theorem C152_at_time_again_refuted : forall d typ time t, is_token typ = true -> is_token time = true ->
    float_str time = Ok t -> Forall (fun p => Forall (fun c => is_space c = false) (fst p)) d ->
    exists k, add_section float_str d (Name (S_ "output_at_time " ++ typ ++ S_ " " ++ time) None) [] false [] =
      (d ++ [(k, Sec (AtTime typ t) (S_ "output_at_time") [] [] [] [])], Ok (Sec (AtTime typ t) (S_ "output_at_time") [] [] [] [])) /\ new_place d (S_ "output_at_time") k.
  Proof using.
    intros d typ time t T1 T2 F W. set (nm := S_ "output_at_time " ++ typ ++ S_ " " ++ time).
    assert (G : dget d nm = None).
    { apply HTCObj_Props.HTCObj_dget_none. intro X. apply in_map_iff in X. destruct X as (p & X & I). rewrite Forall_forall in W. specialize (W p I). rewrite X in W.
      rewrite Forall_forall in W. assert (Y : In sp nm) by (unfold nm; apply in_app_iff; left; cbn; do 14 right; left; reflexivity). specialize (W _ Y). discriminate W. }
    assert (S1 : split_ws nm = [S_ "output_at_time"; typ; time]).
    { unfold nm. change (S_ "output_at_time " ++ typ ++ S_ " " ++ time) with (S_ "output_at_time" ++ sp :: (typ ++ sp :: time)).
      rewrite split_ws_app by reflexivity. rewrite split_ws_app by reflexivity. rewrite (split_ws_token typ T1), (split_ws_token time T2). reflexivity. }
    assert (C : chosen float_str (Name nm None) = Ok (Sec (AtTime typ t) (S_ "output_at_time") [] [] [] [])).
    { unfold chosen, new_section. cbn [subject_name subject_section]. assert (A1 : str_eqb nm (S_ "output") = false) by reflexivity. assert (A2 : startswith nm output_at_time = true) by reflexivity.
      rewrite A1, A2. cbn [orb]. rewrite S1, F. reflexivity. }
    unfold add_section. cbn [subject_name]. rewrite G, C. cbn [update fold_left set_items].
    destruct (place_ok d (Sec (AtTime typ t) (S_ "output_at_time") [] [] [] [])) as (k & K1 & K2). rewrite K1. exists k. split; [reflexivity|exact K2].
  Qed.
  (** FINDING: a member that is no text, number, list or object raises TypeError, but the section stays in the file
      with the members before it. *)
  Theorem C152_failed_refuted : forall d nm kw k rest, ordinary nm -> ~ In nm (map fst d) -> NoDup (map fst kw ++ k :: map fst rest) -> Forall usable kw ->
    exists body, add_section float_str d (Name nm None) [] false (kw ++ (k, Other) :: rest) = (d ++ [(nm, Sec Plain nm [] [] body [])], Err TypeError) /\
      map fst body = map fst kw /\ forall j v, In (j, v) kw -> In (j, line_for j v) body.
  Proof using.
    intros d nm kw k rest O D N U. destruct (ordinary_tests nm O) as (T2 & T3).
    assert (A : NoDup (map fst kw)).
    { clear - N. induction (map fst kw) as [|x l IH]; [constructor|]. cbn [app] in N. inversion N as [|? ? N1 N2]; subst. constructor; [intro X; apply N1; apply in_app_iff; left; exact X|apply IH; exact N2]. }
    pose proof (items_fresh kw [] A (fun k _ H => H) U) as F. cbn [app] in F.
    set (body := map (fun p => (fst p, line_for (fst p) (snd p))) kw) in *.
    assert (E : set_items [] (kw ++ (k, Other) :: rest) = (body, Some TypeError)).
    { clear - F. revert F. generalize (@nil (str * node)). generalize body. clear. intros b l. revert l.
      induction kw as [|[a v] kw IH]; intros l F; cbn [app set_items] in *; [injection F as ->; reflexivity|].
      destruct (set_item l a v) as [l'|e]; [apply IH; exact F|discriminate F]. }
    unfold add_section, chosen. cbn [subject_name subject_section]. rewrite T2, T3. cbn [orb].
    assert (G : dget d nm = None) by (apply HTCObj_Props.HTCObj_dget_none; exact D). rewrite G.
    unfold new_section. rewrite T2, T3. cbn iota. cbn [update fold_left]. rewrite E. rewrite (clean_strip nm) by (apply O).
    destruct (place_ok d (Sec Plain nm [] [] body [])) as (j & K1 & _ & K2 & _). rewrite K1. cbn [node_name] in K2. rewrite (K2 D). exists body.
    split; [reflexivity|]. split; [unfold body; rewrite map_map; reflexivity|]. intros i v I. unfold body. apply in_map_iff. exists (i, v). split; [reflexivity|exact I].
  Qed.
  (** FINDING: a section passed beside a name is stored under its own name, not the one asked for, and a second call
      with the same name does not find it. *)
  Theorem C152_other_name_refuted : forall d nm n ki nm' bc ec cont ss dup, n = Sec ki nm' bc ec cont ss -> ordinary nm -> ~ In nm (map fst d) ->
    exists k, add_section float_str d (Name nm (Some n)) [] dup [] = (d ++ [(k, n)], Ok n) /\ new_place d nm' k.
  Proof using.
    intros d nm n ki nm' bc ec cont ss dup -> O D. destruct (ordinary_tests nm O) as (T2 & T3).
    unfold add_section, chosen. cbn [subject_name subject_section]. rewrite T2, T3. cbn [orb update fold_left set_items].
    assert (G : dget d nm = None) by (apply HTCObj_Props.HTCObj_dget_none; exact D). rewrite G.
    destruct (place_ok d (Sec ki nm' bc ec cont ss)) as (k & K1 & K2). rewrite K1. exists k. split; [reflexivity|exact K2].
  Qed.
End Add.
Print Assumptions C152_added.
Print Assumptions C152_given.
Print Assumptions C152_kept.
Print Assumptions C152_not_replaced.
Print Assumptions C152_existing_refuted.
Print Assumptions C152_output_refuted.
Print Assumptions C152_output.
Print Assumptions C152_at_time_refuted.
Print Assumptions C152_at_time_again_refuted.
Print Assumptions C152_failed_refuted.
Print Assumptions C152_other_name_refuted.

(** ** Concrete cases *)
Definition hydro : str := S_ "hydro".
Definition file_ : list (str * node) := [(S_ "wind", Sec Plain (S_ "wind") [] [] [(S_ "wsp", Line (S_ "wsp") [S_ "8"] [])] [])].
Definition kw_ : list (str * value) := [(S_ "rho", One (S_ "1027")); (S_ "gravity", One (S_ "9.81"))].
Definition mb_ : list (str * value) := [(S_ "mudlevel", Many [S_ "20"; S_ "1"]); (S_ "rho", One (S_ "1000"))].
Definition num_ (s : str) : res str := Ok s.
Example ordinary_hydro : ordinary hydro.
Proof.
  split; [repeat constructor|]. split; [discriminate|]. intros (t & H). discriminate H.
Qed.
Lemma no_mark k : contains k uu = false -> ~ exists a b, k = a ++ S_ "__" ++ b.
Proof. intros H X. apply (contains_iff k uu) in X. rewrite X in H. discriminate H. Qed.
Example usable_args : NoDup (map fst kw_) /\ NoDup (map fst mb_) /\ Forall usable (kw_ ++ mb_).
Proof.
  split; [repeat constructor; cbn; intuition discriminate|]. split; [repeat constructor; cbn; intuition discriminate|].
  repeat constructor; try discriminate; apply no_mark; reflexivity.
Qed.
Example added_example : add_section num_ file_ (Name hydro None) mb_ false kw_ =
  (file_ ++ [(hydro, Sec Plain hydro [] [] [(S_ "rho", Line (S_ "rho") [S_ "1000"] []); (S_ "gravity", Line (S_ "gravity") [S_ "9.81"] []); (S_ "mudlevel", Line (S_ "mudlevel") [S_ "20"; S_ "1"] [])] [])],
   Ok (Sec Plain hydro [] [] [(S_ "rho", Line (S_ "rho") [S_ "1000"] []); (S_ "gravity", Line (S_ "gravity") [S_ "9.81"] []); (S_ "mudlevel", Line (S_ "mudlevel") [S_ "20"; S_ "1"] [])] [])).
Proof. vm_compute. reflexivity. Qed.
Example again_example : map fst (fst (add_section num_ file_ (Name (S_ "wind") None) mb_ true kw_)) = [S_ "wind"; S_ "wind__2"] /\
  fst (add_section num_ file_ (Name (S_ "wind") None) mb_ false kw_) = file_.
Proof. vm_compute. split; reflexivity. Qed.
Example clash_example : add_section num_ [] (Section_ (Sec Plain (S_ "wind") [] [] [(S_ "wsp", Line (S_ "wsp") [S_ "8"] [])] [])) [] false [(S_ "wsp", One (S_ "10"))] =
  ([(S_ "wind", Sec Plain (S_ "wind") [] [] [(S_ "wsp", Line (S_ "wsp") [S_ "8"] []); (S_ "wsp__2", Line (S_ "wsp") [S_ "10"] [])] [])],
   Ok (Sec Plain (S_ "wind") [] [] [(S_ "wsp", Line (S_ "wsp") [S_ "8"] []); (S_ "wsp__2", Line (S_ "wsp") [S_ "10"] [])] [])).
Proof. vm_compute. reflexivity. Qed.
Example at_time_example : map fst (fst (add_section num_ (fst (add_section num_ [] (Name (S_ "output_at_time aero 15.0") None) [] false [])) (Name (S_ "output_at_time aero 15.0") None) [] false [])) =
  [S_ "output_at_time"; S_ "output_at_time__2"].
Proof. vm_compute. reflexivity. Qed.
Example failed_example : add_section num_ file_ (Name hydro None) [] false [(S_ "rho", One (S_ "1027")); (S_ "gravity", Other)] =
  (file_ ++ [(hydro, Sec Plain hydro [] [] [(S_ "rho", Line (S_ "rho") [S_ "1027"] [])] [])], Err TypeError).
Proof. vm_compute. reflexivity. Qed.
