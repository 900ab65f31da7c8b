(** Properties of the objects of an HTC file: their places, copies and deletion. *)
From Verif Require Import Py PyFacts HTC_Model HTCCmp_Model.
From Verif Require HTC_Names HTCCmp_Props HTCSim_Props CSVRound_Props.
From Verif Require Import HTCObj_Model.
From Coq Require Import Lia.
Local Open Scope nat_scope.

(** ** Specification *)
Definition container (o : obj) : Prop := match o_kind o with File _ | Section_ | Output_ => True | _ => False end.
(** The object [c] is in [p] under the key [k]. *)
Definition holds (h : heap) (p : nat) (k : str) (c : nat) : Prop := exists op, h p = Some op /\ container op /\ In (k, c) (o_cont op).
Definition parent_is (h : heap) (c p : nat) : Prop := exists oc, h c = Some oc /\ o_parent oc = Some p.
(** The keys of an object are different, have no dots and slashes, and lead to different objects. *)
Definition tidy (h : heap) : Prop := forall p op, h p = Some op ->
  NoDup (map fst (o_cont op)) /\ Forall (fun e => HTCCmp_Props.simple (fst e)) (o_cont op) /\ forall k k' c, In (k, c) (o_cont op) -> In (k', c) (o_cont op) -> k = k'.
(** The object that is found by these keys, each object knowing its parent. *)
Inductive at_path (h : heap) (root : nat) : list str -> nat -> Prop :=
| at_root : at_path h root [] root
| at_below path p k c : at_path h root path p -> holds h p k c -> parent_is h c p -> at_path h root (path ++ [k]) c.

Lemma dget_nodup {V} (d : list (str * V)) k v : NoDup (map fst d) -> In (k, v) d -> dget d k = Some v.
Proof.
  unfold dget. induction d as [|[a w] d IH]; intros N I; [contradiction|]. cbn [map fst] in N. inversion N as [|? ? N1 N2]; subst. cbn [find fst]. destruct I as [I|I].
  - injection I as -> ->. rewrite str_eqb_refl. reflexivity.
  - destruct (str_eqb a k) eqn:E; [apply str_eqb_eq in E; subst; destruct N1; apply in_map_iff; exists (k, v); auto|]. apply IH; assumption.
Qed.
Lemma simple_key k : HTCCmp_Props.simple k -> path_key k = false.
Proof. intro H. apply HTCCmp_Props.simple_key. exact H. Qed.
Lemma step_container h p op k : h p = Some op -> container op -> step_ h p k = match dget (o_cont op) k with Some c => Ok c | None => Err KeyError end.
Proof. intros H C. unfold step_. rewrite H. unfold container in C. destruct (o_kind op); try contradiction; reflexivity. Qed.
Lemma step_holds h p k c : tidy h -> holds h p k c -> step_ h p k = Ok c.
Proof. intros T (op & H & C & I). rewrite (step_container h p op k H C), (dget_nodup _ k c); [reflexivity|apply (T p op H)|exact I]. Qed.
Lemma walk_app h ks : forall i k, walk_ h i (ks ++ [k]) = (j <- walk_ h i ks ;; step_ h j k).
Proof. induction ks as [|k0 ks IH]; intros i k; cbn [app walk_ bind]; [destruct (step_ h i k); reflexivity|]. destruct (step_ h i k0); [apply IH|reflexivity]. Qed.
Lemma walk_path h root path i : tidy h -> at_path h root path i -> walk_ h root path = Ok i.
Proof. intros T. induction 1 as [|path p k c A IH H P]; [reflexivity|]. rewrite walk_app, IH. cbn [bind]. exact (step_holds h p k c T H). Qed.
Lemma held_all h p op s : tidy h -> h p = Some op -> container op -> forall l, incl l (o_cont op) -> held_under h p s (map fst l) = Ok (map fst (filter (fun e => snd e =? s) l)).
Proof.
  intros T H C. induction l as [|[k c] l IH]; intro L; [reflexivity|]. cbn [map fst held_under]. assert (I : In (k, c) (o_cont op)) by (apply L; left; reflexivity).
  destruct (T p op H) as (N & S & _). rewrite Forall_forall in S. pose proof (S _ I) as K. cbn [fst] in K. unfold getitem_. rewrite (simple_key k K).
  rewrite (step_holds h p k c T) by (exists op; auto). cbn [bind]. rewrite IH by (intros e He; apply L; right; exact He). cbn [bind filter snd]. destruct (c =? s); reflexivity.
Qed.
Lemma held_one h p op s k : tidy h -> h p = Some op -> container op -> In (k, s) (o_cont op) -> exists r, held_under h p s (map fst (o_cont op)) = Ok (k :: r).
Proof.
  intros T H C I. rewrite (held_all h p op s T H C) by apply incl_refl. destruct (T p op H) as (_ & _ & U).
  assert (X : In (k, s) (filter (fun e => snd e =? s) (o_cont op))) by (apply filter_In; split; [exact I|apply Nat.eqb_refl]).
  destruct (filter (fun e => snd e =? s) (o_cont op)) as [|[k' c'] r] eqn:E; [contradiction|]. assert (Y : In (k', c') (filter (fun e => snd e =? s) (o_cont op))) by (rewrite E; left; reflexivity).
  apply filter_In in Y as [Y Z]. cbn [snd] in Z. apply Nat.eqb_eq in Z. subst c'. rewrite (U k k' s I Y). eexists. reflexivity.
Qed.
Lemma at_keys h root path i : tidy h -> at_path h root path i -> Forall HTCCmp_Props.simple path.
Proof.
  intro T. induction 1 as [|path p k c A IH (op & H & C & I) P]; [constructor|]. apply Forall_app. split; [exact IH|]. constructor; [|constructor].
  destruct (T p op H) as (_ & S & _). rewrite Forall_forall in S. exact (S _ I).
Qed.
Lemma undot_simple s : Forall (fun c => c <> dot) s -> undot s = s.
Proof. induction 1 as [|c s H F IH]; [reflexivity|]. cbn [undot map]. destruct (chr_eqb c dot) eqn:E; [apply chr_eqb_eq in E; contradiction|]. f_equal. exact IH. Qed.

Lemma HTCObj_no_dot path : Forall HTCCmp_Props.simple path -> Forall (fun c => c <> dot) (join (S_ "/") path).
Proof.
  assert (S1 : forall k, HTCCmp_Props.simple k -> Forall (fun c => c <> dot) k) by (intros k [H _]; apply Forall_forall; intros c I ->; exact (H I)).
  induction 1 as [|k [|k2 ks] H F IH]; [constructor|cbn [join]; apply S1; exact H|]. change (join (S_ "/") (k :: k2 :: ks)) with (k ++ S_ "/" ++ join (S_ "/") (k2 :: ks)).
  apply Forall_app. split; [apply S1; exact H|]. apply Forall_app. split; [constructor; [discriminate|constructor]|exact IH].
Qed.
Lemma undot_app a b : undot (a ++ b) = undot a ++ undot b.
Proof. apply map_app. Qed.
Lemma undot_join path : Forall HTCCmp_Props.simple path -> undot (join (S_ ".") path) = join (S_ "/") path.
Proof.
  assert (S1 : forall k, HTCCmp_Props.simple k -> undot k = k) by (intros k [H _]; apply undot_simple; apply Forall_forall; intros c I ->; exact (H I)).
  induction 1 as [|k [|k2 ks] H F IH]; [reflexivity|cbn [join]; apply S1; exact H|].
  change (undot (k ++ S_ "." ++ join (S_ ".") (k2 :: ks)) = k ++ S_ "/" ++ join (S_ "/") (k2 :: ks)). rewrite !undot_app, (S1 k H), IH. reflexivity.
Qed.
Lemma HTCObj_dget_none {V} (d : list (str * V)) k : dget d k = None <-> ~ In k (map fst d).
Proof. rewrite <- (HTC_Names.dmem_false d k), HTCSim_Props.dmem_dget. destruct (dget d k); split; congruence. Qed.
Lemma HTCObj_dset_new {V} (d : list (str * V)) k v : dget d k = None -> dset d k v = d ++ [(k, v)].
Proof. intro H. apply HTC_Names.dset_new. apply HTCObj_dget_none. exact H. Qed.
Lemma HTCObj_new_key {V} (d : list (str * V)) nm : exists k, new_key d nm = Some k /\ dget d k = None /\ (dget d nm = None -> k = nm).
Proof.
  unfold new_key. destruct (dmem d nm) eqn:E.
  - destruct (free_ending _ d nm 2) as [m|] eqn:F; [|exfalso; revert F; apply HTC_Names.free_enough]. exists (nm ++ ending m). split; [reflexivity|]. split.
    + apply HTCObj_dget_none. apply (HTC_Names.free_spec d nm _ _ _ F).
    + intro X. rewrite HTCSim_Props.dmem_dget, X in E. discriminate.
  - exists nm. split; [reflexivity|]. split; [apply HTCObj_dget_none; apply HTC_Names.dmem_false; exact E|reflexivity].
Qed.
Section Places.
  Variable basename : str -> str.
  (** The location of an object is the name of its file and the keys that lead to it, and these keys give the object back. *)
  Theorem C151_location : forall h root o f path i, tidy h -> h root = Some o -> o_kind o = File (Some f) -> o_parent o = None -> at_path h root path i ->
    (forall fuel, List.length path < fuel -> location basename fuel h i = Ok (basename f ++ concat (map (fun k => S_ "/" ++ k) path))) /\
    (path <> [] -> getitem_ h root (join (S_ "/") path) = Ok i).
  Proof using.
    intros h root o f path i T H K P A. split.
    - induction A as [|path p k c A IH (op & Hp & C & I) (oc & Hc & Pc)]; intros fuel L.
      + destruct fuel as [|fuel]; [inversion L|]. cbn [location]. rewrite H, P, K. cbn [map concat]. rewrite app_nil_r. reflexivity.
      + destruct fuel as [|fuel]; [inversion L|]. cbn [location]. rewrite Hc, Pc, Hp. destruct (held_one h p op c k T Hp C I) as (r & ->). cbn [bind].
        rewrite IH by (rewrite app_length in L; cbn in L; rewrite Nat.add_1_r in L; apply Nat.succ_lt_mono; exact L). cbn [bind]. rewrite map_app, concat_app. cbn [map concat]. rewrite app_nil_r, <- app_assoc. reflexivity.
    - intro N. pose proof (walk_path h root path i T A) as W. pose proof (at_keys h root path i T A) as S. clear A. unfold getitem_. destruct path as [|k1 [|k2 ks]]; [contradiction| |].
      + cbn [join]. inversion S; subst. rewrite (simple_key k1) by assumption. cbn [walk_] in W. destruct (step_ h root k1); exact W.
      + assert (D : undot (join (S_ "/") (k1 :: k2 :: ks)) = join (S_ "/") (k1 :: k2 :: ks)) by (apply undot_simple; apply HTCObj_no_dot; exact S).
        unfold path_key. rewrite D. replace (existsb _ _) with true; [|symmetry; apply existsb_exists; exists fslash; split; [|apply chr_eqb_refl]; cbn [join]; apply in_or_app; right; left; reflexivity].
        change (S_ "/") with [fslash]. rewrite (CSVRound_Props.split_join fslash (k1 :: k2 :: ks)); [exact W|discriminate|]. eapply Forall_impl; [|exact S]. intros a X. apply X.
  Qed.
  (** Dots do as well as slashes. *)
  Theorem C151_dots : forall h root path i, tidy h -> at_path h root path i -> path <> [] -> getitem_ h root (join (S_ ".") path) = Ok i.
  Proof using.
    intros h root path i T A N. pose proof (walk_path h root path i T A) as W. pose proof (at_keys h root path i T A) as S. clear A. unfold getitem_. destruct path as [|k1 [|k2 ks]]; [contradiction| |].
    - cbn [join]. inversion S; subst. rewrite (simple_key k1) by assumption. cbn [walk_] in W. destruct (step_ h root k1); exact W.
    - unfold path_key. rewrite (undot_join _ S). replace (existsb _ _) with true; [|symmetry; apply existsb_exists; exists fslash; split; [|apply chr_eqb_refl]; cbn [join]; apply in_or_app; right; left; reflexivity].
      change (S_ "/") with [fslash]. rewrite (CSVRound_Props.split_join fslash (k1 :: k2 :: ks)); [exact W|discriminate|]. eapply Forall_impl; [|exact S]. intros a X. apply X.
  Qed.
  (** A value that a line of the file does not have is an IndexError. *)
  Theorem C151_index : forall h root o f path i oi vs n fuel, tidy h -> h root = Some o -> o_kind o = File (Some f) -> o_parent o = None -> at_path h root path i -> h i = Some oi -> o_kind oi = Line_ vs ->
    List.length path < fuel -> value_at basename fuel h i n = match nth_error vs n with Some v => Ok v | None => Err IndexError end.
  Proof using.
    intros h root o f path i oi vs n fuel T H K P A Hi Ki L. unfold value_at. rewrite Hi, Ki. destruct (nth_error vs n); [reflexivity|].
    rewrite (proj1 (C151_location h root o f path i T H K P A) fuel L). reflexivity.
  Qed.
  (** But for a line that has no parent, such as the lines of a copy, it is a TypeError. *)
  Theorem C151_index_refuted : forall h i oi vs n fuel, h i = Some oi -> o_kind oi = Line_ vs -> o_parent oi = None -> List.length vs <= n -> 0 < fuel -> value_at basename fuel h i n = Err TypeError.
  Proof using.
    intros h i oi vs n fuel Hi Ki P L F. unfold value_at. rewrite Hi, Ki, (proj2 (nth_error_None vs n) L). destruct fuel as [|fuel]; [inversion F|]. cbn [location]. rewrite Hi, P, Ki. reflexivity.
  Qed.
  (** An object that is not in the contents of its parent has no location: a sensor, or an object that was deleted. *)
  Theorem C151_sensor_refuted : forall h s o p op fuel, tidy h -> h s = Some o -> o_parent o = Some p -> h p = Some op -> container op -> (forall k, ~ In (k, s) (o_cont op)) -> 0 < fuel ->
    location basename fuel h s = Err IndexError.
  Proof using.
    intros h s o p op fuel T H P Hp C N F. destruct fuel as [|fuel]; [inversion F|]. cbn [location]. rewrite H, P, Hp, (held_all h p op s T Hp C) by apply incl_refl.
    replace (filter _ _) with (@nil (str * nat)); [reflexivity|]. symmetry. clear - N. induction (o_cont op) as [|[k c] l IH]; [reflexivity|]. cbn [filter snd]. destruct (Nat.eqb_spec c s) as [->|X].
    - destruct (N k). left. reflexivity.
    - apply IH. intros k' I. exact (N k' (or_intror I)).
  Qed.
End Places.

(** ** Deletion *)
(** Nothing else changes. *)
Lemma split_on_some f s : split_on f s <> [].
Proof. induction s as [|c s IH]; cbn [split_on]; [discriminate|]. destruct (f c); [discriminate|]. destruct (split_on f s); discriminate. Qed.
Definition only_at (h h' : heap) (ps : list nat) : Prop := forall q, ~ In q ps -> h' q = h q.
Definition is_sensor (o : obj) : Prop := o_kind o = Sensor_.
Lemma filter_out s l : (forall k, ~ In (k, s) l) -> filter (fun e : str * nat => negb (snd e =? s)) l = l.
Proof.
  induction l as [|[k c] l IH]; intro N; [reflexivity|]. cbn [filter snd]. destruct (Nat.eqb_spec c s) as [->|X]; [destruct (N k); left; reflexivity|]. cbn [negb]. f_equal. apply IH. intros k' I. exact (N k' (or_intror I)).
Qed.
(** An object is taken out of its parent, under whatever keys, and nothing else changes. *)
Theorem C151_deleted : forall h s o p op, h s = Some o -> ~ is_sensor o -> o_parent o = Some p -> h p = Some op ->
  exists h' op', delete h s = Ok h' /\ only_at h h' [p] /\ h' p = Some op' /\ o_kind op' = o_kind op /\ o_name op' = o_name op /\ o_sens op' = o_sens op /\ o_parent op' = o_parent op /\
    (forall k, ~ In (k, s) (o_cont op')) /\ (forall a k c b, o_cont op = a ++ (k, c) :: b -> c <> s -> In (k, c) (o_cont op')) /\ (forall k c, In (k, c) (o_cont op') -> In (k, c) (o_cont op)) /\
    ((forall k, ~ In (k, s) (o_cont op)) -> o_cont op' = o_cont op) /\
    (forall a k b, o_cont op = a ++ (k, s) :: b -> (forall k', ~ In (k', s) (a ++ b)) -> o_cont op' = a ++ b).
Proof.
  intros h s o p op H K P Hp. assert (E : delete h s = Ok (upd h p (with_cont op (filter (fun e => negb (snd e =? s)) (o_cont op))))).
  { unfold delete. rewrite H, P, Hp. unfold is_sensor in K. destruct (o_kind o); try reflexivity. contradiction. }
  eexists. exists (with_cont op (filter (fun e => negb (snd e =? s)) (o_cont op))). split; [exact E|]. split.
  { intros q Hq. unfold upd. destruct (Nat.eqb_spec q p) as [->|]; [destruct Hq; left; reflexivity|reflexivity]. }
  split; [unfold upd; rewrite Nat.eqb_refl; reflexivity|]. cbn [with_cont o_kind o_name o_sens o_parent o_cont]. do 4 (split; [reflexivity|]). split; [|split; [|split; [|split]]].
  - intros k I. apply filter_In in I as [_ I]. cbn [snd] in I. rewrite Nat.eqb_refl in I. discriminate.
  - intros a k c b -> N. apply filter_In. split; [apply in_or_app; right; left; reflexivity|]. cbn [snd]. apply Nat.eqb_neq in N. rewrite N. reflexivity.
  - intros k c I. apply filter_In in I. apply I.
  - intro N. exact (filter_out s (o_cont op) N).
  - intros a k b -> N. rewrite filter_app. cbn [filter snd]. rewrite Nat.eqb_refl. cbn [negb]. rewrite <- filter_app. exact (filter_out s (a ++ b) N).
Qed.
(** An object without parent cannot be deleted. *)
Theorem C151_orphan_refuted : forall h s o, h s = Some o -> o_parent o = None -> delete h s = Err AttributeError.
Proof. intros h s o H P. unfold delete. rewrite H, P. reflexivity. Qed.
Lemma remove_first_spec s l : In s l -> exists a b, l = a ++ s :: b /\ ~ In s a /\ remove_first s l = Some (a ++ b).
Proof.
  induction l as [|x l IH]; [contradiction|]. intro I. cbn [remove_first]. destruct (Nat.eqb_spec x s) as [->|N].
  - exists [], l. split; [reflexivity|]. split; [intros []|reflexivity].
  - destruct I as [I|I]; [contradiction|]. destruct (IH I) as (a & b & -> & X & E). exists (x :: a), b. split; [reflexivity|]. split; [intros [Y|Y]; [contradiction|exact (X Y)]|]. rewrite E. reflexivity.
Qed.
(** A sensor is taken out of the sensors of its section. *)
Theorem C151_sensor_deleted : forall h s o p op, h s = Some o -> is_sensor o -> o_parent o = Some p -> h p = Some op -> In s (o_sens op) ->
  exists a b h', o_sens op = a ++ s :: b /\ ~ In s a /\ delete h s = Ok h' /\ only_at h h' [p] /\ h' p = Some (mk_obj (o_kind op) (o_name op) (o_cont op) (a ++ b) (o_parent op)).
Proof.
  intros h s o p op H K P Hp I. destruct (remove_first_spec s _ I) as (a & b & E & N & R). exists a, b. eexists. split; [exact E|]. split; [exact N|]. split.
  { unfold delete. rewrite H, P, Hp. unfold is_sensor in K. rewrite K, R. reflexivity. }
  split; [|unfold upd; rewrite Nat.eqb_refl; reflexivity]. intros q Hq. unfold upd. destruct (Nat.eqb_spec q p) as [->|]; [destruct Hq; left; reflexivity|reflexivity].
Qed.
(** ** Adding *)
Definition addable (o : obj) : Prop := match o_kind o with Sensor_ => False | _ => True end.
Lemma add_ok h p c op oc : h p = Some op -> h c = Some oc -> container op -> addable oc -> p <> c ->
  exists k h', add h p c = Ok h' /\ dget (o_cont op) k = None /\ (dget (o_cont op) (o_name oc) = None -> k = o_name oc) /\ h' p = Some (with_cont op (o_cont op ++ [(k, c)])) /\ h' c = Some (with_parent oc (Some p)) /\ only_at h h' [p; c].
Proof.
  intros Hp Hc C A N. destruct (HTCObj_new_key (o_cont op) (o_name oc)) as (k & E & F & G). exists k. eexists. split; [|split; [exact F|split; [exact G|]]].
  - unfold add. rewrite Hp, Hc. unfold container in C. unfold addable in A. destruct (o_kind op); try contradiction; destruct (o_kind oc); try contradiction; rewrite E; reflexivity.
  - rewrite (HTCObj_dset_new _ _ _ F). unfold set_parent. assert (X : upd h p (with_cont op (o_cont op ++ [(k, c)])) c = Some oc) by (unfold upd; destruct (Nat.eqb_spec c p) as [->|]; [contradiction|exact Hc]).
    rewrite X. split; [unfold upd; apply Nat.eqb_neq in N; rewrite N, Nat.eqb_refl; reflexivity|]. split; [unfold upd; rewrite Nat.eqb_refl; reflexivity|].
    intros q Hq. unfold upd. destruct (Nat.eqb_spec q c) as [->|]; [destruct Hq; right; left; reflexivity|]. destruct (Nat.eqb_spec q p) as [->|]; [destruct Hq; left; reflexivity|reflexivity].
Qed.
(** An object that is added is the last one of its new parent, under a key that was free; deleting it gives the parent its old contents. *)
Theorem C151_added : forall h p c op oc, h p = Some op -> h c = Some oc -> container op -> addable oc -> p <> c -> (forall k, ~ In (k, c) (o_cont op)) ->
  exists k h' h'' op', add h p c = Ok h' /\ only_at h h' [p; c] /\ h' p = Some op' /\ o_cont op' = o_cont op ++ [(k, c)] /\ ~ In k (map fst (o_cont op)) /\
    (~ In (o_name oc) (map fst (o_cont op)) -> k = o_name oc) /\ parent_is h' c p /\ delete h' c = Ok h'' /\ h'' p = Some op.
Proof.
  intros h p c op oc Hp Hc C A N F. destruct (add_ok h p c op oc Hp Hc C A N) as (k & h' & E & K & G & H1 & H2 & O).
  assert (M : forall j, dget (o_cont op) j = None <-> ~ In j (map fst (o_cont op))) by (intro j; apply HTCObj_dget_none).
  assert (Y : delete h' c = Ok (upd h' p (with_cont (with_cont op (o_cont op ++ [(k, c)])) (filter (fun e => negb (snd e =? c)) (o_cont op ++ [(k, c)]))))).
  { unfold delete. rewrite H2. cbn [with_parent o_parent o_kind]. rewrite H1. unfold addable in A. destruct (o_kind oc); try contradiction; reflexivity. }
  exists k, h'. eexists. eexists. split; [exact E|]. split; [exact O|]. split; [exact H1|]. split; [reflexivity|]. split; [apply M; exact K|]. split; [intro X; apply G; apply M; exact X|].
  split; [exists (with_parent oc (Some p)); split; [exact H2|reflexivity]|]. split; [exact Y|].
  unfold upd. rewrite Nat.eqb_refl. rewrite filter_app. cbn [filter snd]. rewrite Nat.eqb_refl. cbn [negb]. rewrite app_nil_r.
  replace (filter _ (o_cont op)) with (o_cont op); [destruct op; reflexivity|]. symmetry. clear - F. induction (o_cont op) as [|[k c'] l IH]; [reflexivity|]. cbn [filter snd].
  destruct (Nat.eqb_spec c' c) as [->|X]; [destruct (F k); left; reflexivity|]. cbn [negb]. f_equal. apply IH. intros k' I. exact (F k' (or_intror I)).
Qed.
(** A sensor that is added to an output section is its last sensor. *)
Theorem C151_sensor_added : forall h p c op oc, h p = Some op -> o_kind op = Output_ -> h c = Some oc -> is_sensor oc -> p <> c ->
  exists h', add h p c = Ok h' /\ only_at h h' [p; c] /\ parent_is h' c p /\ h' p = Some (mk_obj Output_ (o_name op) (o_cont op) (o_sens op ++ [c]) (o_parent op)).
Proof.
  intros h p c op oc Hp Kp Hc Kc N. unfold is_sensor in Kc. eexists. split; [unfold add; rewrite Hp, Hc, Kp, Kc; reflexivity|].
  assert (X : upd h p (with_sens op (o_sens op ++ [c])) c = Some oc) by (unfold upd; destruct (Nat.eqb_spec c p) as [->|]; [contradiction|exact Hc]). unfold set_parent. rewrite X. split; [|split].
  - intros q Hq. unfold upd. destruct (Nat.eqb_spec q c) as [->|]; [destruct Hq; right; left; reflexivity|]. destruct (Nat.eqb_spec q p) as [->|]; [destruct Hq; left; reflexivity|reflexivity].
  - exists (with_parent oc (Some p)). split; [unfold upd; rewrite Nat.eqb_refl; reflexivity|reflexivity].
  - unfold upd. apply Nat.eqb_neq in N. rewrite N, Nat.eqb_refl. unfold with_sens. rewrite Kp. reflexivity.
Qed.
(** A key that leads through a line is a TypeError and not a missing key. *)
Theorem C151_through_line_refuted : forall h i o vs k, h i = Some o -> o_kind o = Line_ vs -> getitem_ h i k = Err TypeError.
Proof.
  intros h i o vs k H K. assert (X : forall j, step_ h i j = Err TypeError) by (intro j; unfold step_; rewrite H, K; reflexivity). unfold getitem_. destruct (path_key k); [|apply X].
  unfold split_chr. destruct (split_on (fun x => chr_eqb x fslash) (undot k)) as [|a l] eqn:E; [exfalso; revert E; apply split_on_some|]. cbn [walk_]. rewrite X. reflexivity.
Qed.
(** An object that is in one section and is added to another is in both; deleting it takes it out of the second only. *)
Theorem C151_shared_refuted : forall h p q c k op oq oc, holds h p k c -> h p = Some op -> h q = Some oq -> h c = Some oc -> container oq -> addable oc -> q <> c -> p <> q -> p <> c ->
  exists h' h'', add h q c = Ok h' /\ delete h' c = Ok h'' /\ holds h'' p k c.
Proof.
  intros h p q c k op oq oc (op0 & H0 & C0 & I0) Hp Hq Hc C A N1 N2 N3. destruct (add_ok h q c oq oc Hq Hc C A N1) as (j & h' & E & _ & _ & H1 & H2 & O). exists h'. eexists. split; [exact E|].
  split.
  - unfold delete. rewrite H2. cbn [with_parent o_parent o_kind]. rewrite H1. unfold addable in A. destruct (o_kind oc); try contradiction; reflexivity.
  - exists op0. split; [|split; assumption]. unfold upd. apply Nat.eqb_neq in N2 as N2'. rewrite N2'. rewrite O; [exact H0|]. intros [X|[X|[]]]; congruence.
Qed.
(** ** Copies *)
Definition new_objs (n n' : nat) (h : heap) : Prop :=
  forall j, n <= j < n' -> exists o, h j = Some o /\ o_parent o = None /\ forall k c, In (k, c) (o_cont o) -> n <= c < n'.
Lemma ok_inj {A} (a b : A) : Ok a = Ok b -> a = b.
Proof. intro H. injection H. auto. Qed.
Lemma copy_new fuel : forall n h s n' h' i, copy_ fuel (n, h) s = Ok ((n', h'), i) -> n <= i < n' /\ (forall j, j < n -> h' j = h j) /\ new_objs n n' h'.
Proof.
  induction fuel as [|f IH]; intros n h s n' h' i H; [discriminate|]. cbn [copy_ snd] in H. destruct (h s) as [o|]; [|discriminate].
  assert (M : forall l n h n' h' r, copy_members (copy_ f) (n, h) l = Ok ((n', h'), r) -> n <= n' /\ (forall j, j < n -> h' j = h j) /\ new_objs n n' h' /\ forall k c, In (k, c) r -> n <= c < n').
  { clear H n h n' h' i s o. induction l as [|[k v] l IHl]; intros n h n' h' r H.
    - cbn [copy_members] in H. injection H as <- <- <-. split; [lia|]. split; [reflexivity|]. split; [intros j Hj; lia|intros k c []].
    - cbn [copy_members snd fst] in H. destruct (copy_ f (n, h) v) as [[[n1 h1] i1]|] eqn:E; [|discriminate]. cbn [bind fst snd] in H.
      destruct (copy_members (copy_ f) (n1, h1) l) as [[[n2 h2] r2]|] eqn:E2; [|discriminate]. cbn [bind fst snd] in H. injection H as <- <- <-.
      destruct (IH _ _ _ _ _ _ E) as (A1 & A2 & A3). destruct (IHl _ _ _ _ _ E2) as (B1 & B2 & B3 & B4). split; [lia|]. split; [intros j Hj; rewrite B2 by lia; apply A2; exact Hj|]. split.
      + intros j Hj. destruct (Nat.lt_ge_cases j n1) as [L|L].
        * destruct (A3 j) as (o & O1 & O2 & O3); [lia|]. exists o. split; [rewrite B2 by exact L; exact O1|]. split; [exact O2|]. intros k' c I. specialize (O3 k' c I). lia.
        * destruct (B3 j) as (o & O1 & O2 & O3); [lia|]. exists o. split; [exact O1|]. split; [exact O2|]. intros k' c I. specialize (O3 k' c I). lia.
      + intros k' c [I|I]; [injection I as <- <-; lia|]. specialize (B4 k' c I). lia. }
  assert (X : forall q, copy_members (copy_ f) (n, h) (o_cont o) = Ok q -> forall n' h' i, new_obj (fst q) (mk_obj Section_ (o_name o) (snd q) [] None) = ((n', h'), i) ->
    n <= i < n' /\ (forall j, j < n -> h' j = h j) /\ new_objs n n' h').
  { intros [[n1 h1] r] E n2 h2 i2 E2. unfold new_obj in E2. cbn [fst snd] in E2. injection E2 as <- <- <-. destruct (M _ _ _ _ _ _ E) as (A1 & A2 & A3 & A4). split; [lia|]. split.
    - intros j Hj. unfold upd. destruct (Nat.eqb_spec j n1); [lia|]. apply A2. exact Hj.
    - intros j Hj. unfold upd. destruct (Nat.eqb_spec j n1) as [->|J].
      + eexists. split; [reflexivity|]. split; [reflexivity|]. cbn [o_cont]. intros k c I. specialize (A4 k c I). lia.
      + destruct (A3 j) as (o' & O1 & O2 & O3); [lia|]. exists o'. split; [exact O1|]. split; [exact O2|]. intros k c I. specialize (O3 k c I). lia. }
  destruct (o_kind o) as [fn| | |vs|]; try discriminate.
  - destruct (copy_members (copy_ f) (n, h) (o_cont o)) as [q|] eqn:E; [|discriminate]. cbn [bind] in H. apply (X q eq_refl). exact (ok_inj _ _ H).
  - destruct (copy_members (copy_ f) (n, h) (o_cont o)) as [q|] eqn:E; [|discriminate]. cbn [bind] in H. apply (X q eq_refl). exact (ok_inj _ _ H).
  - unfold new_obj in H. cbn [fst snd] in H. injection H as <- <- <-. split; [lia|]. split.
    + intros j Hj. unfold upd. destruct (Nat.eqb_spec j n); [lia|reflexivity].
    + intros j Hj. assert (j = n) by lia. subst j. unfold upd. rewrite Nat.eqb_refl. eexists. split; [reflexivity|]. split; [reflexivity|]. cbn. contradiction.
Qed.
(** A copy and what is in it are new objects, and no old object has changed. *)
Theorem C151_copied : forall fuel n h s n' h' i, copy_ fuel (n, h) s = Ok ((n', h'), i) ->
  n <= i < n' /\ (forall j, j < n -> h' j = h j) /\ forall j o k c, n <= j < n' -> h' j = Some o -> In (k, c) (o_cont o) -> n <= c < n'.
Proof.
  intros fuel n h s n' h' i H. destruct (copy_new _ _ _ _ _ _ _ H) as (A & B & C). split; [exact A|]. split; [exact B|]. intros j o k c Hj Ho I. destruct (C j Hj) as (o' & O1 & _ & O3). assert (o' = o) by congruence. subst o'. exact (O3 k c I).
Qed.
(** The objects of a heap have numbers below [n], and so have those that are in them. *)
Definition closed (n : nat) (h : heap) : Prop := forall j o, h j = Some o -> j < n /\ forall k c, In (k, c) (o_cont o) -> c < n.
(** The object [i] of [h'] is like the object [s] of [h]: the same name and values, or the same keys with objects that are like each other, to any depth. *)
Fixpoint like (depth : nat) (h h' : heap) (s i : nat) : Prop :=
  match depth with
  | 0 => False
  | S f => exists o o', h s = Some o /\ h' i = Some o' /\ o_name o' = o_name o /\
      ((exists vs, o_kind o = Line_ vs /\ o_kind o' = Line_ vs) \/
       ((o_kind o = Section_ \/ o_kind o = Output_) /\ o_kind o' = Section_ /\ Forall2 (fun e e' => fst e' = fst e /\ like f h h' (snd e) (snd e')) (o_cont o) (o_cont o')))
  end.
Lemma forall2_in {A B} (P Q : A -> B -> Prop) l l' : Forall2 P l l' -> (forall a b, In b l' -> P a b -> Q a b) -> Forall2 Q l l'.
Proof. induction 1 as [|a b l l' H F IH]; intro X; constructor; [apply X; [left; reflexivity|exact H]|]. apply IH. intros a' b' I. apply X. right. exact I. Qed.
Lemma like_more f : forall h0 ha hb s i n n1, like f h0 ha s i -> new_objs n n1 ha -> n <= i < n1 -> (forall j, n <= j < n1 -> hb j = ha j) -> like f h0 hb s i.
Proof.
  induction f as [|f IH]; intros h0 ha hb s i n n1 L N R E; [exact L|]. destruct L as (o & o' & A & B & C & D). exists o, o'. split; [exact A|]. split; [rewrite (E i R); exact B|]. split; [exact C|].
  destruct D as [D|(D1 & D2 & D3)]; [left; exact D|right]. split; [exact D1|]. split; [exact D2|]. apply (forall2_in _ _ _ _ D3). intros e e' I [X Y]. split; [exact X|].
  apply (IH h0 ha hb _ _ n n1 Y N); [|exact E]. destruct (N i R) as (o2 & O1 & _ & O3). assert (o2 = o') by congruence. subst o2. destruct e' as [k c]. exact (O3 k c I).
Qed.
Lemma copy_like fuel : forall n0 h0 n h s n' h' i, closed n0 h0 -> n0 <= n -> (forall j, j < n0 -> h j = h0 j) -> s < n0 -> copy_ fuel (n, h) s = Ok ((n', h'), i) -> like fuel h0 h' s i.
Proof.
  induction fuel as [|f IH]; intros n0 h0 n h s n' h' i CL L E Hs H; [discriminate|]. cbn [copy_ snd] in H. destruct (h s) as [o|] eqn:Ho; [|discriminate]. rewrite E in Ho by exact Hs.
  assert (M : forall l n h n' h' r, n0 <= n -> (forall j, j < n0 -> h j = h0 j) -> (forall k c, In (k, c) l -> c < n0) -> copy_members (copy_ f) (n, h) l = Ok ((n', h'), r) ->
    n <= n' /\ (forall j, j < n -> h' j = h j) /\ Forall2 (fun e e' => fst e' = fst e /\ like f h0 h' (snd e) (snd e')) l r /\ new_objs n n' h' /\ forall k c, In (k, c) r -> n <= c < n').
  { clear H n h n' h' i s o Ho Hs E L. induction l as [|[k v] l IHl]; intros n h n' h' r L E C H.
    - cbn [copy_members] in H. injection H as <- <- <-. split; [lia|]. split; [reflexivity|]. split; [constructor|]. split; [intros j Hj; lia|intros k c []].
    - cbn [copy_members snd fst] in H. destruct (copy_ f (n, h) v) as [[[n1 h1] i1]|] eqn:E1; [|discriminate]. cbn [bind fst snd] in H.
      destruct (copy_members (copy_ f) (n1, h1) l) as [[[n2 h2] r2]|] eqn:E2; [|discriminate]. cbn [bind fst snd] in H. injection H as <- <- <-.
      destruct (copy_new _ _ _ _ _ _ _ E1) as (A1 & A2 & A3).
      assert (K : like f h0 h1 v i1) by (apply (IH n0 h0 n h v n1 h1 i1 CL L E); [apply (C k v); left; reflexivity|exact E1]).
      destruct (IHl n1 h1 n2 h2 r2) as (B1 & B2 & B3 & B4 & B5); [lia|intros j Hj; rewrite A2 by lia; apply E; exact Hj|intros k' c I; apply (C k' c); right; exact I|exact E2|].
      split; [lia|]. split; [intros j Hj; rewrite B2 by lia; apply A2; exact Hj|]. split; [|split].
      + constructor; [|exact B3]. cbn [fst snd]. split; [reflexivity|]. apply (like_more f h0 h1 h2 v i1 n n1 K A3 A1). intros j Hj. apply B2. lia.
      + intros j Hj. destruct (Nat.lt_ge_cases j n1) as [G|G].
        * destruct (A3 j) as (o & O1 & O2 & O3); [lia|]. exists o. split; [rewrite B2 by exact G; exact O1|]. split; [exact O2|]. intros k' c I. specialize (O3 k' c I). lia.
        * destruct (B4 j) as (o & O1 & O2 & O3); [lia|]. exists o. split; [exact O1|]. split; [exact O2|]. intros k' c I. specialize (O3 k' c I). lia.
      + intros k' c [I|I]; [injection I as <- <-; lia|]. specialize (B5 k' c I). lia. }
  assert (X : forall q, copy_members (copy_ f) (n, h) (o_cont o) = Ok q -> o_kind o = Section_ \/ o_kind o = Output_ -> forall n' h' i, new_obj (fst q) (mk_obj Section_ (o_name o) (snd q) [] None) = ((n', h'), i) -> like (S f) h0 h' s i).
  { intros [[n1 h1] r] E1 K n2 h2 i2 E2. unfold new_obj in E2. cbn [fst snd] in E2. injection E2 as <- <- <-. destruct (M _ _ _ _ _ _ L E (proj2 (CL s o Ho)) E1) as (A1 & A2 & A3 & A4 & A5).
    exists o. eexists. split; [exact Ho|]. split; [unfold upd; rewrite Nat.eqb_refl; reflexivity|]. split; [reflexivity|]. right. split; [exact K|]. split; [reflexivity|]. cbn [o_cont].
    apply (forall2_in _ _ _ _ A3). intros e e' I [Y Z]. split; [exact Y|]. destruct e' as [k c]. cbn [snd] in *. apply (like_more f h0 h1 _ _ _ n n1 Z A4 (A5 k c I)).
    intros j Hj. unfold upd. destruct (Nat.eqb_spec j n1); [lia|reflexivity]. }
  destruct (o_kind o) as [fn| | |vs|] eqn:Ko; try discriminate.
  - destruct (copy_members (copy_ f) (n, h) (o_cont o)) as [q|] eqn:E1; [|discriminate]. cbn [bind] in H. apply (X q eq_refl (or_introl eq_refl) n'). exact (ok_inj _ _ H).
  - destruct (copy_members (copy_ f) (n, h) (o_cont o)) as [q|] eqn:E1; [|discriminate]. cbn [bind] in H. apply (X q eq_refl (or_intror eq_refl) n'). exact (ok_inj _ _ H).
  - unfold new_obj in H. cbn [fst snd] in H. injection H as <- <- <-. exists o. eexists. split; [exact Ho|]. split; [unfold upd; rewrite Nat.eqb_refl; reflexivity|]. split; [reflexivity|]. left. exists vs. split; [exact Ko|reflexivity].
Qed.
(** A copy is like what was copied, to any depth; the sensors of output sections are not copied. *)
Theorem C151_copy_like : forall fuel n h s n' h' i, closed n h -> s < n -> copy_ fuel (n, h) s = Ok ((n', h'), i) -> like fuel h h' s i.
Proof. intros fuel n h s n' h' i C L H. exact (copy_like fuel n h n h s n' h' i C (le_n n) (fun _ _ => eq_refl) L H). Qed.
(** But what is in a copy does not know where it is, and cannot be deleted, also when the copy is added to a section. *)
Theorem C151_copy_refuted : forall fuel n h s n' h' i, copy_ fuel (n, h) s = Ok ((n', h'), i) ->
  (forall j, n <= j < n' -> delete h' j = Err AttributeError) /\
  (forall p h2, add h' p i = Ok h2 -> forall j, n <= j < n' -> j <> i -> j <> p -> delete h2 j = Err AttributeError).
Proof.
  intros fuel n h s n' h' i H. destruct (copy_new _ _ _ _ _ _ _ H) as (A & B & C). split.
  - intros j Hj. destruct (C j Hj) as (o & O1 & O2 & _). exact (C151_orphan_refuted h' j o O1 O2).
  - intros p h2 E j Hj N1 N2. destruct (C j Hj) as (o & O1 & O2 & _). apply (C151_orphan_refuted h2 j o); [|exact O2].
    assert (U : forall op', set_parent (upd h' p op') i p j = Some o).
    { intro op'. unfold set_parent. assert (V : upd h' p op' j = Some o) by (unfold upd; destruct (Nat.eqb_spec j p); [contradiction|exact O1]).
      destruct (upd h' p op' i); [|exact V]. unfold upd at 1. destruct (Nat.eqb_spec j i); [contradiction|exact V]. }
    unfold add in E. destruct (h' p) as [op|]; [|discriminate]. destruct (h' i) as [oi|]; [|discriminate].
    destruct (o_kind op), (o_kind oi); try discriminate; try (destruct (new_key _ _); [|discriminate]); injection E as <-; apply U.
Qed.

(** ** Examples *)
Definition ex_heap : heap := fun i => nth_error
  [mk_obj (File (Some (S_ "a.htc"))) [] [(S_ "wind", 1); (S_ "output", 3)] [] None;
   mk_obj Section_ (S_ "wind") [(S_ "wsp", 2); (S_ "wsp__2", 5)] [] (Some 0);
   mk_obj (Line_ [S_ "10"]) (S_ "wsp") [] [] (Some 1);
   mk_obj Output_ (S_ "output") [] [4; 6] (Some 0);
   mk_obj Sensor_ [] [] [] (Some 3);
   mk_obj (Line_ [S_ "12"]) (S_ "wsp") [] [] (Some 1);
   mk_obj Sensor_ [] [] [] (Some 3)] i.
Example ex_tidy : tidy ex_heap /\ closed 7 ex_heap.
Proof.
  assert (sk : forall s, (if existsb (fun c => chr_eqb c (ch 46) || chr_eqb c (ch 47)) s then false else true) = true -> HTCCmp_Props.simple s).
  { intros s H. destruct (existsb _ s) eqn:E; [discriminate|]. split; intro X;
      (assert (Y : existsb (fun c => chr_eqb c (ch 46) || chr_eqb c (ch 47)) s = true) by (apply existsb_exists; eexists; split; [exact X|reflexivity])); congruence. }
  split; intros p op H; destruct p as [|[|[|[|[|[|[|p]]]]]]]; try (destruct p; discriminate H); injection H as <-.
  all: try (split; [HTCCmp_Props.nd|]; split; [repeat constructor; cbn [fst]; apply sk; reflexivity|]; cbn [o_cont In]; intros k k' c I J;
    repeat (destruct I as [I|I]; [injection I as <- <-|]); try contradiction; repeat (destruct J as [J|J]; [try (injection J as <-; reflexivity); try discriminate J|]); contradiction).
  all: split; [lia|]; cbn [o_cont In]; intros k c I; repeat (destruct I as [I|I]; [injection I as <- <-; lia|]); contradiction.
Qed.
Example ex_at : at_path ex_heap 0 [S_ "wind"; S_ "wsp__2"] 5.
Proof.
  apply (at_below ex_heap 0 [S_ "wind"] 1); [apply (at_below ex_heap 0 [] 0); [constructor| |]| |].
  - eexists. split; [reflexivity|]. split; [exact Logic.I|left; reflexivity].
  - eexists. split; reflexivity.
  - eexists. split; [reflexivity|]. split; [exact Logic.I|right; left; reflexivity].
  - eexists. split; reflexivity.
Qed.
Example ex_location : location (fun s => s) 3 ex_heap 5 = Ok (S_ "a.htc/wind/wsp__2") /\ getitem_ ex_heap 0 (S_ "wind/wsp__2") = Ok 5 /\ getitem_ ex_heap 0 (S_ "wind.wsp") = Ok 2 /\
  value_at (fun s => s) 3 ex_heap 5 1 = Err IndexError /\ location (fun s => s) 3 ex_heap 4 = Err IndexError.
Proof. repeat split; vm_compute; reflexivity. Qed.
Example ex_copy : exists n h i, copy_ 3 (7, ex_heap) 1 = Ok ((n, h), i) /\ n = 10 /\ i = 9 /\ h 9 = Some (mk_obj Section_ (S_ "wind") [(S_ "wsp", 7); (S_ "wsp__2", 8)] [] None) /\
  value_at (fun s => s) 3 h 8 1 = Err TypeError.
Proof. do 3 eexists. split; [vm_compute; reflexivity|]. repeat split; vm_compute; reflexivity. Qed.
Example ex_delete : exists h, delete ex_heap 2 = Ok h /\ h 1 = Some (mk_obj Section_ (S_ "wind") [(S_ "wsp__2", 5)] [] (Some 0)) /\ location (fun s => s) 3 h 2 = Err IndexError.
Proof. eexists. split; [vm_compute; reflexivity|]. split; vm_compute; reflexivity. Qed.
Example ex_sensor : exists h, delete ex_heap 4 = Ok h /\ h 3 = Some (mk_obj Output_ (S_ "output") [] [6] (Some 0)).
Proof. eexists. split; vm_compute; reflexivity. Qed.
Example ex_add : exists h, add ex_heap 3 2 = Ok h /\ h 3 = Some (mk_obj Output_ (S_ "output") [(S_ "wsp", 2)] [4; 6] (Some 0)) /\ exists h2, delete h 2 = Ok h2 /\ h2 1 = ex_heap 1.
Proof. eexists. split; [vm_compute; reflexivity|]. split; [vm_compute; reflexivity|]. eexists. split; vm_compute; reflexivity. Qed.

Print Assumptions C151_location.
Print Assumptions C151_index.
Print Assumptions C151_index_refuted.
Print Assumptions C151_sensor_refuted.
Print Assumptions C151_deleted.
Print Assumptions C151_orphan_refuted.
Print Assumptions C151_sensor_deleted.
Print Assumptions C151_added.
Print Assumptions C151_shared_refuted.
Print Assumptions C151_copied.
Print Assumptions C151_copy_like.
Print Assumptions C151_copy_refuted.
Print Assumptions C151_dots.
Print Assumptions C151_sensor_added.
Print Assumptions C151_through_line_refuted.
