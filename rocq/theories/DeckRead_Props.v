(** Theorems about reading a set of FAST input files (C80). *)
From Verif Require Import Py PyFacts FS Registry_Model Registry_Proofs FASTIn_Model FASTIn_Proofs FASTIn_Props TurbSim_Model TurbSim_Proofs Deck_Model Deck_Props.
From Coq Require Import Lia.
Local Open Scope Z_scope.

(** ** Specification: [pr] is the content that the reader of one file returns *)
Section Spec.
Variable pr : bytes -> list item.
Variables (f : fs) (name : str) (rl : list str).
(** The file under a path, if there is one *)
Definition found (p : str) : option ffile := match f p with Reg b => Some (mkF (pr b) (Some p)) | _ => None end.
(** An entry of the main file that names no file *)
Definition names_nothing (s : str) : Prop := In (lower (basename s)) (map S_ ["unused"; "nan"; "na"; "none"]%string).
(** The module with a short name, from the text under its entry *)
Definition module_of (key s : str) (x : option ffile) : Prop :=
  (In key rl -> ~ names_nothing (unquote s) -> x = found (path_join (dirname name) (unquote s))) /\
  (~ In key rl \/ names_nothing (unquote s) -> x = None).
Definition text_entry (l : list item) (k s : str) : Prop := entry_of l k = Some (VStr s).
(** The main file: its switches and the texts of its entries *)
Record main_ok (l : list item) (c : switches) (ed iw ad sv hd sd md bd : str) : Prop := {
  ok_sw : has_switches l c;
  ok_ed : text_entry l (S_ "EDFile") ed; ok_iw : text_entry l (S_ "InflowFile") iw; ok_ad : text_entry l (S_ "AeroFile") ad;
  ok_sv : text_entry l (S_ "ServoFile") sv; ok_hd : text_entry l (S_ "HydroFile") hd; ok_sd : text_entry l (S_ "SubFile") sd;
  ok_md : text_entry l (S_ "MooringFile") md; ok_bd : text_entry l (S_ "BDBldFile(1)") bd;
  ok_version : (exists d, In d l /\ it_comment d = false /\ it_label d = S_ "InterpOrder") /\
               (exists d, In d l /\ it_comment d = false /\ it_label d = S_ "EDFile") /\
               (forall d, In d l -> it_comment d = false -> it_label d <> S_ "NumTurbines") }.
(** A name without quotes, or one that is not an absolute path *)
Definition absolute (s : str) : Prop := exists r, s = slash :: r.
Definition plain_or_relative (s : str) : Prop := ~ In quote s \/ ~ absolute (unquote s).
(** The name of a module: without quotes, or a relative path between quotes *)
Definition proper (s : str) : Prop := ~ In quote s \/ exists p, s = quote :: p ++ [quote] /\ ~ In quote p /\ ~ absolute p.
(** Coordinates of a polar: none, or a file *)
Inductive coords_of (af : str) : option ffile -> list (option ffile) -> Prop :=
| co_absent : coords_of af None []
| co_number o n : entry_of (f_data o) (S_ "NumCoords") = Some (VInt n) -> coords_of af (Some o) []
| co_file o c r x : entry_of (f_data o) (S_ "NumCoords") = Some (VStr c) -> unquote c = ch 64 :: r -> module_of (S_ "AC") (path_join (dirname af) r) x -> coords_of af (Some o) [x]
| co_other o c a r : entry_of (f_data o) (S_ "NumCoords") = Some (VStr c) -> unquote c = a :: r -> a <> ch 64 -> coords_of af (Some o) [].
Inductive polars_of (base : str) : list val -> list (option ffile) -> list (option ffile) -> Prop :=
| po_nil : polars_of base [] [] []
| po_cons s names x xs cs cs' : plain_or_relative s -> module_of (S_ "AF") (path_join base (unquote s)) x -> coords_of (path_join base (unquote s)) x cs -> polars_of base names xs cs' ->
    polars_of base (VStr s :: names) (x :: xs) (cs ++ cs').
End Spec.

Lemma unquote_idem s : unquote (unquote s) = unquote s.
Proof.
  unfold unquote, replace_chr. induction s as [|c s IH]; [reflexivity|]. cbn [flat_map]. destruct (chr_eqb c quote) eqn:E; cbn [app]; [exact IH|]. cbn [flat_map]. rewrite E. cbn [app]. now rewrite IH.
Qed.
Lemma unquote_app a b : unquote (a ++ b) = unquote a ++ unquote b.
Proof. unfold unquote, replace_chr. apply flat_map_app. Qed.
Lemma unquote_plain s : ~ In quote s -> unquote s = s.
Proof.
  unfold unquote, replace_chr. induction s as [|a s IH]; intro N; [reflexivity|]. cbn [flat_map]. destruct (chr_eqb a quote) eqn:E; [exfalso; apply N; left; apply chr_eqb_eq in E; exact E|]. cbn [app]. rewrite IH; [reflexivity|]. intro H. apply N. right. exact H.
Qed.
Lemma unquote_no_quote s : ~ In quote (unquote s).
Proof.
  unfold unquote, replace_chr. induction s as [|a s IH]; cbn [flat_map]; [tauto|]. rewrite in_app_iff. destruct (chr_eqb a quote) eqn:E; cbn [In]; [tauto|]. intros [[-> | []] | H]; [rewrite chr_eqb_refl in E; discriminate|tauto].
Qed.
Lemma rstrip_in x s : In x (rstrip_slash s) -> In x s.
Proof.
  induction s as [|a s IH]; [tauto|]. cbn [rstrip_slash]. destruct (rstrip_slash s) as [|y t]; [destruct (is_slash a); [intros []|intros [<- | []]; left; reflexivity]|]. intros [<- | H]; [left; reflexivity|right; apply IH; exact H].
Qed.
Lemma dirname_no_quote s : ~ In quote s -> ~ In quote (dirname s).
Proof.
  unfold dirname. intro N. pose proof (rsplit1_spec slash s) as R. destruct (rsplit1 slash s) as [[h b]|]; [|tauto]. destruct R as [-> _]. assert (X : ~ In quote (h ++ [slash])). { rewrite in_app_iff in *. cbn [In] in *. intros [H|[H|[]]]; [tauto|discriminate H]. }
  destruct (forallb is_slash (h ++ [slash])); [exact X|]. intro H. apply X. apply rstrip_in. exact H.
Qed.
Lemma rstrip_nil s : rstrip_slash s = [] -> forallb is_slash s = true.
Proof.
  induction s as [|a s IH]; [reflexivity|]. cbn [rstrip_slash forallb]. destruct (rstrip_slash s); [|discriminate]. destruct (is_slash a); [|discriminate]. intros _. apply IH. reflexivity.
Qed.
(** The directory of a quoted name is the directory of the name, with the first quote *)
Lemma dirname_quoted p : ~ In quote p -> ~ absolute p -> dirname (quote :: p ++ [quote]) = [] /\ dirname p = [] \/ dirname (quote :: p ++ [quote]) = quote :: dirname p /\ dirname p <> [] /\ ends_slash (dirname p) = false.
Proof.
  intros NQ NA. unfold dirname. pose proof (rsplit1_spec slash p) as R. destruct (rsplit1 slash p) as [[h b]|].
  - destruct R as [-> NB]. right. replace (quote :: (h ++ slash :: b) ++ [quote]) with ((quote :: h) ++ slash :: (b ++ [quote])) by (cbn [app]; rewrite <- app_assoc; reflexivity).
    rewrite rsplit1_app by (rewrite in_app_iff; cbn [In]; intros [H|[H|[]]]; [contradiction|discriminate H]). destruct h as [|a h]; [exfalso; apply NA; exists b; reflexivity|].
    assert (is_slash a = false) as A. { unfold is_slash. destruct (chr_eqb a slash) eqn:E; [|reflexivity]. apply chr_eqb_eq in E. subst a. exfalso. apply NA. eexists. reflexivity. }
    change ((quote :: a :: h) ++ [slash]) with (quote :: (a :: h) ++ [slash]). cbn [forallb]. change (is_slash quote) with false. cbn [andb]. cbn [app forallb]. rewrite A. cbn [andb]. cbn [rstrip_slash]. rewrite A.
    destruct (rstrip_slash (h ++ [slash])) as [|y t] eqn:Y.
    + split; [reflexivity|]. split; [discriminate|]. unfold ends_slash. cbn. exact A.
    + split; [reflexivity|]. split; [discriminate|].
      assert (G : forall s, rstrip_slash s <> [] -> ends_slash (rstrip_slash s) = false).
      { clear. induction s as [|x s IH]; [intro H; contradiction|]. cbn [rstrip_slash]. destruct (rstrip_slash s) as [|y t] eqn:E.
        - destruct (is_slash x) eqn:X; [intro H; contradiction|]. intros _. unfold ends_slash. cbn. exact X.
        - intros _. unfold ends_slash in *. cbn [rev]. assert (K := IH ltac:(discriminate)). destruct (rev (y :: t)) as [|z r] eqn:Z; [apply (f_equal (@List.length ascii)) in Z; rewrite rev_length in Z; discriminate Z|]. change (rev t ++ [y]) with (rev (y :: t)). rewrite Z. cbn [app]. exact K. }
      rewrite <- Y. specialize (G (a :: h ++ [slash])). cbn [rstrip_slash] in G. rewrite Y in *. apply G. discriminate.
  - left. rewrite rsplit1_none; [split; reflexivity|]. cbn [In]. rewrite in_app_iff. cbn [In]. intros [H|[H|[H|[]]]]; [discriminate H|contradiction|discriminate H].
Qed.
Lemma join_unquote ad s : proper ad -> plain_or_relative s -> unquote (path_join (dirname ad) s) = path_join (dirname (unquote ad)) (unquote s).
Proof.
  intros P R. destruct R as [R|R].
  - rewrite (unquote_plain s R). destruct P as [P|(p & -> & NQ & NA)].
    + rewrite (unquote_plain ad P). apply unquote_plain. pose proof (dirname_no_quote ad P) as D. unfold path_join. destruct s as [|c s].
      * destruct (negb (nonempty (dirname ad)) || ends_slash (dirname ad)); rewrite in_app_iff; cbn [In]; intuition discriminate.
      * destruct (is_slash c); [exact R|]. destruct (negb (nonempty (dirname ad)) || ends_slash (dirname ad)); rewrite in_app_iff; cbn [In] in *; intuition discriminate.
    + assert (U : unquote (quote :: p ++ [quote]) = p) by (change (unquote (p ++ [quote]) = p); rewrite unquote_app, (unquote_plain p NQ); cbn; apply app_nil_r). rewrite U.
      pose proof (dirname_no_quote p NQ) as DQ. destruct (dirname_quoted p NQ NA) as [[-> E]|(-> & NE & ES)].
      * rewrite E. apply unquote_plain. unfold path_join. destruct s as [|c s]; [cbn; tauto|]. destruct (is_slash c); exact R.
      * unfold path_join. destruct s as [|c s].
        -- cbn [nonempty negb orb]. assert (ends_slash (quote :: dirname p) = false) as ->. { unfold ends_slash in *. cbn [rev]. destruct (rev (dirname p)) as [|z r] eqn:Z; [apply (f_equal (@rev ascii)) in Z; rewrite rev_involutive in Z; contradiction|]. exact ES. }
           rewrite ES. destruct (dirname p) as [|y t] eqn:Y; [contradiction|]. cbn [nonempty negb orb]. change (unquote ((y :: t) ++ [slash]) = (y :: t) ++ [slash]). apply unquote_plain. rewrite in_app_iff. cbn [In] in *. intuition discriminate.
        -- destruct (is_slash c); [apply unquote_plain; exact R|]. cbn [nonempty negb orb]. assert (ends_slash (quote :: dirname p) = false) as ->. { unfold ends_slash in *. cbn [rev]. destruct (rev (dirname p)) as [|z r] eqn:Z; [apply (f_equal (@rev ascii)) in Z; rewrite rev_involutive in Z; contradiction|]. exact ES. }
           rewrite ES. destruct (dirname p) as [|y t] eqn:Y; [contradiction|]. cbn [nonempty negb orb]. change (unquote ((y :: t) ++ slash :: c :: s) = (y :: t) ++ slash :: c :: s). apply unquote_plain. rewrite in_app_iff. cbn [In] in *. intuition discriminate.
  - assert (G : forall a, path_join a s = if negb (nonempty a) || ends_slash a then a ++ s else a ++ slash :: s).
    { intro a. unfold path_join. destruct s as [|c s]; [reflexivity|]. destruct (is_slash c) eqn:E; [|reflexivity]. apply chr_eqb_eq in E. subst c. exfalso. apply R. eexists. reflexivity. }
    assert (G' : forall a, path_join a (unquote s) = if negb (nonempty a) || ends_slash a then a ++ unquote s else a ++ slash :: unquote s).
    { intro a. unfold path_join. destruct (unquote s) as [|c t]; [reflexivity|]. destruct (is_slash c) eqn:E; [|reflexivity]. apply chr_eqb_eq in E. subst c. exfalso. apply R. eexists. reflexivity. }
    rewrite G, G'. destruct P as [P|(p & -> & NQ & NA)].
    + rewrite (unquote_plain ad P). pose proof (dirname_no_quote ad P) as D. destruct (negb (nonempty (dirname ad)) || ends_slash (dirname ad)); rewrite unquote_app, (unquote_plain _ D); reflexivity.
    + assert (U : unquote (quote :: p ++ [quote]) = p) by (change (unquote (p ++ [quote]) = p); rewrite unquote_app, (unquote_plain p NQ); cbn; apply app_nil_r). rewrite U.
      pose proof (dirname_no_quote p NQ) as DQ. destruct (dirname_quoted p NQ NA) as [[-> E]|(-> & NE & ES)].
      * rewrite E. reflexivity.
      * assert (ends_slash (quote :: dirname p) = false) as ->. { unfold ends_slash in *. cbn [rev]. destruct (rev (dirname p)) as [|z r] eqn:Z; [apply (f_equal (@rev ascii)) in Z; rewrite rev_involutive in Z; contradiction|]. exact ES. }
        rewrite ES. destruct (dirname p) as [|y t] eqn:Y; [contradiction|]. cbn [nonempty negb orb]. rewrite unquote_app. change (unquote (quote :: y :: t)) with (unquote (y :: t)). rewrite (unquote_plain _ DQ). reflexivity.
Qed.
Lemma dirname_proper ed : proper ed -> unquote (dirname ed) = dirname (unquote ed).
Proof.
  intros [P|(p & -> & NQ & NA)].
  - rewrite (unquote_plain ed P). apply unquote_plain, dirname_no_quote. exact P.
  - assert (U : unquote (quote :: p ++ [quote]) = p) by (change (unquote (p ++ [quote]) = p); rewrite unquote_app, (unquote_plain p NQ); cbn; apply app_nil_r). rewrite U.
    pose proof (dirname_no_quote p NQ) as DQ. destruct (dirname_quoted p NQ NA) as [[-> E]|(-> & NE & ES)]; [now rewrite E|]. change (unquote (dirname p) = dirname p). apply unquote_plain. exact DQ.
Qed.
Lemma has_in k l : has_ k l = true <-> In k l.
Proof.
  unfold has_. rewrite existsb_exists. split.
  - intros (x & I & E). apply str_eqb_eq in E. now subst.
  - intro I. exists k. split; [exact I|apply str_eqb_refl].
Qed.
Section Read.
Variable pr : bytes -> list item.
Let parse := fun b : bytes => Ok (pr b) : res (list item).
Variables (f : fs) (name : str) (rl : list str).
(** The value of [_read] *)
Definition loaded (key s : str) : option ffile := if negb (has_ key rl) then None else if unused (unquote s) then None else found pr f (path_join (dirname name) (unquote s)).
Lemma loaded_module key s : module_of pr f name rl key s (loaded key s).
Proof.
  unfold module_of, loaded, names_nothing. split.
  - intros H N. apply has_in in H. rewrite H. cbn [negb]. destruct (unused (unquote s)) eqn:E; [|reflexivity]. exfalso. apply N. apply has_in in E. exact E.
  - intros [H|H].
    + destruct (has_ key rl) eqn:E; [|reflexivity]. exfalso. apply H. apply has_in. exact E.
    + destruct (negb (has_ key rl)); [reflexivity|]. assert (unused (unquote s) = true) as ->; [|reflexivity]. apply has_in. exact H.
Qed.
Lemma module_unique key s x : module_of pr f name rl key s x -> x = loaded key s.
Proof.
  intros [H1 H2]. destruct (loaded_module key s) as [L1 L2]. destruct (has_ key rl) eqn:E.
  - apply has_in in E. destruct (unused (unquote s)) eqn:U.
    + apply has_in in U. rewrite L2, H2; auto.
    + assert (~ names_nothing (unquote s)). { intro N. apply has_in in N. unfold unused in U. unfold unused_names in U. congruence. } rewrite L1, H1; auto.
  - assert (~ In key rl). { intro N. apply has_in in N. congruence. } rewrite L2, H2; auto.
Qed.
Lemma loaded_unquote key s s' : unquote s = unquote s' -> loaded key s = loaded key s'.
Proof. unfold loaded. intros ->. reflexivity. Qed.
(** The state between two steps *)
Record is (D : modk -> option ffile) (A C : list (option ffile)) (d : deck) : Prop := {
  s_file : d_file d = name; s_rl : d_readlist d = rl; s_mods : forall m, d_mods d m = D m; s_af : d_af d = A; s_ac : d_ac d = C }.
Definition upd (D : modk -> option ffile) (m : modk) (x : option ffile) : modk -> option ffile := fun k => if modk_eqb k m then x else D k.
Lemma read_rel_ok D A C d key s : is D A C d -> exists d', read_rel parse f s key d = (d', Ok (loaded key s)) /\ is D A C d'.
Proof.
  intros [I1 I2 I3 I4 I5]. unfold read_rel, loaded. rewrite I2. destruct (negb (has_ key rl)); [exists d; split; [reflexivity|constructor; assumption]|]. destruct (unused (unquote s)); [exists d; split; [reflexivity|constructor; assumption]|].
  rewrite I1. unfold open_module, found. destruct (f (path_join (dirname name) (unquote s))) as [| |b].
  - exists d; split; [reflexivity|constructor; assumption].
  - exists d; split; [reflexivity|constructor; assumption].
  - cbn [bind parse]. eexists. split; [reflexivity|]. constructor; assumption.
Qed.
Lemma put_ok D A C d m x : is D A C d -> exists d', r_put m x d = (d', Ok tt) /\ is (upd D m x) A C d'.
Proof. intros [I1 I2 I3 I4 I5]. eexists. split; [reflexivity|]. constructor; cbn [set_mod d_file d_readlist d_mods d_af d_ac]; auto. intro k. unfold upd. destruct (modk_eqb k m); auto. Qed.
Lemma get_ok D A C d m o k v : is D A C d -> D m = Some o -> entry_of (f_data o) k = Some v -> r_get m k d = (d, Ok v).
Proof. intros [I1 I2 I3 I4 I5] E G. unfold r_get, mget. rewrite I3, E. now rewrite (getitem_entry _ _ _ G). Qed.
Lemma file_ok D A C d o m k s key : is D A C d -> D Fst = Some o -> entry_of (f_data o) k = Some (VStr s) ->
  exists d', r_file parse f m k key d = (d', Ok tt) /\ is (upd D m (loaded key s)) A C d'.
Proof.
  intros I E G. unfold r_file. erewrite seq_step; [|eapply get_ok; eassumption]. cbn [read_val]. destruct (read_rel_ok D A C d key s I) as (d1 & E1 & I1). erewrite seq_step; [|exact E1]. apply put_ok. exact I1.
Qed.
Lemma module_ok D A C d o sw g v (b : bool) m k s key : is D A C d -> D Fst = Some o -> entry_of (f_data o) sw = Some v -> g v = Ok b -> entry_of (f_data o) k = Some (VStr s) ->
  exists d', r_module parse f sw g m k key d = (d', Ok tt) /\ is (if b then upd D m (loaded key s) else D) A C d'.
Proof.
  intros I E G B K. unfold r_module, r_switch. erewrite seq_step; [|erewrite seq_step; [|eapply get_ok; eassumption]; unfold lift; rewrite B; reflexivity]. destruct b; cbn [when].
  - eapply file_ok; eassumption.
  - exists d. split; [reflexivity|exact I].
Qed.
Lemma polar_ok D A C d base0 base s x cs : is D A C d -> unquote (path_join base0 s) = path_join base (unquote s) -> module_of pr f name rl (S_ "AF") (path_join base (unquote s)) x -> coords_of pr f name rl (path_join base (unquote s)) x cs ->
  exists d', one_polar parse f base0 (VStr s) d = (d', Ok tt) /\ is D (A ++ [x]) (C ++ cs) d'.
Proof.
  intros I QE M K. apply module_unique in M. unfold one_polar. rewrite QE. set (af := path_join base (unquote s)) in *. destruct (read_rel_ok D A C d (S_ "AF") af I) as (d1 & E1 & I1). rewrite <- M in E1.
  erewrite seq_step; [|rewrite E1; reflexivity]. clear E1.
  set (d2 := set_af d1 (d_af d1 ++ [x])). assert (I2 : is D (A ++ [x]) C d2). { destruct I1 as [J1 J2 J3 J4 J5]. constructor; cbn; auto. now rewrite J4. }
  erewrite seq_step; [|reflexivity]. fold d2. clearbody d2. clear I1 d1.
  clear M I QE. clearbody af. destruct K as [|o n H|o c r x0 H H0 H1|o c a r H H0 H1].
  - exists d2. split; [reflexivity|]. rewrite app_nil_r. exact I2.
  - erewrite seq_step; [|unfold lift; rewrite (getitem_entry _ _ _ H); reflexivity]. exists d2. split; [reflexivity|]. rewrite app_nil_r. exact I2.
  - erewrite seq_step; [|unfold lift; rewrite (getitem_entry _ _ _ H); reflexivity]. cbv beta iota. rewrite H0. rewrite chr_eqb_refl. apply module_unique in H1. subst x0.
    destruct (read_rel_ok D (A ++ [Some o]) C d2 (S_ "AC") (path_join (dirname af) r) I2) as (d3 & E3 & I3).
    erewrite seq_step; [|exact E3]. eexists. split; [reflexivity|]. destruct I3 as [J1 J2 J3 J4 J5]. constructor; cbn; auto. now rewrite J5.
  - erewrite seq_step; [|unfold lift; rewrite (getitem_entry _ _ _ H); reflexivity]. cbv beta iota. rewrite H0. destruct (chr_eqb a (ch 64)) eqn:Q; [apply chr_eqb_eq in Q; contradiction|]. exists d2. split; [reflexivity|]. rewrite app_nil_r. exact I2.
Qed.
Lemma polars_ok D ad names xs cs : proper ad -> polars_of pr f name rl (dirname (unquote ad)) names xs cs -> forall A C d, is D A C d ->
  exists d', each (one_polar parse f (dirname ad)) names d = (d', Ok tt) /\ is D (A ++ xs) (C ++ cs) d'.
Proof.
  intro PR. induction 1 as [|s names x xs cs cs' RL M K P IH]; intros A C d I; cbn [each].
  - exists d. split; [reflexivity|]. now rewrite !app_nil_r.
  - destruct (polar_ok D A C d (dirname ad) (dirname (unquote ad)) s x cs I (join_unquote ad s PR RL) M K) as (d1 & E1 & I1). erewrite seq_step; [|exact E1]. destruct (IH _ _ _ I1) as (d2 & E2 & I2). exists d2. split; [exact E2|]. rewrite <- !app_assoc in I2. exact I2.
Qed.

Lemma set_rl_is D A C d l : is D A C d -> l = rl -> is D A C (set_readlist d l).
Proof. intros [I1 I2 I3 I4 I5] ->. constructor; cbn; auto. Qed.
(** AeroDyn, its blade and its polars *)
Inductive aero_of (ad : str) (A0 : list (option ffile)) (b0 : option ffile) : option ffile -> option ffile -> list (option ffile) -> list (option ffile) -> Prop :=
| ae_none : module_of pr f name rl (S_ "AD") ad None -> aero_of ad A0 b0 None b0 A0 []
| ae_some o bs names bld xs cs : proper ad -> plain_or_relative bs -> module_of pr f name rl (S_ "AD") ad (Some o) -> entry_of (f_data o) (S_ "ADBlFile(1)") = Some (VStr bs) -> entry_of (f_data o) (S_ "AFNames") = Some (VList names) ->
    module_of pr f name rl (S_ "ADbld") (path_join (dirname (unquote ad)) (unquote bs)) bld -> polars_of pr f name rl (dirname (unquote ad)) names xs cs -> aero_of ad A0 b0 (Some o) bld xs cs.
Lemma readAD_ok D A C d o ad x bld xs cs : ~ In (S_ "all") rl -> is D A C d -> D Fst = Some o -> entry_of (f_data o) (S_ "AeroFile") = Some (VStr ad) -> aero_of ad A (D AeroDynBlade) x bld xs cs ->
  forall r, r = None \/ r = Some rl -> exists d', readAD parse f r AeroDyn15 d = (d', Ok tt) /\ is (upd (upd D AeroDyn15 x) AeroDynBlade bld) xs (C ++ cs) d'.
Proof.
  intros NA I E G H r R. unfold readAD.
  assert (AR : ad_readlist rl = rl). { unfold ad_readlist. destruct (has_ (S_ "all") rl) eqn:Q; [apply has_in in Q; contradiction|reflexivity]. }
  set (d1 := match r with Some l => set_readlist d (ad_readlist l) | None => d end). assert (I1 : is D A C d1) by (unfold d1; destruct R as [-> | ->]; [exact I|apply set_rl_is; auto]).
  erewrite seq_step; [|reflexivity]. fold d1. clearbody d1. erewrite seq_step; [|eapply get_ok; eassumption]. erewrite seq_step; [|reflexivity]. cbv zeta.
  destruct (read_rel_ok D A C d1 (S_ "AD") ad I1) as (d2 & E2 & I2).
  assert (Q : forall d' D' A' C', is D' A' C' d' -> is D' A' C' (match r with Some _ => set_readlist d' (d_readlist d) | None => d' end)).
  { intros d' D' A' C' J. destruct R as [-> | ->]; [exact J|]. apply set_rl_is; [exact J|apply (s_rl _ _ _ _ I)]. }
  destruct H as [H|o' bs names bld xs cs PR RL H H1 H2 H3 H4].
  - apply module_unique in H. rewrite <- H in E2. erewrite seq_step; [|exact E2]. destruct (put_ok D A C d2 AeroDyn15 None I2) as (d3 & E3 & I3). erewrite seq_step; [|exact E3]. erewrite seq_step; [|reflexivity].
    eexists. split; [reflexivity|]. apply Q. rewrite app_nil_r. destruct I3 as [J1 J2 J3 J4 J5]. constructor; auto. intro k. rewrite J3. unfold upd. destruct k; reflexivity.
  - apply module_unique in H. rewrite <- H in E2. erewrite seq_step; [|exact E2]. destruct (put_ok D A C d2 AeroDyn15 (Some o') I2) as (d3 & E3 & I3). erewrite seq_step; [|exact E3].
    match goal with |- exists d', seq_ ?x _ d3 = _ /\ _ => assert (T : exists d4, x d3 = (d4, Ok tt) /\ is (upd (upd D AeroDyn15 (Some o')) AeroDynBlade bld) xs (C ++ cs) d4) end.
    { erewrite seq_step; [|unfold lift; rewrite (getitem_entry _ _ _ H1); reflexivity]. erewrite seq_step; [|reflexivity]. destruct (read_rel_ok _ _ _ d3 (S_ "ADbld") (path_join (dirname ad) bs) I3) as (d4 & E4 & I4). apply module_unique in H3. rewrite (loaded_unquote (S_ "ADbld") (path_join (dirname (unquote ad)) (unquote bs)) (path_join (dirname ad) bs)) in H3 by (rewrite <- (join_unquote ad bs PR RL); apply unquote_idem). rewrite <- H3 in E4. erewrite seq_step; [|exact E4].
      destruct (put_ok _ _ _ d4 AeroDynBlade bld I4) as (d5 & E5 & I5). erewrite seq_step; [|exact E5]. set (d6 := set_af d5 []). assert (I6 : is (upd (upd D AeroDyn15 (Some o')) AeroDynBlade bld) [] C d6) by (destruct I5 as [J1 J2 J3 J4 J5]; constructor; cbn; auto).
      erewrite seq_step; [|reflexivity]. fold d6. clearbody d6. erewrite seq_step; [|eapply get_ok; [exact I6|reflexivity|exact H2]]. cbv beta iota. destruct (polars_ok _ _ _ _ _ PR H4 _ _ _ I6) as (d7 & E7 & I7). exists d7. split; [exact E7|exact I7]. }
    destruct T as (d4 & E4 & I4). erewrite seq_step; [|exact E4]. eexists. split; [reflexivity|]. apply Q. exact I4.
Qed.
Lemma key_has l k : (exists d, In d l /\ it_comment d = false /\ it_label d = k) <-> has_ k (keys (mkF l None)) = true.
Proof.
  rewrite has_in. unfold keys. cbn [f_data]. rewrite in_map_iff. split.
  - intros (d & I & C & L). exists d. split; [exact L|]. apply filter_In. split; [exact I|]. now rewrite C.
  - intros (d & L & I). apply filter_In in I. destruct I as [I C]. exists d. split; [exact I|]. split; [|exact L]. now destruct (it_comment d).
Qed.
(** ** The whole deck *)
Definition module_if (en : Prop) (key s : str) (old x : option ffile) : Prop := (en -> module_of pr f name rl key s x) /\ (~ en -> x = old).
Definition blade_key (l : list item) (k : str) : Prop :=
  ((exists d, In d l /\ it_comment d = false /\ it_label d = S_ "BldFile(1)") /\ k = S_ "BldFile(1)") \/
  ((forall d, In d l -> it_comment d = false -> it_label d <> S_ "BldFile(1)") /\ k = S_ "BldFile1").
(** The files that ElastoDyn names: the tower and the blade *)
Inductive elasto_of (ed : str) (t0 b0 : option ffile) : option ffile -> option ffile -> option ffile -> Prop :=
| el_none : module_of pr f name rl (S_ "ED") ed None -> elasto_of ed t0 b0 None t0 b0
| el_some o u k v t b : module_of pr f name rl (S_ "ED") ed (Some o) -> text_entry (f_data o) (S_ "TwrFile") u -> blade_key (f_data o) k -> text_entry (f_data o) k v ->
    module_of pr f name rl (S_ "EDtwr") (path_join (dirname (unquote ed)) (unquote u)) t -> module_of pr f name rl (S_ "EDbld") (path_join (dirname (unquote ed)) (unquote v)) b -> elasto_of ed t0 b0 (Some o) t b.
Inductive beam_of (bd : str) (b0 : option ffile) : option ffile -> option ffile -> Prop :=
| be_none : module_of pr f name rl (S_ "BD") bd None -> beam_of bd b0 None b0
| be_some o u b : proper bd -> plain_or_relative u -> module_of pr f name rl (S_ "BD") bd (Some o) -> text_entry (f_data o) (S_ "BldFile") u -> module_of pr f name rl (S_ "BDbld") (path_join (dirname (unquote bd)) (unquote u)) b -> beam_of bd b0 (Some o) b.
Theorem C80_reads_partial : forall d fn l b c ed iw ad sv hd sd md bd,
  match fn with Some n => n | None => d_file d end = name -> d_readlist d = rl -> In (S_ "Fst") rl -> ~ In (S_ "all") rl -> (In (S_ "HD") rl <-> In (S_ "SD") rl) ->
  ~ In quote (basename name) -> ~ names_nothing (basename name) -> f (path_join (dirname name) (basename name)) = Reg b -> pr b = l -> main_ok l c ed iw ad sv hd sd md bd -> proper ed ->
  forall xed xtw xbl, elasto_of ed (d_mods d ElastoDynTower) (d_mods d ElastoDynBlade) xed xtw xbl ->
  forall xad xadb xaf xac, (0 < c_aero c -> c_aero c <> 1 /\ aero_of ad (d_af d) (d_mods d AeroDynBlade) xad xadb xaf xac) -> (c_aero c <= 0 -> xad = d_mods d AeroDyn15 /\ xadb = d_mods d AeroDynBlade /\ xaf = d_af d /\ xac = []) ->
  forall xbd xbdb, (c_elast c = 2 -> beam_of bd (d_mods d BeamDynBlade) xbd xbdb) -> (c_elast c <> 2 -> xbd = d_mods d BeamDyn /\ xbdb = d_mods d BeamDynBlade) ->
  exists d', deck_read parse f fn d = (d', Ok tt) /\ d_file d' = name /\ d_readlist d' = rl /\
    d_mods d' Fst = Some (mkF l (Some (path_join (dirname name) (basename name)))) /\
    d_mods d' ElastoDyn = xed /\ d_mods d' ElastoDynTower = xtw /\ d_mods d' ElastoDynBlade = xbl /\
    module_if (0 < c_inflow c) (S_ "IW") iw (d_mods d InflowWind) (d_mods d' InflowWind) /\
    d_mods d' AeroDyn15 = xad /\ d_mods d' AeroDynBlade = xadb /\ d_af d' = xaf /\ d_ac d' = d_ac d ++ xac /\ d_mods d' AeroDyn14 = d_mods d AeroDyn14 /\
    module_if (0 < c_servo c) (S_ "SrvD") sv (d_mods d ServoDyn) (d_mods d' ServoDyn) /\
    module_if (c_hydro c = 1) (S_ "HD") hd (d_mods d HydroDyn) (d_mods d' HydroDyn) /\
    module_if (c_sub c = 1) (S_ "SD") sd (d_mods d SubDyn) (d_mods d' SubDyn) /\
    module_if (c_mooring c = 1) (S_ "MD") md (d_mods d MAP) (d_mods d' MAP) /\
    module_if (c_mooring c = 2) (S_ "MD") md (d_mods d MoorDyn) (d_mods d' MoorDyn) /\
    d_mods d' BeamDyn = xbd /\ d_mods d' BeamDynBlade = xbdb.
Proof.
  intros d fn l b c ed iw ad sv hd sd md bd En Erl HF NA HS NQ NN Fm Pl [SW O1 O2 O3 O4 O5 O6 O7 O8 (V1 & V2 & V3)] Qd xed xtw xbl HE xad xadb xaf xac HA1 HA2 xbd xbdb HB1 HB2.
  apply dirname_proper in Qd. destruct SW as (L1 & L2 & L3 & L4 & L5 & L6 & L7 & L8). unfold text_entry in *. unfold deck_read.
  set (d1 := match fn with Some n => set_file d n | None => d end). assert (I1 : is (d_mods d) (d_af d) (d_ac d) d1) by (unfold d1; destruct fn; constructor; cbn; auto).
  erewrite seq_step; [|reflexivity]. fold d1. clearbody d1.
  destruct (read_rel_ok _ _ _ d1 (S_ "Fst") (basename name) I1) as (d2 & E2 & I2).
  assert (UB : unquote (basename name) = basename name).
  { clear - NQ. unfold unquote, replace_chr. induction (basename name) as [|a s IH]; [reflexivity|]. cbn [flat_map]. destruct (chr_eqb a quote) eqn:E; [exfalso; apply NQ; left; apply chr_eqb_eq in E; exact E|]. cbn [app]. rewrite IH; [reflexivity|]. intro H. apply NQ. right. exact H. }
  set (main := mkF l (Some (path_join (dirname name) (basename name)))).
  assert (Lm : loaded (S_ "Fst") (basename name) = Some main).
  { unfold loaded. apply has_in in HF. rewrite HF, UB. cbn [negb]. destruct (unused (basename name)) eqn:U; [exfalso; apply NN; apply has_in in U; exact U|]. unfold found. rewrite Fm, Pl. reflexivity. }
  rewrite Lm in E2. destruct (put_ok _ _ _ d2 Fst (Some main) I2) as (d3 & E3 & I3). injection E3 as E3. subst d3.
  erewrite seq_step; [|rewrite (s_file _ _ _ _ I1), E2; reflexivity]. set (d3 := set_mod d2 Fst (Some main)) in *. clearbody d3.
  erewrite seq_step; [|rewrite (s_mods _ _ _ _ I3); reflexivity]. change (keys main) with (keys (mkF l None)).
  assert (K1 : has_ (S_ "NumTurbines") (keys (mkF l None)) = false). { destruct (has_ _ _) eqn:K; [|reflexivity]. apply key_has in K. destruct K as (x & X1 & X2 & X3). exfalso. exact (V3 x X1 X2 X3). }
  rewrite K1. apply key_has in V1. rewrite V1. apply key_has in V2. rewrite V2. cbn [when].
  (* ElastoDyn *)
  match goal with |- exists d', seq_ ?x _ d3 = _ /\ _ => assert (T : exists d4, x d3 = (d4, Ok tt) /\ is (upd (upd (upd (upd (d_mods d) Fst (Some main)) ElastoDyn xed) ElastoDynTower xtw) ElastoDynBlade xbl) (d_af d) (d_ac d) d4) end.
  { destruct (file_ok _ _ _ d3 main ElastoDyn (S_ "EDFile") ed (S_ "ED") I3 eq_refl O1) as (d4 & E4 & I4). erewrite seq_step; [|exact E4].
    erewrite seq_step; [|rewrite (s_mods _ _ _ _ I4); reflexivity]. change (upd (upd (d_mods d) Fst (Some main)) ElastoDyn (loaded (S_ "ED") ed) ElastoDyn) with (loaded (S_ "ED") ed).
    destruct HE as [H|o u k v t bl H H1 H2 H3 H4 H5]; apply module_unique in H; rewrite <- H in *.
    - exists d4. split; [reflexivity|]. destruct I4 as [J1 J2 J3 J4 J5]. constructor; auto. intro m. rewrite J3. destruct m; reflexivity.
    - unfold text_entry in *. assert (R1 : twr_rel d4 = path_join (dirname (unquote ed)) (unquote u)).
      { unfold twr_rel, mget. rewrite !(s_mods _ _ _ _ I4). cbn [upd modk_eqb]. rewrite (getitem_entry main _ _ O1). cbn [bind as_str]. rewrite (getitem_entry _ _ _ H1). cbn [bind as_str try_]. now rewrite Qd. }
      assert (R2 : bld_rel d4 = path_join (dirname (unquote ed)) (unquote v)).
      { unfold bld_rel, mget. rewrite !(s_mods _ _ _ _ I4). cbn [upd modk_eqb]. rewrite (getitem_entry main _ _ O1). cbn [bind as_str]. assert (KK : (if has_ (S_ "BldFile(1)") (keys o) then S_ "BldFile(1)" else S_ "BldFile1") = k).
        { change (keys o) with (keys (mkF (f_data o) None)). destruct H2 as [[X ->]|[X ->]].
          - apply key_has in X. now rewrite X.
          - destruct (has_ (S_ "BldFile(1)") (keys (mkF (f_data o) None))) eqn:K; [|reflexivity]. apply key_has in K. destruct K as (y & Y1 & Y2 & Y3). exfalso. exact (X y Y1 Y2 Y3). }
        rewrite KK, (getitem_entry _ _ _ H3). reflexivity. }
      erewrite seq_step; [|rewrite R1; reflexivity]. erewrite seq_step; [|rewrite R2; reflexivity].
      destruct (read_rel_ok _ _ _ d4 (S_ "EDtwr") (path_join (dirname (unquote ed)) (unquote u)) I4) as (d5 & E5 & I5). apply module_unique in H4. rewrite <- H4 in E5. erewrite seq_step; [|exact E5]. destruct (put_ok _ _ _ d5 ElastoDynTower t I5) as (d6 & E6 & I6). erewrite seq_step; [|exact E6].
      destruct (read_rel_ok _ _ _ d6 (S_ "EDbld") (path_join (dirname (unquote ed)) (unquote v)) I6) as (d7 & E7 & I7). apply module_unique in H5. rewrite <- H5 in E7. erewrite seq_step; [|exact E7]. destruct (put_ok _ _ _ d7 ElastoDynBlade bl I7) as (d8 & E8 & I8). exists d8. split; [exact E8|exact I8]. }
  destruct T as (d4 & E4 & I4). erewrite seq_step; [|exact E4]. clear E4 I3 E2.
  set (D4 := upd _ ElastoDynBlade xbl) in I4.
  (* InflowWind *)
  destruct (module_ok _ _ _ d4 main _ gt0 _ _ InflowWind (S_ "InflowFile") iw (S_ "IW") I4 eq_refl L2 eq_refl O2) as (d5 & E5 & I5). erewrite seq_step; [|exact E5]. clear E5 I4.
  set (D5 := if 0 <? c_inflow c then upd D4 InflowWind (loaded (S_ "IW") iw) else D4) in I5.
  assert (M5 : D5 Fst = Some main) by (unfold D5; destruct (0 <? c_inflow c); reflexivity).
  assert (N5 : D5 AeroDynBlade = d_mods d AeroDynBlade) by (unfold D5; destruct (0 <? c_inflow c); reflexivity).
  (* AeroDyn *)
  erewrite seq_step; [|unfold r_switch; erewrite seq_step; [|eapply get_ok; [exact I5|exact M5|exact L3]]; reflexivity].
  match goal with |- exists d', seq_ ?x _ d5 = _ /\ _ => assert (T : exists d6, x d5 = (d6, Ok tt) /\ is (upd (upd D5 AeroDyn15 xad) AeroDynBlade xadb) xaf (d_ac d ++ xac) d6) end.
  { destruct (0 <? c_aero c) eqn:Q; cbn [when].
    - apply Z.ltb_lt in Q. destruct (HA1 Q) as [Q1 HA]. erewrite seq_step; [|unfold r_switch; erewrite seq_step; [|eapply get_ok; [exact I5|exact M5|exact L3]]; reflexivity]. assert (Q2 : (c_aero c =? 1) = false) by (apply Z.eqb_neq; exact Q1). rewrite Q2.
      erewrite seq_step; [|reflexivity]. rewrite (s_rl _ _ _ _ I5). rewrite <- N5 in HA. exact (readAD_ok _ _ _ d5 main ad xad xadb xaf xac NA I5 M5 O3 HA (Some rl) (or_intror eq_refl)).
    - apply Z.ltb_ge in Q. destruct (HA2 Q) as (-> & -> & -> & ->). exists d5. split; [reflexivity|]. rewrite app_nil_r. destruct I5 as [J1 J2 J3 J4 J5]. constructor; auto. intro m. rewrite J3. unfold D5. destruct (0 <? c_inflow c); destruct m; reflexivity. }
  destruct T as (d6 & E6 & I6). erewrite seq_step; [|exact E6]. clear E6 I5. set (D6 := upd (upd D5 AeroDyn15 xad) AeroDynBlade xadb) in I6. assert (M6 : D6 Fst = Some main) by exact M5.
  (* the other modules *)
  destruct (module_ok _ _ _ d6 main _ gt0 _ _ ServoDyn (S_ "ServoFile") sv (S_ "SrvD") I6 M6 L4 eq_refl O4) as (d7 & E7 & I7). erewrite seq_step; [|exact E7]. clear E7 I6.
  set (D7 := if 0 <? c_servo c then _ else _) in I7. assert (M7 : D7 Fst = Some main) by (unfold D7; destruct (0 <? c_servo c); exact M6).
  destruct (module_ok _ _ _ d7 main _ (eqn 1) _ _ HydroDyn (S_ "HydroFile") hd (S_ "HD") I7 M7 L5 eq_refl O5) as (d8 & E8 & I8). erewrite seq_step; [|exact E8]. clear E8 I7.
  set (D8 := if c_hydro c =? 1 then _ else _) in I8. assert (M8 : D8 Fst = Some main) by (unfold D8; destruct (c_hydro c =? 1); exact M7).
  destruct (module_ok _ _ _ d8 main _ (eqn 1) _ _ SubDyn (S_ "SubFile") sd (S_ "HD") I8 M8 L6 eq_refl O6) as (d9 & E9 & I9). erewrite seq_step; [|exact E9]. clear E9 I8.
  set (D9 := if c_sub c =? 1 then _ else _) in I9. assert (M9 : D9 Fst = Some main) by (unfold D9; destruct (c_sub c =? 1); exact M8).
  destruct (module_ok _ _ _ d9 main _ (eqn 1) _ _ MAP (S_ "MooringFile") md (S_ "MD") I9 M9 L7 eq_refl O7) as (d10 & E10 & I10). erewrite seq_step; [|exact E10]. clear E10 I9.
  set (D10 := if c_mooring c =? 1 then _ else _) in I10. assert (M10 : D10 Fst = Some main) by (unfold D10; destruct (c_mooring c =? 1); exact M9).
  destruct (module_ok _ _ _ d10 main _ (eqn 2) _ _ MoorDyn (S_ "MooringFile") md (S_ "MD") I10 M10 L7 eq_refl O7) as (d11 & E11 & I11). erewrite seq_step; [|exact E11]. clear E11 I10.
  set (D11 := if c_mooring c =? 2 then _ else _) in I11. assert (M11 : D11 Fst = Some main) by (unfold D11; destruct (c_mooring c =? 2); exact M10).
  (* BeamDyn *)
  erewrite seq_step; [|unfold r_switch; erewrite seq_step; [|eapply get_ok; [exact I11|exact M11|exact L1]]; reflexivity].
  assert (OB : D11 BeamDyn = d_mods d BeamDyn /\ D11 BeamDynBlade = d_mods d BeamDynBlade).
  { unfold D11, D10, D9, D8, D7, D6, D5. destruct (c_mooring c =? 2), (c_mooring c =? 1), (c_sub c =? 1), (c_hydro c =? 1), (0 <? c_servo c), (0 <? c_inflow c); split; reflexivity. }
  match goal with |- exists d', ?x d11 = _ /\ _ => assert (T : exists d12, x d11 = (d12, Ok tt) /\ is (upd (upd D11 BeamDyn xbd) BeamDynBlade xbdb) xaf (d_ac d ++ xac) d12) end.
  { destruct (c_elast c =? 2) eqn:Q; cbn [when].
    - apply Z.eqb_eq in Q. specialize (HB1 Q). destruct (file_ok _ _ _ d11 main BeamDyn (S_ "BDBldFile(1)") bd (S_ "BD") I11 M11 O8) as (d12 & E12 & I12). erewrite seq_step; [|exact E12]. erewrite seq_step; [|rewrite (s_mods _ _ _ _ I12); reflexivity].
      change (upd D11 BeamDyn (loaded (S_ "BD") bd) BeamDyn) with (loaded (S_ "BD") bd). destruct OB as [OB1 OB2]. rewrite <- OB2 in HB1. destruct HB1 as [H|o u bl PR RL H H1 H2]; apply module_unique in H; rewrite <- H in *.
      + exists d12. split; [reflexivity|]. destruct I12 as [J1 J2 J3 J4 J5]. constructor; auto. intro m. rewrite J3. unfold upd. destruct m; reflexivity.
      + erewrite seq_step; [|eapply get_ok; [exact I12|exact M11|exact O8]]. erewrite seq_step; [|reflexivity]. erewrite seq_step; [|unfold lift; rewrite (getitem_entry _ _ _ H1); reflexivity]. erewrite seq_step; [|reflexivity].
        destruct (read_rel_ok _ _ _ d12 (S_ "BDbld") (path_join (dirname bd) u) I12) as (d13 & E13 & I13). apply module_unique in H2. rewrite (loaded_unquote (S_ "BDbld") (path_join (dirname (unquote bd)) (unquote u)) (path_join (dirname bd) u)) in H2 by (rewrite <- (join_unquote bd u PR RL); apply unquote_idem). rewrite <- H2 in E13. erewrite seq_step; [|exact E13]. destruct (put_ok _ _ _ d13 BeamDynBlade bl I13) as (d14 & E14 & I14). exists d14. split; [exact E14|exact I14].
    - apply Z.eqb_neq in Q. destruct (HB2 Q) as [-> ->]. destruct OB as [OB1 OB2]. exists d11. split; [reflexivity|]. destruct I11 as [J1 J2 J3 J4 J5]. constructor; auto. intro m. rewrite J3. unfold upd. destruct m; auto. }
  destruct T as (d' & E' & I'). exists d'. split; [exact E'|]. clear E' I11. destruct I' as [J1 J2 J3 J4 J5]. split; [exact J1|]. split; [exact J2|].
  assert (MI : forall (en : bool) (P : Prop) key s old x, (en = true <-> P) -> x = (if en then loaded key s else old) -> module_if P key s old x).
  { intros en P key s old x EN ->. split.
    - intro HP. apply EN in HP. rewrite HP. apply loaded_module.
    - intro HP. destruct en; [exfalso; apply HP; apply EN; reflexivity|reflexivity]. }
  assert (VV : forall m, d_mods d' m = match m with Fst => Some main | ElastoDyn => xed | ElastoDynTower => xtw | ElastoDynBlade => xbl | InflowWind => if 0 <? c_inflow c then loaded (S_ "IW") iw else d_mods d InflowWind
    | AeroDyn14 => d_mods d AeroDyn14 | AeroDyn15 => xad | AeroDynBlade => xadb | ServoDyn => if 0 <? c_servo c then loaded (S_ "SrvD") sv else d_mods d ServoDyn | HydroDyn => if c_hydro c =? 1 then loaded (S_ "HD") hd else d_mods d HydroDyn
    | SubDyn => if c_sub c =? 1 then loaded (S_ "HD") sd else d_mods d SubDyn | MAP => if c_mooring c =? 1 then loaded (S_ "MD") md else d_mods d MAP | MoorDyn => if c_mooring c =? 2 then loaded (S_ "MD") md else d_mods d MoorDyn | BeamDyn => xbd | BeamDynBlade => xbdb end).
  { intro m. rewrite J3. unfold D11, D10, D9, D8, D7, D6, D5, D4. destruct (c_mooring c =? 2), (c_mooring c =? 1), (c_sub c =? 1), (c_hydro c =? 1), (0 <? c_servo c), (0 <? c_inflow c); destruct m; reflexivity. }
  rewrite !VV, J4, J5. clear - MI HS.
  assert (LS : loaded (S_ "HD") sd = loaded (S_ "SD") sd).
  { unfold loaded. assert (Q : has_ (S_ "HD") rl = has_ (S_ "SD") rl) by (destruct (has_ (S_ "SD") rl) eqn:B; [apply has_in, HS, has_in, B|]; destruct (has_ (S_ "HD") rl) eqn:B'; [exfalso; apply has_in, HS, has_in in B'; congruence|reflexivity]). now rewrite Q. }
  rewrite LS.
  split; [reflexivity|]. split; [reflexivity|]. split; [reflexivity|]. split; [reflexivity|]. split; [apply (MI (0 <? c_inflow c)); [apply Z.ltb_lt|reflexivity]|].
  split; [reflexivity|]. split; [reflexivity|]. split; [reflexivity|]. split; [reflexivity|]. split; [reflexivity|]. split; [apply (MI (0 <? c_servo c)); [apply Z.ltb_lt|reflexivity]|].
  split; [apply (MI (c_hydro c =? 1)); [apply Z.eqb_eq|reflexivity]|]. split; [apply (MI (c_sub c =? 1)); [apply Z.eqb_eq|reflexivity]|]. split; [apply (MI (c_mooring c =? 1)); [apply Z.eqb_eq|reflexivity]|]. split; [apply (MI (c_mooring c =? 2)); [apply Z.eqb_eq|reflexivity]|].
  split; reflexivity.
Qed.
End Read.

(** ** What is wrong *)
Section Sub.
Variable parse : bytes -> res (list item).
Variables (f : fs) (rl : list str).
Hypothesis Hall : ~ In (S_ "all") rl.
Hypothesis Hhd : ~ In (S_ "HD") rl.
Definition P (d : deck) : Prop := d_readlist d = rl /\ d_mods d SubDyn = None.
Definition keeps {A} (x : rd A) : Prop := forall d, P d -> P (fst (x d)).
Lemma keeps_seq {A B} (x : rd A) (k : A -> rd B) : keeps x -> (forall a, keeps (k a)) -> keeps (seq_ x k).
Proof. intros X K d H. unfold seq_. specialize (X d H). destruct (x d) as [d' [a|e]]; [apply K; exact X|exact X]. Qed.
Lemma keeps_same {A} (x : rd A) : (forall d, fst (x d) = d) -> keeps x.
Proof. intros X d H. rewrite X. exact H. Qed.
Lemma keeps_when b x : keeps x -> keeps (when b x).
Proof. intro H. destruct b; [exact H|]. apply keeps_same. reflexivity. Qed.
Lemma keeps_each {A} (g : A -> rd unit) l : (forall a, keeps (g a)) -> keeps (each g l).
Proof. intro H. induction l as [|x l IH]; cbn [each]; [apply keeps_same; reflexivity|apply keeps_seq; [apply H|intro; exact IH]]. Qed.
Lemma keeps_rel s key : keeps (read_rel parse f s key).
Proof.
  intros d H. unfold read_rel. destruct (negb _); [exact H|]. destruct (unused _); [exact H|]. destruct (open_module parse f _) as [o|e]; [exact H|]. destruct e; exact H.
Qed.
Lemma keeps_put m x : m <> SubDyn -> keeps (r_put m x).
Proof. intros N d [H1 H2]. split; [exact H1|]. cbn. destruct m; try exact H2. contradiction. Qed.
Lemma keeps_val v key : keeps (read_val parse f v key).
Proof. destruct v; try (apply keeps_same; reflexivity). apply keeps_rel. Qed.
Ltac kp := repeat first [match goal with |- keeps (seq_ _ _) => apply keeps_seq; [|intro] end | match goal with |- keeps (when _ _) => apply keeps_when end | apply keeps_rel | apply keeps_val | apply keeps_put; discriminate | apply keeps_same; reflexivity].
Lemma keeps_file m k key : m <> SubDyn -> keeps (r_file parse f m k key).
Proof. intro N. unfold r_file. kp. apply keeps_put. exact N. Qed.
Lemma keeps_module sw g m k key : m <> SubDyn -> keeps (r_module parse f sw g m k key).
Proof. intro N. unfold r_module, r_switch. kp. apply keeps_file. exact N. Qed.
Lemma keeps_sub sw g k : keeps (r_module parse f sw g SubDyn k (S_ "HD")).
Proof.
  unfold r_module, r_switch. kp. unfold r_file. apply keeps_seq; [kp|]. intro v. intros d [H1 H2]. unfold seq_. destruct v; cbn [read_val]; try (split; assumption).
  unfold read_rel. rewrite H1. assert (has_ (S_ "HD") rl = false) as ->. { destruct (has_ _ _) eqn:E; [|reflexivity]. apply has_in in E. contradiction. } cbn [negb]. split; [exact H1|reflexivity].
Qed.
Lemma keeps_polar base v : keeps (one_polar parse f base v).
Proof.
  destruct v; try (apply keeps_same; reflexivity). unfold one_polar. apply keeps_seq.
  - intros d H. pose proof (keeps_rel (unquote (path_join base s)) (S_ "AF") d H) as K. destruct (read_rel parse f _ _ d) as [d' [x|e]]; exact K.
  - intro polar. apply keeps_seq; [intros d H; exact H|]. intros _. destruct polar as [o|]; [|kp]. kp. destruct a; try (apply keeps_same; reflexivity). destruct (unquote s0) as [|c r]; [apply keeps_same; reflexivity|]. destruct (chr_eqb c (ch 64)); [|apply keeps_same; reflexivity]. apply keeps_seq; [kp|]. intros x d H. exact H.
Qed.
Lemma keeps_AD r key : r = None \/ r = Some rl -> key <> SubDyn -> keeps (readAD parse f r key).
Proof.
  intros R N d H. unfold readAD.
  assert (AR : ad_readlist rl = rl). { unfold ad_readlist. destruct (has_ (S_ "all") rl) eqn:Q; [apply has_in in Q; contradiction|reflexivity]. }
  match goal with |- P (fst (?x d)) => assert (K : keeps x); [|exact (K d H)] end.
  apply keeps_seq. { intros d' H'. destruct R as [-> | ->]; [exact H'|]. cbn. destruct H' as [H1 H2]. split; [cbn; exact AR|exact H2]. } intros _. kp.
  - apply keeps_put. exact N.
  - destruct a1 as [o|]; [|apply keeps_same; reflexivity]. kp.
    + intros d' H'. exact H'.
    + match goal with |- keeps (match ?x with _ => _ end) => destruct x end; try (apply keeps_same; reflexivity). apply keeps_each. apply keeps_polar.
  - intros d' H'. destruct R as [-> | ->]; [exact H'|]. destruct H as [H1 H2]. destruct H' as [H3 H4]. split; [exact H1|exact H4].
Qed.
Lemma keeps_read fn : keeps (deck_read parse f fn).
Proof.
  unfold deck_read. apply keeps_seq. { intros d H. destruct fn; exact H. } intros _. apply keeps_seq.
  { intros d H. pose proof (keeps_rel (basename (d_file d)) (S_ "Fst") d H) as K. destruct (read_rel parse f _ _ d) as [d' [x|e]]; exact K. }
  intros _. apply keeps_seq; [apply keeps_same; reflexivity|]. intro ks. destruct (has_ (S_ "NumTurbines") ks).
  { apply keeps_seq; [apply keeps_module; discriminate|]. intros _. apply keeps_AD; [left; reflexivity|discriminate]. }
  destruct (has_ (S_ "InterpOrder") ks); [|apply keeps_same; reflexivity].
  apply keeps_seq. { apply keeps_when. apply keeps_seq; [apply keeps_file; discriminate|]. intros _. apply keeps_seq; [apply keeps_same; reflexivity|]. intros [o|]; [|apply keeps_same; reflexivity]. kp. }
  intros _. apply keeps_seq; [apply keeps_module; discriminate|]. intros _. apply keeps_seq; [unfold r_switch; kp|]. intro a. apply keeps_seq.
  { apply keeps_when. apply keeps_seq; [unfold r_switch; kp|]. intro a1. intros d H. unfold seq_. destruct H as [H1 H2]. rewrite H1. apply keeps_AD; [right; reflexivity|destruct a1; discriminate|split; assumption]. }
  intros _. apply keeps_seq; [apply keeps_module; discriminate|]. intros _. apply keeps_seq; [apply keeps_module; discriminate|]. intros _. apply keeps_seq; [apply keeps_sub|]. intros _. apply keeps_seq; [apply keeps_module; discriminate|]. intros _. apply keeps_seq; [apply keeps_module; discriminate|].
  intros _. apply keeps_seq; [unfold r_switch; kp|]. intro e2. apply keeps_when. apply keeps_seq; [apply keeps_file; discriminate|]. intros _. apply keeps_seq; [apply keeps_same; reflexivity|]. intros [o|]; [|apply keeps_same; reflexivity]. kp.
Qed.
End Sub.
(** SubDyn is read only on a request for HydroDyn *)
Theorem C80_subdyn_refuted : forall parse f path l, ~ In (S_ "all") l -> ~ In (S_ "HD") l -> d_mods (fst (deck_init parse f path l)) SubDyn = None.
Proof.
  intros parse f path l NA NH. assert (R : make_readlist l = S_ "Fst" :: l). { unfold make_readlist. destruct (has_ (S_ "all") l) eqn:E; [apply has_in in E; contradiction|reflexivity]. }
  unfold deck_init. destruct path as [|c path]; [reflexivity|]. apply (keeps_read parse f (S_ "Fst" :: l)).
  - intros [H|H]; [discriminate H|contradiction].
  - intros [H|H]; [discriminate H|contradiction].
  - split; [exact R|reflexivity].
Qed.
(** A deck that uses AeroDyn 14 cannot be read together with its aerodynamic file *)
Theorem C80_aerodyn14_refuted : forall parse f d r o d2, d_mods d AeroDyn15 = None -> forall s, mget d Fst (S_ "AeroFile") = Ok (VStr s) ->
  read_rel parse f s (S_ "AD") (match r with Some l => set_readlist d (ad_readlist l) | None => d end) = (d2, Ok (Some o)) -> exists e, snd (readAD parse f r AeroDyn14 d) = Err e.
Proof.
  intros parse f d r o d2 N s M R. unfold readAD. set (d1 := match r with Some l => set_readlist d (ad_readlist l) | None => d end) in *.
  erewrite seq_step; [|reflexivity]. fold d1. assert (M1 : r_get Fst (S_ "AeroFile") d1 = (d1, Ok (VStr s))). { unfold r_get. f_equal. unfold d1. destruct r; exact M. }
  erewrite seq_step; [|exact M1]. erewrite seq_step; [|reflexivity]. cbv zeta. erewrite seq_step; [|exact R]. erewrite seq_step; [|reflexivity].
  assert (N2 : d_mods d2 AeroDyn15 = None).
  { unfold read_rel in R. destruct (negb _); [discriminate R|]. destruct (unused _); [discriminate R|]. destruct (open_module parse f _) as [o'|e]; [|destruct e; discriminate R]. injection R as <- _. cbn. unfold d1. destruct r; exact N. }
  unfold seq_ at 1. unfold seq_ at 1. unfold lift at 1. destruct (getitem o (S_ "ADBlFile(1)")) as [v|e]; [|eexists; reflexivity]. unfold seq_ at 1. unfold lift at 1. destruct (as_str TypeError v) as [bs|e]; [|eexists; reflexivity].
  unfold seq_ at 1. set (d3 := set_mod d2 AeroDyn14 (Some o)). assert (N3 : d_mods d3 AeroDyn15 = None) by exact N2.
  assert (N4 : d_mods (fst (read_rel parse f (path_join (dirname s) bs) (S_ "ADbld") d3)) AeroDyn15 = None).
  { unfold read_rel. destruct (negb _); [exact N3|]. destruct (unused _); [exact N3|]. destruct (open_module parse f _) as [o'|e]; [exact N3|destruct e; exact N3]. }
  destruct (read_rel parse f (path_join (dirname s) bs) (S_ "ADbld") d3) as [d4 [x|e]]; [|eexists; reflexivity]. cbn [fst] in N4.
  unfold seq_ at 1. cbn [r_put]. unfold seq_ at 1. unfold seq_ at 1. unfold r_get. unfold mget. cbn [set_af set_mod d_mods modk_eqb]. rewrite N4. eexists. reflexivity.
Qed.
(** ** A deck *)
Definition q_ (s : string) : val := VStr (quote :: S_ s ++ [quote]).
Definition rd_main (aero : Z) : list item :=
  [comment_item (S_ "---- OpenFAST ----"); entry_ "CompElast" (VInt 1); entry_ "CompInflow" (VInt 0); entry_ "CompAero" (VInt aero); entry_ "CompServo" (VInt 1); entry_ "CompHydro" (VInt 0); entry_ "CompSub" (VInt 0);
   entry_ "CompMooring" (VInt 0); entry_ "CompIce" (VInt 0); entry_ "InterpOrder" (VInt 2); entry_ "EDFile" (q_ "sub/ED.dat"); entry_ "InflowFile" (q_ "unused"); entry_ "AeroFile" (q_ "sub/AD.dat"); entry_ "ServoFile" (q_ "SvD.dat");
   entry_ "HydroFile" (q_ "unused"); entry_ "SubFile" (q_ "unused"); entry_ "MooringFile" (q_ "unused"); entry_ "BDBldFile(1)" (q_ "unused")].
Definition rd_ed : list item := [entry_ "TwrFile" (q_ "tower.dat"); entry_ "BldFile1" (q_ "blade.dat")].
Definition rd_ad (bld : string) : list item := [entry_ "ADBlFile(1)" (q_ bld); entry_ "AFNames" (VList [q_ "polar.dat"])].
Definition rd_polar : list item := [entry_ "NumCoords" (VStr (S_ "@coords.dat"))].
Definition rd_leaf : list item := [entry_ "x" (VInt 7)].
(** The first byte of a file tells its content *)
Definition rd_pr (b : bytes) : list item :=
  match b with [0%N] => rd_main 2 | [1%N] => rd_ed | [2%N] => rd_ad "adblade.dat" | [3%N] => rd_polar | [5%N] => rd_ad "/abs/adblade.dat" | [6%N] => rd_main 0 | _ => rd_leaf end.
Definition rd_files (main ad : N) : fs := fun p =>
  if str_eqb p (S_ "d/main.fst") then Reg [main] else if str_eqb p (S_ "d/sub/ED.dat") then Reg [1%N] else if str_eqb p (S_ "d/sub/AD.dat") then Reg [ad] else if str_eqb p (S_ "d/sub/polar.dat") then Reg [3%N] else
  if existsb (str_eqb p) (map S_ ["d/sub/tower.dat"; "d/sub/blade.dat"; "d/sub/adblade.dat"; "/abs/adblade.dat"; "d/sub/coords.dat"; "d/SvD.dat"]%string) then Reg [4%N] else Missing.
Definition rd_parse (b : bytes) : res (list item) := Ok (rd_pr b).
Definition leaf_at (p : string) : option ffile := Some (mkF rd_leaf (Some (S_ p))).
Definition rd_all : list str := [S_ "all"].
Lemma mod_by pr f name rl key s x : loaded pr f name rl key s = x -> module_of pr f name rl key s x.
Proof. intros <-. apply loaded_module. Qed.
Lemma not_in_comp k l : has_ k l = false -> ~ In k l.
Proof. intros H I. apply has_in in I. rewrite I in H. discriminate. Qed.
Lemma not_quote s : existsb (chr_eqb quote) s = false -> ~ In quote s.
Proof. intros H I. assert (existsb (chr_eqb quote) s = true) as E by (apply existsb_exists; exists quote; split; [exact I|apply chr_eqb_refl]). rewrite E in H. discriminate. Qed.
Lemma no_key l k : has_ k (keys (mkF l None)) = false -> forall d, In d l -> it_comment d = false -> it_label d <> k.
Proof. intros H d I C E. assert (has_ k (keys (mkF l None)) = true) as X by (apply key_has; exists d; auto). rewrite X in H. discriminate. Qed.
Lemma proper_quoted p : existsb (chr_eqb quote) p = false -> match p with c :: _ => is_slash c | [] => false end = false -> proper (quote :: p ++ [quote]).
Proof. intros H A. right. exists p. split; [reflexivity|]. split; [apply not_quote; exact H|]. intros [r ->]. discriminate A. Qed.
(** The hypotheses of [C80_reads_partial] are met by a deck with a structural, an aerodynamic and a control module *)
Example C80_example : exists d', deck_read rd_parse (rd_files 0 2) None (empty_deck (S_ "d/main.fst") rd_all) = (d', Ok tt) /\
  d_mods d' ElastoDynTower = leaf_at "d/sub/tower.dat" /\ d_mods d' AeroDynBlade = leaf_at "d/sub/adblade.dat" /\ d_ac d' = [leaf_at "d/sub/coords.dat"] /\ d_mods d' ServoDyn = leaf_at "d/SvD.dat".
Proof.
  destruct (C80_reads_partial rd_pr (rd_files 0 2) (S_ "d/main.fst") all_modules (empty_deck (S_ "d/main.fst") rd_all) None (rd_main 2) [0%N] (mk_sw 1 0 2 1 0 0 0 0)
    (quote :: S_ "sub/ED.dat" ++ [quote]) (quote :: S_ "unused" ++ [quote]) (quote :: S_ "sub/AD.dat" ++ [quote]) (quote :: S_ "SvD.dat" ++ [quote]) (quote :: S_ "unused" ++ [quote]) (quote :: S_ "unused" ++ [quote]) (quote :: S_ "unused" ++ [quote]) (quote :: S_ "unused" ++ [quote])) with
    (xed := Some (mkF rd_ed (Some (S_ "d/sub/ED.dat")))) (xtw := leaf_at "d/sub/tower.dat") (xbl := leaf_at "d/sub/blade.dat") (xad := Some (mkF (rd_ad "adblade.dat") (Some (S_ "d/sub/AD.dat")))) (xadb := leaf_at "d/sub/adblade.dat")
    (xaf := [Some (mkF rd_polar (Some (S_ "d/sub/polar.dat")))]) (xac := [leaf_at "d/sub/coords.dat"]) (xbd := @None ffile) (xbdb := @None ffile) as (d' & E & H).
  - reflexivity.
  - reflexivity.
  - left. reflexivity.
  - apply not_in_comp. reflexivity.
  - split; intros _; apply has_in; reflexivity.
  - apply not_quote. reflexivity.
  - apply not_in_comp. reflexivity.
  - reflexivity.
  - reflexivity.
  - constructor; try reflexivity.
    + repeat split.
    + split; [|split].
      * exists (entry_ "InterpOrder" (VInt 2)). split; [cbn; tauto|]. split; reflexivity.
      * exists (entry_ "EDFile" (q_ "sub/ED.dat")). split; [cbn; tauto|]. split; reflexivity.
      * apply (no_key (rd_main 2) (S_ "NumTurbines")). vm_compute. reflexivity.
  - apply proper_quoted; reflexivity.
  - apply el_some with (k := S_ "BldFile1") (u := quote :: S_ "tower.dat" ++ [quote]) (v := quote :: S_ "blade.dat" ++ [quote]).
    + apply mod_by. vm_compute. reflexivity.
    + reflexivity.
    + right. split; [|reflexivity]. apply (no_key rd_ed). vm_compute. reflexivity.
    + reflexivity.
    + apply mod_by. vm_compute. reflexivity.
    + apply mod_by. vm_compute. reflexivity.
  - intros _. split; [discriminate|]. apply ae_some with (bs := quote :: S_ "adblade.dat" ++ [quote]) (names := [q_ "polar.dat"]).
    + apply proper_quoted; reflexivity.
    + right. intros [r H]. discriminate H.
    + apply mod_by. vm_compute. reflexivity.
    + reflexivity.
    + reflexivity.
    + apply mod_by. vm_compute. reflexivity.
    + apply (po_cons _ _ _ _ _ (quote :: S_ "polar.dat" ++ [quote]) [] _ [] [leaf_at "d/sub/coords.dat"] []).
      * right. intros [r H]. discriminate H.
      * apply mod_by. vm_compute. reflexivity.
      * apply co_file with (c := S_ "@coords.dat") (r := S_ "coords.dat"); [reflexivity|reflexivity|apply mod_by; vm_compute; reflexivity].
      * constructor.
  - intro H. exfalso. apply H. reflexivity.
  - intro H. discriminate H.
  - intros _. split; reflexivity.
  - exists d'. split; [exact E|]. destruct H as (_ & _ & _ & _ & H1 & _ & _ & _ & H2 & _ & H3 & _ & H4 & _). split; [exact H1|]. split; [exact H2|]. split; [exact H3|].
    destruct H4 as [H4 _]. specialize (H4 eq_refl). apply module_unique in H4. rewrite H4. vm_compute. reflexivity.
Qed.
(** An absolute path between quotes, in an aerodynamic file that has a directory, is not found *)
Theorem C80_absolute_refuted : d_mods (fst (deck_init rd_parse (rd_files 0 5) (S_ "d/main.fst") rd_all)) AeroDynBlade = None /\
  rd_files 0 5 (S_ "/abs/adblade.dat") = Reg [4%N] /\ snd (deck_init rd_parse (rd_files 0 5) (S_ "d/main.fst") rd_all) = Ok tt.
Proof. vm_compute. auto. Qed.
(** Reading twice doubles the coordinates *)
Theorem C80_coordinates_refuted : let d1 := fst (deck_init rd_parse (rd_files 0 2) (S_ "d/main.fst") rd_all) in let d2 := fst (deck_read rd_parse (rd_files 0 2) None d1) in
  d_ac d1 = [leaf_at "d/sub/coords.dat"] /\ d_ac d2 = [leaf_at "d/sub/coords.dat"; leaf_at "d/sub/coords.dat"] /\ d_af d2 = d_af d1.
Proof. vm_compute. auto. Qed.
(** A module that the main file no longer uses is still there after a second reading *)
Theorem C80_stale_refuted : let d1 := fst (deck_init rd_parse (rd_files 0 2) (S_ "d/main.fst") rd_all) in let d2 := fst (deck_read rd_parse (rd_files 6 2) None d1) in
  (match d_mods d2 Fst with Some o => entry_of (f_data o) (S_ "CompAero") | None => None end) = Some (VInt 0) /\ d_mods d2 AeroDyn15 = d_mods d1 AeroDyn15 /\ d_mods d1 AeroDyn15 <> None /\
  d_mods (fst (deck_init rd_parse (rd_files 6 2) (S_ "d/main.fst") rd_all)) AeroDyn15 = None.
Proof. vm_compute. repeat split. discriminate. Qed.
Print Assumptions C80_reads_partial.
Print Assumptions C80_subdyn_refuted.
Print Assumptions C80_aerodyn14_refuted.
Print Assumptions C80_absolute_refuted.
Print Assumptions C80_coordinates_refuted.
Print Assumptions C80_stale_refuted.
