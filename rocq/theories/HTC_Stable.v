(** Files read back from their own text: stable after one round, keys, copies (for HTC_Props.v). *)
From Verif Require Import Py PyFacts TextFacts FASTOut_Model HTC_Model HTC_Spec HTC_Names HTC_Proofs HTC_Round.
From Coq Require Import Lia.
Local Open Scope nat_scope.

Lemma number_snd l : forall seen, map snd (number seen l) = l.
Proof. induction l as [|n l IH]; intro seen; [reflexivity|]. cbn [number map snd]. rewrite IH. reflexivity. Qed.
Lemma arranged_snd l : map snd (arranged l) = filter named (main_first l).
Proof. apply number_snd. Qed.
Lemma filter_filter {A} (f g : A -> bool) l : filter f (filter g l) = filter (fun x => g x && f x) l.
Proof. induction l as [|x l IH]; [reflexivity|]. cbn [filter]. destruct (g x); cbn [filter andb]; rewrite IH; reflexivity. Qed.
Lemma filter_none {A} (f : A -> bool) l : (forall x, f x = false) -> filter f l = [].
Proof. intro H. induction l as [|x l IH]; [reflexivity|]. cbn [filter]. rewrite H. exact IH. Qed.
Lemma main_first_main_first l : main_first (filter named (main_first l)) = filter named (main_first l).
Proof.
  unfold main_first. rewrite !filter_app, !filter_filter.
  rewrite (filter_none (fun x => negb (is_main x) && (named x && is_main x))) by (intro x; destruct (is_main x), (named x); reflexivity).
  rewrite (filter_none (fun x => is_main x && (named x && negb (is_main x)))) by (intro x; destruct (is_main x), (named x); reflexivity).
  rewrite app_nil_r. cbn [app]. f_equal; apply filter_ext; intro x; destruct (is_main x), (named x); reflexivity.
Qed.
Lemma main_first_idem l : filter named (main_first (filter named (main_first l))) = filter named (main_first l).
Proof. rewrite main_first_main_first, filter_filter. apply filter_ext. intro x. apply andb_diag. Qed.

Lemma canon_canon n : plain_ends n -> canon (canon n) = canon n.
Proof.
  induction n as [nm vs c|k nm bc ec cont ss IH] using node_rect'; intro H; [reflexivity|].
  inversion H as [|? ? ? ? ? ? H1 H2]; subst. cbn [canon]. rewrite !H1. f_equal.
  assert (E : map (fun e => canon (snd e)) (arranged (map (fun e => canon (snd e)) cont)) = filter named (main_first (map (fun e => canon (snd e)) cont))).
  { rewrite <- (map_map snd canon), arranged_snd. rewrite <- (map_map snd canon cont) at 1. rewrite main_first_canon, map_map.
    rewrite <- (map_map snd canon cont), main_first_canon. apply map_ext_in. intros m Hm.
    apply filter_In in Hm. destruct Hm as [Hm _]. unfold main_first in Hm. apply in_app_or in Hm.
    assert (G : In m (map snd cont)) by (destruct Hm as [Hm|Hm]; apply filter_In in Hm; apply Hm).
    apply in_map_iff in G. destruct G as [e [<- He]]. rewrite Forall_forall in IH, H2. apply IH; [exact He | apply H2; exact He]. }
  rewrite E. unfold arranged. rewrite main_first_idem. reflexivity.
Qed.
Lemma canon_file_idem h : Forall (fun e => plain_ends (snd e)) (h_contents h) -> canon_file (canon_file h) = canon_file h.
Proof.
  intro H. pose proof (canon_canon (Sec Plain [] [] [] (h_contents h) [])) as K.
  assert (P : plain_ends (Sec Plain [] [] [] (h_contents h) [])) by (constructor; [reflexivity | exact H]).
  specialize (K P). cbn [canon] in K. unfold canon_file. cbn [initial_comments h_contents]. injection K as K. rewrite K. reflexivity.
Qed.

(** What is read back is again well formed. *)
Lemma end_read_ok c : end_comment c -> end_comment (end_read c).
Proof.
  intros [c0 [cs [-> [C1 [C2 C3]]]]]. destruct c0 as [|x c0].
  - exists [], cs. assert (E : end_read (join [nl] ([] :: cs)) = join [nl] ([] :: cs)).
    { destruct cs as [|c cs]; [reflexivity|]. rewrite join_cons by discriminate. cbn [app end_read]. rewrite chr_eqb_refl. reflexivity. }
    rewrite E. repeat split; assumption.
  - exists (tab :: x :: c0), cs. destruct (clean_cons _ _ C1) as [H _]. split; [|split; [|split]].
    + rewrite !join_flat. cbn [app end_read]. rewrite H. reflexivity.
    + change (tab :: x :: c0) with ([tab] ++ x :: c0). rewrite clean_app, C1. reflexivity.
    + apply rstrip_id. change (tab :: x :: c0) with ([tab] ++ x :: c0). apply no_trail_app; [apply rstrip_no_trail; exact C2 | discriminate].
    + exact C3.
Qed.
Lemma arranged_forall (P : node -> Prop) l : Forall P l -> Forall (fun e => P (snd e)) (arranged l).
Proof.
  intro H. assert (G : Forall P (map snd (arranged l))).
  { rewrite arranged_snd. rewrite Forall_forall in *. intros m Hm. apply filter_In in Hm. destruct Hm as [Hm _].
    unfold main_first in Hm. apply in_app_or in Hm. destruct Hm as [Hm|Hm]; apply filter_In in Hm; apply H; apply Hm. }
  rewrite Forall_forall in *. intros e He. apply G. apply in_map. exact He.
Qed.
Lemma canon_wf num fs n : forall p, wf num fs p n -> wf num fs p (canon n).
Proof.
  induction n as [nm vs c|k nm bc ec cont ss IH] using node_rect'; intros p H; [exact H|].
  inversion H as [| |? ? ? ? ? ? ? H1 H2 H3 H4 H5]; subst. cbn [canon]. constructor; try assumption; [apply end_read_ok; exact H3|].
  apply arranged_forall. rewrite Forall_forall in *. intros m Hm. apply in_map_iff in Hm. destruct Hm as [e [<- He]].
  apply IH; [exact He | apply H5; exact He].
Qed.
Lemma canon_file_wf num fs h : wf_file num fs h -> wf_file num fs (canon_file h).
Proof.
  intros [H1 H2]. split; [exact H1|]. cbn [canon_file h_contents]. apply arranged_forall. rewrite Forall_forall in *.
  intros m Hm. apply in_map_iff in Hm. destruct Hm as [e [<- He]]. apply canon_wf. apply H2. exact He.
Qed.

(** ** The second text is the first one *)
Definition txt (lev : nat) (n : node) : str := match node_str lev n with Ok t => t | Err _ => [] end.
Lemma nodes_txt lev l : Forall (fun e : str * node => exists t, node_str lev (snd e) = Ok t) l ->
  exists ps, nodes_str lev l = Ok ps /\ reorder ps = concat (map (txt lev) (main_first (map snd l))).
Proof.
  intro H. exists (map (fun e => (is_main (snd e), txt lev (snd e))) l). split.
  - induction l as [|e l IH]; [reflexivity|]. apply Forall_cons_iff in H. destruct H as [[t H1] H2]. cbn [nodes_str map].
    rewrite H1. cbn [bind]. rewrite (IH H2). cbn [bind]. unfold txt at 2. rewrite H1. reflexivity.
  - unfold reorder, main_first. rewrite map_app. f_equal. f_equal.
    + exact (filter_pairs is_main (txt lev) (fun b => b) l).
    + exact (filter_pairs is_main (txt lev) negb l).
Qed.
Lemma blank_txt lev l : concat (map (txt lev) (filter named l)) = concat (map (txt lev) l).
Proof.
  induction l as [|n l IH]; [reflexivity|]. cbn [filter]. destruct (named n) eqn:E; cbn [map concat]; rewrite IH; [reflexivity|].
  destruct n as [nm vs c|]; [|discriminate]. destruct nm; [reflexivity | discriminate].
Qed.
Lemma canon_str num fs n : forall p lev, wf num fs p n -> plain_ends n -> node_str lev (canon n) = node_str lev n.
Proof.
  induction n as [nm vs c|k nm bc ec cont ss IH] using node_rect'; intros p lev H HP; [reflexivity|].
  pose proof H as H0. inversion H0 as [| |? ? ? ? ? ? ? H1 H2 H3 H4 H5]; subst. inversion HP as [|? ? ? ? ? ? E1 E2]; subst. cbn [canon]. rewrite E1.
  rewrite !node_str_sec. destruct (begin_str k lev nm bc); [|reflexivity]. cbn [bind].
  assert (Hin : forall m, In m (map snd cont) -> wf num fs (place_of k) m /\ node_str (S lev) (canon m) = node_str (S lev) m).
  { intros m Hm. apply in_map_iff in Hm. destruct Hm as [e [<- He]]. rewrite Forall_forall in *. split; [apply H5; exact He|].
    eapply IH; [exact He | apply H5; exact He | apply E2; exact He]. }
  destruct (nodes_txt (S lev) cont) as [ps [P1 P2]].
  { rewrite Forall_forall in *. intros e He. destruct (node_prints num fs (snd e) _ (S lev) (H5 e He)) as [t [T _]]. exists t. exact T. }
  destruct (nodes_txt (S lev) (arranged (map (fun e => canon (snd e)) cont))) as [ps2 [Q1 Q2]].
  { apply (arranged_forall (fun m => exists t, node_str (S lev) m = Ok t)). rewrite Forall_forall in *. intros m Hm. apply in_map_iff in Hm. destruct Hm as [e [<- He]].
    destruct (node_prints num fs (snd e) _ (S lev) (H5 e He)) as [t [T _]]. exists t. rewrite (proj2 (Hin (snd e) (in_map snd _ _ He))). exact T. }
  rewrite P1, Q1. cbn [bind]. rewrite P2, Q2, arranged_snd, main_first_main_first, blank_txt. do 2 f_equal. f_equal.
  f_equal. unfold main_first. rewrite !map_app.
  assert (G : forall f : node -> bool, (forall m, f (canon m) = f m) ->
    map (txt (S lev)) (filter f (map (fun e => canon (snd e)) cont)) = map (txt (S lev)) (filter f (map snd cont))).
  { intros f Hf. rewrite <- (map_map snd canon). assert (I : forall m, In m (map snd cont) -> node_str (S lev) (canon m) = node_str (S lev) m) by (intros m Hm; apply Hin; exact Hm).
    clear -I Hf. induction (map snd cont) as [|m l IHl]; [reflexivity|]. cbn [map filter]. rewrite Hf.
    assert (IT : map (txt (S lev)) (filter f (map canon l)) = map (txt (S lev)) (filter f l)) by (apply IHl; intros x Hx; apply I; right; exact Hx).
    destruct (f m); cbn [map]; rewrite IT; [|reflexivity]. f_equal. unfold txt. rewrite I by (left; reflexivity). reflexivity. }
  rewrite !G by (intro m; unfold is_main; rewrite canon_name; reflexivity). reflexivity.
Qed.
Lemma htc_str_ok num fs h : wf_file num fs h -> exists ps, nodes_str 1 (h_contents h) = Ok ps /\
  reorder ps = concat (map (txt 1) (main_first (map snd (h_contents h)))).
Proof.
  intros [_ H]. apply nodes_txt. rewrite Forall_forall in *. intros e He.
  destruct (node_prints num fs (snd e) _ 1 (H e He)) as [t [T _]]. exists t. exact T.
Qed.
Lemma file_str_stable num fs h : wf_file num fs h -> Forall (fun e => plain_ends (snd e)) (h_contents h) ->
  htc_str (canon_file h) = htc_str h.
Proof.
  intros H HP. destruct (htc_str_ok num fs h H) as [ps [P1 P2]].
  destruct (htc_str_ok num fs _ (canon_file_wf num fs h H)) as [ps2 [Q1 Q2]].
  unfold htc_str. rewrite P1, Q1. cbn [bind]. rewrite P2, Q2. cbn [canon_file initial_comments h_contents].
  rewrite arranged_snd, main_first_main_first, blank_txt. do 2 f_equal. f_equal. f_equal.
  destruct H as [_ H]. unfold main_first. rewrite !map_app.
  assert (I : forall m, In m (map snd (h_contents h)) -> node_str 1 (canon m) = node_str 1 m).
  { intros m Hm. apply in_map_iff in Hm. destruct Hm as [e [<- He]]. rewrite Forall_forall in *. eapply canon_str; [apply H; exact He | apply HP; exact He]. }
  assert (G : forall f : node -> bool, (forall m, f (canon m) = f m) ->
    map (txt 1) (filter f (map (fun e => canon (snd e)) (h_contents h))) = map (txt 1) (filter f (map snd (h_contents h)))).
  { intros f Hf. rewrite <- (map_map snd canon). clear -I Hf. induction (map snd (h_contents h)) as [|m l IHl]; [reflexivity|]. cbn [map filter]. rewrite Hf.
    assert (IT : map (txt 1) (filter f (map canon l)) = map (txt 1) (filter f l)) by (apply IHl; intros x Hx; apply I; right; exact Hx).
    destruct (f m); cbn [map]; rewrite IT; [|reflexivity]. f_equal. unfold txt. rewrite I by (left; reflexivity). reflexivity. }
  rewrite !G by (intro m; unfold is_main; rewrite canon_name; reflexivity). reflexivity.
Qed.

(** ** Keys of everything that was read *)
Lemma add_all_snoc l n : forall d d' d'', add_all d l = Ok d' -> add_contents d' n = Ok d'' -> add_all d (l ++ [n]) = Ok d''.
Proof.
  induction l as [|m l IH]; intros d d' d'' H1 H2; cbn [add_all app] in *.
  - apply Ok_inj in H1. subst d'. rewrite H2. reflexivity.
  - destruct (add_contents d m) as [d1|]; [|discriminate]. cbn [bind] in *. eapply IH; eassumption.
Qed.
(** Contents built by adding objects one after the other to an empty section, at every level. *)
Definition built (d : list (str * node)) : Prop := add_all [] (map snd d) = Ok d.
Inductive all_built : node -> Prop :=
| ab_line nm vs c : all_built (Line nm vs c)
| ab_sec k nm bc ec cont ss : built cont -> Forall (fun e => all_built (snd e)) cont -> all_built (Sec k nm bc ec cont ss).
Lemma built_add d n d' : built d -> add_contents d n = Ok d' -> built d' /\ exists k, d' = d ++ [(k, n)].
Proof.
  intros H1 H2. destruct (add_spec d n) as [k [_ [E _]]]. rewrite E in H2. apply Ok_inj in H2. subst d'. split; [|exists k; reflexivity].
  unfold built. rewrite map_app. cbn [map snd]. eapply add_all_snoc; [exact H1 | exact E].
Qed.
Lemma line_from_line num l ls n rest : line_from num l ls = Ok (n, rest) -> all_built n.
Proof.
  unfold line_from. destruct (parse_next l ls) as [[line c] r]. destruct (split_ws line) as [|w ws].
  - intro H. apply Ok_inj in H. injection H as <- _. constructor.
  - destruct (map_res (fmt_value num) ws); [|discriminate]. cbn [bind]. intro H. apply Ok_inj in H. injection H as <- _. constructor.
Qed.
Lemma loop_built num fs fuel : forall k nm bc cont ss lines n rest,
  built cont -> Forall (fun e => all_built (snd e)) cont -> sec_loop num fs fuel k nm bc cont ss lines = Ok (n, rest) -> all_built n.
Proof.
  induction fuel as [|f IH]; intros k nm bc cont ss lines n rest HB HA H; [discriminate|]. cbn [sec_loop] in H.
  destruct lines as [|l0 ls0]; [discriminate|].
  destruct (if is_nil (strip l0) then ls0 else l0 :: ls0) as [|l ls]; [discriminate|].
  assert (ADD : forall m d', all_built m -> add_contents cont m = Ok d' -> built d' /\ Forall (fun e => all_built (snd e)) d').
  { intros m d' Hm E. destruct (built_add cont m d' HB E) as [B [kk ->]]. split; [exact B|]. apply Forall_app. split; [exact HA|]. constructor; [exact Hm | constructor]. }
  destruct (startswith (lower l) (S_ "begin")).
  - destruct (parse_next l ls) as [[line bc'] r]. destruct (header fs line) as [[k' nm']|]; [|discriminate]. cbn [bind] in H.
    destruct (sec_loop num fs f k' nm' (strip_bt bc') [] [] r) as [[sub r']|] eqn:E; [|discriminate]. cbn [bind] in H.
    destruct (add_contents cont sub) as [d'|] eqn:F; [|discriminate]. cbn [bind] in H.
    destruct (ADD sub d') as [B1 B2]; [|exact F|].
    + eapply IH; [| |exact E]; [reflexivity | constructor].
    + eapply IH; [exact B1 | exact B2 | exact H].
  - destruct (startswith (lower l) (S_ "end")).
    + destruct (parse_next l ls) as [[line ec] r]. apply Ok_inj in H. injection H as <- _. constructor; assumption.
    + assert (LN : forall m r, line_from num l ls = Ok (m, r) -> forall d', add_contents cont m = Ok d' ->
          sec_loop num fs f k nm bc d' ss r = Ok (n, rest) -> all_built n).
      { intros m r E d' F G. destruct (ADD m d' (line_from_line _ _ _ _ _ E) F) as [B1 B2]. eapply IH; [exact B1 | exact B2 | exact G]. }
      assert (GO : forall kk, match kk with Plain => True | _ => True end ->
          ('(m, r) <- line_from num l ls ;; cont' <- add_contents cont m ;; sec_loop num fs f k nm bc cont' ss r) = Ok (n, rest) -> all_built n).
      { intros _ _ E. destruct (line_from num l ls) as [[m r]|] eqn:F; [|discriminate]. cbn [bind] in E.
        destruct (add_contents cont m) as [d'|] eqn:G; [|discriminate]. cbn [bind] in E. eapply LN; [reflexivity | exact G | exact E]. }
      assert (SE : ('(s, r) <- sensor_from num l ls ;; sec_loop num fs f k nm bc cont (ss ++ [s]) r) = Ok (n, rest) -> all_built n).
      { intro E. destruct (sensor_from num l ls) as [[s r]|]; [|discriminate]. cbn [bind] in E. eapply IH; [exact HB | exact HA | exact E]. }
      destruct k as [| |typ time].
      * apply (GO Plain I). exact H.
      * destruct (split_ws l) as [|w ws]; [discriminate|]. destruct (existsb (str_eqb w) line_names); [apply (GO Plain I); exact H | apply SE; exact H].
      * destruct (split_ws l) as [|w ws]; [discriminate|]. destruct (existsb (str_eqb w) line_names); [apply (GO Plain I); exact H | apply SE; exact H].
Qed.
Definition file_built (h : htc) : Prop := built (h_contents h) /\ Forall (fun e => all_built (snd e)) (h_contents h).
Lemma load_built num fs fuel : forall h lines h', file_built h -> load_loop num fs fuel h lines = Ok h' -> file_built h'.
Proof.
  induction fuel as [|f IH]; intros h lines h' HB H; [discriminate|]. cbn [load_loop] in H.
  destruct lines as [|l ls]; [apply Ok_inj in H; subst h'; exact HB|].
  assert (ADD : forall m d', all_built m -> add_contents (h_contents h) m = Ok d' -> file_built (mk_htc (initial_comments h) d')).
  { intros m d' Hm E. destruct HB as [B A]. destruct (built_add _ m d' B E) as [B' [kk ->]]. split; [exact B'|]. cbn [h_contents].
    apply Forall_app. split; [exact A|]. constructor; [exact Hm | constructor]. }
  destruct (startswith l [semi]).
  - eapply IH; [|exact H]. exact HB.
  - destruct (startswith (lower l) (S_ "begin")).
    + unfold sec_from in H. destruct (parse_next l ls) as [[line bc] r]. destruct (header fs line) as [[k nm]|]; [|discriminate]. cbn [bind] in H.
      destruct (sec_loop num fs f k nm (strip_bt bc) [] [] r) as [[n r']|] eqn:E; [|discriminate]. cbn [bind] in H.
      destruct (add_contents (h_contents h) n) as [d'|] eqn:F; [|discriminate]. cbn [bind] in H.
      eapply IH; [|exact H]. apply (ADD n); [|exact F]. eapply loop_built; [| |exact E]; [reflexivity | constructor].
    + destruct (line_from num l ls) as [[n r]|] eqn:E; [|discriminate]. cbn [bind] in H.
      destruct (str_eqb (node_name n) (S_ "exit")); [apply Ok_inj in H; subst h'; exact HB|].
      destruct (add_contents (h_contents h) n) as [d'|] eqn:F; [|discriminate]. cbn [bind] in H.
      eapply IH; [|exact H]. apply (ADD n); [|exact F]. eapply line_from_line. exact E.
Qed.
Lemma built_keys d : built d -> NoDup (keys d) /\ (Forall (fun n => no_uu (node_name n)) (map snd d) -> d = number [] (map snd d)).
Proof.
  intro H. unfold built in H. split.
  - destruct (add_all_spec (map snd d) []) as [ks [L [E ND]]]. rewrite H in E. apply Ok_inj in E. cbn [app] in E.
    specialize (ND (NoDup_nil _)). cbn [keys map app] in ND. rewrite E. unfold keys.
    replace (map fst (combine ks (map snd d))) with ks; [exact ND|].
    clear -L. revert ks L. generalize (map snd d) as l. induction l as [|n l IH]; intros [|k ks] L; try discriminate; [reflexivity|].
    cbn [combine map fst]. f_equal. apply IH. cbn in L. lia.
  - intro HN. pose proof (add_all_number (map snd d) []) as A. cbn [number app] in A. rewrite A in H by exact HN. apply Ok_inj in H. symmetry. exact H.
Qed.

(** ** Copies *)
Lemma copy_sec k nm bc ec cont ss : copy (Sec k nm bc ec cont ss) =
  Sec Plain (strip nm) (strip_bt bc) (strip_bt ec) (map (fun e => (fst e, copy (snd e))) cont) [].
Proof.
  reflexivity.
Qed.
Lemma copy_name n : copyable n -> node_name (copy n) = node_name n.
Proof. intro H. inversion H; subst; [cbn [copy mk_line node_name]; apply cut_uu_id; assumption | rewrite copy_sec; assumption]. Qed.
Lemma copy_str n : copyable n -> forall lev, node_str lev (copy n) = node_str lev n.
Proof.
  induction n as [nm vs c|k nm bc ec cont ss IH] using node_rect'; intros H lev.
  - inversion H; subst. change (copy (Line nm vs c)) with (Line (cut_uu nm) vs (strip_bt c)). rewrite cut_uu_id by assumption. match goal with E : strip_bt c = c |- _ => rewrite E end. reflexivity.
  - inversion H as [|? ? ? ? ? H1 H2 H3 H4]; subst. rewrite copy_sec, !node_str_sec, H1, H2, H3. cbn [begin_str bind sensors_of].
    replace (nodes_str (S lev) (map (fun e => (fst e, copy (snd e))) cont)) with (nodes_str (S lev) cont); [reflexivity|].
    clear -IH H4. induction cont as [|e cont IHc]; [reflexivity|]. apply Forall_cons_iff in IH. apply Forall_cons_iff in H4.
    destruct IH as [I1 I2], H4 as [C1 C2]. cbn [map nodes_str snd]. rewrite I1 by exact C1. rewrite IHc by assumption.
    unfold is_mb. cbn [snd]. rewrite copy_name by exact C1. reflexivity.
Qed.
