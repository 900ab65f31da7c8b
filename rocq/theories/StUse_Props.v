(** Properties C92, C93 and C96: HAWC2 st files, values at a radius, assignment of columns, data frames. *)
From Coq Require Import QArith Qabs Lqa Lia Sorted.
From Verif Require Import Py PyFacts TextFacts ListFacts AEPC_Model AEPC_Proofs AEPC_Interp St_Model St_Props.
Local Open Scope nat_scope.

(** ** Specification *)
(** Set s of main set m has the rows a, all with k numbers *)
Definition holds {V} (o : st V) (m s : Z) (a : list (list V)) : Prop := exists d, In (m, d) (main o) /\ In (s, a) d.
Definition distinct_keys {V} (o : st V) : Prop := NoDup (map fst (main o)) /\ Forall (fun md => NoDup (map fst (snd md))) (main o).
Definition table {V} (o : st V) (m s : Z) (k : nat) (a : list (list V)) : Prop :=
  distinct_keys o /\ holds o m s a /\ a <> [] /\ Forall (fun r => List.length r = k) a.
(** The radius of a row is its first number *)
Definition radius_of (row : list Q) : Q := nth 0 row 0%Q.
Definition increasing (a : list (list Q)) : Prop := StronglySorted Qlt (map radius_of a).

(** ** Lemmas *)
Lemma zget_in {A} (d : list (Z * A)) k v : NoDup (map fst d) -> In (k, v) d -> zget d k = Some v.
Proof.
  induction d as [|[k' v'] d IH]; intros Hn H; [easy|]. cbn [map fst] in Hn. inversion Hn as [|? ? Hk Hd]; subst. cbn [zget]. destruct H as [E|H].
  - injection E as -> ->. now rewrite Z.eqb_refl.
  - destruct (Z.eqb_spec k' k) as [->|Hne]; [|now apply IH]. exfalso. apply Hk. apply in_map_iff. exists (k, v). auto.
Qed.
Lemma zget_some {A} (d : list (Z * A)) k v : zget d k = Some v -> In (k, v) d.
Proof. induction d as [|[k' v'] d IH]; [discriminate|]. cbn [zget]. destruct (Z.eqb_spec k' k) as [->|]; intro H; [injection H as ->; now left|right; now apply IH]. Qed.
Lemma table_get {V} (o : st V) m s k a : table o m s k a -> exists d, zget (main o) m = Some d /\ zget d s = Some a /\ width a = Ok k /\ NoDup (map fst d) /\ NoDup (map fst (main o)).
Proof.
  intros ((N1 & N2) & (d & H1 & H2) & Ha & Hk). exists d. rewrite Forall_forall in N2. assert (N3 := N2 (m, d) H1). cbn [snd] in N3. split; [now apply zget_in|]. split; [now apply zget_in|].
  split; [|split; assumption]. destruct a as [|r a]; [contradiction|]. inversion Hk; subst. reflexivity.
Qed.
Lemma index_of_nth name l c : NoDup l -> nth_error l c = Some name -> index_of name l = Some c.
Proof.
  revert c. induction l as [|x l IH]; intros c Hn H; [destruct c; discriminate|]. inversion Hn as [|? ? Hx Hl]; subst. cbn [index_of]. destruct c as [|c].
  - injection H as ->. now rewrite (proj2 (str_eqb_eq name name) eq_refl).
  - cbn [nth_error] in H. destruct (str_eqb x name) eqn:E; [|rewrite (IH c Hl H); reflexivity]. apply str_eqb_eq in E. subst x. exfalso. apply Hx. eapply nth_error_In. exact H.
Qed.
Lemma index_of_none name l : ~ In name l -> index_of name l = None.
Proof. induction l as [|x l IH]; intro H; [reflexivity|]. cbn [index_of]. destruct (str_eqb x name) eqn:E; [apply str_eqb_eq in E; exfalso; apply H; now left|]. rewrite IH; [reflexivity|]. intro G. apply H. now right. Qed.
Fixpoint nodupb (l : list str) : bool := match l with [] => true | x :: l' => negb (existsb (str_eqb x) l') && nodupb l' end.
Lemma nodupb_ok l : nodupb l = true -> NoDup l.
Proof.
  induction l as [|x l IH]; intro H; [constructor|]. cbn [nodupb] in H. apply andb_true_iff in H. destruct H as [H1 H2]. constructor; [|now apply IH]. intro G. apply negb_true_iff in H1.
  rewrite <- Bool.not_true_iff_false in H1. apply H1. apply existsb_exists. exists x. split; [exact G|now apply str_eqb_eq].
Qed.
Lemma kind_index k names name c : kind k names -> nth_error names c = Some name -> index_of name names = Some c /\ c < k.
Proof.
  intros Hk H. split.
  - apply index_of_nth; [|exact H]. apply nodupb_ok. destruct Hk as [[_ ->]|[_ ->]]; vm_compute; reflexivity.
  - assert (L : c < List.length names) by (apply nth_error_Some; congruence). destruct Hk as [[-> ->]|[-> ->]]; exact L.
Qed.
Lemma mapM_ok {A B} (g : A -> res B) (P : A -> B -> Prop) l : (forall x, In x l -> exists y, g x = Ok y /\ P x y) -> exists ys, mapM g l = Ok ys /\ Forall2 P l ys.
Proof.
  induction l as [|x l IH]; intro H; [exists []; split; [reflexivity|constructor]|]. destruct (H x) as (y & E & Hy); [now left|]. destruct IH as (ys & Es & Hs); [intros z Hz; apply H; now right|].
  exists (y :: ys). cbn [mapM]. rewrite E. cbn [bind]. rewrite Es. split; [reflexivity|now constructor].
Qed.

(** ** C92: values at a radius *)
Section Values.
Variables (o : st Q) (m s : Z) (k : nat) (a : list (list Q)) (names : list str).
Hypothesis Hk : kind k names.
Hypothesis Hc : cols o = Some names.
Hypothesis Ht : table o m s k a.
Lemma method_is name c x : nth_error names c = Some name -> method o name (Some x) m s = (v <- interp x (columns c a) ;; Ok [v]).
Proof.
  intro Hn. destruct (table_get o m s k a Ht) as (d & E1 & E2 & E3 & _). destruct (kind_index k names name c Hk Hn) as [E4 L]. unfold method. rewrite Hc, E4. unfold value_at, zfind. rewrite E1. cbn [bind]. rewrite E2. cbn [bind].
  unfold column. rewrite E3. cbn [bind]. replace (Nat.leb k c) with false by (symmetry; apply Nat.leb_gt; exact L). reflexivity.
Qed.
Theorem C92_at_row : forall name c row, nth_error names c = Some name -> increasing a -> In row a ->
  exists v, method o name (Some (radius_of row)) m s = Ok [v] /\ (v == nth c row 0)%Q.
Proof.
  intros name c row Hn Hi Hr. rewrite (method_is name c) by exact Hn. destruct (interp_at (columns c a) (radius_of row) (nth c row 0%Q)) as (v & E & Hv).
  - unfold columns. rewrite map_map. exact Hi.
  - unfold columns. apply in_map_iff. exists row. split; [reflexivity|exact Hr].
  - exists v. rewrite E. split; [reflexivity|exact Hv].
Qed.
Theorem C92_between : forall name c i r1 r2 x, nth_error names c = Some name -> increasing a -> nth_error a i = Some r1 -> nth_error a (S i) = Some r2 -> (radius_of r1 <= x <= radius_of r2)%Q ->
  exists v, method o name (Some x) m s = Ok [v] /\ ((v - nth c r1 0) * (radius_of r2 - radius_of r1) == (nth c r2 0 - nth c r1 0) * (x - radius_of r1))%Q.
Proof.
  intros name c i r1 r2 x Hn Hi H1 H2 [L1 L2].
  assert (Hl : (radius_of r1 < radius_of r2)%Q). { apply (sorted_nth _ Hi i (S i)); [lia| |]; rewrite nth_error_map; [rewrite H1|rewrite H2]; reflexivity. }
  rewrite (method_is name c) by exact Hn. apply Qle_lt_or_eq in L2. destruct L2 as [L2|L2].
  - rewrite (interp_between (columns c a)) with (k := i) (x0 := radius_of r1) (y0 := nth c r1 0%Q) (x1 := radius_of r2) (y1 := nth c r2 0%Q).
    + eexists. split; [reflexivity|]. field. lra.
    + unfold columns. rewrite map_map. exact Hi.
    + unfold columns. rewrite nth_error_map, H1. reflexivity.
    + unfold columns. rewrite nth_error_map, H2. reflexivity.
    + split; assumption.
  - destruct (interp_at (columns c a) (radius_of r2) (nth c r2 0%Q)) as (v & E & Hv).
    + unfold columns. rewrite map_map. exact Hi.
    + unfold columns. apply in_map_iff. exists r2. split; [reflexivity|]. eapply nth_error_In. exact H2.
    + assert (G : exists v', interp x (columns c a) = Ok v' /\ (v' == v)%Q); [|destruct G as (v' & E' & Hv'); exists v'; rewrite E'; split; [reflexivity|rewrite Hv', Hv, L2; reflexivity]].
      clear -E L2. destruct (columns c a) as [|[x0 y0] t]; [discriminate|]. cbn [interp] in *.
      assert (Q1 : forall p, Qle_bool p x = Qle_bool p (radius_of r2)). { intro p. apply eq_true_iff_eq. rewrite !Qle_bool_iff, L2. reflexivity. }
      rewrite Q1. destruct (Qle_bool x0 (radius_of r2)); [|eexists; split; [reflexivity|]; injection E as <-; reflexivity]. eexists. split; [reflexivity|]. injection E as <-. clear -L2 Q1.
      revert x0 y0. induction t as [|[x1 y1] t IH]; intros x0 y0; [reflexivity|]. cbn [interp_from]. rewrite Q1. destruct (Qle_bool x1 (radius_of r2)); [apply IH|]. rewrite L2. reflexivity.
Qed.
Theorem C92_outside : forall name c first last x, nth_error names c = Some name -> increasing a -> nth_error a 0 = Some first -> nth_error a (List.length a - 1) = Some last ->
  ((x < radius_of first)%Q -> method o name (Some x) m s = Ok [nth c first 0%Q]) /\ ((radius_of last <= x)%Q -> method o name (Some x) m s = Ok [nth c last 0%Q]).
Proof.
  intros name c first last x Hn Hi H1 H2. rewrite (method_is name c) by exact Hn. split; intro L.
  - destruct a as [|r t]; [discriminate|]. injection H1 as ->. unfold columns. cbn [map]. rewrite interp_outside_left by exact L. reflexivity.
  - destruct Ht as (_ & _ & Hne & _). destruct (last_exists a Hne) as (t & r & E). rewrite E in H2. rewrite app_length in H2. cbn [List.length] in H2. replace (List.length t + 1 - 1) with (List.length t) in H2 by lia. rewrite nth_error_app2, Nat.sub_diag in H2 by lia. cbn [nth_error] in H2. injection H2 as ->.
    unfold columns. rewrite E, map_app. cbn [map]. rewrite interp_outside_right; [reflexivity|]. intros p Hp. apply in_app_iff in Hp. destruct Hp as [Hp|[<-|[]]]; [|exact L].
    apply in_map_iff in Hp. destruct Hp as (r & <- & Hr). cbn [fst]. apply Qlt_le_weak. apply Qlt_le_trans with (radius_of last); [|exact L].
    apply In_nth_error in Hr. destruct Hr as [i Hr]. assert (Li : i < List.length t) by (apply nth_error_Some; congruence).
    apply (sorted_nth _ Hi i (List.length t)); [exact Li| |]; rewrite nth_error_map, E; [rewrite nth_error_app1, Hr by exact Li; reflexivity|]. rewrite nth_error_app2, Nat.sub_diag by lia. reflexivity.
Qed.
(** Without a radius: the column of the table *)
Theorem C92_column : forall name c, nth_error names c = Some name -> increasing a ->
  exists vs, method o name None m s = Ok vs /\ Forall2 (fun row v => (v == nth c row 0)%Q) a vs.
Proof.
  intros name c Hn Hi. destruct (table_get o m s k a Ht) as (d & E1 & E2 & E3 & _). destruct (kind_index k names name c Hk Hn) as [E4 L]. unfold method. rewrite Hc, E4. unfold zfind at 1 2. rewrite E1. cbn [bind]. rewrite E2. cbn [bind].
  unfold column at 1. rewrite E3. cbn [bind]. replace (Nat.leb k 0) with false by (symmetry; apply Nat.leb_gt; lia). cbn [bind].
  assert (G : forall row, In row a -> exists v, value_at o c (radius_of row) m s = Ok v /\ (v == nth c row 0)%Q).
  { intros row Hr. destruct (C92_at_row name c row Hn Hi Hr) as (v & E & Hv). unfold method in E. rewrite Hc, E4 in E. destruct (value_at o c (radius_of row) m s) as [v'|e]; [|discriminate]. cbn [bind] in E. injection E as ->. exists v. auto. }
  destruct (mapM_ok (fun row => value_at o c (radius_of row) m s) (fun row v => (v == nth c row 0)%Q) a G) as (vs & Ev & Hvs). exists vs. split; [|exact Hvs]. rewrite <- Ev. unfold columns. generalize a. intro l.
  induction l as [|r l IH]; [reflexivity|]. cbn [map mapM fst]. rewrite IH. reflexivity.
Qed.
Theorem C92_errors : forall name radius m' s', (~ In name names -> method o name radius m' s' = Err AttributeError) /\ (In name names -> (forall b, ~ holds o m' s' b) -> method o name radius m' s' = Err KeyError).
Proof.
  intros name radius m' s'. split.
  - intro H. unfold method. rewrite Hc, index_of_none by exact H. reflexivity.
  - intros H Hb. apply In_nth_error in H. destruct H as [c H]. destruct (kind_index k names name c Hk H) as [E _]. unfold method. rewrite Hc, E. unfold value_at, zfind.
    destruct (zget (main o) m') as [d|] eqn:E1; [|destruct radius; reflexivity]. destruct (zget d s') as [b'|] eqn:E2; [|destruct radius; cbn [bind]; rewrite E2; reflexivity].
    exfalso. apply (Hb b'). exists d. split; now apply zget_some.
Qed.
(** A set with fewer columns than names (sets of both formats in a file): the names of the missing columns are refused. *)
Theorem C92_narrow_set : forall m' s' k' a' name c radius, table o m' s' k' a' -> nth_error names c = Some name -> k' <= c -> method o name radius m' s' = Err IndexError.
Proof.
  intros m' s' k' a' name c radius Ht' Hn L. destruct (table_get o m' s' k' a' Ht') as (d & E1 & E2 & E3 & _). destruct (kind_index k names name c Hk Hn) as [E4 _]. unfold method. rewrite Hc, E4.
  assert (W : forall x, value_at o c x m' s' = Err IndexError). { intro x. unfold value_at, zfind. rewrite E1. cbn [bind]. rewrite E2. cbn [bind]. unfold column. rewrite E3. cbn [bind]. replace (Nat.leb k' c) with true by (symmetry; now apply Nat.leb_le). reflexivity. }
  destruct radius as [x|]; [rewrite W; reflexivity|]. unfold zfind at 1 2. rewrite E1. cbn [bind]. rewrite E2. cbn [bind]. unfold column at 1. rewrite E3. cbn [bind]. destruct (Nat.leb k' 0); [reflexivity|]. cbn [bind].
  destruct Ht' as (_ & _ & Hne & _). destruct a' as [|r t]; [contradiction|]. unfold columns. cbn [map mapM fst]. rewrite W. reflexivity.
Qed.
(** The radius of the table that is nearest, the first of two that are equally near *)
Lemma nearest_spec x : forall l best pre, (forall y, In y pre -> (Qabs (best - x) < Qabs (y - x))%Q) -> forall mid, (forall y, In y mid -> (Qabs (best - x) <= Qabs (y - x))%Q) ->
  exists l1 l2, pre ++ best :: mid ++ l = l1 ++ nearest x best l :: l2 /\ (forall y, In y l1 -> (Qabs (nearest x best l - x) < Qabs (y - x))%Q) /\ (forall y, In y l2 -> (Qabs (nearest x best l - x) <= Qabs (y - x))%Q).
Proof.
  induction l as [|y l IH]; intros best pre Hp mid Hm.
  - exists pre, mid. cbn [nearest]. rewrite app_nil_r. auto.
  - cbn [nearest]. destruct (Qle_bool (Qabs (best - x)) (Qabs (y - x))) eqn:E.
    + apply Qle_bool_iff in E. destruct (IH best pre Hp (mid ++ [y])) as (l1 & l2 & G & H1 & H2); [intros z Hz; apply in_app_iff in Hz; destruct Hz as [Hz|[<-|[]]]; auto|].
      exists l1, l2. rewrite <- app_assoc in G. auto.
    + assert (L : (Qabs (y - x) < Qabs (best - x))%Q). { apply Qnot_le_lt. intro G. apply Qle_bool_iff in G. congruence. }
      destruct (IH y (pre ++ best :: mid)) with (mid := @nil Q) as (l1 & l2 & G & H1 & H2); [|easy|].
      * intros z Hz. apply in_app_iff in Hz. destruct Hz as [Hz|[<-|Hz]]; [|exact L|].
        -- apply Qlt_trans with (Qabs (best - x)); [exact L|now apply Hp].
        -- apply Qlt_le_trans with (Qabs (best - x)); [exact L|now apply Hm].
      * exists l1, l2. split; [rewrite <- G, <- app_assoc; reflexivity|auto].
Qed.
Theorem C92_nearest_radius : forall x, exists before row after, radius_st o x m s = Ok (radius_of row) /\ a = before ++ row :: after /\
  (forall r, In r before -> (Qabs (radius_of row - x) < Qabs (radius_of r - x))%Q) /\ (forall r, In r after -> (Qabs (radius_of row - x) <= Qabs (radius_of r - x))%Q).
Proof.
  intro x. destruct (table_get o m s k a Ht) as (d & E1 & E2 & E3 & _). unfold radius_st, zfind. rewrite E1. cbn [bind]. rewrite E2. cbn [bind]. unfold column. rewrite E3. cbn [bind].
  assert (K0 : 0 < k) by (destruct Hk as [[-> _]|[-> _]]; lia). replace (Nat.leb k 0) with false by (symmetry; apply Nat.leb_gt; exact K0). cbn [bind]. unfold columns. rewrite map_map. cbn [fst].
  destruct Ht as (_ & _ & Hne & _). destruct a as [|r t]; [contradiction|]. cbn [map]. change (fun x0 : list Q => nth 0 x0 0%Q) with radius_of.
  destruct (nearest_spec x (map radius_of t) (radius_of r) []) with (mid := @nil Q) as (l1 & l2 & G & H1 & H2); [easy|easy|]. cbn [app] in G. fold (radius_of r). set (v := nearest x (radius_of r) (map radius_of t)) in *.
  change (radius_of r :: map radius_of t) with (map radius_of (r :: t)) in G. assert (P := G). apply map_eq_app in P. destruct P as (b1 & b2 & Eb & P1 & P2). apply map_eq_cons in P2. destruct P2 as (row & b3 & Eb2 & P2 & P3). subst l1 l2 b2.
  exists b1, row, b3. split; [now rewrite P2|]. split; [exact Eb|]. rewrite P2. split; intros z Hz; [apply H1|apply H2]; now apply in_map.
Qed.
End Values.

(** ** C93: assigning columns *)
(** The number for row i: the same one everywhere, or one for each row *)
Definition fits {V} (v : value1 V) (rows : nat) : Prop := match v with One _ => True | Many l => List.length l = 1 \/ List.length l = rows end.
Definition meant {V} (v : value1 V) (i : nat) (x : V) : Prop := match v with One y => x = y | Many [y] => x = y | Many l => nth_error l i = Some x end.

Lemma replace_nth_same {V} c (v : V) r : c < List.length r -> nth_error (replace_nth c v r) c = Some v.
Proof. revert c. induction r as [|x r IH]; intros c H; [cbn in H; lia|]. destruct c as [|c]; [reflexivity|]. cbn [replace_nth nth_error]. apply IH. cbn in H. lia. Qed.
Lemma replace_nth_other {V} c (v : V) r j : j <> c -> nth_error (replace_nth c v r) j = nth_error r j.
Proof. revert c j. induction r as [|x r IH]; intros c j H; [destruct c; reflexivity|]. destruct c as [|c], j as [|j]; try reflexivity; [contradiction|]. cbn [replace_nth nth_error]. apply IH. congruence. Qed.
Lemma replace_nth_length {V} c (v : V) r : List.length (replace_nth c v r) = List.length r.
Proof. revert c. induction r as [|x r IH]; intro c; [destruct c; reflexivity|]. destruct c; cbn [replace_nth List.length]; [reflexivity|now rewrite IH]. Qed.
Lemma assign_spec {V} (a : list (list V)) k c v : a <> [] -> Forall (fun r => List.length r = k) a -> c < k -> fits v (List.length a) ->
  exists a', assign a c v = Ok a' /\ List.length a' = List.length a /\ Forall (fun r => List.length r = k) a' /\
    forall i row, nth_error a i = Some row -> exists row' x, nth_error a' i = Some row' /\ meant v i x /\ nth_error row' c = Some x /\ forall j, j <> c -> nth_error row' j = nth_error row j.
Proof.
  intros Hne Hk Hc Hf. assert (W : width a = Ok k). { destruct a as [|r a]; [contradiction|]. inversion Hk; subst. reflexivity. }
  unfold assign. rewrite W. cbn [bind]. replace (Nat.leb k c) with false by (symmetry; apply Nat.leb_gt; exact Hc).
  assert (One_case : forall x, (forall i, meant v i x) -> exists a', Ok (map (replace_nth c x) a) = Ok a' /\ List.length a' = List.length a /\ Forall (fun r => List.length r = k) a' /\
    forall i row, nth_error a i = Some row -> exists row' x, nth_error a' i = Some row' /\ meant v i x /\ nth_error row' c = Some x /\ forall j, j <> c -> nth_error row' j = nth_error row j).
  { intros x Hx. eexists. split; [reflexivity|]. split; [apply map_length|]. split; [rewrite Forall_map; eapply Forall_impl; [|exact Hk]; intros r Hr; now rewrite replace_nth_length|].
    intros i row Hi. exists (replace_nth c x row), x. rewrite nth_error_map, Hi. split; [reflexivity|]. split; [apply Hx|]. rewrite Forall_forall in Hk. split; [apply replace_nth_same; rewrite (Hk row); [exact Hc|eapply nth_error_In; exact Hi]|]. intros j Hj. now apply replace_nth_other. }
  destruct v as [x|[|x [|y l]]]; try (apply One_case; reflexivity).
  - destruct Hf as [Hf|Hf]; [discriminate|]. destruct a; [contradiction|discriminate].
  - destruct Hf as [Hf|Hf]; [discriminate|]. rewrite (proj2 (Nat.eqb_eq _ _) Hf). set (xs := x :: y :: l) in *. eexists. split; [reflexivity|].
    assert (C : List.length (combine a xs) = List.length a) by (rewrite combine_length; rewrite Hf; lia). split; [rewrite map_length; exact C|]. rewrite Forall_forall in Hk. split.
    + rewrite Forall_map. apply Forall_forall. intros [r z] Hr. cbn [fst snd]. rewrite replace_nth_length. apply Hk. now apply in_combine_l in Hr.
    + intros i row Hi. assert (Li : i < List.length a) by (apply nth_error_Some; congruence). destruct (nth_error xs i) as [z|] eqn:Ez; [|apply nth_error_None in Ez; lia].
      exists (replace_nth c z row), z. assert (E : nth_error (combine a xs) i = Some (row, z)).
      { clear -Hi Ez. clearbody xs. revert a xs Hi Ez. induction i as [|i IH]; intros [|r a] [|w xs] H1 H2; try discriminate; cbn in *; [congruence|now apply IH]. }
      rewrite nth_error_map, E. split; [reflexivity|]. split; [exact Ez|]. split; [apply replace_nth_same; rewrite (Hk row); [exact Hc|eapply nth_error_In; exact Hi]|]. intros j Hj. now apply replace_nth_other.
Qed.
Lemma zset_present {A} (d : list (Z * A)) k v w : zget d k = Some v -> map fst (zset d k w) = map fst d.
Proof. induction d as [|[k' v'] d IH]; intro H; [discriminate|]. cbn [zget zset] in *. destruct (Z.eqb_spec k' k); [reflexivity|]. cbn [map]. now rewrite IH. Qed.
Lemma zset_in {A} (d : list (Z * A)) k w k' v' : NoDup (map fst d) -> k' <> k -> (In (k', v') (zset d k w) <-> In (k', v') d).
Proof.
  intros Hn Hk. induction d as [|[k1 v1] d IH].
  - cbn. split; [intros [E|[]]; congruence|easy].
  - inversion Hn; subst. cbn [zset]. destruct (Z.eqb_spec k1 k) as [->|Hne]; cbn [In].
    + split; (intros [E|E]; [congruence|now right]).
    + rewrite IH by assumption. reflexivity.
Qed.
Lemma zset_in_same {A} (d : list (Z * A)) k v w x : NoDup (map fst d) -> zget d k = Some v -> (In (k, x) (zset d k w) <-> x = w).
Proof.
  intros Hn H. split.
  - intro G. assert (N : NoDup (map fst (zset d k w))) by (rewrite (zset_present d k v w H); exact Hn). apply (zget_in _ _ _ N) in G. rewrite zget_zset_same in G. congruence.
  - intros ->. apply zget_some. apply zget_zset_same.
Qed.
Lemma zset_forall {A} (P : Z * A -> Prop) (d : list (Z * A)) k w : Forall P d -> P (k, w) -> Forall P (zset d k w).
Proof. intros H G. induction H as [|[k' v'] d Hp Hd IH]; [constructor; [exact G|constructor]|]. cbn [zset]. destruct (Z.eqb_spec k' k) as [->|]; constructor; assumption. Qed.
(** Assigning a column changes that column of that set, and nothing else *)
Theorem C93_assigns : forall V (o : st V) m s k a names name c v, kind k names -> cols o = Some names -> table o m s k a -> nth_error names c = Some name -> fits v (List.length a) ->
  exists o' a', set_value o m s [(name, v)] = (o', None) /\ cols o' = cols o /\ map fst (main o') = map fst (main o) /\ table o' m s k a' /\ List.length a' = List.length a /\
    (forall i row, nth_error a i = Some row -> exists row' x, nth_error a' i = Some row' /\ meant v i x /\ nth_error row' c = Some x /\ forall j, j <> c -> nth_error row' j = nth_error row j) /\
    (forall m' s' b, m' <> m \/ s' <> s -> (holds o' m' s' b <-> holds o m' s' b)).
Proof.
  intros V o m s k a names name c v Hk Hc Ht Hn Hf. destruct (table_get o m s k a Ht) as (d & E1 & E2 & _ & N1 & N2). destruct (kind_index k names name c Hk Hn) as [E4 L]. assert (Ht' := Ht). destruct Ht' as ((D1 & D2) & _ & Hne & Hr).
  destruct (assign_spec a k c v Hne Hr L Hf) as (a' & A1 & A2 & A3 & A4).
  set (o' := mk_st (zset (main o) m (zset d s a')) (cols o)). exists o', a'. split.
  { cbn [set_value]. unfold set1. rewrite Hc, E4. unfold zfind. rewrite E1. cbn [bind]. rewrite E2. cbn [bind]. rewrite A1. cbn [bind]. unfold o'. rewrite Hc. reflexivity. }
  split; [reflexivity|]. assert (K1 : map fst (main o') = map fst (main o)) by (apply (zset_present (main o) m d); exact E1). split; [exact K1|].
  assert (K2 : map fst (zset d s a') = map fst d) by (apply (zset_present d s a); exact E2).
  assert (D' : distinct_keys o'). { split; [rewrite K1; exact N2|]. unfold o'. cbn [main]. apply zset_forall; [exact D2|]. cbn [snd]. rewrite K2. exact N1. }
  split.
  { split; [exact D'|]. split; [exists (zset d s a'); split; [apply zget_some; unfold o'; cbn [main]; apply zget_zset_same|apply zget_some, zget_zset_same]|]. split; [|exact A3]. intros ->. destruct a; [contradiction|discriminate]. }
  split; [exact A2|]. split; [exact A4|]. intros m' s' b H. unfold holds, o'. cbn [main]. destruct (Z.eq_dec m' m) as [->|Hm].
  - destruct H as [H|H]; [contradiction|]. split.
    + intros (d' & H1 & H2). apply (zset_in_same _ _ d) in H1; [|exact N2|exact E1]. subst d'. apply zset_in in H2; [|exact N1|exact H]. exists d. split; [now apply zget_some|exact H2].
    + intros (d' & H1 & H2). apply (zget_in _ _ _ N2) in H1. assert (d' = d) by congruence. subst d'. exists (zset d s a'). split; [apply zget_some, zget_zset_same|]. apply zset_in; assumption.
  - split; intros (d' & H1 & H2); exists d'; (split; [|exact H2]); [apply (proj1 (zset_in (main o) m (zset d s a') m' d' N2 Hm) H1)|apply (proj2 (zset_in (main o) m (zset d s a') m' d' N2 Hm) H1)].
Qed.
(** What cannot be assigned is not assigned: unknown names, sets that do not exist, a wrong number of values *)
Theorem C93_errors : forall V (o : st V) m s k a names name v, kind k names -> cols o = Some names ->
  (~ In name names -> set_value o m s [(name, v)] = (o, Some ValueError)) /\
  (In name names -> (forall b, ~ holds o m s b) -> set_value o m s [(name, v)] = (o, Some KeyError)) /\
  (In name names -> table o m s k a -> ~ fits v (List.length a) -> set_value o m s [(name, v)] = (o, Some ValueError)).
Proof.
  intros V o m s k a names name v Hk Hc. split; [|split].
  - intro H. cbn [set_value]. unfold set1. rewrite Hc, index_of_none by exact H. reflexivity.
  - intros H Hb. apply In_nth_error in H. destruct H as [c H]. destruct (kind_index k names name c Hk H) as [E4 _]. cbn [set_value]. unfold set1. rewrite Hc, E4. unfold zfind. destruct (zget (main o) m) as [d|] eqn:E1; [|reflexivity]. cbn [bind].
    destruct (zget d s) as [b|] eqn:E2; [|reflexivity]. exfalso. apply (Hb b). exists d. split; now apply zget_some.
  - intros H Ht Hf. apply In_nth_error in H. destruct H as [c H]. destruct (kind_index k names name c Hk H) as [E4 L]. destruct (table_get o m s k a Ht) as (d & E1 & E2 & E3 & _). cbn [set_value]. unfold set1. rewrite Hc, E4. unfold zfind. rewrite E1. cbn [bind]. rewrite E2. cbn [bind].
    unfold assign. rewrite E3. cbn [bind]. replace (Nat.leb k c) with false by (symmetry; apply Nat.leb_gt; exact L).
    destruct v as [x|[|x [|y l]]]; cbn [fits] in Hf; [exfalso; now apply Hf| |exfalso; apply Hf; now left|].
    + replace (Nat.eqb (List.length (@nil V)) (List.length a)) with false; [reflexivity|]. symmetry. apply Nat.eqb_neq. intro G. apply Hf. now right.
    + match goal with |- context [Nat.eqb ?p ?q] => replace (Nat.eqb p q) with false; [reflexivity|] end. symmetry. apply Nat.eqb_neq. intro G. apply Hf. now right.
Qed.
(** Several names are assigned one after the other; an error leaves what was assigned before it *)
Theorem C93_sequence : forall V (o o1 : st V) m s kw1 kw2, set_value o m s kw1 = (o1, None) -> set_value o m s (kw1 ++ kw2) = set_value o1 m s kw2.
Proof.
  intros V o o1 m s kw1. revert o. induction kw1 as [|[n v] kw1 IH]; intros o kw2 H; [cbn in H; injection H as ->; reflexivity|]. cbn [set_value app] in *. destruct (set1 o m s n v) as [o2|e]; [now apply IH|discriminate].
Qed.
Theorem C93_error_keeps : forall V (o o1 o2 : st V) m s kw1 name v kw2 e, set_value o m s kw1 = (o1, None) -> set_value o1 m s [(name, v)] = (o2, Some e) ->
  set_value o m s (kw1 ++ (name, v) :: kw2) = (o1, Some e).
Proof.
  intros V o o1 o2 m s kw1 name v kw2 e H1 H2. rewrite (C93_sequence V o o1 m s kw1 _ H1). cbn [set_value] in *. destruct (set1 o1 m s name v); [discriminate|]. injection H2 as _ ->. reflexivity.
Qed.
(** The value can be read back at every radius, and the other columns give what they gave before *)
Theorem C93_read_back : forall (o : st Q) m s k a names name c x r, kind k names -> cols o = Some names -> table o m s k a -> nth_error names c = Some name -> c <> 0 -> increasing a ->
  exists o', set_value o m s [(name, One x)] = (o', None) /\ (exists v, method o' name (Some r) m s = Ok [v] /\ (v == x)%Q) /\
    forall other, other <> name -> method o' other (Some r) m s = method o other (Some r) m s.
Proof.
  intros o m s k a names name c x r Hk Hc Ht Hn H0 Hi. destruct (C93_assigns Q o m s k a names name c (One x) Hk Hc Ht Hn I) as (o' & a' & E & Ec & _ & Ht' & Hl & Ha & _).
  assert (Hc' : cols o' = Some names) by congruence.
  assert (Row : forall i, nth_error a' i = match nth_error a i with Some _ => nth_error a' i | None => None end).
  { intro i. destruct (nth_error a i) eqn:Ei; [reflexivity|]. apply nth_error_None. apply nth_error_None in Ei. lia. }
  assert (Cells : forall j, j <> c -> map (fun row => nth j row 0%Q) a' = map (fun row => nth j row 0%Q) a).
  { intros j Hj. apply ListFacts.list_ext; [rewrite !map_length; exact Hl|]. intros i _. rewrite !nth_error_map, Row. destruct (nth_error a i) as [row|] eqn:Ei; [|reflexivity]. destruct (Ha i row Ei) as (row' & y & G1 & _ & _ & G2). rewrite G1. cbn [option_map]. f_equal.
    specialize (G2 j Hj). destruct (nth_error row' j) eqn:E1.
    - rewrite (nth_error_nth row' j 0%Q E1). symmetry in G2. rewrite (nth_error_nth row j 0%Q G2). reflexivity.
    - apply nth_error_None in E1. symmetry in G2. apply nth_error_None in G2. rewrite !nth_overflow by assumption. reflexivity. }
  exists o'. split; [exact E|]. split.
  - rewrite (method_is o' m s k a' names Hk Hc' Ht' name c) by exact Hn.
    assert (All : forall p, In p (columns c a') -> snd p = x).
    { intros p Hp. unfold columns in Hp. apply in_map_iff in Hp. destruct Hp as (row' & <- & Hr). cbn [snd]. apply In_nth_error in Hr. destruct Hr as [i Hr]. assert (R := Row i). rewrite Hr in R. destruct (nth_error a i) as [row|] eqn:Ei; [|discriminate].
      destruct (Ha i row Ei) as (row2 & y & G1 & G2 & G3 & _). assert (row2 = row') by congruence. subst row2. cbn [meant] in G2. subst y. apply (nth_error_nth row' c 0%Q G3). }
    assert (NE : columns c a' <> []) by (destruct Ht' as (_ & _ & Hne & _); unfold columns; intro G; apply map_eq_nil in G; contradiction).
    assert (Inc : StronglySorted Qlt (map fst (columns c a'))). { unfold columns. rewrite map_map. cbn [fst]. rewrite (Cells 0) by congruence. exact Hi. }
    destruct (columns c a') as [|[x0 y0] t]; [contradiction|]. cbn [interp]. assert (Y0 : y0 = x) by (apply (All (x0, y0)); now left). subst y0.
    destruct (Qle_bool x0 r); [|eexists; split; [reflexivity|reflexivity]]. eexists. split; [reflexivity|].
    assert (Hall : forall p, In p t -> snd p = x) by (intros p Hp; apply All; now right). clear All NE. revert x0 Inc. induction t as [|[x1 y1] t IH]; intros x0 Inc; [reflexivity|]. cbn [interp_from].
    assert (Y1 : y1 = x) by (apply (Hall (x1, y1)); now left). subst y1. cbn [map fst] in Inc. inversion Inc as [|? ? I1 I2]; subst. destruct (Qle_bool x1 r); [apply IH; [intros p Hp; apply Hall; now right|exact I1]|].
    inversion I2; subst. field. intro G. lra.
  - intros other Ho. destruct (in_dec (list_eq_dec ascii_dec) other names) as [Hin|Hin].
    + apply In_nth_error in Hin. destruct Hin as [j Hj]. rewrite (method_is o' m s k a' names Hk Hc' Ht' other j r Hj), (method_is o m s k a names Hk Hc Ht other j r Hj).
      replace (columns j a') with (columns j a); [reflexivity|]. assert (Nj : j <> c) by congruence. unfold columns.
      assert (G : forall b : list (list Q), map (fun row => (nth 0 row 0%Q, nth j row 0%Q)) b = combine (map (fun row => nth 0 row 0%Q) b) (map (fun row => nth j row 0%Q) b)) by (induction b as [|r' b IHb]; [reflexivity|]; cbn [map combine]; now rewrite IHb).
      rewrite !G, (Cells 0), (Cells j) by congruence. reflexivity.
    + unfold method. rewrite Hc, Hc', !index_of_none by exact Hin. reflexivity.
Qed.

(** ** C96: data frames *)
Definition labels19 : list str := map S_ ["r_[m]";"m_[kg/m]";"x_cg_[m]";"y_cg_[m]";"ri_x_[m]";"ri_y_[m]";"x_sh_[m]";"y_sh_[m]";"E_[N/m^2]";"G_[N/m^2]";"I_x_[m^4]";"I_y_[m^4]";"I_p_[m^4]";"k_x_[-]";"k_y_[-]";"A_[m^2]";"pitch_[deg]";"x_e_[m]";"y_e_[m]"]%string.
Definition labels30 : list str := map S_ ["r_[m]";"m_[kg/m]";"x_cg_[m]";"y_cg_[m]";"ri_x_[m]";"ri_y_[m]";"pitch_[deg]";"x_e_[m]";"y_e_[m]";"K11";"K12";"K13";"K14";"K15";"K16";"K22";"K23";"K24";"K25";"K26";"K33";"K34";"K35";"K36";"K44";"K45";"K46";"K55";"K56";"K66"]%string.
Definition labels (k : nat) (l : list str) : Prop := k = 19 /\ l = labels19 \/ k = 30 /\ l = labels30.
Definition all_sets {V} (o : st V) : list (Z * Z * list (list V)) := flat_map (fun md => map (fun sa => (fst md, fst sa, snd sa)) (snd md)) (main o).
Definition frame_name (m s : Z) : str := str_of_Z m ++ "_"%char :: str_of_Z s.

Lemma toDataFrame_sets {V} (o : st V) : toDataFrame o = mapM (fun q : Z * Z * list (list V) => let '(m, s, a) := q in f <- frame a ;; Ok (frame_name m s, f)) (all_sets o).
Proof.
  unfold toDataFrame, all_sets. induction (main o) as [|[m d] l IH]; [reflexivity|]. cbn [flat_map fst snd]. rewrite <- (map_id (flat_map _ l)) at 1.
  assert (G : forall (A B C : Type) (f : A -> res B) (g : C -> res B) (l1 l2 : list A) (k1 k2 : list C), mapM f l1 = mapM g k1 -> mapM f l2 = mapM g k2 -> mapM f (l1 ++ l2) = mapM g (k1 ++ k2)).
  { intros A B C f g l1 l2 k1 k2 H1 H2. assert (P : forall (D : Type) (h : D -> res B) u w, mapM h (u ++ w) = (x <- mapM h u ;; y <- mapM h w ;; Ok (x ++ y))).
    { intros D h u w. induction u as [|z u IHu]; cbn [app mapM bind]; [destruct (mapM h w); reflexivity|]. destruct (h z); [|reflexivity]. cbn [bind]. rewrite IHu. destruct (mapM h u); [|reflexivity]. cbn [bind]. destruct (mapM h w); reflexivity. }
    rewrite !P, H1, H2. reflexivity. }
  apply G; [|rewrite map_id; exact IH]. induction d as [|[s a] d IHd]; [reflexivity|]. cbn [map mapM fst snd]. rewrite IHd. reflexivity.
Qed.
Lemma frame_ok {V} (a : list (list V)) k l : a <> [] -> Forall (fun r => List.length r = k) a -> labels k l -> frame a = Ok (l, a).
Proof. intros H Hr Hl. unfold frame. destruct a as [|r a]; [contradiction|]. inversion Hr; subst. cbn [width bind]. destruct Hl as [[E ->]|[E ->]]; rewrite E; reflexivity. Qed.
(** One data frame for each set, named after its two numbers, with the columns of its format *)
Theorem C96_frames : forall V (o : st V), Forall (fun q => snd q <> [] /\ exists k l, labels k l /\ Forall (fun r => List.length r = k) (snd q)) (all_sets o) ->
  exists dfs, toDataFrame o = Ok dfs /\ Forall2 (fun q df => let '(m, s, a) := q in fst df = frame_name m s /\ labels (List.length (fst (snd df))) (fst (snd df)) /\ snd (snd df) = a /\ Forall (fun r => List.length r = List.length (fst (snd df))) a) (all_sets o) dfs.
Proof.
  intros V o H. rewrite toDataFrame_sets. apply mapM_ok. intros [[m s] a] Hq. rewrite Forall_forall in H. destruct (H _ Hq) as (Hne & k & l & Hl & Hr). cbn [snd] in *.
  rewrite (frame_ok a k l Hne Hr Hl). cbn [bind]. eexists. split; [reflexivity|]. cbn [fst snd]. assert (E : List.length l = k) by (destruct Hl as [[-> ->]|[-> ->]]; reflexivity). rewrite E. auto.
Qed.
(** The names tell the sets apart *)
Theorem C96_names : forall m s m' s', frame_name m s = frame_name m' s' -> m = m' /\ s = s'.
Proof.
  intros m s m' s' H. unfold frame_name in H. assert (N : forall z, no_chr "_" (str_of_Z z)) by (intro z; apply str_of_Z_no; [reflexivity|discriminate]).
  assert (G : split_chr "_" (str_of_Z m ++ "_"%char :: str_of_Z s) = split_chr "_" (str_of_Z m' ++ "_"%char :: str_of_Z s')) by now rewrite H.
  rewrite !split_chr_head in G by apply N. injection G as G1 G2. assert (E : forall z w, str_of_Z z = str_of_Z w -> z = w). { intros z w E. assert (P := int_str_of_Z z). rewrite E, int_str_of_Z in P. congruence. }
  assert (S0 : forall z, split_chr "_" (str_of_Z z) = [str_of_Z z]). { intro z. assert (P := split_chr_list "_" (str_of_Z z) []). cbn [flat_map] in P. rewrite app_nil_r in P. apply P. constructor; [apply N|constructor]. }
  rewrite !S0 in G2. injection G2 as G2. split; apply E; assumption.
Qed.
(** A set with another number of columns: no data frame at all *)
Theorem C96_other_widths : forall V (o : st V) m s a r, Forall (fun q => snd q <> []) (all_sets o) -> In (m, s, a) (all_sets o) -> nth_error a 0 = Some r -> List.length r <> 19 -> List.length r <> 30 -> toDataFrame o = Err ValueError.
Proof.
  intros V o m s a r H Hin Ha H19 H30. rewrite toDataFrame_sets. induction (all_sets o) as [|[[m1 s1] a1] l IH]; [destruct Hin|]. inversion H as [|? ? H1 H2]; subst. cbn [mapM]. cbn [snd] in H1.
  assert (F : forall b : list (list V), b <> [] -> (exists f, frame b = Ok f) \/ frame b = Err ValueError).
  { intros b Hb. unfold frame. destruct b as [|r0 b]; [contradiction|]. cbn [width bind]. destruct (Nat.eqb (List.length r0) (List.length (if Nat.eqb (List.length r0) 19 then col_reg else col_fpm))); eauto. }
  destruct Hin as [E|Hin].
  - injection E as -> -> ->. assert (E : frame a = Err ValueError); [|rewrite E; reflexivity]. destruct a as [|r0 a]; [discriminate|]. injection Ha as ->. unfold frame. cbn [width bind].
    rewrite (proj2 (Nat.eqb_neq _ _) H19). replace (Nat.eqb (List.length r) (List.length col_fpm)) with false by (symmetry; apply Nat.eqb_neq; exact H30). reflexivity.
  - destruct (F a1 H1) as [[f E]|E]; rewrite E; [|reflexivity]. cbn [bind]. rewrite (IH H2 Hin). reflexivity.
Qed.

(** ** Examples *)
Definition qrow (r : Q) : list Q := [r; 1; 2; 3; 4; 5; 1#10; -1#5; 200; 80; 3; 2; 5; 1#2; 1#2; 7; 0; 0; r * r]%Q.
Definition ex_q : st Q := mk_st [(1%Z, [(1%Z, [qrow 0; qrow 10; qrow 12]); (2%Z, [qrow 3])])] (Some names19).
Example table_example : table ex_q 1 1 19 [qrow 0; qrow 10; qrow 12] /\ increasing [qrow 0; qrow 10; qrow 12].
Proof.
  split; [|repeat constructor]. split; [split; [nodup|constructor; [nodup|constructor]]|]. split; [exists [(1%Z, [qrow 0; qrow 10; qrow 12]); (2%Z, [qrow 3])]; split; left; reflexivity|]. split; [discriminate|repeat constructor].
Qed.
Example values_example : exists v, method ex_q (S_ "y_e") (Some 11%Q) 1 1 = Ok [v] /\ (v == 122)%Q.
Proof.
  destruct (C92_between ex_q 1 1 19 [qrow 0; qrow 10; qrow 12] names19 (or_introl (conj eq_refl eq_refl)) eq_refl (proj1 table_example) (S_ "y_e") 18 1 (qrow 10) (qrow 12) 11%Q) as (v & E & H); try reflexivity; [exact (proj2 table_example)|split; discriminate|].
  exists v. split; [exact E|]. cbn in H. lra.
Qed.
Example nearest_example : radius_st ex_q 5 1 1 = Ok 0%Q /\ radius_st ex_q (51#10) 1 1 = Ok 10%Q.
Proof. split; reflexivity. Qed.
Example assign_example : exists o', set_value ex_q 1 1 [(S_ "E", Many [7; 8; 9]%Q)] = (o', None) /\ holds o' 1 2 [qrow 3].
Proof.
  destruct (C93_assigns Q ex_q 1 1 19 [qrow 0; qrow 10; qrow 12] names19 (S_ "E") 8 (Many [7; 8; 9]%Q)) as (o' & a' & E & _ & _ & _ & _ & _ & H);
    [left; split; reflexivity|reflexivity|exact (proj1 table_example)|reflexivity|right; reflexivity|]. exists o'. split; [exact E|]. apply H; [right; discriminate|]. eexists. split; [left; reflexivity|right; left; reflexivity].
Qed.
Example partial_assignment_example : set_value ex_q 1 2 [(S_ "E", One 4%Q); (S_ "nothing", One 5%Q); (S_ "G", One 6%Q)] = (fst (set_value ex_q 1 2 [(S_ "E", One 4%Q)]), Some ValueError).
Proof. reflexivity. Qed.
Example frames_example : exists f1 f2, toDataFrame ex_q = Ok [(S_ "1_1", f1); (S_ "1_2", f2)] /\ fst f1 = labels19.
Proof. eexists. eexists. split; [vm_compute; reflexivity|reflexivity]. Qed.
Print Assumptions C92_at_row.
Print Assumptions C92_between.
Print Assumptions C92_outside.
Print Assumptions C92_column.
Print Assumptions C92_narrow_set.
Print Assumptions C92_errors.
Print Assumptions C92_nearest_radius.
Print Assumptions C93_assigns.
Print Assumptions C93_errors.
Print Assumptions C93_error_keeps.
Print Assumptions C93_read_back.
Print Assumptions C96_frames.
Print Assumptions C96_names.
Print Assumptions C96_other_widths.
