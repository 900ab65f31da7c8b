(** Properties C111 and C112: the dedicated classes for blades and polars, and the mode shapes in the data frames. *)
From Verif Require Import Py PyFacts TextFacts FASTIn_Model FASTIn_Proofs FASTIn_File FASTIn_Props FASTTab_Model FASTTab_Proofs FASTTab_Props FASTTabRead_Props FASTFile_Model FASTFile_Props FASTFileEnd_Props FASTSpec_Model AD14_Props.
Local Open Scope nat_scope.

(** ** Names with a number: lab_1, lab_2, ... *)
Definition numbered (lab : string) (i : nat) : str := S_ lab ++ S_ "_" ++ str_of_N (N.of_nat i).
(** The labels of a polar that are numbered when there are several tables *)
Definition polar_labels : list string := ["Re"; "Ctrl"; "UserProp"; "alpha0"; "alpha1"; "alpha2"; "eta_e"; "C_nalpha"; "T_f0"; "T_V0"; "T_p"; "T_VL"; "b1"; "b2"; "b5"; "A1"; "A2"; "A5"; "S1"; "S2"; "S3"; "S4"; "Cn1"; "Cn2";
  "St_sh"; "Cd0"; "Cm0"; "k0"; "k1"; "k2"; "k3"; "k1_hat"; "x_cp_bar"; "UACutout"; "filtCutOff"; "InclUAdata"; "NumAlf"; "AFCoeff"]%string.
Definition under : ascii := "_"%char.
Lemma digits_no_under d : forallb is_digit d = true -> ~ In under d.
Proof. intros H Hi. rewrite forallb_forall in H. specialize (H _ Hi). discriminate. Qed.
Lemma suffix_inj a b d e : forallb is_digit d = true -> forallb is_digit e = true -> a ++ under :: d = b ++ under :: e -> a = b /\ d = e.
Proof.
  intros Hd He E. apply app_eq_app in E. destruct E as (l & [[E1 E2]|[E1 E2]]); (destruct l as [|c l]; [cbn [app] in E2; injection E2 as E2; rewrite app_nil_r in E1; auto|]); exfalso; injection E2 as _ E2.
  - apply (digits_no_under e He). rewrite E2. apply in_or_app. right. now left.
  - apply (digits_no_under d Hd). rewrite E2. apply in_or_app. right. now left.
Qed.
Lemma lower_digits d : forallb is_digit d = true -> lower d = d.
Proof.
  intro H. induction d as [|c d IH]; [reflexivity|]. cbn [forallb] in H. apply andb_inv in H. destruct H as [H1 H2]. unfold lower in *. cbn [map]. rewrite (IH H2). f_equal. revert H1.
  assert (S : forallb (fun c => negb (is_digit c) || chr_eqb (lower_c c) c) (map ascii_of_nat (seq 0 256)) = true) by (vm_compute; reflexivity). rewrite forallb_forall in S.
  specialize (S c). intro D. assert (I : In c (map ascii_of_nat (seq 0 256))). { rewrite <- (ascii_nat_embedding c). apply in_map, in_seq. pose proof (nat_ascii_bounded c). lia. }
  specialize (S I). rewrite D in S. apply chr_eqb_eq. exact S.
Qed.
Lemma lower_numbered lab i : lower (numbered lab i) = lower (S_ lab) ++ under :: str_of_N (N.of_nat i).
Proof. unfold numbered. rewrite !lower_app, (lower_digits _ (str_of_N_digits _)). reflexivity. Qed.
Lemma numbered_inj a i b j : low_is (numbered a i) (numbered b j) -> lower (S_ a) = lower (S_ b) /\ i = j.
Proof.
  unfold low_is. rewrite !lower_numbered. intro E. apply suffix_inj in E; [|apply str_of_N_digits|apply str_of_N_digits]. destruct E as [E1 E2]. split; [exact E1|].
  apply (f_equal N_of_str) in E2. rewrite !N_of_str_of_N in E2. injection E2 as E2. now apply Nat2N.inj.
Qed.
(** No label of the format ends with an underscore and a number, nor do the names of the other entries *)
Fixpoint skip_digits (s : str) : str := match s with c :: s' => if is_digit c then skip_digits s' else s | [] => [] end.
Definition ends_number (s : str) : bool := match skip_digits (rev s) with c :: _ => chr_eqb c under | [] => false end.
Lemma ends_numbered a d : forallb is_digit d = true -> ends_number (a ++ under :: d) = true.
Proof.
  intro H. unfold ends_number. rewrite rev_app_distr. cbn [rev]. rewrite <- app_assoc. cbn [app].
  assert (G : forall r t, forallb is_digit r = true -> skip_digits (r ++ under :: t) = under :: t) by (induction r as [|c r IH]; intros t Hr; [reflexivity|]; cbn [forallb] in Hr; apply andb_inv in Hr; destruct Hr as [A B]; cbn [app skip_digits]; rewrite A; now apply IH).
  rewrite G; [reflexivity|]. rewrite forallb_forall in *. intros x Hx. apply H. now apply in_rev.
Qed.
Lemma not_numbered s lab i : ends_number (lower s) = false -> ~ low_is s (numbered lab i).
Proof. intros H E. unfold low_is in E. rewrite E, lower_numbered, ends_numbered in H; [discriminate|apply str_of_N_digits]. Qed.
Lemma label_plain lab : In lab polar_labels -> ends_number (lower (S_ lab)) = false.
Proof. intro H. assert (F : forallb (fun l => negb (ends_number (lower (S_ l)))) polar_labels = true) by (vm_compute; reflexivity). rewrite forallb_forall in F. apply negb_true_iff. now apply F. Qed.

(** ** C111: specification *)
Section Spec.
Context {V : Type}.
Variables fnum fexp fstr fspan fmat : V -> str.
Local Notation ent := (FASTFile_Model.entry V).
Local Notation write_ := (write_fixed fnum fexp fstr fspan fmat).
Local Notation text_of := (to_string fnum fexp fstr fspan fmat).

(** A line that is not a comment has exactly that label *)
Definition has_key (es : list ent) (k : string) : Prop := exists e, In e es /\ comment_of e = false /\ label_of e = S_ k.
(** The first entry of that name, in any case *)
Definition first_is (es : list ent) (k : str) (e : ent) : Prop := exists a b, es = a ++ e :: b /\ low_is (label_of e) k /\ Forall (fun x => ~ low_is (label_of x) k) a.
(** It is a table of [n] rows of [m] numbers *)
Definition table_is (es : list ent) (k : str) (n m : nat) : Prop :=
  exists l ds kd dm rows ns us, first_is es k (Tab l ds kd dm (Nums rows) (Some ns) us) /\ List.length rows = n /\ rect m rows /\ List.length ns = m.
Definition number_is (es : list ent) (k : str) : Prop := exists d, first_is es k (Item d) /\ match it_value d with VInt _ | VFloat _ | VBool _ => True | _ => False end.
(** Only ordinary lines have that name *)
Definition only_lines (es : list ent) (k : str) : Prop := forall e, In e es -> low_is (label_of e) k -> exists d, e = Item d.
(** The lines called [k] get the value [n], and nothing else changes *)
Definition sets (k : str) (n : nat) (e e' : ent) : Prop :=
  (exists d, e = Item d /\ low_is (it_label d) k /\ e' = Item (mkItem (VInt (Z.of_nat n)) (it_label d) (it_comment d) (it_descr d) (it_tab d))) \/ (~ low_is (label_of e) k /\ e' = e).

Lemma is_label_iff k (e : ent) : is_label k e = true <-> low_is (label_of e) k.
Proof. unfold is_label, low_is. apply str_eqb_eq. Qed.
Lemma is_label_not k (e : ent) : is_label k e = false <-> ~ low_is (label_of e) k.
Proof. unfold is_label, low_is. apply str_eqb_neq. Qed.
Lemma set_number_ok k n (es : list ent) : only_lines es k -> exists es', set_number k (Z.of_nat n) es = Some es' /\ Forall2 (sets k n) es es'.
Proof.
  induction es as [|e es IH]; intro H; [exists []; split; [reflexivity|constructor]|]. destruct IH as (r & E & F); [intros x Hx; apply H; now right|]. cbn [set_number]. rewrite E.
  destruct (is_label k e) eqn:L.
  - apply is_label_iff in L. destruct (H e (or_introl eq_refl) L) as [d ->]. eexists. split; [reflexivity|]. constructor; [|exact F]. left. exists d. split; [reflexivity|]. split; [exact L|reflexivity].
  - apply is_label_not in L. eexists. split; [reflexivity|]. constructor; [|exact F]. right. split; [exact L|reflexivity].
Qed.
Lemma first_find es k e : first_is es k e -> find_entry es k = Some e.
Proof.
  intros (a & b & -> & L & F). unfold find_entry. induction F as [|x a Hx _ IH]; cbn [app find].
  - unfold low_is in L. rewrite L, str_eqb_refl. reflexivity.
  - apply str_eqb_neq in Hx. now rewrite Hx.
Qed.
Lemma find_first es k e : find_entry es k = Some e -> first_is es k e.
Proof.
  unfold find_entry. induction es as [|x es IH]; cbn [find]; [discriminate|]. destruct (str_eqb _ _) eqn:E; intro H.
  - injection H as <-. exists [], es. split; [reflexivity|]. split; [now apply str_eqb_eq|constructor].
  - destruct (IH H) as (a & b & -> & L & F). exists (x :: a), b. split; [reflexivity|]. split; [exact L|]. constructor; [now apply str_eqb_neq|exact F].
Qed.
Lemma none_find es k : (forall e, In e es -> ~ low_is (label_of e) k) -> find_entry (V := V) es k = None.
Proof. intro H. apply find_none_key. apply Forall_forall. exact H. Qed.
Lemma table_shape es k n m : table_is es k n m -> shape_of k es = Ok (n, m).
Proof.
  intros (l & ds & kd & dm & rows & ns & us & H & <- & Hr & Hm). unfold shape_of. rewrite (first_find _ _ _ H). destruct rows as [|r rows]; [now rewrite Hm|]. inversion Hr as [|? ? H1 H2]. now rewrite H1.
Qed.
Lemma existsb_label k l : existsb (str_eqb (S_ k)) l = true <-> In (S_ k) l.
Proof. rewrite existsb_exists. split; [intros (x & Hx & E); apply str_eqb_eq in E; congruence|]. intro H. exists (S_ k). split; [exact H|apply str_eqb_refl]. Qed.
Lemma has_key_iff es k : has_label k (keys_of (V := V) es) = true <-> has_key es k.
Proof.
  unfold has_label, keys_of. rewrite existsb_label, in_map_iff. split.
  - intros (e & E & H). apply filter_In in H. destruct H as [H1 H2]. apply negb_true_iff in H2. exists e. auto.
  - intros (e & H & C & E). exists e. split; [exact E|]. apply filter_In. split; [exact H|]. now rewrite C.
Qed.
Lemma has_key_not es k : has_label k (keys_of (V := V) es) = false <-> ~ has_key es k.
Proof. rewrite <- has_key_iff. destruct (has_label _ _); split; intro H; try discriminate; try reflexivity; try (intro; discriminate); now contradiction H. Qed.

(** The class is that of the first of these descriptions that fits *)
Theorem C111_class : forall es : list ent,
  (has_key es "NumBlNds" -> fixed_format es = ADBlade) /\
  (~ has_key es "NumBlNds" -> has_key es "NBlInpSt" -> fixed_format es = EDBlade) /\
  (~ has_key es "NumBlNds" -> ~ has_key es "NBlInpSt" -> has_key es "NumCoords" -> has_key es "InterpOrd" -> fixed_format es = ADPolar) /\
  (~ has_key es "NumBlNds" -> ~ has_key es "NBlInpSt" -> ~ (has_key es "NumCoords" /\ has_key es "InterpOrd") -> fixed_format es = Base).
Proof.
  intro es. unfold fixed_format. repeat split.
  - intro H. apply has_key_iff in H. now rewrite H.
  - intros N H. apply has_key_not in N. apply has_key_iff in H. now rewrite N, H.
  - intros N1 N2 H1 H2. apply has_key_not in N1, N2. apply has_key_iff in H1, H2. now rewrite N1, N2, H1, H2.
  - intros N1 N2 N3. apply has_key_not in N1, N2. rewrite N1, N2. destruct (has_label "NumCoords" _) eqn:A; [|reflexivity]. destruct (has_label "InterpOrd" _) eqn:B; [|reflexivity]. apply has_key_iff in A, B. now contradiction N3.
Qed.

(** The data, the file and the result after a successful write, and when the file cannot be opened *)
Definition writes_as (es es1 es2 : list ent) : Prop :=
  (forall text, text_of es2 = Ok text -> write_ true es = Some (mk_written es1 (Some text) (Ok tt))) /\
  write_ false es = Some (mk_written es2 None (Err OSError2)).

Lemma sets_labels k n es es' : Forall2 (sets k n) es es' -> map label_of es = map label_of es'.
Proof. induction 1 as [|e e2 l l2 He F IH]; [reflexivity|]. cbn [map]. rewrite IH. destruct He as [(d & -> & _ & ->)|[_ ->]]; reflexivity. Qed.
Lemma sets_find k n es es' j : Forall2 (sets k n) es es' -> ~ low_is j k -> find_entry es' j = find_entry es j.
Proof.
  intros F Hj. unfold find_entry. induction F as [|e e' es es' He _ IH]; [reflexivity|]. cbn [find]. destruct He as [(d & -> & L & ->)|[_ ->]]; cbn [label_of it_label].
  - destruct (str_eqb (lower (it_label d)) (lower j)) eqn:E; [|exact IH]. apply str_eqb_eq in E. exfalso. apply Hj. unfold low_is in *. congruence.
  - destruct (str_eqb _ _); [reflexivity|exact IH].
Qed.
Lemma numbers_checked es ks : Forall (number_is es) ks -> present ks es = Ok tt /\ all_numbers ks es = Ok tt.
Proof.
  induction 1 as [|k ks (d & Hd & Hv) _ [IH1 IH2]]; [split; reflexivity|]. cbn [present all_numbers]. unfold number_of. rewrite (first_find _ _ _ Hd). cbn [bind]. split; [exact IH1|]. destruct (it_value d); try contradiction; cbn [bind]; exact IH2.
Qed.
(** The fifteen coefficients of an ElastoDyn blade *)
Definition ed_coefficients : list str := map S_ ["BldFl1Sh(2)"; "BldFl1Sh(3)"; "BldFl1Sh(4)"; "BldFl1Sh(5)"; "BldFl1Sh(6)"; "BldFl2Sh(2)"; "BldFl2Sh(3)"; "BldFl2Sh(4)"; "BldFl2Sh(5)"; "BldFl2Sh(6)";
  "BldEdgSh(2)"; "BldEdgSh(3)"; "BldEdgSh(4)"; "BldEdgSh(5)"; "BldEdgSh(6)"]%string.
Lemma ed_split : ed_coefficients = flat_map (fun s => map (coeff s) [2; 3; 4; 5; 6]) ED_SHAPES.
Proof. reflexivity. Qed.
Lemma each_ok {A} (f : A -> res unit) l : (forall x, In x l -> f x = Ok tt) -> each f l = Ok tt.
Proof. induction l as [|x l IH]; intro H; [reflexivity|]. cbn [each]. rewrite (H x (or_introl eq_refl)). cbn [bind]. apply IH. intros; apply H; now right. Qed.

(** ElastoDyn blades: the number of stations that is written is the number of rows of the table, whatever it was; nothing else
    changes, in the file or in the object *)
Theorem C111_elastodyn_blade : forall es n m, ~ has_key es "NumBlNds" -> has_key es "NBlInpSt" -> table_is es (S_ "BldProp") n m -> only_lines es (S_ "NBlInpSt") ->
  Forall (number_is es) ed_coefficients ->
  exists es1, Forall2 (sets (S_ "NBlInpSt") n) es es1 /\ writes_as es es1 es1.
Proof.
  intros es n m N H T O C. destruct (set_number_ok (S_ "NBlInpSt") n es O) as (es1 & E1 & F1). exists es1. split; [exact F1|].
  assert (K : fixed_format es = EDBlade) by now apply C111_class.
  assert (Ck : check_ED es = Some (es1, Ok tt)).
  { unfold check_ED, set_rows. rewrite (table_shape _ _ _ _ T), E1. f_equal. f_equal. apply each_ok. intros s Hs. unfold shape_check.
    assert (A : Forall (number_is es1) (map (coeff s) [2; 3; 4; 5; 6])).
    { rewrite Forall_forall in *. intros k Hk. assert (Hc : In k ed_coefficients) by (rewrite ed_split; apply in_flat_map; exists s; split; assumption). destruct (C k Hc) as (d & Hd & Hv). exists d. split; [|exact Hv].
      apply find_first. rewrite (sets_find _ _ _ _ k F1); [now apply first_find|]. clear - Hc. intro L. unfold low_is in L. unfold ed_coefficients in Hc. cbn [map In] in Hc.
      repeat (destruct Hc as [<-|Hc]; [vm_compute in L; discriminate L|]). destruct Hc. }
    destruct (numbers_checked _ _ A) as [P1 P2]. rewrite P1. cbn [bind]. exact P2. }
  unfold writes_as, write_fixed. rewrite K, Ck. unfold checked_write, put_file. split; [intros text ->; reflexivity|reflexivity].
Qed.
(** AeroDyn blades of at least two nodes *)
Theorem C111_aerodyn_blade_partial : forall es n m, has_key es "NumBlNds" -> table_is es (S_ "BldAeroNodes") n m -> 2 <= n -> 4 <= m -> only_lines es (S_ "NumBlNds") ->
  exists es1, Forall2 (sets (S_ "NumBlNds") n) es es1 /\ writes_as es es1 es1.
Proof.
  intros es n m H T Hn Hm O. destruct (set_number_ok (S_ "NumBlNds") n es O) as (es1 & E1 & F1). exists es1. split; [exact F1|].
  assert (K : fixed_format es = ADBlade) by now apply C111_class.
  assert (Ck : check_AD es = Some (es1, Ok tt)).
  { unfold check_AD, set_rows. rewrite (table_shape _ _ _ _ T), E1. replace (m <? 1) with false by (symmetry; apply Nat.ltb_ge; lia). replace (n <? 2) with false by (symmetry; apply Nat.ltb_ge; lia).
    replace (m <? 4) with false by (symmetry; apply Nat.ltb_ge; lia). reflexivity. }
  unfold writes_as, write_fixed. rewrite K, Ck. unfold checked_write, put_file. split; [intros text ->; reflexivity|reflexivity].
Qed.
(** A blade with fewer nodes cannot be written: the file stays as it was *)
Theorem C111_few_nodes_refuted : forall es n m can_open, has_key es "NumBlNds" -> table_is es (S_ "BldAeroNodes") n m -> n < 2 -> 4 <= m -> only_lines es (S_ "NumBlNds") ->
  exists es1, Forall2 (sets (S_ "NumBlNds") n) es es1 /\ write_ can_open es = Some (mk_written es1 None (Err ValueError)).
Proof.
  intros es n m c H T Hn Hm O. destruct (set_number_ok (S_ "NumBlNds") n es O) as (es1 & E1 & F1). exists es1. split; [exact F1|].
  assert (K : fixed_format es = ADBlade) by now apply C111_class. unfold write_fixed. rewrite K. unfold check_AD, set_rows. rewrite (table_shape _ _ _ _ T), E1. replace (m <? 1) with false by (symmetry; apply Nat.ltb_ge; lia).
  replace (n <? 2) with true by (symmetry; apply Nat.ltb_lt; lia). reflexivity.
Qed.
(** Without its table, or a mode shape, a blade is not written, and the file stays as it was *)
Theorem C111_missing : forall es can_open,
  (has_key es "NumBlNds" -> (forall e, In e es -> ~ low_is (label_of e) (S_ "BldAeroNodes")) -> write_ can_open es = Some (mk_written es None (Err KeyError))) /\
  (~ has_key es "NumBlNds" -> has_key es "NBlInpSt" -> (forall e, In e es -> ~ low_is (label_of e) (S_ "BldProp")) -> write_ can_open es = Some (mk_written es None (Err KeyError))) /\
  (forall n m k, ~ has_key es "NumBlNds" -> has_key es "NBlInpSt" -> table_is es (S_ "BldProp") n m -> only_lines es (S_ "NBlInpSt") ->
     In k ed_coefficients -> (forall e, In e es -> ~ low_is (label_of e) k) -> exists es1 e, write_ can_open es = Some (mk_written es1 None (Err e))).
Proof.
  intros es c. split; [|split].
  - intros H N. assert (K : fixed_format es = ADBlade) by now apply C111_class. unfold write_fixed. rewrite K. unfold check_AD, set_rows, shape_of. now rewrite none_find.
  - intros N H NT. assert (K : fixed_format es = EDBlade) by now apply C111_class. unfold write_fixed. rewrite K. unfold check_ED, set_rows, shape_of. now rewrite none_find.
  - intros n m k N H T O Hk Nk. destruct (set_number_ok (S_ "NBlInpSt") n es O) as (es1 & E1 & F1). exists es1.
    assert (K : fixed_format es = EDBlade) by now apply C111_class. unfold write_fixed. rewrite K. unfold check_ED, set_rows. rewrite (table_shape _ _ _ _ T), E1.
    destruct (each (shape_check es1) ED_SHAPES) as [[]|e] eqn:Ee; [|exists e; reflexivity]. exfalso. rewrite ed_split in Hk. apply in_flat_map in Hk. destruct Hk as (s & Hs & Hk).
    assert (Fe : forall l, In s l -> each (shape_check es1) l = Ok tt -> shape_check es1 s = Ok tt).
    { induction l as [|x l IH]; intros Hi E; [destruct Hi|]. cbn [each] in E. destruct (shape_check es1 x) as [[]|] eqn:Ex; [|discriminate]. destruct Hi as [->|Hi]; [exact Ex|]. cbn [bind] in E. now apply IH. }
    specialize (Fe _ Hs Ee). unfold shape_check in Fe. destruct (present _ es1) as [u|] eqn:Ep; [|discriminate]. clear Fe.
    assert (Fn : find_entry es1 k = None). { apply none_find. intros e He L. pose proof (sets_labels _ _ _ _ F1) as Lb. apply (in_map label_of) in He. rewrite <- Lb in He. apply in_map_iff in He. destruct He as (x & Ex & Hx). apply (Nk x Hx). now rewrite Ex. }
    clear - Ep Fn Hk. induction (map (coeff s) [2; 3; 4; 5; 6]) as [|x l IH]; [destruct Hk|]. cbn [present] in Ep. destruct Hk as [->|Hk]; [rewrite Fn in Ep; discriminate|]. destruct (find_entry es1 x); [now apply IH|discriminate].
Qed.

(** *** Polars with one table *)
Definition tabs_are (es : list ent) (n : nat) : Prop := exists d, first_is es (S_ "NumTabs") (Item d) /\ it_value d = VInt (Z.of_nat n).
Lemma tabs_found es n : tabs_are es n -> tabs_of es = Some (Ok (Z.of_nat n)).
Proof. intros (d & H & E). unfold tabs_of. now rewrite (first_find _ _ _ H), E. Qed.
Theorem C111_polar : forall es n m, ~ has_key es "NumBlNds" -> ~ has_key es "NBlInpSt" -> has_key es "NumCoords" -> has_key es "InterpOrd" ->
  tabs_are es 1 -> table_is es (S_ "AFCoeff") n m -> only_lines es (S_ "NumAlf") ->
  exists es1, Forall2 (sets (S_ "NumAlf") n) es es1 /\ writes_as es es1 es1.
Proof.
  intros es n m N1 N2 H1 H2 Ht T O. destruct (set_number_ok (S_ "NumAlf") n es O) as (es1 & E1 & F1). exists es1. split; [exact F1|].
  assert (K : fixed_format es = ADPolar) by now apply C111_class. unfold writes_as, write_fixed. rewrite K. unfold write_polar, check_polar. rewrite (tabs_found _ _ Ht). cbn [Z.of_nat Pos.of_succ_nat Z.eqb Pos.eqb].
  unfold set_rows. rewrite (table_shape _ _ _ _ T), E1. unfold checked_write, put_file. split; [intros text ->; reflexivity|reflexivity].
Qed.

(** *** Polars with several tables *)
(** The number of lines of every table *)
Definition counts (is : list nat) (rows : nat -> nat) (e e' : ent) : Prop :=
  (exists i d, In i is /\ e = Item d /\ low_is (it_label d) (numbered "NumAlf" i) /\ e' = Item (mkItem (VInt (Z.of_nat (rows i))) (it_label d) (it_comment d) (it_descr d) (it_tab d))) \/
  ((forall i, In i is -> ~ low_is (label_of e) (numbered "NumAlf" i)) /\ e' = e).
(** The same entry under another label *)
Definition named (l : str) (e e' : ent) : Prop :=
  match e with
  | Item d => e' = Item (mkItem (it_value d) l (it_comment d) (it_descr d) (it_tab d))
  | Tab _ ds k dm v ns us => e' = Tab l ds k dm v ns us
  | _ => False
  end.
(** The numbered labels lose their number, and nothing else changes *)
Definition unnumbered (n : nat) (e e' : ent) : Prop :=
  (exists lab i, In lab polar_labels /\ 1 <= i <= n /\ low_is (label_of e) (numbered lab i) /\ named (S_ lab) e e') \/
  ((forall lab i, In lab polar_labels -> 1 <= i <= n -> ~ low_is (label_of e) (numbered lab i)) /\ e' = e).
(** A name that no two entries have, nor the first one *)
Definition at_most_once (es : list ent) (k : str) : Prop := forall a e b, es = a ++ e :: b -> low_is (label_of e) k -> a <> [] /\ Forall (fun x => ~ low_is (label_of x) k) (a ++ b).

Lemma only_sets k n es es' j : Forall2 (sets k n) es es' -> only_lines es j -> only_lines es' j.
Proof.
  intros F O. revert O. induction F as [|e e' es es' He F IH]; intros O x Hx L; [destruct Hx|]. destruct Hx as [<-|Hx]; [|apply IH; [intros y Hy; apply O; now right|exact Hx|exact L]].
  destruct He as [(d & -> & _ & ->)|[_ ->]]; [eexists; reflexivity|]. apply O; [now left|exact L].
Qed.
Lemma tabs_checked l (rows cols : nat -> nat) : forall es, (forall i, In i l -> shape_of (numbered "AFCoeff" i) es = Ok (rows i, cols i) /\ only_lines es (numbered "NumAlf" i)) ->
  exists es', check_tabs l es = Some (es', Ok tt) /\ Forall2 (counts l rows) es es'.
Proof.
  induction l as [|i l IH]; intros es H.
  - exists es. split; [reflexivity|]. induction es as [|e es IHe]; constructor; [right; split; [intros i []|reflexivity]|]. apply IHe. intros i [].
  - destruct (H i (or_introl eq_refl)) as [Hs Ho]. destruct (set_number_ok _ (rows i) es Ho) as (es1 & E1 & F1). destruct (IH es1) as (es2 & E2 & F2).
    { intros j Hj. destruct (H j (or_intror Hj)) as [Sj Oj]. split; [|now apply (only_sets _ _ _ _ _ F1)]. unfold shape_of in *. rewrite (sets_find _ _ _ _ _ F1); [exact Sj|]. intro L. apply numbered_inj in L. destruct L as [L _]. vm_compute in L. discriminate L. }
    exists es2. cbn [check_tabs]. unfold set_rows. change (S_ "AFCoeff" ++ offset i) with (numbered "AFCoeff" i). change (S_ "NumAlf" ++ offset i) with (numbered "NumAlf" i). rewrite Hs, E1. split; [exact E2|].
    clear - F1 F2. revert es2 F2. induction F1 as [|e e1 es es1 He F1 IHf]; intros es2 F2; inversion F2 as [|? e2 ? es2' H12 F2']; subst; constructor; [|now apply IHf].
    destruct He as [(d & -> & L & ->)|[N ->]]; destruct H12 as [(j & d' & Hj & E & L' & ->)|[N' ->]].
    + injection E as <-. cbn [it_label it_comment it_descr it_tab] in *. left. exists j, d. split; [now right|]. split; [reflexivity|]. split; [exact L'|reflexivity].
    + left. exists i, d. split; [now left|]. split; [reflexivity|]. split; [exact L|reflexivity].
    + left. exists j, d'. split; [now right|]. split; [exact E|]. split; [exact L'|reflexivity].
    + right. split; [|reflexivity]. intros j [<-|Hj]; [exact N|now apply N'].
Qed.

(** One entry *)
Definition strip_e (e : ent) (p : str * str) : ent := if is_label (fst p) e then put_label (snd p) e else e.
Lemma index_split k es i : index_of (V := V) k es = Some i -> exists a e b, es = a ++ e :: b /\ List.length a = i /\ is_label k e = true /\ Forall (fun x => is_label k x = false) a.
Proof.
  revert i. induction es as [|x es IH]; intros i H; cbn [index_of] in H; [discriminate|]. destruct (is_label k x) eqn:E.
  - injection H as <-. exists [], x, es. split; [reflexivity|]. split; [reflexivity|]. split; [exact E|constructor].
  - destruct (index_of k es) as [j|]; [|discriminate]. injection H as <-. destruct (IH j eq_refl) as (a & e & b & -> & L & M & F). exists (x :: a), e, b. split; [reflexivity|]. split; [cbn; lia|]. split; [exact M|]. constructor; assumption.
Qed.
Lemma index_none k es : index_of (V := V) k es = None -> Forall (fun x => is_label k x = false) es.
Proof. induction es as [|x es IH]; intro H; constructor; cbn [index_of] in H; destruct (is_label k x); try discriminate; [reflexivity|]. apply IH. destruct (index_of k es); [discriminate|reflexivity]. Qed.
Lemma update_mid {A} (f : A -> A) a x b : update (List.length a) f (a ++ x :: b) = a ++ f x :: b.
Proof. induction a as [|y a IH]; cbn [app List.length update]; [reflexivity|]. now rewrite IH. Qed.
Lemma map_keep (p : str * str) (l : list ent) : Forall (fun x => is_label (fst p) x = false) l -> map (fun e => strip_e e p) l = l.
Proof. induction 1 as [|x l Hx _ IH]; [reflexivity|]. cbn [map]. unfold strip_e at 1. now rewrite Hx, IH. Qed.
Lemma strip1_map es p : at_most_once es (fst p) -> strip1 es p = map (fun e => strip_e e p) es.
Proof.
  intro H. unfold strip1. destruct (index_of (fst p) es) as [i|] eqn:E.
  - destruct (index_split _ _ _ E) as (a & e & b & -> & <- & M & F). destruct (H a e b eq_refl) as [Ha Fb]; [now apply is_label_iff|]. destruct a as [|x a]; [contradiction|]. change (S (List.length a)) with (List.length (x :: a)). cbn [List.length] in *.
    change (S (List.length a)) with (List.length (x :: a)). rewrite update_mid, map_app, map_keep by exact F. cbn [map]. unfold strip_e at 1. rewrite M. f_equal. f_equal.
    symmetry. apply map_keep. apply Forall_app in Fb. destruct Fb as [_ Fb]. eapply Forall_impl; [|exact Fb]. intros y Hy. now apply is_label_not.
  - symmetry. apply map_keep. now apply index_none.
Qed.
Definition inert (l : str) (ts : list (str * str)) : Prop := forall p, In p ts -> ~ low_is l (fst p).
Lemma label_put l (e : ent) : label_of (put_label l e) = l \/ put_label l e = e.
Proof. destruct e; [left|left|right|right]; reflexivity. Qed.
Lemma once_map es p ts k : inert (snd p) ((k, k) :: ts) -> at_most_once es k -> at_most_once (map (fun e => strip_e e p) es) k.
Proof.
  intros In_ H a e' b E L. apply map_eq_app in E. destruct E as (a0 & r & -> & <- & Er). destruct r as [|e b0]; [discriminate|]. cbn [map] in Er. injection Er as Ee <-.
  assert (Keep : forall x, low_is (label_of (strip_e x p)) k -> strip_e x p = x).
  { intros x Lx. unfold strip_e in *. destruct (is_label (fst p) x); [|reflexivity]. destruct (label_put (snd p) x) as [Q|Q]; [|exact Q]. rewrite Q in Lx. exfalso. apply (In_ (k, k) (or_introl eq_refl)). exact Lx. }
  subst e'. rewrite (Keep e L) in L. destruct (H a0 e b0 eq_refl L) as [Ha F]. split; [destruct a0; [contradiction|discriminate]|]. rewrite <- map_app. apply Forall_forall. intros y Hy. apply in_map_iff in Hy. destruct Hy as (x & <- & Hx) .
  intro Ly. rewrite (Keep x Ly) in Ly. rewrite Forall_forall in F. now apply (F x Hx).
Qed.
Lemma strip_fold ts : forall es, (forall p, In p ts -> at_most_once es (fst p)) -> (forall p, In p ts -> inert (snd p) ts) ->
  fold_left strip1 ts es = map (fun e => fold_left strip_e ts e) es.
Proof.
  induction ts as [|p ts IH]; intros es H I; [symmetry; apply map_id|]. cbn [fold_left]. rewrite strip1_map by (apply H; now left). rewrite IH.
  - rewrite map_map. reflexivity.
  - intros q Hq. apply (once_map es p ts (fst q)).
    + intros r [<-|Hr]; cbn [fst]; apply (I p (or_introl eq_refl)); now right.
    + apply H. now right.
  - intros q Hq r Hr. apply (I q (or_intror Hq)). now right.
Qed.
Lemma strip_inert ts (e : ent) : inert (label_of e) ts -> fold_left strip_e ts e = e.
Proof.
  revert e. induction ts as [|p ts IH]; intros e H; [reflexivity|]. cbn [fold_left]. unfold strip_e at 2. assert (N : is_label (fst p) e = false) by (apply is_label_not; apply H; now left). rewrite N. apply IH. intros q Hq. apply H. now right.
Qed.
Lemma strip_one ts (e : ent) : (forall p, In p ts -> inert (snd p) ts) -> (forall p, In p ts -> low_is (label_of e) (fst p) -> named (snd p) e (put_label (snd p) e)) ->
  (exists p, In p ts /\ low_is (label_of e) (fst p) /\ fold_left strip_e ts e = put_label (snd p) e) \/ (inert (label_of e) ts /\ fold_left strip_e ts e = e).
Proof.
  intros I Nm. assert (G : forall us, incl us ts -> (exists p, In p us /\ low_is (label_of e) (fst p) /\ fold_left strip_e us e = put_label (snd p) e) \/ (inert (label_of e) us /\ fold_left strip_e us e = e)).
  { induction us as [|p us IH]; intro Hi; [right; split; [intros p []|reflexivity]|]. cbn [fold_left]. unfold strip_e at 2 4. destruct (is_label (fst p) e) eqn:E.
    - left. exists p. split; [now left|]. apply is_label_iff in E. split; [exact E|]. apply strip_inert. assert (Hp : In p ts) by (apply Hi; now left). specialize (Nm p Hp E).
      assert (Lb : label_of (put_label (snd p) e) = snd p) by (destruct e; try contradiction; reflexivity). rewrite Lb. intros q Hq. apply (I p Hp). apply Hi. now right.
    - destruct (IH (fun x Hx => Hi x (or_intror Hx))) as [(q & Hq & L & Eq)|[Hn Eq]]; [left; exists q; split; [now right|]; split; assumption|]. right. split; [|exact Eq]. intros q [<-|Hq]; [now apply is_label_not|now apply Hn]. }
  apply G. apply incl_refl.
Qed.
Lemma targets_iff n t l : In (t, l) (targets n) <-> exists lab i, In lab polar_labels /\ 1 <= i <= n /\ t = numbered lab i /\ l = S_ lab.
Proof.
  unfold targets. change LABS with polar_labels. rewrite in_flat_map. split.
  - intros (i & Hi & H). apply in_map_iff in H. destruct H as (lab & E & Hl). injection E as <- <-. apply in_seq in Hi. exists lab, i. split; [exact Hl|]. split; [lia|]. split; reflexivity.
  - intros (lab & i & Hl & Hi & -> & ->). exists i. split; [apply in_seq; lia|]. apply in_map_iff. exists lab. split; [reflexivity|exact Hl].
Qed.
Lemma labels_stripped n es : (forall lab i, In lab polar_labels -> 1 <= i <= n -> at_most_once es (numbered lab i)) ->
  Forall2 (unnumbered n) es (strip_labels n es) /\ restore (map label_of es) (strip_labels n es) = es.
Proof.
  intro H. assert (I : forall p, In p (targets n) -> inert (snd p) (targets n)).
  { intros [t l] Hp [u v] Hq. apply targets_iff in Hp, Hq. destruct Hp as (lab & i & Hl & _ & -> & ->), Hq as (lab' & j & _ & _ & -> & _). cbn [fst snd]. apply not_numbered. now apply label_plain. }
  assert (Nm : forall (e : ent) p, In p (targets n) -> low_is (label_of e) (fst p) -> named (snd p) e (put_label (snd p) e)).
  { intros e [t l] Hp L. apply targets_iff in Hp. destruct Hp as (lab & i & _ & _ & -> & ->). cbn [fst snd] in *. destruct e; try reflexivity; exfalso; revert L; apply not_numbered; vm_compute; reflexivity. }
  unfold strip_labels. rewrite strip_fold; [|intros [t l] Hp; apply targets_iff in Hp; destruct Hp as (lab & i & Hl & Hi & -> & ->); now apply H|exact I].
  assert (One : forall e : ent, unnumbered n e (fold_left strip_e (targets n) e) /\ put_label (label_of e) (fold_left strip_e (targets n) e) = e).
  { intro e. destruct (strip_one (targets n) e I (Nm e)) as [([t l] & Hp & L & ->)|[Hn ->]].
    - pose proof (Nm e _ Hp L) as Hm. apply targets_iff in Hp. destruct Hp as (lab & i & Hl & Hi & -> & ->). cbn [fst snd] in *. split; [left; exists lab, i; auto|]. destruct e as [d| | |]; try contradiction; [destruct d|]; reflexivity.
    - split; [right; split; [|reflexivity]; intros lab i Hl Hi; apply (Hn (numbered lab i, S_ lab)); apply targets_iff; exists lab, i; auto|]. destruct e as [d| | |]; [destruct d| | |]; reflexivity. }
  split.
  - clear - One. induction es as [|e es IH]; cbn [map]; constructor; [apply One|exact IH].
  - clear - One. induction es as [|e es IH]; cbn [map restore]; [reflexivity|]. destruct (One e) as [_ ->]. now rewrite IH.
Qed.
(** The file has the labels of the format and the number of lines of every table; the object keeps its numbered labels.
    When the file cannot be opened the object has lost them *)
Theorem C111_polars : forall es n rows cols, ~ has_key es "NumBlNds" -> ~ has_key es "NBlInpSt" -> has_key es "NumCoords" -> has_key es "InterpOrd" ->
  tabs_are es n -> n <> 1 -> (forall i, 1 <= i <= n -> table_is es (numbered "AFCoeff" i) (rows i) (cols i) /\ only_lines es (numbered "NumAlf" i)) ->
  (forall lab i, In lab polar_labels -> 1 <= i <= n -> at_most_once es (numbered lab i)) ->
  exists es1 es2, Forall2 (counts (seq 1 n) rows) es es1 /\ Forall2 (unnumbered n) es1 es2 /\ writes_as es es1 es2.
Proof.
  intros es n rows cols N1 N2 H1 H2 Ht Hn T O. destruct (tabs_checked (seq 1 n) rows cols es) as (es1 & E1 & F1).
  { intros i Hi. apply in_seq in Hi. destruct (T i) as [Ti Oi]; [lia|]. split; [now apply table_shape|exact Oi]. }
  assert (Lb : map label_of es = map label_of es1).
  { clear - F1. induction F1 as [|e e1 es es1 He _ IH]; [reflexivity|]. cbn [map]. rewrite IH. destruct He as [(i & d & _ & -> & _ & ->)|[_ ->]]; reflexivity. }
  assert (O1 : forall lab i, In lab polar_labels -> 1 <= i <= n -> at_most_once es1 (numbered lab i)).
  { intros lab i Hl Hi a e b -> L. specialize (O lab i Hl Hi). rewrite map_app in Lb. cbn [map] in Lb. apply map_eq_app in Lb. destruct Lb as (a0 & r & -> & Ea & Er). destruct r as [|e0 b0]; [discriminate|]. cbn [map] in Er. injection Er as Ee Eb.
    destruct (O a0 e0 b0 eq_refl) as [Ha F]; [now rewrite Ee|]. split; [destruct a, a0; try discriminate; contradiction|].
    rewrite Forall_forall in *. intros x Hx Lx. apply (in_map label_of) in Hx. rewrite map_app, <- Ea, <- Eb, <- map_app in Hx. apply in_map_iff in Hx. destruct Hx as (y & Ey & Hy). apply (F y Hy). now rewrite Ey. }
  destruct (labels_stripped n es1 O1) as [F2 Rs]. exists es1, (strip_labels n es1). split; [exact F1|]. split; [exact F2|].
  assert (K : fixed_format es = ADPolar) by now apply C111_class. unfold writes_as, write_fixed. rewrite K. unfold write_polar, check_polar. rewrite (tabs_found _ _ Ht). replace (Z.of_nat n =? 1)%Z with false by (symmetry; apply Z.eqb_neq; lia). rewrite Nat2Z.id, E1.
  unfold put_file. rewrite Rs. split; [intros text ->; reflexivity|reflexivity].
Qed.
End Spec.

(** *** What does not hold *)
Local Notation zput := (write_fixed zfmt zfmt zfmt zfmt zfmt).
Definition line_ (v : val) (l : string) : FASTFile_Model.entry Z := Item (mkItem v (S_ l) false (S_ "- text") NOT_A_TAB).
Definition head_ : FASTFile_Model.entry Z := Item (mkItem (VStr (S_ "Title")) [] true [] NOT_A_TAB).
(** Names are not case sensitive anywhere else, but a blade whose count has another case is an ordinary file: its count is not updated *)
Theorem C111_other_case_refuted : exists es t, first_is es (S_ "NumBlNds") (line_ (VInt 5) "numblnds") /\ table_is es (S_ "BldAeroNodes") 2 4 /\
  zput true es = Some (mk_written es (Some t) (Ok tt)).
Proof.
  exists [head_; line_ (VInt 5) "numblnds"; Tab (S_ "BldAeroNodes") (S_ "") NumHeader (N_ "NumBlNds") (Nums [[0; 12; 0; 0]; [12; 0; 0; 0]]%Z) (Some (map S_ ["BlSpn"; "BlCrvAC"; "BlSwpAC"; "BlCrvAng"]%string)) None].
  eexists. split; [|split].
  - eexists [head_], _. split; [reflexivity|]. split; [vm_compute; reflexivity|]. repeat constructor. vm_compute. discriminate.
  - do 7 eexists. split; [eexists [_; _], []; split; [reflexivity|]; split; [vm_compute; reflexivity|]; constructor; [vm_compute; discriminate|]; constructor; [vm_compute; discriminate|constructor]|]. split; [reflexivity|]. split; [repeat constructor|reflexivity].
  - vm_compute. reflexivity.
Qed.
(** A file of two polars: what is read, what is written, and what is read again *)
Definition zpols (more1 more2 : list string) : str := T_ (["Airfoil"; "DEFAULT InterpOrd - order"; "0 NumCoords - coords"; "2 NumTabs - tables"; "5 Re - Reynolds"] ++ more1 ++ ["2 NumAlf - number"; "! Alpha Cl"; "! (deg) (-)"; "0 12"; "12 0"; "7 Re - Reynolds"] ++ more2 ++ ["1 NumAlf - number"; "! Alpha Cl"; "! (deg) (-)"; "0 0"])%list%string.
(** A label that the format does not list, here alphaUpper, is written with its number, and gets one more at every reading *)
Theorem C111_unlisted_label_refuted : exists es t es', zread (zpols ["3 alphaUpper - angle"] ["4 alphaUpper - angle"])%string = Some (Ok es) /\
  zput true es = Some (mk_written es (Some t) (Ok tt)) /\ zread t = Some (Ok es') /\
  map label_of es = map S_ [""; "InterpOrd"; "NumCoords"; "NumTabs"; "re_1"; "alphaUpper_1"; "NumAlf_1"; "AFCoeff_1"; "re_2"; "alphaUpper_2"; "NumAlf_2"; "AFCoeff_2"]%string /\
  map label_of es' = map S_ [""; "InterpOrd"; "NumCoords"; "NumTabs"; "re_1"; "alphaUpper_1_1"; "NumAlf_1"; "AFCoeff_1"; "re_2"; "alphaUpper_2_2"; "NumAlf_2"; "AFCoeff_2"]%string.
Proof.
  eexists _, _, _. split; [vm_compute; reflexivity|]. split; [vm_compute; reflexivity|]. split; [vm_compute; reflexivity|]. split; reflexivity.
Qed.
(** With the labels of the format the file is read back as it was *)
Example C111_nonvacuous : exists es t, zread (zpols ["3 alpha0 - angle"] ["4 alpha0 - angle"])%string = Some (Ok es) /\ zput true es = Some (mk_written es (Some t) (Ok tt)) /\ zread t = Some (Ok es) /\
  map label_of es = map S_ [""; "InterpOrd"; "NumCoords"; "NumTabs"; "re_1"; "alpha0_1"; "NumAlf_1"; "AFCoeff_1"; "re_2"; "alpha0_2"; "NumAlf_2"; "AFCoeff_2"]%string.
Proof. eexists _, _. split; [vm_compute; reflexivity|]. split; [vm_compute; reflexivity|]. split; [vm_compute; reflexivity|]. reflexivity. Qed.
(** When the file cannot be opened, the object has lost the numbers of its labels: the second table can no longer be reached *)
Theorem C111_labels_lost_refuted : exists es es', zread (zpols [] []) = Some (Ok es) /\ zput false es = Some (mk_written es' None (Err OSError2)) /\
  map label_of es = map S_ [""; "InterpOrd"; "NumCoords"; "NumTabs"; "re_1"; "NumAlf_1"; "AFCoeff_1"; "re_2"; "NumAlf_2"; "AFCoeff_2"]%string /\
  map label_of es' = map S_ [""; "InterpOrd"; "NumCoords"; "NumTabs"; "Re"; "NumAlf"; "AFCoeff"; "Re"; "NumAlf"; "AFCoeff"]%string /\
  zput true es' = Some (mk_written es' None (Err KeyError)).
Proof. eexists _, _. split; [vm_compute; reflexivity|]. split; [vm_compute; reflexivity|]. split; [reflexivity|]. split; [reflexivity|]. vm_compute. reflexivity. Qed.
(** A case that meets the hypotheses of [C111_polars] *)
Definition ztab (i : nat) (rows : list (list Z)) : FASTFile_Model.entry Z := Tab (numbered "AFCoeff" i) (S_ "") NumHeader (N_ "NumAlf") (Nums rows) (Some (map S_ ["Alpha"; "Cl"]%string)) None.
Definition zdata : list (FASTFile_Model.entry Z) := [head_; line_ (VInt 3) "InterpOrd"; line_ (VInt 0) "NumCoords"; line_ (VInt 2) "NumTabs"; line_ (VInt 9) "NumAlf_1"; ztab 1 [[0; 12]; [12; 0]]%Z; line_ (VInt 9) "NumAlf_2"; ztab 2 [[0; 12]]%Z].
Lemma once_bool (es : list (FASTFile_Model.entry Z)) k : match es with [] => True | e :: es' => is_label k e = false /\ (List.length (filter (is_label k) es') <= 1) end -> at_most_once es k.
Proof.
  intros H a e b -> L. apply is_label_iff in L. destruct a as [|x a]; cbn [app] in H; destruct H as [H1 H2]; [congruence|]. split; [discriminate|].
  rewrite filter_app in H2. cbn [filter] in H2. rewrite L, app_length in H2. cbn [List.length] in H2.
  assert (G : forall l : list (FASTFile_Model.entry Z), List.length (filter (is_label k) l) = 0 -> Forall (fun x => ~ low_is (label_of x) k) l).
  { intros l Hl. apply Forall_forall. intros y Hy Ly. apply is_label_iff in Ly. assert (I : In y (filter (is_label k) l)) by (apply filter_In; now split). destruct (filter (is_label k) l); [destruct I|discriminate]. }
  cbn [app]. constructor; [now apply is_label_not|]. apply Forall_app. split; apply G; lia.
Qed.
Example C111_polars_nonvacuous : ~ has_key zdata "NumBlNds" /\ ~ has_key zdata "NBlInpSt" /\ has_key zdata "NumCoords" /\ has_key zdata "InterpOrd" /\ tabs_are zdata 2 /\
  (forall i, 1 <= i <= 2 -> table_is zdata (numbered "AFCoeff" i) (3 - i) 2 /\ only_lines zdata (numbered "NumAlf" i)) /\
  (forall lab i, In lab polar_labels -> 1 <= i <= 2 -> at_most_once zdata (numbered lab i)).
Proof.
  split; [apply has_key_not; vm_compute; reflexivity|]. split; [apply has_key_not; vm_compute; reflexivity|]. split; [apply has_key_iff; vm_compute; reflexivity|]. split; [apply has_key_iff; vm_compute; reflexivity|].
  split; [exists (mkItem (VInt 2) (S_ "NumTabs") false (S_ "- text") NOT_A_TAB); split; [apply find_first; vm_compute; reflexivity|reflexivity]|]. split.
  - intros i Hi. assert (C : i = 1 \/ i = 2) by lia. destruct C as [-> | ->]; (split; [do 7 eexists; split; [apply find_first; vm_compute; reflexivity|]; split; [reflexivity|]; split; [repeat constructor|reflexivity]|]);
      intros e He L; apply is_label_iff in L; cbn [In zdata] in He; repeat (destruct He as [<-|He]; [first [eexists; reflexivity | vm_compute in L; discriminate L]|]); destruct He.
  - assert (F : forallb (fun lab => forallb (fun i => negb (is_label (numbered lab i) head_) && (List.length (filter (is_label (numbered lab i)) (tl zdata)) <=? 1)) [1; 2]) polar_labels = true) by (vm_compute; reflexivity).
    intros lab i Hl Hi. rewrite forallb_forall in F. specialize (F lab Hl). rewrite forallb_forall in F. specialize (F i). assert (I : In i [1; 2]) by (cbn [In]; lia). specialize (F I). apply andb_inv in F. destruct F as [F1 F2]. apply once_bool. cbn [zdata]. split; [now apply negb_true_iff|now apply Nat.leb_le].
Qed.

(** ** C112: mode shapes in the data frames *)
From Coq Require Import QArith.
Local Open Scope Q_scope.
Section Shapes.
Variable value : val -> option Q.
Local Notation qent := (FASTFile_Model.entry Q).
Definition number_at (es : list qent) (k : str) (q : Q) : Prop := exists d, first_is es k (Item d) /\ value (it_value d) = Some q.
(** The five coefficients of a mode *)
Definition coefficients (es : list qent) (s : string) (c : nat -> Q) : Prop := forall k, (2 <= k <= 6)%nat -> number_at es (S_ s ++ S_ "(" ++ str_of_N (N.of_nat k) ++ S_ ")") (c k).
Definition polynomial (c : nat -> Q) (x : Q) : Q := x * x * (c 2%nat + x * (c 3%nat + x * (c 4%nat + x * (c 5%nat + x * c 6%nat)))).
(** The first coefficient of the tower is somewhere after the first entry *)
Definition is_tower (es : list qent) : Prop := exists a e b, a <> [] /\ es = a ++ e :: b /\ low_is (label_of e) (S_ "TwFAM1Sh(2)") /\ Forall (fun x => ~ low_is (label_of x) (S_ "TwFAM1Sh(2)")) a.
(** A row with the values of the modes after it *)
Definition extended (modes : list (nat -> Q)) (x : Q) (r r' : list Q) : Prop := exists vs, r' = r ++ vs /\ Forall2 (fun c v => v == polynomial c x) modes vs.

Lemma get_ok es k q : number_at es k q -> get_number value es k = Ok q.
Proof. intros (d & F & E). unfold get_number. now rewrite (first_find _ _ _ F), E. Qed.
Lemma mode_ok es s c : coefficients es s c -> exists f, mode value es s = Ok f /\ forall x, f x == polynomial c x.
Proof.
  intro H. unfold mode, coeff. rewrite (get_ok _ _ _ (H 2%nat ltac:(lia))), (get_ok _ _ _ (H 3%nat ltac:(lia))), (get_ok _ _ _ (H 4%nat ltac:(lia))), (get_ok _ _ _ (H 5%nat ltac:(lia))), (get_ok _ _ _ (H 6%nat ltac:(lia))). cbn [bind].
  eexists. split; [reflexivity|]. intro x. unfold polynomial. ring.
Qed.
Lemma modes_ok es ss cs : Forall2 (coefficients es) ss cs -> exists fs, modes value es ss = Ok fs /\ Forall2 (fun c f => forall x, f x == polynomial c x) cs fs.
Proof.
  induction 1 as [|s c ss cs H _ IH]; [exists []; split; [reflexivity|constructor]|]. destruct (mode_ok _ _ _ H) as (f & Ef & Hf). destruct IH as (fs & Es & Hs). exists (f :: fs). split; [|constructor; assumption].
  unfold modes in *. cbn [mapM]. rewrite Ef. cbn [bind]. now rewrite Es.
Qed.
Lemma extend_ok cs fs x r : Forall2 (fun c f => forall x, f x == polynomial c x) cs fs -> extended cs x r (add_modes fs x r).
Proof. intro H. exists (map (fun f => f x) fs). split; [reflexivity|]. induction H as [|c f cs fs Hf _ IH]; cbn [map]; constructor; [apply Hf|exact IH]. Qed.
Lemma first_cells rows : Forall (fun r : list Q => r <> []) rows -> exists xs, mapM first_cell rows = Ok xs /\ Forall2 (fun r x => exists r', r = x :: r') rows xs.
Proof.
  induction 1 as [|r rows Hr _ (xs & E & F)]; [exists []; split; [reflexivity|constructor]|]. destruct r as [|x r]; [contradiction|]. exists (x :: xs). split; [|constructor; [eexists; reflexivity|exact F]]. cbn [mapM first_cell bind]. now rewrite E.
Qed.
Lemma cells_at i rows : Forall (fun r : list Q => (i < List.length r)%nat) rows -> exists xs, mapM (cell_at i) rows = Ok xs /\ Forall2 (fun r x => nth_error r i = Some x) rows xs.
Proof.
  induction 1 as [|r rows Hr _ (xs & E & F)]; [exists []; split; [reflexivity|constructor]|]. destruct (nth_error r i) as [x|] eqn:En; [|apply nth_error_None in En; lia]. exists (x :: xs). split; [|constructor; assumption]. cbn [mapM]. unfold cell_at at 1. rewrite En. cbn [bind]. now rewrite E.
Qed.
Lemma rows_ok {R : list Q -> Q -> Prop} cs fs rows xs : Forall2 R rows xs -> Forall2 (fun c f => forall x, f x == polynomial c x) cs fs ->
  Forall2 (fun r r' => exists x, R r x /\ extended cs x r r') rows (map (fun p => add_modes fs (fst p) (snd p)) (combine xs rows)).
Proof. intros H F. induction H as [|r x rows xs Hr _ IH]; cbn [combine map]; constructor; [|exact IH]. exists x. split; [exact Hr|]. cbn [fst snd]. now apply extend_ok. Qed.
Lemma after_iff0 es k : after_first k es = true <-> exists a e, a <> [] /\ exists b, es = a ++ e :: b /\ low_is (label_of e) k /\ Forall (fun x => ~ low_is (label_of x) k) a.
Proof.
  unfold after_first. split.
  - destruct (index_of k es) as [[|i]|] eqn:E; try discriminate. intros _. destruct (index_split _ _ _ E) as (a & e & b & -> & La & M & F). exists a, e. split; [destruct a; discriminate|]. exists b. split; [reflexivity|]. split; [now apply is_label_iff|]. eapply Forall_impl; [|exact F]. intros x. apply is_label_not.
  - intros (a & e & Ha & b & -> & L & F). assert (E : index_of k (a ++ e :: b) = Some (List.length a)).
    { clear Ha. induction F as [|x a Hx _ IH]; cbn [app index_of List.length]; [apply is_label_iff in L; now rewrite L|]. apply is_label_not in Hx. rewrite Hx, IH. reflexivity. }
    rewrite E. destruct a; [contradiction|reflexivity].
Qed.
Lemma after_iff es : after_first (S_ "TwFAM1Sh(2)") es = true <-> is_tower es.
Proof. rewrite after_iff0. unfold is_tower. split; [intros (a & e & Ha & b & H); exists a, e, b; auto|intros (a & e & b & Ha & H); exists a, e; split; [exact Ha|]; exists b; exact H]. Qed.
Lemma width_ok {A} (n : nat) (names : list A) cs fs rows xs : (List.length names = n)%nat -> rect n rows -> Forall2 (fun c f => forall x : Q, f x == polynomial c x) cs fs -> List.length xs = List.length rows -> List.length cs = 4%nat ->
  match map (fun p => add_modes fs (fst p) (snd p)) (combine xs rows) with r :: _ => List.length r | [] => (List.length names + 4)%nat end = (n + 4)%nat.
Proof.
  intros Hn R F L C. destruct rows as [|r rows]; destruct xs as [|x xs]; try discriminate; cbn [combine map]; [lia|]. unfold add_modes. cbn [fst snd]. rewrite app_length, map_length. inversion R; subst. apply Forall2_len in F. lia.
Qed.

(** *** Towers: fore-aft and side-side modes of the first column *)
Theorem C112_tower : forall es names units rows fa1 fa2 ss1 ss2 n, (1 <= n)%nat -> rect n rows -> List.length names = n -> match units with None => True | Some us => (n <= List.length us)%nat end ->
  is_tower es ->
  coefficients es "TwFAM1Sh" fa1 -> coefficients es "TwFAM2Sh" fa2 -> coefficients es "TwSSM1Sh" ss1 -> coefficients es "TwSSM2Sh" ss2 ->
  exists rows', base_frame value es names units rows = Ok (table_columns names units ++ map S_ ["ShapeForeAft1_[-]"; "ShapeForeAft2_[-]"; "ShapeSideSide1_[-]"; "ShapeSideSide2_[-]"]%string, rows') /\
    Forall2 (fun r r' => exists x rest, r = x :: rest /\ extended [fa1; fa2; ss1; ss2] x r r') rows rows'.
Proof.
  intros es names units rows fa1 fa2 ss1 ss2 n Hn R Ln Hu Tw C1 C2 C3 C4. unfold base_frame. rewrite (proj2 (after_iff es) Tw).
  destruct (first_cells rows) as (xs & Ex & Fx). { eapply Forall_impl; [|exact R]. intros r Hr ->. cbn in Hr. lia. }
  destruct (modes_ok es TOWER [fa1; fa2; ss1; ss2]) as (fs & Ef & Ff). { unfold TOWER. repeat (constructor; [assumption|]). constructor. }
  rewrite Ex. cbn [bind]. rewrite Ef. cbn [bind]. pose proof (Forall2_len _ _ _ Fx) as Lx. rewrite (width_ok n names [fa1; fa2; ss1; ss2] fs rows xs Ln R Ff (eq_sym Lx) eq_refl).
  assert (Lc : List.length (table_columns names units ++ TOWER_COLS) = (n + 4)%nat). { rewrite app_length. change (List.length TOWER_COLS) with 4%nat. f_equal. destruct units as [us|]; cbn [table_columns]; [rewrite map_length, combine_length; lia|exact Ln]. }
  rewrite Lc, Nat.eqb_refl. eexists. split; [reflexivity|]. pose proof (rows_ok _ _ _ _ Fx Ff) as G. revert G. clear. induction 1 as [|r r' l l' (x & (rest & Hr) & Hx) _ IH]; constructor; [exists x, rest; auto|exact IH].
Qed.
(** *** Blades: two flap modes and one edge mode, of the column of the span fraction *)
Theorem C112_blade : forall es names units rows fl1 fl2 ed a b n, rect n rows -> List.length names = n ->
  ~ is_tower es ->
  table_columns names units = a ++ S_ "BlFract_[-]" :: b -> ~ In (S_ "BlFract_[-]") (a ++ b) -> List.length (table_columns names units) = n ->
  coefficients es "BldFl1Sh" fl1 -> coefficients es "BldFl2Sh" fl2 -> coefficients es "BldEdgSh" ed ->
  exists rows', blade_frame value es names units rows = Ok (table_columns names units ++ map S_ ["ShapeFlap1_[-]"; "ShapeFlap2_[-]"; "ShapeEdge1_[-]"]%string, rows') /\
    Forall2 (fun r r' => exists x, nth_error r (List.length a) = Some x /\ extended [fl1; fl2; ed] x r r') rows rows'.
Proof.
  intros es names units rows fl1 fl2 ed a b n R Ln Hi Hc Nc Lc C1 C2 C3. unfold blade_frame, base_frame.
  assert (A : after_first (S_ "TwFAM1Sh(2)") es = false) by (apply not_true_iff_false; rewrite after_iff; exact Hi). rewrite A. unfold frame.
  assert (W : width names rows = n) by (unfold width; destruct rows; [exact Ln|now inversion R]). rewrite W, Lc, Nat.eqb_refl. cbn [bind].
  assert (P : position (S_ "BlFract_[-]") (table_columns names units) = Some (List.length a)).
  { rewrite Hc. assert (Na : ~ In (S_ "BlFract_[-]") a) by (intro Hx; apply Nc; apply in_or_app; now left). clear - Na. unfold position.
    assert (G : forall (l : list str) j, ~ In (S_ "BlFract_[-]") l -> (fix go (l : list str) (i : nat) {struct l} : option nat := match l with [] => None | x :: l' => if str_eqb x (S_ "BlFract_[-]") then Some i else go l' (S i) end) (l ++ S_ "BlFract_[-]" :: b) j = Some (List.length l + j)%nat).
    { induction l as [|x l IH]; intros j Hl; cbn [app List.length]; [rewrite (proj2 (str_eqb_eq _ _) eq_refl); reflexivity|]. destruct (str_eqb x (S_ "BlFract_[-]")) eqn:E; [apply str_eqb_eq in E; exfalso; apply Hl; now left|]. rewrite IH; [f_equal; lia|]. intro Hx. apply Hl. now right. }
    rewrite G by exact Na. f_equal. lia. }
  rewrite P. destruct (cells_at (List.length a) rows) as (xs & Ex & Fx). { eapply Forall_impl; [|exact R]. intros r Hr. rewrite Hr, <- Lc, Hc, app_length. cbn. lia. }
  destruct (modes_ok es ED_SHAPES [fl1; fl2; ed]) as (fs & Ef & Ff). { unfold ED_SHAPES. repeat (constructor; [assumption|]). constructor. }
  rewrite Ex. cbn [bind]. rewrite Ef. cbn [bind]. eexists. split; [reflexivity|]. exact (rows_ok _ _ _ _ Fx Ff).
Qed.
(** The span fraction has to be called BlFract with the unit in parentheses *)
Theorem C112_blade_column_refuted : forall es names units rows n, rect n rows -> List.length names = n -> List.length (table_columns names units) = n ->
  ~ is_tower es -> ~ In (S_ "BlFract_[-]") (table_columns names units) ->
  blade_frame value es names units rows = Err KeyError.
Proof.
  intros es names units rows n R Ln Lc Hi Nc. unfold blade_frame, base_frame.
  assert (A : after_first (S_ "TwFAM1Sh(2)") es = false) by (apply not_true_iff_false; rewrite after_iff; exact Hi). rewrite A. unfold frame.
  assert (W : width names rows = n) by (unfold width; destruct rows; [exact Ln|now inversion R]). rewrite W, Lc, Nat.eqb_refl. cbn [bind].
  assert (P : position (S_ "BlFract_[-]") (table_columns names units) = None); [|now rewrite P].
  unfold position. generalize 0%nat. revert Nc. generalize (table_columns names units). clear. induction l as [|x l IH]; intros H j; [reflexivity|]. destruct (str_eqb x (S_ "BlFract_[-]")) eqn:E; [apply str_eqb_eq in E; exfalso; apply H; now left|]. apply IH. intro Hx. apply H. now right.
Qed.
(** A file with the first tower coefficient but without one of the others has no table at all: the frame is a KeyError *)
Theorem C112_tower_missing : forall es names units rows s k, Forall (fun r => r <> []) rows -> In s ["TwFAM1Sh"; "TwFAM2Sh"; "TwSSM1Sh"; "TwSSM2Sh"]%string -> (2 <= k <= 6)%nat ->
  is_tower es -> (forall e, In e es -> ~ low_is (label_of e) (S_ s ++ S_ "(" ++ str_of_N (N.of_nat k) ++ S_ ")")) ->
  (forall s' k' e, In s' ["TwFAM1Sh"; "TwFAM2Sh"; "TwSSM1Sh"; "TwSSM2Sh"]%string -> (2 <= k' <= 6)%nat -> In e es -> low_is (label_of e) (S_ s' ++ S_ "(" ++ str_of_N (N.of_nat k') ++ S_ ")") -> exists d q, e = Item d /\ value (it_value d) = Some q) ->
  base_frame value es names units rows = Err KeyError.
Proof.
  intros es names units rows s k Hr Hs Hk A N All. unfold base_frame. rewrite (proj2 (after_iff es) A). destruct (first_cells rows Hr) as (xs & Ex & _). rewrite Ex. cbn [bind].
  assert (G : forall s' k', In s' TOWER -> (2 <= k' <= 6)%nat -> (exists q, get_number value es (coeff s' k') = Ok q) \/ get_number value es (coeff s' k') = Err KeyError).
  { intros s' k' Hs' Hk'. unfold get_number. destruct (find_entry es (coeff s' k')) as [e|] eqn:E; [|now right]. left. apply find_first in E. destruct E as (a & b & Ee & Le & _). destruct (All s' k' e Hs' Hk') as (d & q & -> & Q); [rewrite Ee; apply in_or_app; right; now left|exact Le|]. exists q. now rewrite Q. }
  assert (Miss : get_number value es (coeff s k) = Err KeyError) by (unfold get_number, coeff; rewrite none_find; [reflexivity|exact N]).
  assert (M : forall s', In s' TOWER -> (exists f, mode value es s' = Ok f) \/ mode value es s' = Err KeyError).
  { intros s' Hs'. unfold mode. repeat (match goal with |- context [get_number value es (coeff s' ?i)] => destruct (G s' i Hs' ltac:(lia)) as [[? ->] | ->]; cbn [bind]; [|now right] end). left. eexists. reflexivity. }
  assert (Ms : mode value es s = Err KeyError).
  { unfold mode. assert (C : (k = 2 \/ k = 3 \/ k = 4 \/ k = 5 \/ k = 6)%nat) by lia.
    destruct C as [-> |[-> |[-> |[-> | ->]]]]; repeat (first [rewrite Miss; reflexivity | match goal with |- context [get_number value es (coeff s ?i)] => destruct (G s i Hs ltac:(lia)) as [[? ->] | ->]; cbn [bind]; [|reflexivity] end]). }
  assert (L : forall l, incl l TOWER -> In s l -> modes value es l = Err KeyError).
  { induction l as [|x l IH]; intros Hi []; unfold modes in *; cbn [mapM].
    - subst x. now rewrite Ms.
    - destruct (M x (Hi x (or_introl eq_refl))) as [[f ->] | ->]; cbn [bind]; [|reflexivity]. rewrite IH; [reflexivity|intros y Hy; apply Hi; now right|assumption]. }
  rewrite L; [reflexivity|apply incl_refl|exact Hs].
Qed.
End Shapes.

(** A blade of two stations, and a tower *)
Definition qval (v : val) : option Q := match v with VInt z => Some (inject_Z z) | _ => None end.
Definition qline (s : string) (k : nat) : FASTFile_Model.entry Q := Item (mkItem (VInt (Z.of_nat k)) (S_ s ++ S_ "(" ++ str_of_N (N.of_nat k) ++ S_ ")") false [] NOT_A_TAB).
Definition qlines (ss : list string) : list (FASTFile_Model.entry Q) := Item (mkItem (VStr (S_ "Title")) [] true [] NOT_A_TAB) :: flat_map (fun s => map (qline s) [2; 3; 4; 5; 6]%nat) ss.
Definition qcoef (k : nat) : Q := inject_Z (Z.of_nat k).
Example C112_nonvacuous :
  (~ is_tower (qlines ED_SHAPES) /\ Forall (fun s => coefficients qval (qlines ED_SHAPES) s qcoef) ED_SHAPES) /\
  (is_tower (qlines TOWER) /\ Forall (fun s => coefficients qval (qlines TOWER) s qcoef) TOWER) /\
  match blade_frame qval (qlines ED_SHAPES) (map S_ ["BMassDen"; "BlFract"]%string) (Some (map S_ ["(kg)"; "(-)"]%string)) [[7; 0]; [8; 1]; [9; 2]] with
  | Ok (cols, rows) => cols = map S_ ["BMassDen_[kg]"; "BlFract_[-]"; "ShapeFlap1_[-]"; "ShapeFlap2_[-]"; "ShapeEdge1_[-]"]%string /\ Forall2 (Forall2 Qeq) rows [[7; 0; 0; 0; 0]; [8; 1; 20; 20; 20]; [9; 2; 640; 640; 640]]
  | _ => False end.
Proof.
  assert (N : forall es ss, (forall s k, In s ss -> (2 <= k <= 6)%nat -> get_number qval es (S_ s ++ S_ "(" ++ str_of_N (N.of_nat k) ++ S_ ")") = Ok (qcoef k)) -> Forall (fun s => coefficients qval es s qcoef) ss).
  { intros es ss H. apply Forall_forall. intros s Hs k Hk. specialize (H s k Hs Hk). unfold get_number in H. destruct (find_entry es _) as [[d| | |]|] eqn:E; try discriminate. exists d. split; [now apply find_first|]. destruct (qval (it_value d)); [|discriminate]. now injection H as ->. }
  assert (K : forall k, (2 <= k <= 6)%nat -> In k [2; 3; 4; 5; 6]%nat) by (intros k Hk; cbn [In]; lia).
  split; [split|split; [split|]].
  - rewrite <- after_iff. vm_compute. discriminate.
  - apply N. intros s k Hs Hk. apply K in Hk. cbn [In ED_SHAPES] in Hs, Hk. repeat (destruct Hs as [<-|Hs]; [repeat (destruct Hk as [<-|Hk]; [vm_compute; reflexivity|]); destruct Hk|]). destruct Hs.
  - apply after_iff. vm_compute. reflexivity.
  - apply N. intros s k Hs Hk. apply K in Hk. cbn [In TOWER] in Hs, Hk. repeat (destruct Hs as [<-|Hs]; [repeat (destruct Hk as [<-|Hk]; [vm_compute; reflexivity|]); destruct Hk|]). destruct Hs.
  - vm_compute. split; [reflexivity|]. repeat constructor.
Qed.
Print Assumptions C111_class.
Print Assumptions C111_elastodyn_blade.
Print Assumptions C111_aerodyn_blade_partial.
Print Assumptions C111_few_nodes_refuted.
Print Assumptions C111_missing.
Print Assumptions C111_polar.
Print Assumptions C111_polars.
Print Assumptions C111_other_case_refuted.
Print Assumptions C111_unlisted_label_refuted.
Print Assumptions C111_labels_lost_refuted.
Print Assumptions C112_tower.
Print Assumptions C112_blade.
Print Assumptions C112_blade_column_refuted.
Print Assumptions C112_tower_missing.
