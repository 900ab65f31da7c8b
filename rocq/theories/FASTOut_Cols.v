From Verif Require Import Py PyFacts ListFacts FS Bytes Float TurbSim_Model FASTOut_Model.
Local Open Scope nat_scope.

Lemma rfind_from_none ch s i b : ~ In ch s -> rfind_from ch s i b = b.
Proof.
  revert i b. induction s as [|x s IH]; intros i b H; [reflexivity|]. cbn.
  destruct (chr_eqb_spec x ch) as [->|Hn]; [exfalso; apply H; left; reflexivity|].
  apply IH. intro Hi. apply H. right. exact Hi.
Qed.
Lemma rfind_from_app ch a b i best : ~ In ch b -> rfind_from ch (a ++ ch :: b) i best = Some (i + List.length a).
Proof.
  intro H. revert i best. induction a as [|x a IH]; intros i best.
  - cbn. rewrite chr_eqb_refl, rfind_from_none by exact H. f_equal. lia.
  - cbn. rewrite IH. f_equal. lia.
Qed.
Lemma filter_no (cl : ascii) u : ~ In cl u -> filter (fun x => negb (chr_eqb x cl)) u = u.
Proof.
  induction u as [|x u IH]; intro H; [reflexivity|]. cbn.
  destruct (chr_eqb_spec x cl) as [->|Hn]; [exfalso; apply H; left; reflexivity|]. cbn. f_equal. apply IH.
  intro Hi. apply H. right. exact Hi.
Qed.

(** A column name made of a base, an opening bracket, a unit and a closing bracket. *)
Definition brackets (op cl : ascii) : Prop := (op = "["%char /\ cl = "]"%char) \/ (op = "("%char /\ cl = ")"%char).
Definition with_unit (base : str) (op cl : ascii) (u : str) : str := base ++ op :: u ++ [cl].
(** Base without one trailing underscore. *)
Definition name_of (base : str) : str :=
  match rev base with l :: r => if chr_eqb l "_"%char then rev r else base | [] => base end.

Lemma split_column_unit v base op cl u : brackets op cl -> 2 <= List.length base ->
  (forall c r, base = c :: r -> is_space c = false) -> ~ In op u -> ~ In cl u ->
  split_column v (with_unit base op cl u) = Ok (name_of base, u, Some u).
Proof.
  intros Hb Hl Hs Ho Hc. unfold split_column.
  assert (Est : strip (with_unit base op cl u) = with_unit base op cl u).
  { apply strip_noedge. unfold no_edge_space, with_unit. apply andb_true_intro. split.
    - destruct base as [|c r]; [cbn in Hl; lia|]. cbn. rewrite (Hs c r eq_refl). reflexivity.
    - rewrite app_comm_cons, app_assoc, rev_app_distr. cbn. destruct Hb as [[_ ->]|[_ ->]]; reflexivity. }
  rewrite Est.
  assert (Er : rev (with_unit base op cl u) = cl :: rev (base ++ op :: u)).
  { unfold with_unit. rewrite app_comm_cons, app_assoc, rev_app_distr. reflexivity. }
  rewrite Er.
  assert (Ebr : (if chr_eqb cl "]" then Some ("["%char, "]"%char) else if chr_eqb cl ")" then Some ("("%char, ")"%char) else None) = Some (op, cl)).
  { destruct Hb as [[-> ->]|[-> ->]]; reflexivity. }
  rewrite Ebr. 
  assert (Hoc : op <> cl) by (destruct Hb as [[-> ->]|[-> ->]]; discriminate).
  unfold rfind. unfold with_unit. rewrite rfind_from_app.
  2:{ intro H. apply in_app_or in H as [H|H]; [exact (Ho H)|]. destruct H as [H|[]]. exact (Hoc (eq_sym H)). }
  cbn [Nat.add]. destruct (Nat.ltb_spec 1 (List.length base)); [|lia].
  rewrite firstn_app, Nat.sub_diag, firstn_all. cbn [firstn]. rewrite app_nil_r.
  replace (skipn (S (List.length base)) (base ++ op :: u ++ [cl])) with (u ++ [cl]).
  - rewrite filter_app, (filter_no cl u Hc). cbn. rewrite chr_eqb_refl. cbn. rewrite app_nil_r. reflexivity.
  - rewrite skipn_app, skipn_all2 by lia. replace (S (List.length base) - List.length base) with 1 by lia. reflexivity.
Qed.

Lemma split_columns_units v (cols : list (str * ascii * ascii * str)) :
  Forall (fun q => match q with (base, op, cl, u) => brackets op cl /\ 2 <= List.length base /\
      (forall c r, base = c :: r -> is_space c = false) /\ ~ In op u /\ ~ In cl u end) cols ->
  split_columns v (map (fun q => match q with (base, op, cl, u) => with_unit base op cl u end) cols) =
  Ok (map (fun q => match q with (base, op, cl, u) => (name_of base, u) end) cols).
Proof.
  intro H. revert v. induction H as [|[[[base op] cl] u] l Hq Hl IH]; intro v; [reflexivity|].
  destruct Hq as (A & B & C & D & E). cbn [map split_columns]. rewrite split_column_unit by assumption. cbn [bind].
  rewrite IH. reflexivity.
Qed.
(** The first column without a unit stops everything. *)
Lemma split_column_none c : (forall d r, rev (strip c) = d :: r -> d <> "]"%char /\ d <> ")"%char) ->
  split_column None c = Err (match strip c with [] => IndexError | _ => UnboundLocalError end).
Proof.
  intro H. unfold split_column. destruct (rev (strip c)) as [|d r] eqn:E.
  - apply (f_equal (@rev ascii)) in E. rewrite rev_involutive in E. rewrite E. reflexivity.
  - destruct (H d r eq_refl) as [H1 H2].
    destruct (chr_eqb_spec d "]"%char); [contradiction|]. destruct (chr_eqb_spec d ")"%char); [contradiction|].
    destruct (strip c); [discriminate|reflexivity].
Qed.

(** A column title in which the writer finds no unit: it does not end with a closing bracket, or the matching opening
    bracket is missing. *)
Definition no_unit (c : str) : Prop :=
  exists d r, rev (strip c) = d :: r /\
    ((d <> "]"%char /\ d <> ")"%char) \/ exists op, brackets op d /\ ~ In op (strip c)).
Lemma split_column_no_unit u c : no_unit c -> split_column (Some u) c = Ok (strip c, u, Some u).
Proof.
  intros [d [r [E H]]]. unfold split_column. rewrite E. destruct H as [[H1 H2]|[op [B N]]].
  - destruct (chr_eqb_spec d "]"%char); [contradiction|]. destruct (chr_eqb_spec d ")"%char); [contradiction|]. reflexivity.
  - assert (F : rfind op (strip c) = None) by (apply rfind_from_none; exact N).
    destruct B as [[-> ->]|[-> ->]]; cbn [chr_eqb Ascii.eqb Bool.eqb]; rewrite F; reflexivity.
Qed.
Lemma split_column_no_unit_first c : no_unit c -> split_column None c = Err UnboundLocalError.
Proof.
  intros [d [r [E H]]]. unfold split_column. rewrite E. destruct H as [[H1 H2]|[op [B N]]].
  - destruct (chr_eqb_spec d "]"%char); [contradiction|]. destruct (chr_eqb_spec d ")"%char); [contradiction|]. reflexivity.
  - assert (F : rfind op (strip c) = None) by (apply rfind_from_none; exact N).
    destruct B as [[-> ->]|[-> ->]]; cbn [chr_eqb Ascii.eqb Bool.eqb]; rewrite F; reflexivity.
Qed.
(** A title with a unit, or without. *)
Inductive title := WithUnit (base : str) (op cl : ascii) (u : str) | Bare (c : str).
Definition title_ok (t : title) : Prop :=
  match t with
  | WithUnit base op cl u => brackets op cl /\ 2 <= List.length base /\
      (forall c r, base = c :: r -> is_space c = false) /\ ~ In op u /\ ~ In cl u
  | Bare c => no_unit c
  end.
Definition title_text (t : title) : str := match t with WithUnit base op cl u => with_unit base op cl u | Bare c => c end.
Definition title_name (t : title) : str := match t with WithUnit base _ _ _ => name_of base | Bare c => strip c end.
(** The units: a title without one takes the last unit seen. *)
Fixpoint last_units (u : str) (ts : list title) : list str :=
  match ts with
  | [] => []
  | WithUnit _ _ _ v :: ts' => v :: last_units v ts'
  | Bare _ :: ts' => u :: last_units u ts'
  end.
Lemma split_columns_inherit u ts : Forall title_ok ts ->
  split_columns (Some u) (map title_text ts) = Ok (combine (map title_name ts) (last_units u ts)).
Proof.
  intro H. revert u. induction H as [|t ts Ht H IH]; intro u; [reflexivity|]. cbn [map split_columns]. destruct t as [base op cl v|c].
  - destruct Ht as (A & B & C & D & E). cbn [title_text title_name last_units combine]. rewrite split_column_unit by assumption. cbn [bind]. rewrite IH. reflexivity.
  - cbn [title_text title_name last_units combine]. rewrite split_column_no_unit by exact Ht. cbn [bind]. rewrite IH. reflexivity.
Qed.
