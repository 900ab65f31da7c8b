(** C121: the columns of the elements of the blades of a CACTUS simulation. *)
From Verif Require Import Py PyFacts TextFacts.
From Verif Require Import Cactus_Model CactusTime_Props.
From Verif Require Import Dict.
From Coq Require Import QArith Qround Qfield Sorted Permutation.
Local Open Scope nat_scope.

(** ** Specification *)
(** The values of a column in the rows of an element [e] of a blade [b], from the columns of blades and elements *)
Fixpoint select (B E : list Z) (b e : Z) (v : list Q) : list Q :=
  match B, E, v with b' :: B', e' :: E', x :: v' => if ((b' =? b) && (e' =? e))%Z then x :: select B' E' b e v' else select B' E' b e v' | _, _, _ => [] end.
Definition count (B E : list Z) (b e : Z) : nat := List.length (filter (fun p => (fst p =? b) && (snd p =? e))%Z (combine B E)).
(** The numbers in a list, in ascending order, each once *)
Definition ascending (l : list Z) (P : Z -> Prop) : Prop := StronglySorted Z.lt l /\ forall z, In z l <-> P z.
(** Three digits *)
Definition three (e : Z) : str := repeat "0"%char (3 - List.length (str_of_Z e)) ++ str_of_Z e.
Definition name (b e : Z) (x : string) : str := S_ "AB" ++ str_of_Z b ++ S_ "N" ++ three e ++ S_ x.
(** A table of the elements: the columns of blades and elements, and the others *)
Definition elem_file (df : frame) (B E : list Z) (ks : list string) (C : string -> list Q) : Prop :=
  column df "Blade" (map inject_Z B) /\ column df "Element" (map inject_Z E) /\ List.length E = List.length B /\ Forall (fun c => List.length (snd c) = List.length B) df /\
  forall k, In k ks -> column df k (C k).
Definition elem_keys : list string := ["AOA25 (deg)"; "AOA50 (deg)"; "AOA75 (deg)"; "CL (-)"; "CD (-)"; "CM25 (-)"; "CN (-)"; "CT (-)"; "Fx (-)"; "Fz (-)"; "Fy (-)"; "CLCirc (-)"; "Re (-)"; "GB (?)"; "Ur (-)"; "IndU (-)"; "IndV (-)"; "IndW (-)"]%string.
Definition ds_keys : list string := ["alpha (deg)"; "alrefL (deg)"; "alrefD (deg)"; "adotnorm (-)"; "DynamicFlagL"; "DynamicFlagD"; "alphaLagD (deg)"; "delN"; "delP"; "transA"; "gammaL"; "gammaD"; "dalphaL (deg)"; "Tu"; "alphadot"]%string.
Section Spec.
Variables (pi : Q) (cos sin : Q -> Q) (s : setting) (sg : Q).
Local Open Scope Q_scope.
Local Open Scope string_scope.
(** The columns of an element, from its columns [c] of the file *)
Definition elem_table (b e : Z) (c : string -> list Q) : list (str * (nat -> Q)) :=
  let g k i := at_ (c k%string) i in
  let psi i := angle pi s i - inject_Z (b - 1) * (2 * pi / inject_Z (Z.of_nat (nblade s))) in
  let al i := g "AOA25 (deg)" i * pi / 180 in
  [ (name b e "Alpha_[deg]", fun i => sg * g "AOA25 (deg)" i); (name b e "Alpha50_[deg]", fun i => sg * g "AOA50 (deg)" i);
    (name b e "Alpha75_[deg]", fun i => sg * g "AOA75 (deg)" i); (name b e "Cl_[-]", fun i => sg * g "CL (-)" i);
    (name b e "Cd_[-]", fun i => g "CD (-)" i); (name b e "Cm_[-]", fun i => sg * g "CM25 (-)" i);
    (name b e "Cn_[-]", fun i => sg * g "CN (-)" i); (name b e "Ct_[-]", fun i => sg * g "CT (-)" i);
    (name b e "Ct2_[-]", fun i => sg * (g "CD (-)" i * cos (al i) - g "CL (-)" i * sin (al i)));
    (name b e "Cxg_[-]", fun i => g "Fx (-)" i); (name b e "Cyg_[-]", fun i => - g "Fz (-)" i); (name b e "Czg_[-]", fun i => g "Fy (-)" i);
    (name b e "ClC_[-]", fun i => sg * g "CLCirc (-)" i); (name b e "Re_[-]", fun i => g "Re (-)" i / 1000000);
    (name b e "Gam_[m^2/s]", fun i => sg * g "GB (?)" i * wind pi s * rad s); (name b e "Vrel_[m/s]", fun i => g "Ur (-)" i * wind pi s);
    (name b e "Vindx_[m/s]", fun i => across cos sin (psi i) (g "IndU (-)" i * wind pi s) (g "IndW (-)" i * wind pi s));
    (name b e "Vindy_[m/s]", fun i => along cos sin (psi i) (g "IndU (-)" i * wind pi s) (g "IndW (-)" i * wind pi s)) ]%string.
(** The columns of dynamic stall *)
Definition ds_table (b e : Z) (c : string -> list Q) : list (str * (nat -> Q)) :=
  let g k i := at_ (c k%string) i in
  [ (name b e "alpha_34_[deg]", fun i => sg * g "alpha (deg)" i); (name b e "alphaE_[deg]", fun i => sg * g "alrefL (deg)" i);
    (name b e "alphaED_[deg]", fun i => sg * g "alrefD (deg)" i); (name b e "adotnorm_[-]", fun i => sg * g "adotnorm (-)" i);
    (name b e "activeL_[-]", fun i => g "DynamicFlagL" i); (name b e "activeD_[-]", fun i => g "DynamicFlagD" i);
    (name b e "alphaLagD_[deg]", fun i => sg * g "alphaLagD (deg)" i); (name b e "delP_[-]", fun i => g "delN" i); (name b e "delN_[-]", fun i => g "delP" i);
    (name b e "transA_[-]", fun i => g "transA" i); (name b e "gammaL_[-]", fun i => g "gammaL" i); (name b e "gammaD_[-]", fun i => g "gammaD" i);
    (name b e "dalphaL_[deg]", fun i => sg * g "dalphaL (deg)" i); (name b e "Tu_[s]", fun i => g "Tu" i); (name b e "alphaDot_[rad/s]", fun i => sg * g "alphadot" i) ]%string.
(** Two columns that are left behind the others; the second last difference is in degrees per step *)
Definition ds_tail (b e : Z) (c : string -> list Q) : list (str * (nat -> Q)) :=
  let g k i := at_ (c k%string) i in
  [ (name b e "alphaDot2_[rad/s]", fun i => match i with O => 0 | S j => g "alpha (deg)" j - g "alpha (deg)" i end);
    (name b e "dalphaD_[deg]", fun i => sg * (g "alpha (deg)" i - g "alrefD (deg)" i)) ]%string.
End Spec.

(** ** Selections *)
Lemma pick_cons {A} b m (x : A) l : pick (b :: m) (x :: l) = if b then x :: pick m l else pick m l.
Proof. unfold pick. cbn [combine filter fst]. now destruct b. Qed.
Lemma pick_length {A B'} m (a : list A) (b : list B') : List.length a = List.length b -> List.length (pick m a) = List.length (pick m b).
Proof. revert a b. induction m as [|x m IH]; intros [|y a] [|z b] H; try discriminate; try reflexivity. rewrite !pick_cons. injection H as H. destruct x; cbn [List.length]; now rewrite (IH a b H). Qed.
Lemma Qeqb_Z a b : Qeq_bool (inject_Z a) (inject_Z b) = (a =? b)%Z.
Proof. unfold Qeq_bool, Zeq_bool. cbn. rewrite !Z.mul_1_r. destruct (Z.compare_spec a b); destruct (Z.eqb_spec a b); try reflexivity; lia. Qed.
Lemma Qleb_Z a b : Qle_bool (inject_Z a) (inject_Z b) = (a <=? b)%Z.
Proof. unfold Qle_bool. cbn. now rewrite !Z.mul_1_r. Qed.
Lemma pick_select b e : forall B E v, List.length E = List.length B -> List.length v = List.length B ->
  pick (map (fun x => Qeq_bool x (inject_Z e)) (pick (map (fun x => Qeq_bool x (inject_Z b)) (map inject_Z B)) (map inject_Z E))) (pick (map (fun x => Qeq_bool x (inject_Z b)) (map inject_Z B)) v) = select B E b e v.
Proof.
  induction B as [|b' B IH]; intros [|e' E] [|x v] H1 H2; try discriminate; [reflexivity|]. injection H1 as H1. injection H2 as H2. cbn [map select]. rewrite !pick_cons, Qeqb_Z. destruct (b' =? b)%Z; cbn [andb]; [|now apply IH].
  cbn [map]. rewrite pick_cons, Qeqb_Z, IH by assumption. reflexivity.
Qed.
Lemma select_length b e : forall B E v, List.length E = List.length B -> List.length v = List.length B -> List.length (select B E b e v) = count B E b e.
Proof.
  unfold count. induction B as [|b' B IH]; intros [|e' E] [|x v] H1 H2; try discriminate; [reflexivity|]. injection H1 as H1. injection H2 as H2. cbn [select combine filter fst snd]. destruct ((b' =? b) && (e' =? e))%Z; cbn [List.length]; now rewrite IH.
Qed.
(** np.unique *)
Fixpoint zinsert (x : Z) (l : list Z) : list Z := match l with [] => [x] | y :: l' => if (x =? y)%Z then l else if (x <=? y)%Z then x :: l else y :: zinsert x l' end.
Lemma qinsert_Z x l : qinsert (inject_Z x) (map inject_Z l) = map inject_Z (zinsert x l).
Proof. induction l as [|y l IH]; [reflexivity|]. cbn [map qinsert zinsert]. rewrite Qeqb_Z, Qleb_Z. destruct (x =? y)%Z; [reflexivity|]. destruct (x <=? y)%Z; [reflexivity|]. cbn [map]. now rewrite IH. Qed.
Lemma unique_Z l : forall acc, fold_left (fun a x => qinsert x a) (map inject_Z l) (map inject_Z acc) = map inject_Z (fold_left (fun a x => zinsert x a) l acc).
Proof. induction l as [|x l IH]; intro acc; [reflexivity|]. cbn [map fold_left]. rewrite qinsert_Z. apply IH. Qed.
Lemma zinsert_in x l z : In z (zinsert x l) <-> z = x \/ In z l.
Proof.
  induction l as [|y l IH]; cbn [zinsert]; [cbn; intuition congruence|]. destruct (Z.eqb_spec x y) as [->|N]; [cbn [In]; intuition congruence|]. destruct (x <=? y)%Z; cbn [In]; [intuition congruence|]. rewrite IH. intuition congruence.
Qed.
Lemma zinsert_sorted x l : StronglySorted Z.lt l -> StronglySorted Z.lt (zinsert x l).
Proof.
  induction 1 as [|y l S IH F]; cbn [zinsert]; [repeat constructor|]. destruct (Z.eqb_spec x y) as [->|N]; [now constructor|]. destruct (Z.leb_spec x y) as [L|L].
  - constructor; [now constructor|]. constructor; [lia|]. eapply Forall_impl; [|exact F]. cbn. intros; lia.
  - constructor; [exact IH|]. apply Forall_forall. intros z Hz. apply zinsert_in in Hz. destruct Hz as [->|Hz]; [lia|]. rewrite Forall_forall in F. now apply F.
Qed.
Lemma fold_sorted l : forall acc, StronglySorted Z.lt acc -> StronglySorted Z.lt (fold_left (fun a x => zinsert x a) l acc) /\ forall z, In z (fold_left (fun a x => zinsert x a) l acc) <-> In z l \/ In z acc.
Proof.
  induction l as [|x l IH]; intros acc S; cbn [fold_left]; [split; [exact S|cbn; tauto]|]. destruct (IH _ (zinsert_sorted x acc S)) as [H1 H2]. split; [exact H1|]. intro z. rewrite H2, zinsert_in. cbn [In]. intuition congruence.
Qed.
Lemma sorted_unique : forall l l', StronglySorted Z.lt l -> StronglySorted Z.lt l' -> (forall z, In z l <-> In z l') -> l = l'.
Proof.
  induction l as [|x l IH]; intros [|y l'] S S' H; [reflexivity|exfalso; apply (proj2 (H y)); now left|exfalso; apply (proj1 (H x)); now left|].
  inversion S as [|? ? S1 F1]; subst. inversion S' as [|? ? S2 F2]; subst. rewrite Forall_forall in F1, F2.
  assert (x = y). { destruct (proj1 (H x) (or_introl eq_refl)) as [E|I]; [now symmetry|]. destruct (proj2 (H y) (or_introl eq_refl)) as [E|I']; [exact E|]. specialize (F1 _ I'). specialize (F2 _ I). lia. }
  subst y. f_equal. apply IH; try assumption. intro z. split; intro I.
  - destruct (proj1 (H z) (or_intror I)) as [E|I']; [|exact I']. specialize (F1 _ I). lia.
  - destruct (proj2 (H z) (or_intror I)) as [E|I']; [|exact I']. specialize (F2 _ I). lia.
Qed.
Lemma unique_ok l us : ascending us (fun z => In z l) -> map trunc (unique (map inject_Z l)) = us.
Proof.
  intros [S M]. unfold unique. change (@nil Q) with (map inject_Z []). rewrite unique_Z, map_map. destruct (fold_sorted l [] (SSorted_nil _)) as [S1 M1].
  replace (map (fun x => trunc (inject_Z x)) (fold_left (fun a x => zinsert x a) l [])) with (fold_left (fun a x => zinsert x a) l []).
  - apply sorted_unique; [exact S1|exact S|]. intro z. rewrite M1, M. cbn. tauto.
  - symmetry. rewrite <- map_id. apply map_ext. intro z. unfold trunc. cbn. apply Z.quot_1_r.
Qed.
(** df[df[name]==z] *)
Lemma where_ok df k v z : column df k v -> where_ df k z = Ok (map (fun c => (fst c, pick (map (fun x => Qeq_bool x (inject_Z z)) v) (snd c))) df).
Proof. intro C. unfold where_. now rewrite (col_ok _ _ _ C). Qed.
Lemma column_map (f : list Q -> list Q) df k v : column_ df k v -> column_ (map (fun c => (fst c, f (snd c))) df) k (f v).
Proof. intros (a & b & -> & Na & Nb). exists (map (fun c => (fst c, f (snd c))) a), (map (fun c => (fst c, f (snd c))) b). rewrite map_app, !map_map. cbn [map fst snd]. repeat split; exact Na || exact Nb. Qed.

(** ** Names *)
Lemma three_ok e : (0 <= e)%Z -> d3 e = three e.
Proof. intro H. unfold d3, three. destruct (Z.ltb_spec e 0); [lia|reflexivity]. Qed.
Lemma label_ok b e x : (0 <= e)%Z -> label b e x = name b e x.
Proof. intro H. unfold label, name. now rewrite three_ok. Qed.
Lemma str_of_Z_N z : (0 <= z)%Z -> str_of_Z z = str_of_N (Z.to_N z).
Proof. destruct z; intro H; try lia; reflexivity. Qed.
Lemma digits_stop c d a b x y : is_digit c = false -> is_digit d = false -> forallb is_digit a = true -> forallb is_digit b = true -> a ++ c :: x = b ++ d :: y -> a = b /\ c = d /\ x = y.
Proof.
  intros Hc Hd. revert b. induction a as [|u a IH]; intros [|v b] Ha Hb E; cbn [app forallb] in *.
  - injection E as -> ->. repeat split.
  - injection E as -> _. rewrite Hc in Hb. discriminate.
  - injection E as -> _. rewrite Hd in Ha. discriminate.
  - apply andb_prop in Ha, Hb. injection E as -> E. destruct (IH b (proj2 Ha) (proj2 Hb) E) as (-> & -> & ->). repeat split.
Qed.
Lemma lead_zero k s : s <> [] -> N_of_str (repeat "0"%char k ++ s) = N_of_str s.
Proof.
  intro H. induction k as [|k IH]; [reflexivity|]. cbn [repeat app]. rewrite <- IH. assert (NE : repeat "0"%char k ++ s <> []) by (destruct k; [exact H|discriminate]). generalize dependent (repeat "0"%char k ++ s). intros r _ NE.
  destruct r as [|c r]; [congruence|]. unfold N_of_str. change (uint_of_str ("0"%char :: c :: r)) with (match uint_of_str (c :: r) with Some d => uint_cons "0"%char d | None => None end). destruct (uint_of_str (c :: r)); reflexivity.
Qed.
Lemma three_inj e e' : (0 <= e)%Z -> (0 <= e')%Z -> three e = three e' -> e = e'.
Proof.
  intros H H' E. unfold three in E. rewrite !str_of_Z_N in E by assumption. apply (f_equal N_of_str) in E. rewrite !lead_zero in E by apply str_of_N_nonempty. rewrite !N_of_str_of_N in E. injection E as E. lia.
Qed.
Lemma three_digits e : (0 <= e)%Z -> forallb is_digit (three e) = true.
Proof. intro H. unfold three. rewrite forallb_app, str_of_Z_N by exact H. rewrite str_of_N_digits, andb_true_r. induction (3 - _); [reflexivity|exact IHn]. Qed.
Definition letter (x : string) : bool := match x with String c _ => negb (is_digit c) | EmptyString => false end.
Lemma S_inj x y : S_ x = S_ y -> x = y.
Proof. intro H. rewrite <- (string_of_list_ascii_of_string x), <- (string_of_list_ascii_of_string y). unfold S_ in H. now rewrite H. Qed.
Lemma name_inj b e x b' e' x' : (0 <= b)%Z -> (0 <= b')%Z -> (0 <= e)%Z -> (0 <= e')%Z -> letter x = true -> letter x' = true -> name b e x = name b' e' x' -> b = b' /\ e = e' /\ x = x'.
Proof.
  intros Hb Hb' He He' Lx Lx' E. unfold name in E. change (S_ "AB") with ["A"%char; "B"%char] in E. cbn [app] in E. injection E as E. change (S_ "N") with ["N"%char] in E. cbn [app] in E.
  apply digits_stop in E; [|reflexivity|reflexivity|rewrite str_of_Z_N by assumption; apply str_of_N_digits|rewrite str_of_Z_N by assumption; apply str_of_N_digits]. destruct E as (E1 & _ & E).
  destruct x as [|c x]; [discriminate|]. destruct x' as [|c' x']; [discriminate|]. cbn [letter] in *. change (S_ (String c x)) with (c :: S_ x) in E. change (S_ (String c' x')) with (c' :: S_ x') in E.
  apply digits_stop in E; [|now apply negb_true_iff|now apply negb_true_iff|now apply three_digits|now apply three_digits]. destruct E as (E2 & -> & E3). apply S_inj in E3. subst x'.
  split; [|split; [now apply three_inj|reflexivity]]. rewrite !str_of_Z_N in E1 by assumption. apply (f_equal N_of_str) in E1. rewrite !N_of_str_of_N in E1. injection E1 as E1. lia.
Qed.

(** ** The rows of an element *)
Lemma sec_ok df B E ks C b e : elem_file df B E ks C -> exists bld, where_ df "Blade" b = Ok bld /\ col bld (S_ "Element") = Ok (pick (map (fun x => Qeq_bool x (inject_Z b)) (map inject_Z B)) (map inject_Z E)) /\
  where_ bld "Element" e = Ok (map (fun c => (fst c, select B E b e (snd c))) df).
Proof.
  intros (CB & CE & L & R & _). set (m := map (fun x => Qeq_bool x (inject_Z b)) (map inject_Z B)). exists (map (fun c => (fst c, pick m (snd c))) df). split; [exact (where_ok df "Blade" _ b CB)|].
  pose proof (column_map (pick m) df (S_ "Element") _ CE) as CE'. split; [exact (col_ok _ _ _ CE')|]. rewrite (where_ok _ "Element" _ e CE'). f_equal. rewrite map_map. cbn [fst snd]. apply map_ext_in. intros c Hc. f_equal.
  rewrite Forall_forall in R. exact (pick_select b e B E (snd c) L (R c Hc)).
Qed.
Lemma sec_col df B E ks C b e k : elem_file df B E ks C -> In k ks -> col (map (fun c => (fst c, select B E b e (snd c))) df) (S_ k) = Ok (select B E b e (C k)) /\ List.length (select B E b e (C k)) = count B E b e.
Proof.
  intros (_ & _ & L & R & H) I. specialize (H k I). split; [exact (col_ok _ _ _ (column_map (select B E b e) df (S_ k) _ H))|]. apply select_length; [exact L|]. exact (column_len _ _ _ _ H R).
Qed.
Lemma sec_rows df B E ks C b e : elem_file df B E ks C -> rows (map (fun c => (fst c, select B E b e (snd c))) df) = count B E b e.
Proof.
  intros ((a & r & -> & _) & _ & L & R & _). destruct a as [|[k v] a]; cbn [map app rows fst snd]; apply select_length; try exact L; inversion R; assumption.
Qed.

(** ** Insertions of given columns *)
Section Given.
Variable n : nat.
Notation exps := (list (str * (nat -> Q))).
Definition gives (st : step) (x : str * (nat -> Q)) : Prop := match st with Ins k f => k = fst x /\ exists w, (forall df, f df = Ok w) /\ holds n w (snd x) | Fix _ => False end.
Lemma insert_ok df0 pre k w : ~ In k (map fst (pre ++ df0)) -> List.length w = n -> rows (pre ++ df0) = n -> insert (List.length pre) k w (pre ++ df0) = Ok (pre ++ (k, w) :: df0).
Proof.
  intros N L R. unfold insert. assert (X : existsb (str_eqb k) (names (pre ++ df0)) = false).
  { destruct (existsb _ _) eqn:D; [|reflexivity]. apply existsb_exists in D. destruct D as (k' & I & D). apply str_eqb_eq in D. subst k'. contradiction. }
  rewrite X, L, R, Nat.eqb_refl. cbn [negb]. now rewrite firstn_app, Nat.sub_diag, firstn_all, skipn_app, skipn_all, Nat.sub_diag, firstn_O, app_nil_r.
Qed.
Lemma rows_put pre k (w : list Q) (df0 : frame) : List.length w = n -> rows (pre ++ df0) = n -> rows (pre ++ (k, w) :: df0) = n.
Proof. intros L R. destruct pre as [|[k' v] pre]; [exact L|exact R]. Qed.
Lemma run_one pre df0 st x : gives st x -> ~ In (fst x) (map fst (pre ++ df0)) -> rows (pre ++ df0) = n ->
  exists w, holds n w (snd x) /\ forall rest, run (List.length pre) (pre ++ df0) (st :: rest) = run (S (List.length pre)) (pre ++ (fst x, w) :: df0) rest.
Proof.
  destruct st as [k f|k]; [|contradiction]. cbn [gives]. intros (-> & w & Hw & H) N R. exists w. split; [exact H|]. intro rest. cbn [run]. rewrite Hw. cbn [bind]. rewrite insert_ok; [reflexivity|exact N|exact (proj1 H)|exact R].
Qed.
Definition apart (a : exps) (df : frame) : Prop := NoDup (map fst a) /\ forall k, In k (map fst a) -> ~ In k (map fst df).
Lemma apart_cons x a pre df0 w : apart (x :: a) (pre ++ df0) -> apart a (pre ++ (fst x, w) :: df0).
Proof.
  intros [N D]. cbn [map] in N. inversion N as [|? ? N1 N2]; subst. split; [exact N2|]. intros k Hk C. rewrite map_app in C. cbn [map fst] in C. apply in_app_or in C. destruct C as [C|[C|C]].
  - apply (D k); [now right|]. rewrite map_app. apply in_or_app. now left.
  - subst k. contradiction.
  - apply (D k); [now right|]. rewrite map_app. apply in_or_app. now right.
Qed.
Lemma apart_left a b df : apart (a ++ b) df -> apart a df.
Proof. intros [N D]. rewrite map_app in *. split; [exact (NoDup_left _ _ N)|]. intros k H. apply D. apply in_or_app. now left. Qed.
Lemma run_gives l tb : Forall2 gives l tb -> forall pre df0, rows (pre ++ df0) = n -> apart tb (pre ++ df0) ->
  exists new, Forall2 (describes n) new tb /\ forall rest, run (List.length pre) (pre ++ df0) (l ++ rest) = run (List.length (pre ++ new)) ((pre ++ new) ++ df0) rest.
Proof.
  induction 1 as [|st x l tb G F IH]; intros pre df0 R A; [exists []; split; [constructor|intro rest; now rewrite app_nil_r]|].
  destruct (run_one pre df0 st x G) as (w & Hw & E); [apply (proj2 A); now left|exact R|]. destruct (IH (pre ++ [(fst x, w)]) df0) as (new & Fn & En).
  - rewrite <- app_assoc. apply rows_put; [exact (proj1 Hw)|exact R].
  - rewrite <- app_assoc. now apply apart_cons.
  - exists ((fst x, w) :: new). split; [constructor; [now split|exact Fn]|]. intro rest. cbn [app]. rewrite E. specialize (En rest). rewrite <- (app_assoc pre [(fst x, w)] df0) in En. cbn [app] in En. rewrite app_length, Nat.add_1_r in En. rewrite En. now rewrite <- (app_assoc pre [(fst x, w)] new).
Qed.
Lemma try_gives l tb : Forall2 gives l tb -> forall pre df0, rows (pre ++ df0) = n -> apart tb (pre ++ df0) ->
  exists new, Forall2 (describes n) new tb /\ forall rest, run_try (List.length pre) (pre ++ df0) (map (fun s => (s, true)) l ++ rest) = run_try (List.length (pre ++ new)) ((pre ++ new) ++ df0) rest.
Proof.
  induction 1 as [|st x l tb G F IH]; intros pre df0 R A; [exists []; split; [constructor|intro rest; now rewrite app_nil_r]|].
  destruct (run_one pre df0 st x G) as (w & Hw & E); [apply (proj2 A); now left|exact R|]. destruct (IH (pre ++ [(fst x, w)]) df0) as (new & Fn & En).
  - rewrite <- app_assoc. apply rows_put; [exact (proj1 Hw)|exact R].
  - rewrite <- app_assoc. now apply apart_cons.
  - exists ((fst x, w) :: new). split; [constructor; [now split|exact Fn]|]. intro rest. cbn [map app run_try]. rewrite E. change (run (S (List.length pre)) (pre ++ (fst x, w) :: df0) []) with ((pre ++ (fst x, w) :: df0), Ok (S (List.length pre))). cbv beta iota.
    specialize (En rest). rewrite <- (app_assoc pre [(fst x, w)] df0) in En. cbn [app] in En. rewrite app_length, Nat.add_1_r in En. rewrite En. now rewrite <- (app_assoc pre [(fst x, w)] new).
Qed.
Lemma try_stay st x pre df0 : gives st x -> rows (pre ++ df0) = n -> ~ In (fst x) (map fst (pre ++ df0)) ->
  exists w, describes n (fst x, w) x /\ forall rest, run_try (List.length pre) (pre ++ df0) ((st, false) :: rest) = run_try (List.length pre) (pre ++ (fst x, w) :: df0) rest.
Proof.
  intros G R N. destruct (run_one pre df0 st x G N R) as (w & Hw & E). exists w. split; [now split|]. intro rest. cbn [run_try]. rewrite E. reflexivity.
Qed.
End Given.

(** ** The columns of an element *)
Section Element.
Variables (pi : Q) (cos sin : Q -> Q) (s : setting) (sg : Q) (n : nat).
Local Ltac col_ c k := let H := fresh in pose proof (c k ltac:(cbn; tauto)) as H; destruct H as [? ?].
Lemma zip_holds f a b (g : nat -> Q) : List.length a = n -> List.length b = n -> (forall i, i < n -> (f (nth i a 0) (nth i b 0) == g i)%Q) -> holds n (zip f a b) g.
Proof. intros La Lb H. split; [now apply zip_length|]. intros i Hi. rewrite nth_zip by lia. now apply H. Qed.
Lemma map_holds f v (g : nat -> Q) : List.length v = n -> (forall i, i < n -> (f (nth i v 0) == g i)%Q) -> holds n (map f v) g.
Proof. intros L H. split; [now rewrite map_length|]. intros i Hi. rewrite nth_map_in by lia. now apply H. Qed.
Lemma psi_at (g : nat -> Q) i : i < n -> nth i (map g (seq 0 n)) 0%Q = g i.
Proof. intro Hi. rewrite (nth_indep _ 0%Q (g 0)) by (now rewrite map_length, seq_length). now rewrite map_nth, seq_nth. Qed.
Lemma elem_gives b e c sec : (0 <= e)%Z -> (forall k, In k elem_keys -> col sec (S_ k) = Ok (c k) /\ List.length (c k) = n) ->
  Forall2 (gives n) (elem_steps pi cos sin b e sg (wind pi s) (rad s) (map (fun i => angle pi s i - inject_Z (b - 1) * (2 * pi / inject_Z (Z.of_nat (nblade s))))%Q (seq 0 n))
    (map (fun x => x * wind pi s)%Q (c "IndU (-)"%string)) (map (fun x => x * wind pi s)%Q (c "IndW (-)"%string)) sec) (elem_table pi cos sin s sg b e c).
Proof.
  intros He H. unfold elem_steps, elem_table. cbv zeta. rewrite !label_ok by exact He. set (psi := fun i => (angle pi s i - inject_Z (b - 1) * (2 * pi / inject_Z (Z.of_nat (nblade s))))%Q).
  assert (T : forall k (Hk : In k elem_keys), exists w, (forall df : frame, times sg sec k = Ok w) /\ holds n w (fun i => sg * at_ (c k) i)%Q).
  { intros k Hk. destruct (H k Hk) as [E L]. unfold times. rewrite E. cbn [bind]. eexists. split; [reflexivity|]. apply map_holds; [exact L|reflexivity]. }
  assert (K : forall k (Hk : In k elem_keys), exists w, (forall df : frame, col sec (S_ k) = Ok w) /\ holds n w (fun i => at_ (c k) i)%Q).
  { intros k Hk. destruct (H k Hk) as [E L]. rewrite E. eexists. split; [reflexivity|]. split; [exact L|reflexivity]. }
  assert (A : forall k f (g : nat -> Q) (Hk : In k elem_keys), (forall i, f (at_ (c k) i) == g i)%Q -> exists w, (forall df : frame, after sec k f = Ok w) /\ holds n w g).
  { intros k f g Hk Hf. destruct (H k Hk) as [E L]. unfold after. rewrite E. cbn [bind]. eexists. split; [reflexivity|]. apply map_holds; [exact L|intros; apply Hf]. }
  assert (LP : List.length (map psi (seq 0 n)) = n) by now rewrite map_length, seq_length.
  destruct (H "IndU (-)"%string ltac:(cbn; tauto)) as [EU LU]. destruct (H "IndW (-)"%string ltac:(cbn; tauto)) as [EW LW].
  destruct (H "CL (-)"%string ltac:(cbn; tauto)) as [EL LL]. destruct (H "CD (-)"%string ltac:(cbn; tauto)) as [ED LD]. destruct (H "AOA25 (deg)"%string ltac:(cbn; tauto)) as [EA LA].
  repeat (constructor; [split; [reflexivity|]; first [apply T; cbn; tauto | apply K; cbn; tauto | apply A; [cbn; tauto|intro; reflexivity] | idtac]|]).
  4:constructor.
  - cbn beta. unfold after. rewrite EL, ED, EA. cbn [bind]. eexists. split; [reflexivity|]. rewrite <- (map_length (fun x => x * pi / 180)%Q) in LA.
    apply map_holds; [apply zip_length; now apply zip_length|]. intros i Hi. rewrite nth_zip by (rewrite (zip_length _ _ _ n); assumption). rewrite !nth_zip by lia. rewrite nth_map_in by (rewrite map_length in LA; lia). unfold at_. cbn [snd]. ring.
  - eexists. split; [reflexivity|]. rewrite <- (map_length (fun x => x * wind pi s)%Q) in LU, LW. apply map_holds; [apply zip_length; now apply zip_length|]. intros i Hi. rewrite nth_zip by (rewrite (zip_length _ _ _ n); assumption). rewrite !nth_zip by lia. rewrite psi_at by exact Hi. rewrite !nth_map_in by (rewrite map_length in LU, LW; lia). reflexivity.
  - eexists. split; [reflexivity|]. rewrite <- (map_length (fun x => x * wind pi s)%Q) in LU, LW. apply zip_holds; [now apply zip_length|now apply zip_length|]. intros i Hi. rewrite !nth_zip by lia. rewrite psi_at by exact Hi. rewrite !nth_map_in by (rewrite map_length in LU, LW; lia). reflexivity.
Qed.
Definition moving (sec : frame) b e : list step := map fst (filter snd (try_steps b e sg sec)).
Lemma ds_gives b e c sec : (0 <= e)%Z -> 0 < n -> (forall k, In k ds_keys -> col sec (S_ k) = Ok (c k) /\ List.length (c k) = n) ->
  Forall2 (gives n) (ds_steps b e sg sec ++ map fst (filter snd (try_steps b e sg sec))) (ds_table sg b e c) /\
  Forall2 (gives n) (rev (map fst (filter (fun p => negb (snd p)) (try_steps b e sg sec)))) (ds_tail sg b e c).
Proof.
  intros He Hn H. unfold ds_steps, try_steps, ds_table, ds_tail. cbn [filter snd negb map fst app rev]. cbv zeta. rewrite !label_ok by exact He.
  assert (T : forall k (Hk : In k ds_keys), exists w, (forall df : frame, times sg sec k = Ok w) /\ holds n w (fun i => sg * at_ (c k) i)%Q).
  { intros k Hk. destruct (H k Hk) as [E L]. unfold times. rewrite E. cbn [bind]. eexists. split; [reflexivity|]. apply map_holds; [exact L|reflexivity]. }
  assert (K : forall k (Hk : In k ds_keys), exists w, (forall df : frame, col sec (S_ k) = Ok w) /\ holds n w (fun i => at_ (c k) i)%Q).
  { intros k Hk. destruct (H k Hk) as [E L]. rewrite E. eexists. split; [reflexivity|]. split; [exact L|reflexivity]. }
  split; (repeat (constructor; [split; [reflexivity|]; first [apply T; cbn; tauto | apply K; cbn; tauto | idtac]|])).
  - constructor.
  - destruct (H "alpha (deg)"%string ltac:(cbn; tauto)) as [EA LA]. unfold after. rewrite EA. cbn [bind]. eexists. split; [reflexivity|]. assert (LM : List.length (map Qopp (c "alpha (deg)"%string)) = n) by now rewrite map_length.
    assert (LT : List.length (tl (map Qopp (c "alpha (deg)"%string))) = n - 1) by (destruct (map Qopp (c "alpha (deg)"%string)); cbn in *; lia).
    split; [cbn [List.length]; unfold zip; rewrite map_length, combine_length; lia|]. intros [|i] Hi; cbn [nth snd]; [reflexivity|]. rewrite nth_zip by lia. rewrite nth_map_in by lia.
    replace (nth i (tl (map Qopp (c "alpha (deg)"%string))) 0%Q) with (nth (S i) (map Qopp (c "alpha (deg)"%string)) 0%Q) by (destruct (map Qopp (c "alpha (deg)"%string)); [destruct i; reflexivity|reflexivity]).
    rewrite nth_map_in by lia. unfold at_. ring.
  - destruct (H "alpha (deg)"%string ltac:(cbn; tauto)) as [EA LA]. destruct (H "alrefD (deg)"%string ltac:(cbn; tauto)) as [ED LD]. rewrite EA, ED. cbn [bind]. eexists. split; [reflexivity|]. apply zip_holds; [exact LA|exact LD|]. reflexivity.
  - constructor.
Qed.
Lemma apart_app n' (a b : list (str * (nat -> Q))) pre df0 new : Forall2 (describes n') new a -> apart (a ++ b) (pre ++ df0) -> apart b ((pre ++ new) ++ df0).
Proof.
  intros F [N D]. assert (M : map fst new = map fst a) by (clear -F; induction F as [|c x new a [H _] F IH]; cbn; [reflexivity|now rewrite H, IH]). rewrite map_app in *. split.
  - clear -N. induction (map fst a) as [|x l IH]; [exact N|]. cbn in N. inversion N. now apply IH.
  - intros k Hk C. rewrite !map_app, M in C. rewrite <- app_assoc in C. apply in_app_or in C. rewrite map_app in D. destruct C as [C|C]; [apply (D k); apply in_or_app; [now right|now left]|]. apply in_app_or in C. destruct C as [C|C].
    + clear -N C Hk. induction (map fst a) as [|x l IH]; [contradiction|]. cbn in N. inversion N; subst. destruct C as [->|C]; [apply H1; apply in_or_app; now right|now apply IH].
    + apply (D k); apply in_or_app; [now right|now right].
Qed.
Lemma run_rows l tb : Forall2 (describes n) l tb -> forall pre (df0 : frame), rows (pre ++ df0) = n -> rows ((pre ++ l) ++ df0) = n.
Proof. intros F pre df0 R. destruct pre as [|[k v] pre]; [|exact R]. cbn [app]. destruct F as [|[k v] x l tb [_ [H _]] F]; [exact R|exact H]. Qed.
Lemma apart_perm a b df : (forall k, In k (map fst a) <-> In k (map fst b)) -> NoDup (map fst b) -> apart a df -> apart b df.
Proof. intros P N [_ D]. split; [exact N|]. intros k H. apply D. now apply P. Qed.
Lemma F2_cons {A B} (P : A -> B -> Prop) x y l l' : Forall2 P (x :: l) (y :: l') <-> P x y /\ Forall2 P l l'.
Proof. split; [intro H; now inversion H|intros [H1 H2]; now constructor]. Qed.
Lemma ds_run l1 t1 l9 t9 d xd l2 t2 a xa pre df : Forall2 (gives n) l1 t1 -> Forall2 (gives n) l9 t9 -> gives n d xd -> Forall2 (gives n) l2 t2 -> gives n a xa ->
  rows (pre ++ df) = n -> apart (t1 ++ t9 ++ t2 ++ [xa; xd]) (pre ++ df) ->
  exists new wa wd, Forall2 (describes n) new (t1 ++ t9 ++ t2) /\ describes n (fst xa, wa) xa /\ describes n (fst xd, wd) xd /\
    exists df1 c1, run (List.length pre) (pre ++ df) l1 = (df1, Ok c1) /\
      run_try c1 df1 (map (fun s => (s, true)) l9 ++ (d, false) :: map (fun s => (s, true)) l2 ++ [(a, false)]) = ((pre ++ new) ++ (fst xa, wa) :: (fst xd, wd) :: df, List.length (pre ++ new)).
Proof.
  intros G1 G9 Gd G2 Ga R A. destruct (run_gives n _ _ G1 pre df R (apart_left _ _ _ A)) as (n1 & F1 & E1). specialize (E1 []). rewrite app_nil_r in E1. cbn [run] in E1.
  pose proof (run_rows _ _ F1 pre df R) as R1. pose proof (apart_app n _ _ pre df n1 F1 A) as A1.
  destruct (try_gives n _ _ G9 (pre ++ n1) df R1 (apart_left _ _ _ A1)) as (n9 & F9 & E9). pose proof (run_rows _ _ F9 _ df R1) as R9. pose proof (apart_app n _ _ _ df n9 F9 A1) as A9.
  assert (A9' : apart (xd :: t2 ++ [xa]) (((pre ++ n1) ++ n9) ++ df)).
  { eapply apart_perm; [| |exact A9]; [intro k; cbn [map]; rewrite !map_app; cbn [map In]; rewrite !in_app_iff; cbn [In]; tauto|]. destruct A9 as [N _]. rewrite map_app in N. cbn [map] in *. rewrite map_app. cbn [map].
    change (map fst t2 ++ [fst xa; fst xd]) with (map fst t2 ++ [fst xa] ++ [fst xd]) in N. rewrite app_assoc in N. apply NoDup_remove in N. rewrite app_nil_r in N. constructor; [exact (proj2 N)|exact (proj1 N)]. }
  destruct (try_stay n d xd ((pre ++ n1) ++ n9) df Gd R9) as (wd & Dd & Ed); [apply (proj2 A9'); now left|]. pose proof (apart_cons xd _ _ _ wd A9') as Ad.
  assert (Rd : rows (((pre ++ n1) ++ n9) ++ (fst xd, wd) :: df) = n) by (apply rows_put; [exact (proj1 (proj2 Dd))|exact R9]).
  destruct (try_gives n _ _ G2 _ _ Rd (apart_left _ _ _ Ad)) as (n2 & F2 & E2). pose proof (run_rows _ _ F2 _ _ Rd) as R2. pose proof (apart_app n _ _ _ _ n2 F2 Ad) as A2.
  destruct (try_stay n a xa _ _ Ga R2) as (wa & Da & Ea); [apply (proj2 A2); now left|].
  exists (n1 ++ n9 ++ n2), wa, wd. split; [apply Forall2_app; [exact F1|apply Forall2_app; assumption]|]. split; [exact Da|]. split; [exact Dd|]. exists ((pre ++ n1) ++ df), (List.length (pre ++ n1)). split; [exact E1|].
  rewrite E9, Ed, E2, Ea. cbn [run_try]. rewrite <- !app_assoc. reflexivity.
Qed.
Definition dst (ds : option (string -> list Q)) b e : list (str * (nat -> Q)) := match ds with Some d => ds_table sg b e d | None => [] end.
Definition tails (ds : option (string -> list Q)) b e : list (str * (nat -> Q)) := match ds with Some d => ds_tail sg b e d | None => [] end.
Variables (bld : frame) (bds : option frame) (b : Z).
Notation psi := (map (fun i => angle pi s i - inject_Z (b - 1) * (2 * pi / inject_Z (Z.of_nat (nblade s))))%Q (seq 0 n)).
Definition ds_ok (bds : option frame) (ds : option (string -> list Q)) (e : Z) : Prop :=
  match bds, ds with
  | None, None => True
  | Some d, Some c => exists sec, where_ d "Element" e = Ok sec /\ forall k, In k ds_keys -> col sec (S_ k) = Ok (c k) /\ List.length (c k) = n
  | _, _ => False
  end.
Lemma element_ok e c ds sec pre df : (0 <= e)%Z -> 0 < n -> where_ bld "Element" e = Ok sec -> rows sec = n -> (forall k, In k elem_keys -> col sec (S_ k) = Ok (c k) /\ List.length (c k) = n) -> ds_ok bds ds e ->
  rows (pre ++ df) = n -> apart (elem_table pi cos sin s sg b e c ++ dst ds b e ++ tails ds b e) (pre ++ df) ->
  exists new tl, Forall2 (describes n) new (elem_table pi cos sin s sg b e c ++ dst ds b e) /\ Forall2 (describes n) tl (tails ds b e) /\
    element pi cos sin sg (wind pi s) (rad s) b psi bld bds (List.length pre) (pre ++ df) e = ((pre ++ new) ++ tl ++ df, Ok (List.length (pre ++ new))).
Proof.
  intros He Hn ES RS HC HD R A. unfold element. rewrite ES, RS, R, Nat.eqb_refl. cbn [negb].
  destruct (HC "IndU (-)"%string ltac:(cbn; tauto)) as [EU _]. destruct (HC "IndV (-)"%string ltac:(cbn; tauto)) as [EV _]. destruct (HC "IndW (-)"%string ltac:(cbn; tauto)) as [EW _].
  unfold after at 1. rewrite EU. cbn [bind]. rewrite EV. cbn [bind]. unfold after at 1. rewrite EW. cbn [bind].
  destruct (run_gives n _ _ (elem_gives b e c sec He HC) pre df R (apart_left _ _ _ A)) as (new & Fn & En). specialize (En []). rewrite app_nil_r in En. cbn [run] in En. rewrite En.
  pose proof (run_rows _ _ Fn pre df R) as R1. pose proof (apart_app n _ _ pre df new Fn A) as A1.
  destruct bds as [d|], ds as [cd|]; try contradiction.
  2:{ exists new, []. split; [cbn [dst]; rewrite app_nil_r; exact Fn|]. split; [constructor|reflexivity]. }
  destruct HD as (sd & ED & HK). rewrite ED. cbn [dst tails] in *. destruct (ds_gives b e cd sd He Hn HK) as [G1 G2].
  unfold ds_steps, try_steps in *. unfold ds_table, ds_tail in G1, G2. cbv zeta in G1, G2. cbn [filter map fst snd negb app rev] in G1, G2. rewrite !F2_cons in G1. rewrite !F2_cons in G2.
  destruct G1 as (g1 & g2 & g3 & g4 & g5 & g6 & g7 & g8 & g9 & g10 & g11 & g12 & g13 & g14 & g15 & _). destruct G2 as (ga & gd & _).
  match goal with |- context [run _ _ ?l] => set (l1 := l) end.
  match goal with |- context [run_try _ _ ((?a1, _) :: (?a2, _) :: (?a3, _) :: (?a4, _) :: (?a5, _) :: (?a6, _) :: (?a7, _) :: (?a8, _) :: (?a9, _) :: (?d, _) :: (?b1, _) :: (?b2, _) :: (?a, _) :: [])] =>
    pose (l9 := [a1; a2; a3; a4; a5; a6; a7; a8; a9]); pose (l2 := [b1; b2]); pose (dd := d); pose (aa := a) end.
  pose (T := ds_table sg b e cd). pose (X := ds_tail sg b e cd).
  destruct (ds_run l1 (firstn 4 T) l9 (firstn 9 (skipn 4 T)) dd (nth 1 X ([], fun _ => 0%Q)) l2 (skipn 13 T) aa (nth 0 X ([], fun _ => 0%Q)) (pre ++ new) df) as (n1 & wa & wd & Fd & Da & Dd & df1 & c1 & E1 & E2).
  1-5: subst l1 l9 l2 dd aa T X; unfold ds_table, ds_tail; cbv zeta; cbn [firstn skipn nth]; first [assumption | repeat (apply Forall2_cons; [assumption|]); apply Forall2_nil].
  { exact R1. }
  { subst T X. unfold ds_table, ds_tail in *. cbv zeta in *. cbn [firstn skipn nth app] in *. exact A1. }
  rewrite E1. change (run_try c1 df1 (map (fun s0 => (s0, true)) l9 ++ (dd, false) :: map (fun s0 => (s0, true)) l2 ++ [(aa, false)])) with (run_try c1 df1 (try_steps b e sg sd)) in E2. unfold try_steps in E2. rewrite E2.
  exists (new ++ n1), [(fst (nth 0 X ([], fun _ => 0%Q)), wa); (fst (nth 1 X ([], fun _ => 0%Q)), wd)]. split; [apply Forall2_app; [exact Fn|exact Fd]|]. split; [repeat constructor; [apply Da|apply Da|apply Dd|apply Dd]|].
  rewrite <- !app_assoc. reflexivity.
Qed.
End Element.

(** ** Specification, continued: all the elements *)
(** The table of dynamic stall, when there is one *)
Definition dsfile : Type := option (list Z * list Z * (string -> list Q)).
Section Tables.
Variables (pi : Q) (cos sin : Q -> Q) (s : setting) (sg : Q) (B E : list Z) (C : string -> list Q) (D : dsfile).
Definition columns_of (p : Z * Z) : list (str * (nat -> Q)) :=
  elem_table pi cos sin s sg (fst p) (snd p) (fun k => select B E (fst p) (snd p) (C k)) ++
  match D with Some (B', E', C') => ds_table sg (fst p) (snd p) (fun k => select B' E' (fst p) (snd p) (C' k)) | None => [] end.
Definition left_of (p : Z * Z) : list (str * (nat -> Q)) := match D with Some (B', E', C') => ds_tail sg (fst p) (snd p) (fun k => select B' E' (fst p) (snd p) (C' k)) | None => [] end.
(** The elements that have a row for every time step *)
Definition kept (n : nat) (bs : list Z) (es : Z -> list Z) : list (Z * Z) := flat_map (fun b => map (pair b) (filter (fun e => count B E b e =? n) (es b))) bs.
Definition ds_file (n : nat) (ds : option frame) (ps : list (Z * Z)) : Prop :=
  match ds, D with
  | None, None => True
  | Some d, Some (B', E', C') => elem_file d B' E' ds_keys C' /\ forall p, In p ps -> count B' E' (fst p) (snd p) = n
  | _, _ => False
  end.
(** The blades and the elements of every blade, in ascending order; the blades are numbered from one *)
Definition numbered (bs : list Z) (es : Z -> list Z) : Prop :=
  ascending bs (fun b => In b B) /\
  forall b, In b bs -> (1 <= b <= Z.of_nat (nblade s))%Z /\ ascending (es b) (fun e => exists i, nth_error B i = Some b /\ nth_error E i = Some e) /\ forall e, In e (es b) -> (0 <= e)%Z.
End Tables.

(** ** Loops *)
Lemma apart_rest n a1 a2 rest pre base new tl : Forall2 (describes n) new a1 -> Forall2 (describes n) tl a2 -> apart ((a1 ++ a2) ++ rest) (pre ++ base) -> apart rest ((pre ++ new) ++ tl ++ base).
Proof.
  intros F1 F2 A. assert (F : Forall2 (describes n) (new ++ tl) (a1 ++ a2)) by now apply Forall2_app. pose proof (apart_app n _ _ _ _ _ F A) as H. rewrite <- !app_assoc in *. exact H.
Qed.
Lemma apart_Perm a b df : Permutation a b -> apart a df -> apart b df.
Proof. intros P [N D]. split; [exact (Permutation_NoDup (Permutation_map fst P) N)|]. intros k H. apply D. exact (Permutation_in k (Permutation_sym (Permutation_map fst P)) H). Qed.
Lemma flat_perm {X Y} (f g : X -> list Y) l : Permutation (flat_map f l ++ flat_map g (rev l)) (flat_map (fun p => f p ++ g p) l).
Proof.
  induction l as [|x l IH]; [constructor|]. cbn [flat_map rev]. rewrite flat_map_app. cbn [flat_map]. rewrite app_nil_r. rewrite <- !app_assoc. apply Permutation_app_head. rewrite app_assoc. eapply Permutation_trans; [apply Permutation_app_comm|]. apply Permutation_app_head. exact IH.
Qed.
Section Loop.
Variables (pi : Q) (cos sin : Q -> Q) (s : setting) (sg : Q) (n : nat) (elem : frame) (ds : option frame) (B E : list Z) (C : string -> list Q) (D : dsfile).
Hypothesis Hn : 0 < n.
Hypothesis HE : elem_file elem B E elem_keys C.
Notation cols := (columns_of pi cos sin s sg B E C D).
Notation lefts := (left_of sg D).
Notation psi b := (map (fun i => angle pi s i - inject_Z (b - 1) * (2 * pi / inject_Z (Z.of_nat (nblade s))))%Q (seq 0 n)).
Notation keep b es := (map (pair b) (filter (fun e => count B E b e =? n) es)).
Lemma elements_ok b bld bds es : where_ elem "Blade" b = Ok bld -> match ds with None => bds = None | Some d => exists x, where_ d "Blade" b = Ok x /\ bds = Some x end -> Forall (fun e => 0 <= e)%Z es ->
  ds_file D n ds (keep b es) -> forall pre base, rows (pre ++ base) = n -> apart (flat_map (fun p => cols p ++ lefts p) (keep b es)) (pre ++ base) ->
  exists new tl, Forall2 (describes n) new (flat_map cols (keep b es)) /\ Forall2 (describes n) tl (flat_map lefts (rev (keep b es))) /\
    elements pi cos sin sg (wind pi s) (rad s) b (psi b) bld bds (List.length pre) (pre ++ base) es = ((pre ++ new) ++ tl ++ base, Ok (List.length (pre ++ new))).
Proof.
  intros EB EDS. induction es as [|e es IH]; intros P HD pre base R A; [exists [], []; repeat split; try constructor; cbn [elements]; now rewrite app_nil_r|].
  pose proof (Forall_inv P) as Pe. pose proof (Forall_inv_tail P) as Pes. cbn beta in Pe. cbn [elements]. destruct (sec_ok elem B E _ C b e HE) as (bld' & EB' & _ & ES). rewrite EB in EB'. injection EB' as <-.
  cbn [filter] in *. destruct (Nat.eqb_spec (count B E b e) n) as [EC|NC].
  - cbn [map flat_map] in *.
    assert (HK : forall k, In k elem_keys -> col (map (fun c => (fst c, select B E b e (snd c))) elem) (S_ k) = Ok (select B E b e (C k)) /\ List.length (select B E b e (C k)) = n).
    { intros k Hk. destruct (sec_col elem B E _ C b e k HE Hk) as [H1 H2]. split; [exact H1|now rewrite H2]. }
    pose (dd := match D with Some (B', E', C') => Some (fun k => select B' E' b e (C' k)) | None => None end : option (string -> list Q)).
    assert (HO : ds_ok n bds dd e).
    { subst dd. destruct ds as [d|], D as [[[B' E'] C']|]; try contradiction; [|rewrite EDS; exact I]. destruct HD as [HF HC]. destruct EDS as (x & EX & ->). cbn [ds_ok].
      destruct (sec_ok d B' E' _ C' b e HF) as (x' & EX' & _ & ES'). rewrite EX in EX'. injection EX' as <-. eexists. split; [exact ES'|]. intros k Hk. destruct (sec_col d B' E' _ C' b e k HF Hk) as [H1 H2]. split; [exact H1|]. rewrite H2. apply (HC (b, e)). now left. }
    assert (X1 : dst sg dd b e = match D with Some (B', E', C') => ds_table sg b e (fun k => select B' E' b e (C' k)) | None => [] end) by (subst dd; destruct D as [[[? ?] ?]|]; reflexivity).
    assert (X2 : tails sg dd b e = lefts (b, e)) by (subst dd; unfold left_of; destruct D as [[[? ?] ?]|]; reflexivity).
    destruct (element_ok pi cos sin s sg n bld bds b e (fun k => select B E b e (C k)) dd _ pre base Pe Hn ES) as (n1 & t1 & F1 & G1 & E1); [rewrite (sec_rows elem B E _ C b e HE); exact EC|exact HK|exact HO|exact R| |].
    { rewrite X1, X2. apply apart_left in A. unfold columns_of in A. cbn [fst snd] in A. rewrite <- app_assoc in A. exact A. }
    rewrite E1. rewrite X1 in F1. rewrite X2 in G1. destruct (IH Pes) with (pre := pre ++ n1) (base := t1 ++ base) as (n2 & t2 & F2 & G2 & E2).
    + destruct ds as [d|], D as [[[B' E'] C']|]; try contradiction; [|exact I]. destruct HD as [HF HC]. split; [exact HF|]. intros p Hp. apply HC. now right.
    + apply (run_rows n _ _ F1). rewrite app_assoc. apply (run_rows n _ _ G1). exact R.
    + apply (apart_rest n (cols (b, e)) (lefts (b, e))); assumption.
    + exists (n1 ++ n2), (t2 ++ t1). split; [apply Forall2_app; assumption|]. split; [cbn [rev]; rewrite flat_map_app; cbn [flat_map]; rewrite app_nil_r; apply Forall2_app; assumption|].
      rewrite E2. rewrite <- !app_assoc. reflexivity.
  - assert (EE : element pi cos sin sg (wind pi s) (rad s) b (psi b) bld bds (List.length pre) (pre ++ base) e = (pre ++ base, Ok (List.length pre))).
    { unfold element. rewrite ES, (sec_rows elem B E _ C b e HE), R. destruct (Nat.eqb_spec (count B E b e) n); [contradiction|reflexivity]. }
    rewrite EE. exact (IH Pes HD pre base R A).
Qed.
Lemma pick_map {X Y} (f : X -> Y) m l : pick m (map f l) = map f (pick m l).
Proof. revert l. induction m as [|b m IH]; intros [|x l]; try reflexivity. cbn [map]. rewrite !pick_cons. destruct b; cbn [map]; now rewrite IH. Qed.
Lemma pick_in b e : forall (B E : list Z), In e (pick (map (fun x => Qeq_bool x (inject_Z b)) (map inject_Z B)) E) <-> exists i, nth_error B i = Some b /\ nth_error E i = Some e.
Proof.
  induction B0 as [|b' B0 IH]; intros E0; [split; [contradiction|intros ([|i] & H & _); discriminate]|]. destruct E0 as [|e' E0]; [split; [contradiction|intros ([|i] & _ & H); discriminate]|].
  cbn [map]. rewrite pick_cons, Qeqb_Z. destruct (Z.eqb_spec b' b) as [->|N].
  - cbn [In]. rewrite IH. split; [intros [->|(i & H)]; [exists 0; now split|now exists (S i)]|]. intros ([|i] & H1 & H2); [left; cbn in H2; congruence|right; now exists i].
  - rewrite IH. split; [intros (i & H); now exists (S i)|]. intros ([|i] & H1 & H2); [cbn in H1; congruence|now exists i].
Qed.
Lemma az_ok b : (1 <= b <= Z.of_nat (nblade s))%Z -> py_at (azimuths pi (nblade s)) (b - 1) = Ok (inject_Z (b - 1) * (2 * pi / inject_Z (Z.of_nat (nblade s))))%Q.
Proof.
  intro H. unfold py_at. destruct (Z.ltb_spec (b - 1) 0); [lia|]. destruct (Z.ltb_spec (b - 1) 0); [lia|]. unfold azimuths. rewrite nth_error_map. 
  assert (X : nth_error (seq 0 (nblade s)) (Z.to_nat (b - 1)) = Some (Z.to_nat (b - 1))). { rewrite (nth_error_nth' _ 0) by (rewrite seq_length; lia). f_equal. rewrite seq_nth by lia. reflexivity. }
  rewrite X. cbn [option_map]. now rewrite Z2Nat.id by lia.
Qed.
Lemma blade_ok b es : (1 <= b <= Z.of_nat (nblade s))%Z -> ascending es (fun e => exists i, nth_error B i = Some b /\ nth_error E i = Some e) -> (forall e, In e es -> 0 <= e)%Z ->
  ds_file D n ds (keep b es) -> forall pre base, rows (pre ++ base) = n -> apart (flat_map (fun p => cols p ++ lefts p) (keep b es)) (pre ++ base) ->
  exists new tl, Forall2 (describes n) new (flat_map cols (keep b es)) /\ Forall2 (describes n) tl (flat_map lefts (rev (keep b es))) /\
    blade pi cos sin sg (wind pi s) (rad s) (map (angle pi s) (seq 0 n)) elem ds (azimuths pi (nblade s)) (List.length pre) (pre ++ base) b = ((pre ++ new) ++ tl ++ base, Ok (List.length (pre ++ new))).
Proof.
  intros Hb HA H0 HD pre base R A. unfold blade. destruct (sec_ok elem B E _ C b 0%Z HE) as (bld & EB & EC & _). rewrite EB. cbn [bind].
  assert (U : map trunc (unique (pick (map (fun x => Qeq_bool x (inject_Z b)) (map inject_Z B)) (map inject_Z E))) = es).
  { rewrite pick_map. apply unique_ok. destruct HA as [S M]. split; [exact S|]. intro z. rewrite pick_in. apply M. }
  assert (X : exists bds, match ds with None => Ok None | Some d => x <- where_ d "Blade" b ;; Ok (Some x) end = Ok bds /\ match ds with None => bds = None | Some d => exists x, where_ d "Blade" b = Ok x /\ bds = Some x end).
  { destruct ds as [d|], D as [[[B' E'] C']|]; try contradiction; [|exists None; now split]. destruct HD as [HF _]. destruct (sec_ok d B' E' _ C' b 0%Z HF) as (x & EX & _). rewrite EX. exists (Some x). split; [reflexivity|]. exists x. now split. }
  destruct X as (bds & X1 & X2). rewrite X1. cbn [bind]. rewrite EC. cbn [bind]. rewrite (az_ok b Hb). cbn [bind]. rewrite U, map_map.
  apply (elements_ok b bld bds es EB X2); try assumption. apply Forall_forall. exact H0.
Qed.
Lemma blades_ok es bs : (forall b, In b bs -> (1 <= b <= Z.of_nat (nblade s))%Z /\ ascending (es b) (fun e => exists i, nth_error B i = Some b /\ nth_error E i = Some e) /\ forall e, In e (es b) -> (0 <= e)%Z) ->
  ds_file D n ds (kept B E n bs es) -> forall pre base, rows (pre ++ base) = n -> apart (flat_map (fun p => cols p ++ lefts p) (kept B E n bs es)) (pre ++ base) ->
  exists new tl, Forall2 (describes n) new (flat_map cols (kept B E n bs es)) /\ Forall2 (describes n) tl (flat_map lefts (rev (kept B E n bs es))) /\
    blades pi cos sin sg (wind pi s) (rad s) (map (angle pi s) (seq 0 n)) elem ds (azimuths pi (nblade s)) (List.length pre) (pre ++ base) bs = ((pre ++ new) ++ tl ++ base, Ok (List.length (pre ++ new))).
Proof.
  induction bs as [|b bs IH]; intros H HD pre base R A; [exists [], []; repeat split; try constructor; cbn [blades]; now rewrite app_nil_r|].
  cbn [kept flat_map blades] in *. fold (kept B E n bs es) in *. rewrite flat_map_app in A. destruct (H b (or_introl eq_refl)) as (Hb & Ha & H0).
  assert (HD1 : ds_file D n ds (keep b (es b)) /\ ds_file D n ds (kept B E n bs es)).
  { destruct ds as [d|], D as [[[B' E'] C']|]; try contradiction; [|now split]. destruct HD as [HF HC]. split; (split; [exact HF|intros p Hp; apply HC; apply in_or_app; auto]). }
  destruct HD1 as [HD1 HD2]. destruct (blade_ok b (es b) Hb Ha H0 HD1 pre base R (apart_left _ _ _ A)) as (n1 & t1 & F1 & G1 & E1). rewrite E1.
  destruct (IH (fun b' I => H b' (or_intror I)) HD2 (pre ++ n1) (t1 ++ base)) as (n2 & t2 & F2 & G2 & E2).
  - apply (run_rows n _ _ F1). rewrite app_assoc. apply (run_rows n _ _ G1). exact R.
  - apply (apart_rest n (flat_map cols (keep b (es b))) (flat_map lefts (rev (keep b (es b))))); try assumption. apply (apart_Perm (flat_map (fun p => cols p ++ lefts p) (keep b (es b)) ++ flat_map (fun p => cols p ++ lefts p) (kept B E n bs es))); [|exact A]. apply Permutation_app_tail, Permutation_sym, flat_perm.
  - exists (n1 ++ n2), (t2 ++ t1). rewrite flat_map_app, rev_app_distr, flat_map_app. split; [now apply Forall2_app|]. split; [now apply Forall2_app|]. rewrite E2. rewrite <- !app_assoc. reflexivity.
Qed.
End Loop.

(** ** Names of all the columns *)
Section AllNames.
Variables (pi : Q) (cos sin : Q -> Q) (s : setting) (sg : Q) (B E : list Z) (C : string -> list Q) (D : dsfile).
Notation cols := (columns_of pi cos sin s sg B E C D).
Notation lefts := (left_of sg D).
Lemma names_of p k : In k (map fst (cols p ++ lefts p)) -> exists x, k = name (fst p) (snd p) x /\ letter x = true.
Proof.
  unfold columns_of, left_of, elem_table, ds_table, ds_tail. cbv zeta. destruct D as [[[B' E'] C']|]; cbn [app map fst In]; intro H; repeat (destruct H as [<-|H]; [eexists; split; reflexivity|]); contradiction.
Qed.
Lemma one_nodup p : (0 <= fst p)%Z -> (0 <= snd p)%Z -> NoDup (map fst (cols p ++ lefts p)).
Proof.
  intros Hb He. assert (X : exists xs, map fst (cols p ++ lefts p) = map (name (fst p) (snd p)) xs /\ NoDup xs /\ forall x, In x xs -> letter x = true).
  { unfold columns_of, left_of, elem_table, ds_table, ds_tail. cbv zeta. destruct D as [[[B' E'] C']|].
    - exists ["Alpha_[deg]"; "Alpha50_[deg]"; "Alpha75_[deg]"; "Cl_[-]"; "Cd_[-]"; "Cm_[-]"; "Cn_[-]"; "Ct_[-]"; "Ct2_[-]"; "Cxg_[-]"; "Cyg_[-]"; "Czg_[-]"; "ClC_[-]"; "Re_[-]"; "Gam_[m^2/s]"; "Vrel_[m/s]"; "Vindx_[m/s]"; "Vindy_[m/s]";
        "alpha_34_[deg]"; "alphaE_[deg]"; "alphaED_[deg]"; "adotnorm_[-]"; "activeL_[-]"; "activeD_[-]"; "alphaLagD_[deg]"; "delP_[-]"; "delN_[-]"; "transA_[-]"; "gammaL_[-]"; "gammaD_[-]"; "dalphaL_[deg]"; "Tu_[s]"; "alphaDot_[rad/s]"; "alphaDot2_[rad/s]"; "dalphaD_[deg]"]%string.
      split; [reflexivity|]. split; [repeat (constructor; [cbn [In]; intuition discriminate|]); constructor|]. cbn [In]. intros x H. repeat (destruct H as [<-|H]; [reflexivity|]). contradiction.
    - exists ["Alpha_[deg]"; "Alpha50_[deg]"; "Alpha75_[deg]"; "Cl_[-]"; "Cd_[-]"; "Cm_[-]"; "Cn_[-]"; "Ct_[-]"; "Ct2_[-]"; "Cxg_[-]"; "Cyg_[-]"; "Czg_[-]"; "ClC_[-]"; "Re_[-]"; "Gam_[m^2/s]"; "Vrel_[m/s]"; "Vindx_[m/s]"; "Vindy_[m/s]"]%string.
      split; [reflexivity|]. split; [repeat (constructor; [cbn [In]; intuition discriminate|]); constructor|]. cbn [In]. intros x H. repeat (destruct H as [<-|H]; [reflexivity|]). contradiction. }
  destruct X as (xs & -> & N & L). induction N as [|x xs Nx N IH]; [constructor|]. cbn [map]. constructor; [|apply IH; intros y Hy; apply L; now right]. intro I. apply in_map_iff in I. destruct I as (y & Ey & Iy).
  apply name_inj in Ey; try assumption; [destruct Ey as (_ & _ & ->); contradiction|apply L; now right|apply L; now left].
Qed.
Lemma all_nodup ps : NoDup ps -> (forall p, In p ps -> 0 <= fst p /\ 0 <= snd p)%Z -> NoDup (map fst (flat_map (fun p => cols p ++ lefts p) ps)).
Proof.
  induction 1 as [|p ps Np N IH]; intro H; cbn [flat_map map]; [constructor|]. rewrite map_app. destruct (H p (or_introl eq_refl)) as [H1 H2]. apply NoDup_app_disjoint; [now apply one_nodup|apply IH; intros q Hq; apply H; now right|].
  intros k K1 K2. destruct (names_of _ _ K1) as (x & -> & Lx). apply in_map_iff in K2. destruct K2 as (c & Ec & Ic). apply in_flat_map in Ic. destruct Ic as (q & Iq & Ic).
  destruct (names_of q (fst c)) as (y & Ey & Ly); [now apply in_map|]. rewrite Ec in Ey. destruct (H q (or_intror Iq)) as [H3 H4]. apply name_inj in Ey; try assumption. destruct Ey as (E1 & E2 & _). apply Np. replace p with q; [exact Iq|]. destruct p, q; cbn in *; congruence.
Qed.
Lemma sorted_nodup l : StronglySorted Z.lt l -> NoDup l.
Proof. induction 1 as [|x l S IH F]; constructor; [|exact IH]. intro I. rewrite Forall_forall in F. specialize (F x I). lia. Qed.
Lemma kept_nodup n bs es : numbered s B E bs es -> NoDup (kept B E n bs es) /\ forall p, In p (kept B E n bs es) -> (0 <= fst p /\ 0 <= snd p)%Z /\ In (fst p) bs.
Proof.
  intros [[S _] H]. apply sorted_nodup in S. assert (H' : forall b, In b bs -> (0 <= b)%Z /\ NoDup (es b) /\ forall e, In e (es b) -> (0 <= e)%Z) by (intros b Hb; destruct (H b Hb) as (H1 & [H2 _] & H3); repeat split; [lia|now apply sorted_nodup|exact H3]). clear H.
  induction S as [|b bs Nb N IH]; [split; [constructor|contradiction]|]. destruct IH as [IH1 IH2]; [intros b' Hb'; apply H'; now right|]. cbn [kept flat_map]. fold (kept B E n bs es). destruct (H' b (or_introl eq_refl)) as (H1 & H2 & H3).
  assert (X : forall p, In p (map (pair b) (filter (fun e => count B E b e =? n) (es b))) -> fst p = b /\ (0 <= snd p)%Z) by (intros p Hp; apply in_map_iff in Hp; destruct Hp as (e & <- & He); apply filter_In in He; split; [reflexivity|apply H3; exact (proj1 He)]).
  split.
  - apply NoDup_app_disjoint; [|exact IH1|].
    + apply FinFun.Injective_map_NoDup; [intros x y Exy; congruence|]. now apply NoDup_filter.
    + intros p P1 P2. destruct (X p P1) as [<- _]. apply Nb. exact (proj2 (IH2 p P2)).
  - intros p Hp. apply in_app_or in Hp. destruct Hp as [Hp|Hp]; [destruct (X p Hp) as [Ep Hs]; rewrite Ep; repeat split; [exact H1|exact Hs|now left]|]. destruct (IH2 p Hp) as [Q1 Q2]. split; [exact Q1|now right].
Qed.
End AllNames.

(** C121: to a table with a row for every time step, the columns of every element of every blade that has as many rows are added from the position given, in the order of blades and elements, with the values stated; behind them come, in the reverse order,
    the two columns of dynamic stall that are left behind; the other columns stay as they are. *)
Theorem C121_elements pi cos sin o s sg elem ds B E C D bs es n df c : set_of pi o s -> elem_file elem B E elem_keys C -> numbered s B E bs es -> ds_file D n ds (kept B E n bs es) ->
  rows df = n -> 0 < n -> (Z.of_nat n <= rots s * per_rot s)%Z -> c <= List.length df ->
  (forall k, In k (map fst df) -> ~ In k (map fst (flat_map (fun p => columns_of pi cos sin s sg B E C D p ++ left_of sg D p) (kept B E n bs es)))) ->
  exists new behind, elem_data pi cos sin o sg elem ds df c = (firstn c df ++ new ++ behind ++ skipn c df, Ok (c + List.length new)) /\
    Forall2 (describes n) new (flat_map (columns_of pi cos sin s sg B E C D) (kept B E n bs es)) /\ Forall2 (describes n) behind (flat_map (left_of sg D) (rev (kept B E n bs es))).
Proof.
  intros Hset HE HN HD R Hn Hle Hc Hf. unfold elem_data. rewrite (U_ok pi o s Hset). cbn [bind]. rewrite (R_ok pi o s Hset). cbn [bind].
  assert (BN : blade_number o = Ok (nblade s)). { destruct Hset as (_ & _ & _ & _ & _ & _ & _ & _ & H & _). unfold blade_number, item. now rewrite H. }
  rewrite BN. cbn [bind]. rewrite (time_ok pi cos sin o s Hset). cbn [bind]. rewrite (omega_ok pi o s Hset). cbn [bind]. pose proof HE as (CB & _). rewrite (col_ok _ _ _ CB). cbn [bind]. cbv zeta. rewrite R, map_length, seq_length.
  assert (ET : (if n <? Z.to_nat (rots s * per_rot s) then firstn n (map (t pi s) (seq 0 (Z.to_nat (rots s * per_rot s)))) else map (t pi s) (seq 0 (Z.to_nat (rots s * per_rot s)))) = map (t pi s) (seq 0 n)).
  { destruct (Nat.ltb_spec n (Z.to_nat (rots s * per_rot s))); [apply firstn_map_seq; lia|]. now replace n with (Z.to_nat (rots s * per_rot s)) by lia. }
  rewrite ET, map_map. pose proof HN as [HA HB]. rewrite (unique_ok B bs HA). destruct (kept_nodup s B E n bs es HN) as [ND NN].
  assert (A : apart (flat_map (fun p => columns_of pi cos sin s sg B E C D p ++ left_of sg D p) (kept B E n bs es)) (firstn c df ++ skipn c df)).
  { split; [apply all_nodup; [exact ND|intros p Hp; exact (proj1 (NN p Hp))]|]. rewrite firstn_skipn. intros k K1 K2. exact (Hf k K2 K1). }
  assert (R' : rows (firstn c df ++ skipn c df) = n) by now rewrite firstn_skipn.
  destruct (blades_ok pi cos sin s sg n elem ds B E C D Hn HE es bs HB HD (firstn c df) (skipn c df) R' A) as (new & tl & F1 & F2 & EB).
  rewrite firstn_skipn, firstn_length_le in EB by exact Hc. exists new, tl. split; [|now split].
  change (fun x => (t pi s x * omega pi s)%Q) with (angle pi s). rewrite EB, app_length, firstn_length_le by exact Hc. now rewrite <- app_assoc.
Qed.
Lemma not_time pi cos sin s P T X Y Z BX BY BZ BT b e x : ~ In (name b e x) (map fst (new_table pi cos sin s P T X Y Z BX BY BZ BT)).
Proof.
  unfold new_table, name. change (S_ "AB") with ["A"%char; "B"%char]. cbn [app]. rewrite !map_app. intro H. apply in_app_or in H. destruct H as [H|H]; [cbn [rotor_table map fst In] in H; repeat (destruct H as [H|H]; [discriminate H|]); exact H|].
  apply in_app_or in H. destruct H as [H|[H|[]]]; [|discriminate H]. apply in_map_iff in H. destruct H as (c & Ec & Ic). apply in_flat_map in Ic. destruct Ic as (i & _ & Ic). destruct (blade_in pi cos sin s BX BY BZ BT (fst c) i) as (y & a & E' & Hy); [now apply in_map|].
  rewrite Ec in E'. destruct Hy as [-> | ->]; discriminate E'.
Qed.
(** C121: the data frame: the columns of OpenFAST, the columns of the elements, and the columns of the file. *)
Theorem C121_frame pi cos sin o s sg df elem B E C D bs es n P T X Y Z BX BY BZ BT : set_of pi o s ->
  dfTime o = Some df -> df <> [] -> Forall (fun c => List.length (snd c) = n) df -> coefficients df (nblade s) P T X Y Z BX BY BZ BT -> 2 <= n -> (Z.of_nat n <= rots s * per_rot s)%Z ->
  dfElem o = Some elem -> elem_file elem B E elem_keys C -> numbered s B E bs es -> ds_file D n (dfDS o) (kept B E n bs es) ->
  (forall k, In k (map fst df) -> ~ In k (map fst (new_table pi cos sin s P T X Y Z BX BY BZ BT))) ->
  (forall k, In k (map fst df) -> ~ In k (map fst (flat_map (fun p => columns_of pi cos sin s sg B E C D p ++ left_of sg D p) (kept B E n bs es)))) ->
  exists new els behind, to_frame pi cos sin sg o = (mk_cactus (config o) (cases o) (geom o) (Some (new ++ els ++ behind ++ df)) (dfElem o) (dfDS o), Ok (new ++ els ++ behind ++ df)) /\
    Forall2 (describes n) new (new_table pi cos sin s P T X Y Z BX BY BZ BT) /\
    Forall2 (describes n) els (flat_map (columns_of pi cos sin s sg B E C D) (kept B E n bs es)) /\ Forall2 (describes n) behind (flat_map (left_of sg D) (rev (kept B E n bs es))).
Proof.
  intros Hset ET NE RE HC N2 LE EE HE HN HD F1 F2. destruct (C120_time_data pi cos sin o s df n P T X Y Z BX BY BZ BT Hset NE RE HC N2 LE F1) as (new & TD & DN).
  assert (MN : map fst new = map fst (new_table pi cos sin s P T X Y Z BX BY BZ BT)) by (clear -DN; induction DN as [|c x l l' [H _] F IH]; [reflexivity|cbn; now rewrite H, IH]).
  destruct (C121_elements pi cos sin o s sg elem (dfDS o) B E C D bs es n (new ++ df) (List.length new) Hset HE HN HD) as (els & behind & ED & D1 & D2).
  - destruct DN as [|[k v] x l l' [_ [H _]] F]; [|exact H]. cbn [app]. destruct df as [|[k v] df]; [congruence|]. now inversion RE.
  - lia.
  - exact LE.
  - rewrite app_length. lia.
  - intros k K1 K2. rewrite map_app in K1. apply in_app_or in K1. destruct K1 as [K1|K1]; [|exact (F2 k K1 K2)]. rewrite MN in K1. apply in_map_iff in K2. destruct K2 as (c & Ec & Ic). apply in_flat_map in Ic. destruct Ic as (p & _ & Ic).
    destruct (names_of pi cos sin s sg B E C D p (fst c)) as (x & Ex & _); [now apply in_map|]. rewrite Ec in Ex. subst k. rewrite Ex in K1. exact (not_time _ _ _ _ _ _ _ _ _ _ _ _ _ _ _ _ K1).
  - exists new, els, behind. unfold to_frame. rewrite ET, TD, EE, ED. unfold with_time. rewrite EE.
    rewrite firstn_app, Nat.sub_diag, firstn_all, firstn_O, app_nil_r, skipn_app, skipn_all, Nat.sub_diag. cbn [skipn app]. repeat split; assumption.
Qed.
(** C121: the names of the new columns of the elements are all different. *)
Theorem C121_names pi cos sin s sg B E C D n bs es : numbered s B E bs es -> NoDup (map fst (flat_map (fun p => columns_of pi cos sin s sg B E C D p ++ left_of sg D p) (kept B E n bs es))).
Proof. intro HN. destruct (kept_nodup s B E n bs es HN) as [ND NN]. apply all_nodup; [exact ND|]. intros p Hp. exact (proj1 (NN p Hp)). Qed.
(** C121, refuted: the column of the rate in rad/s computed by differences is the negative of the change of the angle in degrees from one row to the next, whatever the time step. *)
Theorem C121_rate_refuted sg b e c i : exists g, In (name b e "alphaDot2_[rad/s]", g) (ds_tail sg b e c) /\ (g (S i) == - (nth (S i) (c "alpha (deg)"%string) 0 - nth i (c "alpha (deg)"%string) 0))%Q.
Proof. eexists. split; [left; reflexivity|]. unfold at_. cbn beta iota. ring. Qed.

(** ** A second data frame *)
Lemma run_try_names l : forall c df df' c', run_try c df l = (df', c') -> incl (map fst df) (map fst df').
Proof.
  induction l as [|[st mv] l IH]; intros c df df' c' H; cbn [run_try] in H; [injection H as <- _; apply incl_refl|]. destruct (run c df [st]) as [d [m|x]] eqn:ER; pose proof (run_names _ _ _ _ _ ER) as I; [exact (incl_tran I (IH _ _ _ _ H))|injection H as <- _; exact I].
Qed.
Lemma element_names pi cos sin sg U R b psi bld bds c df e df' r : element pi cos sin sg U R b psi bld bds c df e = (df', r) -> incl (map fst df) (map fst df').
Proof.
  unfold element. intro H. destruct (where_ bld "Element" e) as [sec|x]; [|injection H as <- _; apply incl_refl]. destruct (negb _); [injection H as <- _; apply incl_refl|]. destruct (bind _ _) as [[ux uz]|x]; [|injection H as <- _; apply incl_refl].
  destruct (run c df _) as [d1 [c1|x]] eqn:E1; pose proof (run_names _ _ _ _ _ E1) as I1; [|injection H as <- _; exact I1]. destruct bds as [bds|]; [|injection H as <- _; exact I1].
  destruct (where_ bds "Element" e) as [sd|x]; [|injection H as <- _; exact I1]. destruct (run c1 d1 _) as [d2 [c2|x]] eqn:E2; pose proof (run_names _ _ _ _ _ E2) as I2; [|injection H as <- _; exact (incl_tran I1 I2)].
  destruct (run_try c2 d2 _) as [d3' c3] eqn:E3. injection H as <- _. exact (incl_tran I1 (incl_tran I2 (run_try_names _ _ _ _ _ E3))).
Qed.
Lemma elements_names pi cos sin sg U R b psi bld bds es : forall c df df' r, elements pi cos sin sg U R b psi bld bds c df es = (df', r) -> incl (map fst df) (map fst df').
Proof.
  induction es as [|e es IH]; intros c df df' r H; cbn [elements] in H; [injection H as <- _; apply incl_refl|]. destruct (element pi cos sin sg U R b psi bld bds c df e) as [d [m|x]] eqn:EE; pose proof (element_names _ _ _ _ _ _ _ _ _ _ _ _ _ _ _ EE) as I; [exact (incl_tran I (IH _ _ _ _ H))|injection H as <- _; exact I].
Qed.
Lemma blades_names pi cos sin sg U R theta elem ds az bs : forall c df df' r, blades pi cos sin sg U R theta elem ds az c df bs = (df', r) -> incl (map fst df) (map fst df').
Proof.
  induction bs as [|b bs IH]; intros c df df' r H; cbn [blades] in H; [injection H as <- _; apply incl_refl|]. destruct (blade pi cos sin sg U R theta elem ds az c df b) as [d m] eqn:EB.
  assert (I : incl (map fst df) (map fst d)). { unfold blade in EB. destruct (bind _ _) as [[[[bld bds] es] azi]|x]; [exact (elements_names _ _ _ _ _ _ _ _ _ _ _ _ _ _ _ EB)|injection EB as <- _; apply incl_refl]. }
  destruct m as [m|x]; [exact (incl_tran I (IH _ _ _ _ H))|injection H as <- _; exact I].
Qed.
(** C120, refuted: a data frame can be asked for only once: after a data frame was obtained, every further call raises ValueError. *)
Theorem C120_twice_refuted pi cos sin sg sg' o o1 df1 : to_frame pi cos sin sg o = (o1, Ok df1) -> to_frame pi cos sin sg' o1 = (o1, Err ValueError).
Proof.
  unfold to_frame at 1. destruct (dfTime o) as [df|]; [|discriminate]. destruct (time_data pi cos sin o df) as [d [c|x]] eqn:ET; [|discriminate]. destruct (dfElem o) as [elem|] eqn:EE; [|destruct (_ =? _); discriminate].
  destruct (elem_data pi cos sin o sg elem (dfDS o) d c) as [d2 [m|x]] eqn:ED; [|discriminate]. intro H. injection H as <- <-. unfold to_frame. cbn [with_time dfTime].
  assert (I : incl (map fst d) (map fst d2)). { unfold elem_data in ED. destruct (bind _ _) as [[[[[U R] nb] th] bs]|x]; [exact (blades_names _ _ _ _ _ _ _ _ _ _ _ _ _ _ _ ED)|discriminate]. }
  destruct (time_names _ _ _ _ _ _ _ ET) as [IT _]. pose proof (time_again _ _ _ _ _ _ _ ET d2 (I _ IT)) as TA. change (with_time o d2) with (with_time (with_time o d) d2).
  change (time_data pi cos sin (with_time (with_time o d) d2) d2) with (time_data pi cos sin (with_time o d) d2). rewrite TA. reflexivity.
Qed.

(** ** An example: a blade with elements 1 and 2, and an element 3 with only one row *)
Definition ex_B : list Z := [1; 1; 1; 1; 1]%Z.
Definition ex_E : list Z := [1; 2; 1; 2; 3]%Z.
Definition ex_C (k : string) : list Q := [1; 2; 3; 4; 5]%Q.
Definition ex_elem (ks : list string) : frame := (S_ "Blade", map inject_Z ex_B) :: (S_ "Element", map inject_Z ex_E) :: map (fun k => (S_ k, ex_C k)) ks.
Example ex_kept : kept ex_B ex_E 2 [1%Z] (fun _ => [1; 2; 3]%Z) = [(1, 1); (1, 2)]%Z.
Proof. reflexivity. Qed.
Lemma ex_file ks : NoDup (map fst (ex_elem ks)) -> elem_file (ex_elem ks) ex_B ex_E ks ex_C.
Proof.
  intro N. unfold elem_file. repeat split.
  - now apply (column_at _ _ _ 0).
  - now apply (column_at _ _ _ 1).
  - unfold ex_elem. repeat (constructor; [reflexivity|]). apply Forall_forall. intros c H. apply in_map_iff in H. destruct H as (k & <- & _). reflexivity.
  - intros k H. apply In_nth_error in H. destruct H as [i H]. apply (column_at _ _ _ (S (S i))); [exact N|]. unfold ex_elem. cbn [nth_error]. rewrite nth_error_map, H. reflexivity.
Qed.
Lemma ex_elem_nodup : NoDup (map fst (ex_elem elem_keys)) /\ NoDup (map fst (ex_elem ds_keys)).
Proof. split; cbn [ex_elem elem_keys ds_keys map fst]; repeat (constructor; [cbn [In]; intuition discriminate|]); constructor. Qed.
Example ex_numbered : numbered ex_setting ex_B ex_E [1%Z] (fun _ => [1; 2; 3]%Z).
Proof.
  unfold numbered, ascending. split; [split; [repeat constructor|cbn; intuition]|]. intros b [<-|[]]. split; [cbn; lia|]. split; [split; [repeat (constructor; [|repeat (constructor; [lia|]); constructor]); constructor|]|cbn; intuition lia].
  intro z. split.
  - intros [<-|[<-|[<-|[]]]]; [exists 0|exists 1|exists 4]; split; reflexivity.
  - intros (i & H1 & H2). unfold ex_E in H2. do 5 (destruct i as [|i]; [cbn in H2; injection H2 as <-; cbn; tauto|]). destruct i; discriminate.
Qed.
Example ex_frame cos sin sg : exists new els behind,
  snd (to_frame (22 # 7) cos sin sg (ex_cactus (ex_time [1; 2]%Q) (Some (ex_elem elem_keys)) (Some (ex_elem ds_keys)))) = Ok (new ++ els ++ behind ++ ex_time [1; 2]%Q) /\ map (@List.length _) [new; els; behind] = [34; 66; 4].
Proof.
  destruct (ex_rows [1; 2]%Q 2 eq_refl) as [NE R]. destruct ex_elem_nodup as [N1 N2].
  destruct (C121_frame (22 # 7) cos sin (ex_cactus (ex_time [1; 2]%Q) (Some (ex_elem elem_keys)) (Some (ex_elem ds_keys))) ex_setting sg (ex_time [1; 2]%Q) (ex_elem elem_keys) ex_B ex_E ex_C (Some (ex_B, ex_E, ex_C)) [1%Z] (fun _ => [1; 2; 3]%Z) 2 _ _ _ _ _ _ _ _ _
    (ex_set _ _ _) eq_refl NE R (ex_coefs _) (le_n _)) as (new & els & behind & E & F1 & F2 & F3).
  - cbn. lia.
  - reflexivity.
  - now apply ex_file.
  - exact ex_numbered.
  - split; [now apply ex_file|]. rewrite ex_kept. intros p [<-|[<-|[]]]; reflexivity.
  - apply ex_fresh.
  - intros k K1 K2. apply in_map_iff in K2. destruct K2 as (c & Ec & Ic). apply in_flat_map in Ic. destruct Ic as (p & _ & Ic). destruct (names_of _ _ _ _ _ _ _ _ _ p (fst c) (in_map fst _ _ Ic)) as (x & Ex & _). rewrite Ec in Ex. rewrite Ex in K1. clear -K1.
    unfold name in K1. change (S_ "AB") with ["A"%char; "B"%char] in K1. cbn [app] in K1. unfold ex_time in K1. rewrite map_map in K1. cbn [map fst In] in K1. repeat (destruct K1 as [K1|K1]; [discriminate K1|]). exact K1.
  - exists new, els, behind. rewrite E. split; [reflexivity|]. cbn [map]. rewrite <- (map_length fst new), <- (map_length fst els), <- (map_length fst behind).
    assert (M : forall l l', Forall2 (describes 2) l l' -> map fst l = map fst l') by (intros l l' F; induction F as [|c x l l' [H _] F IH]; [reflexivity|cbn; now rewrite H, IH]).
    rewrite (M _ _ F1), (M _ _ F2), (M _ _ F3), !map_length. rewrite ex_kept. reflexivity.
Qed.

Print Assumptions C121_elements.
Print Assumptions C121_frame.
Print Assumptions C121_names.
Print Assumptions C121_rate_refuted.
Print Assumptions C120_twice_refuted.
