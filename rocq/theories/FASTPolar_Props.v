(** C134: the data frames of AeroDyn polars. *)
From Verif Require Import Py PyFacts ListFacts FASTIn_Model FASTTab_Model FASTFile_Model FASTSpec_Model FASTFile_Props FASTTab_Props FASTSpec_Props.
From Verif Require Import FASTAero_Model FASTAero_Props.
From Verif Require Import Dict.
From Coq Require Import QArith Lqa ZifyNat ZifyBool.
Local Open Scope nat_scope.
Local Notation ent := (FASTFile_Model.entry Q).

Section Polar.
Variables (pi : Q) (cos sin : Q -> Q) (number : val -> numv).
(** ** Specification *)
(** The last angle below [v] is the [i]-th *)
Definition Last_below (al : list Q) (v : Q) (i : nat) : Prop := exists a, nth_error al i = Some a /\ (a < v)%Q /\ forall j b, i < j -> nth_error al j = Some b -> (v <= b)%Q.
(** A parameter of the polar: a number, or not a number *)
Definition Param (es : list ent) (k : str) (v : option Q) : Prop := exists d, first_is es k (Item d) /\ number (it_value d) = match v with Some q => KNum q | None => KNan end.
(** The angle under the name [k] is just above the [i]-th *)
Definition Marks (es : list ent) (al : list Q) (k : str) (i : nat) : Prop := exists q, Param es k (Some q) /\ Last_below al q i.
(** The only column of that name *)
Definition Column (t : tab) (name : string) (i : nat) : Prop := nth_error (labels_of t) i = Some (S_ name) /\ forall j, nth_error (labels_of t) j = Some (S_ name) -> j = i.
Definition the_column (t : tab) (i : nat) (l : list Q) : Prop := Forall2 (fun r x => nth_error r i = Some x) (t_rows t) l.
(** A row of the frame *)
Definition Row (cd0 c a0 : option Q) (pts : option (nat * nat * nat)) (i : nat) (a cl cd : Q) (r : list Q) (r' : list (option Q)) : Prop :=
  let n := (cl * cos (a * pi / 180) + cd * sin (a * pi / 180))%Q in
  exists n1 pot p, r' = map Some r ++ [Some n; n1; pot] ++ p /\
    n1 = match cd0 with Some d => Some (cl * cos (a * pi / 180) + (cd - d) * sin (a * pi / 180))%Q | None => None end /\
    ((a < - (20) \/ 30 < a)%Q \/ c = None \/ a0 = None -> pot = None) /\
    (forall s z, c = Some s -> a0 = Some z -> (- (20) <= a <= 30)%Q -> exists x, pot = Some x /\ (x == s * ((a - z) * pi / 180))%Q) /\
    match pts with
    | None => p = []
    | Some (i2, i1, i0) => (In i [i2; i2 + 1; i1; i1 + 1; i0; i0 + 1] -> p = [Some n]) /\ (~ In i [i2; i2 + 1; i1; i1 + 1; i0; i0 + 1] -> p = [None])
    end.
(** A table with the parameters of the given suffix, and its frame *)
Definition added : list str := map S_ ["Cn_012_[-]"; "Cn_[-]"; "Cn_Cd0off_[-]"; "Cn_pot_[-]"]%string.
Record Polar (es : list ent) (off : str) (t : tab) (al cl cd : list Q) (cd0 c a0 : option Q) : Prop := mk_Polar {
  P_square : square t;
  P_al : exists i, Column t "Alpha_[deg]" i /\ the_column t i al;
  P_cl : exists i, Column t "Cl_[-]" i /\ the_column t i cl;
  P_cd : exists i, Column t "Cd_[-]" i /\ the_column t i cd;
  P_cd0 : Param es (S_ "Cd0" ++ off) cd0; P_c : Param es (S_ "C_nalpha" ++ off) c; P_a0 : Param es (S_ "alpha0" ++ off) a0;
  P_new : forall x, In x (labels_of t) -> ~ In x added }.
Definition Frame (es : list ent) (off : str) (t : tab) (al cl cd : list Q) (cd0 c a0 : option Q) (f : oframe) : Prop :=
  exists pts, List.length (snd f) = List.length (t_rows t) /\
    fst f = labels_of t ++ [S_ "Cn_[-]"; S_ "Cn_Cd0off_[-]"; S_ "Cn_pot_[-]"] ++ match pts with Some _ => [S_ "Cn_012_[-]"] | None => [] end /\
    (forall i2 i1 i0, pts = Some (i2, i1, i0) <-> Marks es al (S_ "alpha2" ++ off) i2 /\ Marks es al (S_ "alpha1" ++ off) i1 /\ Marks es al (S_ "alpha0" ++ off) i0) /\
    forall i r a l d, nth_error (t_rows t) i = Some r -> nth_error al i = Some a -> nth_error cl i = Some l -> nth_error cd i = Some d ->
      exists r', nth_error (snd f) i = Some r' /\ Row cd0 c a0 pts i a l d r r'.

(** ** Proofs *)
Hypothesis pi_pos : (0 < pi)%Q.
Lemma rad_lt a b : (rad pi a < rad pi b <-> a < b)%Q.
Proof. unfold rad. assert (X : forall x, (x * pi / 180 == x * (pi / 180))%Q) by (intro; field). rewrite !X. assert (P : (0 < pi / 180)%Q) by (apply Qlt_shift_div_l; lra). apply Qmult_lt_r. exact P. Qed.
Lemma rad_le a b : (rad pi a <= rad pi b <-> a <= b)%Q.
Proof. split; intro H; apply Qnot_lt_le; intro X; [apply rad_lt in X|apply -> rad_lt in X]; lra. Qed.
Lemma qlt_iff a b : qlt a b = true <-> (a < b)%Q.
Proof. unfold qlt. rewrite negb_true_iff. split; intro H; [apply Qnot_le_lt; intro X; apply Qle_bool_iff in X; congruence|apply not_true_iff_false; intro X; apply Qle_bool_iff in X; lra]. Qed.
Lemma last_below_spec v l : forall i0,
  (forall j, last_below v i0 l = Some j <-> exists k, j = i0 + k /\ exists a, nth_error l k = Some a /\ (a < v)%Q /\ forall m b, k < m -> nth_error l m = Some b -> (v <= b)%Q) /\
  (last_below v i0 l = None <-> forall k a, nth_error l k = Some a -> (v <= a)%Q).
Proof.
  induction l as [|x l IH]; intro i0; cbn [last_below].
  - split; [intro j; split; [discriminate|intros (k & _ & a & H & _); destruct k; discriminate H]|]. split; [intros _ [|k] a H; discriminate H|reflexivity].
  - destruct (IH (S i0)) as (A & B). destruct (last_below v (S i0) l) as [j0|] eqn:E.
    + destruct (proj1 (A j0) eq_refl) as (k0 & -> & a0 & N0 & L0 & M0). split.
      * intro j. split.
        { intro H. injection H as <-. exists (S k0). split; [lia|]. exists a0. split; [exact N0|]. split; [exact L0|]. intros [|m] b Hm H; [lia|]. apply (M0 m); [lia|exact H]. }
        { intros (k & -> & a & N1 & L1 & M1). f_equal. destruct k as [|k].
          - exfalso. specialize (M1 (S k0) a0 ltac:(lia) N0). lra.
          - cbn in N1. destruct (lt_eq_lt_dec k k0) as [[H|H]|H]; [specialize (M1 (S k0) a0 ltac:(lia) N0); lra|subst; lia|specialize (M0 k a H N1); lra]. }
      * split; [discriminate|]. intro H. specialize (H (S k0) a0 N0). lra.
    + pose proof (proj1 B eq_refl) as NB. destruct (Qle_bool v x) eqn:Q.
      * apply Qle_bool_iff in Q. split.
        { intro j. split; [discriminate|]. intros (k & _ & a & N1 & L1 & _). destruct k as [|k]; [injection N1 as <-; lra|]. specialize (NB k a N1). lra. }
        { split; [|reflexivity]. intros _ [|k] a H; [injection H as <-; exact Q|exact (NB k a H)]. }
      * assert (Q' : (x < v)%Q) by (apply Qnot_le_lt; intro X; apply Qle_bool_iff in X; congruence). split.
        { intro j. split.
          - intro H. injection H as <-. exists 0. split; [lia|]. exists x. split; [reflexivity|]. split; [exact Q'|]. intros [|m] b Hm H; [lia|]. exact (NB m b H).
          - intros (k & -> & a & N1 & L1 & _). destruct k as [|k]; [f_equal; lia|]. specialize (NB k a N1). lra. }
        { split; [discriminate|]. intro H. specialize (H 0 x eq_refl). lra. }
Qed.
Lemma below_iff al q i : last_below (rad pi q) 0 (map (rad pi) al) = Some i <-> Last_below al q i.
Proof.
  rewrite (proj1 (last_below_spec _ _ 0) i). unfold Last_below. split.
  - intros (k & -> & a & N & L & M). cbn. rewrite nth_error_map in N. destruct (nth_error al k) as [x|] eqn:E; [|discriminate N]. injection N as <-. exists x. split; [reflexivity|]. split; [now apply rad_lt|].
    intros j b Hj Hb. apply rad_le. apply (M j); [exact Hj|]. now rewrite nth_error_map, Hb.
  - intros (a & N & L & M). exists i. split; [reflexivity|]. exists (rad pi a). rewrite nth_error_map, N. split; [reflexivity|]. split; [now apply rad_lt|].
    intros m b Hm Hb. rewrite nth_error_map in Hb. destruct (nth_error al m) as [x|] eqn:E; [|discriminate Hb]. injection Hb as <-. apply rad_le. exact (M m x Hm E).
Qed.
Lemma first_unique (es : list ent) k e e' : first_is es k e -> first_is es k e' -> e = e'.
Proof. intros A B. apply first_find in A. apply first_find in B. congruence. Qed.
Lemma find_first (es : list ent) k e : find_entry es k = Some e -> first_is es k e.
Proof.
  unfold find_entry, first_is. induction es as [|x es IH]; [discriminate|]. cbn [find]. destruct (str_eqb (lower (label_of x)) (lower k)) eqn:E.
  - intro H. injection H as ->. exists [], es. split; [reflexivity|]. split; [now apply str_eqb_eq|constructor].
  - intro H. destruct (IH H) as (a & b & -> & L & F). exists (x :: a), b. split; [reflexivity|]. split; [exact L|]. constructor; [now apply str_eqb_neq|exact F].
Qed.
Lemma marks_iff es al k i : bound pi number es (map (rad pi) al) k = Some i <-> Marks es al k i.
Proof.
  unfold bound, lookup, Marks, Param. destruct (find_entry es k) as [e|] eqn:F.
  - apply find_first in F. destruct e as [d|l ds kd dm v ns us|b|p].
    2,3,4: split; [discriminate|]; intros (q & (d' & F' & _) & _); pose proof (first_unique _ _ _ _ F F') as X; discriminate X.
    destruct (number (it_value d)) as [q| | |] eqn:N.
    + rewrite below_iff. split; [intro H; exists q; split; [exists d; split; [exact F|exact N]|exact H]|]. intros (q' & (d' & F' & N') & H). pose proof (first_unique _ _ _ _ F F') as X. injection X as <-. rewrite N in N'. injection N' as ->. exact H.
    + split; [discriminate|]. intros (q & (d' & F' & N') & _). pose proof (first_unique _ _ _ _ F F') as X. injection X as <-. congruence.
    + split; [discriminate|]. intros (q & (d' & F' & N') & _). pose proof (first_unique _ _ _ _ F F') as X. injection X as <-. congruence.
    + split; [discriminate|]. intros (q & (d' & F' & N') & _). pose proof (first_unique _ _ _ _ F F') as X. injection X as <-. congruence.
  - split; [discriminate|]. intros (q & (d' & F' & _) & _). apply first_find in F'. congruence.
Qed.
Lemma param_ok es k v : Param es k v -> exists x, lookup number es k = Ok x /\ scalar x = Ok v.
Proof. intros (d & F & N). unfold lookup. rewrite (first_find _ _ _ F). eexists. split; [reflexivity|]. rewrite N. destruct v; reflexivity. Qed.
Lemma position_some k l : forall i, nth_error l i = Some k -> (forall j, nth_error l j = Some k -> j = i) -> position k l = Some i /\ filter (str_eqb k) l = [k].
Proof.
  intros i H U. unfold position. assert (G : forall l n i, nth_error l i = Some k -> (forall j, nth_error l j = Some k -> j = i) ->
    (fix go (l : list str) (i : nat) : option nat := match l with [] => None | x :: l' => if str_eqb x k then Some i else go l' (S i) end) l n = Some (n + i) /\ filter (str_eqb k) l = [k]).
  { clear. induction l as [|x l IH]; intros n i H U; [destruct i; discriminate H|]. destruct i as [|i].
    - injection H as ->. rewrite str_eqb_refl. split; [f_equal; lia|]. cbn [filter]. rewrite str_eqb_refl. f_equal.
      assert (N : ~ In k l). { intro X. apply In_nth_error in X. destruct X as (m & X). specialize (U (S m) X). discriminate U. }
      clear U IH. induction l as [|y l IHl]; [reflexivity|]. cbn [filter]. destruct (str_eqb k y) eqn:E; [apply str_eqb_eq in E; subst; exfalso; apply N; now left|]. apply IHl. intro X. apply N. now right.
    - assert (D : x <> k). { intros ->. specialize (U 0 eq_refl). discriminate U. }
      replace (str_eqb x k) with false by (symmetry; now apply str_eqb_neq). cbn [filter]. replace (str_eqb k x) with false by (symmetry; apply str_eqb_neq; congruence).
      destruct (IH (S n) i H) as (A & B). { intros j X. specialize (U (S j) X). lia. } split; [rewrite A; f_equal; lia|exact B]. }
  destruct (G l 0 i H U) as (A & B). split; [exact A|exact B].
Qed.
Lemma column_ok t name i l : Column t name i -> the_column t i l -> column (labels_of t) (t_rows t) (S_ name) = Ok l.
Proof.
  intros (H & U) C. unfold column. destruct (position_some _ _ _ H U) as (A & B). rewrite A, B. unfold the_column in C.
  induction C as [|r x rows l Hr _ IH]; [reflexivity|]. cbn [mapM]. unfold cell_at at 1. rewrite Hr. cbn [bind]. rewrite IH. reflexivity.
Qed.
Lemma column_none t name : ~ In (S_ name) (labels_of t) -> column (labels_of t) (t_rows t) (S_ name) = Err KeyError.
Proof.
  intro H. unfold column. assert (E : filter (str_eqb (S_ name)) (labels_of t) = []).
  { induction (labels_of t) as [|y l IHl]; [reflexivity|]. cbn [filter]. destruct (str_eqb (S_ name) y) eqn:E; [apply str_eqb_eq in E; exfalso; apply H; now left|]. apply IHl. intro X. apply H. now right. }
  now rewrite E.
Qed.
Lemma row_ok cd0 c a0 pts i a cl cd r : Row cd0 c a0 pts i a cl cd r (polar_row pi cos sin cd0 c a0 pts i (rad pi a) cl cd r).
Proof.
  unfold Row, polar_row. fold (rad pi a). do 3 eexists. split; [reflexivity|]. split; [destruct cd0; reflexivity|]. split; [|split].
  - intro H. destruct (qlt (rad pi a) (rad pi (- (20))) || qlt (rad pi 30) (rad pi a)) eqn:E; [reflexivity|]. apply orb_false_iff in E. destruct E as (E1 & E2).
    destruct H as [[H|H]|[-> | ->]]; [| |reflexivity|destruct c; reflexivity].
    + rewrite <- rad_lt in H. apply qlt_iff in H. congruence.
    + rewrite <- rad_lt in H. apply qlt_iff in H. congruence.
  - intros s z -> -> (H1 & H2). assert (E : qlt (rad pi a) (rad pi (- (20))) || qlt (rad pi 30) (rad pi a) = false).
    { apply orb_false_iff. split; apply not_true_iff_false; intro X; apply qlt_iff in X; rewrite rad_lt in X; lra. }
    rewrite E. eexists. split; [reflexivity|]. unfold rad. field.
  - destruct pts as [[[i2 i1] i0]|]; [|reflexivity]. unfold two_from. split; intro H.
    + replace ((i =? i2) || (i =? i2 + 1) || ((i =? i1) || (i =? i1 + 1)) || ((i =? i0) || (i =? i0 + 1))) with true; [reflexivity|]. cbn [In] in H. lia.
    + replace ((i =? i2) || (i =? i2 + 1) || ((i =? i1) || (i =? i1 + 1)) || ((i =? i0) || (i =? i0 + 1))) with false; [reflexivity|]. cbn [In] in H. lia.
Qed.
Lemma rows_ok row : forall rows al cl cd n, List.length al = List.length rows -> List.length cl = List.length rows -> List.length cd = List.length rows ->
  List.length (polar_rows row n (map (rad pi) al) cl cd rows) = List.length rows /\
  forall i r a l d, nth_error rows i = Some r -> nth_error al i = Some a -> nth_error cl i = Some l -> nth_error cd i = Some d ->
    nth_error (polar_rows row n (map (rad pi) al) cl cd rows) i = Some (row (n + i) (rad pi a) l d r).
Proof.
  induction rows as [|r rows IH]; intros [|a al] [|l cl] [|d cd] n H1 H2 H3; try discriminate; cbn [map polar_rows].
  - split; [reflexivity|]. intros [|i] ? ? ? ? H; discriminate H.
  - cbn [List.length] in *. destruct (IH al cl cd (S n) ltac:(lia) ltac:(lia) ltac:(lia)) as (A & B). split; [now rewrite A|].
    intros [|i] r' a' l' d' E1 E2 E3 E4; cbn [nth_error] in *.
    + injection E1 as <-. injection E2 as <-. injection E3 as <-. injection E4 as <-. f_equal. f_equal. lia.
    + rewrite (B i r' a' l' d') by assumption. f_equal. f_equal. lia.
Qed.
Lemma the_column_length t i l : the_column t i l -> List.length l = List.length (t_rows t).
Proof. unfold the_column. induction 1; [reflexivity|]. cbn. congruence. Qed.
Lemma one_ok es k t al cl cd cd0 c a0 : Polar es (lab_offset k) t al cl cd cd0 c a0 ->
  exists f, polar_one pi cos sin number es k (labels_of t, t_rows t) = Ok f /\ Frame es (lab_offset k) t al cl cd cd0 c a0 f.
Proof.
  intros [S (ia & Ca & Va) (il & Cl_ & Vl) (id & Cd_ & Vd) P0 Pc Pa N]. unfold polar_one. rewrite (column_ok _ _ _ _ Ca Va). cbn [bind]. rewrite (column_ok _ _ _ _ Cl_ Vl). cbn [bind]. rewrite (column_ok _ _ _ _ Cd_ Vd). cbn [bind].
  destruct (param_ok _ _ _ P0) as (x0 & -> & X0). cbn [bind]. rewrite X0. cbn [bind]. destruct (param_ok _ _ _ Pc) as (x1 & -> & X1). cbn [bind]. destruct (param_ok _ _ _ Pa) as (x2 & -> & X2). cbn [bind]. rewrite X2. cbn [bind]. rewrite X1. cbn [bind].
  set (pts := match bound pi number es (map (rad pi) al) (S_ "alpha2" ++ lab_offset k) with Some i2 => _ | None => None end).
  assert (TK : taken (POINTS :: POLAR_COLS) (labels_of t) = false).
  { apply not_true_iff_false. intro X. unfold taken in X. apply existsb_exists in X. destruct X as (y & I & X). apply existsb_exists in X. destruct X as (y' & I' & X). apply str_eqb_eq in X. subst y'. exact (N y I' I). }
  rewrite TK. eexists. split; [reflexivity|]. exists pts. cbn [fst snd].
  destruct (rows_ok (polar_row pi cos sin cd0 c a0 pts) (t_rows t) al cl cd 0) as (L & R); try (eapply the_column_length; eassumption).
  split; [exact L|]. split; [destruct pts as [[[? ?] ?]|]; reflexivity|]. split.
  - intros i2 i1 i0. rewrite <- !marks_iff. unfold pts. destruct (bound pi number es _ (S_ "alpha2" ++ _)) as [j2|], (bound pi number es _ (S_ "alpha1" ++ _)) as [j1|], (bound pi number es _ (S_ "alpha0" ++ _)) as [j0|];
      split; try discriminate; try (intros (A & B & C); discriminate); [intro H; injection H as <- <- <-; auto|intros (A & B & C); injection A as <-; injection B as <-; injection C as <-; reflexivity].
  - intros i r a l d E1 E2 E3 E4. eexists. split; [apply (R i r a l d E1 E2 E3 E4)|]. cbn [plus]. apply row_ok.
Qed.
(** The suffix of the parameters of a table: what comes with the only underscore of its label *)
Definition Suffix (k off : str) : Prop :=
  (exists a b, k = a ++ "_"%char :: b /\ ~ In "_"%char a /\ ~ In "_"%char b /\ off = "_"%char :: b) \/
  (~ In "_"%char k /\ off = []) \/ (exists a b c, k = a ++ "_"%char :: b ++ "_"%char :: c /\ ~ In "_"%char a /\ ~ In "_"%char b /\ off = []).
Lemma free_forallb s : ~ In "_"%char s -> forallb (fun x => negb (chr_eqb x "_"%char)) s = true.
Proof. intro H. apply forallb_forall. intros x Hx. rewrite negb_true_iff. apply chr_eqb_neq. intros ->. contradiction. Qed.
Lemma suffix_ok k off : Suffix k off -> lab_offset k = off.
Proof.
  unfold lab_offset, split_chr. intros [(a & b & -> & Ha & Hb & ->)|[(Hk & ->)|(a & b & c & -> & Ha & Hb & ->)]].
  - rewrite (split_on_app_sep (fun x => chr_eqb x "_"%char)) by (try apply chr_eqb_refl; now apply free_forallb). rewrite (split_on_none (fun x => chr_eqb x "_"%char) b) by now apply free_forallb. reflexivity.
  - rewrite (split_on_none (fun x => chr_eqb x "_"%char)) by now apply free_forallb. reflexivity.
  - rewrite (split_on_app_sep (fun x => chr_eqb x "_"%char)) by (try apply chr_eqb_refl; now apply free_forallb). rewrite (split_on_app_sep (fun x => chr_eqb x "_"%char)) by (try apply chr_eqb_refl; now apply free_forallb).
    destruct (split_on (fun x => chr_eqb x "_"%char) c) as [|w ws] eqn:E; [|reflexivity]. exfalso. destruct c as [|x c]; [discriminate E|]. cbn [split_on] in E. destruct (chr_eqb x "_"); [discriminate E|]. destruct (split_on _ c); discriminate E.
Qed.
(** One table: its parameters are those without a suffix, whatever its label *)
Theorem C134_one : forall es t al cl cd cd0 c a0, tables es [t] -> ~ is_tower es -> t_label t <> S_ "DampingCoeffs" -> Polar es [] t al cl cd cd0 c a0 ->
  exists f, polar_frames pi cos sin number es = Ok (One f) /\ Frame es [] t al cl cd cd0 c a0 f.
Proof.
  intros es t al cl cd cd0 c a0 T NT D P. unfold polar_frames. rewrite (frames_one pi cos sin number es t NT T (P_square _ _ _ _ _ _ _ _ _ P) D). cbn [bind mapM fst snd].
  assert (O : lab_offset (S_ "AFCoeff") = []) by reflexivity. destruct (one_ok es (S_ "AFCoeff") t al cl cd cd0 c a0) as (f & E & F); [rewrite O; exact P|]. rewrite O in F. rewrite E. cbn [bind]. exists f. split; [reflexivity|exact F].
Qed.
(** Several tables: each has the parameters of its suffix *)
Theorem C134_many : forall es ts, tables es ts -> List.length ts <> 1 -> ~ is_tower es -> NoDup (map t_label ts) -> ~ In (S_ "DampingCoeffs") (map t_label ts) ->
  (forall t, In t ts -> exists off al cl cd cd0 c a0, Suffix (t_label t) off /\ Polar es off t al cl cd cd0 c a0) ->
  exists fs, polar_frames pi cos sin number es = Ok (Many (combine (map t_label ts) fs)) /\ List.length fs = List.length ts /\
    forall j t f, nth_error ts j = Some t -> nth_error fs j = Some f -> forall off al cl cd cd0 c a0, Suffix (t_label t) off -> Polar es off t al cl cd cd0 c a0 -> Frame es off t al cl cd cd0 c a0 f.
Proof.
  intros es ts T L NT ND D P. unfold polar_frames.
  rewrite (frames_ok pi cos sin number es es ts NT T) ; [| |exact ND|exact D].
  2:{ apply Forall_forall. intros t I. destruct (P t I) as (off & al & cl & cd & cd0 & c & a0 & _ & Q). exact (P_square _ _ _ _ _ _ _ _ _ Q). }
  cbn [bind app].
  assert (X : exists fs, mapM (fun p => f <- polar_one pi cos sin number es (fst p) (snd p) ;; Ok (fst p, f)) (map (fun t => (t_label t, (labels_of t, t_rows t))) ts) = Ok (combine (map t_label ts) fs) /\ List.length fs = List.length ts /\
    forall j t f, nth_error ts j = Some t -> nth_error fs j = Some f -> polar_one pi cos sin number es (t_label t) (labels_of t, t_rows t) = Ok f).
  { clear T L ND D. induction ts as [|t ts IH]; [exists []; split; [reflexivity|]; split; [reflexivity|]; intros [|j] ? ? H; discriminate H|].
    destruct IH as (fs & E & Lf & F); [intros t' I; apply P; now right|]. destruct (P t (or_introl eq_refl)) as (off & al & cl & cd & cd0 & c & a0 & Sf & Q).
    apply suffix_ok in Sf. rewrite <- Sf in Q. destruct (one_ok _ _ _ _ _ _ _ _ _ Q) as (f & E1 & _). exists (f :: fs). cbn [map mapM fst snd]. rewrite E1. cbn [bind]. rewrite E. cbn [bind]. split; [reflexivity|]. split; [cbn; congruence|].
    intros [|j] t' f' H1 H2; cbn [nth_error] in *; [injection H1 as <-; injection H2 as <-; exact E1|now apply (F j)]. }
  destruct X as (fs & E & Lf & F). exists fs.
  assert (M : match map (fun t => (t_label t, (labels_of t, t_rows t))) ts with [(_, f)] => [(S_ "AFCoeff", f)] | _ => map (fun t => (t_label t, (labels_of t, t_rows t))) ts end = map (fun t => (t_label t, (labels_of t, t_rows t))) ts)
    by (destruct ts as [|t [|t' ts]]; [reflexivity|now destruct L|reflexivity]).
  match goal with |- context [mapM ?g ?m] => replace (mapM g m) with (Ok (combine (map t_label ts) fs) : res (list (str * oframe))) by (symmetry; rewrite <- E; f_equal; exact M) end. cbn [bind]. split; [|split; [exact Lf|]].
  - destruct ts as [|t [|t' ts]]; destruct fs as [|f [|f' fs]]; try discriminate Lf; try reflexivity. now destruct L.
  - intros j t f H1 H2 off al cl cd cd0 c a0 Sf Q. specialize (F j t f H1 H2). apply suffix_ok in Sf. rewrite <- Sf in *. destruct (one_ok _ _ _ _ _ _ _ _ _ Q) as (f' & E1 & G). rewrite E1 in F. injection F as <-. exact G.
Qed.
(** The normal force and its part without the drag at zero lift differ by that drag *)
Theorem C134_offset : forall cd0 c a0 pts i a l d r r', Row (Some cd0) c a0 pts i a l d r r' ->
  exists n m, nth_error r' (List.length r) = Some (Some n) /\ nth_error r' (List.length r + 1) = Some (Some m) /\ (n - m == cd0 * sin (a * pi / 180))%Q.
Proof.
  intros cd0 c a0 pts i a l d r r' (n1 & pot & p & -> & -> & _). do 2 eexists. rewrite nth_error_app2, map_length, Nat.sub_diag by (rewrite map_length; lia). split; [reflexivity|].
  rewrite nth_error_app2, map_length by (rewrite map_length; lia). replace (List.length r + 1 - List.length r) with 1 by lia. split; [reflexivity|]. ring.
Qed.
(** A polar without the data of unsteady aerodynamics has no frame *)
Theorem C134_steady_refuted : forall es t al cl cd i j k, tables es [t] -> ~ is_tower es -> t_label t <> S_ "DampingCoeffs" -> square t ->
  Column t "Alpha_[deg]" i -> the_column t i al -> Column t "Cl_[-]" j -> the_column t j cl -> Column t "Cd_[-]" k -> the_column t k cd ->
  (forall e, In e es -> ~ low_is (label_of e) (S_ "Cd0")) -> polar_frames pi cos sin number es = Err KeyError.
Proof.
  intros es t al cl cd i j k T NT D S Ca Va Cl_ Vl Cd_ Vd N. unfold polar_frames. rewrite (frames_one pi cos sin number es t NT T S D). cbn [bind mapM fst snd]. unfold polar_one.
  rewrite (column_ok _ _ _ _ Ca Va). cbn [bind]. rewrite (column_ok _ _ _ _ Cl_ Vl). cbn [bind]. rewrite (column_ok _ _ _ _ Cd_ Vd). cbn [bind].
  change (lab_offset (S_ "AFCoeff")) with (@nil ascii). rewrite app_nil_r. unfold lookup.
  destruct (find_entry es (S_ "Cd0")) as [e|] eqn:F; [|reflexivity]. exfalso. apply find_first in F. destruct F as (a & b & -> & L & _). apply (N e); [apply in_or_app; right; now left|exact L].
Qed.
(** A polar whose drag at zero lift is a text, such as DEFAULT, has no frame either *)
Theorem C134_text_refuted : forall es t al cl cd i j k pre d post, tables es [t] -> ~ is_tower es -> t_label t <> S_ "DampingCoeffs" -> square t ->
  Column t "Alpha_[deg]" i -> the_column t i al -> Column t "Cl_[-]" j -> the_column t j cl -> Column t "Cd_[-]" k -> the_column t k cd ->
  es = pre ++ Item d :: post -> (forall e, In e pre -> ~ low_is (label_of e) (S_ "Cd0")) -> low_is (it_label d) (S_ "Cd0") -> number (it_value d) = KText -> polar_frames pi cos sin number es = Err TypeError.
Proof.
  intros es t al cl cd i j k pre d post T NT D S Ca Va Cl_ Vl Cd_ Vd E N L Q. unfold polar_frames. rewrite (frames_one pi cos sin number es t NT T S D). cbn [bind mapM fst snd]. unfold polar_one.
  rewrite (column_ok _ _ _ _ Ca Va). cbn [bind]. rewrite (column_ok _ _ _ _ Cl_ Vl). cbn [bind]. rewrite (column_ok _ _ _ _ Cd_ Vd). cbn [bind].
  change (lab_offset (S_ "AFCoeff")) with (@nil ascii). rewrite app_nil_r. unfold lookup.
  assert (F : find_entry es (S_ "Cd0") = Some (Item d)).
  { rewrite E. unfold find_entry. clear - N L. induction pre as [|e pre IH]; cbn [app find].
    - cbn [label_of]. unfold low_is in L. rewrite L, str_eqb_refl. reflexivity.
    - destruct (str_eqb (lower (label_of e)) (lower (S_ "Cd0"))) eqn:X; [apply str_eqb_eq in X; exfalso; apply (N e); [left; reflexivity | exact X]|]. apply IH. intros e' I. apply N. right. exact I. }
  rewrite F. cbn [bind]. rewrite Q. reflexivity.
Qed.
(** Nor has a file of coordinates, or any file with a table that is not a polar *)
Theorem C134_coordinates_refuted : forall es pre t post, tables es (pre ++ t :: post) -> ~ is_tower es -> NoDup (map t_label (pre ++ t :: post)) -> ~ In (S_ "DampingCoeffs") (map t_label (pre ++ t :: post)) -> Forall square (pre ++ t :: post) ->
  (forall x, In x pre -> exists off al cl cd cd0 c a0, Suffix (t_label x) off /\ Polar es off x al cl cd cd0 c a0) ->
  ~ In (S_ "Alpha_[deg]") (labels_of t) -> polar_frames pi cos sin number es = Err KeyError.
Proof.
  intros es pre t post T NT ND D S P H. unfold polar_frames. rewrite (frames_ok pi cos sin number es es _ NT T S [] ND D). cbn [bind app].
  set (g := fun p : str * frame_ => f <- polar_one pi cos sin number es (fst p) (snd p) ;; Ok (fst p, f)).
  assert (B : forall k, g (k, (labels_of t, t_rows t)) = Err KeyError). { intro k. unfold g. cbn [fst snd]. unfold polar_one. rewrite (column_none _ _ H). reflexivity. }
  assert (G : mapM g (map (fun t => (t_label t, (labels_of t, t_rows t))) (pre ++ t :: post)) = Err KeyError).
  { clear T ND D S. induction pre as [|x pre IH]; cbn [app map mapM]; [rewrite B; reflexivity|].
    destruct (P x (or_introl eq_refl)) as (off & al & cl & cd & cd0 & c & a0 & Sf & Q). apply suffix_ok in Sf. rewrite <- Sf in Q. destruct (one_ok _ _ _ _ _ _ _ _ _ Q) as (f & E1 & _).
    unfold g at 1. cbn [fst snd]. rewrite E1. cbn [bind]. rewrite IH; [reflexivity|]. intros y I. apply P. now right. }
  match goal with |- context [mapM g ?m] => replace (mapM g m) with (Err KeyError : res (list (str * oframe))) end; [reflexivity|]. symmetry.
  destruct pre as [|x [|y pre]]; [destruct post as [|z post]| |]; cbn [app map mapM]; [rewrite B; reflexivity|rewrite B; reflexivity| |]; exact G.
Qed.
End Polar.
Print Assumptions C134_one.
Print Assumptions C134_many.
Print Assumptions C134_offset.
Print Assumptions C134_steady_refuted.
Print Assumptions C134_text_refuted.
Print Assumptions C134_coordinates_refuted.

(** ** Cases that meet the hypotheses *)
Definition xpolar (l : string) : tab := mk_tab (S_ l) (map S_ ["Alpha"; "Cl"; "Cd"]%string) (Some (map S_ ["(deg)"; "(-)"; "(-)"]%string)) [[-40; 1; 1]; [0; 0; 1]; [10; 2; 1]; [20; 1; 2]]%Q.
Definition xtab (l : string) : ent := Tab (S_ l) (S_ "") NumHeader (Key (S_ "NumAlf")) (Nums (t_rows (xpolar l))) (Some (t_names (xpolar l))) (t_units (xpolar l)).
Definition xpars (off : string) : list ent := [xline (VInt 5) ("alpha0" ++ off); xline (VInt 15) ("alpha1" ++ off); xline (VInt (-5)) ("alpha2" ++ off); xline (VInt 6) ("C_nalpha" ++ off); xline (VFloat []) ("Cd0" ++ off)]%string.
Definition xone : list ent := xpars "" ++ [xtab "AFCoeff"].
Definition xtwo : list ent := xpars "_1" ++ [xtab "AFCoeff_1"] ++ xpars "_2" ++ [xtab "AFCoeff_2"].
Lemma xmeets es off l : Param xnum es (S_ "Cd0" ++ off) None -> Param xnum es (S_ "C_nalpha" ++ off) (Some 6%Q) -> Param xnum es (S_ "alpha0" ++ off) (Some 5%Q) ->
  Polar xnum es off (xpolar l) [-40; 0; 10; 20]%Q [1; 0; 2; 1]%Q [1; 1; 1; 2]%Q None (Some 6%Q) (Some 5%Q).
Proof.
  intros A B C. assert (U : forall k i, nth_error (labels_of (xpolar l)) i = Some k -> (forall j, j < 3 -> nth_error (labels_of (xpolar l)) j = Some k -> j = i) -> forall j, nth_error (labels_of (xpolar l)) j = Some k -> j = i).
  { intros k i _ H j E. apply H; [|exact E]. assert (X : nth_error (labels_of (xpolar l)) j <> None) by congruence. apply nth_error_Some in X. exact X. }
  constructor; [split; [repeat constructor|reflexivity]|exists 0|exists 1|exists 2|exact A|exact B|exact C|].
  1,2,3: split; [split; [reflexivity|]; apply U; [reflexivity|]; intros j Hj E; destruct j as [|[|[|j]]]; try lia; vm_compute in E; discriminate E|repeat constructor].
  intros x H I. cbn in H, I. repeat (destruct H as [<-|H]; [repeat (destruct I as [I|I]; [discriminate I|]); destruct I|]); destruct H.
Qed.
Lemma xparam es k v : match find_entry es k with Some (Item d) => xnum (it_value d) = match v with Some q => KNum q | None => KNan end | _ => False end -> Param xnum es k v.
Proof. destruct (find_entry es k) as [[d| | |]|] eqn:E; intro H; try contradiction. exists d. split; [now apply find_first|exact H]. Qed.
Example C134_nonvacuous :
  (tables xone [xpolar "AFCoeff"] /\ ~ is_tower xone /\ Polar xnum xone [] (xpolar "AFCoeff") [-40; 0; 10; 20]%Q [1; 0; 2; 1]%Q [1; 1; 1; 2]%Q None (Some 6%Q) (Some 5%Q)) /\
  (tables xtwo [xpolar "AFCoeff_1"; xpolar "AFCoeff_2"] /\ ~ is_tower xtwo /\
    Suffix (S_ "AFCoeff_2") (S_ "_2") /\ Polar xnum xtwo (S_ "_2") (xpolar "AFCoeff_2") [-40; 0; 10; 20]%Q [1; 0; 2; 1]%Q [1; 1; 1; 2]%Q None (Some 6%Q) (Some 5%Q)) /\
  match polar_frames 3 (fun _ => 3 # 5)%Q (fun _ => 4 # 5)%Q xnum xone with
  | Ok (One (cols, rows)) => cols = map S_ ["Alpha_[deg]"; "Cl_[-]"; "Cd_[-]"; "Cn_[-]"; "Cn_Cd0off_[-]"; "Cn_pot_[-]"; "Cn_012_[-]"]%string /\ List.length rows = 4 /\
      nth_error (nth 0 rows []) 5 = Some None /\ (exists q, nth_error (nth 3 rows []) 5 = Some (Some q) /\ (q == 3 # 2)%Q) /\ exists q, nth_error (nth 3 rows []) 6 = Some (Some q) /\ (q == 11 # 5)%Q
  | _ => False end.
Proof.
  split; [split; [|split]|split; [split; [|split; [|split]]|]].
  - unfold xone. repeat apply tables_item. apply (tables_tab (xpolar "AFCoeff")). constructor.
  - rewrite <- after_iff. vm_compute. discriminate.
  - apply xmeets; apply xparam; reflexivity.
  - unfold xtwo. repeat apply tables_item. apply (tables_tab (xpolar "AFCoeff_1")). repeat apply tables_item. apply (tables_tab (xpolar "AFCoeff_2")). constructor.
  - rewrite <- after_iff. vm_compute. discriminate.
  - left. exists (S_ "AFCoeff"), (S_ "2"). split; [reflexivity|]. split; [cbn; intuition discriminate|]. split; [cbn; intuition discriminate|reflexivity].
  - apply xmeets; apply xparam; reflexivity.
  - vm_compute. split; [reflexivity|]. split; [reflexivity|]. split; [reflexivity|]. split; eexists; (split; [reflexivity|reflexivity]).
Qed.
