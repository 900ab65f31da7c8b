(** C43, C72: the JSON form of SubDyn summary files; several files. *)
From Verif Require Import Py PyFacts TextFacts ListFacts Dict YAML_Model SubDyn_Model.
From Coq Require Import QArith Qreduction ZifyBool ZifyNat.
Local Open Scope nat_scope.

Ltac res_inv H := repeat match type of H with
  | (_ <- ?r ;; _) = Ok _ => let E := fresh "E" in destruct r eqn:E; cbn [bind] in H; [|discriminate H]
  | Err _ = Ok _ => discriminate H
  end.
Lemma at_ok {A} (l : list A) i x : at_ l i = Ok x <-> nth_error l i = Some x.
Proof. unfold at_. destruct (nth_error l i); split; intro H; try discriminate H; injection H as ->; reflexivity. Qed.
Lemma mapM_F2 {A B} (g : A -> res B) l ys : mapM g l = Ok ys <-> Forall2 (fun x y => g x = Ok y) l ys.
Proof.
  revert ys. induction l as [|x l IH]; intro ys; cbn [mapM].
  - split; intro H; [injection H as <-; constructor|inversion H; reflexivity].
  - destruct (g x) as [y|e] eqn:G; cbn [bind].
    + destruct (mapM g l) as [zs|e] eqn:M; cbn [bind].
      * split; intro H; [injection H as <-; constructor; [exact G|apply IH; reflexivity]|]. inversion H as [|? y' ? ys' H1 H2]; subst. assert (y' = y) by congruence. subst y'. apply IH in H2. injection H2 as ->. reflexivity.
      * split; intro H; [discriminate H|]. inversion H as [|? y' ? ys' H1 H2]; subst. apply IH in H2. discriminate H2.
    + split; intro H; [discriminate H|]. inversion H; congruence.
Qed.

Lemma two_spec {A} (r : list A) e : mapM (fun j => at_ r j) [1; 2] = Ok e <-> exists a b, nth_error r 1 = Some a /\ nth_error r 2 = Some b /\ e = [a; b].
Proof.
  cbn [mapM]. unfold at_. destruct (nth_error r 1) as [a|]; cbn [bind]; [|split; [discriminate|intros (a & b & H & _); discriminate H]].
  destruct (nth_error r 2) as [b|]; cbn [bind]; [|split; [discriminate|intros (a' & b & _ & H & _); discriminate H]].
  split; intro H; [injection H as <-; exists a, b; repeat split|]. destruct H as (a' & b' & H1 & H2 & ->). congruence.
Qed.
Section Rows.
Context {A : Type}.
Variable dec : A -> A.
Definition dec3 (r : list A) : list A := dec_at dec 2 (dec_at dec 1 (dec_at dec 0 r)).
Lemma dec_at_nth j r i : nth_error (dec_at dec j r) i = if Nat.eqb i j then option_map dec (nth_error r i) else nth_error r i.
Proof.
  revert j i. induction r as [|x r IH]; intros [|j] [|i]; try reflexivity; cbn [dec_at nth_error]; try (cbn; destruct (Nat.eqb i j); reflexivity).
  rewrite IH. cbn [Nat.eqb]. reflexivity.
Qed.
Lemma dec3_nth r i : nth_error (dec3 r) i = if Nat.ltb i 3 then option_map dec (nth_error r i) else nth_error r i.
Proof.
  unfold dec3. rewrite !dec_at_nth. destruct i as [|[|[|i]]]; reflexivity.
Qed.
End Rows.

(** [k] calls of toJSON on the elements *)
Definition lower_ends (v : yval Q) : option (yval Q) :=
  match v with
  | MatI c rows => if Nat.ltb 2 c then Some (MatI c (map (dec3 Z.pred) rows)) else None
  | MatF c rows => if Nat.ltb 2 c then Some (MatF c (map (dec3 (fun x => Qred (x - 1))) rows)) else None
  | _ => None
  end.
Lemma dec_cols v v' : (v0 <- dec_col v 0 ;; v1 <- dec_col v0 1 ;; dec_col v1 2) = Ok v' <-> lower_ends v = Some v'.
Proof.
  unfold lower_ends, dec_col. destruct v as [z|q|s|c rows|c rows]; try (split; discriminate);
  destruct c as [|[|[|c]]]; cbn [Nat.ltb Nat.leb bind]; try (split; discriminate); rewrite !map_map; split; intro H; injection H as <-; reflexivity.
Qed.

Section World.
Variable flt : str -> option Q.
Variable argsort : list (option Q) -> list nat.
Context {D : Type}.
Variable diam : Q -> D.
Notation obj := (@dict (yval Q)).
Notation to_json := (to_json argsort diam).
Notation w_json := (w_json argsort diam).
Notation w_table := (w_table argsort).
Notation to_table := (to_table argsort).
Definition but_elements (d d' : obj) : Prop := forall k, k <> S_ "Elements" -> get d k = get d' k.
Lemma be_refl d : but_elements d d. Proof. intros k _. reflexivity. Qed.
Lemma be_trans a b c : but_elements a b -> but_elements b c -> but_elements a c.
Proof. intros H1 H2 k K. rewrite (H1 k K). apply H2. exact K. Qed.
Lemma be_sym a b : but_elements a b -> but_elements b a.
Proof. intros H k K. symmetry. apply H. exact K. Qed.
Lemma be_put d v : but_elements d (put d (S_ "Elements") v).
Proof. intros k K. symmetry. apply get_put_other. exact K. Qed.
Lemma be_field a b k : but_elements a b -> k <> S_ "Elements" -> field a k = field b k.
Proof. intros H K. unfold field, item. rewrite (H k K). reflexivity. Qed.
Lemma be_item a b k : but_elements a b -> k <> S_ "Elements" -> item a k = item b k.
Proof. intros H K. unfold item. rewrite (H k K). reflexivity. Qed.
Lemma be_max a b : but_elements a b -> default_max a = default_max b.
Proof. intro H. unfold default_max. rewrite !(be_field a b) by (exact H || discriminate). reflexivity. Qed.
Lemma be_disp a b I U m s : but_elements a b -> NodesDisp argsort a I U m s = NodesDisp argsort b I U m s.
Proof. intro H. unfold NodesDisp. rewrite (be_item a b) by (exact H || discriminate). rewrite !(be_field a b) by (exact H || discriminate). reflexivity. Qed.
Lemma be_modes a b a' b' m s : but_elements a a' -> but_elements b b' -> getModes argsort a b m s = getModes argsort a' b' m s.
Proof.
  intros H1 H2. unfold getModes. rewrite (be_max a a' H1), !(be_field b b') by (exact H2 || discriminate).
  destruct (match m with Some m0 => Ok m0 | None => default_max a' end) as [mx|]; [|reflexivity]. cbn [bind].
  destruct (field b' (S_ "DOF___B")) as [fB|]; [|reflexivity]. cbn [bind]. destruct (field b' (S_ "DOF___F")) as [fF|]; [|reflexivity]. cbn [bind]. destruct (field b' (S_ "DOF___L")) as [fL|]; [|reflexivity]. cbn [bind].
  destruct (field b' (S_ "PhiM")) as [pM|]; [|reflexivity]. cbn [bind]. destruct (vstack3 _ pM _) as [P1|]; [|reflexivity]. cbn [bind]. rewrite (be_disp b b') by exact H2.
  destruct (NodesDisp argsort b' _ P1 _ s) as [nd|]; [|reflexivity]. cbn [bind]. destruct (field b' (S_ "PhiR")) as [pR|]; [|reflexivity]. cbn [bind]. destruct (vstack3 _ pR _) as [P2|]; [|reflexivity]. cbn [bind]. rewrite (be_disp b b') by exact H2. reflexivity.
Qed.
Definition dec_steps : list (obj -> res obj) :=
  [fun d => _ <- item d (S_ "Nodes") ;; Ok d;
   change (S_ "Elements") (fun v => dec_col v 0); change (S_ "Elements") (fun v => dec_col v 1); change (S_ "Elements") (fun v => dec_col v 2)].
Lemma dec_steps_inv s s1 : steps dec_steps s = (s1, Ok tt) ->
  exists E E', get s (S_ "Elements") = Some E /\ lower_ends E = Some E' /\ get s1 (S_ "Elements") = Some E' /\ but_elements s s1 /\ exists nv, item s (S_ "Nodes") = Ok nv.
Proof.
  unfold dec_steps. cbn [steps]. intro H. destruct (item s (S_ "Nodes")) as [nv|] eqn:N; cbn [bind] in H; [|discriminate H].
  unfold change at 1 in H. destruct (item s (S_ "Elements")) as [E|] eqn:I1; cbn [bind] in H; [|discriminate H]. destruct (dec_col E 0) as [E0|] eqn:D0; cbn [bind] in H; [|discriminate H].
  unfold change at 1 in H. unfold item in H. rewrite get_put_same in H. cbn [bind] in H. destruct (dec_col E0 1) as [E1|] eqn:D1; cbn [bind] in H; [|discriminate H].
  unfold change at 1 in H. unfold item in H. rewrite get_put_same in H. cbn [bind] in H. destruct (dec_col E1 2) as [E2|] eqn:D2; cbn [bind] in H; [|discriminate H].
  injection H as <-. exists E, E2. repeat split.
  - unfold item in I1. destruct (get s (S_ "Elements")); [injection I1 as ->; reflexivity|discriminate I1].
  - apply dec_cols. rewrite D0. cbn [bind]. rewrite D1. exact D2.
  - apply get_put_same.
  - apply (be_trans _ _ _ (be_put s E0)). apply (be_trans _ _ _ (be_put _ E1)). apply be_put.
  - exists nv. reflexivity.
Qed.
Lemma dec_steps_ok s E E' nv : get s (S_ "Elements") = Some E -> lower_ends E = Some E' -> item s (S_ "Nodes") = Ok nv ->
  exists s1, steps dec_steps s = (s1, Ok tt) /\ get s1 (S_ "Elements") = Some E' /\ but_elements s s1.
Proof.
  intros G L N. apply dec_cols in L. destruct (dec_col E 0) as [E0|] eqn:D0; cbn [bind] in L; [|discriminate L]. destruct (dec_col E0 1) as [E1|] eqn:D1; cbn [bind] in L; [|discriminate L].
  unfold dec_steps. cbn [steps]. rewrite N. cbn [bind]. unfold change at 1. unfold item at 1. rewrite G. cbn [bind]. rewrite D0. cbn [bind].
  unfold change at 1. unfold item at 1. rewrite get_put_same. cbn [bind]. rewrite D1. cbn [bind].
  unfold change at 1. unfold item at 1. rewrite get_put_same. cbn [bind]. rewrite L. cbn [bind].
  eexists. split; [reflexivity|]. split; [apply get_put_same|]. apply (be_trans _ _ _ (be_put s E0)). apply (be_trans _ _ _ (be_put _ E1)). apply be_put.
Qed.

(** What the elements give *)
Definition conn_of (m : nat * list (list Q)) : res (list (list Z)) := c <- pick (fst m) (snd m) [1; 2] ;; Ok (map (map trunc) c).
Definition props_of (m : nat * list (list Q)) : res (list (Z * D)) := mapM (fun e => t <- at_ e 5 ;; a <- at_ e 7 ;; Ok (trunc t, diam a)) (snd m).
Lemma to_json_ok s d s1 j : to_json s d = (s1, Ok j) ->
  exists E E' m, get s (S_ "Elements") = Some E /\ lower_ends E = Some E' /\ get s1 (S_ "Elements") = Some E' /\ but_elements s s1 /\
    SubDyn_Model.num E' = Ok m /\ conn_of m = Ok (j_conn j) /\ props_of m = Ok (j_props j).
Proof.
  unfold SubDyn_Model.to_json. destruct (getModes argsort s d None (Some 2)) as [[gy cb]|e]; [|discriminate]. fold dec_steps. destruct (steps dec_steps s) as [s2 r] eqn:ST. intro H.
  apply pair_equal_spec in H; destruct H as [<- H]. destruct r as [[]|]; cbn [bind] in H; [|discriminate H]. destruct (dec_steps_inv s s2 ST) as (E & E' & G & L & G' & B & _).
  destruct (field s2 (S_ "Nodes")) as [nm|]; cbn [bind] in H; [|discriminate H].
  unfold field at 1 in H. unfold item at 1 in H. rewrite G' in H. cbn [bind] in H. destruct (SubDyn_Model.num E') as [m|] eqn:NM; cbn [bind] in H; [|discriminate H].
  destruct (field d (S_ "CB_frequencies")); cbn [bind] in H; [|discriminate H].
  destruct (pick (fst m) (snd m) [1; 2]) as [c|] eqn:P; cbn [bind] in H; [|discriminate H].
  destruct (pick (fst nm) (snd nm) [1; 2; 3]) as [xyz|]; cbn [bind] in H; [|discriminate H]. fold (props_of m) in H. destruct (props_of m) as [pr|] eqn:PR; cbn [bind] in H; [|discriminate H].
  res_inv H. injection H as <-. exists E, E', m. cbn [j_conn j_props]. unfold conn_of. rewrite P. repeat split; try assumption.
Qed.
(** The same call with other elements *)
Lemma to_json_again s d s1 j s' d' E2 E3 m3 conn3 : to_json s d = (s1, Ok j) -> but_elements s s' -> but_elements d d' ->
  get s' (S_ "Elements") = Some E2 -> lower_ends E2 = Some E3 -> SubDyn_Model.num E3 = Ok m3 -> conn_of m3 = Ok conn3 -> props_of m3 = Ok (j_props j) ->
  exists s1', to_json s' d' = (s1', Ok (mk_json conn3 (j_nodes j) (j_props j) (j_modes j) (j_ground j))) /\ get s1' (S_ "Elements") = Some E3 /\ but_elements s' s1'.
Proof.
  intros H B1 B2 G2 L3 NM3 C3 P3. unfold SubDyn_Model.to_json in *. rewrite <- (be_modes s d s' d') by assumption.
  destruct (getModes argsort s d None (Some 2)) as [[gy cb]|e]; [|discriminate H]. fold dec_steps in *. destruct (steps dec_steps s) as [s2 r] eqn:ST.
  apply pair_equal_spec in H; destruct H as [<- H]. destruct r as [[]|]; cbn [bind] in H; [|discriminate H]. destruct (dec_steps_inv s s2 ST) as (E & E' & G & L & G' & B & nv & NV).
  assert (NV' : item s' (S_ "Nodes") = Ok nv) by (rewrite <- (be_item s s') by (exact B1 || discriminate); exact NV).
  destruct (dec_steps_ok s' E2 E3 nv G2 L3 NV') as (s3 & ST3 & G3 & B3). rewrite ST3. exists s3. split; [|split; assumption]. f_equal. cbn [bind].
  assert (FN : field s3 (S_ "Nodes") = field s2 (S_ "Nodes")).
  { apply be_field; [|discriminate]. apply (be_trans _ s'); [apply be_sym; exact B3|]. apply (be_trans _ s); [apply be_sym; exact B1|exact B]. }
  rewrite FN. destruct (field s2 (S_ "Nodes")) as [nm|]; cbn [bind] in *; [|discriminate H].
  assert (FE : field s3 (S_ "Elements") = Ok m3) by (unfold field, item; rewrite G3; exact NM3). rewrite FE. cbn [bind].
  destruct (field s2 (S_ "Elements")) as [m|]; cbn [bind] in H; [|discriminate H].
  rewrite <- !(be_field d d') by (exact B2 || discriminate).
  destruct (field d (S_ "CB_frequencies")) as [fr|]; cbn [bind] in *; [|discriminate H].
  destruct (pick (fst m) (snd m) [1; 2]) as [c|]; cbn [bind] in H; [|discriminate H].
  unfold conn_of in C3. destruct (pick (fst m3) (snd m3) [1; 2]) as [c3|]; cbn [bind] in C3; [|discriminate C3]. injection C3 as <-. cbn [bind].
  destruct (pick (fst nm) (snd nm) [1; 2; 3]) as [xyz|]; cbn [bind] in *; [|discriminate H].
  fold (props_of m) in H. destruct (props_of m) as [pr|]; cbn [bind] in H; [|discriminate H]. fold (props_of m3). rewrite P3. cbn [bind].
  destruct (field d (S_ "PhiR")) as [pR|]; cbn [bind] in *; [|discriminate H]. destruct (field d (S_ "PhiM")) as [pM|]; cbn [bind] in *; [|discriminate H].
  destruct (modes (S_ "GY") _ _ _) as [g|]; cbn [bind] in *; [|discriminate H]. destruct (modes (S_ "CB") _ _ _) as [cc|]; cbn [bind] in *; [|discriminate H].
  destruct (field d (S_ "Z")) as [zz|]; cbn [bind] in *; [|discriminate H]. match type of H with (x <- ?r ;; _) = _ => destruct r as [gr|]; cbn [bind] in *; [|discriminate H] end.
  injection H as <-. reflexivity.
Qed.

(** ** Specification *)
(** Both ends of every element are whole numbers. *)
Definition whole (q : Q) : Prop := exists z, (q == inject_Z z)%Q.
Definition whole_ends (v : yval Q) : Prop :=
  match v with MatF _ rows => Forall (fun r => forall i x, i = 1 \/ i = 2 -> nth_error r i = Some x -> whole x) rows | _ => True end.
Lemma trunc_whole q z : (q == inject_Z z)%Q -> trunc q = z.
Proof. intro H. unfold Qeq, inject_Z in H. cbn in H. unfold trunc. rewrite Z.mul_1_r in H. rewrite H. apply Z.quot_mul. lia. Qed.
Lemma lower_whole x : whole x -> trunc (Qred (x - 1)) = Z.pred (trunc x) /\ whole (Qred (x - 1)).
Proof.
  intros (z & H). assert (E : (Qred (x - 1) == inject_Z (Z.pred z))%Q) by (rewrite Qred_correct, H; unfold Qeq, inject_Z; cbn; lia).
  split; [rewrite (trunc_whole _ _ E), (trunc_whole _ _ H); reflexivity|]. exists (Z.pred z). exact E.
Qed.
Lemma rows_lower {A} (g : A -> Q) (dec : A -> A) (P : A -> Prop) c rows conn : (forall x, P x -> trunc (g (dec x)) = Z.pred (trunc (g x))) ->
  Forall (fun r => forall i x, i = 1 \/ i = 2 -> nth_error r i = Some x -> P x) rows ->
  conn_of (c, map (map g) rows) = Ok conn -> conn_of (c, map (map g) (map (dec3 dec) rows)) = Ok (map (map Z.pred) conn).
Proof.
  intros HP F H. unfold conn_of, pick in *. cbn [fst snd] in *. destruct (forallb (fun j => Nat.ltb j c) [1; 2]); cbn [bind] in *; [|discriminate H].
  destruct (mapM (fun r => mapM (fun j => at_ r j) [1; 2]) (map (map g) rows)) as [cs|] eqn:M; cbn [bind] in H; [|discriminate H]. injection H as <-.
  assert (E : exists cs', mapM (fun r => mapM (fun j => at_ r j) [1; 2]) (map (map g) (map (dec3 dec) rows)) = Ok cs' /\ map (map trunc) cs' = map (map Z.pred) (map (map trunc) cs)).
  { apply mapM_F2 in M. revert cs M. induction F as [|r rows F1 F2 IH]; intros cs M; cbn [map] in *; inversion M as [|? e ? cs0 M1 M2]; subst; [exists []; split; reflexivity|].
    destruct (IH cs0 M2) as (cs' & M' & E'). apply two_spec in M1. destruct M1 as (a & b & N1 & N2 & ->). rewrite nth_error_map in N1, N2.
    destruct (nth_error r 1) as [x1|] eqn:X1; [|discriminate N1]. injection N1 as <-. destruct (nth_error r 2) as [x2|] eqn:X2; [|discriminate N2]. injection N2 as <-.
    exists ([g (dec x1); g (dec x2)] :: cs'). split.
    - apply mapM_F2. constructor; [|apply mapM_F2; exact M']. apply two_spec. exists (g (dec x1)), (g (dec x2)). rewrite !nth_error_map, !dec3_nth, X1, X2. repeat split.
    - cbn [map]. rewrite E', (HP x1), (HP x2); [reflexivity|apply (F1 2); [now right|exact X2]|apply (F1 1); [now left|exact X1]]. }
  destruct E as (cs' & -> & E). cbn [bind]. rewrite E. reflexivity.
Qed.
Lemma props_lower {A} (g : A -> Q) (dec : A -> A) c rows : props_of (c, map (map g) (map (dec3 dec) rows)) = props_of (c, map (map g) rows).
Proof.
  unfold props_of. cbn [snd]. induction rows as [|r rows IH]; [reflexivity|]. cbn [map mapM]. unfold at_ in *. rewrite !nth_error_map, !dec3_nth. cbn [Nat.ltb Nat.leb]. rewrite IH. reflexivity.
Qed.
Lemma whole_lower E E' : whole_ends E -> lower_ends E = Some E' -> whole_ends E'.
Proof.
  intros W L. destruct E as [z|q|s|c rows|c rows]; cbn [lower_ends] in L; try discriminate L; destruct (Nat.ltb 2 c); try discriminate L; injection L as <-; [exact I|]. cbn [whole_ends] in *.
  apply Forall_map. eapply Forall_impl; [|exact W]. intros r H i x Hi N. cbn beta in N. rewrite dec3_nth in N. assert (LT : Nat.ltb i 3 = true) by (destruct Hi as [->| ->]; reflexivity). rewrite LT in N.
  destruct (nth_error r i) as [y|] eqn:NY; [|discriminate N]. injection N as <-. apply lower_whole. apply (H i y Hi NY).
Qed.
Lemma map_map_same {A} (l : list (list A)) : map (map (fun x => x)) l = l.
Proof. rewrite (map_ext _ (fun r => r)); [apply map_id|intro; apply map_id]. Qed.
Lemma lower_again E E' : lower_ends E = Some E' -> exists E'' m m', lower_ends E' = Some E'' /\ SubDyn_Model.num E' = Ok m /\ SubDyn_Model.num E'' = Ok m' /\ props_of m' = props_of m /\
  (whole_ends E' -> forall conn, conn_of m = Ok conn -> conn_of m' = Ok (map (map Z.pred) conn)).
Proof.
  intro L. destruct E as [z|q|s|c rows|c rows]; cbn [lower_ends] in L; try discriminate L; destruct (Nat.ltb 2 c) eqn:C; try discriminate L; injection L as <-.
  - eexists _, _, _. cbn [lower_ends]. rewrite C. split; [reflexivity|]. split; [reflexivity|]. split; [reflexivity|]. split; [apply props_lower|].
    intros _ conn H. apply (rows_lower inject_Z Z.pred (fun _ => True)); [|apply Forall_forall; trivial|exact H]. intros x _. unfold trunc. cbn. rewrite !Z.quot_1_r. reflexivity.
  - eexists _, _, _. cbn [lower_ends]. rewrite C. split; [reflexivity|]. split; [reflexivity|]. split; [reflexivity|].
    split.
    + pose proof (props_lower (fun x => x) (fun x => Qred (x - 1)) c (map (dec3 (fun x => Qred (x - 1))) rows)) as P. rewrite !map_map_same in P. exact P.
    + intros W conn H. pose proof (rows_lower (fun x => x) (fun x => Qred (x - 1)) whole c (map (dec3 (fun x => Qred (x - 1))) rows) conn) as P. rewrite !map_map_same in P.
      apply P; [intros x Hx; apply lower_whole; exact Hx|exact W|exact H].
Qed.

(** Successful calls of toJSON one after the other, on any objects *)
Fixpoint calls (w : world) (os : list nat) : option world :=
  match os with [] => Some w | o :: os' => match w_json w o with (w', Ok _) => calls w' os' | _ => None end end.
(** The elements of the file that was read last join whole node numbers. *)
Definition whole_world (w : world) : Prop := forall s E, w_last w = Some s -> get (w_objs w s) (S_ "Elements") = Some E -> whole_ends E.
Definition same_but_connectivity (j j' : json D) : Prop := j_nodes j' = j_nodes j /\ j_props j' = j_props j /\ j_modes j' = j_modes j /\ j_ground j' = j_ground j.
Lemma json_step w o w' j a w1 j1 : w_json w o = (w', Ok j) -> w_json w a = (w1, Ok j1) -> whole_world w ->
  exists w1' j', w_json w1 o = (w1', Ok j') /\ same_but_connectivity j j' /\ j_conn j' = map (map Z.pred) (j_conn j) /\ whole_world w1.
Proof.
  unfold whole_world, SubDyn_Model.w_json. destruct (w_last w) as [s|]; [|discriminate]. destruct (to_json (w_objs w s) (w_objs w o)) as [s1 r] eqn:J1. destruct (to_json (w_objs w s) (w_objs w a)) as [s2 r2] eqn:J2.
  intros H1 H2 W. injection H1 as <- ->. injection H2 as <- ->. cbn [w_last w_objs].
  destruct (to_json_ok _ _ _ _ J1) as (E & E' & m & G & L & _ & _ & NM & CO & PR). destruct (to_json_ok _ _ _ _ J2) as (Eb & Eb' & mb & Gb & Lb & Gb' & Bb & _). assert (Eb = E) by congruence. subst Eb. assert (Eb' = E') by congruence. subst Eb'.
  destruct (lower_again E E' L) as (E'' & m0 & m' & L' & NM0 & NM' & PP & CC). assert (m0 = m) by congruence. subst m0.
  pose proof (whole_lower E E' (W s E eq_refl G) L) as WE. specialize (CC WE _ CO). rewrite <- PP in PR.
  assert (BO : but_elements (w_objs w o) (set_obj (w_objs w) s s2 o)) by (unfold set_obj; destruct (Nat.eqb_spec o s) as [->|N]; [exact Bb|apply be_refl]).
  assert (BS : set_obj (w_objs w) s s2 s = s2) by (unfold set_obj; rewrite Nat.eqb_refl; reflexivity). rewrite BS.
  destruct (to_json_again _ _ _ _ s2 _ E' E'' m' _ J1 Bb BO Gb' L' NM' CC PR) as (s3 & J3 & _). rewrite J3.
  eexists _, _. split; [reflexivity|]. cbn [j_nodes j_props j_modes j_ground j_conn]. split; [repeat split|]. split; [reflexivity|].
  intros s0 E0 S0 G0. injection S0 as <-. rewrite BS in G0. assert (E0 = E') by congruence. subst E0. exact WE.
Qed.
(** ** C43: each call lowers the node numbers that the next one reports by one; everything else stays the same. *)
Theorem C43_repeated_partial w o w' j os w1 : w_json w o = (w', Ok j) -> calls w os = Some w1 -> whole_world w ->
  exists w1' j', w_json w1 o = (w1', Ok j') /\ same_but_connectivity j j' /\ j_conn j' = map (map (fun z => z - Z.of_nat (List.length os))%Z) (j_conn j).
Proof.
  revert w w' j. induction os as [|a os IH]; intros w w' j H C W.
  - cbn in C. injection C as <-. exists w', j. split; [exact H|]. split; [repeat split|]. cbn. rewrite (map_ext _ (fun l => l)); [symmetry; apply map_id|]. intro l. rewrite (map_ext _ (fun z => z)); [apply map_id|intro z; apply Z.sub_0_r].
  - cbn [calls] in C. destruct (w_json w a) as [w2 [j2|e]] eqn:A; [|discriminate C]. destruct (json_step w o w' j a w2 j2 H A W) as (w2' & j3 & H3 & S3 & C3 & W3).
    destruct (IH w2 w2' j3 H3 C W3) as (w1' & j' & H' & S' & C'). exists w1', j'. split; [exact H'|]. split.
    + destruct S3 as (? & ? & ? & ?), S' as (? & ? & ? & ?). repeat split; congruence.
    + rewrite C', C3, map_map. apply map_ext. intro l. rewrite map_map. apply map_ext. intro z. cbn [List.length]. lia.
Qed.
(** The first call after reading reports the two ends of each element, numbered from zero. *)
Theorem C43_first_call w s o w' j c rows : w_last w = Some s -> get (w_objs w s) (S_ "Elements") = Some (MatI c rows) -> w_json w o = (w', Ok j) ->
  Forall2 (fun r e => exists a b, nth_error r 1 = Some a /\ nth_error r 2 = Some b /\ e = [a - 1; b - 1]%Z) rows (j_conn j).
Proof.
  intros LS G H. unfold SubDyn_Model.w_json in H. rewrite LS in H. destruct (to_json (w_objs w s) (w_objs w o)) as [s1 r] eqn:J. injection H as _ ->.
  destruct (to_json_ok _ _ _ _ J) as (E & E' & m & G' & L & _ & _ & NM & CO & _). assert (E = MatI c rows) by congruence. subst E. cbn [lower_ends] in L. destruct (Nat.ltb 2 c); [|discriminate L]. injection L as <-. cbn in NM. injection NM as <-.
  unfold conn_of, pick in CO. cbn [fst snd] in CO. match type of CO with context [if ?q then _ else _] => destruct q end; [|discriminate CO]. match type of CO with (_ <- ?q ;; _) = _ => destruct q as [cs|] eqn:M end; cbn [bind] in CO; [|discriminate CO]. injection CO as CO. rewrite <- CO. clear -M.
  apply mapM_F2 in M. revert cs M. induction rows as [|r rows IH]; intros cs M; cbn [map] in M; inversion M as [|? e ? cs0 M1 M2]; subst; [constructor|]. cbn [map]. constructor; [|apply IH; exact M2].
  apply two_spec in M1. destruct M1 as (x & y & N1 & N2 & ->). rewrite nth_error_map, dec3_nth in N1, N2. cbn [Nat.ltb Nat.leb] in N1, N2.
  destruct (nth_error r 1) as [a|] eqn:X1; [|discriminate N1]. injection N1 as <-. destruct (nth_error r 2) as [b|] eqn:X2; [|discriminate N2]. injection N2 as <-.
  exists a, b. split; [reflexivity|]. split; [reflexivity|]. unfold trunc. cbn [map inject_Z Qnum Qden]. rewrite !Z.quot_1_r. reflexivity.
Qed.
(** A second call never gives the same result when there is an element. *)
Theorem C43_second_call_refuted w o w' j w'' j' : w_json w o = (w', Ok j) -> w_json w' o = (w'', Ok j') -> whole_world w -> j_conn j <> [] -> j' <> j.
Proof.
  intros H1 H2 W N E. destruct (json_step w o w' j o w' j H1 H1 W) as (w3 & j3 & H3 & _ & C & _). assert (j3 = j') by congruence. subst j3. subst j'.
  assert (X : exists z l, In (z :: l) (j_conn j)).
  { unfold SubDyn_Model.w_json in H1. destruct (w_last w) as [s|]; [|discriminate H1]. destruct (to_json (w_objs w s) (w_objs w o)) as [s1 r] eqn:J. injection H1 as _ ->.
    destruct (to_json_ok _ _ _ _ J) as (E & E' & m & _ & _ & _ & _ & _ & CO & _). unfold conn_of, pick in CO. match type of CO with context [if ?q then _ else _] => destruct q end; [|discriminate CO]. match type of CO with (_ <- ?q ;; _) = _ => destruct q as [cs|] eqn:M end; cbn [bind] in CO; [|discriminate CO]. injection CO as CO.
    apply mapM_F2 in M. destruct M as [|r c rs cs M1 _]; [elim N; rewrite <- CO; reflexivity|]. apply two_spec in M1. destruct M1 as (xa & xb & _ & _ & ->).
    rewrite <- CO. eexists _, _. left. reflexivity. }
  destruct X as (z & l & X).
  assert (G : forall (ls : list (list Z)), ls = map (map Z.pred) ls -> In (z :: l) ls -> False).
  { induction ls as [|x ls IH]; intros Q I0; [destruct I0|]. cbn [map] in Q. injection Q as Q1 Q2. destruct I0 as [->|I0]; [|exact (IH Q2 I0)]. cbn [map] in Q1. injection Q1 as Q1 _. lia. }
  exact (G _ C X).
Qed.
(** The table is not affected by calls of toJSON. *)
Theorem C43_table_unaffected w os w1 o : calls w os = Some w1 -> w_table w1 o = w_table w o.
Proof.
  revert w. induction os as [|a os IH]; intros w C; cbn [calls] in C; [injection C as <-; reflexivity|]. destruct (w_json w a) as [w2 [j2|e]] eqn:A; [|discriminate C]. rewrite (IH w2 C).
  unfold SubDyn_Model.w_json in A. destruct (w_last w) as [s|] eqn:LS; [|discriminate A]. destruct (to_json (w_objs w s) (w_objs w a)) as [s1 r] eqn:J. injection A as <- ->.
  destruct (to_json_ok _ _ _ _ J) as (E & E' & m & _ & _ & _ & B & _). unfold SubDyn_Model.w_table. cbn [w_last w_objs]. rewrite LS.
  assert (BS : but_elements (set_obj (w_objs w) s s1 s) (w_objs w s)) by (unfold set_obj; rewrite Nat.eqb_refl; apply be_sym; exact B).
  assert (BO : but_elements (set_obj (w_objs w) s s1 o) (w_objs w o)) by (unfold set_obj; destruct (Nat.eqb_spec o s) as [->|]; [apply be_sym; exact B|apply be_refl]).
  unfold SubDyn_Model.to_table. rewrite (be_modes _ _ _ _ None (Some 2) BS BO), !(be_field _ _ _ BO) by discriminate. reflexivity.
Qed.

(** ** C72: several summary files *)
(** The JSON form and the table of the object that was read last depend on that object only. *)
Theorem C72_last_object_alone w w' o : w_last w = Some o -> w_last w' = Some o -> w_objs w o = w_objs w' o ->
  snd (w_json w o) = snd (w_json w' o) /\ w_table w o = w_table w' o.
Proof.
  intros H1 H2 E. unfold SubDyn_Model.w_json, SubDyn_Model.w_table. rewrite H1, H2, E. split; [destruct (to_json (w_objs w' o) (w_objs w' o)); reflexivity|reflexivity].
Qed.
(** Reading a file into another object changes nothing in an object. *)
Theorem C72_reading_keeps_other_objects w b content w' r a : w_read flt w b content = (w', r) -> a <> b -> w_objs w' a = w_objs w a.
Proof.
  unfold w_read. destruct (read_summary flt (w_objs w b) content) as [d r'] eqn:R. intros H N. injection H as <- _. cbn [w_objs]. unfold set_obj. destruct (Nat.eqb_spec a b); [congruence|reflexivity].
Qed.
(** After reading b, the JSON form of a has the nodes of b ... *)
Theorem C72_nodes_of_last_read_refuted w b content w1 a w2 j c rows : w_read flt w b content = (w1, Ok tt) -> w_json w1 a = (w2, Ok j) ->
  get (w_objs w1 b) (S_ "Nodes") = Some (MatF c rows) ->
  Forall2 (fun r p => exists x y z, nth_error r 1 = Some x /\ nth_error r 2 = Some y /\ nth_error r 3 = Some z /\ p = [x; y; z]) rows (j_nodes j).
Proof.
  unfold w_read. destruct (read_summary flt (w_objs w b) content) as [d r'] eqn:R. intros H J N. injection H as <- ->. unfold SubDyn_Model.w_json in J. cbn [w_last w_objs] in *.
  destruct (to_json (set_obj (w_objs w) b d b) (set_obj (w_objs w) b d a)) as [s1 r] eqn:TJ. injection J as _ ->. set (s := set_obj (w_objs w) b d b) in *. clearbody s.
  unfold SubDyn_Model.to_json in TJ. destruct (getModes argsort s _ None (Some 2)) as [[gy cb]|e]; [|discriminate TJ]. fold dec_steps in TJ. destruct (steps dec_steps s) as [s2 r] eqn:ST. apply pair_equal_spec in TJ; destruct TJ as [<- TJ].
  destruct r as [[]|]; cbn [bind] in TJ; [|discriminate TJ]. destruct (dec_steps_inv s s2 ST) as (E & E' & _ & _ & _ & B & _).
  assert (FN : field s2 (S_ "Nodes") = Ok (c, rows)) by (unfold field, item; rewrite <- (B (S_ "Nodes")) by discriminate; rewrite N; reflexivity). rewrite FN in TJ. cbn [bind fst snd] in TJ.
  destruct (field s2 (S_ "Elements")) as [me|]; cbn [bind] in TJ; [|discriminate TJ]. match type of TJ with (_ <- ?q ;; _) = _ => destruct q; cbn [bind] in TJ; [|discriminate TJ] end. match type of TJ with (_ <- ?q ;; _) = _ => destruct q; cbn [bind] in TJ; [|discriminate TJ] end. 
  unfold pick in TJ. destruct (forallb (fun j0 => Nat.ltb j0 c) [1; 2; 3]); cbn [bind] in TJ; [|discriminate TJ]. match type of TJ with (_ <- ?q ;; _) = _ => destruct q as [xyz|] eqn:M end; cbn [bind] in TJ; [|discriminate TJ].
  match type of TJ with (_ <- ?q ;; _) = _ => destruct q; cbn [bind] in TJ; [|discriminate TJ] end. 
  do 2 (match type of TJ with (_ <- ?q ;; _) = _ => destruct q; cbn [bind] in TJ; [|discriminate TJ] end).
  do 4 (match type of TJ with (_ <- ?q ;; _) = _ => destruct q; cbn [bind] in TJ; [|discriminate TJ] end). injection TJ as <-. cbn [j_nodes].
  apply mapM_F2 in M. clear -M. induction M as [|r p rows ps Hp M IH]; [constructor|]. constructor; [|exact IH]. cbn [mapM] in Hp. unfold at_ in Hp.
  destruct (nth_error r 1) as [x|]; cbn [bind] in Hp; [|discriminate Hp]. destruct (nth_error r 2) as [y|]; cbn [bind] in Hp; [|discriminate Hp]. destruct (nth_error r 3) as [z|]; cbn [bind] in Hp; [|discriminate Hp]. injection Hp as <-. exists x, y, z. repeat split.
Qed.
(** ... and the call changes the elements stored in b. *)
Theorem C72_json_changes_other_object_refuted w b content w1 a w2 j c rows : w_read flt w b content = (w1, Ok tt) -> w_json w1 a = (w2, Ok j) ->
  get (w_objs w1 b) (S_ "Elements") = Some (MatI c rows) ->
  get (w_objs w2 b) (S_ "Elements") = Some (MatI c (map (fun r => match r with x :: y :: z :: t => x - 1 :: y - 1 :: z - 1 :: t | _ => r end)%Z rows)) \/ exists r, In r rows /\ List.length r < 3.
Proof.
  unfold w_read. destruct (read_summary flt (w_objs w b) content) as [d r'] eqn:R. intros H J N. injection H as <- ->. unfold SubDyn_Model.w_json in J. cbn [w_last w_objs] in *.
  destruct (to_json (set_obj (w_objs w) b d b) (set_obj (w_objs w) b d a)) as [s1 r] eqn:TJ. injection J as <- ->. cbn [w_objs].
  destruct (to_json_ok _ _ _ _ TJ) as (E & E' & m & G & L & G' & _). assert (E = MatI c rows) by congruence. subst E. cbn [lower_ends] in L. destruct (Nat.ltb 2 c); [|discriminate L]. injection L as <-.
  unfold set_obj at 1. rewrite Nat.eqb_refl. destruct (forallb (fun r => Nat.leb 3 (List.length r)) rows) eqn:FB.
  - left. rewrite G'. do 2 f_equal. apply map_ext_in. intros r Hr. rewrite forallb_forall in FB. specialize (FB r Hr). destruct r as [|x [|y [|z r]]]; try discriminate FB. reflexivity.
  - right. apply not_true_iff_false in FB. rewrite forallb_forall in FB. clear -FB. induction rows as [|r rows IH]; [elim FB; intros x []|].
    destruct (Nat.leb_spec 3 (List.length r)) as [Hr|Hr]; [|exists r; split; [now left|lia]].
    destruct IH as (r' & I' & L'); [|exists r'; split; [now right|exact L']]. intro Q. apply FB. intros x [<-|Hx]; [apply Nat.leb_le; exact Hr|exact (Q x Hx)].
Qed.
(** Before any file is read there is no toJSON and no table. *)
Theorem C72_nothing_read w o : w_last w = None -> snd (w_json w o) = Err AttributeError /\ w_table w o = Err PlainException.
Proof. intro H. unfold SubDyn_Model.w_json, SubDyn_Model.w_table. rewrite H. split; reflexivity. Qed.
End World.

(** ** The hypotheses are met: two files with two nodes and one element *)
Definition summary_text (height : str) : str := flat_map (fun l => l ++ [nl]) (
  [S_ "# SubDyn summary"; S_ "Nodes:"; S_ " - [1, 0, 0, 0]"; S_ " - [2, 0, 0, " ++ height ++ S_ "]";
   S_ "Elements:"; S_ " - [1, 1, 2, 1, 1, 7, 0, 3]"; S_ "CB_frequencies:"; S_ " - [5]";
   S_ "DOF2Nodes:"; S_ " - [1, 1, 3]"; S_ " - [2, 1, 1]"; S_ " - [2, 1, 2]"; S_ "DOF___L:"; S_ " - [3]"; S_ "DOF___B:"; S_ " - [2]"; S_ "DOF___F:"; S_ " - [1]";
   S_ "PhiM:"; S_ " - [1]"; S_ "PhiR:"; S_ " - [4]"]).
Definition flt_ex (s : str) : option Q := None.
Definition sort_ex (l : list (option Q)) : list nat := seq 0 (List.length l).
Definition diam_ex (q : Q) : Q := q.
Definition w0 : world := mk_world (fun _ => []) None.
Definition w_a : world := fst (w_read flt_ex w0 0 (Some (summary_text (S_ "10")))).
Definition w_ab : world := fst (w_read flt_ex w_a 1 (Some (summary_text (S_ "30")))).
Example C43_files_read : snd (w_read flt_ex w0 0 (Some (summary_text (S_ "10")))) = Ok tt /\ snd (w_read flt_ex w_a 1 (Some (summary_text (S_ "30")))) = Ok tt.
Proof. split; vm_compute; reflexivity. Qed.
Definition conn_at (w : world) (o : nat) : option (list (list Z)) := match w_json sort_ex diam_ex w o with (_, Ok j) => Some (j_conn j) | _ => None end.
Example C43_calls_succeed : conn_at w_a 0 = Some [[0; 1]]%Z /\ option_map (fun w => conn_at w 0) (calls sort_ex diam_ex w_a [0; 0]) = Some (Some [[-2; -1]]%Z).
Proof. split; vm_compute; reflexivity. Qed.
Example C43_whole : whole_world w_a.
Proof.
  intros s E LS G. assert (X : s = 0). { assert (w_last w_a = Some 0) by (vm_compute; reflexivity). congruence. } subst s.
  assert (M : exists c rows, get (w_objs w_a 0) (S_ "Elements") = Some (MatI c rows)) by (eexists _, _; vm_compute; reflexivity). destruct M as (c & rows & M). assert (E = MatI c rows) by congruence. subst E. exact I.
Qed.
(** After reading the second file, the first object reports a structure of 30 m and other displacements. *)
Definition z_nodes (w : world) (o : nat) : option (list (list Q)) := match w_json sort_ex diam_ex w o with (_, Ok j) => Some (map (map Qred) (j_nodes j)) | _ => None end.
Definition cells (w : world) (o : nat) (name : str) : option (list (option Q)) := match w_table sort_ex w o with Ok t => option_map (map (option_map Qred)) (get t name) | Err _ => None end.
Theorem C72_other_structure_refuted :
  z_nodes w_a 0 = Some [[0; 0; 0]; [0; 0; 10]]%Q /\ z_nodes w_ab 0 = Some [[0; 0; 0]; [0; 0; 30]]%Q /\
  cells w_a 0 (S_ "CBDisp1y_[m]") = Some [Some 0; Some 1]%Q /\ cells w_ab 0 (S_ "CBDisp1y_[m]") = Some [Some 0; Some 3]%Q /\ cells w_ab 0 (S_ "z_[m]") = Some [Some 0; Some 10]%Q.
Proof. repeat split; vm_compute; reflexivity. Qed.
Print Assumptions C43_repeated_partial.
Print Assumptions C43_first_call.
Print Assumptions C43_second_call_refuted.
Print Assumptions C43_table_unaffected.
Print Assumptions C72_last_object_alone.
Print Assumptions C72_reading_keeps_other_objects.
Print Assumptions C72_nodes_of_last_read_refuted.
Print Assumptions C72_json_changes_other_object_refuted.
Print Assumptions C72_nothing_read.
Print Assumptions C72_other_structure_refuted.
