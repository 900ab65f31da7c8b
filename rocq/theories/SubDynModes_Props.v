(** C73: the mode shapes of SubDyn summary files. *)
From Verif Require Import Py PyFacts TextFacts ListFacts Dict YAML_Model SubDyn_Model SubDyn_Props.
From Coq Require Import QArith Qabs Qfield Lqa Sorted Permutation ZifyBool ZifyNat.
Local Open Scope nat_scope.

(** ** Specification *)
(** A degree of freedom: its node and its number at that node *)
Definition dof (d2n : list (list Z)) (q : Z) (node ndof : Z) : Prop := (0 <= q)%Z /\ exists a b, nth_error d2n (Z.to_nat q) = Some [a; node; b; ndof].
(** The list of degrees of freedom of a mode shape with [n] shapes: known ones at known nodes, each once, with one value per shape *)
Record good_dofs (d2n : list (list Z)) (N : nat) (n : nat) (K : list Z) (U : list (list Q)) : Prop := mk_good {
  gd_known : Forall (fun q => exists node nd, dof d2n q node nd /\ (1 <= node <= Z.of_nat N)%Z /\ (1 <= nd)%Z) K;
  gd_once : forall i i' q q' node nd, nth_error K i = Some q -> nth_error K i' = Some q' -> dof d2n q node nd -> dof d2n q' node nd -> i = i';
  gd_values : List.length U = List.length K /\ Forall (fun u => List.length u = n) U }.
(** The cell of an array *)
Definition cell (disp : list (list (list (option Q)))) (p j k : nat) : option (option Q) :=
  match nth_error disp p with Some a => match nth_error a j with Some b => nth_error b k | None => None end | None => None end.
(** Degree of freedom number [i] of the list is the one of the node in direction [j] (0, 1, 2). *)
Definition moves (d2n : list (list Z)) (K : list Z) (node : Z) (j i : nat) : Prop := exists q, nth_error K i = Some q /\ dof d2n q node (Z.of_nat j + 1).
Definition shapes_of (d2n : list (list Z)) (X Y Z_ : list Q) (n : nat) (K : list Z) (U : list (list Q))
    (disp : list (list (list (option Q)))) (pos : list (list (option Q))) (nodes : list Z) : Prop :=
  List.length disp = List.length nodes /\ List.length pos = List.length nodes /\
  (forall p node, nth_error nodes p = Some node ->
    (forall j k i u v, j < 3 -> moves d2n K node j i -> nth_error U i = Some u -> nth_error u k = Some v -> cell disp p j k = Some (Some v)) /\
    (forall j k, j < 3 -> k < n -> (forall i, ~ moves d2n K node j i) -> cell disp p j k = Some None) /\
    (forall j k, ~ (j < 3 /\ k < n) -> cell disp p j k = None) /\
    (forall j i, j < 3 -> moves d2n K node j i -> nth_error pos p = Some [nth_error X (Z.to_nat (node - 1)); nth_error Y (Z.to_nat (node - 1)); nth_error Z_ (Z.to_nat (node - 1))]) /\
    ((forall j i, j < 3 -> ~ moves d2n K node j i) -> nth_error pos p = Some [None; None; None])).

(** ** Lemmas *)
Lemma insert_in x l y : In y (insert x l) <-> y = x \/ In y l.
Proof.
  induction l as [|z l IH]; cbn [insert In]; [intuition congruence|]. destruct (x <? z)%Z; cbn [In]; [intuition congruence|]. destruct (Z.eqb_spec x z) as [->|N]; cbn [In]; [intuition congruence|]. rewrite IH. intuition congruence.
Qed.
Lemma insert_sorted x l : StronglySorted Z.lt l -> StronglySorted Z.lt (insert x l).
Proof.
  intro S0. induction S0 as [|y l S1 IH F]; cbn [insert]; [repeat constructor|]. destruct (Z.ltb_spec x y) as [H|H].
  - constructor; [constructor; assumption|]. constructor; [exact H|]. eapply Forall_impl; [|exact F]. intros z Hz. lia.
  - destruct (Z.eqb_spec x y) as [->|N]; [constructor; assumption|]. constructor; [exact IH|]. apply Forall_forall. intros z Hz. apply insert_in in Hz. rewrite Forall_forall in F. destruct Hz as [->|Hz]; [lia|apply F; exact Hz].
Qed.
Lemma sort_unique_spec l : StronglySorted Z.lt (sort_unique l) /\ forall x, In x (sort_unique l) <-> In x l.
Proof.
  unfold sort_unique. induction l as [|y l [IH1 IH2]]; cbn [fold_right]; [split; [constructor|intuition]|]. split; [apply insert_sorted; exact IH1|]. intro x. rewrite insert_in, IH2. cbn [In]. intuition congruence.
Qed.
Lemma sorted_nodup l : StronglySorted Z.lt l -> NoDup l.
Proof. intro S0. induction S0 as [|y l S1 IH F]; constructor; [|exact IH]. intro C. rewrite Forall_forall in F. specialize (F y C). lia. Qed.
Lemma index_of_spec x l : NoDup l -> In x l -> forall p, nth_error l p = Some x <-> p = index_of x l.
Proof.
  intros ND. induction ND as [|y l N ND IH]; intros HI p; [destruct HI|]. cbn [index_of]. destruct (Z.eqb_spec y x) as [->|NE].
  - destruct p as [|p]; cbn [nth_error]; [split; reflexivity|]. split; [intro H; apply nth_error_In in H; contradiction|discriminate].
  - destruct HI as [HI|HI]; [congruence|]. destruct p as [|p]; cbn [nth_error]; [split; [congruence|discriminate]|]. rewrite (IH HI p). split; [intros ->; reflexivity|intro H; injection H as ->; reflexivity].
Qed.
Lemma dof_fun d2n q a b a' b' : dof d2n q a b -> dof d2n q a' b' -> a = a' /\ b = b'.
Proof. intros (_ & x & y & H) (_ & x' & y' & H'). split; congruence. Qed.
Lemma pyget_pos {A} (l : list A) i x : (0 <= i)%Z -> nth_error l (Z.to_nat i) = Some x -> pyget l i = Ok x.
Proof. intros H N. unfold pyget. destruct (Z.ltb_spec i 0); [lia|]. destruct (Z.ltb_spec i 0); [lia|]. rewrite N. reflexivity. Qed.
Lemma set_row_spec us : forall disp ii jj k a b c, set_row disp ii jj k us a b c =
  if Nat.eqb a ii && Nat.eqb b jj && Nat.leb k c && Nat.ltb c (k + List.length us) then nth_error us (c - k) else disp a b c.
Proof.
  induction us as [|u us IH]; intros disp ii jj k a b c; cbn [set_row List.length].
  - destruct (Nat.eqb a ii && Nat.eqb b jj); cbn [andb]; [|reflexivity]. destruct (Nat.leb_spec k c); cbn [andb]; [|reflexivity]. destruct (Nat.ltb_spec c (k + 0)); [lia|reflexivity].
  - rewrite IH. unfold upd3. destruct (Nat.eqb a ii && Nat.eqb b jj); cbn [andb]; [|reflexivity].
    destruct (Nat.leb_spec (S k) c), (Nat.ltb_spec c (S k + List.length us)), (Nat.leb_spec k c), (Nat.ltb_spec c (k + S (List.length us))), (Nat.eqb_spec c k); cbn [andb]; try lia; try reflexivity.
    + replace (c - k) with (S (c - S k)) by lia. reflexivity.
    + subst c. rewrite Nat.sub_diag. reflexivity.
Qed.

Lemma nth_ex {A} (l : list A) i : i < List.length l -> exists x, nth_error l i = Some x.
Proof. intro H. destruct (nth_error l i) eqn:E; [eexists; reflexivity|]. apply nth_error_None in E. lia. Qed.
Lemma nth_combine {A B} (a : list A) (b : list B) p x y : nth_error a p = Some x -> nth_error b p = Some y -> nth_error (combine a b) p = Some (x, y).
Proof. revert b p. induction a as [|u a IH]; intros [|v b] [|p] H1 H2; try discriminate; cbn in *; [congruence|]. apply IH; assumption. Qed.
Section Scatter.
Variable d2n : list (list Z).
Variables X Y Z_ : list Q.
Variable nodes : list Z.
Variable n : nat.
Variable U : list (list Q).
Variable N : nat.
Hypothesis LX : List.length X = N.
Hypothesis LY : List.length Y = N.
Hypothesis LZ : List.length Z_ = N.
Hypothesis ND : NoDup nodes.
Hypothesis LU : Forall (fun u => List.length u = n) U.
Definition pair_of (q : Z) (node : Z) (j : nat) : Prop := dof d2n q node (Z.of_nat j + 1).
Lemma scatter_spec K : forall i s,
  Forall (fun q => exists node nd, dof d2n q node nd /\ (1 <= node <= Z.of_nat N)%Z /\ (1 <= nd)%Z /\ In node nodes) K ->
  (forall m m' q q' node nd, nth_error K m = Some q -> nth_error K m' = Some q' -> dof d2n q node nd -> dof d2n q' node nd -> m = m') ->
  i + List.length K <= List.length U ->
  exists s', scatter d2n X Y Z_ nodes n U i K s = Ok s' /\
    (forall p node j, nth_error nodes p = Some node -> j < 3 ->
       (forall m q u, nth_error K m = Some q -> pair_of q node j -> nth_error U (i + m) = Some u -> forall k, k < n -> sh_disp s' p j k = nth_error u k) /\
       ((forall m q, nth_error K m = Some q -> ~ pair_of q node j) -> forall k, sh_disp s' p j k = sh_disp s p j k)) /\
    (forall p node, nth_error nodes p = Some node ->
       (forall m q j, nth_error K m = Some q -> j < 3 -> pair_of q node j ->
          sh_pos s' p 0 = nth_error X (Z.to_nat (node - 1)) /\ sh_pos s' p 1 = nth_error Y (Z.to_nat (node - 1)) /\ sh_pos s' p 2 = nth_error Z_ (Z.to_nat (node - 1))) /\
       ((forall m q j, nth_error K m = Some q -> j < 3 -> ~ pair_of q node j) -> forall c, sh_pos s' p c = sh_pos s p c)).
Proof.
  induction K as [|q K IH]; intros i s FK ON LEN.
  - exists s. split; [reflexivity|]. split.
    + intros p node j _ _. split; [intros [|m] q u Hm; discriminate Hm|reflexivity].
    + intros p node _. split; [intros [|m] q j Hm; discriminate Hm|reflexivity].
  - apply Forall_cons_iff in FK. destruct FK as [(node0 & nd & D0 & RN & PN & IN0) FK]. cbn [List.length] in LEN.
    assert (ON' : forall m m' q1 q' node nd1, nth_error K m = Some q1 -> nth_error K m' = Some q' -> dof d2n q1 node nd1 -> dof d2n q' node nd1 -> m = m').
    { intros m m' q1 q' node nd1 H1 H2 D1 D2. assert (E : S m = S m') by (eapply ON; [exact H1|exact H2|exact D1|exact D2]). lia. }
    assert (LATER : forall m q', nth_error K m = Some q' -> ~ dof d2n q' node0 nd).
    { intros m q' H C. assert (E : 0 = S m) by (eapply ON; [reflexivity|exact H|exact D0|exact C]). lia. }
    destruct (nth_ex X (Z.to_nat (node0 - 1)) ltac:(lia)) as (x & HX). destruct (nth_ex Y (Z.to_nat (node0 - 1)) ltac:(lia)) as (y & HY). destruct (nth_ex Z_ (Z.to_nat (node0 - 1)) ltac:(lia)) as (z & HZ).
    destruct (nth_ex U i ltac:(lia)) as (u0 & HU). pose proof LU as LU0. rewrite Forall_forall in LU0. pose proof (LU0 u0 (nth_error_In _ _ HU)) as L0.
    assert (STEP : exists s1, (forall r, scatter d2n X Y Z_ nodes n U i (q :: r) s = scatter d2n X Y Z_ nodes n U (S i) r s1) /\
       (forall p node j k, nth_error nodes p = Some node -> j < 3 -> k < n -> (node = node0 /\ nd = Z.of_nat j + 1)%Z -> sh_disp s1 p j k = nth_error u0 k) /\
       (forall p node j k, nth_error nodes p = Some node -> j < 3 -> ~ (node = node0 /\ nd = Z.of_nat j + 1)%Z -> sh_disp s1 p j k = sh_disp s p j k) /\
       (forall p, nth_error nodes p = Some node0 -> (nd <= 3)%Z -> sh_pos s1 p 0 = Some x /\ sh_pos s1 p 1 = Some y /\ sh_pos s1 p 2 = Some z) /\
       (forall p node c, nth_error nodes p = Some node -> ~ (node = node0 /\ nd <= 3)%Z -> sh_pos s1 p c = sh_pos s p c)).
    { destruct D0 as (Q0 & a & b & ROW). pose proof (index_of_spec node0 nodes ND IN0) as IX.
      assert (HEAD : forall r, scatter d2n X Y Z_ nodes n U i (q :: r) s =
        (s' <- (if (nd <=? 3)%Z then
             let pos := upd2 (upd2 (upd2 (sh_pos s) (index_of node0 nodes) 0 (Some x)) (index_of node0 nodes) 1 (Some y)) (index_of node0 nodes) 2 (Some z) in
             if Nat.eqb n 0 then Ok (mk_shapes (sh_disp s) pos) else
             jj <- axis3 (nd - 1) ;; us <- at_ U i ;;
             Ok (mk_shapes (set_row (sh_disp s) (index_of node0 nodes) jj 0 us) pos)
           else Ok s) ;; scatter d2n X Y Z_ nodes n U (S i) r s')).
      { intro r. cbn [scatter]. rewrite (pyget_pos d2n q _ Q0 ROW). cbn [bind at_ nth_error]. destruct (nd <=? 3)%Z; [|reflexivity].
        rewrite (pyget_pos X _ x) by (lia || assumption). cbn [bind]. rewrite (pyget_pos Y _ y) by (lia || assumption). cbn [bind]. rewrite (pyget_pos Z_ _ z) by (lia || assumption). reflexivity. }
      assert (POS : forall p node c, nth_error nodes p = Some node -> upd2 (upd2 (upd2 (sh_pos s) (index_of node0 nodes) 0 (Some x)) (index_of node0 nodes) 1 (Some y)) (index_of node0 nodes) 2 (Some z) p c =
          if Z.eqb node node0 then match c with 0 => Some x | 1 => Some y | 2 => Some z | _ => sh_pos s p c end else sh_pos s p c).
      { intros p node c Hp. unfold upd2. destruct (Z.eqb_spec node node0) as [->|NE].
        - apply IX in Hp. subst p. rewrite Nat.eqb_refl. destruct c as [|[|[|c]]]; reflexivity.
        - assert (NP : Nat.eqb p (index_of node0 nodes) = false) by (apply Nat.eqb_neq; intro C; apply IX in C; congruence). rewrite NP. reflexivity. }
      destruct (Z.leb_spec nd 3) as [LE|GT].
      2:{ exists s. split; [intro r; rewrite HEAD; reflexivity|]. split; [intros; lia|]. split; [reflexivity|]. split; [intros; lia|reflexivity]. }
      destruct (Nat.eqb_spec n 0) as [Z0|NZ].
      { eexists. split; [intro r; rewrite HEAD; reflexivity|]. cbn [sh_disp sh_pos]. split; [intros; lia|]. split; [reflexivity|]. split; [intros p Hp _; rewrite !(POS p node0) by exact Hp; rewrite Z.eqb_refl; repeat split|].
        intros p node c Hp NN. rewrite (POS p node c Hp). destruct (Z.eqb_spec node node0); [exfalso; apply NN; split; [assumption|lia]|reflexivity]. }
      assert (AX : axis3 (nd - 1) = Ok (Z.to_nat (nd - 1))).
      { unfold axis3. destruct (Z.ltb_spec (nd - 1) 0); [lia|]. destruct (Z.ltb_spec (nd - 1) 0); [lia|]. destruct (Z.leb_spec 3 (nd - 1)); [lia|]. reflexivity. }
      assert (AU : at_ U i = Ok u0) by (unfold at_; rewrite HU; reflexivity).
      eexists. split; [intro r; rewrite HEAD, AX; cbn [bind]; rewrite AU; cbn [bind]; reflexivity|]. cbn [sh_disp sh_pos]. split; [|split; [|split]].
      - intros p node j k Hp Hj Hk (-> & E). rewrite set_row_spec. apply IX in Hp. subst p. rewrite Nat.eqb_refl. replace (Nat.eqb j (Z.to_nat (nd - 1))) with true by (symmetry; apply Nat.eqb_eq; lia).
        replace (Nat.ltb k (0 + List.length u0)) with true by (symmetry; apply Nat.ltb_lt; lia). cbn [andb Nat.leb]. rewrite Nat.sub_0_r. reflexivity.
      - intros p node j k Hp Hj NN. rewrite set_row_spec. destruct (Nat.eqb_spec p (index_of node0 nodes)) as [->|NE]; [|reflexivity]. assert (node = node0) by (assert (nth_error nodes (index_of node0 nodes) = Some node0) by (apply IX; reflexivity); congruence). subst node.
        destruct (Nat.eqb_spec j (Z.to_nat (nd - 1))) as [->|NE]; [exfalso; apply NN; split; [reflexivity|lia]|reflexivity].
      - intros p Hp _. rewrite !(POS p node0) by exact Hp. rewrite Z.eqb_refl. repeat split.
      - intros p node c Hp NN. rewrite (POS p node c Hp). destruct (Z.eqb_spec node node0); [exfalso; apply NN; split; [assumption|lia]|reflexivity]. }
    destruct STEP as (s1 & RUN & S1 & S2 & S3 & S4). destruct (IH (S i) s1 FK ON' ltac:(lia)) as (s' & E & A & B). exists s'. rewrite RUN. split; [exact E|]. split.
    + intros p node j Hp Hj. destruct (A p node j Hp Hj) as [A1 A2]. split.
      * intros m q' u Hm PQ HUm k Hk. destruct m as [|m].
        -- cbn in Hm. injection Hm as <-. rewrite Nat.add_0_r in HUm. assert (u = u0) by congruence. subst u. destruct (dof_fun _ _ _ _ _ _ PQ D0) as [E1 E2]. subst node. rewrite A2.
           ++ apply (S1 p node0 j k Hp Hj Hk). split; [reflexivity|lia].
           ++ intros m' q' Hm' C. apply (LATER m' q' Hm'). rewrite <- E2. exact C.
        -- apply (A1 m q' u Hm PQ); [rewrite <- HUm; f_equal; lia|exact Hk].
      * intros NO k. rewrite A2; [|intros m q' Hm; apply (NO (S m) q'); exact Hm]. apply (S2 p node j k Hp Hj). intros (-> & E2). apply (NO 0 q eq_refl). unfold pair_of. rewrite <- E2. exact D0.
    + intros p node Hp. destruct (B p node Hp) as [B1 B2].
      destruct (existsb (fun q' => match nth_error d2n (Z.to_nat q') with Some [_; a; _; b] => (a =? node)%Z && (1 <=? b)%Z && (b <=? 3)%Z && (0 <=? q')%Z | _ => false end) K) eqn:EX.
      * apply existsb_exists in EX. destruct EX as (q' & Hq & EX). destruct (In_nth_error _ _ Hq) as (m & Hm).
        destruct (nth_error d2n (Z.to_nat q')) as [[|a0 [|a [|b0 [|b [|? ?]]]]]|] eqn:RW; try discriminate EX. apply andb_inv in EX. destruct EX as [EX E4]. apply andb_inv in EX. destruct EX as [EX E3]. apply andb_inv in EX. destruct EX as [E1 E2].
        assert (PQ : pair_of q' node (Z.to_nat (b - 1))) by (split; [lia|]; exists a0, b0; rewrite RW; repeat f_equal; lia).
        destruct (B1 m q' (Z.to_nat (b - 1)) Hm ltac:(lia) PQ) as (R1 & R2 & R3). split.
        -- intros _ _ _ _ _ _. repeat split; assumption.
        -- intros NO c. exfalso. apply (NO (S m) q' (Z.to_nat (b - 1)) Hm ltac:(lia) PQ).
      * assert (NOK : forall m q' j, nth_error K m = Some q' -> j < 3 -> ~ pair_of q' node j).
        { intros m q' j Hm Hj (C1 & a0 & b0 & RW). apply not_true_iff_false in EX. apply EX. apply existsb_exists. exists q'. split; [eapply nth_error_In; exact Hm|]. rewrite RW. lia. }
        specialize (B2 NOK). split.
        -- intros m q' j Hm Hj PQ. destruct m as [|m]; [|exfalso; exact (NOK m q' j Hm Hj PQ)]. cbn in Hm. injection Hm as <-. destruct (dof_fun _ _ _ _ _ _ PQ D0) as [E1 E2]. subst node. rewrite !B2, HX, HY, HZ. apply S3; [exact Hp|lia].
        -- intros NO c. rewrite B2. apply (S4 p node c Hp). intros (-> & E2). apply (NO 0 q (Z.to_nat (nd - 1)) eq_refl ltac:(lia)). unfold pair_of. replace (Z.of_nat (Z.to_nat (nd - 1)) + 1)%Z with nd by lia. exact D0.
Qed.
End Scatter.

(** ** Scaling *)
Lemma nth_combine_seq {A B} (g : nat * A -> B) (v : list A) : forall i o, nth_error (map g (combine (seq o (List.length v)) v)) i = option_map (fun x => g (o + i, x)) (nth_error v i).
Proof.
  induction v as [|x v IH]; intros i o; [destruct i; reflexivity|]. cbn [List.length seq combine map]. destruct i as [|i]; cbn [nth_error option_map]; [rewrite Nat.add_0_r; reflexivity|]. rewrite IH. rewrite Nat.add_succ_r. reflexivity.
Qed.
Definition rect (n : nat) (disp : list (list (list (option Q)))) : Prop := Forall (Forall (fun v => List.length v = n)) disp.
Lemma shape_values_in n disp k x : rect n disp -> k < n -> (In x (shape_values disp k) <-> exists p j, cell disp p j k = Some x).
Proof.
  intros R K. unfold shape_values. rewrite in_flat_map. split.
  - intros (nd & H1 & H2). apply in_map_iff in H2. destruct H2 as (v & H2 & H3). destruct (In_nth_error _ _ H1) as (p & P). destruct (In_nth_error _ _ H3) as (j & J). exists p, j. unfold cell. rewrite P, J.
    unfold rect in R. rewrite Forall_forall in R. specialize (R nd H1). rewrite Forall_forall in R. specialize (R v H3). rewrite <- H2. apply nth_error_nth'. lia.
  - intros (p & j & H). unfold cell in H. destruct (nth_error disp p) as [nd|] eqn:P; [|discriminate H]. destruct (nth_error nd j) as [v|] eqn:J; [|discriminate H]. exists nd. split; [eapply nth_error_In; exact P|]. apply in_map_iff. exists v. split; [|eapply nth_error_In; exact J].
    apply nth_error_nth. exact H.
Qed.
Lemma qmax_spec a b : (a <= qmax a b)%Q /\ (b <= qmax a b)%Q /\ (qmax a b = a \/ qmax a b = b).
Proof.
  unfold qmax. destruct (Qle_bool a b) eqn:E; [apply Qle_bool_iff in E; split; [exact E|split; [apply Qle_refl|now right]]|].
  assert (b < a)%Q by (apply Qnot_le_lt; intro C; apply Qle_bool_iff in C; congruence). split; [apply Qle_refl|split; [apply Qlt_le_weak; exact H|now left]].
Qed.
Lemma nanmax_spec l : match nanmax_abs l with Some m => (forall v, In (Some v) l -> (Qabs v <= m)%Q) /\ exists v, In (Some v) l /\ Qabs v = m | None => forall v, ~ In (Some v) l end.
Proof.
  unfold nanmax_abs. induction l as [|x l IH]; cbn [fold_right]; [intros v []|]. destruct x as [v|].
  - destruct (fold_right _ None l) as [m|].
    + destruct IH as (H1 & w & H2 & H3). destruct (qmax_spec (Qabs v) m) as (M1 & M2 & M3). split.
      * intros u [C|C]; [injection C as ->; exact M1|]. eapply Qle_trans; [apply H1; exact C|exact M2].
      * destruct M3 as [->| ->]; [exists v; split; [now left|reflexivity]|exists w; split; [now right|exact H3]].
    + split; [|exists v; split; [now left|reflexivity]]. intros u [C|C]; [injection C as ->; apply Qle_refl|elim (IH u C)].
  - destruct (fold_right _ None l) as [m|].
    + destruct IH as (H1 & w & H2 & H3). split; [intros u [C|C]; [discriminate C|exact (H1 u C)]|exists w; split; [now right|exact H3]].
    + intros u [C|C]; [discriminate C|exact (IH u C)].
Qed.
Definition factor (f : Q) (v : option Q) : option Q := match v with Some x => Some (x * f)%Q | None => None end.
(** Shape [k] is stretched by a factor so that its largest displacement is [m]; a shape of nothing but tiny displacements is kept. *)
Definition stretched (m : Q) (disp disp' : list (list (list (option Q)))) (k : nat) : Prop :=
  ((forall p j, cell disp' p j k = cell disp p j k) /\ (forall p j v, cell disp p j k = Some (Some v) -> (Qabs v <= 1 # 100000)%Q)) \/
  (exists f, (forall p j, cell disp' p j k = option_map (factor f) (cell disp p j k)) /\ (0 <= f)%Q /\
     (exists p j v, cell disp p j k = Some (Some v) /\ (1 # 100000 < Qabs v)%Q) /\
     (exists p j v, cell disp' p j k = Some (Some v) /\ (Qabs v == m)%Q) /\ (forall p j v, cell disp' p j k = Some (Some v) -> (Qabs v <= m)%Q)).
Lemma scale_shape_spec n m disp k : rect n disp -> k < n -> (0 <= m)%Q -> (exists p j, cell disp p j k <> None) ->
  exists disp', scale_shape m disp k = Ok disp' /\ rect n disp' /\ stretched m disp disp' k /\ (forall p j k', k' <> k -> cell disp' p j k' = cell disp p j k') /\ List.length disp' = List.length disp.
Proof.
  intros R K M (p0 & j0 & C0). unfold scale_shape. pose proof (fun x => shape_values_in n disp k x R K) as SV. destruct (shape_values disp k) as [|v0 vs] eqn:EV.
  { exfalso. destruct (cell disp p0 j0 k) as [x|] eqn:C; [|congruence]. apply (proj2 (SV x)). exists p0, j0. exact C. }
  rewrite <- EV in *. pose proof (nanmax_spec (shape_values disp k)) as NM.
  assert (KEEP : (forall v, In (Some v) (shape_values disp k) -> (Qabs v <= 1 # 100000)%Q) -> stretched m disp disp k).
  { intro H. left. split; [reflexivity|]. intros p j v C. apply H. apply SV. exists p, j. exact C. }
  destruct (nanmax_abs (shape_values disp k)) as [mD|] eqn:EM.
  - destruct NM as (N1 & w & N2 & N3). destruct (Qle_bool mD (1 # 100000)) eqn:LE; cbn [negb].
    + exists disp. apply Qle_bool_iff in LE. split; [reflexivity|]. split; [exact R|]. split; [apply KEEP; intros v Hv; eapply Qle_trans; [apply N1; exact Hv|exact LE]|]. split; reflexivity.
    + assert (GT : (1 # 100000 < mD)%Q) by (apply Qnot_le_lt; intro C; apply Qle_bool_iff in C; congruence). assert (PD : (0 < mD)%Q) by lra.
      set (g := fun v : list (option Q) => map (fun q => if Nat.eqb (fst q) k then option_map (fun x => (x * (m / mD))%Q) (snd q) else snd q) (combine (seq 0 (List.length v)) v)).
      exists (map (map g) disp). split; [reflexivity|].
      assert (CE : forall p j k', cell (map (map g) disp) p j k' = if Nat.eqb k' k then option_map (factor (m / mD)) (cell disp p j k') else cell disp p j k').
      { intros p j k'. unfold cell. rewrite nth_error_map. destruct (nth_error disp p) as [nd|]; cbn [option_map]; [|destruct (Nat.eqb k' k); reflexivity]. rewrite nth_error_map. destruct (nth_error nd j) as [v|]; cbn [option_map]; [|destruct (Nat.eqb k' k); reflexivity].
        unfold g. rewrite nth_combine_seq. cbn [Nat.add fst snd]. destruct (nth_error v k') as [[x|]|]; cbn [option_map]; destruct (Nat.eqb k' k); reflexivity. }
      assert (SC : forall v, (Qabs (v * (m / mD)) == Qabs v * (m / mD))%Q).
      { intro v. rewrite Qabs_Qmult. rewrite (Qabs_pos (m / mD)); [reflexivity|]. apply Qle_shift_div_l; [exact PD|]. setoid_replace (0 * mD)%Q with 0%Q by ring. exact M. }
      split; [|split; [|split]].
      * unfold rect in *. apply Forall_map. eapply Forall_impl; [|exact R]. intros nd F. apply Forall_map. eapply Forall_impl; [|exact F]. intros v L. unfold g. rewrite map_length, combine_length, seq_length, Nat.min_id. exact L.
      * right. exists (m / mD)%Q. split; [intros p j; rewrite CE, Nat.eqb_refl; reflexivity|]. split; [apply Qle_shift_div_l; [exact PD|setoid_replace (0 * mD)%Q with 0%Q by ring; exact M]|].
        destruct (proj1 (SV (Some w)) N2) as (pw & jw & CW). split; [|split].
        -- exists pw, jw, w. split; [exact CW|]. rewrite N3. exact GT.
        -- exists pw, jw, (w * (m / mD))%Q. rewrite CE, Nat.eqb_refl, CW. split; [reflexivity|]. rewrite SC, N3. field. lra.
        -- intros p j v C. rewrite CE, Nat.eqb_refl in C. destruct (cell disp p j k) as [[x|]|] eqn:CX; cbn in C; try discriminate C. injection C as <-. rewrite SC.
           assert (LX : (Qabs x <= mD)%Q) by (apply N1; apply SV; exists p, j; exact CX).
           setoid_replace (m)%Q with (mD * (m / mD))%Q at 2 by (field; lra). apply Qmult_le_compat_r; [exact LX|]. apply Qle_shift_div_l; [exact PD|setoid_replace (0 * mD)%Q with 0%Q by ring; exact M].
      * intros p j k' N. rewrite CE. apply Nat.eqb_neq in N. rewrite N. reflexivity.
      * apply map_length.
  - exists disp. split; [reflexivity|]. split; [exact R|]. split; [apply KEEP; intros v Hv; elim (NM v Hv)|]. split; reflexivity.
Qed.
Lemma stretched_ext m a b a' b' k : (forall p j, cell a p j k = cell a' p j k) -> (forall p j, cell b p j k = cell b' p j k) -> stretched m a b k -> stretched m a' b' k.
Proof.
  intros H1 H2 [(S1 & S2)|(f & S1 & S2 & (p1 & j1 & v1 & S3 & S3') & (p2 & j2 & v2 & S4 & S4') & S5)].
  - left. split; [intros p j; rewrite <- H1, <- H2; apply S1|intros p j v C; rewrite <- H1 in C; exact (S2 p j v C)].
  - right. exists f. split; [intros p j; rewrite <- H1, <- H2; apply S1|]. split; [exact S2|]. split; [exists p1, j1, v1; rewrite <- H1; split; assumption|]. split; [exists p2, j2, v2; rewrite <- H2; split; assumption|].
    intros p j v C. rewrite <- H2 in C. exact (S5 p j v C).
Qed.
Lemma scale_spec n m ks : forall disp, rect n disp -> Forall (fun k => k < n) ks -> NoDup ks -> (0 <= m)%Q -> (forall k, k < n -> exists p j, cell disp p j k <> None) ->
  exists disp', scale m disp ks = Ok disp' /\ rect n disp' /\ (forall k, In k ks -> stretched m disp disp' k) /\ (forall p j k, ~ In k ks -> cell disp' p j k = cell disp p j k) /\ List.length disp' = List.length disp.
Proof.
  induction ks as [|k ks IH]; intros disp R F ND M C.
  - exists disp. cbn [scale]. split; [reflexivity|]. split; [exact R|]. split; [intros k []|]. split; reflexivity.
  - apply Forall_cons_iff in F. destruct F as [F1 F]. inversion ND as [|? ? NI ND']; subst. destruct (scale_shape_spec n m disp k R F1 M (C k F1)) as (d1 & E1 & R1 & S1 & O1 & L1).
    assert (C1 : forall k', k' < n -> exists p j, cell d1 p j k' <> None).
    { intros k' Hk. destruct (C k' Hk) as (p & j & Q). exists p, j. destruct (Nat.eq_dec k' k) as [->|N]; [|rewrite O1 by exact N; exact Q].
      destruct S1 as [(S1 & _)|(f & S1 & _)]; rewrite S1; [exact Q|]. destruct (cell disp p j k); [discriminate|exact Q]. }
    destruct (IH d1 R1 F ND' M C1) as (d2 & E2 & R2 & S2 & O2 & L2). exists d2. cbn [scale]. rewrite E1. cbn [bind]. split; [exact E2|]. split; [exact R2|]. split; [|split].
    + intros k' [<-|Hk]; [apply (stretched_ext m disp d1); [reflexivity|intros p j; symmetry; apply O2; exact NI|exact S1]|].
      apply (stretched_ext m d1 d2); [intros p j; apply O1; intros ->; contradiction|reflexivity|apply S2; exact Hk].
    + intros p j k' N. rewrite O2 by (intro Q; apply N; now right). apply O1. intros ->. apply N. now left.
    + congruence.
Qed.

Section Props.
Variable argsort : list (option Q) -> list nat.
Notation obj := (@dict (yval Q)).
(** The arrays of the object *)
Definition arrays (d : obj) (d2n : list (list Z)) (X Y Z_ : list Q) : Prop :=
  (exists c, get d (S_ "DOF2Nodes") = Some (MatI c d2n)) /\ get d (S_ "X") = Some (MatF 1 (map (fun x => [x]) X)) /\ get d (S_ "Y") = Some (MatF 1 (map (fun x => [x]) Y)) /\ get d (S_ "Z") = Some (MatF 1 (map (fun x => [x]) Z_)) /\
  List.length Y = List.length X /\ List.length Z_ = List.length X.
Lemma ravel_col (l : list Q) : ravel (1, map (fun x => [x]) l) = l.
Proof. unfold ravel. cbn [snd]. induction l as [|x l IH]; [reflexivity|]. cbn [map List.concat app]. rewrite IH. reflexivity. Qed.
Lemma NodesDisp_run d d2n X Y Z_ n K U : arrays d d2n X Y Z_ -> good_dofs d2n (List.length X) n K U ->
  exists disp pos nodes, (forall mo so, NodesDisp argsort d K (n, U) mo so =
      (disp' <- match mo with Some m => scale m disp (seq 0 n) | None => Ok disp end ;;
       match so with None => Ok (disp', pos, nodes) | Some j => let I := argsort (map (fun p => nth j p None) pos) in
         nodes' <- take nodes I ;; d' <- take disp' I ;; p' <- take pos I ;; Ok (d', p', nodes') end)) /\
    rect n disp /\ StronglySorted Z.lt nodes /\ (forall x, In x nodes <-> exists i q nd, nth_error K i = Some q /\ dof d2n q x nd) /\
    shapes_of d2n X Y Z_ n K U disp pos nodes.
Proof.
  intros ((c & GD) & GX & GY & GZ & LY & LZ) [KN ON (LU & FU)]. pose proof KN as KN0. rewrite Forall_forall in KN0.
  assert (IN : exists ns, mapM (fun i => row <- pyget d2n i ;; at_ row 1) K = Ok ns /\ (forall x, In x ns <-> exists i q nd, nth_error K i = Some q /\ dof d2n q x nd)).
  { clear -KN. induction KN as [|q K (node & nd & (D1 & a & b & D2) & R1 & R2) F IH]; [exists []; split; [reflexivity|]; intro x; split; [intros []|intros ([|i] & q & nd & H & _); discriminate H]|].
    destruct IH as (ns & E & IH). exists (node :: ns). cbn [mapM]. rewrite (pyget_pos d2n q _ D1 D2). cbn [bind at_ nth_error]. rewrite E. cbn [bind]. split; [reflexivity|].
    intro x. split.
    - intros [<-|H]; [exists 0, q, nd; split; [reflexivity|split; [exact D1|exists a, b; exact D2]]|]. apply IH in H. destruct H as (i & q' & nd' & H1 & H2). exists (S i), q', nd'. split; assumption.
    - intros ([|i] & q' & nd' & H1 & H2).
      + cbn in H1. injection H1 as <-. left. destruct (dof_fun d2n q node nd x nd'); [split; [exact D1|exists a, b; exact D2]|exact H2|assumption].
      + right. apply IH. exists i, q', nd'. split; assumption. }
  destruct IN as (ns & EN & IN). destruct (sort_unique_spec ns) as (SS & SI). set (nodes := sort_unique ns) in *.
  assert (INN : forall x, In x nodes <-> exists i q nd, nth_error K i = Some q /\ dof d2n q x nd) by (intro x; rewrite SI; apply IN).
  assert (ND : NoDup nodes) by (apply sorted_nodup; exact SS).
  assert (FK : Forall (fun q => exists node nd, dof d2n q node nd /\ (1 <= node <= Z.of_nat (List.length X))%Z /\ (1 <= nd)%Z /\ In node nodes) K).
  { apply Forall_forall. intros q Hq. destruct (KN0 q Hq) as (node & nd & D & R & P). exists node, nd. repeat split; try apply D; try lia. apply INN. destruct (In_nth_error _ _ Hq) as (i & Hi). exists i, q, nd. split; assumption. }
  destruct (scatter_spec d2n X Y Z_ nodes n U (List.length X) eq_refl LY LZ ND FU K 0 (mk_shapes (fun _ _ _ => None) (fun _ _ => None)) FK) as (s & ES & SD & SP).
  { intros m m' q q' node nd H1 H2 H3 H4. exact (ON m m' q q' node nd H1 H2 H3 H4). }
  { lia. }
  exists (table3 (List.length nodes) n (sh_disp s)), (table2 (List.length nodes) (sh_pos s)), nodes. split; [|split; [|split; [|split]]].
  - intros mo so. unfold NodesDisp, item. rewrite GD. cbn [bind]. rewrite EN. cbn [bind fst snd]. fold nodes. unfold field, item. rewrite GX, GY, GZ. cbn [bind SubDyn_Model.num]. rewrite !ravel_col, ES. reflexivity.
  - unfold rect, table3. apply Forall_map, Forall_forall. intros i _. apply Forall_map, Forall_forall. intros j _. rewrite map_length, seq_length. reflexivity.
  - exact SS.
  - exact INN.
  - unfold shapes_of. unfold table3, table2. rewrite !map_length, seq_length. split; [reflexivity|]. split; [reflexivity|].
    intros p node Hp. assert (LP : p < List.length nodes) by (apply nth_error_Some; congruence).
    assert (CE : forall j k, cell (map (fun i => map (fun j0 => map (sh_disp s i j0) (seq 0 n)) (seq 0 3)) (seq 0 (List.length nodes))) p j k = if Nat.ltb j 3 && Nat.ltb k n then Some (sh_disp s p j k) else None).
    { intros j k. unfold cell. rewrite map_seq_nth_error by exact LP. destruct (Nat.ltb_spec j 3) as [Hj|Hj]; cbn [andb].
      - rewrite map_seq_nth_error by exact Hj. destruct (Nat.ltb_spec k n) as [Hk|Hk]; [apply map_seq_nth_error; exact Hk|]. apply nth_error_None. rewrite map_length, seq_length. exact Hk.
      - replace (nth_error _ j) with (@None (list (option Q))); [reflexivity|]. symmetry. apply nth_error_None. rewrite map_length, seq_length. exact Hj. }
    assert (PE : nth_error (map (fun i => map (sh_pos s i) (seq 0 3)) (seq 0 (List.length nodes))) p = Some [sh_pos s p 0; sh_pos s p 1; sh_pos s p 2]) by (rewrite map_seq_nth_error by exact LP; reflexivity).
    destruct (SP p node Hp) as (P1 & P2).
    split; [|split; [|split; [|split]]].
    + intros j k i u v Hj (q & Hq & D) Hu Hv. destruct (SD p node j Hp Hj) as (A1 & _). rewrite CE.
      assert (LK : k < n) by (rewrite Forall_forall in FU; rewrite <- (FU u (nth_error_In _ _ Hu)); apply nth_error_Some; congruence).
      replace (Nat.ltb j 3) with true by (symmetry; apply Nat.ltb_lt; exact Hj). replace (Nat.ltb k n) with true by (symmetry; apply Nat.ltb_lt; exact LK). cbn [andb].
      rewrite (A1 i q u Hq D Hu k LK), Hv. reflexivity.
    + intros j k Hj Hk NO. destruct (SD p node j Hp Hj) as (_ & A2). rewrite CE. replace (Nat.ltb j 3) with true by (symmetry; apply Nat.ltb_lt; exact Hj). replace (Nat.ltb k n) with true by (symmetry; apply Nat.ltb_lt; exact Hk). cbn [andb].
      rewrite A2; [reflexivity|]. intros m q Hm D. apply (NO m). exists q. split; assumption.
    + intros j k NO. rewrite CE. destruct (Nat.ltb_spec j 3), (Nat.ltb_spec k n); cbn [andb]; try reflexivity. elim NO. split; assumption.
    + intros j i Hj (q & Hq & D). rewrite PE. destruct (P1 i q j Hq Hj D) as (-> & -> & ->). reflexivity.
    + intro NO. rewrite PE. rewrite !P2; [reflexivity| | |]; intros m q j Hm Hj D; apply (NO j m Hj); exists q; split; assumption.
Qed.

(** ** C73: every node of the degrees of freedom has one row with its position and, in each direction, the value of its degree of
    freedom; NaN where there is none. *)
Theorem C73_shapes d d2n X Y Z_ n K U : arrays d d2n X Y Z_ -> good_dofs d2n (List.length X) n K U ->
  exists disp pos nodes, NodesDisp argsort d K (n, U) None None = Ok (disp, pos, nodes) /\
    StronglySorted Z.lt nodes /\ (forall x, In x nodes <-> exists i q nd, nth_error K i = Some q /\ dof d2n q x nd) /\ shapes_of d2n X Y Z_ n K U disp pos nodes.
Proof. intros A G. destruct (NodesDisp_run d d2n X Y Z_ n K U A G) as (disp & pos & nodes & R & _ & S1 & S2 & S3). exists disp, pos, nodes. split; [rewrite R; reflexivity|]. exact (conj S1 (conj S2 S3)). Qed.
(** A largest displacement stretches each shape on its own; positions and nodes stay. *)
Theorem C73_scaled d d2n X Y Z_ n K U m disp pos nodes : arrays d d2n X Y Z_ -> good_dofs d2n (List.length X) n K U -> K <> [] -> (0 <= m)%Q ->
  NodesDisp argsort d K (n, U) None None = Ok (disp, pos, nodes) ->
  exists disp', NodesDisp argsort d K (n, U) (Some m) None = Ok (disp', pos, nodes) /\ List.length disp' = List.length disp /\ (forall k, k < n -> stretched m disp disp' k) /\ (forall p j k, n <= k -> cell disp' p j k = None).
Proof.
  intros A G NK M E. destruct (NodesDisp_run d d2n X Y Z_ n K U A G) as (disp0 & pos0 & nodes0 & R & RC & S1 & S2 & S3). rewrite R in E. cbn [bind] in E. injection E as -> -> ->. rewrite R.
  assert (C : forall k, k < n -> exists p j, cell disp p j k <> None).
  { intros k Hk. destruct K as [|q K]; [congruence|]. pose proof (gd_known _ _ _ _ _ G) as KN. apply Forall_cons_iff in KN. destruct KN as [(node & nd & D & _) _]. assert (HI : In node nodes) by (apply S2; exists 0, q, nd; split; [reflexivity|exact D]).
    destruct (In_nth_error _ _ HI) as (p & Hp). exists p, 0. destruct S3 as (L1 & L2 & S3). unfold cell. destruct (nth_error disp p) as [a|] eqn:EA; [|apply nth_error_None in EA; assert (p < List.length nodes) by (apply nth_error_Some; congruence); lia].
    destruct (S3 p node Hp) as (Q1 & Q2 & _). destruct (cell disp p 0 k) as [x|] eqn:CX; unfold cell in CX; rewrite EA in CX; [rewrite CX; discriminate|]. exfalso.
    destruct (existsb (fun i => match nth_error (q :: K) i with Some q' => match nth_error d2n (Z.to_nat q') with Some [_; a0; _; b0] => (a0 =? node)%Z && (b0 =? 1)%Z && (0 <=? q')%Z | _ => false end | None => false end) (seq 0 (List.length (q :: K)))) eqn:EX.
    - apply existsb_exists in EX. destruct EX as (i & Hi & EX). apply in_seq in Hi. destruct (nth_error (q :: K) i) as [q'|] eqn:EQ; [|discriminate EX]. destruct (nth_error d2n (Z.to_nat q')) as [[|a0 [|a1 [|a2 [|a3 [|? ?]]]]]|] eqn:RW; try discriminate EX.
      assert (MV : moves d2n (q :: K) node 0 i) by (exists q'; split; [exact EQ|]; split; [lia|]; exists a0, a2; rewrite RW; repeat f_equal; lia).
      destruct G as [_ _ (LU & FU)]. destruct (nth_ex U i) as (u & Hu); [lia|]. rewrite Forall_forall in FU. pose proof (FU u (nth_error_In _ _ Hu)) as LL. destruct (nth_ex u k) as (v & Hv); [lia|].
      specialize (Q1 0 k i u v (Nat.lt_0_succ 2) MV Hu Hv). unfold cell in Q1. rewrite EA, CX in Q1. discriminate Q1.
    - assert (NM : forall i, ~ moves d2n (q :: K) node 0 i).
      { intros i (q' & EQ & D1 & a0 & b0 & RW). apply not_true_iff_false in EX. apply EX. apply existsb_exists. exists i. split; [apply in_seq; assert (i < List.length (q :: K)) by (apply nth_error_Some; congruence); lia|]. rewrite EQ, RW. change (Z.of_nat 0 + 1)%Z with 1%Z. lia. }
      specialize (Q2 0 k (Nat.lt_0_succ 2) Hk NM). unfold cell in Q2. rewrite EA, CX in Q2. discriminate Q2. }
  destruct (scale_spec n m (seq 0 n) disp RC) as (d' & E' & RC' & S' & O' & L').
  - apply Forall_forall. intros k Hk. apply in_seq in Hk. lia.
  - apply seq_NoDup.
  - exact M.
  - exact C.
  - exists d'. rewrite E'. cbn [bind]. split; [reflexivity|]. split; [exact L'|]. split; [intros k Hk; apply S'; apply in_seq; lia|].
    intros p j k Hk. unfold cell. destruct (nth_error d' p) as [a|] eqn:EA; [|reflexivity]. destruct (nth_error a j) as [b|] eqn:EB; [|reflexivity]. apply nth_error_None. unfold rect in RC'. rewrite Forall_forall in RC'. specialize (RC' a (nth_error_In _ _ EA)). rewrite Forall_forall in RC'. rewrite (RC' b (nth_error_In _ _ EB)). exact Hk.
Qed.
(** Sorting moves the rows of displacements, positions and nodes together, in the order of the chosen coordinate. *)
Lemma take_spec {A} (l : list A) I : Forall (fun i => i < List.length l) I -> exists r, take l I = Ok r /\ List.length r = List.length I /\ forall p i, nth_error I p = Some i -> nth_error r p = nth_error l i.
Proof.
  intro F. induction F as [|i I H F (r & E & L & IH)]; [exists []; split; [reflexivity|split; [reflexivity|intros [|p] i H; discriminate H]]|]. destruct (nth_ex l i H) as (x & X). exists (x :: r). unfold take in *. cbn [mapM]. unfold at_ at 1. rewrite X. cbn [bind]. rewrite E. split; [reflexivity|]. split; [cbn; lia|].
  intros [|p] i' Hp; cbn in *; [injection Hp as <-; symmetry; exact X|apply IH; exact Hp].
Qed.
Theorem C73_sorted d d2n X Y Z_ n K U mo j disp pos nodes : arrays d d2n X Y Z_ -> good_dofs d2n (List.length X) n K U ->
  (forall l, Permutation (argsort l) (seq 0 (List.length l))) ->
  NodesDisp argsort d K (n, U) mo None = Ok (disp, pos, nodes) ->
  exists disp' pos' nodes', NodesDisp argsort d K (n, U) mo (Some j) = Ok (disp', pos', nodes') /\ List.length nodes' = List.length nodes /\
    Permutation nodes nodes' /\
    forall p i, nth_error (argsort (map (fun r => nth j r None) pos)) p = Some i -> nth_error disp' p = nth_error disp i /\ nth_error pos' p = nth_error pos i /\ nth_error nodes' p = nth_error nodes i.
Proof.
  intros A G P E. destruct (NodesDisp_run d d2n X Y Z_ n K U A G) as (disp0 & pos0 & nodes0 & R & RC & S1 & S2 & S3). rewrite R in E. rewrite R.
  assert (LD : match mo with Some m => scale m disp0 (seq 0 n) | None => Ok disp0 end = Ok disp /\ pos0 = pos /\ nodes0 = nodes).
  { match type of E with (_ <- ?q ;; _) = _ => destruct q as [dd|]; cbn [bind] in E; [|discriminate E] end. injection E as -> -> ->. repeat split. }
  destruct LD as (LD & -> & ->). rewrite LD. cbn [bind]. destruct S3 as (L1 & L2 & _).
  assert (LEN : List.length disp = List.length disp0).
  { destruct mo as [m|]; [|congruence]. clear -LD. revert disp0 LD. induction (seq 0 n) as [|k ks IH]; intros d0 H; cbn [scale] in H; [congruence|]. destruct (scale_shape m d0 k) as [d1|] eqn:E; cbn [bind] in H; [|discriminate H]. rewrite (IH d1 H).
    unfold scale_shape in E. destruct (shape_values d0 k); [discriminate E|]. destruct (nanmax_abs _); [|congruence]. destruct (negb _); [injection E as <-; apply map_length|congruence]. }
  set (I := argsort (map (fun p => nth j p None) pos)). pose proof (P (map (fun p => nth j p None) pos)) as PI. fold I in PI. rewrite map_length in PI.
  assert (FI : forall l', l' = List.length pos -> Forall (fun i => i < l') I) by (intros l' ->; apply Forall_forall; intros i Hi; apply (Permutation_in _ PI) in Hi; apply in_seq in Hi; lia).
  destruct (take_spec nodes I (FI _ (eq_sym L2))) as (n' & EN & LN & TN). destruct (take_spec disp I (FI _ (eq_trans LEN (eq_trans L1 (eq_sym L2))))) as (d' & ED & LDD & TD). destruct (take_spec pos I (FI _ eq_refl)) as (p' & EP & LP & TP).
  cbn zeta. fold I. rewrite EN. cbn [bind]. rewrite ED. cbn [bind]. rewrite EP. cbn [bind]. exists d', p', n'. split; [reflexivity|].
  assert (LI : List.length I = List.length nodes) by (apply Permutation_length in PI; rewrite seq_length in PI; congruence).
  split; [lia|]. split.
  - assert (E1 : n' = map (fun i => nth i nodes 0%Z) I).
    { apply list_ext; [rewrite map_length; exact LN|]. intros p Hp. destruct (nth_ex I p ltac:(lia)) as (i & Hi). rewrite (TN p i Hi), nth_error_map, Hi. cbn [option_map]. apply nth_error_nth'. pose proof (FI _ (eq_sym L2)) as F. rewrite Forall_forall in F. apply F. eapply nth_error_In. exact Hi. }
    rewrite E1. transitivity (map (fun i => nth i nodes 0%Z) (seq 0 (List.length pos))); [|apply Permutation_map; symmetry; exact PI].
    rewrite L2. clear. assert (Q : map (fun i => nth i nodes 0%Z) (seq 0 (List.length nodes)) = nodes).
    { apply list_ext; [rewrite map_length, seq_length; reflexivity|]. rewrite map_length, seq_length. intros i Hi. rewrite map_seq_nth_error by exact Hi. symmetry. apply nth_error_nth'. exact Hi. }
    rewrite Q. reflexivity.
  - intros p i Hp. split; [apply TD; exact Hp|]. split; [apply TP; exact Hp|apply TN; exact Hp].
Qed.
(** The shapes of getModes: over the boundary, internal and fixed degrees of freedom; the Guyan modes move one boundary degree of
    freedom by one, the Craig-Bampton modes none; fixed ones do not move. *)
Definition whole_numbers (d : obj) (k : str) (l : list Z) : Prop := exists c rows, get d k = Some (MatI c rows) /\ List.concat rows = l.
Lemma ravel_ints d k l : whole_numbers d k l -> exists m, field d k = Ok m /\ ravel m = map inject_Z l.
Proof.
  intros (c & rows & G & <-). exists (c, map (map inject_Z) rows). unfold field, item. rewrite G. split; [reflexivity|]. unfold ravel. cbn [snd]. clear G. induction rows as [|r rows IH]; [reflexivity|]. cbn [map List.concat]. rewrite map_app, IH. reflexivity.
Qed.
Lemma trunc_int z : trunc (inject_Z z) = z.
Proof. unfold trunc. cbn. apply Z.quot_1_r. Qed.
Theorem C73_modes s d B L F m so cR R cM M gy cb : whole_numbers d (S_ "DOF___B") B -> whole_numbers d (S_ "DOF___L") L -> whole_numbers d (S_ "DOF___F") F ->
  get d (S_ "PhiR") = Some (MatF cR R) -> get d (S_ "PhiM") = Some (MatF cM M) -> getModes argsort s d (Some m) so = Ok (gy, cb) ->
  cR = List.length B /\
  (exists E, List.length E = List.length B /\ (forall i j, i < List.length B -> j < List.length B -> exists r, nth_error E i = Some r /\ nth_error r j = Some (if Nat.eqb i j then 1 else 0)%Q /\ List.length r = List.length B) /\
     NodesDisp argsort d (B ++ L ++ F) (cR, E ++ R ++ repeat (repeat 0%Q cR) (List.length F)) (Some m) so = Ok gy) /\
  NodesDisp argsort d (B ++ L ++ F) (cM, repeat (repeat 0%Q cM) (List.length B) ++ M ++ repeat (repeat 0%Q cM) (List.length F)) (Some m) so = Ok cb.
Proof.
  intros HB HL HF GR GM. destruct (ravel_ints d _ B HB) as (mB & FB & RB). destruct (ravel_ints d _ L HL) as (mL & FL & RL). destruct (ravel_ints d _ F HF) as (mF & FF & RF).
  unfold getModes. cbn [bind]. rewrite FB, FF, FL. cbn [bind]. rewrite RB, RF, RL, !map_length. unfold field, item. rewrite GR, GM. cbn [bind SubDyn_Model.num].
  unfold vstack3, zeros. cbn [fst snd]. rewrite Nat.eqb_refl. cbn [andb bind].
  assert (MK : map trunc (map inject_Z B ++ map inject_Z L ++ map inject_Z F) = B ++ L ++ F).
  { rewrite !map_app, !map_map. rewrite !(map_ext (fun x => trunc (inject_Z x)) (fun x => x)) by (intro; apply trunc_int). rewrite !map_id. reflexivity. }
  rewrite MK. destruct (NodesDisp argsort d (B ++ L ++ F) (cM, _) (Some m) so) as [cb'|] eqn:E1; cbn [bind]; [|discriminate].
  change (fst (eye (List.length B))) with (List.length B). destruct (Nat.eqb_spec (List.length B) cR) as [EQ|NE]; cbn [andb bind]; [|discriminate].
  destruct (Nat.eqb_spec cR cR) as [_|C]; [|congruence]. cbn [andb bind].
  match goal with |- (_ <- ?q ;; _) = _ -> _ => destruct q as [gy'|] eqn:E2 end; cbn [bind]; [|discriminate].
  intro H. injection H as <- <-. split; [congruence|]. split; [|reflexivity].
  subst cR. exists (snd (eye (List.length B))). split; [unfold eye; cbn [snd]; rewrite map_length, seq_length; reflexivity|]. split; [|rewrite <- E2; reflexivity].
  intros i j Hi Hj. unfold eye. cbn [snd]. eexists. split; [apply map_seq_nth_error; exact Hi|]. split; [apply (map_seq_nth_error (fun j0 => if Nat.eqb i j0 then 1%Q else 0%Q)); exact Hj|]. rewrite map_length, seq_length. reflexivity.
Qed.
(** The table: positions of the Guyan nodes, then for each mode and direction with a displacement that is not zero, positions
    plus displacements and displacements (NaN counts as no displacement). *)
Definition moved (x : option Q) (v : option Q) : option Q := match x, v with Some x, Some v => Some (x + v)%Q | Some x, None => Some (x + 0)%Q | None, _ => None end.
Definition mode_column (disp : list (list (list (option Q)))) (pos : list (list (option Q))) (n : nat) (pre : str) (total : bool) (c : str * list (option Q)) : Prop :=
  exists k j dim, k < n /\ nth_error [S_ "x"; S_ "y"; S_ "z"] j = Some dim /\
    fst c = pre ++ S_ (if total then "Mode" else "Disp") ++ str_of_N (N.of_nat (k + 1)) ++ dim ++ S_ "_[m]" /\
    (exists p v, cell disp p j k = Some (Some v) /\ ~ (v == 0)%Q) /\
    List.length (snd c) = List.length disp /\
    forall p v, cell disp p j k = Some v -> nth_error (snd c) p = Some (if total then moved (nth j (nth p pos []) None) v else match v with Some x => Some x | None => Some 0%Q end).
Lemma columns_spec n disp pos pre (total : bool) c : rect n disp -> Forall (fun nd => List.length nd = 3) disp -> List.length pos = List.length disp ->
  (In c (mode_columns pos disp n pre (S_ (if total then "Mode" else "Disp")) total) -> mode_column disp pos n pre total c).
Proof.
  intros R R3 LP H. unfold mode_columns in H. apply in_flat_map in H. destruct H as (k & Hk & H). apply in_seq in Hk. apply in_flat_map in H. destruct H as ((j & dim) & Hj & H). cbn [fst snd] in H.
  set (col := column_of (zero_nan disp) j k) in *. destruct (forallb is_zero col) eqn:Z0; [destruct H|]. destruct H as [<-|[]].
  assert (J3 : j < 3 /\ exists l, nth_error [S_ "x"; S_ "y"; S_ "z"] j = Some l /\ dim = l ++ S_ "_[m]").
  { unfold dims in Hj. destruct Hj as [Hj|[Hj|[Hj|[]]]]; injection Hj as <- <-; (split; [lia|]); eexists; split; reflexivity. }
  destruct J3 as (J3 & l & HL & ->).
  assert (CN : forall p, p < List.length disp -> exists v, cell disp p j k = Some v /\ nth_error col p = Some (match v with Some x => Some x | None => Some 0%Q end)).
  { intros p Hp. destruct (nth_ex disp p Hp) as (nd & P). rewrite Forall_forall in R3. pose proof (R3 nd (nth_error_In _ _ P)) as L3. destruct (nth_ex nd j ltac:(lia)) as (v & V).
    unfold rect in R. rewrite Forall_forall in R. pose proof (R nd (nth_error_In _ _ P)) as RN. rewrite Forall_forall in RN. pose proof (RN v (nth_error_In _ _ V)) as LV. destruct (nth_ex v k ltac:(lia)) as (x & X).
    exists x. unfold cell. rewrite P, V, X. split; [reflexivity|]. unfold col, column_of, zero_nan. rewrite nth_error_map, nth_error_map, P. cbn [option_map]. f_equal.
    erewrite (nth_error_nth (map _ nd) j) by (rewrite nth_error_map, V; reflexivity). apply nth_error_nth. rewrite nth_error_map, X. reflexivity. }
  assert (LC : List.length col = List.length disp) by (unfold col, column_of, zero_nan; rewrite !map_length; reflexivity).
  exists k, j, l. split; [lia|]. split; [exact HL|]. split; [cbn [fst]; rewrite Nat.add_1_r; reflexivity|]. split; [|split].
  - apply not_true_iff_false in Z0. assert (EX : exists x, In x col /\ is_zero x = false).
    { clear -Z0. induction col as [|x col IH]; [elim Z0; reflexivity|]. cbn [forallb] in Z0. destruct (is_zero x) eqn:E; [|exists x; split; [now left|exact E]]. destruct IH as (y & H1 & H2); [exact Z0|]. exists y. split; [now right|exact H2]. }
    destruct EX as (x & Hx & Zx). destruct (In_nth_error _ _ Hx) as (p & Hp). assert (p < List.length disp) by (rewrite <- LC; apply nth_error_Some; congruence). destruct (CN p H) as (v & C1 & C2). rewrite Hp in C2. injection C2 as ->.
    exists p. destruct v as [v|]; [|discriminate Zx]. exists v. split; [exact C1|]. intro C. apply Qeq_bool_iff in C. cbn in Zx. congruence.
  - cbn [snd]. destruct total; [|exact LC]. rewrite map_length, combine_length. lia.
  - intros p v CV. cbn [snd]. assert (Hp : p < List.length disp) by (unfold cell in CV; destruct (nth_error disp p) eqn:E; [apply nth_error_Some; congruence|discriminate CV]).
    destruct (CN p Hp) as (v' & C1 & C2). assert (v' = v) by congruence. subst v'. destruct total; [|exact C2]. rewrite nth_error_map.
    assert (CB : nth_error (combine pos col) p = Some (nth p pos [], match v with Some x => Some x | None => Some 0%Q end)).
    { destruct (nth_ex pos p ltac:(lia)) as (q & Q0). rewrite (nth_error_nth _ _ _ Q0). apply nth_combine; assumption. }
    rewrite CB. cbn [option_map fst snd]. unfold plus, moved. destruct (nth j (nth p pos []) None), v; reflexivity.
Qed.
Lemma columns_all n disp pos pre (total : bool) k j dim p v : k < n -> nth_error [S_ "x"; S_ "y"; S_ "z"] j = Some dim -> cell disp p j k = Some (Some v) -> ~ (v == 0)%Q ->
  In (pre ++ S_ (if total then "Mode" else "Disp") ++ str_of_N (N.of_nat (k + 1)) ++ dim ++ S_ "_[m]") (map fst (mode_columns pos disp n pre (S_ (if total then "Mode" else "Disp")) total)).
Proof.
  intros Hk Hj C V. apply in_map_iff. unfold mode_columns. set (col := column_of (zero_nan disp) j k).
  exists (pre ++ S_ (if total then "Mode" else "Disp") ++ str_of_N (N.of_nat (S k)) ++ dim ++ S_ "_[m]", if total then map (fun q => plus (nth j (fst q) None) (snd q)) (combine pos col) else col). split; [cbn [fst]; rewrite Nat.add_1_r; reflexivity|].
  apply in_flat_map. exists k. split; [apply in_seq; lia|]. apply in_flat_map. exists (j, dim ++ S_ "_[m]"). split.
  - destruct j as [|[|[|j]]]; cbn in Hj; [| | |destruct j; discriminate Hj]; injection Hj as <-; cbn; tauto.
  - cbn [fst snd]. fold col. assert (Z0 : forallb is_zero col = false).
    { apply not_true_iff_false. intro F. rewrite forallb_forall in F. apply V. apply Qeq_bool_iff. change (is_zero (Some v) = true). apply F. unfold col, column_of, zero_nan. apply in_map_iff.
      unfold cell in C. destruct (nth_error disp p) as [a|] eqn:EA; [|discriminate C]. destruct (nth_error a j) as [b|] eqn:EB; [|discriminate C].
      exists (map (map (fun v => match v with Some x => Some x | None => Some 0%Q end)) a). split; [|apply in_map; eapply nth_error_In; exact EA].
      erewrite (nth_error_nth (map _ a) j) by (rewrite nth_error_map, EB; reflexivity). apply nth_error_nth. rewrite nth_error_map, C. reflexivity. }
    rewrite Z0. left. reflexivity.
Qed.
Theorem C73_table s d t cR R cM M dG pG nG dC pC nC : to_table argsort s d = Ok t -> getModes argsort s d None (Some 2) = Ok (dG, pG, nG, (dC, pC, nC)) ->
  get d (S_ "PhiR") = Some (MatF cR R) -> get d (S_ "PhiM") = Some (MatF cM M) ->
  rect cR dG -> Forall (fun nd => List.length nd = 3) dG -> List.length pG = List.length dG -> rect cM dC -> Forall (fun nd => List.length nd = 3) dC -> List.length pC = List.length dC ->
  firstn 3 t = [(S_ "z_[m]", map (fun p => nth 2 p None) pG); (S_ "x_[m]", map (fun p => nth 0 p None) pG); (S_ "y_[m]", map (fun p => nth 1 p None) pG)] /\
  Forall (fun c => mode_column dG pG cR (S_ "Guyan") true c \/ mode_column dC pC cM (S_ "CB") true c \/ mode_column dG pG cR (S_ "Guyan") false c \/ mode_column dC pC cM (S_ "CB") false c) (skipn 3 t).
Proof.
  intros H G GR GM R1 R2 R3 R4 R5 R6. unfold to_table in H. rewrite G in H. cbn [bind] in H. unfold field, item in H. rewrite GR, GM in H. cbn [bind SubDyn_Model.num fst snd] in H. apply Ok_inj in H. subst t. split; [reflexivity|].
  cbn [skipn app]. apply Forall_forall. intros c Hc. apply in_app_or in Hc. destruct Hc as [Hc|Hc]; [left; exact (columns_spec _ _ _ _ true c R1 R2 R3 Hc)|]. apply in_app_or in Hc. destruct Hc as [Hc|Hc]; [right; left; exact (columns_spec _ _ _ _ true c R4 R5 R6 Hc)|].
  apply in_app_or in Hc. destruct Hc as [Hc|Hc]; [right; right; left; exact (columns_spec _ _ _ _ false c R1 R2 R3 Hc)|right; right; right; exact (columns_spec _ _ _ _ false c R4 R5 R6 Hc)].
Qed.
(** No displacement is lost: each mode and direction with one that is not zero has its two columns. *)
Theorem C73_table_complete s d t cR R cM M dG pG nG dC pC nC : to_table argsort s d = Ok t -> getModes argsort s d None (Some 2) = Ok (dG, pG, nG, (dC, pC, nC)) ->
  get d (S_ "PhiR") = Some (MatF cR R) -> get d (S_ "PhiM") = Some (MatF cM M) ->
  forall j dim k p v, nth_error [S_ "x"; S_ "y"; S_ "z"] j = Some dim -> ~ (v == 0)%Q ->
    let name pre := map (fun kind => pre ++ kind ++ str_of_N (N.of_nat (k + 1)) ++ dim ++ S_ "_[m]") [S_ "Mode"; S_ "Disp"] in
    (k < cR -> cell dG p j k = Some (Some v) -> Forall (fun c => In c (map fst t)) (name (S_ "Guyan"))) /\
    (k < cM -> cell dC p j k = Some (Some v) -> Forall (fun c => In c (map fst t)) (name (S_ "CB"))).
Proof.
  intros H G GR GM j dim k p v HJ NZ name. unfold to_table in H. rewrite G in H. cbn [bind] in H. unfold field, item in H. rewrite GR, GM in H. cbn [bind SubDyn_Model.num fst snd] in H. apply Ok_inj in H. subst t. rewrite !map_app.
  split; intros Hk HC; unfold name; cbn [map]; apply Forall_cons; [| apply Forall_cons; [|apply Forall_nil] | | apply Forall_cons; [|apply Forall_nil]]; apply in_or_app; right.
  - apply in_or_app. left. exact (columns_all cR dG pG (S_ "Guyan") true k j dim p v Hk HJ HC NZ).
  - apply in_or_app. right. apply in_or_app. right. apply in_or_app. left. exact (columns_all cR dG pG (S_ "Guyan") false k j dim p v Hk HJ HC NZ).
  - apply in_or_app. right. apply in_or_app. left. exact (columns_all cM dC pC (S_ "CB") true k j dim p v Hk HJ HC NZ).
  - apply in_or_app. right. apply in_or_app. right. apply in_or_app. right. exact (columns_all cM dC pC (S_ "CB") false k j dim p v Hk HJ HC NZ).
Qed.
End Props.

(** ** The hypotheses are met: two nodes; the second one moves in two directions, the first one is fixed *)
Definition ex_d2n : list (list Z) := [[0; 1; 1; 3]; [1; 2; 2; 1]; [2; 2; 2; 4]]%Z.
Definition ex_obj : @dict (yval Q) :=
  [(S_ "DOF2Nodes", MatI 4 ex_d2n); (S_ "X", MatF 1 [[0]; [0]]%Q); (S_ "Y", MatF 1 [[0]; [0]]%Q); (S_ "Z", MatF 1 [[10]; [5]]%Q);
   (S_ "DOF___B", MatI 1 [[1]]%Z); (S_ "DOF___L", MatI 1 [[2]]%Z); (S_ "DOF___F", MatI 1 [[0]]%Z); (S_ "PhiR", MatF 1 [[3]]%Q); (S_ "PhiM", MatF 1 [[7]]%Q)].
Example C73_arrays : arrays ex_obj ex_d2n [0; 0]%Q [0; 0]%Q [10; 5]%Q.
Proof. repeat split. exists 4. reflexivity. Qed.
Ltac solve_dof := split; [lia|]; eexists _, _; reflexivity.
Example C73_dofs : good_dofs ex_d2n 2 1 [1; 2; 0]%Z [[1]; [3]; [0]]%Q.
Proof.
  constructor.
  - repeat (apply Forall_cons; [eexists _, _; split; [solve_dof|split; lia]|]). apply Forall_nil.
  - intros i i' q q' node nd H1 H2 (D1 & a & b & R1) (D2 & a' & b' & R2).
    destruct i as [|[|[|i]]]; cbn in H1; [| | |destruct i; discriminate H1]; injection H1 as <-; (destruct i' as [|[|[|i']]]; cbn in H2; [| | |destruct i'; discriminate H2]; injection H2 as <-); try reflexivity; vm_compute in R1; vm_compute in R2; congruence.
  - split; [reflexivity|]. repeat constructor.
Qed.
Example C73_result : NodesDisp (fun l => seq 0 (List.length l)) ex_obj [1; 2; 0]%Z (1, [[1]; [3]; [0]]%Q) None None =
  Ok ([[[None]; [None]; [Some 0]]; [[Some 1]; [None]; [None]]]%Q, [[Some 0; Some 0; Some 10]; [Some 0; Some 0; Some 5]]%Q, [1; 2]%Z).
Proof. reflexivity. Qed.
Example C73_modes_defined : exists gy cb t, getModes (fun l => seq 0 (List.length l)) ex_obj ex_obj None (Some 2) = Ok (gy, cb) /\ to_table (fun l => seq 0 (List.length l)) ex_obj ex_obj = Ok t /\ map fst (skipn 3 t) = [S_ "GuyanMode1x_[m]"; S_ "GuyanDisp1x_[m]"].
Proof. eexists _, _, _. split; [vm_compute; reflexivity|]. split; [vm_compute; reflexivity|]. reflexivity. Qed.
Print Assumptions C73_shapes.
Print Assumptions C73_scaled.
Print Assumptions C73_sorted.
Print Assumptions C73_modes.
Print Assumptions C73_table.
Print Assumptions C73_table_complete.
