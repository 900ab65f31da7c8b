(** translate_cells on the flat cell array of any list of cells. *)
From Verif Require Import Py PyFacts TextFacts ListFacts Bytes Dict VTK_Model VTK_Spec VTK_Cells.
From Coq Require Import ZifyBool ZifyNat ZifyN.
Local Open Scope nat_scope.

Definition nm (t : Z) : str := match type_of_code t with Ok n => n | Err _ => [] end.
Definition order_of (c : stored) : list Z := vtk_to_meshio_order (fst c) (Z.of_nat (List.length (snd c))).
Definition to_mesh (c : stored) : list Z := pick (snd c) (order_of c).
(** A cell of a type with a fixed number of nodes. *)
Definition fixed_cell (c : stored) : Prop :=
  (exists n, type_of_code (fst c) = Ok n) /\ at_ numnodes_table (fst c) = Ok (Z.of_nat (List.length (snd c))) /\ 0 < List.length (snd c).
Lemma fixed_wedge c : fixed_cell c -> fst c = 13%Z -> Z.of_nat (List.length (snd c)) = 6%Z.
Proof. intros [_ [H _]] E. rewrite E in H. change (at_ numnodes_table 13) with (Ok 6%Z) in H. apply Ok_inj in H. symmetry. exact H. Qed.
Lemma fixed_not7 c : fixed_cell c -> fst c <> 7%Z.
Proof. intros [_ [H K]] E. rewrite E in H. change (at_ numnodes_table 7) with (Ok (-1)%Z) in H. apply Ok_inj in H. lia. Qed.

(** *** Cell data *)
Section CellData.
  Variable raw : dict array.
  Hypothesis Hraw : NoDup (map fst raw).
  Lemma add_cell_data_map s e (F : str * array -> list array) :
    add_cell_data raw s e (map (fun p => (fst p, F p)) raw) = map (fun p => (fst p, F p ++ [slice_rows s e (snd p)])) raw.
  Proof.
    unfold add_cell_data.
    assert (G : forall todo done, raw = done ++ todo ->
      fold_left (fun acc p => put acc (fst p) (match get acc (fst p) with Some l => l ++ [slice_rows s e (snd p)] | None => [slice_rows s e (snd p)] end)) todo
        (map (fun p => (fst p, F p ++ [slice_rows s e (snd p)])) done ++ map (fun p => (fst p, F p)) todo)
      = map (fun p => (fst p, F p ++ [slice_rows s e (snd p)])) raw).
    { induction todo as [|[k v] todo IH]; intros done E.
      - cbn [fold_left map]. rewrite app_nil_r. rewrite E, app_nil_r. reflexivity.
      - cbn [fold_left fst snd].
        assert (N : NoDup (map fst done ++ k :: map fst todo)) by (rewrite E, map_app in Hraw; exact Hraw).
        pose proof (NoDup_remove_2 _ _ _ N) as N2.
        assert (K : get (map (fun p => (fst p, F p ++ [slice_rows s e (snd p)])) done ++ map (fun p => (fst p, F p)) ((k, v) :: todo)) k = Some (F (k, v))).
        { apply get_in.
          - rewrite map_app, !map_map. cbn [map fst]. exact N.
          - apply in_or_app. right. left. reflexivity. }
        rewrite K. rewrite <- (IH (done ++ [(k, v)])) by (rewrite <- app_assoc; exact E). f_equal.
        rewrite map_app. cbn [map fst snd]. rewrite <- app_assoc. cbn [app].
        assert (P : forall (a b : dict (list array)) w, ~ In k (map fst a) -> put (a ++ (k, F (k, v)) :: b) k w = a ++ (k, w) :: b).
        { clear. induction a as [|[k0 v0] a IH]; intros b w H; cbn [app put fst]; [rewrite str_eqb_refl; reflexivity|].
          destruct (str_eqb k0 k) eqn:E; [apply str_eqb_eq in E; exfalso; apply H; left; exact E|]. f_equal. apply IH. intro C. apply H. right. exact C. }
        apply P. rewrite map_map. cbn [fst]. intro C. apply N2. apply in_or_app. left. exact C. }
    apply (G raw [] eq_refl).
  Qed.
  Lemma add_cell_data_nil s e : add_cell_data raw s e [] = map (fun p => (fst p, [slice_rows s e (snd p)])) raw.
  Proof.
    unfold add_cell_data.
    assert (G : forall todo done, raw = done ++ todo ->
      fold_left (fun acc p => put acc (fst p) (match get acc (fst p) with Some l => l ++ [slice_rows s e (snd p)] | None => [slice_rows s e (snd p)] end)) todo
        (map (fun p => (fst p, [slice_rows s e (snd p)])) done)
      = map (fun p => (fst p, [slice_rows s e (snd p)])) raw).
    { induction todo as [|[k v] todo IH]; intros done E.
      - cbn [fold_left]. rewrite E, app_nil_r. reflexivity.
      - cbn [fold_left fst snd].
        assert (N : NoDup (map fst done ++ k :: map fst todo)) by (rewrite E, map_app in Hraw; exact Hraw).
        pose proof (NoDup_remove_2 _ _ _ N) as N2.
        assert (M : ~ In k (map fst (map (fun p : str * array => (fst p, [slice_rows s e (snd p)])) done))).
        { rewrite map_map. cbn [fst]. intro C. apply N2. apply in_or_app. left. exact C. }
        destruct (get (map (fun p => (fst p, [slice_rows s e (snd p)])) done) k) eqn:K.
        { apply get_some_in in K. exfalso. apply M. apply in_map_iff. eexists. split; [|exact K]. reflexivity. }
        rewrite put_new by exact M. rewrite <- (IH (done ++ [(k, v)])) by (rewrite <- app_assoc; exact E).
        rewrite map_app. reflexivity. }
    apply (G raw [] eq_refl).
  Qed.
  Definition cut (ses : list (nat * nat)) : dict (list array) :=
    map (fun p => (fst p, map (fun se => slice_rows (fst se) (snd se) (snd p)) ses)) raw.
  Lemma add_cell_data_cut ses : ses <> [] -> fold_left (fun cd se => add_cell_data raw (fst se) (snd se) cd) ses [] = cut ses.
  Proof.
    destruct ses as [|se ses]; [contradiction|]. intros _. cbn [fold_left]. rewrite add_cell_data_nil.
    assert (G : forall todo done, fold_left (fun cd se => add_cell_data raw (fst se) (snd se) cd) todo
       (map (fun p => (fst p, map (fun se => slice_rows (fst se) (snd se) (snd p)) done)) raw) = cut (done ++ todo)).
    { induction todo as [|x todo IH]; intro done; cbn [fold_left]; [rewrite app_nil_r; reflexivity|].
      rewrite (add_cell_data_map (fst x) (snd x) (fun p => map (fun se => slice_rows (fst se) (snd se) (snd p)) done)).
      rewrite <- (IH (done ++ [x])) || idtac. 
      replace (done ++ x :: todo) with ((done ++ [x]) ++ todo) by (rewrite <- app_assoc; reflexivity). rewrite <- IH. f_equal.
      apply map_ext. intro p. rewrite map_app. reflexivity. }
    apply (G ses [se]).
  Qed.
End CellData.

(** *** The branch without polygons *)
Definition block_of (g : list stored) : block :=
  match g with
  | [] => mk_block [] 0 []
  | c :: _ => mk_block (nm (fst c)) (List.length (order_of c)) (map to_mesh g)
  end.
Lemma span_slice {A} (f : stored -> A) all se g : span all se g -> slice (fst se) (snd se) (map f all) = map f g.
Proof. intros [p [q [E [E1 E2]]]]. rewrite E, E1, E2, !map_app. rewrite <- (map_length f p), <- (map_length f g). apply slice_mid. Qed.
Lemma span_slice2 {B} (P : B -> stored -> Prop) l all se g : Forall2 P l all -> span all se g -> Forall2 P (slice (fst se) (snd se) l) g.
Proof. intros H S. pose proof (span_slice (fun c => c) all se g S) as E. rewrite !map_id in E. rewrite <- E. apply Forall2_slice. exact H. Qed.
Lemma span_first {A} (f : stored -> A) all se c g : span all se (c :: g) -> nth_error (map f all) (fst se) = Some (f c).
Proof. intros [p [q [E [E1 E2]]]]. rewrite E, E1, map_app, nth_error_app2 by (rewrite map_length; lia). rewrite map_length, Nat.sub_diag. reflexivity. Qed.
Lemma span_sub all se g c : span all se g -> In c g -> In c all.
Proof. intros [p [q [E _]]] H. rewrite E. apply in_or_app. right. apply in_or_app. left. exact H. Qed.

Lemma zlist_eqb_refl l : zlist_eqb l l = true.
Proof. unfold zlist_eqb. rewrite Nat.eqb_refl. cbn [andb]. induction l as [|x l IH]; [reflexivity|]. cbn [combine forallb fst snd]. rewrite Z.eqb_refl. exact IH. Qed.
Definition spans_of (cs : list stored) : list (nat * nat) := pairs (0 :: changes 0 (map fst cs) ++ [List.length (map fst cs)]).
Lemma spans_spec cs : cs <> [] -> Forall2 (span cs) (spans_of cs) (groups cs).
Proof.
  destruct cs as [|c cs]; [contradiction|]. intros _. pose proof (spans_groups cs c [] []) as H. unfold spans_of. rewrite map_length.
  destruct (groups (c :: cs)); [contradiction|]. exact H.
Qed.

Theorem translate_fixed cs raw : cs <> [] -> Forall fixed_cell cs -> NoDup (map fst raw) ->
  translate_cells (Flat (flat cs)) (map fst cs) raw = Ok (map block_of (groups cs), cut raw (spans_of cs)).
Proof.
  intros Hne H Hraw. unfold translate_cells.
  replace (existsb (Z.eqb 7) (map fst cs)) with false.
  2:{ symmetry. apply not_true_is_false. intro C. apply existsb_exists in C. destruct C as [x [C1 C2]]. apply Z.eqb_eq in C2. subst x.
      apply in_map_iff in C1. destruct C1 as [c [C1 C2]]. rewrite Forall_forall in H. apply (fixed_not7 c (H c C2)). exact C1. }
  rewrite (mapR_Forall2 _ (map fst cs) (map (fun c => Z.of_nat (List.length (snd c))) cs)).
  2:{ clear -H. induction H as [|c cs H1 H2 IH]; cbn [map]; constructor; [exact (proj1 (proj2 H1)) | exact IH]. }
  cbn [bind]. replace (forallb _ (map (fun c : stored => Z.of_nat (List.length (snd c))) cs)) with true.
  2:{ symmetry. apply forallb_forall. intros n Hn. apply in_map_iff in Hn. destruct Hn as [c [E Hc]]. rewrite Forall_forall in H. pose proof (H c Hc) as [_ [_ K]]. lia. }
  cbn [negb]. rewrite offsets_from_offs. pose proof (offs_located cs []) as L. cbn [app List.length] in L. change (Z.of_nat 0) with 0%Z in L.
  rewrite (mapR_Forall2 _ (offs 0 cs) (map (fun c => Z.of_nat (List.length (snd c))) cs)).
  2:{ apply Forall2_map_r. revert L. clear. generalize (flat cs). intros data L. induction L as [|o c os l H1 H2 IH]; constructor; [exact (proj1 H1) | exact IH]. }
  cbn [bind]. rewrite zlist_eqb_refl.
  change (pairs (0 :: changes 0 (map fst cs) ++ [List.length (map fst cs)])) with (spans_of cs).
  pose proof (spans_spec cs Hne) as S.
  assert (G : forall ses gs bs cd, Forall2 (span cs) ses gs -> Forall one_type gs ->
     fold_left (fun (r : res (list block * dict (list array))) (se : nat * nat) =>
          '(bs, cd) <- r ;;
          let '(s, e) := se in
          t <- match nth_error (map fst cs) s with Some t => Ok t | None => Err IndexError end ;;
          name <- type_of_code t ;;
          n <- match nth_error (map (fun c => Z.of_nat (List.length (snd c))) cs) s with Some n => Ok n | None => Err IndexError end ;;
          let order := vtk_to_meshio_order t n in
          cells <- mapR (fun o => mapR (fun i => at_ (flat cs) (o + (1 + i))%Z) order) (slice s e (offs 0 cs)) ;;
          Ok (bs ++ [mk_block name (List.length order) cells], add_cell_data raw s e cd)) ses (Ok (bs, cd))
     = Ok (bs ++ map block_of gs, fold_left (fun cd se => add_cell_data raw (fst se) (snd se) cd) ses cd)).
  { intros ses gs bs cd F. revert bs cd. induction F as [|[s e] g ses gs F1 F2 IH]; intros bs cd T.
    - cbn [fold_left map]. rewrite app_nil_r. reflexivity.
    - inversion T as [|? ? T1 T2]; subst. destruct g as [|c g]; [contradiction|]. cbn [fold_left bind].
      pose proof (span_first fst cs (s, e) c g F1) as E1. pose proof (span_first (fun c => Z.of_nat (List.length (snd c))) cs (s, e) c g F1) as E2.
      cbn [fst snd] in E1, E2 |- *. rewrite E1. cbn [bind].
      rewrite Forall_forall in H. pose proof (H c (span_sub cs (s, e) (c :: g) c F1 (or_introl eq_refl))) as Fc.
      destruct Fc as [[n Hn] [Fc Fl]]. rewrite Hn. cbn [bind]. rewrite E2. cbn [bind].
      pose proof (span_slice2 _ _ _ _ _ L F1) as L'. cbn [fst snd] in L'.
      rewrite (mapR_Forall2 _ (slice s e (offs 0 cs)) (map to_mesh (c :: g))).
      + cbn [bind]. rewrite IH by exact T2. cbn [map block_of]. rewrite <- app_assoc. cbn [app].
        unfold nm. rewrite Hn. reflexivity.
      + apply Forall2_map_r.
        assert (T1' : Forall (fun d => fst d = fst c /\ fixed_cell d) (c :: g)).
        { apply Forall_forall. intros d Hd. split; [cbn [one_type] in T1; rewrite Forall_forall in T1; apply T1; exact Hd | apply H; exact (span_sub cs (s, e) _ d F1 Hd)]. }
        pose proof (Forall2_with _ _ _ _ L' T1') as L2. revert L2. clear -Fc.
        generalize (c :: g) at 1 2. intros l L2. generalize dependent (flat cs). intros data L2.
        induction L2 as [|o d os l [K1 [K2 K3]] HL IH]; constructor; [|exact IH].
        assert (EL : Z.of_nat (List.length (snd c)) = Z.of_nat (List.length (snd d))).
        { destruct K3 as [_ [K3 _]]. rewrite K2 in K3. rewrite Fc in K3. injection K3 as K3. exact K3. }
        unfold to_mesh, order_of. rewrite K2, <- EL.
        erewrite <- (located_order data o d (fst c) _ K1); [|exact EL|].
        * clear. generalize (vtk_to_meshio_order (fst c) (Z.of_nat (List.length (snd c)))). intro l. induction l as [|i l IHl]; [reflexivity|]. cbn [mapR]. replace (o + (1 + i))%Z with (o + 1 + i)%Z by lia. rewrite IHl. reflexivity.
        * intro E. rewrite EL. apply (fixed_wedge d K3). congruence. }
  etransitivity; [exact (G _ _ [] [] S (groups_type cs))|]. cbn [app]. f_equal. f_equal. apply add_cell_data_cut; [exact Hraw|].
  destruct cs as [|c cs]; [contradiction|]. destruct (groups_head c cs) as [g [gs E]]. rewrite E in S. inversion S. discriminate.
Qed.

(** *** The branch with polygons *)
(** A cell of any known type; the name of a polygon carries its number of nodes. *)
Definition full_name (c : stored) : str :=
  if str_eqb (nm (fst c)) (S_ "polygon") then nm (fst c) ++ str_of_Z (Z.of_nat (List.length (snd c))) else nm (fst c).
Definition known_cell (c : stored) : Prop := (exists n, type_of_code (fst c) = Ok n) /\ (fst c = 13%Z -> List.length (snd c) = 6).
Definition by_name (acc : list (str * list (list Z))) : list (str * list Z) := flat_map (fun p => map (pair (fst p)) (snd p)) (rev acc).
Fixpoint well_cut (acc : list (str * list (list Z))) : Prop :=
  match acc with
  | [] => True
  | p :: t => snd p <> [] /\ match t with [] => True | p' :: _ => fst p <> fst p' end /\ well_cut t
  end.
Lemma add_cell_spec acc t c : well_cut acc -> well_cut (add_cell acc t c) /\ by_name (add_cell acc t c) = by_name acc ++ [(t, c)].
Proof.
  destruct acc as [|[t' cs] acc]; intro H; cbn [add_cell].
  - split; [cbn; repeat split; discriminate | reflexivity].
  - destruct (str_eqb t' t) eqn:E.
    + apply str_eqb_eq in E. subst t'. split.
      * cbn [well_cut fst snd] in *. split; [destruct cs; discriminate | exact (proj2 H)].
      * unfold by_name. cbn [rev]. rewrite !flat_map_app. cbn [flat_map fst snd]. rewrite !app_nil_r, map_app, app_assoc. reflexivity.
    + split.
      * cbn [well_cut fst snd]. split; [discriminate|]. split; [|exact H]. apply str_eqb_neq in E. congruence.
      * unfold by_name. cbn [rev]. rewrite !flat_map_app. cbn [flat_map fst snd map]. rewrite !app_nil_r. reflexivity.
Qed.
Theorem poly_cells_spec cs : Forall known_cell cs ->
  (forall c d, In c cs -> In d cs -> full_name c = full_name d -> List.length (to_mesh c) = List.length (to_mesh d)) ->
  exists bs, poly_cells (flat cs) (map fst cs) = Ok bs /\ cells_of bs = map (fun c => (full_name c, to_mesh c)) cs /\ maximal bs /\ Forall rectangular bs.
Proof.
  intros H HL. unfold poly_cells. pose proof (offs_located cs []) as L. cbn [app List.length] in L. change (Z.of_nat 0) with 0%Z in L.
  rewrite map_length, (poly_offsets_offs (flat cs) cs 0 L). cbn [bind].
  assert (G : forall data os l, Forall2 (located data) os l -> Forall known_cell l -> forall acc, well_cut acc ->
    exists acc', fold_left (fun (r : res (list (str * list (list Z)))) (p : Z * Z) =>
           acc <- r ;;
           let '(o, t) := p in
           n <- at_ data o ;;
           cell <- mapR (fun i => at_ data (o + 1 + i)%Z) (vtk_to_meshio_order t n) ;;
           name <- type_of_code t ;;
           Ok (add_cell acc (if str_eqb name (S_ "polygon") then name ++ str_of_Z n else name) cell))
         (combine os (map fst l)) (Ok acc) = Ok acc' /\ well_cut acc' /\ by_name acc' = by_name acc ++ map (fun c => (full_name c, to_mesh c)) l).
  { clear. intros data os l F. induction F as [|o c os l F1 F2 IH]; intros K acc W.
    - exists acc. cbn [combine fold_left map]. rewrite app_nil_r. repeat split. exact W.
    - inversion K as [|? ? [[n Kn] Kw] K2]; subst. cbn [map combine fold_left bind]. rewrite (proj1 F1). cbn [bind].
      rewrite (located_order data o c (fst c) _ F1 eq_refl) by (intro E; rewrite (Kw E); reflexivity). cbn [bind]. rewrite Kn. cbn [bind].
      destruct (add_cell_spec acc (full_name c) (to_mesh c) W) as [W' B'].
      assert (EN : (if str_eqb n (S_ "polygon") then n ++ str_of_Z (Z.of_nat (List.length (snd c))) else n) = full_name c) by (unfold full_name, nm; rewrite Kn; reflexivity).
      rewrite EN. destruct (IH K2 _ W') as [acc' [A1 [A2 A3]]]. exists acc'. split; [exact A1|]. split; [exact A2|]. rewrite A3, B', <- app_assoc. reflexivity. }
  destruct (G _ _ _ L H [] I) as [acc [A1 [A2 A3]]]. rewrite A1. cbn [bind]. cbn [by_name rev flat_map app] in A3. clear G A1.
  (* every block is rectangular *)
  assert (R : forall p r r', In p acc -> In r (snd p) -> In r' (snd p) -> List.length r = List.length r').
  { intros p r r' Hp Hr Hr'.
    assert (Q : forall x, In x (snd p) -> exists c, In c cs /\ full_name c = fst p /\ to_mesh c = x).
    { intros x Hx. assert (I1 : In (fst p, x) (by_name acc)).
      { unfold by_name. apply in_flat_map. exists p. split; [rewrite <- in_rev; exact Hp|]. apply in_map. exact Hx. }
      rewrite A3 in I1. apply in_map_iff in I1. destruct I1 as [c [E I1]]. injection E as E1 E2. exists c. repeat split; assumption. }
    destruct (Q r Hr) as [c [C1 [C2 C3]]]. destruct (Q r' Hr') as [d [D1 [D2 D3]]]. rewrite <- C3, <- D3. apply HL; [assumption | assumption | congruence]. }
  set (blk := fun p : str * list (list Z) => mk_block (fst p) (List.length (hd [] (snd p))) (snd p)).
  exists (map blk (rev acc)).
  assert (T : forall p, In p (rev acc) -> to_block p = Ok (blk p)).
  { intros p Hp. rewrite <- in_rev in Hp. unfold to_block, blk. destruct p as [t rs]. cbn [fst snd]. destruct rs as [|r rs]; [reflexivity|].
    replace (forallb _ rs) with true; [reflexivity|]. symmetry. apply forallb_forall. intros x Hx. apply Nat.eqb_eq.
    apply (R (t, r :: rs)); [exact Hp | right; exact Hx | left; reflexivity]. }
  rewrite (mapR_ok _ blk) by exact T. split; [reflexivity|]. split; [|split].
  - unfold cells_of. rewrite <- A3. unfold by_name. rewrite flat_map_concat_map, map_map, <- flat_map_concat_map. reflexivity.
  - clear -A2. assert (G : forall l t, well_cut l -> maximal t ->
       match l, t with p :: _, b :: _ => fst p <> b_type b | _, _ => True end -> maximal (map blk (rev l) ++ t)).
    { induction l as [|p l IH]; intros t W M A; [exact M|]. cbn [rev]. rewrite map_app, <- app_assoc. cbn [map app].
      cbn [well_cut] in W. destruct W as [W1 [W2 W3]]. apply IH; [exact W3| |].
      - cbn [maximal]. split; [exact W1|]. split; [|exact M]. destruct t; [exact I|]. exact A.
      - destruct l as [|q l]; [exact I|]. cbn. congruence. }
    rewrite <- (app_nil_r (map blk (rev acc))). apply G; [exact A2 | exact I | destruct acc; exact I].
  - apply Forall_forall. intros b Hb. apply in_map_iff in Hb. destruct Hb as [p [<- Hp]]. rewrite <- in_rev in Hp. unfold rectangular, blk. cbn [b_rows b_cols].
    apply Forall_forall. intros r Hr. destruct (snd p) as [|x l] eqn:E; [contradiction|]. cbn [hd]. apply (R p); [exact Hp | rewrite E; exact Hr | rewrite E; left; reflexivity].
Qed.

(** *** What the blocks of the first branch are *)
Lemma codes_injective : forall c d n, type_of_code c = Ok n -> type_of_code d = Ok n -> c = d.
Proof.
  assert (A : forallb (fun p => forallb (fun q => implb (str_eqb (snd p) (snd q)) (Z.eqb (fst p) (fst q))) cell_types) cell_types = true) by (vm_compute; reflexivity).
  intros c d n Hc Hd. unfold type_of_code in *.
  destruct (find (fun e => Z.eqb (fst e) c) cell_types) as [p|] eqn:Ec; [|discriminate]. destruct (find (fun e => Z.eqb (fst e) d) cell_types) as [q|] eqn:Ed; [|discriminate].
  apply find_some in Ec, Ed. destruct Ec as [I1 E1], Ed as [I2 E2]. injection Hc as Hc. injection Hd as Hd. apply Z.eqb_eq in E1, E2. subst c d.
  rewrite forallb_forall in A. specialize (A p I1). rewrite forallb_forall in A. specialize (A q I2). rewrite Hc, Hd, str_eqb_refl in A. cbn [implb] in A. apply Z.eqb_eq. exact A.
Qed.
Lemma code_name : forall c n, In (c, n) cell_types -> type_of_code c = Ok n /\ code_of_type n = Ok c.
Proof.
  assert (A : forallb (fun p => match type_of_code (fst p), code_of_type (snd p) with Ok n, Ok c => str_eqb n (snd p) && Z.eqb c (fst p) | _, _ => false end) cell_types = true) by (vm_compute; reflexivity).
  intros c n H. rewrite forallb_forall in A. specialize (A _ H). cbn [fst snd] in A. destruct (type_of_code c); [|discriminate]. destruct (code_of_type n); [|discriminate].
  apply andb_true_iff in A. destruct A as [A1 A2]. apply str_eqb_eq in A1. apply Z.eqb_eq in A2. subst. split; reflexivity.
Qed.
Lemma blocks_of_spec cs : Forall fixed_cell cs ->
  cells_of (map block_of (groups cs)) = map (fun c => (nm (fst c), to_mesh c)) cs /\ maximal (map block_of (groups cs)) /\
  Forall rectangular (map block_of (groups cs)).
Proof.
  intro H. split; [|split].
  - rewrite <- (groups_concat cs) at 2. pose proof (groups_type cs) as T. induction T as [|g gs T1 T2 IH]; [reflexivity|]. cbn [map concat].
    unfold cells_of in *. cbn [flat_map]. rewrite map_app, IH. f_equal. destruct g as [|c g]; [contradiction|]. cbn [block_of b_type b_rows].
    cbn [one_type] in T1. rewrite map_map. apply map_ext_in. intros d Hd. rewrite Forall_forall in T1. rewrite (T1 d Hd). reflexivity.
  - pose proof (groups_neighbours cs) as N. pose proof (groups_type cs) as T.
    assert (F : Forall (Forall fixed_cell) (groups cs)).
    { apply Forall_forall. intros g Hg. apply Forall_forall. intros c Hc. rewrite Forall_forall in H. apply H. rewrite <- (groups_concat cs). apply in_concat. exists g. split; assumption. }
    induction (groups cs) as [|g gs IH]; [exact I|]. inversion T as [|? ? T1 T2]; subst. inversion F as [|? ? F1 F2]; subst. destruct g as [|c g]; [contradiction|].
    cbn [map maximal]. split; [discriminate|]. split.
    + destruct gs as [|[|d h] gs]; [exact I | inversion T2; contradiction|]. cbn [map block_of b_type]. destruct N as [N _]. intro E. apply N.
      inversion F1 as [|? ? [[n1 Hn1] _] _]; subst. inversion F2 as [|? ? F3 _]; subst. inversion F3 as [|? ? [[n2 Hn2] _] _]; subst.
      unfold nm in E. rewrite Hn1, Hn2 in E. subst n2. exact (codes_injective _ _ _ Hn1 Hn2).
    + apply IH; [destruct gs as [|[|d h] gs]; [exact I | inversion T2; contradiction | exact (proj2 N)] | exact T2 | exact F2].
  - apply Forall_map. pose proof (groups_type cs) as T. rewrite Forall_forall in *. intros g Hg. specialize (T g Hg). destruct g as [|c g]; [contradiction|].
    unfold rectangular. cbn [block_of b_rows b_cols]. apply Forall_map. apply Forall_forall. intros d Hd. unfold to_mesh. rewrite pick_length.
    cbn [one_type] in T. rewrite Forall_forall in T. specialize (T d Hd). unfold order_of. rewrite T. unfold vtk_to_meshio_order. destruct (Z.eqb (fst c) 13); [reflexivity|].
    rewrite !arange_length, !Nat2Z.id. assert (Hin : forall x, In x (c :: g) -> fixed_cell x) by (intros x Hx; apply H; rewrite <- (groups_concat cs); apply in_concat; exists (c :: g); split; assumption).
    destruct (Hin d Hd) as [_ [K1 _]]. destruct (Hin c (or_introl eq_refl)) as [_ [K2 _]]. rewrite T, K2 in K1. injection K1 as K1. lia.
Qed.
