(** Cells stored as offsets and connectivity (VTK 5.1), and what the reader makes of the nodes of a cell. *)
From Verif Require Import Py PyFacts TextFacts ListFacts Bytes Dict VTK_Model VTK_Spec VTK_Cells VTK_Translate.
From Coq Require Import ZifyBool ZifyNat ZifyN.
Local Open Scope nat_scope.

(** The offsets array: where each cell starts in the connectivity, and its end. *)
Fixpoint ends (o : Z) (cs : list stored) : list Z :=
  match cs with [] => [o] | c :: cs' => o :: ends (o + Z.of_nat (List.length (snd c)))%Z cs' end.
Definition conn (cs : list stored) : list Z := flat_map snd cs.

Definition placed (data : list Z) (o : Z) (c : stored) : Prop :=
  forall i, (0 <= i < Z.of_nat (List.length (snd c)))%Z -> at_ data (o + (0 + i))%Z = Ok (nth (Z.to_nat i) (snd c) 0%Z).
Lemma ends_placed cs : forall pre, exists l z, ends (Z.of_nat (List.length pre)) cs = l ++ [z] /\ Forall2 (placed (pre ++ conn cs)) l cs.
Proof.
  induction cs as [|c cs IH]; intro pre; [exists [], (Z.of_nat (List.length pre)); split; [reflexivity|constructor]|].
  cbn [ends conn flat_map]. specialize (IH (pre ++ snd c)). rewrite app_length, Nat2Z.inj_add, <- app_assoc in IH.
  destruct IH as [l [z [E F]]]. rewrite E. exists (Z.of_nat (List.length pre) :: l), z. split; [reflexivity|]. constructor; [|exact F].
  intros i Hi. rewrite at_app by lia. replace (0 + i)%Z with (Z.of_nat (Z.to_nat i)) at 1 by lia.
  apply at_ok. rewrite nth_error_app1 by lia. apply nth_error_nth_Z. lia.
Qed.
Lemma ends_diffs cs : forall o, diffs (ends o cs) = map (fun c : stored => Z.of_nat (List.length (snd c))) cs.
Proof.
  induction cs as [|c cs IH]; intro o; [reflexivity|]. cbn [ends map]. rewrite <- (IH (o + Z.of_nat (List.length (snd c)))%Z).
  destruct cs as [|d cs]; cbn [ends diffs]; f_equal; lia.
Qed.
Lemma placed_order data o c t n : placed data o c -> n = Z.of_nat (List.length (snd c)) -> (t = 13%Z -> n = 6%Z) ->
  mapR (fun i => at_ data (o + (0 + i))%Z) (vtk_to_meshio_order t n) = Ok (pick (snd c) (vtk_to_meshio_order t n)).
Proof.
  intros H Hn Ht. subst n. apply mapR_ok. intros i Hi. pose proof (orders_range t _ Ht) as R. rewrite Forall_forall in R.
  apply H. apply R. exact Hi.
Qed.
Lemma slice_app_l {A} s e (l : list A) r : e <= List.length l -> slice s e (l ++ r) = slice s e l.
Proof.
  intro H. unfold slice. rewrite skipn_app, firstn_app, skipn_length.
  replace (e - s - (List.length l - s)) with 0 by lia. cbn [firstn]. apply app_nil_r.
Qed.

Theorem translate_offsets cs raw : cs <> [] -> Forall fixed_cell cs -> NoDup (map fst raw) ->
  translate_cells (Offsets (ends 0 cs) (conn cs)) (map fst cs) raw = Ok (map block_of (groups cs), cut raw (spans_of cs)).
Proof.
  intros Hne H Hraw. unfold translate_cells.
  replace (existsb (Z.eqb 7) (map fst cs)) with false.
  2:{ symmetry. apply not_true_is_false. intro C. apply existsb_exists in C. destruct C as [x [C1 C2]]. apply Z.eqb_eq in C2. subst x.
      apply in_map_iff in C1. destruct C1 as [c [C1 C2]]. rewrite Forall_forall in H. apply (fixed_not7 c (H c C2)). exact C1. }
  rewrite (mapR_Forall2 _ (map fst cs) (map (fun c => Z.of_nat (List.length (snd c))) cs)).
  2:{ clear -H. induction H as [|c cs H1 H2 IH]; cbn [map]; constructor; [exact (proj1 (proj2 H1)) | exact IH]. }
  cbn [bind]. replace (forallb _ (map (fun c : stored => Z.of_nat (List.length (snd c))) cs)) with true.
  2:{ symmetry. apply forallb_forall. intros n Hn. apply in_map_iff in Hn. destruct Hn as [c [E Hc]]. rewrite Forall_forall in H. pose proof (H c Hc) as [_ [_ K]]. lia. }
  cbn [negb]. rewrite ends_diffs, zlist_eqb_refl.
  destruct (ends_placed cs []) as [os [z [EO L]]]. cbn [app List.length] in L, EO. change (Z.of_nat 0) with 0%Z in EO. rewrite EO. cbn [bind].
  change (pairs (0 :: changes 0 (map fst cs) ++ [List.length (map fst cs)])) with (spans_of cs).
  pose proof (spans_spec cs Hne) as S.
  assert (G : forall ses gs bs cd, Forall2 (span cs) ses gs -> Forall one_type gs ->
     fold_left (fun (r : res (list block * dict (list array))) (se : nat * nat) =>
          '(bs, cd) <- r ;;
          let '(s, e) := se in
          t <- match nth_error (map fst cs) s with Some t => Ok t | None => Err IndexError end ;;
          name <- type_of_code t ;;
          n <- match nth_error (map (fun c => Z.of_nat (List.length (snd c))) cs) s with Some n => Ok n | None => Err IndexError end ;;
          let order := vtk_to_meshio_order t n in
          cells <- mapR (fun o => mapR (fun i => at_ (conn cs) (o + (0 + i))%Z) order) (slice s e (os ++ [z])) ;;
          Ok (bs ++ [mk_block name (List.length order) cells], add_cell_data raw s e cd)) ses (Ok (bs, cd))
     = Ok (bs ++ map block_of gs, fold_left (fun cd se => add_cell_data raw (fst se) (snd se) cd) ses cd)).
  { intros ses gs bs cd F. revert bs cd. induction F as [|[s e] g ses gs F1 F2 IH]; intros bs cd T.
    - cbn [fold_left map]. rewrite app_nil_r. reflexivity.
    - inversion T as [|? ? T1 T2]; subst. destruct g as [|c g]; [contradiction|]. cbn [fold_left bind].
      pose proof (span_first fst cs (s, e) c g F1) as E1. pose proof (span_first (fun c => Z.of_nat (List.length (snd c))) cs (s, e) c g F1) as E2.
      cbn [fst snd] in E1, E2 |- *. rewrite E1. cbn [bind].
      rewrite Forall_forall in H. pose proof (H c (span_sub cs (s, e) (c :: g) c F1 (or_introl eq_refl))) as Fc.
      destruct Fc as [[n Hn] [Fc Fl]]. rewrite Hn. cbn [bind]. rewrite E2. cbn [bind].
      assert (LE : e <= List.length os).
      { rewrite (Forall2_len _ _ _ L). destruct F1 as [p [q [Q1 [Q2 Q3]]]]. cbn [fst snd] in *. rewrite Q1, !app_length. lia. }
      rewrite (slice_app_l s e os [z] LE).
      pose proof (span_slice2 _ _ _ _ _ L F1) as L'. cbn [fst snd] in L'.
      rewrite (mapR_Forall2 _ (slice s e os) (map to_mesh (c :: g))).
      + cbn [bind]. rewrite IH by exact T2. cbn [map block_of]. rewrite <- app_assoc. cbn [app].
        unfold nm. rewrite Hn. reflexivity.
      + apply Forall2_map_r.
        assert (T1' : Forall (fun d => fst d = fst c /\ fixed_cell d) (c :: g)).
        { apply Forall_forall. intros d Hd. split; [cbn [one_type] in T1; rewrite Forall_forall in T1; apply T1; exact Hd | apply H; exact (span_sub cs (s, e) _ d F1 Hd)]. }
        pose proof (Forall2_with _ _ _ _ L' T1') as L2. revert L2. clear -Fc.
        generalize (c :: g) at 1 2. intros l L2. generalize dependent (conn cs). intros data L2.
        induction L2 as [|o d os' l [K1 [K2 K3]] HL IH]; constructor; [|exact IH].
        assert (EL : Z.of_nat (List.length (snd c)) = Z.of_nat (List.length (snd d))).
        { destruct K3 as [_ [K3 _]]. rewrite K2 in K3. rewrite Fc in K3. injection K3 as K3. exact K3. }
        unfold to_mesh, order_of. rewrite K2, <- EL.
        apply (placed_order data o d (fst c) _ K1); [exact EL|].
        intro E. rewrite EL. apply (fixed_wedge d K3). congruence. }
  etransitivity; [exact (G _ _ [] [] S (groups_type cs))|]. cbn [app]. f_equal. f_equal. apply add_cell_data_cut; [exact Hraw|].
  destruct cs as [|c cs]; [contradiction|]. destruct (groups_head c cs) as [g [gs E]]. rewrite E in S. inversion S. discriminate.
Qed.

(** The nodes of a cell of the file and of the cell read: VTK and meshio number wedges differently. *)
Definition read_as (c : Z * list Z) (m : str * list Z) : Prop :=
  In (fst c, fst m) cell_types /\
  (if Z.eqb (fst c) 13
   then exists n0 n1 n2 n3 n4 n5, snd c = [n0; n1; n2; n3; n4; n5] /\ snd m = [n0; n2; n1; n3; n5; n4]
   else snd m = snd c).
Lemma read_as_ok c : fixed_cell c -> read_as c (nm (fst c), to_mesh c).
Proof.
  intros F. pose proof F as [[n Hn] _]. split; cbn [fst snd].
  - unfold nm. rewrite Hn. unfold type_of_code in Hn. destruct (find _ cell_types) as [[k n']|] eqn:E; [|discriminate]. injection Hn as Hn.
    apply find_some in E. destruct E as [E1 E2]. cbn [fst snd] in *. apply Z.eqb_eq in E2. subst. exact E1.
  - unfold to_mesh, order_of, vtk_to_meshio_order. destruct (Z.eqb_spec (fst c) 13) as [E|E].
    + pose proof (fixed_wedge c F E) as L. destruct c as [t l]. cbn [fst snd] in *.
      do 7 (destruct l as [|? l]; try (cbn in L; lia)). do 6 eexists. split; reflexivity.
    + apply pick_arange.
Qed.
