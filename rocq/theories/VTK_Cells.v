(** Proofs about cells: generated structured cells, and translate_cells as the inverse of the flat cell array. *)
From Verif Require Import Py PyFacts TextFacts ListFacts Bytes Dict VTK_Model VTK_Spec.
From Coq Require Import ZifyBool ZifyNat ZifyN.
Local Open Scope nat_scope.

(** ** Small facts *)
Lemma mapR_ok {A B} (f : A -> res B) g l : (forall x, In x l -> f x = Ok (g x)) -> mapR f l = Ok (map g l).
Proof. induction l as [|x l IH]; intro H; [reflexivity|]. cbn [mapR map]. rewrite (H x (or_introl eq_refl)). cbn [bind]. rewrite IH by (intros y Hy; apply H; right; exact Hy). reflexivity. Qed.
Lemma mapR_Forall2 {A B} (f : A -> res B) l l' : Forall2 (fun x y => f x = Ok y) l l' -> mapR f l = Ok l'.
Proof. induction 1 as [|x y l l' H1 H2 IH]; [reflexivity|]. cbn [mapR]. rewrite H1. cbn [bind]. rewrite IH. reflexivity. Qed.
Lemma Forall2_skipn {A B} (P : A -> B -> Prop) n l l' : Forall2 P l l' -> Forall2 P (skipn n l) (skipn n l').
Proof. revert l l'. induction n as [|n IH]; intros l l' H; [exact H|]. destruct H; cbn [skipn]; [constructor | apply IH; assumption]. Qed.
Lemma Forall2_firstn {A B} (P : A -> B -> Prop) n l l' : Forall2 P l l' -> Forall2 P (firstn n l) (firstn n l').
Proof. revert l l'. induction n as [|n IH]; intros l l' H; [constructor|]. destruct H; cbn [firstn]; constructor; [assumption | apply IH; assumption]. Qed.
Lemma Forall2_slice {A B} (P : A -> B -> Prop) s e l l' : Forall2 P l l' -> Forall2 P (slice s e l) (slice s e l').
Proof. intro H. unfold slice. apply Forall2_firstn, Forall2_skipn, H. Qed.
Lemma Forall2_len {A B} (P : A -> B -> Prop) l l' : Forall2 P l l' -> List.length l = List.length l'.
Proof. induction 1; cbn; congruence. Qed.
Lemma Forall2_map_r {A B C} (P : A -> C -> Prop) (g : B -> C) l l' : Forall2 (fun x y => P x (g y)) l l' -> Forall2 P l (map g l').
Proof. induction 1; cbn; constructor; assumption. Qed.
Lemma Forall2_with {A B} (P : A -> B -> Prop) (Q : B -> Prop) l l' : Forall2 P l l' -> Forall Q l' -> Forall2 (fun x y => P x y /\ Q y) l l'.
Proof. induction 1; intro HQ; [constructor|]. inversion HQ; subst. constructor; [split; assumption | auto]. Qed.

Lemma at_nat {A} (l : list A) i : at_ l (Z.of_nat i) = match nth_error l i with Some a => Ok a | None => Err IndexError end.
Proof. unfold at_. replace (Z.of_nat i <? 0)%Z with false by lia. rewrite Nat2Z.id. destruct (Z.of_nat i <? 0)%Z eqn:E; [lia | reflexivity]. Qed.
Lemma at_ok {A} (l : list A) i a : nth_error l i = Some a -> at_ l (Z.of_nat i) = Ok a.
Proof. intro H. rewrite at_nat, H. reflexivity. Qed.
Lemma at_app {A} (p l : list A) i : (0 <= i)%Z -> at_ (p ++ l) (Z.of_nat (List.length p) + i) = at_ l i.
Proof.
  intro H. replace i with (Z.of_nat (Z.to_nat i)) by lia. rewrite <- Nat2Z.inj_add, !at_nat.
  rewrite nth_error_app2 by lia. replace (List.length p + Z.to_nat i - List.length p) with (Z.to_nat i) by lia. reflexivity.
Qed.

Lemma arange_length n : List.length (arange n) = Z.to_nat n.
Proof. unfold arange. rewrite map_length, seq_length. reflexivity. Qed.
(** data[order] for an order within range *)
Definition pick (r : list Z) (order : list Z) : list Z := map (fun i => nth (Z.to_nat i) r 0%Z) order.
Lemma nth_error_nth_Z (r : list Z) i : i < List.length r -> nth_error r i = Some (nth i r 0%Z).
Proof. intro H. apply nth_error_nth'. exact H. Qed.
Lemma mapR_at r order : Forall (fun i => 0 <= i < Z.of_nat (List.length r))%Z order -> mapR (at_ r) order = Ok (pick r order).
Proof.
  intro H. apply mapR_ok. rewrite Forall_forall in H. intros i Hi. specialize (H i Hi).
  replace i with (Z.of_nat (Z.to_nat i)) at 1 by lia. apply at_ok. apply nth_error_nth_Z. lia.
Qed.
Lemma pick_arange r : pick r (arange (Z.of_nat (List.length r))) = r.
Proof.
  unfold pick, arange. rewrite map_map, Nat2Z.id. apply list_ext; [rewrite map_length, seq_length; reflexivity|].
  intros i Hi. rewrite map_length, seq_length in Hi. rewrite map_seq_nth_error by exact Hi. rewrite Nat2Z.id.
  symmetry. apply nth_error_nth_Z. exact Hi.
Qed.
Lemma pick_wedge r : List.length r = 6 -> pick (pick r wedge_order) wedge_order = r.
Proof. intro H. do 7 (destruct r as [|? r]; try discriminate). reflexivity. Qed.
Lemma pick_length r o : List.length (pick r o) = List.length o.
Proof. apply map_length. Qed.
Lemma arange_range n : Forall (fun i => 0 <= i < n)%Z (arange n).
Proof. unfold arange. apply Forall_map, Forall_forall. intros i Hi. apply in_seq in Hi. lia. Qed.
Lemma wedge_range : Forall (fun i => 0 <= i < 6)%Z wedge_order.
Proof. repeat constructor; lia. Qed.
Lemma orders_range t n : (t = 13%Z -> n = 6%Z) -> Forall (fun i => 0 <= i < n)%Z (vtk_to_meshio_order t n).
Proof.
  intro H. unfold vtk_to_meshio_order. destruct (Z.eqb_spec t 13) as [E|E]; [rewrite (H E); apply wedge_range | apply arange_range].
Qed.

(** ** The flat cell array *)
(** A stored cell: code and node numbers in VTK order. *)
Notation stored := (Z * list Z)%type.
Definition flat (cs : list stored) : list Z := flat_map (fun c => Z.of_nat (List.length (snd c)) :: snd c) cs.
(** Where the k-th cell is found. *)
Definition located (data : list Z) (o : Z) (c : stored) : Prop :=
  at_ data o = Ok (Z.of_nat (List.length (snd c))) /\
  forall i, (0 <= i < Z.of_nat (List.length (snd c)))%Z -> at_ data (o + 1 + i)%Z = Ok (nth (Z.to_nat i) (snd c) 0%Z).
Fixpoint offs (o : Z) (cs : list stored) : list Z :=
  match cs with [] => [] | c :: cs' => o :: offs (o + Z.of_nat (List.length (snd c)) + 1)%Z cs' end.
Lemma offs_located cs : forall pre, Forall2 (located (pre ++ flat cs)) (offs (Z.of_nat (List.length pre)) cs) cs.
Proof.
  induction cs as [|c cs IH]; intro pre; [constructor|]. cbn [offs flat flat_map]. constructor.
  - split.
    + rewrite <- (Z.add_0_r (Z.of_nat (List.length pre))). rewrite at_app by lia. reflexivity.
    + intros i Hi. rewrite <- Z.add_assoc. rewrite at_app by lia. cbn [app].
      change (at_ (?a :: ?l) (1 + i)) with (at_ ([a] ++ l) (Z.of_nat (List.length [a]) + i)). rewrite at_app by lia.
      replace i with (Z.of_nat (Z.to_nat i)) at 1 by lia. apply at_ok. rewrite nth_error_app1 by lia. apply nth_error_nth_Z. lia.
  - specialize (IH (pre ++ Z.of_nat (List.length (snd c)) :: snd c)). rewrite <- app_assoc in IH.
    rewrite app_length in IH. cbn [List.length] in IH.
    replace (Z.of_nat (List.length pre + S (List.length (snd c)))) with (Z.of_nat (List.length pre) + Z.of_nat (List.length (snd c)) + 1)%Z in IH by lia.
    exact IH.
Qed.
Lemma offsets_from_offs cs : forall o, offsets_from o (map (fun c : stored => Z.of_nat (List.length (snd c))) cs) = offs o cs.
Proof. induction cs as [|c cs IH]; intro o; [reflexivity|]. cbn [map offsets_from offs]. rewrite IH. reflexivity. Qed.
Lemma poly_offsets_offs data : forall cs o, Forall2 (located data) (offs o cs) cs -> poly_offsets data o (List.length cs) = Ok (offs o cs).
Proof.
  induction cs as [|c cs IH]; intros o H; [reflexivity|]. cbn [offs] in H. inversion H as [|? ? ? ? H1 H2]; subst.
  cbn [List.length poly_offsets offs]. destruct H1 as [H1 _]. rewrite H1. cbn [bind]. rewrite (IH _ H2). reflexivity.
Qed.
Lemma located_order data o c t n : located data o c -> n = Z.of_nat (List.length (snd c)) -> (t = 13%Z -> n = 6%Z) ->
  mapR (fun i => at_ data (o + 1 + i)%Z) (vtk_to_meshio_order t n) = Ok (pick (snd c) (vtk_to_meshio_order t n)).
Proof.
  intros [_ H] Hn Ht. subst n. apply mapR_ok. intros i Hi. pose proof (orders_range t _ Ht) as R. rewrite Forall_forall in R.
  apply H. apply R. exact Hi.
Qed.

(** ** Grouping by type *)
Fixpoint groups (cs : list stored) : list (list stored) :=
  match cs with
  | [] => []
  | c :: cs' =>
      match groups cs' with
      | (d :: g) :: gs => if Z.eqb (fst c) (fst d) then (c :: d :: g) :: gs else [c] :: (d :: g) :: gs
      | gs => [c] :: gs
      end
  end.
Lemma groups_head c cs : exists g gs, groups (c :: cs) = (c :: g) :: gs.
Proof. cbn [groups]. destruct (groups cs) as [|[|d g] gs]; [do 2 eexists; reflexivity | do 2 eexists; reflexivity|]. destruct (Z.eqb (fst c) (fst d)); do 2 eexists; reflexivity. Qed.
Lemma groups_same c d cs : Z.eqb (fst c) (fst d) = true -> exists g gs, groups (d :: cs) = (d :: g) :: gs /\ groups (c :: d :: cs) = (c :: d :: g) :: gs.
Proof.
  intro E. destruct (groups_head d cs) as [g [gs H]]. exists g, gs. split; [exact H|]. change (groups (c :: d :: cs)) with
    (match groups (d :: cs) with (d' :: g') :: gs' => if Z.eqb (fst c) (fst d') then (c :: d' :: g') :: gs' else [c] :: (d' :: g') :: gs' | gs' => [c] :: gs' end).
  rewrite H, E. reflexivity.
Qed.
Lemma groups_diff c d cs : Z.eqb (fst c) (fst d) = false -> groups (c :: d :: cs) = [c] :: groups (d :: cs).
Proof.
  intro E. destruct (groups_head d cs) as [g [gs H]]. change (groups (c :: d :: cs)) with
    (match groups (d :: cs) with (d' :: g') :: gs' => if Z.eqb (fst c) (fst d') then (c :: d' :: g') :: gs' else [c] :: (d' :: g') :: gs' | gs' => [c] :: gs' end).
  rewrite H, E. reflexivity.
Qed.
Lemma groups_concat cs : concat (groups cs) = cs.
Proof.
  induction cs as [|c cs IH]; [reflexivity|]. cbn [groups]. destruct (groups cs) as [|[|d g] gs]; cbn [concat app] in *; [congruence | congruence|].
  destruct (Z.eqb (fst c) (fst d)); cbn [concat app]; congruence.
Qed.
Definition one_type (g : list stored) : Prop := match g with [] => False | c :: _ => Forall (fun d => fst d = fst c) g end.
Lemma groups_type cs : Forall one_type (groups cs).
Proof.
  induction cs as [|c cs IH]; [constructor|]. cbn [groups]. destruct (groups cs) as [|[|d g] gs] eqn:E.
  - repeat constructor.
  - inversion IH; subst. contradiction.
  - inversion IH as [|? ? H1 H2]; subst. destruct (Z.eqb_spec (fst c) (fst d)) as [F|F].
    + constructor; [|exact H2]. cbn [one_type] in *. constructor; [reflexivity|]. revert H1. apply Forall_impl. intros x Hx. congruence.
    + constructor; [cbn; repeat constructor | exact IH].
Qed.
Fixpoint neighbours_differ (gs : list (list stored)) : Prop :=
  match gs with
  | (c :: _) :: ((((d :: _) :: _)) as t) => fst c <> fst d /\ neighbours_differ t
  | _ => True
  end.
Lemma groups_neighbours cs : neighbours_differ (groups cs).
Proof.
  induction cs as [|c cs IH]; [exact I|]. cbn [groups]. pose proof (groups_type cs) as T. destruct (groups cs) as [|[|d g] gs] eqn:E; [exact I | inversion T; contradiction|].
  destruct (Z.eqb_spec (fst c) (fst d)) as [F|F].
  - destruct gs as [|[|x h] gs]; [exact I | exact I|]. cbn [neighbours_differ] in *. rewrite F. exact IH.
  - cbn [neighbours_differ]. split; [exact F | exact IH].
Qed.

(** The (start, end) pairs cut the cells into the groups. *)
Lemma slice_mid {A} (p m q : list A) : slice (List.length p) (List.length p + List.length m) (p ++ m ++ q) = m.
Proof.
  unfold slice. rewrite skipn_app, Nat.sub_diag, skipn_all. cbn [app skipn].
  replace (List.length p + List.length m - List.length p) with (List.length m) by lia.
  rewrite firstn_app, Nat.sub_diag, firstn_all. cbn [firstn]. apply app_nil_r.
Qed.
Definition span (all : list stored) (se : nat * nat) (g : list stored) : Prop :=
  exists p q, all = p ++ g ++ q /\ fst se = List.length p /\ snd se = List.length p + List.length g.
Lemma spans_groups cs : forall c pre pend,
  match groups (c :: cs) with
  | g :: gs => Forall2 (span (pre ++ pend ++ c :: cs))
      (pairs (List.length pre :: changes (List.length pre + List.length pend) (map fst (c :: cs)) ++ [List.length pre + List.length pend + List.length (c :: cs)]))
      ((pend ++ g) :: gs)
  | [] => False
  end.
Proof.
  induction cs as [|d cs IH]; intros c pre pend.
  - cbn [groups map changes app pairs List.length]. constructor; [|constructor]. exists pre, []. cbn [fst snd]. rewrite app_nil_r, app_length. cbn [List.length]. split; [reflexivity | lia].
  - cbn [map changes]. destruct (Z.eqb (fst c) (fst d)) eqn:E.
    + destruct (groups_same c d cs E) as [g [gs [G1 G2]]]. rewrite G2. specialize (IH d pre (pend ++ [c])). rewrite G1 in IH.
      rewrite app_length in IH. cbn [List.length] in IH. rewrite <- !app_assoc in IH. cbn [app] in IH.
      replace (List.length pre + (List.length pend + 1)) with (S (List.length pre + List.length pend)) in IH by lia.
      replace (S (List.length pre + List.length pend) + S (List.length cs)) with (List.length pre + List.length pend + List.length (c :: d :: cs)) in IH by (cbn; lia).
      exact IH.
    + rewrite (groups_diff c d cs E). specialize (IH d (pre ++ pend ++ [c]) []). destruct (groups (d :: cs)) as [|g gs] eqn:G; [contradiction|].
      cbn [app List.length] in IH. rewrite !app_length in IH. cbn [List.length] in IH. rewrite <- !app_assoc in IH. cbn [app] in IH.
      replace (List.length pre + (List.length pend + 1) + 0) with (S (List.length pre + List.length pend)) in IH by lia.
      replace (List.length pre + (List.length pend + 1)) with (S (List.length pre + List.length pend)) in IH by lia.
      cbn [app]. cbn [pairs].
      match goal with |- context [pairs ?l] => idtac end.
      replace (List.length pre + List.length pend + List.length (c :: d :: cs)) with (S (List.length pre + List.length pend) + S (List.length cs)) by (cbn; lia).
      constructor; [|exact IH].
      exists pre, (d :: cs). cbn [fst snd]. rewrite app_length. cbn [List.length]. rewrite <- app_assoc. split; [reflexivity | lia].
Qed.

(** The same pairs, as consecutive segments of the lengths of the groups. *)
Fixpoint segs (o : nat) (ns : list nat) : list (nat * nat) := match ns with [] => [] | n :: ns' => (o, o + n) :: segs (o + n) ns' end.
Lemma pairs_segs cs : forall c i j, i <= j ->
  match groups (c :: cs) with
  | g :: gs => pairs (i :: changes j (map fst (c :: cs)) ++ [j + List.length (c :: cs)]) = segs i ((j - i + List.length g) :: map (@List.length _) gs)
  | [] => False
  end.
Proof.
  induction cs as [|d cs IH]; intros c i j H.
  - cbn [groups map changes app pairs segs List.length]. f_equal. f_equal. lia.
  - cbn [map changes]. destruct (Z.eqb (fst c) (fst d)) eqn:E.
    + destruct (groups_same c d cs E) as [g [gs [G1 G2]]]. rewrite G2. specialize (IH d i (S j) ltac:(lia)). rewrite G1 in IH.
      cbn [List.length] in *. replace (S j + S (List.length cs)) with (j + S (S (List.length cs))) in IH by lia.
      replace (S j - i + S (List.length g)) with (j - i + S (S (List.length g))) in IH by lia. exact IH.
    + rewrite (groups_diff c d cs E). specialize (IH d (S j) (S j) ltac:(lia)). destruct (groups (d :: cs)) as [|g gs]; [contradiction|].
      cbn [app pairs]. cbn [List.length] in *. replace (S j + S (List.length cs)) with (j + S (S (List.length cs))) in IH by lia.
      cbn [map] in IH. cbn [map segs]. replace (i + (j - i + 1)) with (S j) by lia. f_equal. rewrite Nat.sub_diag in IH. exact IH.
Qed.
