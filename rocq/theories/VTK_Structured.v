(** Structured grids: cells, points and data on the grid. *)
From Verif Require Import Py PyFacts TextFacts ListFacts Bytes Dict VTK_Model VTK_Spec VTK_Cells VTK_Translate.
From Coq Require Import ZifyBool ZifyNat ZifyN QArith.
Local Open Scope Z_scope.

Lemma div1 i j e0 : 0 <= i < e0 -> (i + e0 * j) / e0 = j.
Proof. intro H. symmetry. apply (Z.div_unique _ _ _ i); lia. Qed.
Lemma mod1 i j e0 : 0 <= i < e0 -> (i + e0 * j) mod e0 = i.
Proof. intro H. symmetry. apply (Z.mod_unique _ _ j); lia. Qed.
Lemma div2 i j l e0 e1 : 0 <= i < e0 -> 0 <= j < e1 -> (i + e0 * (j + e1 * l)) / (e0 * e1) = l.
Proof. intros H1 H2. symmetry. apply (Z.div_unique _ _ _ (i + e0 * j)); [left; nia | nia]. Qed.
Lemma mod2 i j l e0 e1 : 0 <= i < e0 -> 0 <= j < e1 -> ((i + e0 * (j + e1 * l)) mod (e0 * e1)) / e0 = j.
Proof.
  intros H1 H2. replace ((i + e0 * (j + e1 * l)) mod (e0 * e1)) with (i + e0 * j); [apply div1; exact H1|].
  apply (Z.mod_unique _ _ l); [left; nia | nia].
Qed.
Lemma flat_stored {A} (code : Z) (f : A -> list Z) k l : (forall e, List.length (f e) = k) ->
  flat (map (fun e => (code, f e)) l) = flat_map (fun e => Z.of_nat k :: f e) l.
Proof. intro H. unfold flat. induction l as [|e l IH]; [reflexivity|]. cbn [map flat_map snd]. rewrite H. f_equal. f_equal. exact IH. Qed.

Definition gcode (nx ny nz : Z) : Z :=
  match List.length (corners (extends nx) (extends ny) (extends nz)) with 2%nat => 3 | 4%nat => 9 | _ => 12 end.
Lemma generate_spec nx ny nz : 1 <= nx -> 1 <= ny -> 1 <= nz -> extends nx || extends ny || extends nz = true ->
  exists f, let k := List.length (corners (extends nx) (extends ny) (extends nz)) in
    let n := cells_in nx * cells_in ny * cells_in nz in
    let cs := map (fun e => (gcode nx ny nz, f e)) (arange n) in
    generate_cells [nx; ny; nz] = Ok (flat cs, map fst cs) /\
    (forall e, List.length (f e) = k) /\
    (forall i j l, 0 <= i < cells_in nx -> 0 <= j < cells_in ny -> 0 <= l < cells_in nz ->
       f (i + cells_in nx * (j + cells_in ny * l)) = cell_nodes nx ny nz i j l).
Proof.
  intros Hx Hy Hz. unfold generate_cells, cells_in, cell_nodes, gcode, point_index. cbn [filter].
  fold (extends nx). fold (extends ny). fold (extends nz).
  destruct (extends nx) eqn:Ex, (extends ny) eqn:Ey, (extends nz) eqn:Ez; intro HE; try discriminate; unfold extends in *; cbn [map fold_left corners List.length].
  - exists (fun e => let e0 := nx - 1 in let e1 := ny - 1 in
      let c1 := (e + (e0 + e1 + 1) * (e / (e0 * e1)) + (e mod (e0 * e1)) / e0)%Z in
      let c3 := (c1 + 2 + e0)%Z in let c5 := (c1 + (1 + e0) * (1 + e1))%Z in let c7 := (c5 + 2 + e0)%Z in
      [c1; c1 + 1; c3; c3 - 1; c5; c5 + 1; c7; c7 - 1]). cbv zeta.
    split; [|split].
    + rewrite (flat_stored 12 _ 8) by reflexivity. rewrite map_map. cbn [fst]. replace (1 * (nx - 1) * (ny - 1) * (nz - 1)) with ((nx - 1) * (ny - 1) * (nz - 1)) by lia. reflexivity.
    + reflexivity.
    + intros i j l Hi Hj Hl. rewrite (div2 i j l) by lia. rewrite (mod2 i j l) by lia.
      cbn [map]. repeat match goal with |- ?a :: ?l = ?b :: ?m => apply (f_equal2 cons); [ring|] end. reflexivity.
  - exists (fun e => let e0 := nx - 1 in let c1 := e + e / e0 in let c3 := c1 + 2 + e0 in [c1; c1 + 1; c3; c3 - 1]). cbv zeta.
    split; [|split].
    + rewrite (flat_stored 9 _ 4) by reflexivity. rewrite map_map. cbn [fst]. replace ((nx - 1) * (ny - 1) * 1) with (1 * (nx - 1) * (ny - 1)) by lia. reflexivity.
    + reflexivity.
    + intros i j l Hi Hj Hl. assert (l = 0) by lia. subst l. rewrite (div1 i) by lia.
      cbn [map]. repeat match goal with |- ?a :: ?l = ?b :: ?m => apply (f_equal2 cons); [ring|] end. reflexivity.
  - assert (ny = 1) by lia. subst ny. exists (fun e => let e0 := nx - 1 in let c1 := e + e / e0 in let c3 := c1 + 2 + e0 in [c1; c1 + 1; c3; c3 - 1]). cbv zeta.
    split; [|split].
    + rewrite (flat_stored 9 _ 4) by reflexivity. rewrite map_map. cbn [fst]. replace ((nx - 1) * 1 * (nz - 1)) with (1 * (nx - 1) * (nz - 1)) by lia. reflexivity.
    + reflexivity.
    + intros i j l Hi Hj Hl. assert (j = 0) by lia. subst j. rewrite (div1 i) by lia.
      cbn [map]. repeat match goal with |- ?a :: ?l = ?b :: ?m => apply (f_equal2 cons); [ring|] end. reflexivity.
  - exists (fun e => [e; e + 1]). cbv zeta. split; [|split].
    + rewrite (flat_stored 3 _ 2) by reflexivity. rewrite map_map. cbn [fst]. replace ((nx - 1) * 1 * 1) with (1 * (nx - 1)) by lia. reflexivity.
    + reflexivity.
    + intros i j l Hi Hj Hl. assert (j = 0) by lia. assert (l = 0) by lia. subst j l.
      cbn [map]. repeat match goal with |- ?a :: ?l = ?b :: ?m => apply (f_equal2 cons); [ring|] end. reflexivity.
  - assert (nx = 1) by lia. subst nx. exists (fun e => let e0 := ny - 1 in let c1 := e + e / e0 in let c3 := c1 + 2 + e0 in [c1; c1 + 1; c3; c3 - 1]). cbv zeta.
    split; [|split].
    + rewrite (flat_stored 9 _ 4) by reflexivity. rewrite map_map. cbn [fst]. replace (1 * (ny - 1) * (nz - 1)) with (1 * (ny - 1) * (nz - 1)) by lia. reflexivity.
    + reflexivity.
    + intros i j l Hi Hj Hl. assert (i = 0) by lia. subst i. replace (0 + 1 * (j + (ny - 1) * l)) with (j + (ny - 1) * l) by ring. rewrite (div1 j) by lia.
      cbn [map]. repeat match goal with |- ?a :: ?l = ?b :: ?m => apply (f_equal2 cons); [ring|] end. reflexivity.
  - assert (nx = 1) by lia. subst nx. exists (fun e => [e; e + 1]). cbv zeta. split; [|split].
    + rewrite (flat_stored 3 _ 2) by reflexivity. rewrite map_map. cbn [fst]. replace (1 * (ny - 1) * 1) with (1 * (ny - 1)) by lia. reflexivity.
    + reflexivity.
    + intros i j l Hi Hj Hl. assert (i = 0) by lia. assert (l = 0) by lia. subst i l.
      cbn [map]. repeat match goal with |- ?a :: ?l = ?b :: ?m => apply (f_equal2 cons); [ring|] end. reflexivity.
  - assert (nx = 1) by lia. assert (ny = 1) by lia. subst nx ny. exists (fun e => [e; e + 1]). cbv zeta. split; [|split].
    + rewrite (flat_stored 3 _ 2) by reflexivity. rewrite map_map. cbn [fst]. replace (1 * 1 * (nz - 1)) with (1 * (nz - 1)) by lia. reflexivity.
    + reflexivity.
    + intros i j l Hi Hj Hl. assert (i = 0) by lia. assert (j = 0) by lia. subst i j.
      cbn [map]. repeat match goal with |- ?a :: ?l = ?b :: ?m => apply (f_equal2 cons); [ring|] end. reflexivity.
Qed.

(** One type: one group. *)
Lemma groups_uniform code (l : list (list Z)) : l <> [] -> groups (map (pair code) l) = [map (pair code) l].
Proof.
  induction l as [|x l IH]; intro H; [contradiction|]. destruct l as [|y l]; [reflexivity|].
  assert (E : groups (map (pair code) (y :: l)) = [map (pair code) (y :: l)]) by (apply IH; discriminate).
  change (groups (map (pair code) (x :: y :: l))) with
    (match groups (map (pair code) (y :: l)) with (d :: g) :: gs => if Z.eqb code (fst d) then ((code, x) :: d :: g) :: gs else [(code, x)] :: (d :: g) :: gs | gs => [(code, x)] :: gs end).
  rewrite E. cbn [map fst]. rewrite Z.eqb_refl. reflexivity.
Qed.
Lemma changes_uniform code n : forall i, changes i (repeat code n) = [].
Proof. induction n as [|n IH]; intro i; [reflexivity|]. cbn [repeat changes]. destruct n as [|n]; [reflexivity|]. cbn [repeat] in *. rewrite Z.eqb_refl. apply IH. Qed.

Theorem structured_cells nx ny nz raw : 1 <= nx -> 1 <= ny -> 1 <= nz -> extends nx || extends ny || extends nz = true -> NoDup (map fst raw) ->
  exists c ct rs, generate_cells [nx; ny; nz] = Ok (c, ct) /\
    let n := cells_in nx * cells_in ny * cells_in nz in
    translate_cells (Flat c) ct raw =
      Ok ([mk_block (cell_kind nx ny nz) (List.length (corners (extends nx) (extends ny) (extends nz))) rs],
          map (fun p => (fst p, [slice_rows 0 (Z.to_nat n) (snd p)])) raw) /\
    List.length rs = Z.to_nat n /\
    forall i j l, 0 <= i < cells_in nx -> 0 <= j < cells_in ny -> 0 <= l < cells_in nz ->
      nth_error rs (Z.to_nat (i + cells_in nx * (j + cells_in ny * l))) = Some (cell_nodes nx ny nz i j l).
Proof.
  intros Hx Hy Hz HE Hraw. destruct (generate_spec nx ny nz Hx Hy Hz HE) as [f [G1 [G2 G3]]]. cbv zeta in G1, G2, G3. cbv zeta.
  set (n := cells_in nx * cells_in ny * cells_in nz) in *. set (k := List.length (corners (extends nx) (extends ny) (extends nz))) in *.
  assert (P : 0 < cells_in nx /\ 0 < cells_in ny /\ 0 < cells_in nz) by (clear -Hx Hy Hz; unfold cells_in, extends; repeat split; match goal with |- context [?a <? ?b] => destruct (Z.ltb_spec a b); lia end).
  assert (Hn : 0 < n) by (unfold n; nia).
  set (cs := map (fun e => (gcode nx ny nz, f e)) (arange n)) in *.
  assert (Ecs : cs = map (pair (gcode nx ny nz)) (map f (arange n))) by (unfold cs; rewrite map_map; reflexivity).
  assert (Ne : arange n <> []) by (intro C; apply (f_equal (@List.length Z)) in C; rewrite arange_length in C; cbn in C; lia).
  assert (Kind : type_of_code (gcode nx ny nz) = Ok (cell_kind nx ny nz) /\ at_ numnodes_table (gcode nx ny nz) = Ok (Z.of_nat k) /\ (0 < k)%nat /\ gcode nx ny nz <> 13).
  { unfold gcode, cell_kind, k. destruct (extends nx), (extends ny), (extends nz); try discriminate; vm_compute; repeat split; try discriminate; auto 20. }
  destruct Kind as [K1 [K2 [K3 K4]]].
  exists (flat cs), (map fst cs), (map f (arange n)). split; [exact G1|]. split; [|split].
  - rewrite translate_fixed.
    + rewrite Ecs at 1. rewrite groups_uniform by (intro C; apply map_eq_nil in C; contradiction). cbn [map]. f_equal. f_equal.
      * destruct (arange n) as [|e es] eqn:Ea; [contradiction|]. cbn [map block_of]. unfold order_of. cbn [fst snd]. unfold vtk_to_meshio_order.
        replace (gcode nx ny nz =? 13) with false by lia. rewrite arange_length, Nat2Z.id, G2. unfold nm. rewrite K1. f_equal. f_equal.
        change (map to_mesh (map (pair (gcode nx ny nz)) (map f (e :: es))) = map f (e :: es)).
        rewrite !map_map. apply map_ext. intro x. unfold to_mesh, order_of. cbn [fst snd]. unfold vtk_to_meshio_order. replace (gcode nx ny nz =? 13) with false by lia. apply pick_arange.
      * unfold cut. apply map_ext. intro p. f_equal. unfold spans_of.
        assert (Et : map fst cs = repeat (gcode nx ny nz) (Z.to_nat n)).
        { unfold cs. rewrite map_map. cbn [fst]. rewrite <- (arange_length n). clear. induction (arange n) as [|x l IH]; [reflexivity|]. cbn. f_equal. exact IH. }
        rewrite Et, changes_uniform, repeat_length. cbn [app pairs map fst snd]. reflexivity.
    + unfold cs. intro C. apply map_eq_nil in C. contradiction.
    + unfold cs. apply Forall_map, Forall_forall. intros e _. unfold fixed_cell. cbn [fst snd]. rewrite G2. split; [eexists; exact K1|]. split; [exact K2 | exact K3].
    + exact Hraw.
  - rewrite map_length, arange_length. reflexivity.
  - intros i j l Hi Hj Hl. rewrite <- (G3 i j l Hi Hj Hl). rewrite nth_error_map.
    assert (B : 0 <= i + cells_in nx * (j + cells_in ny * l) < n).
    { unfold n. assert (j + cells_in ny * l < cells_in ny * cells_in nz) by nia. assert (0 <= j + cells_in ny * l) by nia. nia. }
    unfold arange. rewrite map_seq_nth_error by lia. cbn [option_map]. rewrite Z2Nat.id by (destruct B; assumption). reflexivity.
Qed.

(** Points in Fortran order. *)
Local Open Scope nat_scope.
Lemma nth_flat_map {A B} (g : A -> list B) k (l : list A) i m a : (forall x, List.length (g x) = k) -> nth_error l m = Some a -> i < k ->
  nth_error (flat_map g l) (i + k * m) = nth_error (g a) i.
Proof.
  intros Hk. revert m. induction l as [|x l IH]; intros [|m] H Hi; try discriminate; cbn [nth_error flat_map] in *.
  - injection H as ->. rewrite Nat.mul_0_r, Nat.add_0_r. apply nth_error_app1. rewrite Hk. exact Hi.
  - rewrite nth_error_app2 by (rewrite Hk; nia). rewrite Hk. replace (i + k * S m - k) with (i + k * m) by nia. apply IH; assumption.
Qed.
Lemma flat_map_len {A B} (g : A -> list B) k l : (forall x, List.length (g x) = k) -> List.length (flat_map g l) = k * List.length l.
Proof. intro H. induction l as [|x l IH]; [cbn; lia|]. cbn [flat_map]. rewrite app_length, H, IH. cbn [List.length]. lia. Qed.
Lemma generate_points_nth {A} (ax ay az : list A) i j l x y z : nth_error ax i = Some x -> nth_error ay j = Some y -> nth_error az l = Some z ->
  nth_error (generate_points ax ay az) (i + List.length ax * (j + List.length ay * l)) = Some [x; y; z].
Proof.
  intros Hx Hy Hz. unfold generate_points.
  assert (Li : i < List.length ax) by (apply nth_error_Some; congruence). assert (Lj : j < List.length ay) by (apply nth_error_Some; congruence).
  replace (i + List.length ax * (j + List.length ay * l)) with ((i + List.length ax * j) + (List.length ax * List.length ay) * l) by nia.
  rewrite (nth_flat_map _ (List.length ax * List.length ay) _ _ _ z).
  - rewrite (nth_flat_map _ (List.length ax) _ _ _ y); [|intro; apply map_length | exact Hy | exact Li].
    rewrite nth_error_map, Hx. reflexivity.
  - intro w. rewrite (flat_map_len _ (List.length ax)); [reflexivity | intro; apply map_length].
  - exact Hz.
  - nia.
Qed.
Lemma generate_points_length {A} (ax ay az : list A) : List.length (generate_points ax ay az) = List.length ax * List.length ay * List.length az.
Proof.
  unfold generate_points. rewrite (flat_map_len _ (List.length ax * List.length ay)); [reflexivity|].
  intro w. rewrite (flat_map_len _ (List.length ax)); [reflexivity | intro; apply map_length].
Qed.
