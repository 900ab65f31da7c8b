(** Properties C34, C35, C58 and C59 (VTK files). *)
From Verif Require Import Py PyFacts TextFacts ListFacts Bytes Dict VTK_Model VTK_Spec VTK_Cells VTK_Translate VTK_Offsets VTK_File VTK_Round VTK_Structured.
From Coq Require Import ZifyBool ZifyNat ZifyN QArith.
Local Open Scope nat_scope.

(** ** C34: structured grids *)
Lemma node_in_range nx ny nz i j l p : (1 <= nx)%Z -> (1 <= ny)%Z -> (1 <= nz)%Z ->
  (0 <= i < cells_in nx)%Z -> (0 <= j < cells_in ny)%Z -> (0 <= l < cells_in nz)%Z -> In p (cell_nodes nx ny nz i j l) -> (0 <= p < nx * ny * nz)%Z.
Proof.
  intros Hx Hy Hz Hi Hj Hl H. unfold cell_nodes in H. apply in_map_iff in H. destruct H as [[[a b] c] [<- H]].
  assert (B : (0 <= i + a < nx /\ 0 <= j + b < ny /\ 0 <= l + c < nz)%Z).
  { unfold cells_in, extends in *. destruct (Z.ltb_spec 1 nx), (Z.ltb_spec 1 ny), (Z.ltb_spec 1 nz); cbn [corners In] in H;
    repeat (destruct H as [H|H]; [injection H as <- <- <-; lia|]); contradiction. }
  unfold point_index. destruct B as [B1 [B2 B3]]. clear -B1 B2 B3 Hx Hy Hz. revert B1 B2 B3. generalize (i + a)%Z (j + b)%Z (l + c)%Z. intros x y z B1 B2 B3.
  assert (0 <= y + ny * z)%Z by nia. split; [nia|]. assert (y + ny * z + 1 <= ny * nz)%Z by nia. nia.
Qed.
(** The generated cells of a grid with at least one direction of two or more points: one block of lines, quads or
    hexahedra; cell (i,j,l) lists the corner points of the grid cell in VTK order, all of them in range. *)
Theorem C34_structured_cells : forall nx ny nz raw, (1 <= nx)%Z -> (1 <= ny)%Z -> (1 <= nz)%Z ->
  extends nx || extends ny || extends nz = true -> NoDup (map fst raw) ->
  exists c ct rs cd, generate_cells [nx; ny; nz] = Ok (c, ct) /\
    translate_cells (Flat c) ct raw = Ok ([mk_block (cell_kind nx ny nz) (List.length (corners (extends nx) (extends ny) (extends nz))) rs], cd) /\
    List.length rs = Z.to_nat (cells_in nx * cells_in ny * cells_in nz) /\
    forall i j l, (0 <= i < cells_in nx)%Z -> (0 <= j < cells_in ny)%Z -> (0 <= l < cells_in nz)%Z ->
      nth_error rs (Z.to_nat (i + cells_in nx * (j + cells_in ny * l))) = Some (cell_nodes nx ny nz i j l) /\
      Forall (fun p => 0 <= p < nx * ny * nz)%Z (cell_nodes nx ny nz i j l).
Proof.
  intros nx ny nz raw Hx Hy Hz He Hr. destruct (structured_cells nx ny nz raw Hx Hy Hz He Hr) as [c [ct [rs [H1 [H2 [H3 H4]]]]]].
  exists c, ct, rs. eexists. split; [exact H1|]. split; [exact H2|]. split; [exact H3|]. intros i j l Hi Hj Hl. split; [apply H4; assumption|].
  apply Forall_forall. intros p Hp. exact (node_in_range nx ny nz i j l p Hx Hy Hz Hi Hj Hl Hp).
Qed.
Print Assumptions C34_structured_cells.
Example C34_cell_example : extends 3 || extends 2 || extends 1 = true /\ cell_kind 3 2 1 = S_ "quad" /\ cell_nodes 3 2 1 1 0 0 = [1; 2; 5; 4]%Z /\ cell_nodes 3 3 2 1 1 0 = [4; 5; 8; 7; 13; 14; 17; 16]%Z.
Proof. repeat split; reflexivity. Qed.

(** Post-processing of structured points: points, cells, and the point data on the grid. *)
Definition grid_data (a : array) (k nx ny i j l : nat) : list str := firstn k (skipn ((i + nx * (j + ny * l)) * k) (a_items a)).
Lemma axis_length f64 o h d : List.length (axis f64 o h d) = Z.to_nat d.
Proof. unfold axis. rewrite map_length. apply arange_length. Qed.
Lemma axis_nth f64 o h n i : (i < n)%nat -> nth_error (axis f64 o h (Z.of_nat n)) i = Some (f64 (o + inject_Z (Z.of_nat i) * h)%Q).
Proof. intro H. unfold axis, arange. rewrite Nat2Z.id, map_map, map_seq_nth_error by exact H. reflexivity. Qed.
Lemma nth_row (l : list str) k p : (p + 1) * k <= List.length l -> map (fun c => nth (p * k + c) l []) (seq 0 k) = firstn k (skipn (p * k) l).
Proof.
  intro H. apply list_ext; [rewrite map_length, seq_length, firstn_length, skipn_length; nia|]. intros c Hc. rewrite map_length, seq_length in Hc.
  rewrite map_seq_nth_error by exact Hc. rewrite nth_error_firstn by exact Hc. rewrite nth_error_skipn. symmetry. apply nth_error_nth'. nia.
Qed.
Theorem C34_structured_points : forall f64 v nx ny nz ox oy oz hx hy hz,
  ds_type (v_ds v) = Some StructuredPoints -> ds_dim (v_ds v) = Some [Z.of_nat nx; Z.of_nat ny; Z.of_nat nz] ->
  get (ds_vec (v_ds v)) (S_ "ORIGIN") = Some [ox; oy; oz] -> get (ds_vec (v_ds v)) (S_ "SPACING") = Some [hx; hy; hz] ->
  1 <= nx -> 1 <= ny -> 1 <= nz -> 1 < nx * ny * nz -> NoDup (map fst (v_cdraw v)) ->
  Forall (fun e => exists k, a_shape (snd e) = [nx * ny * nz; k] /\ List.length (a_items (snd e)) = nx * ny * nz * k) (v_pd v) ->
  exists v' pts rs, finish f64 v = Ok v' /\
    v_points v' = Some (mk_array F64 [nx * ny * nz; 3] (concat pts)) /\ List.length pts = nx * ny * nz /\
    v_cells v' = [mk_block (cell_kind (Z.of_nat nx) (Z.of_nat ny) (Z.of_nat nz)) (List.length (corners (extends (Z.of_nat nx)) (extends (Z.of_nat ny)) (extends (Z.of_nat nz)))) rs] /\
    v_pd v' = v_pd v /\
    (forall i j l, i < nx -> j < ny -> l < nz ->
       nth_error pts (i + nx * (j + ny * l)) =
         Some [f64 (ox + inject_Z (Z.of_nat i) * hx)%Q; f64 (oy + inject_Z (Z.of_nat j) * hy)%Q; f64 (oz + inject_Z (Z.of_nat l) * hz)%Q]) /\
    (forall i j l, (0 <= i < cells_in (Z.of_nat nx))%Z -> (0 <= j < cells_in (Z.of_nat ny))%Z -> (0 <= l < cells_in (Z.of_nat nz))%Z ->
       nth_error rs (Z.to_nat (i + cells_in (Z.of_nat nx) * (j + cells_in (Z.of_nat ny) * l))) = Some (cell_nodes (Z.of_nat nx) (Z.of_nat ny) (Z.of_nat nz) i j l)) /\
    map fst (v_pdgrid v') = map fst (v_pd v) /\
    Forall2 (fun e g => forall k i j l, a_shape (snd e) = [nx * ny * nz; k] -> i < nx -> j < ny -> l < nz ->
       exists x y, nth_error (snd g) i = Some x /\ nth_error x j = Some y /\ nth_error y l = Some (grid_data (snd e) k nx ny i j l)) (v_pd v) (v_pdgrid v').
Proof.
  intros f64 v nx ny nz ox oy oz hx hy hz D1 D2 D3 D4 Hx Hy Hz Hn ND HP.
  assert (He : extends (Z.of_nat nx) || extends (Z.of_nat ny) || extends (Z.of_nat nz) = true).
  { unfold extends. destruct (Z.ltb_spec 1 (Z.of_nat nx)), (Z.ltb_spec 1 (Z.of_nat ny)), (Z.ltb_spec 1 (Z.of_nat nz)); try reflexivity. exfalso. assert (nx = 1) by lia. assert (ny = 1) by lia. assert (nz = 1) by lia. subst. cbn in Hn. lia. }
  destruct (structured_cells (Z.of_nat nx) (Z.of_nat ny) (Z.of_nat nz) (v_cdraw v) ltac:(lia) ltac:(lia) ltac:(lia) He ND) as [c [ct [rs [H1 [H2 [H3 H4]]]]]].
  unfold finish, check_mesh. rewrite D1, D2, D3, D4. unfold generate. rewrite D2. cbn [bind]. rewrite H1. cbn [bind v_c v_ct v_cdraw]. cbv zeta in H2. rewrite H2. cbn [bind v_ds v_grid v_pd]. rewrite D1, !axis_length, !Nat2Z.id.
  set (gd := fun a k => map (fun i => map (fun j => map (fun l => map (fun c => nth ((i + nx * (j + ny * l)) * k + c) (a_items a) []) (seq 0 k)) (seq 0 nz)) (seq 0 ny)) (seq 0 nx)).
  assert (G : exists gs, mapR (fun p : str * array => g <- grid_of nx ny nz (snd p) ;; Ok (fst p, g)) (v_pd v) = Ok gs /\ map fst gs = map fst (v_pd v) /\
     Forall2 (fun e g => forall k, a_shape (snd e) = [nx * ny * nz; k] -> snd g = gd (snd e) k /\ List.length (a_items (snd e)) = nx * ny * nz * k) (v_pd v) gs).
  { clear -HP. induction HP as [|e l [k [S1 S2]] HP IH]; [exists []; repeat split; constructor|]. destruct IH as [gs [I1 [I2 I3]]].
    exists ((fst e, gd (snd e) k) :: gs). cbn [mapR]. unfold grid_of at 1. rewrite S1, S2, Nat.eqb_refl. cbn [bind]. rewrite I1. cbn [bind]. split; [reflexivity|]. split; [cbn [map fst]; congruence|].
    constructor; [|exact I3]. intros k' S'. rewrite S1 in S'. injection S' as <-. split; [reflexivity | exact S2]. }
  destruct G as [gs [G1 [G2 G3]]]. change (v_pd _) with (v_pd v) at 1. rewrite G1. cbn [bind].
  do 2 eexists. exists rs. split; [reflexivity|]. cbn [v_points v_cells v_pd v_pdgrid]. rewrite generate_points_length, !axis_length, !Nat2Z.id.
  split; [reflexivity|]. split; [rewrite generate_points_length, !axis_length, !Nat2Z.id; reflexivity|]. split; [reflexivity|]. split; [reflexivity|].
  split.
  { intros i j l Hi Hj Hl. pose proof (generate_points_nth (axis f64 ox hx (Z.of_nat nx)) (axis f64 oy hy (Z.of_nat ny)) (axis f64 oz hz (Z.of_nat nz)) i j l _ _ _ (axis_nth f64 ox hx nx i Hi) (axis_nth f64 oy hy ny j Hj) (axis_nth f64 oz hz nz l Hl)) as P.
    rewrite !axis_length, !Nat2Z.id in P. exact P. }
  split; [exact H4|]. split; [exact G2|].
  clear -G3. induction G3 as [|e g l gs G G3 IH]; constructor; [|exact IH]. intros k i j m Sh Hi Hj Hm. destruct (G k Sh) as [Eg L]. rewrite Eg. unfold gd.
  do 2 eexists. split; [apply map_seq_nth_error; exact Hi|]. split; [apply map_seq_nth_error; exact Hj|]. rewrite map_seq_nth_error by exact Hm. f_equal. unfold grid_data. apply nth_row.
  rewrite L. apply Nat.mul_le_mono_r. assert (j + ny * m + 1 <= ny * nz) by nia. nia.
Qed.
Print Assumptions C34_structured_points.
Example C34_points_example :
  let v := mk_vtk true APointData 4 (mk_dataset (Some StructuredPoints) (Some [2; 2; 1]%Z) [(S_ "ORIGIN", [0; 0; 5]%Q); (S_ "SPACING", [10; 20; 1]%Q)] []) None None None
             [(S_ "u", mk_array F32 [4; 1] [S_ "a"; S_ "b"; S_ "c"; S_ "d"])] [] [] [] [] [] [] in
  1 < 2 * 2 * 1 /\ Forall (fun e => exists k, a_shape (snd e) = [2 * 2 * 1; k] /\ List.length (a_items (snd e)) = 2 * 2 * 1 * k) (v_pd v) /\
  match finish (fun _ => S_ "x") v with Ok v' => v_pdgrid v' = [(S_ "u", [[[[S_ "a"]]; [[S_ "c"]]]; [[[S_ "b"]]; [[S_ "d"]]]])] | Err _ => False end.
Proof. cbn zeta. split; [lia|]. split; [constructor; [exists 1; split; reflexivity | constructor] | vm_compute; reflexivity]. Qed.

(** Reading a whole file of structured points with one vector field, text or binary. *)
Section StructuredFile.
  Variable show : dtype -> str -> str.
  Variable scan : dtype -> str -> option str.
  Variable float_ : str -> res Q.
  Variable f64 : Q -> str.
  Variable binary : bool.
  Theorem C34_structured_file : forall nx ny nz ws hs ox oy oz hx hy hz name items,
    1 <= nx -> 1 <= ny -> 1 <= nz -> 1 < nx * ny * nz ->
    forallb plain_word ws = true -> mapR float_ ws = Ok [ox; oy; oz] -> forallb plain_word hs = true -> mapR float_ hs = Ok [hx; hy; hz] ->
    plain_word name = true -> List.length items = nx * ny * nz * 3 -> Forall (storable show scan binary F32) items ->
    exists v pts rs g, read scan float_ f64 new_vtk (structured_text show binary nx ny nz ws hs name items) = Ok v /\
      v_points v = Some (mk_array F64 [nx * ny * nz; 3] (concat pts)) /\ List.length pts = nx * ny * nz /\
      v_cells v = [mk_block (cell_kind (Z.of_nat nx) (Z.of_nat ny) (Z.of_nat nz)) (List.length (corners (extends (Z.of_nat nx)) (extends (Z.of_nat ny)) (extends (Z.of_nat nz)))) rs] /\
      v_pd v = [(name, mk_array F32 [nx * ny * nz; 3] items)] /\ v_pdgrid v = [(name, g)] /\
      (forall i j l, i < nx -> j < ny -> l < nz ->
         nth_error pts (i + nx * (j + ny * l)) =
           Some [f64 (ox + inject_Z (Z.of_nat i) * hx)%Q; f64 (oy + inject_Z (Z.of_nat j) * hy)%Q; f64 (oz + inject_Z (Z.of_nat l) * hz)%Q] /\
         exists x y, nth_error g i = Some x /\ nth_error x j = Some y /\ nth_error y l = Some (firstn 3 (skipn (3 * (i + nx * (j + ny * l))) items))) /\
      (forall i j l, (0 <= i < cells_in (Z.of_nat nx))%Z -> (0 <= j < cells_in (Z.of_nat ny))%Z -> (0 <= l < cells_in (Z.of_nat nz))%Z ->
         nth_error rs (Z.to_nat (i + cells_in (Z.of_nat nx) * (j + cells_in (Z.of_nat ny) * l))) = Some (cell_nodes (Z.of_nat nx) (Z.of_nat ny) (Z.of_nat nz) i j l)).
  Proof.
    intros nx ny nz ws hs ox oy oz hx hy hz name items Hx Hy Hz Hn Pw Fw Ph Fh Pn Li Si.
    set (n := nx * ny * nz) in *. set (a := mk_array F32 [n; 3] items).
    set (ds := mk_dataset (Some StructuredPoints) (Some [Z.of_nat nx; Z.of_nat ny; Z.of_nat nz]) [(S_ "ORIGIN", [ox; oy; oz]); (S_ "SPACING", [hx; hy; hz])] []).
    set (v0 := mk_vtk (negb binary) APointData n ds None None None [(name, a)] [] [] [] [] [] []).
    assert (R : read scan float_ f64 new_vtk (structured_text show binary nx ny nz ws hs name items) = finish f64 v0).
    { rewrite read_nonempty by discriminate. unfold structured_text. cbn [app].
      rewrite readline_app by reflexivity. rewrite readline_app by reflexivity. rewrite readline_app by (destruct binary; reflexivity).
      assert (DE : decode ((if binary then S_ "BINARY" else S_ "ASCII") ++ [nl]) = Ok ((if binary then S_ "BINARY" else S_ "ASCII") ++ [nl])) by (destruct binary; reflexivity).
      rewrite DE. cbn [bind].
      assert (M1 : str_eqb (upper (strip ((if binary then S_ "BINARY" else S_ "ASCII") ++ [nl]))) (S_ "ASCII") = negb binary) by (destruct binary; reflexivity).
      assert (M2 : str_eqb (upper (strip ((if binary then S_ "BINARY" else S_ "ASCII") ++ [nl]))) (S_ "BINARY") = binary) by (destruct binary; reflexivity).
      rewrite M1, M2. replace (negb binary || binary) with true by (destruct binary; reflexivity).
      set (s3 := line [S_ "DATASET"; S_ "STRUCTURED_POINTS"] ++ _). set (vm := set_mode new_vtk (negb binary)).
      assert (Hf : exists m, S (List.length s3) = 7 + m). { unfold s3. rewrite app_length. change (List.length (line [S_ "DATASET"; S_ "STRUCTURED_POINTS"])) with 26. eexists. instantiate (1 := 20 + _). cbn [Nat.add]. reflexivity. }
      destruct Hf as [m Hf]. rewrite Hf. unfold s3. cbn [Nat.add]. clear Hf s3.
      set (V := fun d a k => mk_vtk (negb binary) a k d None None None [] [] [] [] [] [] []).
      rewrite loop_step by reflexivity. change (existsb (str_eqb (upper (S_ "DATASET"))) sections) with true. cbv iota.
      match goal with |- context [read_section scan vm ?w ?sp ?r] => change (read_section scan vm w sp r) with (@Ok (vtk * str) (V (mk_dataset (Some StructuredPoints) None [] []) ADataset 0, r)) end.
      cbn [bind].
      rewrite loop_step by (cbn [forallb]; rewrite !nat_str_plain; reflexivity). change (existsb (str_eqb (upper (S_ "DIMENSIONS"))) sections) with false. cbv iota.
      match goal with |- context [read_subsection scan float_ ?v ?w (_ :: ?sp) ?r] => change (read_subsection scan float_ v w (S_ "DIMENSIONS" :: sp) r) with
        (dim <- mapR int_ sp ;; if Nat.eqb (List.length dim) 3 then @Ok (vtk * str) (V (mk_dataset (Some StructuredPoints) (Some dim) [] []) ADataset 0, r) else Err BrokenFormatError) end.
      cbn [mapR]. rewrite !int_nat_str. cbn [bind List.length Nat.eqb].
      rewrite loop_step by (cbn [forallb]; rewrite Pw; reflexivity). change (existsb (str_eqb (upper (S_ "ORIGIN"))) sections) with false. cbv iota.
      match goal with |- context [read_subsection scan float_ ?v ?w (_ :: ?sp) ?r] => change (read_subsection scan float_ v w (S_ "ORIGIN" :: sp) r) with
        (x <- mapR float_ sp ;; if Nat.eqb (List.length x) 3 then @Ok (vtk * str) (V (mk_dataset (Some StructuredPoints) (Some [Z.of_nat nx; Z.of_nat ny; Z.of_nat nz]) [(S_ "ORIGIN", x)] []) ADataset 0, r) else Err BrokenFormatError) end.
      rewrite Fw. cbn [bind List.length Nat.eqb].
      rewrite loop_step by (cbn [forallb]; rewrite Ph; reflexivity). change (existsb (str_eqb (upper (S_ "SPACING"))) sections) with false. cbv iota.
      match goal with |- context [read_subsection scan float_ ?v ?w (_ :: ?sp) ?r] => change (read_subsection scan float_ v w (S_ "SPACING" :: sp) r) with
        (x <- mapR float_ sp ;; if Nat.eqb (List.length x) 3 then @Ok (vtk * str) (V (mk_dataset (Some StructuredPoints) (Some [Z.of_nat nx; Z.of_nat ny; Z.of_nat nz]) [(S_ "ORIGIN", [ox; oy; oz]); (S_ "SPACING", x)] []) ADataset 0, r) else Err BrokenFormatError) end.
      rewrite Fh. cbn [bind List.length Nat.eqb].
      rewrite (loop_num _ _ _ _ (S_ "POINT_DATA") _ _ APointData (or_introl (conj eq_refl eq_refl))).
      rewrite loop_step by (cbn [forallb]; rewrite Pn; reflexivity). change (existsb (str_eqb (upper (S_ "VECTORS"))) sections) with false. cbv iota.
      fold n. match goal with |- context [read_subsection scan float_ ?v ?w ?sp ?r] => change (read_subsection scan float_ v w sp r) with
        ('(e, s') <- read_field scan (negb binary) n sp [3] r ;; @Ok (vtk * str) (update_data (V ds APointData n) e, s')) end.
      assert (RF : read_field scan (negb binary) n [S_ "VECTORS"; name; S_ "float"] [3] (tofile show binary F32 items ++ [nl]) = Ok ([(name, a)], [])).
      { unfold read_field, word_at. cbn [nth_error bind]. change (dtype_of (lower (S_ "float"))) with (@Ok dtype F32). cbn [bind fold_right].
        replace (3 * 1 * n) with (List.length items) by lia.
        assert (Hne : binary = false -> items <> []) by (intros _ C; subst items; cbn in Li; lia).
        destruct (fromfile_tofile show scan binary F32 items [] Si Hne eq_refl) as [r' [F1 F2]]. rewrite F1, F2. cbn [bind].
        unfold reshape_rows. cbn [fold_right Nat.mul Nat.add]. rewrite Li, Nat.mod_mul by lia. cbn [Nat.eqb bind]. rewrite Nat.div_mul by lia. reflexivity. }
      rewrite RF. cbn [bind]. rewrite loop_end. reflexivity. }
    destruct (C34_structured_points f64 v0 nx ny nz ox oy oz hx hy hz eq_refl eq_refl eq_refl eq_refl Hx Hy Hz Hn) as [v' [pts [rs [E1 [E2 [E3 [E4 [E5 [E6 [E7 [E8 E9]]]]]]]]]]].
    { constructor. } { constructor; [|constructor]. exists 3. split; [reflexivity | exact Li]. }
    inversion E9 as [|e g l0 gs K1 K2 K3 K4]; subst. inversion K2; subst. rewrite <- K4 in E8. cbn [map fst v_pd v0] in E8. injection E8 as E8. destruct g as [gn g]. cbn [fst snd] in *. subst gn.
    exists v', pts, rs, g. split; [rewrite R; exact E1|]. split; [exact E2|]. split; [exact E3|]. split; [exact E4|]. split; [exact E5|]. split; [symmetry; exact K4|]. split; [|exact E7].
    intros i j l Hi Hj Hl. split; [apply E6; assumption|]. destruct (K1 3 i j l eq_refl Hi Hj Hl) as [x [y [X1 [X2 X3]]]]. exists x, y. split; [exact X1|]. split; [exact X2|]. rewrite X3. unfold grid_data. cbn [a_items a snd]. do 2 f_equal. f_equal. lia.
  Qed.
End StructuredFile.
Print Assumptions C34_structured_file.
Example C34_file_example :
  let show := fun (_ : dtype) (x : str) => x in
  let s := structured_text show false 2 1 2 [S_ "0"; S_ "0"; S_ "5"] [S_ "10"; S_ "1"; S_ "1"] (S_ "Velocity") (map (fun k => nat_str k) (seq 0 12)) in
  match read (fun _ w => Some w) (fun w => z <- int_ w ;; Ok (inject_Z z)) (fun _ => S_ "x") new_vtk s with
  | Ok v => v_pdgrid v = [(S_ "Velocity", [[[map nat_str [0; 1; 2]; map nat_str [6; 7; 8]]]; [[map nat_str [3; 4; 5]; map nat_str [9; 10; 11]]]])]
  | Err _ => False
  end.
Proof. vm_compute. reflexivity. Qed.
(** A single point (1 x 1 x 1) is not readable: IndexError. *)
Theorem C34_single_point_refuted : forall f64 v dt,
  ds_dim (v_ds v) = Some [1; 1; 1]%Z -> (exists ax ay az, generate v dt ax ay az = Err IndexError) /\
  (forall ox oy oz hx hy hz, ds_type (v_ds v) = Some StructuredPoints -> get (ds_vec (v_ds v)) (S_ "ORIGIN") = Some [ox; oy; oz] ->
     get (ds_vec (v_ds v)) (S_ "SPACING") = Some [hx; hy; hz] -> finish f64 v = Err IndexError).
Proof.
  intros f64 v dt H. split.
  - exists [], [], []. unfold generate. rewrite H. reflexivity.
  - intros ox oy oz hx hy hz D1 D2 D3. unfold finish, check_mesh, generate. rewrite D1, H, D2, D3. reflexivity.
Qed.
Print Assumptions C34_single_point_refuted.

(** ** C35: cells, points and fields survive write and read *)
(** For every mesh that can be written (see [good_mesh]), text or binary: reading the written file gives the same points
    (with a zero third coordinate for 2-d points), the same cells in the same order with the same node numbering, in
    maximal blocks of one type, the same point fields, and, if no cell is a polygon, the same cell fields. *)
Theorem C35_write_read_partial : forall show scan float_ f64 binary v pts,
  v_points v = Some pts -> good_mesh show scan binary pts (v_cells v) (v_pd v) (v_cd v) ->
  exists s v1 v2, written show binary v = Ok (s, v1) /\ read scan float_ f64 new_vtk s = Ok v2 /\
    v_points v2 = Some (pad2 pts) /\ cells_of (v_cells v2) = cells_of (v_cells v) /\ maximal (v_cells v2) /\ Forall rectangular (v_cells v2) /\
    v_pd v2 = map (fun e => (fst e, as_read (snd e))) (v_pd v) /\
    (Forall fixed_block (v_cells v) -> Forall2 (same_cell_data (v_cells v) (v_cells v2)) (v_cd v) (v_cd v2)).
Proof.
  intros show scan float_ f64 binary v pts Hp G. destruct (round_trip show scan float_ f64 binary v pts Hp G) as [s [v1 [v2 [R1 [R2 [R3 [R4 [R5 [R6 [R7 [R8 _]]]]]]]]]]].
  exists s, v1, v2. repeat (split; [assumption|]). exact R8.
Qed.
Print Assumptions C35_write_read_partial.
(** If the blocks are already maximal and of fixed node counts, they come back exactly, with their cell fields. *)
Theorem C35_same_blocks : forall show scan float_ f64 binary v pts,
  v_points v = Some pts -> good_mesh show scan binary pts (v_cells v) (v_pd v) (v_cd v) -> maximal (v_cells v) -> Forall fixed_block (v_cells v) ->
  exists s v1 v2, written show binary v = Ok (s, v1) /\ read scan float_ f64 new_vtk s = Ok v2 /\
    v_points v2 = Some (pad2 pts) /\ v_cells v2 = v_cells v /\ v_pd v2 = map (fun e => (fst e, as_read (snd e))) (v_pd v) /\
    v_cd v2 = map (fun e => (fst e, map as_read (snd e))) (v_cd v).
Proof. exact round_trip_maximal. Qed.
Print Assumptions C35_same_blocks.
(** Reading cells of fixed node counts, stored in either of the two layouts (counts in front of the nodes, or offsets
    and connectivity): all cells in order, each with its name and its nodes (those of wedges renumbered), in maximal
    blocks. *)
Theorem C35_cells_read : forall cs raw, cs <> [] -> Forall fixed_cell cs -> NoDup (map fst raw) ->
  exists bs cd ms, cells_of bs = ms /\ Forall2 read_as cs ms /\ maximal bs /\ Forall rectangular bs /\
    translate_cells (Flat (flat_map (fun c => Z.of_nat (List.length (snd c)) :: snd c) cs)) (map fst cs) raw = Ok (bs, cd) /\
    translate_cells (Offsets (ends 0 cs) (flat_map snd cs)) (map fst cs) raw = Ok (bs, cd).
Proof.
  intros cs raw H1 H2 H3. destruct (blocks_of_spec cs H2) as [A [B C]].
  exists (map block_of (groups cs)), (cut raw (spans_of cs)), (map (fun c => (nm (fst c), to_mesh c)) cs).
  split; [exact A|]. split; [|split; [exact B|split; [exact C|split; [exact (translate_fixed cs raw H1 H2 H3)|exact (translate_offsets cs raw H1 H2 H3)]]]].
  clear -H2. induction H2 as [|c cs H H2 IH]; cbn [map]; constructor; [apply read_as_ok; exact H | exact IH].
Qed.
Print Assumptions C35_cells_read.
(** Sizes that contradict the cell types are reported, in both layouts. *)
Theorem C35_inconsistent_sizes : forall types sizes raw, existsb (Z.eqb 7) types = false ->
  mapR (at_ numnodes_table) types = Ok sizes -> Forall (fun n => 0 < n)%Z sizes ->
  (forall o c, diffs o <> sizes -> translate_cells (Offsets o c) types raw = Err BrokenFormatError) /\
  (forall d ns, mapR (at_ d) (offsets_from 0 sizes) = Ok ns -> ns <> sizes -> translate_cells (Flat d) types raw = Err BrokenFormatError).
Proof.
  assert (Z_eq : forall a b, zlist_eqb a b = true -> a = b).
  { unfold zlist_eqb. induction a as [|x a IH]; intros [|y b] H; try discriminate; [reflexivity|]. cbn [List.length combine forallb fst snd Nat.eqb] in H.
    apply andb_true_iff in H. destruct H as [H1 H2]. apply andb_true_iff in H2. destruct H2 as [H2 H3]. apply Z.eqb_eq in H2. subst y. f_equal. apply IH. rewrite H1. exact H3. }
  intros types sizes raw H7 HM HP.
  assert (P : forallb (fun n => 0 <? n)%Z sizes = true).
  { apply forallb_forall. intros n Hn. rewrite Forall_forall in HP. apply Z.ltb_lt. apply HP. exact Hn. }
  split.
  - intros o c N. unfold translate_cells. rewrite H7, HM. cbn [bind]. rewrite P. cbn [negb].
    destruct (zlist_eqb sizes (diffs o)) eqn:E; [apply Z_eq in E; congruence|reflexivity].
  - intros d ns HD N. unfold translate_cells. rewrite H7, HM. cbn [bind]. rewrite P. cbn [negb]. rewrite HD. cbn [bind].
    destruct (zlist_eqb sizes ns) eqn:E; [apply Z_eq in E; congruence|reflexivity].
Qed.
Print Assumptions C35_inconsistent_sizes.
Example C35_cells_example : let cs := [(13%Z, [10; 11; 12; 13; 14; 15]%Z); (3%Z, [0; 1]%Z); (3%Z, [1; 2]%Z)] in
  Forall fixed_cell cs /\ ends 0 cs = [0; 6; 8; 10]%Z /\
  translate_cells (Offsets (ends 0 cs) (flat_map snd cs)) (map fst cs) [] =
    Ok ([mk_block (S_ "wedge") 6 [[10; 12; 11; 13; 15; 14]%Z]; mk_block (S_ "line") 2 [[0; 1]; [1; 2]]%Z], []) /\
  translate_cells (Offsets [0; 6; 9; 10]%Z (flat_map snd cs)) (map fst cs) [] = Err BrokenFormatError.
Proof.
  cbn zeta. split; [|vm_compute; auto]. repeat constructor; cbn; try lia; try reflexivity; eexists; reflexivity.
Qed.

(** Cells written in non-adjacent blocks of the same type are not merged, adjacent ones are. *)
Definition ex_mesh (cells : list block) (cd : dict (list array)) : vtk :=
  mk_vtk false ANone 0 (mk_dataset None None [] []) (Some (mk_array U8 [6; 2] (map (fun k => [ch k]) (seq 0 12)))) None None
    [(S_ "p", mk_array U8 [6; 1] (map (fun k => [ch k]) (seq 20 6)))] [] [] cells cd [] [].
Definition ex_cells : list block :=
  [mk_block (S_ "wedge") 6 [[0; 1; 2; 3; 4; 5]%Z]; mk_block (S_ "line") 2 [[0; 1]%Z; [2; 3]%Z]].
Definition ex_cd : dict (list array) := [(S_ "q", [mk_array U8 [1] [[ch 7]]; mk_array U8 [2] [[ch 8]; [ch 9]]])].
Example C35_example : forall show scan, good_mesh show scan true (mk_array U8 [6; 2] (map (fun k => [ch k]) (seq 0 12))) ex_cells (v_pd (ex_mesh ex_cells ex_cd)) ex_cd /\
  maximal ex_cells /\ Forall fixed_block ex_cells.
Proof.
  intros show scan.
  assert (FB : Forall fixed_block ex_cells).
  { constructor; [|constructor; [|constructor]].
    - exists 13%Z. split; [do 9 right; left; reflexivity|]. split; [lia|]. split; [reflexivity|]. split; [cbn [b_cols]; lia | repeat constructor].
    - exists 3%Z. split; [do 2 right; left; reflexivity|]. split; [lia|]. split; [reflexivity|]. split; [cbn [b_cols]; lia | repeat constructor]. }
  split; [|split; [cbn; repeat split; discriminate | exact FB]].
  unfold good_mesh. split; [exists 6, 2; repeat split; lia|].
  split.
  { split; [discriminate|]. split; [cbn; repeat constructor|]. split; [discriminate | reflexivity]. }
  split; [eapply Forall_impl; [|exact FB]; intros b Hb; left; exact Hb|].
  split; [repeat constructor; cbn; lia|]. split; [discriminate|].
  split; [repeat constructor; intros []|].
  split.
  { constructor; [|constructor]. split; [split; [reflexivity|]; split; [reflexivity | discriminate]|]. split; [discriminate|]. split; [cbn; repeat constructor|]. split; [discriminate | reflexivity]. }
  split; [repeat constructor; intros []|].
  constructor; [|constructor]. split; [split; [reflexivity|]; split; [reflexivity | discriminate]|].
  exists U8, []. split; [discriminate|]. split; [left; reflexivity|]. repeat constructor.
Qed.
(** Polygons: the cells survive but every cell field is lost. *)
Theorem C35_polygon_cell_data_refuted : forall show scan float_ f64 binary v pts,
  v_points v = Some pts -> good_mesh show scan binary pts (v_cells v) (v_pd v) (v_cd v) -> has_polygon (v_cells v) ->
  exists s v1 v2, written show binary v = Ok (s, v1) /\ read scan float_ f64 new_vtk s = Ok v2 /\ cells_of (v_cells v2) = cells_of (v_cells v) /\ v_cd v2 = [].
Proof.
  intros show scan float_ f64 binary v pts Hp G P. destruct (round_trip show scan float_ f64 binary v pts Hp G) as [s [v1 [v2 [R1 [R2 [R3 [R4 [R5 [R6 [R7 [_ R8]]]]]]]]]]].
  exists s, v1, v2. repeat (split; [assumption|]). exact (R8 P).
Qed.
Print Assumptions C35_polygon_cell_data_refuted.
Definition write_then_read (v : vtk) : option (res vtk) :=
  match written (fun _ x => x) true v with Ok (s, _) => Some (read (fun _ w => Some w) (fun _ => Err ValueError) (fun _ => []) new_vtk s) | Err _ => None end.
(** A mesh without cells, cells of a type without a fixed node count, and fields with more than one component per
    dimension are written, but the file cannot be read. *)
Theorem C35_unreadable_refuted :
  write_then_read (ex_mesh [] []) = Some (Err IndexError) /\
  write_then_read (ex_mesh [mk_block (S_ "pixel") 4 [[0; 1; 2; 3]%Z]] []) = Some (Err BrokenFormatError) /\
  write_then_read (ex_mesh ex_cells [(S_ "t", [mk_array U8 [1; 3; 3] (map (fun k => [ch k]) (seq 0 9)); mk_array U8 [2; 3; 3] (map (fun k => [ch k]) (seq 0 18))])]) = Some (Err BrokenFormatError).
Proof. vm_compute. repeat split. Qed.
Print Assumptions C35_unreadable_refuted.

(** ** C58: reading into an object that was read before *)
Lemma update_keys_keep {V} (d e : dict V) k : In k (map fst d) -> In k (map fst (update d e)).
Proof.
  unfold update. revert d. induction e as [|[k' x] e IH]; intros d H; [exact H|]. cbn [fold_left]. apply IH. rewrite put_keys. destruct (has d (fst (k', x))); [exact H | apply in_or_app; left; exact H].
Qed.
Ltac step H :=
  match type of H with
  | Err _ = Ok _ => discriminate H
  | Ok _ = Ok _ => apply Ok_inj in H
  | bind ?r _ = Ok _ => let E := fresh "E" in destruct r eqn:E; cbn [bind] in H
  | (if ?b then _ else _) = Ok _ => let E := fresh "E" in destruct b eqn:E
  | match ?x with _ => _ end = Ok _ => let E := fresh "E" in destruct x eqn:E
  end.
Lemma section_keeps scan v sec split s v' s' : read_section scan v sec split s = Ok (v', s') -> v_pd v' = v_pd v.
Proof. unfold read_section. intro H. repeat step H; try (injection H as <- <-; reflexivity). Qed.
Lemma update_keeps v e k : In k (map fst (v_pd v)) -> In k (map fst (v_pd (update_data v e))).
Proof. intro H. unfold update_data. destruct (v_active v); cbn [v_pd set_ds]; try exact H. apply update_keys_keep. exact H. Qed.
Lemma subsection_keeps scan float_ v sec split s v' s' k : read_subsection scan float_ v sec split s = Ok (v', s') -> In k (map fst (v_pd v)) -> In k (map fst (v_pd v')).
Proof.
  unfold read_subsection. intros H K. repeat step H; injection H as <- <-; try exact K; apply update_keeps; exact K.
Qed.
Lemma loop_keeps scan float_ k : forall f v s v', read_loop scan float_ f v s = Ok v' -> In k (map fst (v_pd v)) -> In k (map fst (v_pd v')).
Proof.
  induction f as [|f IH]; intros v s v' H K; [discriminate|]. cbn [read_loop] in H. destruct (readline s) as [l r]. destruct (decode l) as [l'|]; cbn [bind] in H; [|discriminate].
  destruct l' as [|c l']; [apply Ok_inj in H; subst; exact K|]. destruct (split_ws (c :: l')) as [|w ws]; [exact (IH _ _ _ H K)|].
  destruct (existsb (str_eqb (upper w)) sections).
  - destruct (read_section scan v (upper w) (w :: ws) r) as [[v1 s1]|] eqn:E; cbn [bind] in H; [|discriminate]. apply (IH _ _ _ H). rewrite (section_keeps _ _ _ _ _ _ _ E). exact K.
  - destruct (read_subsection scan float_ v (upper w) (w :: ws) r) as [[v1 s1]|] eqn:E; cbn [bind] in H; [|discriminate]. apply (IH _ _ _ H). exact (subsection_keeps _ _ _ _ _ _ _ _ _ E K).
Qed.
Lemma check_keeps f64 v v' : check_mesh f64 v = Ok v' -> v_pd v' = v_pd v.
Proof. unfold check_mesh, generate. intro H. repeat step H; subst; reflexivity. Qed.
(** Every point field of an object is still there after reading any other file into it, whether or not that file has
    it: reading does not give the content of the file. *)
Theorem C58_stale_fields_refuted : forall scan float_ f64 v s v', read scan float_ f64 v s = Ok v' ->
  forall name, In name (map fst (v_pd v)) -> In name (map fst (v_pd v')).
Proof.
  intros scan float_ f64 v s v' H name K. destruct s as [|c s]; [discriminate|]. rewrite read_nonempty in H by discriminate.
  destruct (readline (c :: s)) as [l1 s1]. destruct (readline s1) as [l2 s2]. destruct (readline s2) as [l3 s3]. destruct (decode l3) as [l3'|]; cbn [bind] in H; [|discriminate].
  cbv zeta in H. destruct (_ || _); [|discriminate].
  match type of H with bind ?r _ = _ => destruct r as [v1|] eqn:E end; cbn [bind] in H; [|discriminate].
  pose proof (loop_keeps _ _ name _ _ _ _ E K) as K1. unfold finish in H. destruct (check_mesh f64 v1) as [v2|] eqn:E2; cbn [bind] in H; [|discriminate].
  rewrite <- (check_keeps _ _ _ E2) in K1. repeat step H; subst; exact K1.
Qed.
Print Assumptions C58_stale_fields_refuted.
(** For instance: an object that holds field p, after reading a file without fields. *)
Example C58_example :
  match write_then_read (ex_mesh ex_cells []), written (fun _ x => x) true (mk_vtk false ANone 0 (mk_dataset None None [] []) (Some (mk_array U8 [1; 3] (map (fun k => [ch k]) (seq 0 3)))) None None [] [] [] ex_cells [] [] []) with
  | Some (Ok v), Ok (s, _) =>
      match read (fun _ w => Some w) (fun _ => Err ValueError) (fun _ => []) v s with
      | Ok v' => map fst (v_pd v') = [S_ "p"] /\ match read (fun _ w => Some w) (fun _ => Err ValueError) (fun _ => []) new_vtk s with Ok v'' => v_pd v'' = [] | Err _ => False end
      | Err _ => False
      end
  | _, _ => False
  end.
Proof. vm_compute. split; reflexivity. Qed.

(** ** C59: writing does not change the object *)
Definition two_components (a : array) : bool := match a_shape a with [_; 2] => true | _ => false end.
Lemma pad2_same a : two_components a = false -> pad2 a = a.
Proof. unfold two_components, pad2. destruct (a_shape a) as [|n [|[|[|[|k]]] [|]]]; try reflexivity. discriminate. Qed.
(** Writing changes nothing but the point and cell fields, and those only if they have two components. *)
Theorem C59_write_keeps_partial : forall show binary v s v', written show binary v = Ok (s, v') ->
  v' = mk_vtk (v_ascii v) (v_active v) (v_num v) (v_ds v) (v_points v) (v_c v) (v_ct v) (v_pd v') (v_cdraw v) (v_fd v) (v_cells v) (v_cd v') (v_grid v) (v_pdgrid v) /\
  (Forall (fun e => two_components (snd e) = false) (v_pd v) -> Forall (fun e => Forall (fun a => two_components a = false) (snd e)) (v_cd v) -> v' = v).
Proof.
  intros show binary v s v' H. unfold written in H. destruct (v_points v) as [p|] eqn:Ep; cbn [bind] in H; [|discriminate].
  repeat step H; try discriminate. all: injection H as _ <-; cbn [v_pd v_cd]; split; [reflexivity|]; intros HP HC.
  all: assert (M1 : map (fun e => (fst e, pad2 (snd e))) (v_pd v) = v_pd v) by (clear -HP; induction HP as [|[k a] l H HP IH]; [reflexivity|]; cbn [map fst snd] in *; rewrite IH, pad2_same by exact H; reflexivity).
  all: assert (M2 : map (fun e => (fst e, map pad2 (snd e))) (v_cd v) = v_cd v) by (clear -HC; induction HC as [|[k a] l H HC IH]; [reflexivity|]; cbn [map fst snd] in *; rewrite IH; do 2 f_equal; clear -H; induction H as [|x l H1 H2 IH]; [reflexivity|]; cbn [map]; rewrite IH, pad2_same by exact H1; reflexivity).
  all: rewrite M1, M2, <- Ep; destruct v; reflexivity.
Qed.
Print Assumptions C59_write_keeps_partial.
(** A two-component field is changed in place by writing. *)
Theorem C59_write_pads_refuted : forall show binary v s v' name a, written show binary v = Ok (s, v') ->
  In (name, a) (v_pd v) -> two_components a = true -> exists a', In (name, a') (v_pd v') /\ (exists n, a_shape a = [n; 2] /\ a_shape a' = [n; 3]).
Proof.
  intros show binary v s v' name a H I T. assert (E : v_pd v' = map (fun e => (fst e, pad2 (snd e))) (v_pd v)).
  { unfold written in H. destruct (v_points v) as [p|] eqn:Ep; cbn [bind] in H; [|discriminate]. repeat step H; try discriminate; injection H as _ <-; reflexivity. }
  exists (pad2 a). split; [rewrite E; apply (in_map (fun e : str * array => (fst e, pad2 (snd e))) _ _ I)|].
  unfold two_components in T. unfold pad2. destruct (a_shape a) as [|n [|[|[|[|k]]] [|]]] eqn:S; try discriminate. exists n. split; [reflexivity|]. unfold pad. rewrite S. reflexivity.
Qed.
Print Assumptions C59_write_pads_refuted.
Example C59_example : match written (fun _ x => x) true (mk_vtk false ANone 0 (mk_dataset None None [] []) (Some (mk_array U8 [1; 3] (map (fun k => [ch k]) (seq 0 3)))) None None
      [(S_ "p", mk_array U8 [1; 2] [[ch 1]; [ch 2]])] [] [] ex_cells [] [] []) with
  | Ok (_, v') => v_pd v' = [(S_ "p", mk_array U8 [1; 3] [[ch 1]; [ch 2]; [ch 0]])] | Err _ => False end.
Proof. vm_compute. reflexivity. Qed.
