(** The whole file: what reading gives back after writing. *)
From Verif Require Import Py PyFacts TextFacts ListFacts Bytes Dict VTK_Model VTK_Spec VTK_Cells VTK_Translate VTK_File.
From Coq Require Import ZifyBool ZifyNat ZifyN QArith.
Local Open Scope nat_scope.

(** ** Blocks are determined by the cells *)
Lemma maximal_unique bs : forall bs', maximal bs -> maximal bs' -> Forall rectangular bs -> Forall rectangular bs' ->
  cells_of bs = cells_of bs' -> bs = bs'.
Proof.
  assert (P : forall (b : block) t (b' : block) t' rs rs', b_type b = b_type b' ->
     match t with [] => True | x :: _ => b_type b <> b_type x end -> match t' with [] => True | x :: _ => b_type b' <> b_type x end ->
     maximal t -> maximal t' ->
     map (pair (b_type b)) rs ++ cells_of t = map (pair (b_type b')) rs' ++ cells_of t' -> rs = rs' /\ cells_of t = cells_of t').
  { intros b t b' t' rs. induction rs as [|r rs IH]; intros rs' E Ht Ht' M M' H.
    - destruct rs' as [|r' rs']; [split; [reflexivity | exact H]|]. exfalso. cbn [map app] in H. destruct t as [|x t]; [discriminate H|].
      cbn [cells_of flat_map] in H. destruct M as [M _]. destruct (b_rows x) as [|y ys] eqn:Ex; [contradiction|]. cbn [map app] in H. injection H as H _. congruence.
    - destruct rs' as [|r' rs'].
      + exfalso. cbn [map app] in H. destruct t' as [|x t']; [discriminate H|].
        cbn [cells_of flat_map] in H. destruct M' as [M' _]. destruct (b_rows x) as [|y ys] eqn:Ex; [contradiction|]. cbn [map app] in H. injection H as H _. congruence.
      + cbn [map app] in H. injection H as H1 H2 H3. destruct (IH rs' E Ht Ht' M M' H3) as [I1 I2]. split; [congruence | exact I2]. }
  induction bs as [|b t IH]; intros [|b' t'] M M' R R' H.
  - reflexivity.
  - exfalso. destruct M' as [M' _]. cbn [cells_of flat_map] in H. destruct (b_rows b'); [contradiction | discriminate H].
  - exfalso. destruct M as [M _]. cbn [cells_of flat_map] in H. destruct (b_rows b); [contradiction | discriminate H].
  - destruct M as [M1 [M2 M3]], M' as [M1' [M2' M3']]. inversion R as [|? ? R1 R2]; subst. inversion R' as [|? ? R1' R2']; subst.
    change (map (pair (b_type b)) (b_rows b) ++ cells_of t = map (pair (b_type b')) (b_rows b') ++ cells_of t') in H.
    assert (E : b_type b = b_type b').
    { destruct (b_rows b) as [|r rs]; [contradiction|]. destruct (b_rows b') as [|r' rs']; [contradiction|]. cbn [map app] in H. injection H as H _ _. exact H. }
    destruct (P b t b' t' (b_rows b) (b_rows b') E M2 M2' M3 M3' H) as [P1 P2].
    assert (C : b_cols b = b_cols b').
    { unfold rectangular in R1, R1'. destruct (b_rows b) as [|r rs]; [contradiction|]. rewrite <- P1 in R1'. inversion R1; inversion R1'; congruence. }
    f_equal; [destruct b, b'; cbn in *; congruence|]. apply IH; assumption.
Qed.

(** ** Cell data cut into blocks *)
Lemma cut_segs ns tail : forall it o n d, List.length it = list_sum ns * fold_right Nat.mul 1 tail ->
  forall pre, List.length pre = o * fold_right Nat.mul 1 tail -> n = o + list_sum ns ->
  let a := mk_array d (n :: tail) (pre ++ it) in
  flat_map a_items (map (fun se => slice_rows (fst se) (snd se) a) (segs o ns)) = it /\
  Forall2 (fun k x => a_dt x = d /\ a_shape x = k :: tail /\ List.length (a_items x) = k * fold_right Nat.mul 1 tail) ns (map (fun se => slice_rows (fst se) (snd se) a) (segs o ns)).
Proof.
  set (w := fold_right Nat.mul 1 tail).
  induction ns as [|k ns IH]; intros it o n d L pre Lp En a.
  - cbn in L. apply length_zero_iff_nil in L. subst it. split; [reflexivity | constructor].
  - cbn [list_sum fold_right] in L, En. fold (list_sum ns) in L, En.
    assert (S : exists x y, it = x ++ y /\ List.length x = k * w /\ List.length y = list_sum ns * w).
    { exists (firstn (k * w) it), (skipn (k * w) it). split; [symmetry; apply firstn_skipn|]. rewrite firstn_length, skipn_length. lia. }
    destruct S as [x [y [E [Lx Ly]]]]. subst it.
    cbn [segs map flat_map fst snd]. assert (A : slice_rows o (o + k) a = mk_array d (k :: tail) x).
    { unfold slice_rows, a, row_size. cbn [a_shape a_dt a_items tl]. fold w. f_equal; [f_equal; lia|].
      rewrite Nat.mul_add_distr_r, <- Lp, <- Lx. apply slice_mid. }
    rewrite A. cbn [a_items].
    destruct (IH y (o + k) n d Ly (pre ++ x)) as [I1 I2]; [rewrite app_length; lia | lia|].
    rewrite <- app_assoc in I1, I2. fold a in I1, I2. split; [rewrite I1; reflexivity|]. constructor; [cbn; repeat split; exact Lx | exact I2].
Qed.
Lemma spans_segs cs : cs <> [] -> spans_of cs = segs 0 (map (@List.length _) (groups cs)).
Proof.
  destruct cs as [|c cs]; [contradiction|]. intros _. pose proof (pairs_segs cs c 0 0 (le_n 0)) as H. unfold spans_of. rewrite map_length.
  destruct (groups (c :: cs)); [contradiction|]. exact H.
Qed.
Lemma groups_sum cs : list_sum (map (@List.length _) (groups cs)) = List.length cs.
Proof. rewrite <- (groups_concat cs) at 2. induction (groups cs) as [|g gs IH]; [reflexivity|]. cbn [map concat]. rewrite app_length, <- IH. reflexivity. Qed.

Section Round.
  Variable show : dtype -> str -> str.
  Variable scan : dtype -> str -> option str.
  Variable float_ : str -> res Q.
  Variable f64 : Q -> str.
  Variable binary : bool.

  Lemma loop_step f v w ws r : forallb plain_word (w :: ws) = true ->
    read_loop scan float_ (S f) v (line (w :: ws) ++ r) =
    ('(v', s') <- (if existsb (str_eqb (upper w)) sections then read_section scan v (upper w) (w :: ws) r else read_subsection scan float_ v (upper w) (w :: ws) r) ;;
     read_loop scan float_ f v' s').
  Proof.
    intro H. cbn [read_loop]. rewrite readline_line, decode_line by exact H. cbn [bind]. rewrite split_line by exact H.
    destruct (line_cons (w :: ws) ltac:(discriminate) H) as [c [t [E _]]]. rewrite E. reflexivity.
  Qed.
  Lemma loop_end f v : read_loop scan float_ (S f) v [] = Ok v.
  Proof. reflexivity. Qed.

  Definition cells_text (bs : list block) : str :=
    line [S_ "CELLS"; nat_str (num_cells bs); nat_str (List.length (flat (flat_map stored_of bs)))] ++ write_ints binary (map (fun b => flat (stored_of b)) bs)
    ++ line [S_ "CELL_TYPES"; nat_str (num_cells bs)] ++ write_ints binary (map (fun b => map fst (stored_of b)) bs).
  Lemma flat_app a b : flat (a ++ b) = flat a ++ flat b.
  Proof. apply flat_map_app. Qed.
  Lemma concat_flat bs : concat (map (fun b => flat (stored_of b)) bs) = flat (flat_map stored_of bs).
  Proof. induction bs as [|b bs IH]; [reflexivity|]. cbn [map concat flat_map]. rewrite flat_app, IH. reflexivity. Qed.
  Lemma concat_types bs : concat (map (fun b => map fst (stored_of b)) bs) = map fst (flat_map stored_of bs).
  Proof. induction bs as [|b bs IH]; [reflexivity|]. cbn [map concat flat_map]. rewrite map_app, IH. reflexivity. Qed.
  Lemma num_cells_stored bs : num_cells bs = List.length (flat_map stored_of bs).
  Proof. induction bs as [|b bs IH]; [reflexivity|]. cbn [flat_map]. rewrite app_length, <- IH. unfold stored_of at 1. rewrite map_length. reflexivity. Qed.
  Lemma write_cells_ok bs : Forall good_block bs -> write_cells binary bs = Ok (cells_text bs).
  Proof.
    intro G. rewrite Forall_forall in G. unfold write_cells. rewrite (mapR_ok _ (fun b => flat (stored_of b))) by (intros b Hb; apply block_ints_ok, G, Hb). cbn [bind].
    rewrite (mapR_ok _ (fun b => map fst (stored_of b))) by (intros b Hb; apply block_types_ok, G, Hb). cbn [bind]. unfold cells_text. do 4 f_equal.
    replace (list_sum (map (fun b => List.length (b_rows b) * b_cols b) bs) + num_cells bs) with (List.length (flat (flat_map stored_of bs))); [reflexivity|].
    clear -G. induction bs as [|b bs IH]; [reflexivity|]. cbn [flat_map]. rewrite flat_app, app_length, IH by (intros x Hx; apply G; right; exact Hx).
    unfold num_cells. cbn [map list_sum fold_right]. fold (list_sum (map (fun b => List.length (b_rows b) * b_cols b) bs)) (list_sum (map (fun b => List.length (b_rows b)) bs)).
    assert (E : List.length (flat (stored_of b)) = List.length (b_rows b) * b_cols b + List.length (b_rows b)).
    { pose proof (G b (or_introl eq_refl)) as Gb. replace (List.length (b_rows b)) with (List.length (stored_of b)) by apply map_length.
      assert (L : forall c, In c (stored_of b) -> List.length (snd c) = b_cols b) by (intros c Hc; apply stored_len; assumption).
      induction (stored_of b) as [|c cs I]; [reflexivity|]. cbn [flat flat_map List.length]. cbn [app List.length]. rewrite app_length. fold (flat cs). rewrite (L c (or_introl eq_refl)), I by (intros x Hx; apply L; right; exact Hx). lia. }
    lia.
  Qed.
  Lemma cells_nonempty bs : cells_of bs <> [] -> bs <> [] /\ flat_map stored_of bs <> [].
  Proof.
    intro H. split; [intro C; subst; apply H; reflexivity|]. intro C. apply H. clear H. induction bs as [|b bs IH]; [reflexivity|]. cbn [flat_map] in C. apply app_eq_nil in C. destruct C as [C1 C2].
    unfold cells_of. cbn [flat_map]. unfold cells_of in IH. rewrite (IH C2). unfold stored_of in C1. apply map_eq_nil in C1. rewrite C1. reflexivity.
  Qed.
  Lemma codes_int32 c n : type_of_code c = Ok n -> in_sint 4 c = true.
  Proof.
    unfold type_of_code. destruct (find _ cell_types) as [p|] eqn:E; [|discriminate]. intros _. apply find_some in E. destruct E as [E1 E2]. apply Z.eqb_eq in E2. subst c.
    assert (A : forallb (fun p => in_sint 4 (fst p)) cell_types = true) by (vm_compute; reflexivity). rewrite forallb_forall in A. exact (A p E1).
  Qed.
  Lemma node_int32 z : node_ok z -> in_sint 4 z = true.
  Proof. intros [H1 H2]. unfold in_sint. change (2 ^ 30)%Z with 1073741824%Z in H2. cbn. lia. Qed.

  (** The sections of a written file, read one after the other. *)
  Definition good_cells (bs : list block) : Prop :=
    Forall good_block bs /\ Forall (fun b => node_ok (Z.of_nat (b_cols b)) /\ Forall (Forall node_ok) (b_rows b)) bs /\ cells_of bs <> [].
  Lemma loop_points f v p t r n : v_ascii v = negb binary -> type_name (a_dt p) = Ok t -> plain_word t = true -> dtype_of (lower t) = Ok (a_dt p) ->
    a_shape p = [n; 3] -> good_array show scan binary p -> 0 < n -> lstrip r = r ->
    read_loop scan float_ (S f) v (line [S_ "POINTS"; nat_str n; t] ++ tofile show binary (a_dt p) (a_items p) ++ [nl] ++ r) =
    read_loop scan float_ f (set_points v (Some p) APoints) r.
  Proof.
    intros Hm T1 T2 T3 Sh [_ [G2 [G3 G4]]] Hn Hr. rewrite Sh in G4. rewrite loop_step by (cbn [forallb]; rewrite nat_str_plain, T2; reflexivity).
    change (existsb (str_eqb (upper (S_ "POINTS"))) sections) with true. cbv iota.
    assert (E : read_section scan v (upper (S_ "POINTS")) [S_ "POINTS"; nat_str n; t] (tofile show binary (a_dt p) (a_items p) ++ [nl] ++ r) = Ok (set_points v (Some p) APoints, r)).
    { unfold read_section. change (str_eqb (upper (S_ "POINTS")) (S_ "METADATA")) with false. change (str_eqb (upper (S_ "POINTS")) (S_ "DATASET")) with false. change (str_eqb (upper (S_ "POINTS")) (S_ "POINTS")) with true. cbv iota.
      unfold count_at, word_at. cbn [nth_error bind]. rewrite int_nat_str. cbn [bind]. rewrite T3. cbn [bind]. rewrite Nat2Z.id, Hm. unfold read_points.
      destruct (fromfile_tofile show scan binary _ _ r G2 G3 Hr) as [r' [F1 F2]]. rewrite <- G4. change ([nl] ++ r) with (nl :: r). rewrite F1, F2. cbn [bind]. rewrite Nat.eqb_refl.
      cbn [bind]. do 3 f_equal. destruct p as [d sh it]. cbn [a_dt a_shape a_items] in *. congruence. }
    rewrite E. reflexivity.
  Qed.
  Lemma loop_cells f v bs r : v_ascii v = negb binary -> good_cells bs -> lstrip r = r ->
    read_loop scan float_ (S (S f)) v (cells_text bs ++ r) =
    read_loop scan float_ f (set_ct (set_c v (List.length (flat (flat_map stored_of bs))) (Flat (flat (flat_map stored_of bs)))) (num_cells bs) (map fst (flat_map stored_of bs))) r.
  Proof.
    intros Hm [G1 [G2 G3]] Hr. destruct (cells_nonempty bs G3) as [B1 B2]. unfold cells_text. rewrite <- !app_assoc.
    assert (N : Forall node_ok (flat (flat_map stored_of bs))).
    { rewrite <- concat_flat. apply Forall_concat. apply Forall_map. rewrite Forall_forall in *. intros b Hb. destruct (G2 b Hb). apply nodes_stored; [apply G1; exact Hb | assumption | assumption]. }
    assert (T : Forall (fun z => in_sint 4 z = true) (map fst (flat_map stored_of bs))).
    { apply Forall_map. apply Forall_flat_map. rewrite Forall_forall in *. intros b Hb. pose proof (stored_known b (G1 b Hb)) as K. rewrite Forall_forall in *. intros c Hc. destruct (K c Hc) as [[n Kn] _]. exact (codes_int32 _ _ Kn). }
    assert (F1 : flat (flat_map stored_of bs) <> []) by (destruct (flat_map stored_of bs); [contradiction | discriminate]).
    assert (F2 : map fst (flat_map stored_of bs) <> []) by (destruct (flat_map stored_of bs); [contradiction | discriminate]).
    rewrite loop_step by (cbn [forallb]; rewrite !nat_str_plain; reflexivity).
    change (existsb (str_eqb (upper (S_ "CELLS"))) sections) with true. cbv iota.
    set (r1 := line [S_ "CELL_TYPES"; nat_str (num_cells bs)] ++ _).
    assert (E : read_section scan v (upper (S_ "CELLS")) [S_ "CELLS"; nat_str (num_cells bs); nat_str (List.length (flat (flat_map stored_of bs)))]
       (write_ints binary (map (fun b => flat (stored_of b)) bs) ++ r1) = Ok (set_c v (List.length (flat (flat_map stored_of bs))) (Flat (flat (flat_map stored_of bs))), r1)).
    { unfold read_section. change (str_eqb (upper (S_ "CELLS")) (S_ "METADATA")) with false. change (str_eqb (upper (S_ "CELLS")) (S_ "DATASET")) with false. change (str_eqb (upper (S_ "CELLS")) (S_ "POINTS")) with false. change (str_eqb (upper (S_ "CELLS")) (S_ "CELLS")) with true. cbv iota.
      pose proof (no_offsets binary (map (fun b => flat (stored_of b)) bs) r1) as O. rewrite concat_flat in O.
      specialize (O ltac:(intro C; apply map_eq_nil in C; contradiction) N). destruct (readline (write_ints binary _ ++ r1)) as [l s1]. cbn [fst] in O. rewrite O.
      unfold count_at, word_at. cbn [nth_error bind]. rewrite int_nat_str. cbn [bind]. rewrite Nat2Z.id, Hm. rewrite <- concat_flat at 1. rewrite read_cells_ok.
      - cbn [bind]. rewrite concat_flat. reflexivity.
      - rewrite concat_flat. exact F1.
      - rewrite concat_flat. eapply Forall_impl; [|exact N]. apply node_int32.
      - apply lstrip_line; [discriminate|]. cbn [forallb]. rewrite nat_str_plain. reflexivity. }
    rewrite E. cbn [bind]. unfold r1. rewrite loop_step by (cbn [forallb]; rewrite nat_str_plain; reflexivity).
    change (existsb (str_eqb (upper (S_ "CELL_TYPES"))) sections) with true. cbv iota. set (v1 := set_c v _ _).
    assert (E2 : read_section scan v1 (upper (S_ "CELL_TYPES")) [S_ "CELL_TYPES"; nat_str (num_cells bs)]
       (write_ints binary (map (fun b => map fst (stored_of b)) bs) ++ r) = Ok (set_ct v1 (num_cells bs) (map fst (flat_map stored_of bs)), r)).
    { unfold read_section. change (str_eqb (upper (S_ "CELL_TYPES")) (S_ "METADATA")) with false. change (str_eqb (upper (S_ "CELL_TYPES")) (S_ "DATASET")) with false. change (str_eqb (upper (S_ "CELL_TYPES")) (S_ "POINTS")) with false. change (str_eqb (upper (S_ "CELL_TYPES")) (S_ "CELLS")) with false. change (str_eqb (upper (S_ "CELL_TYPES")) (S_ "CELL_TYPES")) with true. cbv iota.
      unfold count_at, word_at. cbn [nth_error bind]. rewrite int_nat_str. cbn [bind]. rewrite Nat2Z.id. change (v_ascii v1) with (v_ascii v). rewrite Hm.
      replace (num_cells bs) with (List.length (concat (map (fun b => map fst (stored_of b)) bs))) at 1 by (rewrite concat_types, map_length, num_cells_stored; reflexivity).
      rewrite read_types_ok.
      - cbn [bind]. rewrite concat_types. reflexivity.
      - rewrite concat_types. exact F2.
      - rewrite concat_types. exact T.
      - exact Hr. }
    rewrite E2. reflexivity.
  Qed.
  Lemma loop_fields f v fs ts r : v_ascii v = negb binary -> (exists t, ds_type (v_ds v) = Some Unstructured /\ t = tt) ->
    (forall acc, NoDup (map fst acc ++ map fst fs) -> read_fields scan (negb binary) (List.length fs) (concat ts ++ r) acc = Ok (acc ++ map (fun e => (fst e, squeeze (snd e))) fs, r)) ->
    NoDup (map fst fs) ->
    read_loop scan float_ (S f) v (line [S_ "FIELD"; S_ "FieldData"; nat_str (List.length fs)] ++ concat ts ++ r) =
    read_loop scan float_ f (update_data v (map (fun e => (fst e, squeeze (snd e))) fs)) r.
  Proof.
    intros Hm [_ [Hd _]] HR ND. rewrite loop_step by (cbn [forallb]; rewrite nat_str_plain; reflexivity).
    change (existsb (str_eqb (upper (S_ "FIELD"))) sections) with false. cbv iota.
    unfold read_subsection. rewrite Hd. cbn [bind infos existsb].
    change (str_eqb (upper (S_ "FIELD")) (S_ "SCALARS")) with false. change (str_eqb (upper (S_ "FIELD")) (S_ "VECTORS")) with false. change (str_eqb (upper (S_ "FIELD")) (S_ "TENSORS")) with false. change (str_eqb (upper (S_ "FIELD")) (S_ "FIELD")) with true. cbv iota.
    unfold count_at, word_at. cbn [nth_error bind]. rewrite int_nat_str. cbn [bind]. rewrite Nat2Z.id, Hm, HR by exact ND. reflexivity.
  Qed.
  Lemma loop_num f v w n r a : (w = S_ "POINT_DATA" /\ a = APointData \/ w = S_ "CELL_DATA" /\ a = ACellData) ->
    read_loop scan float_ (S f) v (line [w; nat_str n] ++ r) = read_loop scan float_ f (set_num v a n) r.
  Proof.
    intros [[-> ->]|[-> ->]]; (rewrite loop_step by (cbn [forallb]; rewrite nat_str_plain; reflexivity));
    match goal with |- context [existsb (str_eqb (upper ?w)) sections] => change (existsb (str_eqb (upper w)) sections) with true end; cbv iota;
    match goal with |- context [read_section scan v (upper ?w) ?sp r] => change (read_section scan v (upper w) sp r) with (x <- count_at sp 1 ;; Ok (set_num v (match upper w with _ :: "O" :: _ => APointData | _ => ACellData end)%char x, r)) end;
    unfold count_at, word_at; cbn [nth_error bind]; rewrite int_nat_str; cbn [bind]; rewrite Nat2Z.id; reflexivity.
  Qed.

  Definition section_text (w : str) (n : nat) (ts : list str) (k : nat) : str :=
    line [w; nat_str n] ++ line [S_ "FIELD"; S_ "FieldData"; nat_str k] ++ concat ts.
  Notation squeezed fs := (map (fun e : str * array => (fst e, squeeze (snd e))) fs).
  Lemma opt_section w a n fs : (w = S_ "POINT_DATA" /\ a = APointData \/ w = S_ "CELL_DATA" /\ a = ACellData) ->
    Forall (good_field show scan binary) fs -> NoDup (map fst fs) ->
    exists t, (if nonempty fs then x <- write_fields show binary fs ;; Ok (line [w; nat_str n] ++ x) else Ok []) = Ok t /\
      forall r, lstrip r = r -> lstrip (t ++ r) = t ++ r /\
      forall f v, v_ascii v = negb binary -> ds_type (v_ds v) = Some Unstructured -> exists f' m v', f <= f' /\
        read_loop scan float_ (S (S f)) v (t ++ r) = read_loop scan float_ f' v' r /\
        v' = (if nonempty fs then update_data (set_num v a m) (squeezed fs) else v).
  Proof.
    intros Hw G ND. destruct fs as [|e fs].
    - exists []. split; [reflexivity|]. intros r Hr. split; [exact Hr|]. intros f v Hm Hd. exists (S (S f)), 0, v. split; [lia|]. split; reflexivity.
    - destruct (fields_ok show scan binary (e :: fs) G) as [ts [W R]]. exists (section_text w n ts (List.length (e :: fs))). cbn [nonempty]. split.
      { unfold write_fields. rewrite W. cbn [bind]. reflexivity. }
      intros r Hr. destruct (R r Hr) as [R1 R2]. unfold section_text. rewrite <- !app_assoc.
      assert (Pw : plain_word w = true) by (destruct Hw as [[-> _]|[-> _]]; reflexivity). split.
      { apply lstrip_line; [discriminate|]. cbn [forallb]. rewrite Pw, nat_str_plain. reflexivity. }
      intros f v Hm Hd. exists f, n. eexists. split; [lia|]. split; [|reflexivity]. rewrite (loop_num _ v w n _ a Hw). 
      rewrite loop_fields; [reflexivity | exact Hm | exists tt; split; [exact Hd | reflexivity] | exact R2 | exact ND].
  Qed.

  Lemma pad2_dt a : a_dt (pad2 a) = a_dt a.
  Proof. unfold pad2. destruct (a_shape a) as [|n [|[|[|[|k]]] [|]]]; reflexivity. Qed.
  Lemma pad2_shape a n k : a_shape a = [n; k] -> k = 2 \/ k = 3 -> a_shape (pad2 a) = [n; 3].
  Proof. intros E [-> | ->]; unfold pad2; rewrite E; [unfold pad; cbn; rewrite E; reflexivity | exact E]. Qed.

  (** Cell data *)
  Definition total (d : dtype) (tail : list nat) (bs : list block) (l : list array) : array := mk_array d (num_cells bs :: tail) (flat_map a_items l).
  Lemma concatenate_ok d tail bs l : bs <> [] -> Forall2 (fun b a => cell_values b d tail a) bs l -> concatenate l = Ok (total d tail bs l).
  Proof.
    intros Hn F. unfold concatenate, total. destruct F as [|b a bs l F1 F2]; [contradiction|].
    replace (forallb _ l) with true.
    - destruct F1 as [F1 [F3 _]]. rewrite F1, F3. cbn [tl]. do 3 f_equal. unfold num_cells. cbn [map]. rewrite F3. cbn [hd].
      replace (map (fun b0 => hd 0 (a_shape b0)) l) with (map (fun b0 => List.length (b_rows b0)) bs); [reflexivity|].
      clear -F2. induction F2 as [|b a bs l [_ [F _]] F2 IH]; [reflexivity|]. cbn [map]. rewrite F, IH. reflexivity.
    - symmetry. apply forallb_forall. intros x Hx. destruct F1 as [_ [F1 _]]. rewrite F1.
      assert (E : exists b', cell_values b' d tail x). { clear -F2 Hx. induction F2 as [|b a bs l F F2 IH]; [contradiction|]. destruct Hx as [->|Hx]; [exists b; exact F | exact (IH Hx)]. }
      destruct E as [b' [_ [E _]]]. rewrite E. cbn [tl]. rewrite Nat.eqb_refl. cbn [andb]. clear. induction tail as [|k tail IH]; [reflexivity|]. cbn [combine forallb fst snd]. rewrite Nat.eqb_refl. exact IH.
  Qed.
  Lemma total_length d tail bs l : Forall2 (fun b a => cell_values b d tail a) bs l -> List.length (flat_map a_items l) = num_cells bs * fold_right Nat.mul 1 tail.
  Proof.
    induction 1 as [|b a bs l [_ [_ F]] F2 IH]; [reflexivity|]. cbn [flat_map]. rewrite app_length, F, IH. unfold num_cells. cbn [map list_sum fold_right]. fold (list_sum (map (fun b => List.length (b_rows b)) bs)). lia.
  Qed.
  Lemma squeeze_total d tail bs l : tail = [] \/ (exists k, tail = [k]) -> squeeze (total d tail bs l) = total d (squeeze_tail tail) bs l.
  Proof. intros [->|[k ->]]; unfold squeeze, total, squeeze_tail; cbn; [reflexivity|]. destruct k as [|[|k]]; reflexivity. Qed.
  Lemma squeeze_prod tail : fold_right Nat.mul 1 (squeeze_tail tail) = fold_right Nat.mul 1 tail.
  Proof. destruct tail as [|[|[|k]] [|x t]]; reflexivity. Qed.
  Lemma same_data_cut d tail bs l cs : cs <> [] -> num_cells bs = List.length cs -> tail = [] \/ (exists k, tail = [k]) ->
    Forall2 (fun b a => cell_values b d tail a) bs l ->
    let arrays := map (fun se => slice_rows (fst se) (snd se) (squeeze (total d tail bs l))) (spans_of cs) in
    Forall2 (fun b a => cell_values b d (squeeze_tail tail) a) (map block_of (groups cs)) arrays /\ flat_map a_items arrays = flat_map a_items l.
  Proof.
    intros Hc Hn Ht F arrays. unfold arrays. rewrite squeeze_total by exact Ht. rewrite spans_segs by exact Hc.
    pose proof (total_length d tail bs l F) as L. rewrite <- squeeze_prod, Hn, <- groups_sum in L.
    destruct (cut_segs (map (@List.length _) (groups cs)) (squeeze_tail tail) (flat_map a_items l) 0 (num_cells bs) d L [] eq_refl) as [C1 C2]; [rewrite groups_sum; exact Hn|].
    cbn [app] in C1, C2. fold (total d (squeeze_tail tail) bs l) in C1, C2. split; [|exact C1].
    revert C2. generalize (map (fun se => slice_rows (fst se) (snd se) (total d (squeeze_tail tail) bs l)) (segs 0 (map (@List.length _) (groups cs)))). intros arrs C2.
    pose proof (groups_type cs) as T. revert arrs C2. clear -T. induction T as [|g gs T1 T2 IH]; intros arrs C2; inversion C2 as [|? ? ? ? K1 K2]; subst; cbn [map]; [constructor|]. constructor; [|apply IH; exact K2].
    destruct g as [|c g]; [contradiction|]. unfold cell_values. cbn [block_of b_rows]. rewrite map_length. exact K1.
  Qed.
  Lemma app_inj_pre {A} (a a' b b' : list A) : List.length a = List.length a' -> a ++ b = a' ++ b' -> a = a' /\ b = b'.
  Proof. revert a'. induction a as [|x a IH]; intros [|y a'] L E; try discriminate L; [split; [reflexivity | exact E]|]. cbn in E. injection E as E1 E2. injection L as L. destruct (IH a' L E2). split; congruence. Qed.
  (** With the same blocks, every array is the same. *)
  Lemma flat_items_inj d tail : forall bs l l', Forall2 (fun b a => cell_values b d tail a) bs l -> Forall2 (fun b a => cell_values b d tail a) bs l' ->
    flat_map a_items l = flat_map a_items l' -> l = l'.
  Proof.
    induction bs as [|b bs IH]; intros l l' F F' E; inversion F as [|? a ? t F1 F2]; subst; inversion F' as [|? a' ? t' F1' F2']; subst; [reflexivity|].
    cbn [flat_map] in E. destruct F1 as [A1 [A2 A3]], F1' as [B1 [B2 B3]]. assert (I : a_items a = a_items a' /\ flat_map a_items t = flat_map a_items t').
    { apply app_inj_pre; [congruence | exact E]. }
    destruct I as [I1 I2]. f_equal; [destruct a, a'; cbn in *; congruence | apply IH; assumption].
  Qed.

  Lemma read_nonempty v s : s <> [] -> read scan float_ f64 v s =
    let '(_, s1) := readline s in
    let '(_, s2) := readline s1 in
    let '(l3, s3) := readline s2 in
    l3' <- decode l3 ;;
    let m := upper (strip l3') in
    if str_eqb m (S_ "ASCII") || str_eqb m (S_ "BINARY") then
      v' <- read_loop scan float_ (S (List.length s3)) (set_mode v (str_eqb m (S_ "ASCII"))) s3 ;; finish f64 v'
    else Err BrokenFormatError.
  Proof. destruct s; [contradiction | reflexivity]. Qed.
  Definition has_polygon (bs : list block) : Prop := exists b, In b bs /\ polygon_block b /\ b_rows b <> [].
  Theorem round_trip v pts : v_points v = Some pts -> good_mesh show scan binary pts (v_cells v) (v_pd v) (v_cd v) ->
    exists s v1 v2, written show binary v = Ok (s, v1) /\ read scan float_ f64 new_vtk s = Ok v2 /\
      v_points v2 = Some (pad2 pts) /\ cells_of (v_cells v2) = cells_of (v_cells v) /\ maximal (v_cells v2) /\ Forall rectangular (v_cells v2) /\
      v_pd v2 = map (fun e => (fst e, as_read (snd e))) (v_pd v) /\
      (Forall fixed_block (v_cells v) -> Forall2 (same_cell_data (v_cells v) (v_cells v2)) (v_cd v) (v_cd v2)) /\
      (has_polygon (v_cells v) -> v_cd v2 = []).
  Proof.
    intros Hp [[n [k [Sh [Hn Hk]]]] [GP [GB [GN [GC [NP [GPD [NC GCD]]]]]]]]. set (bs := v_cells v) in *.
    destruct (cells_nonempty bs GC) as [B1 B2]. set (cs := flat_map stored_of bs) in *.
    pose proof (pad2_shape pts n k Sh Hk) as Sh3. destruct (type_name_ok _ (proj1 GP)) as [t [T1 [T2 T3]]].
    (* point data *)
    set (pd := map (fun e => (fst e, pad2 (snd e))) (v_pd v)).
    assert (GPD' : Forall (good_field show scan binary) pd). { unfold pd. apply Forall_map. eapply Forall_impl; [|exact GPD]. intros e H. exact H. }
    assert (NP' : NoDup (map fst pd)) by (unfold pd; rewrite map_map; exact NP).
    destruct (opt_section (S_ "POINT_DATA") APointData n pd (or_introl (conj eq_refl eq_refl)) GPD' NP') as [tpd [Wp Rp]].
    (* cell data *)
    assert (EC : exists cd, mapR (fun e => a <- concatenate (snd e) ;; Ok (fst e, a)) (map (fun e => (fst e, map pad2 (snd e))) (v_cd v)) = Ok cd /\
       Forall2 (fun e e' => fst e' = fst e /\ exists d tail, (tail = [] \/ exists k, tail = [k]) /\ Forall2 (fun b a => cell_values b d tail a) bs (map pad2 (snd e)) /\ snd e' = total d tail bs (map pad2 (snd e))) (v_cd v) cd /\
       Forall (good_field show scan binary) cd).
    { clear -GCD B1 B2. induction GCD as [|e l [N [d [tail [Hd [Ht F]]]]] GCD IH]; [exists []; split; [reflexivity|]; split; constructor|].
      destruct IH as [cd [I1 [I2 I3]]]. assert (F1 : Forall2 (fun b a => cell_values b d tail a) bs (map pad2 (snd e))) by (clear -F; induction F as [|b a bs l [F1 _] F IH]; constructor; assumption).
      assert (F2 : Forall (storable show scan binary d) (flat_map a_items (map pad2 (snd e)))) by (clear -F; induction F as [|b a bs l [_ F1] F IH]; [constructor|]; cbn [flat_map]; apply Forall_app; split; assumption).
      exists ((fst e, total d tail bs (map pad2 (snd e))) :: cd). split; [|split].
      - cbn [map mapR snd fst]. rewrite (concatenate_ok d tail bs _ B1 F1). cbn [bind]. rewrite I1. reflexivity.
      - constructor; [|exact I2]. split; [reflexivity|]. exists d, tail. split; [destruct Ht as [Ht|[k [Ht _]]]; [left; exact Ht | right; exists k; exact Ht]|]. split; [exact F1 | reflexivity].
      - constructor; [|exact I3]. split; [exact N|]. unfold good_array, total. cbn [a_dt a_items a_shape snd]. split; [exact Hd|]. split; [exact F2|].
        pose proof (total_length d tail bs _ F1) as L. assert (P : 0 < num_cells bs) by (rewrite num_cells_stored; destruct (flat_map stored_of bs); [contradiction | cbn; lia]).
        split.
        + intros Hb C. rewrite C in L. cbn [List.length] in L. destruct Ht as [->|[k [-> Hk]]]; cbn [fold_right] in L; [lia|]. specialize (Hk Hb). destruct k; [contradiction|]. lia.
        + destruct Ht as [->|[k [-> Hk]]]; cbn [fold_right] in L; lia. }
    destruct EC as [cd [C1 [C2 C3]]].
    assert (Ecd : map fst cd = map fst (v_cd v)) by (clear -C2; induction C2 as [|e e' l l' [H _] C2 IH]; cbn [map]; congruence).
    assert (NC' : NoDup (map fst cd)) by (rewrite Ecd; exact NC).
    destruct (opt_section (S_ "CELL_DATA") ACellData (num_cells bs) cd (or_intror (conj eq_refl eq_refl)) C3 NC') as [tcd [Wc Rc]].
    destruct (Rc [] eq_refl) as [Lc Rc']. destruct (Rp _ Lc) as [Lp Rp']. clear Rp Rc. rewrite app_nil_r in *.
    set (p := pad2 pts) in *.
    set (s3 := line [S_ "DATASET"; S_ "UNSTRUCTURED_GRID"] ++ (line [S_ "POINTS"; nat_str n; t] ++ tofile show binary (a_dt p) (a_items p) ++ [nl]) ++ cells_text bs ++ tpd ++ tcd).
    assert (W : exists v1, written show binary v = Ok (S_ "# vtk DataFile Version 4.2" ++ [nl] ++ S_ "written " ++ [nl] ++ (if binary then S_ "BINARY" else S_ "ASCII") ++ [nl] ++ s3, v1)).
    { eexists. unfold written. rewrite Hp. cbn [bind]. unfold write_points. fold p. rewrite T1. cbn [bind]. rewrite Sh3. fold bs. rewrite (write_cells_ok bs GB). cbn [bind].
      fold pd. rewrite Sh, Wp. cbn [bind].
      assert (Wc' : (if nonempty (map (fun e : str * list array => (fst e, map pad2 (snd e))) (v_cd v)) then
              arrays <- mapR (fun e => a <- concatenate (snd e) ;; Ok (fst e, a)) (map (fun e => (fst e, map pad2 (snd e))) (v_cd v)) ;;
              t <- write_fields show binary arrays ;; Ok (line [S_ "CELL_DATA"; nat_str (num_cells bs)] ++ t) else Ok []) = Ok tcd).
      { rewrite C1. cbn [bind]. destruct C2; exact Wc. }
      rewrite Wc'. reflexivity. }
    destruct W as [v1 W]. do 2 eexists.
    (* the reader *)
    set (vm := set_mode new_vtk (negb binary)).
    assert (R : exists v', read_loop scan float_ (S (List.length s3)) vm s3 = Ok v' /\ ds_type (v_ds v') = Some Unstructured /\ v_points v' = Some p /\
       v_c v' = Some (Flat (flat cs)) /\ v_ct v' = Some (map fst cs) /\ v_pd v' = squeezed pd /\ v_cdraw v' = squeezed cd).
    { assert (Hf : exists m, S (List.length s3) = 9 + m). { unfold s3. rewrite app_length. change (List.length (line [S_ "DATASET"; S_ "UNSTRUCTURED_GRID"])) with 26. eexists. instantiate (1 := 18 + _). cbn [Nat.add]. reflexivity. }
      destruct Hf as [m Hf]. rewrite Hf. unfold s3 at 1. cbn [Nat.add].
      rewrite loop_step by reflexivity. change (existsb (str_eqb (upper (S_ "DATASET"))) sections) with true. cbv iota.
      match goal with |- context [read_section scan vm ?w ?sp ?r] => change (read_section scan vm w sp r) with (@Ok (vtk * str) (set_ds vm (mk_dataset (Some Unstructured) None [] []) ADataset, r)) end.
      cbn [bind]. rewrite <- !app_assoc. set (vd := set_ds vm _ _).
      assert (Lt : lstrip (cells_text bs ++ tpd ++ tcd) = cells_text bs ++ tpd ++ tcd).
      { unfold cells_text. rewrite <- !app_assoc. apply lstrip_line; [discriminate|]. cbn [forallb]. rewrite !nat_str_plain. reflexivity. }
      rewrite (loop_points _ vd p t _ n eq_refl T1 T2 T3 Sh3 GP Hn Lt). set (vp := set_points vd _ _).
      rewrite (loop_cells _ vp bs _ eq_refl (conj GB (conj GN GC)) Lp). set (vc := set_ct _ _ _).
      destruct (Rp' (S (S (S m))) vc eq_refl eq_refl) as [f' [n' [va [Hf' [Ra Eva]]]]]. rewrite Ra. clear Ra.
      destruct f' as [|[|f']]; [lia|lia|]. assert (Ma : v_ascii va = negb binary) by (rewrite Eva; destruct (nonempty pd); reflexivity).
      assert (Da : ds_type (v_ds va) = Some Unstructured) by (rewrite Eva; destruct (nonempty pd); reflexivity).
      destruct (Rc' f' va Ma Da) as [f2 [n2 [vb [Hf2 [Rb Evb]]]]]. rewrite Rb. destruct f2 as [|f2]; [lia|]. rewrite loop_end. exists vb. split; [reflexivity|].
      assert (PD : v_pd vb = squeezed pd /\ v_cdraw vb = squeezed cd).
      { rewrite Evb, Eva. assert (U : forall fs : list (str * array), NoDup (map fst fs) -> update [] (squeezed fs) = squeezed fs).
        { intros fs N. rewrite update_new; [reflexivity|]. cbn [app map]. rewrite map_map. exact N. }
        destruct pd as [|e1 pd1] eqn:Epd, cd as [|e2 cd1] eqn:Ecd1; cbn [nonempty]; (split; [try reflexivity; apply (U _ NP') | try reflexivity; apply (U _ NC')]). }
      destruct PD as [PD1 PD2]. split; [rewrite Evb; destruct (nonempty cd); exact Da|]. split; [|split; [|split; [|split; assumption]]];
        rewrite Evb, Eva; destruct (nonempty cd), (nonempty pd); reflexivity. }
    destruct R as [v' [R [V1 [V2 [V3 [V4 [V5 V6]]]]]]].
    assert (EN : NoDup (map fst (v_cdraw v'))) by (rewrite V6, map_map; exact NC').
    assert (ET : exists bs' cd', translate_cells (Flat (flat cs)) (map fst cs) (v_cdraw v') = Ok (bs', cd') /\ cells_of bs' = cells_of bs /\ maximal bs' /\ Forall rectangular bs' /\
       (Forall fixed_block bs -> Forall2 (same_cell_data bs bs') (v_cd v) cd') /\ (has_polygon bs -> cd' = [])).
    { assert (CO : map (fun c => (full_name c, to_mesh c)) cs = cells_of bs).
      { unfold cs, cells_of. clear -GB. induction GB as [|b bs G GB IH]; [reflexivity|]. cbn [flat_map]. rewrite map_app, IH, stored_mesh by exact G. reflexivity. }
      destruct (existsb (Z.eqb 7) (map fst cs)) eqn:E7.
      - destruct (poly_cells_spec cs) as [bs' [P1 [P2 [P3 P4]]]].
        + unfold cs. apply Forall_flat_map. eapply Forall_impl; [|exact GB]. apply stored_known.
        + apply same_name. exact GB.
        + exists bs', []. split; [unfold translate_cells; rewrite E7, P1; reflexivity|]. split; [congruence|]. split; [exact P3|]. split; [exact P4|]. split; [|reflexivity].
          intro F. exfalso. apply existsb_exists in E7. destruct E7 as [x [X1 X2]]. apply Z.eqb_eq in X2. subst x. apply in_map_iff in X1. destruct X1 as [c [X1 X2]]. unfold cs in X2. apply in_flat_map in X2. destruct X2 as [b [X2 X3]].
          rewrite Forall_forall in F. apply (proj1 (fixed_code b c (F b X2) X3)). exact X1.
      - assert (FC : Forall fixed_cell cs).
        { unfold cs. apply Forall_flat_map. apply Forall_forall. intros b Hb. rewrite Forall_forall in GB. destruct (GB b Hb) as [F|P]; [apply stored_fixed; exact F|].
          destruct (block_code b (GB b Hb)) as [_ [_ [_ [_ K]]]]. apply Forall_forall. intros c Hc. destruct K as [[F _]|[_ K]].
          - pose proof (stored_fixed b F) as S. rewrite Forall_forall in S. apply S. exact Hc.
          - exfalso. assert (X : existsb (Z.eqb 7) (map fst cs) = true).
            { apply existsb_exists. exists 7%Z. split; [|reflexivity]. apply in_map_iff. exists c. split; [rewrite (proj1 (stored_len b c (GB b Hb) Hc)); exact K|]. unfold cs. apply in_flat_map. exists b. split; assumption. }
            congruence. }
        exists (map block_of (groups cs)), (cut (v_cdraw v') (spans_of cs)). split; [apply translate_fixed; assumption|].
        destruct (blocks_of_spec cs FC) as [K1 [K2 K3]]. split.
        { rewrite K1, <- CO. apply map_ext_in. intros c Hc. f_equal. unfold full_name. destruct (str_eqb (nm (fst c)) (S_ "polygon")) eqn:E; [|reflexivity]. exfalso. apply str_eqb_eq in E.
          rewrite Forall_forall in FC. pose proof (FC c Hc) as F. destruct F as [[x F] _]. unfold nm in E. rewrite F in E. subst x. apply (fixed_not7 c (FC c Hc)). exact (codes_injective _ 7%Z _ F eq_refl). }
        split; [exact K2|]. split; [exact K3|]. split.
        + intros _. unfold cut. rewrite V6, map_map. cbn [fst snd]. clear -C2 B2 show scan float_ f64 binary. induction C2 as [|e e' l l' [H1 [d [tail [Ht [H2 H3]]]]] C2 IH]; cbn [map]; constructor; [|exact IH].
          destruct (same_data_cut d tail bs _ cs B2 (num_cells_stored bs) Ht H2) as [S1 S2]. rewrite <- H3 in S1, S2. split; [cbn [fst]; exact H1|]. exists d, tail. cbn [snd]. split; [exact H2|]. split; assumption.
        + intros [b [Hb [P Hr]]]. exfalso. rewrite Forall_forall in GB. destruct (block_code b (GB b Hb)) as [_ [_ [_ [_ K]]]].
          assert (K7 : code_of b = 7%Z) by (unfold code_of; rewrite (proj1 P), polygon_key; reflexivity).
          destruct (stored_of b) as [|c cs'] eqn:Es; [unfold stored_of in Es; apply map_eq_nil in Es; contradiction|].
          assert (Hc : In c (stored_of b)) by (rewrite Es; left; reflexivity).
          assert (X : existsb (Z.eqb 7) (map fst cs) = true).
          { apply existsb_exists. exists 7%Z. split; [|reflexivity]. apply in_map_iff. exists c. split; [rewrite (proj1 (stored_len b c (GB b Hb) Hc)); exact K7|]. unfold cs. apply in_flat_map. exists b. split; assumption. }
          congruence. }
    destruct ET as [bs' [cd' [ET [E1 [E2 [E3 [E4 E5]]]]]]]. eexists. split; [exact W|].
    split.
    { rewrite read_nonempty by discriminate. cbn [app].
      rewrite readline_app by reflexivity. rewrite readline_app by reflexivity. rewrite readline_app by (destruct binary; reflexivity).
      assert (DE : decode ((if binary then S_ "BINARY" else S_ "ASCII") ++ [nl]) = Ok ((if binary then S_ "BINARY" else S_ "ASCII") ++ [nl])) by (destruct binary; reflexivity).
      rewrite DE. cbn [bind].
      assert (M1 : str_eqb (upper (strip ((if binary then S_ "BINARY" else S_ "ASCII") ++ [nl]))) (S_ "ASCII") = negb binary) by (destruct binary; reflexivity).
      assert (M2 : str_eqb (upper (strip ((if binary then S_ "BINARY" else S_ "ASCII") ++ [nl]))) (S_ "BINARY") = binary) by (destruct binary; reflexivity).
      rewrite M1, M2. replace (negb binary || binary) with true by (destruct binary; reflexivity). fold vm. rewrite R. cbn [bind]. unfold finish, check_mesh. rewrite V1, V3, V4. cbn [bind]. rewrite V3, V4. cbn [bind]. rewrite ET. cbn [bind]. rewrite V1. cbn [bind]. reflexivity. }
    cbn [v_points v_cells v_pd v_cd]. split; [exact V2|]. split; [exact E1|]. split; [exact E2|]. split; [exact E3|]. split; [|split; assumption].
    rewrite V5. unfold pd. rewrite map_map. reflexivity.
  Qed.
  (** Blocks that are already maximal come back as they were, with their cell data. *)
  Corollary round_trip_maximal v pts : v_points v = Some pts -> good_mesh show scan binary pts (v_cells v) (v_pd v) (v_cd v) -> maximal (v_cells v) -> Forall fixed_block (v_cells v) ->
    exists s v1 v2, written show binary v = Ok (s, v1) /\ read scan float_ f64 new_vtk s = Ok v2 /\
      v_points v2 = Some (pad2 pts) /\ v_cells v2 = v_cells v /\ v_pd v2 = map (fun e => (fst e, as_read (snd e))) (v_pd v) /\
      v_cd v2 = map (fun e => (fst e, map as_read (snd e))) (v_cd v).
  Proof.
    intros Hp G M F. destruct (round_trip v pts Hp G) as [s [v1 [v2 [R1 [R2 [R3 [R4 [R5 [R6 [R7 [R8 _]]]]]]]]]]]. exists s, v1, v2. repeat (split; [assumption|]).
    assert (E : v_cells v2 = v_cells v).
    { apply maximal_unique; try assumption. destruct G as [_ [_ [GB _]]]. eapply Forall_impl; [|exact GB]. apply good_rect. }
    split; [exact E|]. split; [exact R7|]. specialize (R8 F). rewrite E in R8.
    assert (TL : forall (e : str * list array) d tail, Forall2 (fun b a => cell_values b d tail a) (v_cells v) (map pad2 (snd e)) -> (tail = [] \/ exists k, tail = [k]) ->
       Forall2 (fun b a => cell_values b d (squeeze_tail tail) a) (v_cells v) (map as_read (snd e))).
    { intros e d tail H Ht. replace (map as_read (snd e)) with (map squeeze (map pad2 (snd (e : str * list array)))) by (rewrite map_map; reflexivity).
      revert H. generalize (map pad2 (snd (e : str * list array))). generalize (v_cells v). clear -Ht show scan float_ f64 binary. intros bs l H. induction H as [|b a bs l [H1 [H2 H3]] H IH]; cbn [map]; constructor; [|exact IH].
      unfold cell_values. rewrite squeeze_prod. unfold squeeze, squeeze_tail. rewrite H2. destruct Ht as [->|[k ->]]; [repeat split; assumption|].
      destruct k as [|[|k]]; cbn [a_dt a_shape a_items]; (split; [assumption|]); (split; [try reflexivity; assumption|]); assumption. }
    destruct G as [_ [_ [_ [_ [_ [_ [_ [_ GCD]]]]]]]].
    clear -R8 TL GCD M show scan float_ f64 binary. revert GCD. induction R8 as [|e e' l l' [H1 [d [tail [H2 [H3 H4]]]]] H IH]; intro GCD; [reflexivity|]. inversion GCD as [|? ? [_ [d' [tail' [_ [Ht G']]]]] GCD']; subst. cbn [map]. f_equal; [|exact (IH GCD')].
    assert (X : v_cells v = [] /\ map pad2 (snd e) = [] /\ snd e' = [] \/ tail = tail').
    { destruct G' as [|b a bs l0 [[_ [G1 _]] _] _].
      - left. inversion H3. inversion H2. repeat split; congruence.
      - right. inversion H2 as [|? ? ? ? [_ [G2 _]] _]; subst. rewrite G1 in G2. injection G2 as G2. congruence. }
    destruct e' as [k' x]. cbn [fst snd] in *. f_equal; [exact H1|]. destruct X as [[X1 [X2 X3]]|X].
    - rewrite X3. apply map_eq_nil in X2. rewrite X2. reflexivity.
    - subst tail'. assert (Ht' : tail = [] \/ exists k, tail = [k]) by (destruct Ht as [Ht|[k [Ht _]]]; [left; exact Ht | right; exists k; exact Ht]).
      apply (flat_items_inj d (squeeze_tail tail) (v_cells v)); [exact H3 | apply TL; assumption|]. rewrite H4. clear. induction (snd e) as [|a l IH]; [reflexivity|]. cbn [map flat_map]. rewrite IH. f_equal.
      unfold as_read, squeeze. destruct (a_shape (pad2 a)) as [|n [|[|[|k]] [|]]]; reflexivity.
  Qed.
End Round.
