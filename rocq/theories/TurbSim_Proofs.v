(** Proofs about the TurbSim model. *)
From Verif Require Import Py PyFacts ListFacts FS Bytes Float MannBox_Proofs TurbSim_Model.
From Coq Require Import QArith Qround Qminmax Qabs Qpower Lqa ZifyBool ZifyNat ZifyN Setoid.
Local Open Scope nat_scope.

Lemma Some_inj {A} (x y : A) : Some x = Some y -> x = y. Proof. congruence. Qed.
Lemma cons_inj {A} (x y : A) l m : x :: l = y :: m -> x = y /\ l = m. Proof. intro H; split; congruence. Qed.

(** ** Writing pieces *)
Lemma fs_append_reg f p old b : f p = Reg old -> fs_append f p b p = Reg (old ++ b) /\ (forall q, q <> p -> fs_append f p b q = f q).
Proof.
  intro H. unfold fs_append. rewrite H. split; [apply fs_put_same|]. intros q Hq. apply fs_put_other. exact Hq.
Qed.
Lemma write_pieces_inv f p cs f' old : f p = Reg old -> write_pieces f p cs = (f', Ok tt) ->
  exists bs, cs = map Ok bs /\ f' p = Reg (old ++ concat bs) /\ (forall q, q <> p -> f' q = f q).
Proof.
  revert f old. induction cs as [|[b|e] cs IH]; intros f old Hp H; cbn in H.
  - injection H as <-. exists []. rewrite app_nil_r. auto.
  - destruct (fs_append_reg f p old b Hp) as [H1 H2]. destruct (IH _ _ H1 H) as (bs & -> & E1 & E2).
    exists (b :: bs). split; [reflexivity|]. split; [rewrite E1; cbn; rewrite app_assoc; reflexivity|].
    intros q Hq. rewrite E2, H2 by exact Hq. reflexivity.
  - discriminate.
Qed.
Lemma write_pieces_ok f p bs old : f p = Reg old ->
  exists f', write_pieces f p (map Ok bs) = (f', Ok tt) /\ f' p = Reg (old ++ concat bs) /\ (forall q, q <> p -> f' q = f q).
Proof.
  revert f old. induction bs as [|b bs IH]; intros f old Hp; cbn.
  - exists f. rewrite app_nil_r. auto.
  - destruct (fs_append_reg f p old b Hp) as [H1 H2]. destruct (IH _ _ H1) as (f' & E & E1 & E2).
    exists f'. split; [exact E|]. split; [rewrite E1, app_assoc; reflexivity|].
    intros q Hq. rewrite E2, H2 by exact Hq. reflexivity.
Qed.
Lemma write_pieces_other f p cs q : q <> p -> fst (write_pieces f p cs) q = f q.
Proof.
  intro Hq. revert f. induction cs as [|[b|e] cs IH]; intro f; cbn; [reflexivity| |reflexivity].
  rewrite IH. unfold fs_append. destruct (f p); try reflexivity. apply fs_put_other. exact Hq.
Qed.
Lemma fs_open_w_inv f p f1 : fs_open_w f p = Ok f1 -> f1 p = Reg [] /\ (forall q, q <> p -> f1 q = f q).
Proof.
  unfold fs_open_w. intro H.
  destruct (f p); try discriminate; apply Ok_inj in H; subst f1;
    (split; [apply fs_put_same|intros q Hq; apply fs_put_other; exact Hq]).
Qed.
Lemma write_file_inv f p cs f' : write_file f p cs = (f', Ok tt) ->
  exists bs, cs = map Ok bs /\ f' p = Reg (concat bs) /\ (forall q, q <> p -> f' q = f q).
Proof.
  unfold write_file. destruct (fs_open_w f p) as [f1|e] eqn:E; [|discriminate]. intro H.
  destruct (fs_open_w_inv _ _ _ E) as [H1 H2]. destruct (write_pieces_inv _ _ _ _ _ H1 H) as (bs & A & B & C).
  exists bs. split; [exact A|]. split; [exact B|]. intros q Hq. rewrite C, H2 by exact Hq. reflexivity.
Qed.
Lemma write_file_ok f p bs : f p <> Dir ->
  exists f', write_file f p (map Ok bs) = (f', Ok tt) /\ f' p = Reg (concat bs) /\ (forall q, q <> p -> f' q = f q).
Proof.
  intro H. unfold write_file.
  assert (E : fs_open_w f p = Ok (fs_put f p [])) by (unfold fs_open_w; destruct (f p); congruence).
  rewrite E. destruct (fs_open_w_inv _ _ _ E) as [H1 H2].
  destruct (write_pieces_ok _ _ bs _ H1) as (f' & A & B & C). exists f'. split; [exact A|]. split; [exact B|].
  intros q Hq. rewrite C, H2 by exact Hq. reflexivity.
Qed.
Lemma write_file_other f p cs q : q <> p -> fst (write_file f p cs) q = f q.
Proof.
  intro Hq. unfold write_file. destruct (fs_open_w f p) as [f1|e] eqn:E; [|reflexivity].
  rewrite write_pieces_other by exact Hq. destruct (fs_open_w_inv _ _ _ E) as [_ H2]. apply H2. exact Hq.
Qed.

Lemma concat_res_inv l b : concat_res l = Ok b -> exists bs, l = map Ok bs /\ b = concat bs.
Proof.
  revert b. induction l as [|[x|e] l IH]; intros b H; cbn in H.
  - apply Ok_inj in H. subst. exists []. auto.
  - fold (concat_res l) in H. destruct (concat_res l) as [y|e]; cbn in H; [|discriminate].
    apply Ok_inj in H. subst b. destruct (IH y eq_refl) as (bs & -> & ->). exists (x :: bs). auto.
  - discriminate.
Qed.
Lemma concat_res_ok bs : concat_res (map Ok bs) = Ok (concat bs).
Proof. induction bs as [|b bs IH]; [reflexivity|]. cbn. fold (concat_res (map Ok bs)). rewrite IH. reflexivity. Qed.

(** ** Words *)
Lemma pack_s_inv n z b : pack_s n z = Ok b -> in_sint n z = true /\ b = le n z.
Proof. unfold pack_s. destruct (in_sint n z); [|discriminate]. intro H. apply Ok_inj in H. auto. Qed.

Lemma take_f32_pack q b r : pack_f32 q = Ok b -> exists v, take_f32 (b ++ r) = Ok (Some v, r) /\ (v == rnd binary32 q)%Q.
Proof.
  unfold pack_f32. destruct (encode binary32 q) as [z|] eqn:E; [|discriminate]. intro H. apply Ok_inj in H. subst b.
  destruct (decode_encode binary32 q z good32 E) as (v & Hv & Ev). exists v. split; [|exact Ev].
  unfold take_f32. rewrite take_app by apply le_length. cbn [bind]. rewrite unle_le.
  pose proof (encode_range binary32 q z good32 E) as R. change (2 ^ (prec binary32 + wid binary32))%Z with (256 ^ Z.of_nat 4)%Z in R.
  rewrite Z.mod_small by exact R. rewrite Hv. reflexivity.
Qed.

(** rounding twice *)
Lemma rnd_idem f q v : good_fmt f -> (v == rnd f q)%Q -> (rnd f v == v)%Q.
Proof.
  intros Hg Hv. destruct (Z.eq_dec (Qnum q) 0) as [H0|H0].
  - unfold rnd in Hv at 1. rewrite H0 in Hv. cbn in Hv.
    assert (Qnum v = 0)%Z by (destruct v as [n d]; unfold Qeq in Hv; cbn in *; lia).
    unfold rnd. rewrite H. cbn. symmetry. exact Hv.
  - destruct (mant f q) as [m e] eqn:Em. destruct (mant_bounds f q m e Hg H0 Em) as (Hm & He & _).
    assert (Ev : (v == inject_Z (Z.sgn (Qnum q) * m) * Qpower (2#1) e)%Q).
    { rewrite Hv. unfold rnd. destruct (Z.eqb_spec (Qnum q) 0); [contradiction|]. rewrite Em. reflexivity. }
    pose proof Hg as [Hp _].
    assert (HPP : (2 ^ prec f = 2 * 2 ^ (prec f - 1))%Z) by (rewrite <- Z.pow_succ_r by lia; f_equal; lia).
    assert (0 < 2 ^ (prec f - 1))%Z by (apply Z.pow_pos_nonneg; lia).
    destruct (Z.eq_dec m (2 ^ prec f)) as [E|E].
    + apply rnd_exact with (M := (Z.sgn (Qnum q) * 2 ^ (prec f - 1))%Z) (E := (e + 1)%Z); [exact Hg|lia|lia|].
      rewrite Ev, E, HPP, qpow_S. rewrite !inject_Z_mult. change (inject_Z 2) with 2%Q. ring.
    + apply rnd_exact with (M := (Z.sgn (Qnum q) * m)%Z) (E := e); [exact Hg|lia|lia|exact Ev].
Qed.
Lemma rnd_proper0 f q : good_fmt f -> (rnd f (rnd f q) == rnd f q)%Q.
Proof. intro Hg. apply rnd_idem with q; [exact Hg|reflexivity]. Qed.
(** Error of any rounding, subnormal numbers included. *)
Lemma rnd_err f q : good_fmt f ->
  (Qabs (rnd f q - q) <= Qabs q * Qpower (2#1) (- prec f) + Qpower (2#1) (emin f - 1))%Q.
Proof.
  intro Hg. pose proof Hg as [Hp Hw].
  assert (Pe : (0 <= Qpower (2#1) (emin f - 1))%Q) by apply Qlt_le_weak, qpow_pos.
  assert (Pp : (0 <= Qabs q * Qpower (2#1) (- prec f))%Q).
  { apply Qmult_le_0_compat; [apply Qabs_nonneg|apply Qlt_le_weak, qpow_pos]. }
  destruct (Qlt_le_dec (Qabs q) (Qpower (2 # 1) (emin f + prec f - 1))) as [Hl|Hl].
  2:{ pose proof (rnd_rel_err f q Hg Hl). lra. }
  destruct (Z.eq_dec (Qnum q) 0) as [H0|H0].
  { unfold rnd. rewrite H0. cbn [Z.eqb]. assert (Eq : (q == 0)%Q) by (destruct q; cbn in H0; subst; reflexivity).
    setoid_replace (0 - q)%Q with 0%Q by (rewrite Eq; ring). change (Qabs 0) with 0%Q. lra. }
  destruct (mant f q) as [m e] eqn:Em. pose proof (rnd_abs_err f q m e Hg H0 Em) as A.
  assert (He : e = emin f).
  { apply mant_inv in Em as [_ He]. unfold fexp in He.
    set (a := Z.abs (Qnum q)) in *. set (d := Zpos (Qden q)) in *.
    assert (Ha : (0 < a)%Z) by (unfold a; lia). assert (Hd : (0 < d)%Z) by (unfold d; lia).
    destruct (Z_lt_le_dec (emin f) (nexp f a d)) as [Hc|Hc]; [exfalso|lia].
    destruct (nexp_spec f a d ltac:(lia) Ha Hd) as [L _]. cbv zeta in L. set (n := nexp f a d) in *.
    rewrite (abs_div_num q) in Hl. fold a d in Hl.
    pose proof (qpow_p2n n) as EP. pose proof (p2n_pos n) as P1. pose proof (p2n_pos (- n)) as P2.
    assert (Hdq : (0 < inject_Z d)%Q) by (change 0%Q with (inject_Z 0); rewrite <- Zlt_Qlt; exact Hd).
    assert (Hnq : (0 < inject_Z (p2n (- n)))%Q) by (change 0%Q with (inject_Z 0); rewrite <- Zlt_Qlt; exact P2).
    assert (B : (Qpower (2#1) (n + prec f - 1) <= inject_Z a / inject_Z d)%Q).
    { apply Qle_shift_div_l; [exact Hdq|]. apply Qmult_le_r with (z := inject_Z (p2n (- n))); [exact Hnq|].
      rewrite Zle_Qle in L. rewrite !inject_Z_mult in L. rewrite <- EP, <- qpow_Z in L by lia.
      setoid_replace (Qpower (2#1) (n + prec f - 1) * inject_Z d * inject_Z (p2n (- n)))%Q
        with ((2 ^ (prec f - 1)) * (inject_Z d * (2 ^ n * inject_Z (p2n (- n)))))%Q; [exact L|].
      replace (n + prec f - 1)%Z with ((prec f - 1) + n)%Z by lia. rewrite Qpower_plus by apply two_nz. ring. }
    assert (C : (Qpower (2 # 1) (emin f + prec f - 1) <= Qpower (2#1) (n + prec f - 1))%Q).
    { apply Qpower_le_compat_l; [lia|]. unfold Qle; cbn; lia. }
    lra. }
  subst e. replace (emin f) with ((emin f - 1) + 1)%Z in A by lia. rewrite qpow_S in A. lra.
Qed.

(** ** F-order frames *)
Lemma flat_map_length_const {A B} (g : A -> list B) n l : (forall x, In x l -> List.length (g x) = n) ->
  List.length (flat_map g l) = List.length l * n.
Proof.
  induction l as [|x l IH]; intro H; [reflexivity|]. cbn. rewrite app_length, H by (left; reflexivity).
  rewrite IH by (intros y Hy; apply H; right; exact Hy). lia.
Qed.
Lemma nth_flat_map_seq {B} (g : nat -> list B) n m s i j d : (forall x, List.length (g x) = n) -> i < m -> j < n ->
  nth (j + n * i) (flat_map g (seq s m)) d = nth j (g (s + i)) d.
Proof.
  revert s i. induction m as [|m IH]; intros s i Hg Hi Hj; [lia|]. cbn [seq flat_map].
  destruct i as [|i].
  - rewrite Nat.mul_0_r, !Nat.add_0_r. apply app_nth1. rewrite Hg. exact Hj.
  - rewrite app_nth2 by (rewrite Hg; nia). rewrite Hg.
    replace (j + n * S i - n) with (j + n * i) by nia. rewrite IH by (try exact Hg; lia). f_equal. f_equal. lia.
Qed.
Lemma frame_length g ny nz : List.length (frame g ny nz) = 3 * ny * nz.
Proof.
  unfold frame. rewrite (flat_map_length_const _ (ny * 3)).
  - rewrite seq_length. lia.
  - intros iz _. rewrite (flat_map_length_const _ 3); [rewrite seq_length; reflexivity|]. intros; reflexivity.
Qed.
Lemma frame_nth g ny nz k iy iz d : k < 3 -> iy < ny -> iz < nz -> nth (k + 3 * (iy + ny * iz)) (frame g ny nz) d = g k iy iz.
Proof.
  intros Hk Hy Hz. unfold frame.
  replace (k + 3 * (iy + ny * iz)) with ((k + 3 * iy) + (ny * 3) * iz) by lia.
  rewrite nth_flat_map_seq; [|intro x; rewrite (flat_map_length_const _ 3); [rewrite seq_length; reflexivity|reflexivity]|exact Hz|nia].
  rewrite nth_flat_map_seq; [|reflexivity|exact Hy|exact Hk]. cbn [Nat.add].
  destruct k as [|[|[|k]]]; [reflexivity..|lia].
Qed.
Lemma frame_twr_length g n : List.length (frame_twr g n) = 3 * n.
Proof. unfold frame_twr. rewrite (flat_map_length_const _ 3); [rewrite seq_length; lia|reflexivity]. Qed.
Lemma frame_twr_nth g n k j d : k < 3 -> j < n -> nth (k + 3 * j) (frame_twr g n) d = g k j.
Proof.
  intros Hk Hj. unfold frame_twr. rewrite nth_flat_map_seq; [|reflexivity|exact Hj|exact Hk].
  destruct k as [|[|[|k]]]; [reflexivity..|lia].
Qed.

Definition int16s (l : list Z) := Forall (fun z => in_sint 2 z = true) l.
Lemma wrap16_range z : in_sint 2 (wrap16 z) = true.
Proof. apply in_int16. unfold wrap16. pose proof (Z.mod_pos_bound (z + 32768) 65536 eq_refl). lia. Qed.
Lemma wrap16_id z : (-32768 <= z <= 32767)%Z -> wrap16 z = z.
Proof. intro H. unfold wrap16. rewrite Z.mod_small by lia. lia. Qed.
Lemma frame_int16 g ny nz : (forall k iy iz, in_sint 2 (g k iy iz) = true) -> int16s (frame g ny nz).
Proof.
  intro H. apply Forall_forall. intros z Hz. unfold frame in Hz.
  apply in_flat_map in Hz as (iz & _ & Hz). apply in_flat_map in Hz as (iy & _ & Hz).
  apply in_map_iff in Hz as (k & <- & _). apply H.
Qed.
Lemma frame_twr_int16 g n : (forall k j, in_sint 2 (g k j) = true) -> int16s (frame_twr g n).
Proof.
  intro H. apply Forall_forall. intros z Hz. unfold frame_twr in Hz.
  apply in_flat_map in Hz as (j & _ & Hz). apply in_map_iff in Hz as (k & <- & _). apply H.
Qed.
Lemma tobytes16_length l : List.length (tobytes16 l) = 2 * List.length l.
Proof.
  unfold tobytes16. rewrite (concat_length_uniform 2); [rewrite map_length; lia|].
  apply Forall_map, Forall_forall. intros z _. apply le_length.
Qed.

Lemma firstn_app_exact {A} n (a b : list A) : List.length a = n -> firstn n (a ++ b) = a.
Proof. intro H. rewrite firstn_app, H, Nat.sub_diag, <- H, firstn_all. cbn. apply app_nil_r. Qed.
Lemma skipn_app_exact {A} n (a b : list A) : List.length a = n -> skipn n (a ++ b) = b.
Proof. intro H. rewrite skipn_app, H, Nat.sub_diag, <- H, skipn_all. reflexivity. Qed.

Lemma read_steps_frames ny nz nTwr (G : list (list Z * list Z)) :
  Forall (fun p => int16s (fst p) /\ int16s (snd p) /\ List.length (fst p) = 3 * ny * nz /\ List.length (snd p) = 3 * nTwr) G ->
  read_steps (List.length G) ny nz nTwr (concat (map (fun p => tobytes16 (fst p) ++ tobytes16 (snd p)) G)) = Ok G.
Proof.
  induction G as [|[g w] G IH]; intro H; [reflexivity|]. apply Forall_cons_iff in H as [(Hg & Hw & Lg & Lw) HG].
  cbn [fst snd] in *. cbn [List.length map concat read_steps fst snd]. rewrite <- app_assoc.
  assert (L1 : List.length (tobytes16 g) = 2 * 3 * ny * nz) by (rewrite tobytes16_length; lia).
  assert (L2 : List.length (tobytes16 w) = 2 * 3 * nTwr) by (rewrite tobytes16_length; lia).
  rewrite (firstn_app_exact _ _ _ L1), (skipn_app_exact _ _ _ L1).
  unfold tobytes16 at 1. rewrite frombuffer_s_le by (try exact Hg; lia). cbn [bind].
  rewrite Lg, Nat.eqb_refl. rewrite (firstn_app_exact _ _ _ L2), (skipn_app_exact _ _ _ L2).
  unfold tobytes16 at 1. rewrite frombuffer_s_le by (try exact Hw; lia). cbn [bind]. rewrite Lw, Nat.eqb_refl.
  rewrite (IH HG). reflexivity.
Qed.

(** Text *)
Lemma read_text_ascii info r : forallb (fun c => (N_of_ascii c <? 128)%N) info = true ->
  read_text (Z.of_nat (List.length info)) (map N_of_ascii info ++ r) = Ok (info, r).
Proof.
  intro H. unfold read_text. destruct (Z.ltb_spec (Z.of_nat (List.length info)) 0); [lia|].
  rewrite Nat2Z.id, app_length, map_length, Nat.min_l by lia.
  rewrite firstn_app_exact, skipn_app_exact by apply map_length.
  rewrite forallb_forall in H.
  replace (forallb (fun x : N => (x <? 128)%N) (map N_of_ascii info)) with true.
  - rewrite map_map. f_equal. f_equal. rewrite <- (map_id info) at 2. apply map_ext. apply ascii_N_embedding.
  - symmetry. apply forallb_forall. intros x Hx. apply in_map_iff in Hx as (c & <- & Hc). apply H. exact Hc.
Qed.

(** ** C13 *)
Lemma scaling_rnd o k s f : scaling o k = Ok (s, f) ->
  (rnd binary32 f == f)%Q /\ (rnd binary32 s == s)%Q.
Proof.
  unfold scaling. destruct (comp_bounds o k) as [[lo hi]|e]; cbn; [|discriminate]. intro H.
  apply Ok_inj in H. injection H as <- <-. split.
  - unfold off_of. apply rnd_proper0, good32.
  - unfold scl_of. destruct (Qeq_bool lo hi); [|apply rnd_proper0, good32].
    apply rnd_exact with (M := 1%Z) (E := 0%Z); [apply good32|reflexivity|discriminate|reflexivity].
Qed.

Ltac bind_inv H :=
  match type of H with
  | bind ?r _ = Ok _ => let x := fresh "v" in let E := fresh "E" in destruct r as [x|] eqn:E; cbn [bind] in H; [|discriminate H]
  end.

Theorem ts_roundtrip f p info o f' :
  forallb (fun c => (N_of_ascii c <? 128)%N) info = true ->
  ts_write f p info o = (f', Ok tt) ->
  exists r,
    ts_read f' p = Ok r /\
    r_ID r = the_ID o /\ r_nz r = o_nz o /\ r_ny r = o_ny o /\ r_nTwr r = n_twr o /\ r_nt r = o_nt o /\
    r_info r = info /\
    (exists z0 dz dy dt v1 v2 v3 v4 v5 v6,
       first_of (o_z o) = Ok z0 /\ step_of (o_z o) = Ok dz /\ step_of (o_y o) = Ok dy /\ step_of (o_t o) = Ok dt /\
       r_zBottom r = Some v1 /\ r_dz r = Some v2 /\ r_dy r = Some v3 /\ r_dt r = Some v4 /\
       r_zHub r = Some v5 /\ r_uHub r = Some v6 /\
       (v1 == rnd binary32 z0 /\ v2 == rnd binary32 dz /\ v3 == rnd binary32 dy /\ v4 == rnd binary32 dt /\
        v5 == rnd binary32 (fst (o_hub o)) /\ v6 == rnd binary32 (snd (o_hub o)))%Q) /\
    (forall k, k < 3 -> exists scl off s' off',
       scaling o k = Ok (scl, off) /\ r_scl r k = Some s' /\ r_off r k = Some off' /\ (s' == scl /\ off' == off)%Q /\
       (forall it iy iz, it < o_nt o -> iy < o_ny o -> iz < o_nz o ->
          r_int r k it iy iz = quantise scl off (o_u o k it iy iz)) /\
       (forall it j, it < o_nt o -> j < n_twr o ->
          r_intTwr r k it j = quantise scl off (u_twr o k it j))) /\
    (forall q, q <> p -> f' q = f q).
Proof.
  intros Hinfo H. unfold ts_write in H. destruct p as [|c p0]; [discriminate|]. set (p := c :: p0) in *.
  destruct (scaling o 0) as [[s0 f0]|] eqn:E0; cbn [bind] in H; [|discriminate].
  destruct (scaling o 1) as [[s1 f1]|] eqn:E1; cbn [bind] in H; [|discriminate].
  destruct (scaling o 2) as [[s2 f2]|] eqn:E2; cbn [bind] in H; [|discriminate].
  destruct (first_of (o_z o)) as [z0|] eqn:Ez0; cbn [bind] in H; [|discriminate].
  destruct (step_of (o_z o)) as [dz|] eqn:Edz; cbn [bind] in H; [|discriminate].
  destruct (step_of (o_y o)) as [dy|] eqn:Edy; cbn [bind] in H; [|discriminate].
  destruct (step_of (o_t o)) as [dt|] eqn:Edt; cbn [bind] in H; [|discriminate].
  set (q := fun k x => quantise (sel3 s0 s1 s2 k) (sel3 f0 f1 f2 k) x) in *.
  apply write_file_inv in H as (bs & Hbs & Hf & Hother).
  set (G := map (fun it => (frame (fun k iy iz => q k (o_u o k it iy iz)) (o_ny o) (o_nz o),
                            frame_twr (fun k j => q k (u_twr o k it j)) (n_twr o))) (seq 0 (o_nt o))).
  destruct bs as [|b1 [|b2 [|b3 [|b4 [|b5 bs]]]]]; cbn [map app] in Hbs; try discriminate.
  pose proof (f_equal (fun l => nth_error l 0) Hbs) as P1. cbn [nth_error] in P1. apply Some_inj in P1.
  pose proof (f_equal (fun l => nth_error l 1) Hbs) as P2. cbn [nth_error] in P2. apply Some_inj in P2.
  pose proof (f_equal (fun l => nth_error l 2) Hbs) as P3. cbn [nth_error] in P3. apply Some_inj in P3.
  pose proof (f_equal (fun l => nth_error l 3) Hbs) as P4. cbn [nth_error] in P4. apply Some_inj in P4.
  pose proof (f_equal (fun l => nth_error l 4) Hbs) as P5. cbn [nth_error] in P5. apply Some_inj in P5.
  pose proof (f_equal (fun l => skipn 5 l) Hbs) as P6. cbn [skipn] in P6. clear Hbs.
  assert (P6' : bs = map (fun p => tobytes16 (fst p) ++ tobytes16 (snd p)) G).
  { unfold G. rewrite map_map. cbn [fst snd].
    assert (HX : forall (A : Type) (h : A -> bytes) l (bs : list bytes), map (fun x => Ok (h x)) l = map Ok bs -> bs = map h l).
    { intros A h l. induction l as [|x l IH]; intros [|b bs'] HH; cbn in HH; try discriminate; [reflexivity|].
      injection HH as HH1 HH2. cbn. rewrite (IH _ HH2), HH1. reflexivity. }
    apply HX in P6. exact P6. }
  clear P6.
  apply concat_res_inv in P1 as (l1 & P1 & ->). destruct l1 as [|a1 [|a2 [|a3 [|a4 [|a5 [|]]]]]]; try discriminate.
  cbn [map] in P1. apply cons_inj in P1 as [A1 P1]. apply cons_inj in P1 as [A2 P1]. apply cons_inj in P1 as [A3 P1]. apply cons_inj in P1 as [A4 P1]. apply cons_inj in P1 as [A5 P1].
  apply pack_s_inv in A1 as [R1 ->]. apply pack_s_inv in A2 as [R2 ->]. apply pack_s_inv in A3 as [R3 ->].
  apply pack_s_inv in A4 as [R4 ->]. apply pack_s_inv in A5 as [R5 ->].
  apply concat_res_inv in P2 as (l2 & P2 & ->). destruct l2 as [|w1 [|w2 [|w3 [|w4 [|w5 [|w6 [|]]]]]]]; try discriminate.
  cbn [map] in P2. apply cons_inj in P2 as [W1 P2]. apply cons_inj in P2 as [W2 P2]. apply cons_inj in P2 as [W3 P2]. apply cons_inj in P2 as [W4 P2]. apply cons_inj in P2 as [W5 P2]. apply cons_inj in P2 as [W6 P2].
  apply concat_res_inv in P3 as (l3 & P3 & ->). destruct l3 as [|x1 [|x2 [|x3 [|x4 [|x5 [|x6 [|]]]]]]]; try discriminate.
  cbn [map] in P3. apply cons_inj in P3 as [X1 P3]. apply cons_inj in P3 as [X2 P3]. apply cons_inj in P3 as [X3 P3]. apply cons_inj in P3 as [X4 P3]. apply cons_inj in P3 as [X5 P3]. apply cons_inj in P3 as [X6 P3].
  apply pack_s_inv in P4 as [R6 ->]. apply Ok_inj in P5. subst b5.
  cbn [concat] in Hf. rewrite !app_nil_r in Hf. rewrite <- !app_assoc in Hf.
  set (tail := concat (map (fun p => tobytes16 (fst p) ++ tobytes16 (snd p)) G)).

  assert (Hrd : ts_read f' p = ts_read_bytes (le 2 (the_ID o) ++ le 4 (Z.of_nat (o_nz o)) ++ le 4 (Z.of_nat (o_ny o)) ++
      le 4 (Z.of_nat (n_twr o)) ++ le 4 (Z.of_nat (o_nt o)) ++
      w1 ++ w2 ++ w3 ++ w4 ++ w5 ++ w6 ++ x1 ++ x2 ++ x3 ++ x4 ++ x5 ++ x6 ++
      le 4 (Z.of_nat (List.length info)) ++ map N_of_ascii info ++ tail)).
  { unfold ts_read. rewrite Hf, P6'. fold tail. unfold p. cbn [le app]. reflexivity. }
  rewrite Hrd. clear Hrd.
  unfold ts_read_bytes.
  rewrite take_s_app by (try exact R1; lia); cbn [bind].
  rewrite take_s_app by (try exact R2; lia); cbn [bind].
  rewrite take_s_app by (try exact R3; lia); cbn [bind].
  rewrite take_s_app by (try exact R4; lia); cbn [bind].
  rewrite take_s_app by (try exact R5; lia); cbn [bind].
  Ltac tk W := match goal with |- context [take_f32 (?w ++ ?r)] =>
    let v := fresh "v" in let E := fresh "E" in let Q := fresh "Q" in
    destruct (take_f32_pack _ w r W) as (v & E & Q); rewrite E; cbn [bind]; clear E end.
  tk W1. tk W2. tk W3. tk W4. tk W5. tk W6. tk X1. tk X2. tk X3. tk X4. tk X5. tk X6.
  rewrite take_s_app by (try exact R6; lia); cbn [bind].
  rewrite read_text_ascii by exact Hinfo; cbn [bind].
  destruct (Z.ltb_spec (Z.of_nat (o_nt o)) 0); [lia|]. destruct (Z.ltb_spec (Z.of_nat (o_ny o)) 0); [lia|].
  destruct (Z.ltb_spec (Z.of_nat (o_nz o)) 0); [lia|]. destruct (Z.ltb_spec (Z.of_nat (n_twr o)) 0); [lia|].
  cbn [orb]. rewrite !Nat2Z.id. cbv zeta.
  assert (LG : List.length G = o_nt o) by (unfold G; rewrite map_length, seq_length; reflexivity).
  assert (HG : read_steps (o_nt o) (o_ny o) (o_nz o) (n_twr o) tail = Ok G).
  { rewrite <- LG. apply read_steps_frames. unfold G. apply Forall_map, Forall_forall. intros it _. cbn [fst snd].
    split; [apply frame_int16; intros; apply wrap16_range|].
    split; [apply frame_twr_int16; intros; apply wrap16_range|].
    split; [apply frame_length|apply frame_twr_length]. }
  rewrite HG. cbn [bind]. eexists. split; [reflexivity|]. cbn [r_ID r_nz r_ny r_nTwr r_nt r_info r_zBottom r_dz r_dy r_dt r_zHub r_uHub r_scl r_off r_int r_intTwr].
  do 6 (split; [reflexivity|]).
  split; [|split; [|exact Hother]].
  - exists z0, dz, dy, dt, v4, v, v0, v1, v3, v2. repeat (split; [reflexivity|]). repeat split; assumption.
  - destruct (scaling_rnd o 0 s0 f0 E0) as [F0 S0]. destruct (scaling_rnd o 1 s1 f1 E1) as [F1 S1].
    destruct (scaling_rnd o 2 s2 f2 E2) as [F2 S2].
    assert (HI : forall k it iy iz, k < 3 -> it < o_nt o -> iy < o_ny o -> iz < o_nz o ->
      nth (k + 3 * (iy + o_ny o * iz)) (fst (nth it G ([], []))) 0%Z = q k (o_u o k it iy iz)).
    { intros k it iy iz Hk Hit Hy Hz.
      assert (Hn : nth it G ([], []) = (frame (fun k iy iz => q k (o_u o k it iy iz)) (o_ny o) (o_nz o),
                            frame_twr (fun k j => q k (u_twr o k it j)) (n_twr o))).
      { apply nth_error_nth. unfold G. rewrite map_seq_nth_error by exact Hit. reflexivity. }
      rewrite Hn. cbn [fst]. apply frame_nth; assumption. }
    assert (HJ : forall k it j, k < 3 -> it < o_nt o -> j < n_twr o ->
      nth (k + 3 * j) (snd (nth it G ([], []))) 0%Z = q k (u_twr o k it j)).
    { intros k it j Hk Hit Hj.
      assert (Hn : nth it G ([], []) = (frame (fun k iy iz => q k (o_u o k it iy iz)) (o_ny o) (o_nz o),
                            frame_twr (fun k j => q k (u_twr o k it j)) (n_twr o))).
      { apply nth_error_nth. unfold G. rewrite map_seq_nth_error by exact Hit. reflexivity. }
      rewrite Hn. cbn [snd]. apply (frame_twr_nth (fun k j => q k (u_twr o k it j))); assumption. }
    intros k Hk. destruct k as [|[|[|k]]]; [| | |lia].
    + exists s0, f0, v5, v6. split; [exact E0|]. split; [reflexivity|]. split; [reflexivity|].
      split; [split; [rewrite Q5; exact S0|rewrite Q6; exact F0]|]. split; intros; [apply HI|apply HJ]; assumption || lia.
    + exists s1, f1, v7, v8. split; [exact E1|]. split; [reflexivity|]. split; [reflexivity|].
      split; [split; [rewrite Q7; exact S1|rewrite Q8; exact F1]|]. split; intros; [apply HI|apply HJ]; assumption || lia.
    + exists s2, f2, v9, v10. split; [exact E2|]. split; [reflexivity|]. split; [reflexivity|].
      split; [split; [rewrite Q9; exact S2|rewrite Q10; exact F2]|]. split; intros; [apply HI|apply HJ]; assumption || lia.
Qed.
