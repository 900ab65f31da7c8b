From Verif Require Import Py PyFacts ListFacts FS Registry_Model Registry_Proofs MannBox_Model.
From Coq Require Import ZifyBool ZifyNat.
Ltac Zify.zify_post_hook ::= Z.div_mod_to_equations.

Lemma chunks_length {A} k n (l : list A) : List.length (chunks k n l) = k.
Proof. revert l. induction k as [|k IH]; intro l; cbn; [reflexivity|]. rewrite IH. reflexivity. Qed.
Lemma chunks_concat {A} k n (l : list A) : List.length l = k * n -> concat (chunks k n l) = l.
Proof.
  revert l. induction k as [|k IH]; intros l H; cbn.
  - destruct l; [reflexivity | discriminate].
  - rewrite IH; [apply firstn_skipn|]. rewrite skipn_length, H. cbn. lia.
Qed.
Lemma chunks_all_len {A} k n (l : list A) : k * n <= List.length l ->
  Forall (fun c => List.length c = n) (chunks k n l).
Proof.
  revert l. induction k as [|k IH]; intros l H; cbn; constructor.
  - rewrite firstn_length. cbn in H. lia.
  - apply IH. rewrite skipn_length. cbn in H. lia.
Qed.
Lemma concat_chunks {A} n (ls : list (list A)) (t : list A) : Forall (fun c => List.length c = n) ls ->
  chunks (List.length ls) n (concat ls ++ t) = ls.
Proof.
  intro H. induction H as [|l ls Hl Hls IH]; cbn; [reflexivity|].
  rewrite <- app_assoc. rewrite firstn_app, skipn_app.
  rewrite (firstn_all2 l) by lia. rewrite (skipn_all2 l) by lia.
  replace (n - List.length l) with 0 by lia. cbn. rewrite app_nil_r. f_equal. exact IH.
Qed.
Lemma chunks_nth {A} k n (l : list A) i : i < k ->
  nth_error (chunks k n l) i = Some (firstn n (skipn (i * n) l)).
Proof.
  revert l i. induction k as [|k IH]; intros l i H; [lia|].
  destruct i as [|i]; cbn [chunks nth_error]; [reflexivity|].
  rewrite IH by lia. f_equal. rewrite skipn_skipn. f_equal. f_equal. cbn. lia.
Qed.
Lemma chunks_map {A B} (g : A -> B) k n l : chunks k n (map g l) = map (map g) (chunks k n l).
Proof.
  revert l. induction k as [|k IH]; intro l; cbn; [reflexivity|].
  rewrite firstn_map, skipn_map, IH. reflexivity.
Qed.
Lemma firstn_skipn_chunk {A} a b (l : list A) i n : (i + 1) * n <= b ->
  firstn n (skipn (i * n) (firstn b (skipn a l))) = firstn n (skipn (a + i * n) l).
Proof.
  intro H. rewrite skipn_firstn_comm, firstn_firstn, skipn_skipn.
  rewrite Nat.min_l by lia. f_equal. f_equal. lia.
Qed.

(** ** Reading *)
(** Word [i] of the file. *)
Definition file_word (b : bytes) (i : nat) : word := firstn 4 (skipn (4 * i) b).

Lemma frombuffer_ok b k : List.length b = 4 * k -> frombuffer b = Ok (chunks k 4 b).
Proof.
  intro H. unfold frombuffer. rewrite H.
  replace ((4 * k) mod 4) with 0 by lia. replace (4 * k / 4) with k by lia. reflexivity.
Qed.

Definition shaped (nx ny nz : nat) (f : field) : Prop :=
  List.length f = nx /\ Forall (fun p => List.length p = ny /\ Forall (fun r => List.length r = nz /\
    Forall (fun w => List.length w = 4) r) p) f.

Lemma chunks_tail_prefix {A} k n (l t : list A) : k * n <= List.length l -> chunks k n (l ++ t) = chunks k n l.
Proof.
  revert l. induction k as [|k IH]; intros l H; cbn; [reflexivity|]. cbn in H.
  rewrite firstn_app, skipn_app. replace (n - List.length l) with 0 by lia. cbn. rewrite app_nil_r.
  f_equal. apply IH. rewrite skipn_length. lia.
Qed.

Lemma read_planes_ok nx ny nz b : 4 * nx * ny * nz <= List.length b ->
  exists f, read_planes nx ny nz b = Ok f /\ shaped nx ny nz f /\
    forall ix iy iz, ix < nx -> iy < ny -> iz < nz ->
      (exists p r, nth_error f ix = Some p /\ nth_error p iy = Some r /\
        nth_error r iz = Some (file_word b (ix * ny * nz + (ny - 1 - iy) * nz + iz))).
Proof.
  revert b. induction nx as [|nx IH]; intros b H.
  - exists []. split; [reflexivity|]. split; [split; [reflexivity | constructor]|]. intros; lia.
  - cbn [read_planes].
    assert (Hlen : List.length (firstn (4 * ny * nz) b) = 4 * (ny * nz)).
    { rewrite firstn_length. nia. }
    rewrite (frombuffer_ok _ _ Hlen). cbn [bind]. unfold reshape. rewrite chunks_length, Nat.eqb_refl. cbn [bind].
    destruct (IH (skipn (4 * ny * nz) b)) as [f [Hf1 [[Hf2 Hf2'] Hf3]]].
    { rewrite skipn_length. nia. }
    rewrite Hf1. cbn [bind]. eexists. split; [reflexivity|].
    set (ws := chunks (ny * nz) 4 (firstn (4 * ny * nz) b)).
    assert (Hws : List.length ws = ny * nz) by apply chunks_length.
    assert (Hpl : forall iy iz, iy < ny -> iz < nz ->
      exists r, nth_error (rev (chunks ny nz ws)) iy = Some r /\
        nth_error r iz = Some (file_word b ((ny - 1 - iy) * nz + iz))).
    { intros iy iz Hy Hz. exists (firstn nz (skipn ((ny - 1 - iy) * nz) ws)).
      rewrite nth_error_rev by (rewrite chunks_length; exact Hy). rewrite chunks_length.
      rewrite chunks_nth by lia. split; [reflexivity|].
      rewrite nth_error_firstn by exact Hz. rewrite nth_error_skipn.
      unfold ws. rewrite chunks_nth by nia. f_equal. unfold file_word.
      change (firstn (4 * ny * nz) b) with (firstn (4 * ny * nz) (skipn 0 b)).
      rewrite firstn_skipn_chunk by nia. f_equal. f_equal. lia. }
    split.
    + split; [cbn; lia|]. constructor.
      * split; [rewrite rev_length, chunks_length; reflexivity|]. apply Forall_rev.
        pose proof (chunks_all_len ny nz ws) as Hc. rewrite Hws in Hc. specialize (Hc (Nat.le_refl _)).
        rewrite Forall_forall in *. intros r Hr. split; [apply Hc; exact Hr|].
        assert (Hin : forall w, In w r -> In w ws).
        { intros w Hw. rewrite <- (chunks_concat ny nz ws Hws). apply in_concat. exists r. split; assumption. }
        pose proof (chunks_all_len (ny * nz) 4 (firstn (4 * ny * nz) b)) as H4. rewrite Hlen in H4.
        specialize (H4 ltac:(lia)). rewrite Forall_forall in *. intros w Hw. apply H4. apply Hin. exact Hw.
      * exact Hf2'.
    + intros ix iy iz Hx Hy Hz. destruct ix as [|ix].
      * destruct (Hpl iy iz Hy Hz) as [r [Hr1 Hr2]].
        exists (rev (chunks ny nz ws)), r. split; [reflexivity|]. split; [exact Hr1|].
        rewrite Hr2. f_equal.
      * destruct (Hf3 ix iy iz ltac:(lia) Hy Hz) as [p [r [H1 [H2 H3]]]].
        exists p, r. split; [exact H1|]. split; [exact H2|]. rewrite H3. f_equal.
        unfold file_word. rewrite skipn_skipn. f_equal. f_equal. nia.
Qed.

Lemma read_planes_short nx ny nz b : List.length b < 4 * nx * ny * nz -> read_planes nx ny nz b = Err ValueError.
Proof.
  revert b. induction nx as [|nx IH]; intros b H; [lia|].
  cbn [read_planes]. destruct (le_lt_dec (4 * ny * nz) (List.length b)) as [Hle|Hlt].
  - assert (Hlen : List.length (firstn (4 * ny * nz) b) = 4 * (ny * nz)) by (rewrite firstn_length; nia).
    rewrite (frombuffer_ok _ _ Hlen). cbn [bind]. unfold reshape. rewrite chunks_length, Nat.eqb_refl. cbn [bind].
    rewrite IH; [reflexivity|]. rewrite skipn_length. nia.
  - rewrite firstn_all2 by lia. unfold frombuffer.
    destruct (Nat.eqb_spec (List.length b mod 4) 0) as [E|E]; [|reflexivity].
    cbn [bind]. unfold reshape. rewrite chunks_length.
    destruct (Nat.eqb_spec (List.length b / 4) (ny * nz)) as [E2|E2]; [|reflexivity].
    exfalso. assert (List.length b = 4 * (ny * nz)) by lia. nia.
Qed.

(** ** Round trips *)
Lemma write_plane_length ny nz p : List.length p = ny ->
  Forall (fun r => List.length r = nz /\ Forall (fun w : word => List.length w = 4) r) p ->
  List.length (concat (map (@concat N) (rev p))) = 4 * ny * nz.
Proof.
  intros Hp H. rewrite (concat_length_uniform (nz * 4)).
  - rewrite map_length, rev_length, Hp. lia.
  - rewrite Forall_forall in *. intros x Hx. apply in_map_iff in Hx. destruct Hx as [r [<- Hr]].
    apply in_rev in Hr. destruct (H r Hr) as [Hr1 Hr2]. rewrite (concat_length_uniform 4) by exact Hr2. lia.
Qed.

Lemma write_read nx ny nz f tail : shaped nx ny nz f -> read_planes nx ny nz (write_field f ++ tail) = Ok f.
Proof.
  revert f. induction nx as [|nx IH]; intros f [Hl Hf].
  - destruct f; [reflexivity | discriminate].
  - destruct f as [|p f]; [discriminate|]. inversion Hf as [|? ? [Hp1 Hp2] Hf']; subst.
    cbn [read_planes]. unfold write_field. cbn [map concat]. fold (write_field f).
    pose proof (write_plane_length _ nz p eq_refl Hp2) as HL.
    set (B := concat (map (@concat N) (rev p))) in *.
    rewrite <- app_assoc. rewrite firstn_app, skipn_app.
    rewrite (firstn_all2 B) by lia. rewrite (skipn_all2 B) by lia.
    replace (4 * List.length p * nz - List.length B) with 0 by lia. cbn [firstn skipn]. rewrite app_nil_r.
    rewrite (frombuffer_ok B (List.length p * nz)) by lia. cbn [bind].
    assert (HB : B = concat (concat (rev p))).
    { unfold B. clear. induction (rev p) as [|r l IHl]; cbn; [reflexivity|]. rewrite IHl, concat_app. reflexivity. }
    assert (Hrp : Forall (fun r : list word => List.length r = nz) (rev p)).
    { apply Forall_rev. eapply Forall_impl; [|exact Hp2]. intros r [H _]. exact H. }
    assert (Hw4 : Forall (fun w : word => List.length w = 4) (concat (rev p))).
    { rewrite Forall_forall. intros w Hw. apply in_concat in Hw. destruct Hw as [r [Hr Hwr]]. apply in_rev in Hr.
      rewrite Forall_forall in Hp2. destruct (Hp2 r Hr) as [_ H4]. rewrite Forall_forall in H4. apply H4. exact Hwr. }
    assert (Hcl : List.length (concat (rev p)) = List.length p * nz).
    { rewrite (concat_length_uniform nz) by exact Hrp. rewrite rev_length. reflexivity. }
    assert (HW : chunks (List.length p * nz) 4 B = concat (rev p)).
    { rewrite HB, <- Hcl, <- (app_nil_r (concat (concat (rev p)))). apply concat_chunks. exact Hw4. }
    rewrite HW. unfold reshape. rewrite Hcl, Nat.eqb_refl. cbn [bind].
    assert (HP : chunks (List.length p) nz (concat (rev p)) = rev p).
    { rewrite <- (rev_length p), <- (app_nil_r (concat (rev p))). apply concat_chunks. exact Hrp. }
    rewrite HP, rev_involutive. cbn in Hl. cbn [app]. rewrite IH by (split; [lia | exact Hf']). reflexivity.
Qed.

Lemma shaped_write_length nx ny nz f : shaped nx ny nz f -> List.length (write_field f) = 4 * nx * ny * nz.
Proof.
  intros [Hl Hf]. unfold write_field. rewrite (concat_length_uniform (4 * ny * nz)).
  - rewrite map_length, Hl. nia.
  - rewrite Forall_forall in *. intros x Hx. apply in_map_iff in Hx. destruct Hx as [p [<- Hp]].
    destruct (Hf p Hp) as [H1 H2]. apply write_plane_length; assumption.
Qed.

Lemma read_write nx ny nz b f : read_planes nx ny nz b = Ok f ->
  write_field f = firstn (4 * nx * ny * nz) b.
Proof.
  revert b f. induction nx as [|nx IH]; intros b f H.
  - cbn in H. injection H as <-. reflexivity.
  - destruct (le_lt_dec (4 * S nx * ny * nz) (List.length b)) as [Hle|Hlt];
      [|rewrite read_planes_short in H by exact Hlt; discriminate].
    cbn [read_planes] in H.
    assert (Hlen : List.length (firstn (4 * ny * nz) b) = 4 * (ny * nz)) by (rewrite firstn_length; nia).
    rewrite (frombuffer_ok _ _ Hlen) in H. cbn [bind] in H. unfold reshape in H.
    rewrite chunks_length, Nat.eqb_refl in H. cbn [bind] in H.
    destruct (read_planes nx ny nz (skipn (4 * ny * nz) b)) as [f'|e] eqn:E; [|discriminate].
    cbn [bind] in H. apply Ok_inj in H. subst f. unfold write_field. cbn [map concat]. fold (write_field f').
    rewrite (IH _ _ E). rewrite rev_involutive.
    set (ws := chunks (ny * nz) 4 (firstn (4 * ny * nz) b)).
    assert (Hc : concat (map (@concat N) (chunks ny nz ws)) = concat (concat (chunks ny nz ws))).
    { clear. induction (chunks ny nz ws) as [|r l IHl]; cbn; [reflexivity|]. rewrite IHl, concat_app. reflexivity. }
    rewrite Hc. rewrite chunks_concat by (subst ws; rewrite chunks_length; reflexivity).
    subst ws. rewrite chunks_concat by lia.
    replace (4 * S nx * ny * nz) with (4 * ny * nz + 4 * nx * ny * nz) by lia.
    rewrite <- (firstn_skipn (4 * ny * nz) (firstn (4 * ny * nz + 4 * nx * ny * nz) b)).
    rewrite firstn_firstn, Nat.min_l by lia. f_equal. rewrite skipn_firstn_comm. f_equal. lia.
Qed.

(** ** Both readers agree *)
Lemma readers_agree nx ny nz b : List.length b = 4 * nx * ny * nz ->
  read_nonbuffered nx ny nz b = read_buffered nx ny nz b.
Proof.
  intro H. destruct (read_planes_ok nx ny nz b ltac:(lia)) as [f [Hf1 [[Hf2 Hf2'] Hf3]]].
  unfold read_buffered. rewrite Hf1. unfold read_nonbuffered.
  rewrite chunks_length, H. replace (4 * nx * ny * nz / 4) with (nx * ny * nz)
    by (replace (4 * nx * ny * nz) with (nx * ny * nz * 4) by lia; rewrite Nat.div_mul; lia).
  rewrite Nat.eqb_refl. f_equal.
  apply list_ext; [rewrite map_length, seq_length; lia|].
  rewrite map_length, seq_length. intros ix Hx. rewrite map_seq_nth_error by exact Hx.
  destruct (nth_error f ix) as [p|] eqn:Ep; [|apply nth_error_None in Ep; lia].
  f_equal. rewrite Forall_forall in Hf2'. destruct (Hf2' p (nth_error_In _ _ Ep)) as [Hp1 Hp2].
  apply list_ext; [rewrite rev_length, map_length, seq_length; lia|].
  rewrite rev_length, map_length, seq_length. intros iy Hy.
  rewrite nth_error_rev by (rewrite map_length, seq_length; exact Hy). rewrite map_length, seq_length.
  rewrite map_seq_nth_error by lia.
  destruct (nth_error p iy) as [r|] eqn:Er; [|apply nth_error_None in Er; lia].
  f_equal. rewrite Forall_forall in Hp2. destruct (Hp2 r (nth_error_In _ _ Er)) as [Hr1 _].
  apply list_ext; [rewrite map_length, seq_length; lia|].
  rewrite map_length, seq_length. intros iz Hz. rewrite map_seq_nth_error by exact Hz.
  destruct (Hf3 ix iy iz Hx Hy Hz) as [p' [r' [H1 [H2 H3]]]].
  rewrite Ep in H1. injection H1 as <-. rewrite Er in H2. injection H2 as <-. rewrite H3. f_equal.
  assert (Hi : iz + nz * (ny - 1 - iy + ny * ix) < nx * ny * nz).
  { assert (Hj : ny - 1 - iy + ny * ix + 1 <= nx * ny).
    { assert (ny - 1 - iy + 1 <= ny) by lia. assert ((ix + 1) * ny <= nx * ny) by (apply Nat.mul_le_mono_r; lia). lia. }
    assert ((ny - 1 - iy + ny * ix + 1) * nz <= nx * ny * nz) by (apply Nat.mul_le_mono_r; exact Hj). lia. }
  apply nth_error_nth. rewrite chunks_nth by exact Hi. unfold file_word. f_equal. f_equal. f_equal. nia.
Qed.

(** ** File names *)
Lemma digit_is_digit n : forallb is_digit (str_of_N n) = true. Proof. apply str_of_N_digits. Qed.

Lemma findall_app_sep a c b : is_digit c = false -> findall_digits (a ++ c :: b) = findall_digits a ++ findall_digits b.
Proof. intro H. unfold findall_digits. rewrite split_on_app by (rewrite H; reflexivity). apply filter_app. Qed.
Lemma findall_digits_run s : s <> [] -> forallb is_digit s = true -> findall_digits s = [s].
Proof.
  intros Hne H. unfold findall_digits. rewrite split_on_none.
  - cbn. destruct s; [contradiction | reflexivity].
  - rewrite forallb_forall in *. intros c Hc. rewrite (H c Hc). reflexivity.
Qed.
Lemma findall_N n : findall_digits (str_of_N n) = [str_of_N n].
Proof. apply findall_digits_run; [apply str_of_N_nonempty | apply str_of_N_digits]. Qed.

Lemma digits_not_in c s : is_digit c = false -> forallb is_digit s = true -> ~ In c s.
Proof. intros Hc H Hin. rewrite forallb_forall in H. rewrite (H c Hin) in Hc. discriminate. Qed.

Lemma rsplit1_cat_some c s t a b : ~ In c t -> rsplit1 c s = Some (a, b) -> rsplit1 c (s ++ t) = Some (a, b ++ t).
Proof.
  intros Ht H. pose proof (rsplit1_spec c s) as G. rewrite H in G. destruct G as [-> Hb].
  rewrite <- app_assoc. cbn [app]. apply rsplit1_app. intro Hi. apply in_app_or in Hi. tauto.
Qed.

Lemma infer_mann_name base nx ny nz c : c <> slash -> c <> dot ->
  infer_dims (mann_name base nx ny nz c) = Ok (nx, ny, nz).
Proof.
  intros Hc1 Hc2.
  set (D := S_ "_" ++ str_of_N nx ++ S_ "x" ++ str_of_N ny ++ S_ "x" ++ str_of_N nz).
  assert (HDs : ~ In slash D).
  { unfold D. rewrite !in_app_iff. cbn [S_ list_ascii_of_string In].
    assert (forall n, ~ In slash (str_of_N n)) by (intro n; apply digits_not_in; [reflexivity | apply str_of_N_digits]).
    intros [[H0|[]]|[H0|[[H0|[]]|[H0|[[H0|[]]|H0]]]]]; try discriminate H0; eapply H; exact H0. }
  assert (HDd : ~ In dot D).
  { unfold D. rewrite !in_app_iff. cbn [S_ list_ascii_of_string In].
    assert (forall n, ~ In dot (str_of_N n)) by (intro n; apply digits_not_in; [reflexivity | apply str_of_N_digits]).
    intros [[H0|[]]|[H0|[[H0|[]]|[H0|[[H0|[]]|H0]]]]]; try discriminate H0; eapply H; exact H0. }
  assert (En : mann_name base nx ny nz c = base ++ D ++ [dot; c]).
  { unfold mann_name, D. rewrite <- !app_assoc. reflexivity. }
  assert (Eb : exists r, basename (mann_name base nx ny nz c) = r ++ D ++ [dot; c]).
  { rewrite En. unfold basename.
    assert (Ht : ~ In slash (D ++ [dot; c])).
    { intro H. apply in_app_or in H. destruct H as [H|[H|[H|[]]]]; [contradiction | discriminate H | congruence]. }
    destruct (rsplit1 slash base) as [[a b]|] eqn:E.
    - rewrite (rsplit1_cat_some _ _ _ _ _ Ht E). exists b. reflexivity.
    - rewrite rsplit1_none; [exists base; reflexivity|]. intro H. apply in_app_or in H. destruct H as [H|H]; [|contradiction].
      pose proof (rsplit1_spec slash base) as G. rewrite E in G. contradiction. }
  destruct Eb as [r Er]. unfold infer_dims. rewrite Er.
  assert (Es : splitext_root (r ++ D ++ [dot; c]) = r ++ D).
  { unfold splitext_root. replace (r ++ D ++ [dot; c]) with ((r ++ D) ++ dot :: [c]) by (rewrite <- app_assoc; reflexivity).
    rewrite rsplit1_app by (intros [H|[]]; congruence).
    destruct (forallb (fun x => chr_eqb x dot) (r ++ D)) eqn:E; [|reflexivity].
    rewrite forallb_app in E. apply andb_prop in E. destruct E as [_ E]. unfold D in E. cbn in E. discriminate. }
  rewrite Es. unfold D. cbn [S_ list_ascii_of_string app].
  rewrite findall_app_sep by reflexivity. rewrite findall_app_sep by reflexivity.
  rewrite findall_app_sep by reflexivity. rewrite !findall_N.
  rewrite !rev_app_distr. cbn [rev app]. rewrite !N_of_str_of_N. reflexivity.
Qed.

(** ** File-system level *)
Lemma fs_put_same f p b : fs_put f p b p = Reg b.
Proof. unfold fs_put. rewrite str_eqb_refl. reflexivity. Qed.
Lemma fs_put_other f p b q : q <> p -> fs_put f p b q = f q.
Proof. intro H. unfold fs_put. apply str_eqb_neq in H. rewrite H. reflexivity. Qed.

Lemma mann_write_spec f fn x : fn <> [] -> f fn <> Dir ->
  exists f', mann_write f fn x = (f', Ok tt) /\ f' fn = Reg (write_field x) /\ forall q, q <> fn -> f' q = f q.
Proof.
  intros Hn Hd. unfold mann_write, fs_open_w. destruct fn as [|c fn]; [contradiction|].
  set (p := c :: fn) in *.
  assert (G : exists f', (fs_append (fs_put f p []) p (write_field x), @Ok unit tt) = (f', Ok tt) /\
    f' p = Reg (write_field x) /\ forall q, q <> p -> f' q = f q).
  { eexists. split; [reflexivity|]. unfold fs_append. rewrite fs_put_same. cbn [app]. split.
    - apply fs_put_same.
    - intros q Hq. rewrite !fs_put_other by exact Hq. reflexivity. }
  destruct (f p) eqn:E; [exact G | contradiction | exact G].
Qed.

Lemma mann_file_round_trip f fn x nx ny nz : fn <> [] -> f fn <> Dir ->
  0 < nx -> 0 < ny -> 0 < nz -> shaped nx ny nz x ->
  exists f', mann_write f fn x = (f', Ok tt) /\
    mann_read f' fn (Some (nx, ny, nz)) = Ok x /\
    f' fn = Reg (write_field x) /\ forall q, q <> fn -> f' q = f q.
Proof.
  intros Hn Hd Hx Hy Hz Hs. destruct (mann_write_spec f fn x Hn Hd) as [f' [H1 [H2 H3]]].
  exists f'. split; [exact H1|]. split; [|split; assumption].
  unfold mann_read. destruct fn as [|c fn]; [contradiction|]. rewrite H2.
  pose proof (shaped_write_length nx ny nz x Hs) as HL.
  destruct (write_field x) as [|b bs] eqn:E; [cbn in HL; nia|]. cbn [bind]. rewrite <- E.
  rewrite <- (app_nil_r (write_field x)). apply write_read. exact Hs.
Qed.

Lemma mann_read_write_back f fn nx ny nz x : mann_read f fn (Some (nx, ny, nz)) = Ok x ->
  exists b, f fn = Reg b /\ write_field x = firstn (4 * nx * ny * nz) b.
Proof.
  unfold mann_read. destruct fn as [|c fn]; [discriminate|].
  destruct (f (c :: fn)) as [| |[|b bs]]; try discriminate. cbn [bind]. intro H.
  eexists. split; [reflexivity|]. apply (read_write _ _ _ _ _ H).
Qed.

Lemma mann_read_ok_iff f fn b nx ny nz : fn <> [] -> f fn = Reg b -> b <> [] ->
  ((exists x, mann_read f fn (Some (nx, ny, nz)) = Ok x) <-> 4 * nx * ny * nz <= List.length b) /\
  (List.length b < 4 * nx * ny * nz -> mann_read f fn (Some (nx, ny, nz)) = Err ValueError).
Proof.
  intros Hn Hb Hne. unfold mann_read. destruct fn as [|c fn]; [contradiction|]. rewrite Hb.
  destruct b as [|b0 bs]; [contradiction|]. cbn [bind]. set (b := b0 :: bs) in *.
  assert (Hs : List.length b < 4 * nx * ny * nz -> read_buffered nx ny nz b = Err ValueError) by apply read_planes_short.
  split; [|exact Hs]. split.
  - intros [x Hx]. destruct (le_lt_dec (4 * nx * ny * nz) (List.length b)) as [H|H]; [exact H|].
    rewrite (Hs H) in Hx. discriminate.
  - intro H. destruct (read_planes_ok nx ny nz b H) as [x [Hx _]]. exists x. exact Hx.
Qed.

Lemma mann_named_round_trip f base nx ny nz c x : c <> slash -> c <> dot ->
  (0 < nx)%N -> (0 < ny)%N -> (0 < nz)%N ->
  f (mann_name base nx ny nz c) <> Dir ->
  shaped (N.to_nat nx) (N.to_nat ny) (N.to_nat nz) x ->
  exists f', mann_write f (mann_name base nx ny nz c) x = (f', Ok tt) /\
    mann_read f' (mann_name base nx ny nz c) None = Ok x.
Proof.
  intros Hc1 Hc2 Hx Hy Hz Hd Hs. set (fn := mann_name base nx ny nz c) in *.
  assert (Hn : fn <> []).
  { subst fn. unfold mann_name. intro H. apply app_eq_nil in H. destruct H as [_ H]. discriminate. }
  destruct (mann_file_round_trip f fn x (N.to_nat nx) (N.to_nat ny) (N.to_nat nz) Hn Hd ltac:(lia) ltac:(lia) ltac:(lia) Hs)
    as [f' [H1 [H2 [H3 _]]]].
  exists f'. split; [exact H1|]. rewrite <- H2. unfold mann_read.
  destruct fn as [|c0 fn0] eqn:Ef; [contradiction|]. rewrite H3. destruct (write_field x); [reflexivity|].
  replace (infer_dims (c0 :: fn0)) with (Ok (nx, ny, nz)); [reflexivity|]. symmetry. rewrite <- Ef. subst fn.
  apply infer_mann_name; assumption.
Qed.
