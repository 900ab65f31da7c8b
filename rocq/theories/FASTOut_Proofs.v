From Verif Require Import Py PyFacts ListFacts FS Bytes Float MannBox_Model MannBox_Proofs TurbSim_Model TurbSim_Proofs TurbSim_Quant FASTOut_Model.
From Coq Require Import QArith Qminmax Qabs Lqa.
Local Open Scope nat_scope.

(** ** Tables *)

Lemma chunks_add {A} a b n (l : list A) : chunks (a + b) n l = chunks a n l ++ chunks b n (skipn (a * n) l).
Proof.
  revert l. induction a as [|a IH]; intro l; [reflexivity|]. cbn [Nat.add chunks app]. rewrite IH. f_equal. f_equal.
  rewrite skipn_skipn. f_equal. f_equal. cbn. lia.
Qed.
Lemma chunks_firstn {A} k n (l : list A) m : k * n <= m -> chunks k n (firstn m l) = chunks k n l.
Proof.
  intro H. apply list_ext; [rewrite !chunks_length; reflexivity|]. intros i Hi. rewrite chunks_length in Hi.
  rewrite !chunks_nth by exact Hi. f_equal.
  rewrite skipn_firstn_comm, firstn_firstn. rewrite Nat.min_l by nia. reflexivity.
Qed.
Lemma chunks_app_exact {A} a b n (l1 l2 : list A) : List.length l1 = a * n -> chunks (a + b) n (l1 ++ l2) = chunks a n l1 ++ chunks b n l2.
Proof.
  intro H. rewrite chunks_add. rewrite chunks_tail_prefix by lia. rewrite skipn_app_exact by exact H. reflexivity.
Qed.

Definition rows_of (nb rows nCols : nat) (b : bytes) : list (list bytes) := chunks rows nCols (chunks (rows * nCols) nb b).

Lemma rows_add nb a b nCols l : rows_of nb (a + b) nCols l = rows_of nb a nCols l ++ rows_of nb b nCols (skipn (nb * (a * nCols)) l).
Proof.
  unfold rows_of. rewrite Nat.mul_add_distr_r, (chunks_add (a * nCols)), chunks_app_exact by apply chunks_length.
  rewrite (Nat.mul_comm nb). reflexivity.
Qed.

Lemma table_loop_spec nb nCols rpb rows : 0 < nCols -> 0 < rpb -> forall fuel done b acc,
  done <= rows -> rows - done <= fuel ->
  table_loop fuel nb nCols (nCols * rpb) (rows * nCols) (done * nCols) b acc =
  if Nat.ltb (List.length b) (nb * ((rows - done) * nCols)) then Err TypeError
  else Ok (acc ++ rows_of nb (rows - done) nCols b, skipn (nb * ((rows - done) * nCols)) b).
Proof.
  intros Hc Hr. induction fuel as [|fuel IH]; intros done b acc Hd Hf; cbn [table_loop].
  - assert (done = rows) by lia. subst done. rewrite Nat.ltb_irrefl, Nat.sub_diag. cbn [Nat.mul]. rewrite Nat.mul_0_r.
    cbn. rewrite app_nil_r. reflexivity.
  - destruct (Nat.ltb_spec (done * nCols) (rows * nCols)) as [Hlt|Hge].
    + assert (Hdr : done < rows) by nia.
      assert (Ek : Nat.min (rows * nCols - done * nCols) (nCols * rpb) = Nat.min (rows - done) rpb * nCols).
      { rewrite <- Nat.mul_sub_distr_r, (Nat.mul_comm nCols rpb). rewrite Nat.mul_min_distr_r. reflexivity. }
      rewrite Ek. set (k := Nat.min (rows - done) rpb). assert (Hk : 0 < k <= rows - done) by (unfold k; lia).
      rewrite Nat.mod_mul, Nat.div_mul by lia. cbn [Nat.eqb negb].
      destruct (Nat.ltb_spec (List.length b) (nb * (k * nCols))) as [Hs|Hs].
      * destruct (Nat.ltb_spec (List.length b) (nb * ((rows - done) * nCols))) as [_|Hx]; [reflexivity|].
        exfalso. assert (nb * (k * nCols) <= nb * ((rows - done) * nCols)) by (apply Nat.mul_le_mono_l, Nat.mul_le_mono_r; lia). lia.
      * rewrite <- Nat.mul_add_distr_r. rewrite IH by lia. rewrite skipn_length, skipn_skipn.
        assert (E1 : rows - done = k + (rows - (done + k))) by lia. set (m := rows - (done + k)) in *. rewrite E1.
        rewrite Nat.mul_add_distr_r, Nat.mul_add_distr_l.
        destruct (Nat.ltb_spec (List.length b - nb * (k * nCols)) (nb * (m * nCols))) as [H1|H1];
          destruct (Nat.ltb_spec (List.length b) (nb * (k * nCols) + nb * (m * nCols))) as [H2|H2]; try lia; [reflexivity|].
        rewrite rows_add, <- app_assoc.
        rewrite chunks_firstn by (rewrite (Nat.mul_comm nb); reflexivity).
        rewrite (Nat.add_comm (nb * (k * nCols))). reflexivity.
    + assert (done = rows) by nia. subst done. rewrite Nat.sub_diag. cbn [Nat.mul]. rewrite Nat.mul_0_r.
      cbn. rewrite app_nil_r. reflexivity.
Qed.

Lemma read_table_spec good nb nCols rows b : 0 < nCols -> (N.of_nat nCols <= good)%N ->
  read_table good nb nCols (rows * nCols) b =
  if Nat.ltb (List.length b) (nb * (rows * nCols)) then Err TypeError
  else Ok (rows_of nb rows nCols b, skipn (nb * (rows * nCols)) b).
Proof.
  intros Hc Hg. unfold read_table. destruct (Nat.eqb_spec nCols 0); [lia|]. cbv zeta.
  assert (Hr : 0 < N.to_nat (good / N.of_nat nCols)).
  { assert (1 <= good / N.of_nat nCols)%N by (apply N.div_le_lower_bound; lia). lia. }
  destruct (Nat.eqb_spec (nCols * N.to_nat (good / N.of_nat nCols)) 0); [nia|].
  pose proof (table_loop_spec nb nCols _ rows Hc Hr (S (rows * nCols)) 0 b []) as H. cbn [Nat.mul] in H.
  rewrite Nat.sub_0_r in H. apply H; [lia|nia].
Qed.
Lemma read_table_bad good nb nCols n b : (nCols = 0 \/ (good < N.of_nat nCols)%N) -> read_table good nb nCols n b = Err ZeroDivisionError.
Proof.
  intro H. unfold read_table. destruct (Nat.eqb_spec nCols 0); [reflexivity|].
  destruct H as [H|H]; [contradiction|]. rewrite N.div_small by exact H. cbn [N.to_nat]. rewrite Nat.mul_0_r. reflexivity.
Qed.
Lemma read_table_direct_spec nb nCols rows b : 0 < nCols ->
  read_table_direct nb nCols (rows * nCols) b =
  if Nat.ltb (List.length b) (nb * (rows * nCols)) then Err StructError
  else Ok (rows_of nb rows nCols b, skipn (nb * (rows * nCols)) b).
Proof.
  intro Hc. unfold read_table_direct, take. destruct (Nat.ltb_spec (List.length b) (nb * (rows * nCols))); [reflexivity|].
  cbn [bind]. destruct (Nat.eqb_spec nCols 0); [lia|]. rewrite Nat.div_mul by lia. unfold rows_of.
  rewrite chunks_firstn by lia. reflexivity.
Qed.
(** What the rows are, position by position. *)
Lemma rows_of_spec nb rows nCols b :
  List.length (rows_of nb rows nCols b) = rows /\
  (forall r, In r (rows_of nb rows nCols b) -> List.length r = nCols) /\
  (forall i j, i < rows -> j < nCols -> exists r, nth_error (rows_of nb rows nCols b) i = Some r /\
     nth_error r j = Some (firstn nb (skipn (nb * (i * nCols + j)) b))).
Proof.
  unfold rows_of. split; [apply chunks_length|]. split.
  - intros r Hr. pose proof (chunks_all_len rows nCols (chunks (rows * nCols) nb b)) as H.
    rewrite chunks_length in H. specialize (H (le_n _)). rewrite Forall_forall in H. apply H. exact Hr.
  - intros i j Hi Hj. eexists. split; [apply chunks_nth; exact Hi|].
    rewrite nth_error_firstn by exact Hj. rewrite nth_error_skipn.
    etransitivity; [apply chunks_nth; nia|]. f_equal. f_equal. f_equal. lia.
Qed.

(** Rows of bytes that were laid out row by row. *)
Lemma rows_of_concat nb nCols (L : list (list bytes)) t :
  Forall (fun r => List.length r = nCols /\ Forall (fun w => List.length w = nb) r) L ->
  rows_of nb (List.length L) nCols (concat (map (@concat N) L) ++ t) = L.
Proof.
  intro H. unfold rows_of.
  assert (E : concat (map (@concat N) L) = concat (concat L)).
  { clear. induction L as [|r L IH]; [reflexivity|]. cbn. rewrite concat_app, IH. reflexivity. }
  assert (LL : List.length (concat L) = List.length L * nCols).
  { apply concat_length_uniform. eapply Forall_impl; [|exact H]. intros r [A _]. exact A. }
  rewrite E, <- LL. rewrite concat_chunks.
  - rewrite <- (app_nil_r (concat L)). apply concat_chunks. eapply Forall_impl; [|exact H]. intros r [A _]. exact A.
  - apply Forall_forall. intros w Hw. apply in_concat in Hw as (r & Hr & Hw). rewrite Forall_forall in H.
    destruct (H r Hr) as [_ B]. rewrite Forall_forall in B. apply B. exact Hw.
Qed.

(** ** Names *)

Lemma fread_app nb n b r : List.length b = nb * n -> fread nb (Z.of_nat n) (b ++ r) = Ok (chunks n nb b, r).
Proof.
  intro H. unfold fread. destruct (Z.ltb_spec (Z.of_nat n) 0); [lia|]. rewrite Nat2Z.id, take_app by exact H. reflexivity.
Qed.
Lemma chunks_bytes (l : list N) : chunks (List.length l) 1 l = map (fun x => [x]) l.
Proof. induction l as [|x l IH]; [reflexivity|]. cbn. rewrite IH. reflexivity. Qed.
Lemma text_of_ascii s t : text_of (map (fun x => [x]) (map N_of_ascii s ++ repeat 32%N t)) = s ++ repeat " "%char t.
Proof.
  unfold text_of. rewrite map_map, map_app, map_map. f_equal.
  - rewrite <- (map_id s) at 2. apply map_ext. intro c. cbn. apply ascii_N_embedding.
  - induction t as [|t IH]; [reflexivity|]. cbn. rewrite <- IH. reflexivity.
Qed.
Lemma repeat_space t : forallb is_space (repeat " "%char t) = true.
Proof. induction t as [|t IH]; [reflexivity|]. cbn. exact IH. Qed.

Lemma read_names_pack names bs r : map pack_name names = map Ok bs ->
  read_names (List.length names) 10 (concat bs ++ r) = Ok (map strip names, r).
Proof.
  revert bs. induction names as [|s names IH]; intros bs H; destruct bs as [|b bs]; try discriminate; [reflexivity|].
  cbn [map] in H. apply cons_inj in H as [H1 H2]. cbn [List.length read_names concat map]. rewrite <- app_assoc.
  unfold pack_name in H1. destruct (Nat.leb_spec (List.length s) 10) as [Hs|]; [|discriminate]. apply Ok_inj in H1.
  assert (Hl : List.length b = 1 * 10) by (subst b; rewrite app_length, map_length, repeat_length; lia).
  change 10%Z with (Z.of_nat 10). rewrite fread_app by exact Hl. cbn [bind].
  change (Z.of_nat 10) with 10%Z. rewrite (IH bs H2). cbn [bind]. do 3 f_equal.
  replace 10 with (List.length b) at 1 by lia. rewrite chunks_bytes. subst b. rewrite text_of_ascii.
  rewrite <- (app_nil_l (s ++ _)). apply strip_pad; [reflexivity|apply repeat_space].
Qed.

Lemma inner_paren u : inner (strip (paren u)) = u.
Proof.
  rewrite strip_noedge.
  - unfold paren. cbn. apply removelast_last.
  - unfold no_edge_space, paren. cbn [S_ list_ascii_of_string app]. cbn [is_space]. 
    rewrite app_comm_cons, rev_app_distr. reflexivity.
Qed.

Lemma take_f64_pack q b r : pack_f64 q = Ok b -> exists v, take_f64 (b ++ r) = Ok (Some v, r) /\ (v == rnd binary64 q)%Q.
Proof.
  unfold pack_f64. destruct (encode binary64 q) as [z|] eqn:E; [|discriminate]. intro H. apply Ok_inj in H. subst b.
  destruct (decode_encode binary64 q z good64 E) as (v & Hv & Ev). exists v. split; [|exact Ev].
  unfold take_f64. rewrite take_app by apply le_length. cbn [bind]. rewrite unle_le.
  pose proof (encode_range binary64 q z good64 E) as R. change (2 ^ (prec binary64 + wid binary64))%Z with (256 ^ Z.of_nat 8)%Z in R.
  rewrite Z.mod_small by exact R. rewrite Hv. reflexivity.
Qed.

(** A vector of single precision numbers. *)
Lemma fread_f32 (qs : list Q) bs r : map pack_f32 qs = map Ok bs ->
  exists vs, fread 4 (Z.of_nat (List.length qs)) (concat bs ++ r) = Ok (bs, r) /\
    map (fun w => decode binary32 (unle w)) bs = map Some vs /\ Forall2 (fun v q => (v == rnd binary32 q)%Q) vs qs.
Proof.
  intro H.
  assert (A : Forall (fun b => List.length b = 4) bs /\ exists vs, map (fun w => decode binary32 (unle w)) bs = map Some vs /\
    Forall2 (fun v q => (v == rnd binary32 q)%Q) vs qs).
  { revert bs H. induction qs as [|q qs IH]; intros [|b bs] H; try discriminate.
    - split; [constructor|]. exists []. split; constructor.
    - cbn [map] in H. apply cons_inj in H as [H1 H2]. destruct (IH bs H2) as (L & vs & E & F).
      pose proof (take_f32_pack q b [] H1) as (v & T & Ev). rewrite app_nil_r in T.
      unfold take_f32, take in T. destruct (Nat.ltb_spec (List.length b) 4) as [|Hb]; cbn [bind] in T; [discriminate|].
      apply Ok_inj in T.
      assert (Lb : List.length b = 4).
      { unfold pack_f32 in H1. destruct (encode binary32 q); [|discriminate]. apply Ok_inj in H1. subst b. apply le_length. }
      rewrite <- Lb, firstn_all in T. pose proof (f_equal fst T) as T'. cbn [fst] in T'.
      split; [constructor; assumption|]. exists (v :: vs). split; [cbn [map]; rewrite T', E; reflexivity|].
      constructor; assumption. }
  destruct A as (L & vs & E & F). exists vs. split; [|split; assumption].
  pose proof (f_equal (@List.length _) H) as LL. rewrite !map_length in LL.
  rewrite fread_app by (rewrite (concat_length_uniform 4 _ L); lia). do 2 f_equal.
  rewrite LL, <- (app_nil_r (concat bs)). apply concat_chunks. exact L.
Qed.

(** ** The packed integers *)

Lemma clip16_range q : (-32768 <= clip16 q)%Q /\ (clip16 q <= 32767)%Q.
Proof.
  unfold clip16. split; [|apply Q.le_min_r]. apply Q.min_glb; [apply Q.le_max_r|]. discriminate.
Qed.
Lemma pack16_range s o x : (-32768 <= pack16 s o x <= 32767)%Z.
Proof. unfold pack16, to_int16. apply in_int16. apply wrap16_range. Qed.
Lemma pack16_trunc s o x : pack16 s o x = Qtrunc (clip16 (s * x + o)%Q).
Proof.
  unfold pack16, to_int16. destruct (clip16_range (s * x + o)) as [A B]. apply wrap16_id. split.
  - apply Qtrunc_lower; [lia|]. eapply Qlt_le_trans; [|exact A]. reflexivity.
  - apply Qtrunc_upper; [lia|]. eapply Qle_lt_trans; [exact B|]. reflexivity.
Qed.
