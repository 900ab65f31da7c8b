(** Little-endian integers as python's [struct] and numpy store them, with round-trip lemmas.
    Models [struct.pack]/[struct.unpack] with '<h', '<l', '<b' formats and [ndarray.tobytes] on a
    little-endian machine. *)
From Verif Require Import Py FS ListFacts.
From Coq Require Import ZifyBool ZifyNat ZifyN.
Open Scope Z_scope.

(** The [n] low bytes of [z], least significant first (two's complement for negative [z]). *)
Fixpoint le (n : nat) (z : Z) : bytes :=
  match n with
  | O => []
  | S n' => Z.to_N (z mod 256) :: le n' (z / 256)
  end.
(** The unsigned value of a little-endian byte string. *)
Definition unle (b : bytes) : Z := fold_right (fun x acc => Z.of_N x + 256 * acc) 0 b.
(** Two's complement reading of [n] bytes. *)
Definition sint (n : nat) (b : bytes) : Z :=
  let v := unle b in
  let m := 256 ^ Z.of_nat n in
  if v <? m / 2 then v else v - m.
Definition in_sint (n : nat) (z : Z) : bool :=
  (- (256 ^ Z.of_nat n / 2) <=? z) && (z <? 256 ^ Z.of_nat n / 2).

(** [struct.pack] of one signed integer on [n] bytes: struct.error when it does not fit. *)
Definition pack_s (n : nat) (z : Z) : res bytes := if in_sint n z then Ok (le n z) else Err StructError.

(** [f.read(n)] then [struct.unpack] of a format of size [n]: struct.error on a short read.
    Returns the bytes and the rest of the file. *)
Definition take (n : nat) (b : bytes) : res (bytes * bytes) :=
  if Nat.ltb (List.length b) n then Err StructError else Ok (firstn n b, skipn n b).
Definition take_s (n : nat) (b : bytes) : res (Z * bytes) :=
  '(w, r) <- take n b ;; Ok (sint n w, r).

(** Byte strings proper: every element is below 256. *)
Definition is_bytes (b : bytes) : bool := forallb (fun x => (x <? 256)%N) b.

Lemma le_length n z : List.length (le n z) = n.
Proof. revert z. induction n as [|n IH]; intro z; cbn; [reflexivity|]. rewrite IH. reflexivity. Qed.

Lemma le_is_bytes n z : is_bytes (le n z) = true.
Proof.
  revert z. induction n as [|n IH]; intro z; [reflexivity|]. cbn [le is_bytes forallb].
  apply andb_true_iff. split; [|apply IH].
  pose proof (Z.mod_pos_bound z 256 eq_refl). lia.
Qed.

Lemma unle_le n z : unle (le n z) = z mod 256 ^ Z.of_nat n.
Proof.
  revert z. induction n as [|n IH]; intro z.
  - cbn. rewrite Z.mod_1_r. reflexivity.
  - cbn [le]. change (unle (Z.to_N (z mod 256) :: le n (z / 256)))
      with (Z.of_N (Z.to_N (z mod 256)) + 256 * unle (le n (z / 256))).
    rewrite IH. rewrite Nat2Z.inj_succ, Z.pow_succ_r by lia.
    pose proof (Z.mod_pos_bound z 256 eq_refl). rewrite Z2N.id by lia.
    rewrite Z.rem_mul_r by (try lia; apply Z.pow_pos_nonneg; lia). lia.
Qed.

Lemma unle_bound b : is_bytes b = true -> 0 <= unle b < 256 ^ Z.of_nat (List.length b).
Proof.
  induction b as [|x b IH]; intro H; [cbn; lia|]. cbn [is_bytes forallb] in H.
  apply andb_true_iff in H as [Hx Hb]. specialize (IH Hb).
  change (unle (x :: b)) with (Z.of_N x + 256 * unle b).
  cbn [List.length]. rewrite Nat2Z.inj_succ, Z.pow_succ_r by lia. lia.
Qed.

Lemma le_unle n b : is_bytes b = true -> List.length b = n -> le n (unle b) = b.
Proof.
  revert b. induction n as [|n IH]; intros b Hb Hl; destruct b as [|x b]; try discriminate; [reflexivity|].
  cbn [is_bytes forallb] in Hb. apply andb_true_iff in Hb as [Hx Hb].
  change (unle (x :: b)) with (Z.of_N x + 256 * unle b). cbn [le].
  assert (E1 : (Z.of_N x + 256 * unle b) mod 256 = Z.of_N x).
  { rewrite Z.mul_comm, Z_mod_plus_full. apply Z.mod_small. lia. }
  assert (E2 : (Z.of_N x + 256 * unle b) / 256 = unle b).
  { rewrite Z.mul_comm, Z.div_add by lia. rewrite Z.div_small by lia. lia. }
  rewrite E1, E2, N2Z.id. f_equal. apply IH; [exact Hb|]. cbn in Hl. lia.
Qed.

Lemma pow256_half n : (0 < n)%nat -> 256 ^ Z.of_nat n = 2 * (256 ^ Z.of_nat n / 2) /\ 0 < 256 ^ Z.of_nat n / 2.
Proof.
  intro H. destruct n as [|n]; [lia|]. rewrite Nat2Z.inj_succ, Z.pow_succ_r by lia.
  pose proof (Z.pow_pos_nonneg 256 (Z.of_nat n) eq_refl ltac:(lia)).
  replace (256 * 256 ^ Z.of_nat n) with ((128 * 256 ^ Z.of_nat n) * 2) by lia.
  rewrite Z.div_mul by lia. lia.
Qed.

Lemma sint_le n z : (0 < n)%nat -> in_sint n z = true -> sint n (le n z) = z.
Proof.
  intros Hn H. unfold in_sint in H. apply andb_true_iff in H as [H1 H2].
  apply Z.leb_le in H1. apply Z.ltb_lt in H2.
  destruct (pow256_half n Hn) as [E Hp]. unfold sint. rewrite unle_le. cbv zeta.
  set (m := 256 ^ Z.of_nat n) in *. set (h := m / 2) in *.
  destruct (Z_lt_le_dec z 0) as [Hz|Hz].
  - assert (E1 : z mod m = z + m).
    { symmetry. apply Z.mod_unique with (-1); lia. }
    rewrite E1. destruct (Z.ltb_spec (z + m) h); lia.
  - rewrite Z.mod_small by lia. destruct (Z.ltb_spec z h); lia.
Qed.

Lemma sint_range n b : (0 < n)%nat -> is_bytes b = true -> List.length b = n -> in_sint n (sint n b) = true.
Proof.
  intros Hn Hb Hl. pose proof (unle_bound b Hb) as H. rewrite Hl in H.
  destruct (pow256_half n Hn) as [E Hp]. unfold sint, in_sint. cbv zeta.
  set (m := 256 ^ Z.of_nat n) in *. set (h := m / 2) in *.
  destruct (Z.ltb_spec (unle b) h); lia.
Qed.

Lemma take_app n a b : List.length a = n -> take n (a ++ b) = Ok (a, b).
Proof.
  intro H. unfold take. rewrite app_length.
  destruct (Nat.ltb_spec (List.length a + List.length b) n) as [Hlt|_]; [lia|].
  rewrite firstn_app, skipn_app, H, Nat.sub_diag. cbn [firstn skipn].
  rewrite <- H, firstn_all, skipn_all, app_nil_r. reflexivity.
Qed.
Lemma take_s_app n z b : (0 < n)%nat -> in_sint n z = true -> take_s n (le n z ++ b) = Ok (z, b).
Proof.
  intros Hn H. unfold take_s. rewrite take_app by apply le_length. cbn [bind]. rewrite sint_le by assumption.
  reflexivity.
Qed.
Lemma take_short n b : (List.length b < n)%nat -> take n b = Err StructError.
Proof. intro H. unfold take. destruct (Nat.ltb_spec (List.length b) n); [reflexivity|lia]. Qed.

(** int16 and int32 ranges in plain numbers. *)
Lemma in_int16 z : in_sint 2 z = true <-> -32768 <= z <= 32767.
Proof. unfold in_sint. change (256 ^ Z.of_nat 2 / 2) with 32768. lia. Qed.
Lemma in_int32 z : in_sint 4 z = true <-> -2147483648 <= z <= 2147483647.
Proof. unfold in_sint. change (256 ^ Z.of_nat 4 / 2) with 2147483648. lia. Qed.

(** [np.frombuffer(buf, dtype=np.int16)] (and other item sizes): ValueError unless the size is a multiple. *)
Definition items (n : nat) (b : bytes) : list bytes :=
  map (fun i => firstn n (skipn (n * i) b)) (seq 0 (List.length b / n)).
Definition frombuffer_s (n : nat) (b : bytes) : res (list Z) :=
  if Nat.eqb (List.length b mod n) 0 then Ok (map (sint n) (items n b)) else Err ValueError.

Lemma items_concat n ls : (0 < n)%nat -> Forall (fun c => List.length c = n) ls -> items n (concat ls) = ls.
Proof.
  intros Hn H. unfold items. rewrite (concat_length_uniform n ls H), Nat.div_mul by lia.
  induction H as [|l ls Hl Hls IH]; [reflexivity|]. cbn [List.length seq map concat].
  rewrite Nat.mul_0_r. cbn [skipn]. rewrite firstn_app, Hl, Nat.sub_diag. cbn [firstn].
  rewrite <- Hl at 1. rewrite firstn_all, app_nil_r. f_equal.
  rewrite <- IH at 2. rewrite <- seq_shift, map_map. apply map_ext. intro i.
  rewrite skipn_app, Hl. rewrite (skipn_all2 l) by nia. cbn [app].
  replace (n * S i - n)%nat with (n * i)%nat by nia. reflexivity.
Qed.
Lemma frombuffer_s_le n zs : (0 < n)%nat -> Forall (fun z => in_sint n z = true) zs ->
  frombuffer_s n (concat (map (le n) zs)) = Ok zs.
Proof.
  intros Hn H. unfold frombuffer_s.
  assert (HL : Forall (fun c => List.length c = n) (map (le n) zs)).
  { apply Forall_map. apply Forall_forall. intros z _. apply le_length. }
  rewrite (concat_length_uniform n _ HL), map_length, Nat.mod_mul by lia. cbn.
  f_equal. rewrite items_concat by assumption. rewrite map_map.
  rewrite <- (map_id zs) at 2. apply map_ext_in. intros z Hz. apply sint_le; [exact Hn|].
  rewrite Forall_forall in H. apply H. exact Hz.
Qed.
