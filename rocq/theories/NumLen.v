(** How many characters [str(n)] has. *)
From Verif Require Import Py PyFacts.
From Coq Require Import Decimal DecimalFacts DecimalN Lia.
Local Open Scope nat_scope.

Lemma acc_ge d : forall p, (Npos p * 10 ^ N.of_nat (List.length (str_of_uint d)) <= Npos (Pos.of_uint_acc d p))%N.
Proof.
  assert (STEP : forall d p q, (forall p, (Npos p * 10 ^ N.of_nat (List.length (str_of_uint d)) <= Npos (Pos.of_uint_acc d p))%N) ->
    (Npos p * 10 <= Npos q)%N ->
    (Npos p * 10 ^ N.of_nat (S (List.length (str_of_uint d))) <= Npos (Pos.of_uint_acc d q))%N).
  { intros d0 p q IH H. specialize (IH q). rewrite Nat2N.inj_succ, N.pow_succ_r'. nia. }
  induction d; intros p; cbn [str_of_uint Pos.of_uint_acc List.length]; [cbn; lia|..]; apply STEP; try assumption; lia.
Qed.
Lemma unorm_D0 d : unorm d = d -> match d with D0 Nil => True | D0 _ => False | Nil => False | _ => True end.
Proof.
  intros H. assert (K : forall e, match nzhead e with D0 _ => False | _ => True end).
  { induction e; cbn; auto. }
  unfold unorm in H. specialize (K d). destruct d; auto; cbn in *.
  - discriminate.
  - destruct (nzhead d) eqn:E; try discriminate; [|contradiction]. destruct d; try discriminate. exact I.
Qed.
Lemma str_of_N_length_le n k : 0 < k -> (n < 10 ^ N.of_nat k)%N -> List.length (str_of_N n) <= k.
Proof.
  intros Hk H. unfold str_of_N.
  pose proof (Unsigned.of_to n) as OT.
  assert (U : unorm (N.to_uint n) = N.to_uint n).
  { rewrite <- Unsigned.to_of. now rewrite OT. }
  apply unorm_D0 in U.
  destruct (Nat.le_gt_cases (List.length (str_of_uint (N.to_uint n))) k) as [L|L]; [assumption|exfalso].
  rewrite <- OT in H.
  assert (MONO : forall d, k <= d -> (10 ^ N.of_nat k <= 10 ^ N.of_nat d)%N).
  { intros d Hd. apply N.pow_le_mono_r; lia. }
  destruct (N.to_uint n) as [|d|d|d|d|d|d|d|d|d|d]; try contradiction; cbn [str_of_uint List.length N.of_uint Pos.of_uint] in *;
    try (match goal with H : (N.pos (Pos.of_uint_acc _ ?p) < _)%N |- _ => pose proof (acc_ge d p) end;
         specialize (MONO (List.length (str_of_uint d))); assert (k <= List.length (str_of_uint d)) by lia; specialize (MONO ltac:(assumption)); nia).
  destruct d; try contradiction. cbn in L. lia.
Qed.
Lemma str_of_N_length_lt n k : 0 < k -> (n < 10 ^ N.of_nat k)%N -> List.length (str_of_N n) < S k.
Proof. intros A B. pose proof (str_of_N_length_le n k A B). lia. Qed.
