(** Generic list lemmas. *)
From Verif Require Export Py.
From Coq Require Import ZifyBool ZifyNat.

Lemma skipn_skipn {A} x y (l : list A) : skipn x (skipn y l) = skipn (x + y) l.
Proof.
  revert l. induction y as [|y IH]; intro l; [rewrite Nat.add_0_r; reflexivity|].
  rewrite Nat.add_succ_r. destruct l as [|a l]; [rewrite !skipn_nil; reflexivity|]. cbn [skipn]. apply IH.
Qed.
Lemma concat_length_uniform {A} n (ls : list (list A)) : Forall (fun c => List.length c = n) ls ->
  List.length (concat ls) = List.length ls * n.
Proof. intro H. induction H as [|l ls Hl Hls IH]; cbn; [reflexivity|]. rewrite app_length, IH. lia. Qed.
Lemma nth_error_firstn {A} n (l : list A) i : i < n -> nth_error (firstn n l) i = nth_error l i.
Proof.
  revert l i. induction n as [|n IH]; intros l i H; [lia|].
  destruct l as [|x l]; [destruct i; reflexivity|]. destruct i as [|i]; [reflexivity|]. cbn. apply IH. lia.
Qed.
Lemma nth_error_skipn {A} n (l : list A) i : nth_error (skipn n l) i = nth_error l (n + i).
Proof.
  revert l. induction n as [|n IH]; intro l; [reflexivity|].
  destruct l as [|x l]; [destruct i; reflexivity|]. cbn. apply IH.
Qed.
Lemma nth_error_rev {A} (l : list A) i : i < List.length l ->
  nth_error (rev l) i = nth_error l (List.length l - 1 - i).
Proof.
  intro H. destruct l as [|a l0] eqn:El; [cbn in H; lia|]. rewrite <- El in *.
  rewrite (nth_error_nth' _ a) by (rewrite rev_length; exact H).
  rewrite (nth_error_nth' _ a) by lia. f_equal. rewrite rev_nth by exact H. f_equal. lia.
Qed.
Lemma map_seq_nth_error {A} (g : nat -> A) n i : i < n -> nth_error (map g (seq 0 n)) i = Some (g i).
Proof.
  intro H. rewrite nth_error_map. rewrite (nth_error_nth' _ 0) by (rewrite seq_length; exact H).
  rewrite seq_nth by exact H. reflexivity.
Qed.
Lemma list_ext {A} (l1 l2 : list A) : List.length l1 = List.length l2 ->
  (forall i, i < List.length l1 -> nth_error l1 i = nth_error l2 i) -> l1 = l2.
Proof.
  revert l2. induction l1 as [|x l1 IH]; intros [|y l2] Hl H; try discriminate; [reflexivity|].
  pose proof (H 0 ltac:(cbn; lia)) as H0. cbn in H0. injection H0 as ->. f_equal. apply IH.
  - cbn in Hl. lia.
  - intros i Hi. apply (H (S i)). cbn. lia.
Qed.
