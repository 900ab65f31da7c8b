(** Lemmas about the model of Bladed output files. *)
From Verif Require Import Py PyFacts FS ListFacts Bytes Float File_Model MannBox_Model MannBox_Proofs Flex_Model Flex_Proofs Dict Bladed_Model.
From Coq Require Import QArith ZifyBool ZifyNat.
Local Open Scope nat_scope.

(** The last of the first [k] lines that starts with [kw], tabs being blanks, and the line after it *)
Fixpoint last_line (kw : str) (k : nat) (lines : list str) : option (str * option str) :=
  match k, lines with
  | S k', l :: rest => match last_line kw k' rest with
                       | Some r => Some r
                       | None => let l' := replace_chr tab [sp] l in if startswith l' kw then Some (l', hd_error rest) else None
                       end
  | _, _ => None
  end.

Section P.
Variable float_ : str -> res Q.
Variable shlex : str -> res (list str).
Notation sensor_line := (sensor_line float_ shlex).
Notation sensor_loop := (sensor_loop float_ shlex).

Lemma loop_field {A} (F : info -> option A) (kw : str) (P : str -> option str -> res A) :
  (forall d line next d', sensor_line d line next = Ok d' -> if startswith line kw then exists v, P line next = Ok v /\ F d' = Some v else F d' = F d) ->
  forall k lines d d', sensor_loop k d lines = Ok d' ->
    match last_line kw k lines with None => F d' = F d | Some (l, nx) => exists v, P l nx = Ok v /\ F d' = Some v end.
Proof.
  intros HP k. induction k as [|k IH]; intros [|l rest] d d' H; cbn [sensor_loop last_line] in *; try (injection H as <-; reflexivity).
  cbn [Bladed_Model.sensor_loop] in H. destruct (sensor_line d _ _) as [d1|] eqn:E; [|discriminate]. cbn [bind] in H. specialize (IH _ _ _ H). specialize (HP _ _ _ _ E).
  destruct (last_line kw k rest) as [[l2 nx]|]; [exact IH|]. cbn zeta. destruct (startswith _ kw); [|congruence]. destruct HP as [v [P1 P2]]. exists v. split; [exact P1 | congruence].
Qed.


Fixpoint apart (a b : str) : bool := match a, b with x :: a', y :: b' => if chr_eqb x y then apart a' b' else true | _, _ => false end.
Lemma apart_false l a b : apart a b = true -> startswith l a = true -> startswith l b = false.
Proof.
  revert l b. induction a as [|x a IH]; intros l [|y b] H S; try discriminate. destruct l as [|z l]; [discriminate|]. cbn [startswith apart] in *.
  apply andb_true_iff in S. destruct S as [S1 S2]. apply chr_eqb_eq in S1. subst z. destruct (chr_eqb x y); [cbn; apply IH; assumption | reflexivity].
Qed.
Ltac others E kw := repeat match type of E with context [startswith ?l ?k] => match k with kw => fail 1 | _ => rewrite (apart_false l kw k eq_refl) in E by assumption end end.
Ltac solve_res E := repeat match type of E with
  | bind ?r _ = Ok _ => let F := fresh "F" in destruct r eqn:F; [cbn [bind] in E | discriminate]
  | match ?x with _ => _ end = Ok _ => let F := fresh "F" in destruct x eqn:F; try discriminate
  end.
Ltac one_key kw := let E := fresh "E" in let K := fresh "K" in intro E; unfold Bladed_Model.sensor_line in E;
  match type of E with context [match ?d with mk_info _ _ _ _ _ _ _ _ _ _ _ => _ end] => destruct d end;
  destruct (startswith _ kw) eqn:K;
  [ others E kw; rewrite ?K in E; solve_res E; try (injection E as <-; eexists; split; [first [eassumption | reflexivity] | reflexivity])
  | rewrite ?K in E; solve_res E; injection E as <-; reflexivity ].
Lemma field_step d line next d' : sensor_line d line next = Ok d' ->
  if startswith line (S_ "STEP") then exists v, float_ (strip (skipn 4 line)) = Ok v /\ i_step d' = Some v else i_step d' = i_step d.
Proof. one_key (S_ "STEP"). Qed.
Lemma field_min d line next d' : sensor_line d line next = Ok d' ->
  if startswith line (S_ "MIN ") then exists v, float_ (strip (skipn 3 line)) = Ok v /\ i_min d' = Some v else i_min d' = i_min d.
Proof. one_key (S_ "MIN "). Qed.
Lemma field_cat d line next d' : sensor_line d line next = Ok d' ->
  if startswith line (S_ "GENLAB") then exists v, Ok (filter (fun c => negb (chr_eqb c (ch 39))) (strip (skipn 6 line))) = Ok v /\ i_cat d' = Some v else i_cat d' = i_cat d.
Proof. one_key (S_ "GENLAB"). Qed.
Definition last_char (s : str) : res ascii := match rev s with [] => Err IndexError | c :: _ => Ok c end.
Definition declared (s : str) : res fmt := c <- last_char s ;; Ok (if chr_eqb c (ch 56) then binary64 else binary32).
Lemma field_prec d line next d' : sensor_line d line next = Ok d' ->
  if startswith line (S_ "FORMAT") then exists v, declared (strip (skipn 7 line)) = Ok v /\ i_prec d' = Some v else i_prec d' = i_prec d.
Proof. one_key (S_ "FORMAT"). injection E as <-. unfold declared, last_char. rewrite F. cbn [bind]. eexists. split; reflexivity. Qed.
Lemma field_chan d line next d' : sensor_line d line next = Ok d' ->
  if startswith line (S_ "VARIAB") then exists v, shlex (skipn 6 (joined (S_ "VARUNIT") line next)) = Ok v /\ i_chan d' = Some v else i_chan d' = i_chan d.
Proof. one_key (S_ "VARIAB"). Qed.
Lemma field_unit d line next d' : sensor_line d line next = Ok d' ->
  if startswith line (S_ "VARUNIT") then exists v, (us <- shlex (strip (skipn 7 (joined (S_ "AXISLAB") line next))) ;; Ok (map rep_units us)) = Ok v /\ i_unit d' = Some v else i_unit d' = i_unit d.
Proof. one_key (S_ "VARUNIT"). Qed.
End P.

(** ** Flattening *)
Lemma flat_map_nth {A B} (f : A -> list B) n (l : list A) s c x y : (forall a, In a l -> List.length (f a) = n) -> nth_error l s = Some x -> c < n -> nth_error (f x) c = Some y -> nth_error (flat_map f l) (s * n + c) = Some y.
Proof.
  revert s. induction l as [|a l IH]; intros [|s] L E C H; try discriminate; cbn [flat_map nth_error Nat.mul Nat.add] in *.
  - injection E as ->. rewrite nth_error_app1 by (rewrite (L x) by (left; reflexivity); exact C). exact H.
  - rewrite nth_error_app2 by (rewrite (L a) by (left; reflexivity); lia). rewrite (L a) by (left; reflexivity). replace (n + s * n + c - n) with (s * n + c) by lia. apply IH; auto. intros b B0. apply L. right. exact B0.
Qed.
Lemma flat_map_len {A B} (f : A -> list B) n (l : list A) : (forall a, In a l -> List.length (f a) = n) -> List.length (flat_map f l) = List.length l * n.
Proof. induction l as [|a l IH]; intro H; [reflexivity|]. cbn [flat_map List.length Nat.mul]. rewrite app_length, (H a) by (left; reflexivity). rewrite IH; [reflexivity|]. intros b B0. apply H. right. exact B0. Qed.
Lemma flat_row_length nsec nzip ncols plane : nsec * nzip <= ncols -> List.length (flat_row nsec nzip ncols plane) = ncols.
Proof. intro H. unfold flat_row. rewrite app_length, repeat_length. rewrite (flat_map_len _ nzip) by (intros; rewrite map_length, seq_length; reflexivity). rewrite seq_length. lia. Qed.
Lemma flat_row_nth nsec nzip ncols plane s c : s < nsec -> c < nzip -> nth_error (flat_row nsec nzip ncols plane) (s * nzip + c) = Some (nth c (nth s plane []) None).
Proof.
  intros H1 H2. unfold flat_row. rewrite nth_error_app1.
  - apply flat_map_nth with (x := s); [intros; rewrite map_length, seq_length; reflexivity | | exact H2 |].
    + rewrite nth_error_nth' with (d := 0) by (rewrite seq_length; exact H1). rewrite seq_nth by exact H1. reflexivity.
    + rewrite map_seq_nth_error by exact H2. reflexivity.
  - rewrite (flat_map_len _ nzip) by (intros; rewrite map_length, seq_length; reflexivity). rewrite seq_length. nia.
Qed.
Section L.
Variable float_ : str -> res Q.
Variable around2 : Q -> str.
Lemma labels_spec s cs ls : labels float_ around2 s cs = Ok ls -> List.length ls = List.length cs /\ forall c x, nth_error cs c = Some x -> exists l, section_label float_ around2 s x = Ok l /\ nth_error ls c = Some l.
Proof.
  revert ls. induction cs as [|c0 cs IH]; intros ls H; cbn [labels] in H; [injection H as <-; split; [reflexivity|]; intros [|c] x E; discriminate|].
  destruct (section_label _ _ s c0) as [l|] eqn:E0; [|discriminate]. cbn [bind] in H. destruct (labels _ _ s cs) as [l'|]; [|discriminate]. cbn [bind] in H. injection H as <-. destruct (IH l' eq_refl) as [L N]. split; [cbn; lia|].
  intros [|c] x E; cbn in E |- *; [injection E as ->; exists l; auto | apply N; exact E].
Qed.
Lemma all_labels_spec secs cs ls : all_labels float_ around2 secs cs = Ok ls -> List.length ls = List.length secs * List.length cs /\
  forall s sec c x, nth_error secs s = Some sec -> nth_error cs c = Some x -> exists l, section_label float_ around2 sec x = Ok l /\ nth_error ls (s * List.length cs + c) = Some l.
Proof.
  revert ls. induction secs as [|s0 secs IH]; intros ls H; cbn [all_labels] in H; [injection H as <-; split; [reflexivity|]; intros [|c] sec c0 x E; discriminate|].
  destruct (labels _ _ s0 cs) as [l|] eqn:E0; [|discriminate]. cbn [bind] in H. destruct (all_labels _ _ secs cs) as [l'|]; [|discriminate]. cbn [bind] in H. injection H as <-. destruct (IH l' eq_refl) as [L N]. destruct (labels_spec _ _ _ E0) as [L0 N0].
  split; [rewrite app_length; cbn; lia|]. intros [|s] sec c x E Ec; cbn [nth_error] in E.
  - injection E as <-. destruct (N0 c x Ec) as [l1 [A B]]. exists l1. split; [exact A|]. cbn. rewrite nth_error_app1; [exact B|]. apply nth_error_Some. congruence.
  - destruct (N s sec c x E Ec) as [l1 [A B]]. exists l1. split; [exact A|]. rewrite nth_error_app2 by (cbn; lia). replace (S s * List.length cs + c - List.length l) with (s * List.length cs + c) by (cbn; lia). exact B.
Qed.
End L.
