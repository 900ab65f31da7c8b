(** Facts about the FLEX reader: every piece of the header in terms of its byte offset. *)
From Verif Require Import Py FS ListFacts Bytes Float MannBox_Model MannBox_Proofs Flex_Model.
From Coq Require Import QArith ZifyBool ZifyNat.
Local Open Scope nat_scope.

Definition piece (nb : nat) (b : bytes) (k : nat) : bytes := firstn nb (skipn k b).

Lemma nth_items nb b j : 0 < nb -> nth_error (items nb b) j = if Nat.leb (nb * (j + 1)) (List.length b) then Some (piece nb b (nb * j)) else None.
Proof.
  intro H. unfold items. destruct (Nat.leb_spec (nb * (j + 1)) (List.length b)) as [L|L].
  - rewrite map_seq_nth_error; [reflexivity|]. apply Nat.div_le_lower_bound in L; lia.
  - apply nth_error_None. rewrite map_length, seq_length. apply Nat.div_lt_upper_bound in L; lia.
Qed.
Lemma piece_skip nb b k m : piece nb (skipn k b) m = piece nb b (k + m).
Proof. unfold piece. rewrite skipn_skipn. f_equal. f_equal. lia. Qed.
Lemma piece_firstn nb b c m : m + nb <= c -> piece nb (firstn c b) m = piece nb b m.
Proof. intro H. unfold piece. rewrite skipn_firstn_comm, firstn_firstn. f_equal. lia. Qed.

Lemma ints_rest nb c b : snd (ints nb (Z.of_nat c) b) = skipn (nb * c) b.
Proof. unfold ints, fromfile. destruct (Z.ltb_spec (Z.of_nat c) 0); [lia|]. rewrite Nat2Z.id. reflexivity. Qed.
Lemma singles_rest c b : snd (singles (Z.of_nat c) b) = skipn (4 * c) b.
Proof. unfold singles, fromfile. destruct (Z.ltb_spec (Z.of_nat c) 0); [lia|]. rewrite Nat2Z.id. reflexivity. Qed.
Lemma nth_fromfile nb c k b j : 0 < nb -> nth_error (fst (fromfile nb (Z.of_nat c) (skipn k b))) j =
  if Nat.ltb j c && Nat.leb (k + nb * (j + 1)) (Nat.max k (List.length b)) then Some (piece nb b (k + nb * j)) else None.
Proof.
  intro H. unfold fromfile. destruct (Z.ltb_spec (Z.of_nat c) 0); [lia|]. rewrite Nat2Z.id. cbn [fst]. rewrite nth_items by exact H. rewrite firstn_length, skipn_length.
  destruct (Nat.ltb_spec j c) as [J|J]; cbn [andb].
  - destruct (Nat.leb_spec (k + nb * (j + 1)) (Nat.max k (List.length b))) as [L|L].
    + destruct (Nat.leb_spec (nb * (j + 1)) (Nat.min (nb * c) (List.length b - k))) as [M|M]; [|nia]. rewrite piece_firstn, piece_skip by nia. reflexivity.
    + destruct (Nat.leb_spec (nb * (j + 1)) (Nat.min (nb * c) (List.length b - k))) as [M|M]; [nia | reflexivity].
  - destruct (Nat.leb_spec (nb * (j + 1)) (Nat.min (nb * c) (List.length b - k))) as [M|M]; [nia | reflexivity].
Qed.
Lemma at_int nb k b : 0 < nb -> at_ (fst (ints nb 1 (skipn k b))) 0 = if Nat.leb (k + nb) (List.length b) then Ok (sint nb (piece nb b k)) else Err IndexError.
Proof.
  intro H. unfold ints. pose proof (nth_fromfile nb 1 k b 0 H) as E. change (Z.of_nat 1) with 1%Z in E. destruct (fromfile nb 1 (skipn k b)) as [l r]. cbn [fst] in *. unfold at_. rewrite nth_error_map, E.
  cbn [Nat.ltb Nat.leb andb]. rewrite Nat.mul_0_r, Nat.add_0_r. cbn [Nat.add]. rewrite Nat.mul_1_r.
  destruct (Nat.leb_spec (k + nb) (Nat.max k (List.length b))), (Nat.leb_spec (k + nb) (List.length b)); try lia; reflexivity.
Qed.
Lemma at_single k b : at_ (fst (singles 1 (skipn k b))) 0 = if Nat.leb (k + 4) (List.length b) then Ok (decode binary32 (unle (piece 4 b k))) else Err IndexError.
Proof.
  unfold singles. pose proof (nth_fromfile 4 1 k b 0 ltac:(lia)) as E. change (Z.of_nat 1) with 1%Z in E. destruct (fromfile 4 1 (skipn k b)) as [l r]. cbn [fst] in *. unfold at_. rewrite nth_error_map, E.
  cbn [Nat.ltb Nat.leb andb]. replace (k + 4 * 0) with k by lia. replace (k + 4 * (0 + 1)) with (k + 4) by lia.
  destruct (Nat.leb_spec (k + 4) (Nat.max k (List.length b))), (Nat.leb_spec (k + 4) (List.length b)); try lia; reflexivity.
Qed.
Lemma map_at_ok {A} (l : list A) js xs : map_at l js = Ok xs -> Forall2 (fun j x => nth_error l j = Some x) js xs.
Proof.
  revert xs. induction js as [|j js IH]; intros xs H; cbn in H; [injection H as <-; constructor|]. unfold at_ in H. destruct (nth_error l j) as [x|] eqn:E; [|discriminate]. cbn in H.
  destruct (map_at l js) as [ys|]; [|discriminate]. cbn in H. injection H as <-. constructor; [exact E | apply IH; reflexivity].
Qed.
Lemma map_at_intro {A} (l : list A) (g : nat -> A) js : Forall (fun j => nth_error l j = Some (g j)) js -> map_at l js = Ok (map g js).
Proof. induction 1 as [|j js H _ IH]; [reflexivity|]. cbn. unfold at_. rewrite H. cbn. rewrite IH. reflexivity. Qed.
Lemma map_at_seq {A} (l : list A) n xs : map_at l (seq 0 n) = Ok xs -> List.length xs = n /\ forall j, j < n -> nth_error xs j = nth_error l j.
Proof.
  intro H. apply map_at_ok in H. assert (L : List.length xs = n) by (rewrite <- (seq_length n 0); clear -H; induction H; cbn; congruence). split; [exact L|]. intros j Hj.
  assert (G : forall s, Forall2 (fun j x => nth_error l j = Some x) (seq s n) xs -> nth_error xs j = nth_error l (s + j)); [|apply (G 0 H)].
  clear -Hj. revert j xs Hj. induction n as [|n IH]; intros j xs Hj s F; [lia|]. cbn in F. inversion F as [|? x ? xs' F1 F2]; subst. destruct j as [|j]; cbn; [rewrite Nat.add_0_r; congruence|].
  rewrite (IH j xs' ltac:(lia) (S s) F2). f_equal. lia.
Qed.

(** The header read at its offsets.  [b68]: after the title, whichever layout is used. *)
Definition date_and_title (b : bytes) (isd : bool) : list Z * bytes :=
  if isd then (fst (ints 4 6 (skipn 4 b)), firstn 40 (skipn 28 b)) else (fst (ints 4 1 (skipn 4 b)), firstn 60 (skipn 8 b)).
Definition params_of (b : bytes) (n : nat) : list (option Q) := map (fun w => decode binary32 (unle w)) (fst (fromfile 4 (Z.of_nat n) (skipn (96 + 4 * n) b))).
Definition raw_of (b : bytes) (k : nat) : list Z := map (sint 2) (items 2 (skipn k b)).
Definition tail_of (b : bytes) (nS version : Z) (date : list Z) (title : bytes) (params : option (option Q * option Q * list (option Q))) (data : list Z) : res flex :=
  if (nS =? 0)%Z then match data with [] => Err ValueError | _ => Err OverflowError end else
  if (nS <? 0)%Z then Err Unmodelled else
  let n := Z.to_nat nS in
  let nt := List.length data / n in
  match (if (version =? 3)%Z then rows <- reshape n nt data ;; Ok (transpose nt rows) else reshape nt n data) with
  | Err ValueError => Err WrongFormatError
  | Err e => Err e
  | Ok rows =>
    match params with
    | None => Err UnboundLocalError
    | Some (tmin, dt, sc) =>
      scales <- map_at sc (seq 0 n) ;;
      Ok (mk_flex (map (scale_row scales) rows) n tmin dt version date (strip_bytes title))
    end
  end.
Definition body_of (b : bytes) (isd : bool) : res flex :=
  if Nat.leb 80 (List.length b) then
    let nS := sint 4 (piece 4 b 76) in
    if (nS <? 0)%Z then Err IndexError else
    let n := Z.to_nat nS in
    if Nat.leb (88 + 4 * n) (List.length b) then
      let version := sint 4 (piece 4 b (84 + 4 * n)) in
      let (date, title) := date_and_title b isd in
      if (version =? 12)%Z then Err NotImplementedError else
      if ((version =? 0) || (version =? 2) || (version =? 3))%Z then
        if Nat.leb (96 + 4 * n) (List.length b) then
          tail_of b nS version date title (Some (decode binary32 (unle (piece 4 b (88 + 4 * n))), decode binary32 (unle (piece 4 b (92 + 4 * n))), params_of b n)) (raw_of b (96 + 8 * n))
        else Err IndexError
      else tail_of b nS version date title None (raw_of b (88 + 4 * n))
    else Err IndexError
  else Err IndexError.
Lemma read_flex_res_eq b : read_flex_res b = (isd <- has_date (fst (ints 4 6 (skipn 4 b))) ;; body_of b isd).
Proof.
  unfold read_flex_res. destruct (ints 4 6 (skipn 4 b)) as [d6 b28] eqn:E6. cbn [fst]. destruct (has_date d6) as [isd|] eqn:ED; [|reflexivity]. cbn [bind].
  assert (R28 : b28 = skipn 28 b) by (pose proof (ints_rest 4 6 (skipn 4 b)) as R; change (Z.of_nat 6) with 6%Z in R; rewrite E6, skipn_skipn in R; exact R).
  assert (X : exists date title, (if isd then (d6, firstn 40 b28, skipn 40 b28) else let (d1, b8) := ints 4 1 (skipn 4 b) in (d1, firstn 60 b8, skipn 60 b8)) = (date, title, skipn 68 b) /\ date_and_title b isd = (date, title)).
  { unfold date_and_title. rewrite E6. destruct isd.
    - eexists. eexists. split; [|reflexivity]. rewrite R28, skipn_skipn. reflexivity.
    - destruct (ints 4 1 (skipn 4 b)) as [d1 b8] eqn:E1. assert (R8 : b8 = skipn 8 b) by (pose proof (ints_rest 4 1 (skipn 4 b)) as R; change (Z.of_nat 1) with 1%Z in R; rewrite E1, skipn_skipn in R; exact R).
      eexists. eexists. split; [|reflexivity]. rewrite R8, skipn_skipn. reflexivity. }
  destruct X as [date [title [X1 X2]]]. rewrite X1. unfold body_of. rewrite X2. clear X1 X2 R28 ED E6.
  change 2%Z with (Z.of_nat 2) at 1. rewrite (ints_rest 4 2), skipn_skipn. change (4 * 2 + 68) with 76.
  pose proof (at_int 4 76 b ltac:(lia)) as A1. pose proof (ints_rest 4 1 (skipn 76 b)) as R1. change (Z.of_nat 1) with 1%Z in R1. destruct (ints 4 1 (skipn 76 b)) as [ln b80]. cbn [fst snd] in A1, R1. rewrite A1. rewrite skipn_skipn in R1. change (4 * 1 + 76) with 80 in R1. subst b80. clear A1.
  change (76 + 4) with 80. destruct (Nat.leb_spec 80 (List.length b)) as [L80|L80]; [|reflexivity]. cbn [bind].
  set (nS := sint 4 (piece 4 b 76)). destruct (Z.ltb_spec nS 0) as [NS|NS].
  - (* a negative count swallows the file *)
    assert (Z0 : exists r, snd (ints 4 nS (skipn 80 b)) = r /\ List.length r < 4).
    { eexists. split; [reflexivity|]. unfold ints, fromfile. destruct (Z.ltb_spec nS 0); [|lia]. cbn [snd]. rewrite skipn_length. pose proof (Nat.mod_upper_bound (List.length (skipn 80 b)) 4 ltac:(lia)). pose proof (Nat.div_mod (List.length (skipn 80 b)) 4 ltac:(lia)). lia. }
    destruct Z0 as [r [-> Lr]]. pose proof (ints_rest 4 1 r) as R2. change (Z.of_nat 1) with 1%Z in R2. rewrite R2.
    pose proof (at_int 4 (4 * 1) r ltac:(lia)) as A2. destruct (ints 4 1 (skipn (4 * 1) r)) as [lv bV]. cbn [fst] in A2. rewrite A2. destruct (Nat.leb_spec (4 * 1 + 4) (List.length r)); [lia | reflexivity].
  - set (n := Z.to_nat nS). assert (EN : nS = Z.of_nat n) by (unfold n; lia). rewrite EN. rewrite (ints_rest 4 n), skipn_skipn. pose proof (ints_rest 4 1 (skipn (4 * n + 80) b)) as R2. change (Z.of_nat 1) with 1%Z in R2. rewrite R2, skipn_skipn.
    replace (4 * 1 + (4 * n + 80)) with (84 + 4 * n) by lia.
    pose proof (at_int 4 (84 + 4 * n) b ltac:(lia)) as A3. pose proof (ints_rest 4 1 (skipn (84 + 4 * n) b)) as R3. change (Z.of_nat 1) with 1%Z in R3. destruct (ints 4 1 (skipn (84 + 4 * n) b)) as [lv bV]. cbn [fst snd] in A3, R3. rewrite A3. rewrite skipn_skipn in R3. subst bV.
    replace (4 * 1 + (84 + 4 * n)) with (88 + 4 * n) by lia. replace (84 + 4 * n + 4) with (88 + 4 * n) by lia. destruct (Nat.leb_spec (88 + 4 * n) (List.length b)) as [L88|L88]; [|reflexivity]. cbn [bind].
    set (version := sint 4 (piece 4 b (84 + 4 * n))). destruct (version =? 12)%Z; [reflexivity|]. destruct ((version =? 0) || (version =? 2) || (version =? 3))%Z.
    + pose proof (at_single (88 + 4 * n) b) as S1. pose proof (singles_rest 1 (skipn (88 + 4 * n) b)) as T1. change (Z.of_nat 1) with 1%Z in T1. destruct (singles 1 (skipn (88 + 4 * n) b)) as [l1 b1]. cbn [fst snd] in S1, T1. rewrite S1. rewrite skipn_skipn in T1. subst b1.
      replace (4 * 1 + (88 + 4 * n)) with (92 + 4 * n) by lia.
      pose proof (at_single (92 + 4 * n) b) as S2. pose proof (singles_rest 1 (skipn (92 + 4 * n) b)) as T2. change (Z.of_nat 1) with 1%Z in T2. destruct (singles 1 (skipn (92 + 4 * n) b)) as [l2 b2]. cbn [fst snd] in S2, T2. rewrite skipn_skipn in T2. subst b2.
      replace (4 * 1 + (92 + 4 * n)) with (96 + 4 * n) by lia. replace (88 + 4 * n + 4) with (92 + 4 * n) by lia. replace (92 + 4 * n + 4) with (96 + 4 * n) in S2 by lia.
      destruct (Nat.leb_spec (96 + 4 * n) (List.length b)) as [L96|L96].
      * destruct (Nat.leb_spec (92 + 4 * n) (List.length b)); [|lia]. cbn [bind]. rewrite S2. cbn [bind].
        pose proof (singles_rest n (skipn (96 + 4 * n) b)) as T3. unfold params_of. unfold singles at 1. unfold singles in T3. destruct (fromfile 4 (Z.of_nat n) (skipn (96 + 4 * n) b)) as [sc b3]. cbn [fst snd] in T3 |- *. cbn [bind]. rewrite skipn_skipn in T3. subst b3.
        replace (4 * n + (96 + 4 * n)) with (96 + 8 * n) by lia. match goal with |- context [fst (ints 2 (-1) ?x)] => change (fst (ints 2 (-1) x)) with (map (sint 2) (items 2 x)) end. unfold tail_of, raw_of. rewrite ?Nat2Z.id. destruct (Z.ltb_spec (Z.of_nat n) 0); [lia|]. reflexivity.
      * destruct (Nat.leb_spec (92 + 4 * n) (List.length b)); cbn [bind]; [rewrite S2; reflexivity | reflexivity].
    + cbn [bind]. match goal with |- context [fst (ints 2 (-1) ?x)] => change (fst (ints 2 (-1) x)) with (map (sint 2) (items 2 x)) end. unfold tail_of, raw_of. rewrite ?Nat2Z.id. destruct (Z.ltb_spec (Z.of_nat n) 0); [lia|]. reflexivity.
Qed.
