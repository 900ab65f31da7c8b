(** C38, C39, C65 and C66: Bladed output files. *)
From Verif Require Import Py PyFacts FS ListFacts Bytes Float File_Model MannBox_Model MannBox_Proofs Flex_Model Flex_Proofs Dict Bladed_Model Bladed_Proofs.
From Coq Require Import QArith Qround ZifyBool ZifyNat.
Local Open Scope nat_scope.

(** ** Specification: where the numbers are in the data file and how columns are called *)
Definition word_size (f : fmt) : nat := if (prec f =? 24)%Z then 4 else 8.
(** The number stored at the [k]-th place of a file of floating point numbers *)
Definition stored (f : fmt) (b : bytes) (k : nat) : option Q := decode f (unle (firstn (word_size f) (skipn (word_size f * k) b))).
(** The name of channel [chan] at section [sec]: the position rounded to two decimals, or the text of the section *)
Definition labelled (float_ : str -> res Q) (around2 : Q -> str) (sec : section) (chan name : str) : Prop :=
  match sec with
  | Num q => name = around2 q ++ S_ "m-" ++ chan
  | Txt t => (exists q, float_ t = Ok q /\ name = around2 q ++ S_ "m-" ++ chan) \/ (float_ t = Err ValueError /\ name = t ++ S_ "-" ++ chan)
  end.
(** A line and its continuation: the next line, unless that one starts the next entry *)
Definition continued (stop : string) (l : str) (next : option str) (whole : str) : Prop :=
  match next with
  | None => whole = l
  | Some n => (startswith (strip n) (S_ stop) = true /\ whole = l) \/ (startswith (strip n) (S_ stop) = false /\ whole = strip l ++ S_ " " ++ strip n)
  end.
Definition rectangular (n2 n3 : nat) (data : list (list (list (option Q)))) : Prop := Forall (fun plane => List.length plane = n2 /\ Forall (fun line => List.length line = n3) plane) data.

Lemma section_label_spec float_ around2 sec chan l : section_label float_ around2 sec chan = Ok l -> labelled float_ around2 sec chan l.
Proof.
  unfold section_label, labelled, section_value. destruct sec as [q|t]; [intro H; injection H as <-; reflexivity|]. destruct (float_ t) as [q|e]; [intro H; injection H as <-; left; exists q; auto|].
  destruct e; try discriminate. intro H. injection H as <-. right. auto.
Qed.
Theorem C38_flattened : forall float_ around2 h data us rows names units, org_data float_ around2 h data = Ok (rows, names, units) ->
  h_unit h = Some us -> List.length us = List.length (h_chan h) -> rectangular (List.length (h_secs h)) (List.length (h_chan h)) data ->
  let ns := List.length (h_secs h) in let nc := List.length (h_chan h) in
  List.length rows = List.length data /\ List.length names = ns * nc /\ List.length units = ns * nc /\
  (forall i plane s line c v, nth_error data i = Some plane -> nth_error plane s = Some line -> nth_error line c = Some v ->
     exists row, nth_error rows i = Some row /\ List.length row = ns * nc /\ nth_error row (s * nc + c) = Some v) /\
  (forall s sec c chan unit, nth_error (h_secs h) s = Some sec -> nth_error (h_chan h) c = Some chan -> nth_error us c = Some unit ->
     nth_error units (s * nc + c) = Some unit /\ exists name, labelled float_ around2 sec chan name /\ nth_error names (s * nc + c) = Some name).
Proof.
  intros float_ around2 h data us rows names units H U L R ns nc. unfold org_data in H. rewrite U in H. fold ns nc in H.
  assert (H' : (names0 <- all_labels float_ around2 (h_secs h) (firstn (Nat.min nc (List.length us)) (h_chan h)) ;;
     (if forallb (in_range ns (Nat.min nc (List.length us))) data then Ok (map (flat_row ns (Nat.min nc (List.length us)) (ns * nc)) data, names0, flat_map (fun _ => firstn (Nat.min nc (List.length us)) us) (h_secs h)) else Err IndexError)) = Ok (rows, names, units)) by (destruct (h_secs h); exact H).
  clear H. rewrite L in H'. fold nc in H'. rewrite Nat.min_id in H'. rewrite firstn_all2 in H' by (unfold nc; lia). rewrite (firstn_all2 us) in H' by (rewrite L; unfold nc; lia).
  destruct (all_labels _ _ _ _) as [ls|] eqn:EL; [|discriminate]. cbn [bind] in H'. destruct (forallb _ data); [|discriminate]. injection H' as <- <- <-. apply all_labels_spec in EL. destruct EL as [LL LN].
  assert (LU : forall a : section, In a (h_secs h) -> List.length us = nc) by (intros; exact L).
  split; [rewrite map_length; reflexivity|]. split; [exact LL|]. split; [apply (flat_map_len (fun _ => us) nc); exact LU|]. split.
  - intros i plane s line c v Ei Es Ec. assert (RP := R). unfold rectangular in RP. rewrite Forall_forall in RP. destruct (RP plane (nth_error_In _ _ Ei)) as [P1 P2]. rewrite Forall_forall in P2. specialize (P2 line (nth_error_In _ _ Es)).
    assert (Hs : s < ns) by (unfold ns; rewrite <- P1; apply nth_error_Some; congruence). assert (Hc : c < nc) by (unfold nc; rewrite <- P2; apply nth_error_Some; congruence).
    eexists. split; [rewrite nth_error_map, Ei; reflexivity|]. split; [apply flat_row_length; lia|]. rewrite flat_row_nth by assumption.
    rewrite (nth_error_nth _ _ _ Es), (nth_error_nth _ _ _ Ec). reflexivity.
  - intros s sec c chan unit Es Ec Eu. assert (Hc : c < nc) by (unfold nc; apply nth_error_Some; congruence). split; [apply (flat_map_nth (fun _ => us) nc (h_secs h) s c sec unit LU Es Hc Eu)|].
    destruct (LN s sec c chan Es Ec) as [l [A B]]. exists l. split; [apply section_label_spec; exact A | exact B].
Qed.

Lemma org_data_ok float_ around2 h td us : h_unit h = Some us -> List.length us = List.length (h_chan h) -> (forall w e, float_ w = Err e -> e = ValueError) -> rectangular (List.length (h_secs h)) (List.length (h_chan h)) td ->
  exists names units, org_data float_ around2 h td = Ok (map (flat_row (List.length (h_secs h)) (List.length (h_chan h)) (List.length (h_secs h) * List.length (h_chan h))) td, names, units).
Proof.
  intros U LU FL R3. unfold org_data. rewrite U, LU, Nat.min_id, firstn_all.
  assert (AL : forall secs cs, exists ls, all_labels float_ around2 secs cs = Ok ls).
  { assert (A1 : forall s cs, exists ls, labels float_ around2 s cs = Ok ls).
    { intros s cs. induction cs as [|c cs [ls IH]]; [exists []; reflexivity|]. cbn [labels]. assert (A0 : exists l, section_label float_ around2 s c = Ok l).
      { unfold section_label, section_value. destruct s as [q|w]; [eexists; reflexivity|]. destruct (float_ w) as [q|e] eqn:Ef; [eexists; reflexivity|]. rewrite (FL w e Ef). eexists. reflexivity. }
      destruct A0 as [l ->]. cbn [bind]. rewrite IH. eexists. reflexivity. }
    intros secs cs. induction secs as [|s secs [ls IH]]; [exists []; reflexivity|]. cbn [all_labels]. destruct (A1 s cs) as [l ->]. cbn [bind]. rewrite IH. eexists. reflexivity. }
  destruct (AL (h_secs h) (h_chan h)) as [ls EL]. assert (FA : forallb (in_range (List.length (h_secs h)) (List.length (h_chan h))) td = true).
  { apply forallb_forall. intros p HP. unfold rectangular in R3. rewrite Forall_forall in R3. destruct (R3 p HP) as [P1 P2]. unfold in_range. rewrite P1, Nat.leb_refl. apply forallb_forall. intros r Hr. rewrite Forall_forall in P2. rewrite (P2 r Hr). apply Nat.leb_refl. }
  destruct (h_secs h) as [|s0 ss] eqn:ES; rewrite EL; cbn [bind]; rewrite FA; eexists; eexists; reflexivity.
Qed.

Lemma stored_nth f b k : f = binary32 \/ f = binary64 -> nth_error (decode_all f b) k = if Nat.leb (word_size f * (k + 1)) (List.length b) then Some (stored f b k) else None.
Proof.
  intro F. unfold decode_all. fold (word_size f). rewrite nth_error_map, nth_items by (destruct F as [-> | ->]; vm_compute; lia). destruct (Nat.leb _ _); reflexivity.
Qed.
Lemma decode_all_length f b : List.length (decode_all f b) = List.length b / word_size f.
Proof. unfold decode_all, items. rewrite !map_length, seq_length. reflexivity. Qed.
Lemma word_size_pos f : 0 < word_size f. Proof. unfold word_size. destruct (_ =? _)%Z; lia. Qed.
Lemma within w k m n : 0 < w -> m = n / w -> k < m -> Nat.leb (w * (k + 1)) n = true.
Proof. intros W E K. apply Nat.leb_le. pose proof (Nat.mul_div_le n w ltac:(lia)). subst m. nia. Qed.
Lemma index3 i s c nt ns nc : i < nt -> s < ns -> c < nc -> (i * ns + s) * nc + c < nt * (ns * nc).
Proof. intros Hi Hs Hc. assert (i * ns + s < nt * ns) by nia. assert (A : (i * ns + s) * nc + nc <= (nt * ns) * nc) by nia. rewrite <- Nat.mul_assoc in A. lia. Qed.
Lemma reshape3_spec {A} n1 n2 n3 (l : list A) t : reshape3 n1 n2 n3 l = Ok t -> List.length l = n1 * (n2 * n3) /\ List.length t = n1 /\
  Forall (fun plane => List.length plane = n2 /\ Forall (fun line => List.length line = n3) plane) t /\
  forall i s c, i < n1 -> s < n2 -> c < n3 -> exists plane line, nth_error t i = Some plane /\ nth_error plane s = Some line /\ nth_error line c = nth_error l ((i * n2 + s) * n3 + c).
Proof.
  unfold reshape3, reshape. intro H. destruct (Nat.eqb_spec (List.length l) (n1 * (n2 * n3))) as [L|L]; [|discriminate]. cbn [bind] in H. injection H as <-. split; [exact L|]. split; [rewrite map_length; apply chunks_length|]. split.
  - apply Forall_forall. intros p HP. apply in_map_iff in HP. destruct HP as [r [<- HR]]. split; [apply chunks_length|]. apply chunks_all_len. pose proof (chunks_all_len n1 (n2 * n3) l ltac:(lia)) as F. rewrite Forall_forall in F. rewrite (F r HR). lia.
  - intros i s c Hi Hs Hc. rewrite nth_error_map, chunks_nth by exact Hi. cbn [option_map]. eexists. eexists. split; [reflexivity|]. split; [apply chunks_nth; exact Hs|].
    rewrite nth_error_firstn by exact Hc. rewrite nth_error_skipn, nth_error_firstn by nia. rewrite nth_error_skipn. f_equal. lia.
Qed.

Section Reading.
Variable float_ : str -> res Q.
Variable shlex : str -> res (list str).
Variable loadtxt : bytes -> res (list (list (option Q))).
Variable around2 : Q -> str.
Notation read_output := (read_output float_ shlex loadtxt around2).
Notation read_sensor_file := (read_sensor_file float_ shlex).


Lemma header_info lines h : read_sensor_file lines = Ok h -> exists d, sensor_loop float_ shlex 31 no_info lines = Ok d /\ i_ndim d = Some (h_ndim h) /\ i_nS d = Some (Z.of_nat (h_nS h)) /\ i_nMajor d = Some (h_nMajor h) /\
  i_nSec d = Some (h_nSec h) /\ i_secs d = Some (h_secs h) /\ i_prec d = h_prec h /\ i_cat d = h_cat h /\ i_chan d = Some (h_chan h) /\ i_unit d = h_unit h /\ i_min d = h_min h /\ i_step d = h_step h /\ h_nS h = List.length (h_chan h).
Proof.
  unfold Bladed_Model.read_sensor_file. destruct (sensor_loop _ _ _ _ _) as [d|]; [|discriminate]. cbn [bind]. destruct (i_chan d) as [cs|] eqn:E1; [|discriminate]. destruct (i_nS d) as [n|] eqn:E2; [|discriminate].
  destruct (i_nMajor d) eqn:E3; [|discriminate]. destruct (i_nSec d) eqn:E4; [|discriminate]. destruct (Z.eqb_spec (Z.of_nat (List.length cs)) n); [|discriminate]. destruct (i_ndim d) eqn:E5; [|discriminate]. destruct (i_secs d) eqn:E6; [|discriminate].
  intro H. injection H as <-. exists d. cbn. subst n. repeat split; assumption.
Qed.
Lemma joined_continued stop l next : continued stop l next (joined (S_ stop) l next).
Proof. unfold continued, joined. destruct next as [n|]; [|reflexivity]. cbn zeta. destruct (startswith (strip n) (S_ stop)); [left | right]; auto. Qed.
(** What the sensor file says: each entry comes from the last line, among the first 31, that starts with its keyword;
    channel names and units may go on on the next line. *)
Theorem C38_header : forall lines h, read_sensor_file lines = Ok h ->
  let entry := fun kw => last_line kw 31 lines in
  (match entry (S_ "VARIAB") with None => False | Some (l, next) => exists whole, continued "VARUNIT" l next whole /\ shlex (skipn 6 whole) = Ok (h_chan h) end) /\ h_nS h = List.length (h_chan h) /\
  (match entry (S_ "VARUNIT") with None => h_unit h = None | Some (l, next) => exists whole us, continued "AXISLAB" l next whole /\ shlex (strip (skipn 7 whole)) = Ok us /\ h_unit h = Some (map rep_units us) end) /\
  (match entry (S_ "FORMAT") with None => h_prec h = None | Some (l, _) => exists w x, strip (skipn 7 l) = w ++ [x] /\ h_prec h = Some (if chr_eqb x (ch 56) then binary64 else binary32) end) /\
  (match entry (S_ "STEP") with None => h_step h = None | Some (l, _) => exists q, float_ (strip (skipn 4 l)) = Ok q /\ h_step h = Some q end) /\
  (match entry (S_ "MIN ") with None => h_min h = None | Some (l, _) => exists q, float_ (strip (skipn 3 l)) = Ok q /\ h_min h = Some q end) /\
  (match entry (S_ "GENLAB") with None => h_cat h = None | Some (l, _) => h_cat h = Some (filter (fun c => negb (chr_eqb c (ch 39))) (strip (skipn 6 l))) end).
Proof.
  intros lines h H. destruct (header_info lines h H) as [d [D [_ [_ [_ [_ [_ [P [C [N [U [M [S E]]]]]]]]]]]]]. cbn zeta.
  split. { pose proof (loop_field float_ shlex i_chan (S_ "VARIAB") _ (field_chan float_ shlex) _ _ _ _ D) as F. destruct (last_line (S_ "VARIAB") 31 lines) as [[l nx]|]; [|cbn in F; congruence]. destruct F as [v [F1 F2]]. eexists. split; [apply joined_continued | congruence]. }
  split; [exact E|].
  split. { pose proof (loop_field float_ shlex i_unit (S_ "VARUNIT") _ (field_unit float_ shlex) _ _ _ _ D) as F. destruct (last_line (S_ "VARUNIT") 31 lines) as [[l nx]|]; [|cbn in F; congruence]. destruct F as [v [F1 F2]]. destruct (shlex _) as [us|] eqn:SH; [|discriminate]. cbn [bind] in F1. eexists. exists us. split; [apply joined_continued|]. split; [eassumption | congruence]. }
  split. { pose proof (loop_field float_ shlex i_prec (S_ "FORMAT") _ (field_prec float_ shlex) _ _ _ _ D) as F. destruct (last_line (S_ "FORMAT") 31 lines) as [[l nx]|]; [|cbn in F; congruence]. destruct F as [v [F1 F2]]. unfold declared, last_char in F1.
    destruct (rev (strip (skipn 7 l))) as [|x r] eqn:R; [discriminate|]. cbn [bind] in F1. exists (rev r), x. split; [|congruence]. rewrite <- (rev_involutive (strip (skipn 7 l))), R. reflexivity. }
  split. { pose proof (loop_field float_ shlex i_step (S_ "STEP") _ (field_step float_ shlex) _ _ _ _ D) as F. destruct (last_line (S_ "STEP") 31 lines) as [[l nx]|]; [|cbn in F; congruence]. destruct F as [v [F1 F2]]. exists v. split; [exact F1 | congruence]. }
  split. { pose proof (loop_field float_ shlex i_min (S_ "MIN ") _ (field_min float_ shlex) _ _ _ _ D) as F. destruct (last_line (S_ "MIN ") 31 lines) as [[l nx]|]; [|cbn in F; congruence]. destruct F as [v [F1 F2]]. exists v. split; [exact F1 | congruence]. }
  pose proof (loop_field float_ shlex i_cat (S_ "GENLAB") _ (field_cat float_ shlex) _ _ _ _ D) as F. destruct (last_line (S_ "GENLAB") 31 lines) as [[l nx]|]; [|cbn in F; congruence]. destruct F as [v [F1 F2]]. congruence.
Qed.
Lemma header_prec lines h f : read_sensor_file lines = Ok h -> h_prec h = Some f -> f = binary32 \/ f = binary64.
Proof.
  intros H E. destruct (C38_header lines h H) as [_ [_ [_ [F _]]]]. destruct (last_line (S_ "FORMAT") 31 lines) as [[l nx]|]; [|congruence]. destruct F as [w [x [_ F]]]. rewrite F in E. injection E as <-. destruct (chr_eqb x _); auto.
Qed.
(** Sizes: the number of channels is the first of the sizes, the number of times the last of the first NDIMENS ones. *)
Theorem C38_dimens : forall d line next d' n, sensor_line float_ shlex d line next = Ok d' -> startswith line (S_ "DIMENS") = true -> i_ndim d = Some (Z.of_nat (S n)) ->
  exists w0 w1 z0 z1, nth_error (split_ws (skipn 6 line)) 0 = Some w0 /\ nth_error (split_ws (skipn 6 line)) n = Some w1 /\ int_ w0 = Ok z0 /\ int_ w1 = Ok z1 /\ i_nS d' = Some z0 /\ i_nMajor d' = Some z1 /\
    i_prec d' = i_prec d /\ i_chan d' = i_chan d /\ i_unit d' = i_unit d.
Proof.
  intros d line next d' n E K ND. unfold sensor_line in E. destruct d as [nd a1 a2 a3 a4 a5 a6 a7 a8 a9 a10]. cbn [i_ndim i_prec i_chan i_unit] in *. subst nd. rewrite (apart_false line (S_ "DIMENS") (S_ "NDIMENS") eq_refl K), K in E. unfold index in E. change (0 <? 0)%Z with false in E. cbv iota in E. change (Z.to_nat 0) with 0 in E.
  unfold at_ in E. destruct (nth_error (split_ws (skipn 6 line)) 0) as [w0|] eqn:W0; [|discriminate]. change (0 <? 0)%Z with false in E. cbn [bind] in E. destruct (int_ w0) as [z0|] eqn:I0; [|discriminate]. cbn [bind] in E.
  destruct (Z.ltb_spec (Z.of_nat (S n) - 1) 0); [lia|]. destruct (Z.ltb_spec (Z.of_nat (S n) - 1) 0); [lia|]. replace (Z.to_nat (Z.of_nat (S n) - 1)) with n in E by lia. destruct (nth_error _ n) as [w1|] eqn:W1; [|discriminate]. cbn [bind] in E.
  destruct (int_ w1) as [z1|] eqn:I1; [|discriminate]. cbn [bind] in E. exists w0, w1, z0, z1. destruct (Z.of_nat (S n) =? 2)%Z; injection E as <-; cbn; auto 10.
Qed.
(** A three-dimensional binary file: the number in column [s * nc + c] of row [i] is the one stored for time [i], section [s] and channel [c]. *)
Theorem C38_binary_file : forall lines b h f us t, read_sensor_file lines = Ok h -> read_output (Ok lines) (Ok b) false = Ok (Some t) ->
  h_ndim h = 3%Z -> isBinary (map ascii_of_N b) = true -> h_prec h = Some f -> h_nSec h = List.length (h_secs h) -> h_unit h = Some us -> List.length us = List.length (h_chan h) ->
  let ns := List.length (h_secs h) in let nc := List.length (h_chan h) in let nt := Z.to_nat (h_nMajor h) in
  List.length b / word_size f = nt * (ns * nc) /\ t_nMajor t = nt /\ List.length (t_rows t) = nt /\ List.length (t_names t) = ns * nc /\
  (forall i s c, i < nt -> s < ns -> c < nc -> exists row, nth_error (t_rows t) i = Some row /\ List.length row = ns * nc /\ nth_error row (s * nc + c) = Some (stored f b ((i * ns + s) * nc + c))) /\
  (forall s sec c chan unit, nth_error (h_secs h) s = Some sec -> nth_error (h_chan h) c = Some chan -> nth_error us c = Some unit ->
     exists name units, labelled float_ around2 sec chan name /\ nth_error (t_names t) (s * nc + c) = Some name /\ t_units t = Some units /\ List.length units = ns * nc /\ nth_error units (s * nc + c) = Some unit).
Proof.
  intros lines b h f us t H RO ND BIN PR NS U LU ns nc nt. destruct (header_info lines h H) as [d [_ [_ [_ [_ [_ [_ [_ [_ [_ [_ [_ [_ HNS]]]]]]]]]]]]]. pose proof (header_prec lines h f H PR) as HF.
  unfold Bladed_Model.read_output in RO. cbn [bind andb] in RO. rewrite H in RO. cbn [bind] in RO. destruct (h_nMajor h <? 0)%Z; [discriminate|]. rewrite BIN, PR, ND in RO. change (3 =? 3)%Z with true in RO. cbv iota in RO.
  rewrite NS, HNS in RO. fold ns nc nt in RO. destruct (reshape3 nt ns nc (decode_all f b)) as [td|] eqn:R3; [|discriminate]. cbn [bind] in RO. apply reshape3_spec in R3. destruct R3 as [R1 [R2 [R3 R4]]].
  unfold flat in RO. destruct (org_data float_ around2 h td) as [[[rows names] units]|] eqn:OD; [|discriminate]. cbn [bind] in RO. injection RO as <-. cbn [t_rows t_nMajor t_names t_units].
  destruct (C38_flattened _ _ _ _ _ _ _ _ OD U LU R3) as [F1 [F2 [F3 [F4 F5]]]]. fold ns nc in F2, F3, F4, F5. rewrite decode_all_length in R1.
  split; [exact R1|]. split; [reflexivity|]. split; [congruence|]. split; [exact F2|]. split.
  - intros i s c Hi Hs Hc. destruct (R4 i s c Hi Hs Hc) as [plane [line [E1 [E2 E3]]]]. rewrite stored_nth in E3 by exact HF. rewrite (within _ _ (nt * (ns * nc))) in E3; [apply (F4 i plane s line c _ E1 E2 E3) | apply word_size_pos | symmetry; exact R1 | apply index3; assumption].
  - intros s sec c chan unit E1 E2 E3. destruct (F5 s sec c chan unit E1 E2 E3) as [G1 [name [G2 G3]]]. exists name, units. auto.
Qed.
(** A two-dimensional binary file *)
Theorem C38_binary_table : forall lines b h f t, read_sensor_file lines = Ok h -> read_output (Ok lines) (Ok b) false = Ok (Some t) ->
  h_ndim h = 2%Z -> isBinary (map ascii_of_N b) = true -> h_prec h = Some f ->
  let nc := List.length (h_chan h) in let nt := Z.to_nat (h_nMajor h) in
  List.length b / word_size f = nt * nc /\ t_nMajor t = nt /\ List.length (t_rows t) = nt /\ t_names t = h_chan h /\ t_units t = h_unit h /\
  (forall i c, i < nt -> c < nc -> exists row, nth_error (t_rows t) i = Some row /\ List.length row = nc /\ nth_error row c = Some (stored f b (i * nc + c))).
Proof.
  intros lines b h f t H RO ND BIN PR nc nt. destruct (header_info lines h H) as [d [_ [_ [_ [_ [_ [_ [_ [_ [_ [_ [_ [_ HNS]]]]]]]]]]]]]. pose proof (header_prec lines h f H PR) as HF.
  unfold Bladed_Model.read_output in RO. cbn [bind andb] in RO. rewrite H in RO. cbn [bind] in RO. destruct (h_nMajor h <? 0)%Z; [discriminate|]. rewrite BIN, PR, ND in RO. change (2 =? 3)%Z with false in RO. change (2 =? 2)%Z with true in RO. cbv iota in RO.
  rewrite HNS in RO. fold nc nt in RO. unfold reshape in RO. destruct (Nat.eqb_spec (List.length (decode_all f b)) (nt * nc)) as [L|L]; [|discriminate]. cbn [bind] in RO. injection RO as <-. cbn [t_rows t_nMajor t_names t_units]. rewrite decode_all_length in L.
  split; [exact L|]. split; [reflexivity|]. split; [apply chunks_length|]. split; [reflexivity|]. split; [reflexivity|]. intros i c Hi Hc. eexists. split; [apply chunks_nth; exact Hi|].
  split; [rewrite firstn_length, skipn_length, decode_all_length, L; clear -Hi; nia|]. rewrite nth_error_firstn, nth_error_skipn by exact Hc. rewrite stored_nth by exact HF. rewrite (within _ _ (nt * nc)); [reflexivity | apply word_size_pos | symmetry; exact L | clear -Hi Hc; nia].
Qed.
(** A binary file is read if, and only if, it has the declared number of values; float() may fail on the text of a section. *)
Theorem C38_reads : forall lines b h f us, read_sensor_file lines = Ok h -> isBinary (map ascii_of_N b) = true -> h_prec h = Some f -> h_unit h = Some us ->
  (h_ndim h = 2 \/ h_ndim h = 3)%Z -> (0 <= h_nMajor h)%Z -> h_nSec h = (if (h_ndim h =? 3)%Z then List.length (h_secs h) else 1) -> (forall w e, float_ w = Err e -> e = ValueError) ->
  List.length us = List.length (h_chan h) ->
  (List.length b / word_size f = Z.to_nat (h_nMajor h) * (h_nSec h * List.length (h_chan h)) -> exists t, read_output (Ok lines) (Ok b) false = Ok (Some t)) /\
  (List.length b / word_size f <> Z.to_nat (h_nMajor h) * (h_nSec h * List.length (h_chan h)) -> read_output (Ok lines) (Ok b) false = Err ValueError).
Proof.
  intros lines b h f us H BIN PR U ND NM NS FL LU. destruct (header_info lines h H) as [d [_ [_ [_ [_ [_ [_ [_ [_ [_ [_ [_ [_ HNS]]]]]]]]]]]]].
  unfold Bladed_Model.read_output. cbn [bind andb]. rewrite H. cbn [bind]. destruct (Z.ltb_spec (h_nMajor h) 0); [lia|]. rewrite BIN, PR, HNS. unfold reshape3, reshape. rewrite decode_all_length.
  destruct ND as [ND | ND]; rewrite ND in *; cbn [Z.eqb Pos.eqb] in *.
  - rewrite NS, Nat.mul_1_l. destruct (Nat.eqb_spec (List.length b / word_size f) (Z.to_nat (h_nMajor h) * List.length (h_chan h))) as [L|L]; split; intro N; try contradiction; [cbn [bind]; eexists; reflexivity | reflexivity].
  - destruct (Nat.eqb_spec (List.length b / word_size f) (Z.to_nat (h_nMajor h) * (h_nSec h * List.length (h_chan h)))) as [L|L]; split; intro N; try contradiction; [cbn [bind] | reflexivity].
    set (td := map _ _). assert (R3 : reshape3 (Z.to_nat (h_nMajor h)) (h_nSec h) (List.length (h_chan h)) (decode_all f b) = Ok td) by (unfold reshape3, reshape; rewrite decode_all_length, L, Nat.eqb_refl; reflexivity). clearbody td.
    apply reshape3_spec in R3. destruct R3 as [_ [_ [R3 _]]]. rewrite NS in R3. unfold flat. destruct (org_data_ok float_ around2 h td us U LU FL R3) as [names [units ->]]. cbn [bind]. eexists. reflexivity.
Qed.

(** The sections and their number go together. *)
Theorem C38_sections : forall lines h, read_sensor_file lines = Ok h -> h_nSec h = List.length (h_secs h) \/ (h_nSec h = 1 /\ h_secs h = []).
Proof.
  intros lines h H. destruct (header_info lines h H) as [d [D [_ [_ [_ [N [S _]]]]]]].
  assert (I : forall k ls d0 d1, sensor_loop float_ shlex k d0 ls = Ok d1 -> (forall n l, i_nSec d0 = Some n -> i_secs d0 = Some l -> n = List.length l \/ (n = 1 /\ l = [])) -> forall n l, i_nSec d1 = Some n -> i_secs d1 = Some l -> n = List.length l \/ (n = 1 /\ l = [])).
  { intro k. induction k as [|k IH]; intros [|x ls] d0 d1 L I0; cbn [Bladed_Model.sensor_loop] in L; try (injection L as <-; exact I0).
    destruct (sensor_line float_ shlex d0 _ _) as [d2|] eqn:E; [|discriminate]. cbn [bind] in L. apply (IH _ _ _ L). intros n l. unfold sensor_line in E. destruct d0.
    repeat match type of E with
    | bind ?r _ = Ok _ => destruct r; [cbn [bind] in E | discriminate]
    | match ?x with _ => _ end = Ok _ => destruct x; try discriminate
    end; injection E as <-; cbn; cbn in I0; try (apply I0); intros E1 E2; injection E1 as <-; injection E2 as <-; rewrite ?map_length; auto. }
  apply (I 31 lines no_info d D); [discriminate | exact N | exact S].
Qed.
End Reading.

(** Units: F, L, M, T, A and P stand for N, m, kg, s, rad and W; TT is s^2. *)
Definition unit_letter (c : ascii) : str :=
  if chr_eqb c "T"%char then S_ "s" else if chr_eqb c "A"%char then S_ "rad" else if chr_eqb c "P"%char then S_ "W" else if chr_eqb c "L"%char then S_ "m" else
  if chr_eqb c "F"%char then S_ "N" else if chr_eqb c "M"%char then S_ "kg" else [c].
Definition translated (s : str) : str := flat_map unit_letter s.
Definition after_TT (s : str) : str := replace_chr (ch 77) (S_ "kg") (replace_chr (ch 70) (S_ "N") (replace_chr (ch 76) (S_ "m") (replace_chr (ch 80) (S_ "W") (replace_chr (ch 65) (S_ "rad") (replace_chr (ch 84) (S_ "s") s))))).
Lemma after_TT_app a b : after_TT (a ++ b) = after_TT a ++ after_TT b.
Proof. unfold after_TT, replace_chr. rewrite !flat_map_app. reflexivity. Qed.
Lemma after_TT_eq s : after_TT s = translated s.
Proof.
  induction s as [|c s IH]; [reflexivity|]. change (c :: s) with ([c] ++ s). rewrite after_TT_app, IH. unfold translated. cbn [flat_map app]. rewrite <- (app_nil_r (unit_letter c)) at 1. f_equal. clear.
  unfold after_TT, unit_letter, replace_chr. cbn [flat_map]. 
  destruct (chr_eqb c (ch 84)) eqn:E1; [apply chr_eqb_eq in E1; subst c; reflexivity|]. rewrite app_nil_r. cbn [flat_map]. destruct (chr_eqb c (ch 65)) eqn:E2; [apply chr_eqb_eq in E2; subst c; reflexivity|]. rewrite app_nil_r. cbn [flat_map].
  destruct (chr_eqb c (ch 80)) eqn:E3; [apply chr_eqb_eq in E3; subst c; reflexivity|]. rewrite app_nil_r. cbn [flat_map]. destruct (chr_eqb c (ch 76)) eqn:E4; [apply chr_eqb_eq in E4; subst c; reflexivity|]. rewrite app_nil_r. cbn [flat_map].
  destruct (chr_eqb c (ch 70)) eqn:E5; [apply chr_eqb_eq in E5; subst c; reflexivity|]. rewrite app_nil_r. cbn [flat_map]. destruct (chr_eqb c (ch 77)) eqn:E6; [apply chr_eqb_eq in E6; subst c; reflexivity|]. rewrite app_nil_r.
  change "T"%char with (ch 84). change "A"%char with (ch 65). change "P"%char with (ch 80). change "L"%char with (ch 76). change "F"%char with (ch 70). change "M"%char with (ch 77). rewrite E1, E2, E3, E4, E5, E6. reflexivity.
Qed.
Lemma replace_TT_cons x t : replace_TT (x :: t) = match t with y :: r => if chr_eqb x (ch 84) && chr_eqb y (ch 84) then S_ "s^2" ++ replace_TT r else x :: replace_TT t | [] => [x] end.
Proof. destruct t; reflexivity. Qed.
Lemma replace_TT_skip a b : ~ In "T"%char a -> replace_TT (a ++ b) = a ++ replace_TT b.
Proof.
  induction a as [|x a IH]; intro N; [reflexivity|]. cbn [app]. rewrite replace_TT_cons, IH by (intro I; apply N; right; exact I). assert (X : chr_eqb x (ch 84) = false) by (apply not_true_iff_false; intro E; apply chr_eqb_eq in E; apply N; left; exact E).
  rewrite X. cbn [andb]. destruct (a ++ b) as [|y r] eqn:E; [|reflexivity]. destruct a, b; try discriminate. reflexivity.
Qed.
Theorem C38_units : forall u v, ~ In "T"%char u ->
  rep_units u = translated u /\ rep_units (u ++ S_ "T") = translated u ++ S_ "s" /\ rep_units (u ++ S_ "TT" ++ v) = translated u ++ S_ "s^2" ++ rep_units v /\
  (forall c, c <> "T"%char -> rep_units (u ++ S_ "T" ++ c :: v) = translated u ++ S_ "s" ++ rep_units (c :: v)).
Proof.
  intros u v N. assert (R : forall s, rep_units s = translated (replace_TT s)) by (intro s; apply after_TT_eq). rewrite !R, !replace_TT_skip by exact N. unfold translated. rewrite !flat_map_app.
  split; [rewrite <- (app_nil_r u) at 1; rewrite replace_TT_skip by exact N; cbn [replace_TT]; rewrite app_nil_r; reflexivity|]. split; [reflexivity|]. split; [reflexivity|].
  intros c C. rewrite !R. rewrite replace_TT_skip by exact N. unfold translated. rewrite flat_map_app. f_equal. change (S_ "T" ++ c :: v) with (ch 84 :: c :: v). rewrite replace_TT_cons.
  assert (X : chr_eqb c (ch 84) = false) by (apply not_true_iff_false; intro E; apply chr_eqb_eq in E; apply C; exact E). rewrite X, andb_false_r. reflexivity.
Qed.
(** ** The table: one column per channel *)
Lemma kept_nodup l : forall seen i, NoDup l -> (forall x, In x l -> ~ In x seen) -> kept seen i l = seq i (List.length l).
Proof.
  induction l as [|x l IH]; intros seen i N D; [reflexivity|]. cbn [kept List.length seq]. inversion N as [|? ? N1 N2]; subst. destruct (existsb (str_eqb x) seen) eqn:E.
  - apply existsb_exists in E. destruct E as [y [Y1 Y2]]. apply str_eqb_eq in Y2. subst y. exfalso. apply (D x); [left; reflexivity | exact Y1].
  - f_equal. apply IH; [exact N2|]. intros y Y [-> | Z]; [contradiction | apply (D y); [right; exact Y | exact Z]].
Qed.
Lemma map_nth_seq {A} (l : list A) d : map (fun k => nth k l d) (seq 0 (List.length l)) = l.
Proof.
  apply list_ext; [rewrite map_length, seq_length; reflexivity|]. intros i L. rewrite map_length, seq_length in L. rewrite map_seq_nth_error by exact L. symmetry. apply nth_error_nth'. exact L.
Qed.
Lemma titles_length ds : List.length (titles ds) = Nat.min (List.length (d_sensors ds)) (List.length (d_units ds)).
Proof. unfold titles. rewrite map_length, combine_length. reflexivity. Qed.
Lemma titles_nth ds j n u : nth_error (d_sensors ds) j = Some n -> nth_error (d_units ds) j = Some u -> nth_error (titles ds) j = Some (n ++ S_ " [" ++ u ++ S_ "]").
Proof.
  intros N U. unfold titles. rewrite nth_error_map. assert (C : nth_error (combine (d_sensors ds) (d_units ds)) j = Some (n, u)); [|rewrite C; reflexivity].
  revert N U. generalize (d_sensors ds) (d_units ds). induction j as [|j IH]; intros [|x l] [|y l'] N U; cbn in *; try discriminate; [congruence | apply IH; assumption].
Qed.
(** When no two columns have the same name and unit, the table has every channel, in order, with its values. *)
Theorem C38_all_columns : forall ds, List.length (d_units ds) = List.length (d_sensors ds) -> (forall row, In row (d_rows ds) -> List.length row = List.length (d_sensors ds)) ->
  (forall j k n u, nth_error (d_sensors ds) j = Some n -> nth_error (d_units ds) j = Some u -> nth_error (d_sensors ds) k = Some n -> nth_error (d_units ds) k = Some u -> j = k) ->
  (forall n, In n (d_sensors ds) -> ~ In (ch 91) n) ->
  exists ts, frame ds = Ok (ts, d_rows ds) /\ List.length ts = List.length (d_sensors ds) /\
    forall j n u, nth_error (d_sensors ds) j = Some n -> nth_error (d_units ds) j = Some u -> nth_error ts j = Some (n ++ S_ " [" ++ u ++ S_ "]").
Proof.
  intros ds LU RW INJ BR. assert (TL : List.length (titles ds) = List.length (d_sensors ds)) by (rewrite titles_length; lia). assert (ND : NoDup (titles ds)).
  { apply NoDup_nth_error. intros j k Hj E. rewrite TL in Hj. destruct (nth_error (d_sensors ds) j) as [n|] eqn:N1; [|apply nth_error_None in N1; lia]. destruct (nth_error (d_units ds) j) as [u|] eqn:U1; [|apply nth_error_None in U1; lia].
    rewrite (titles_nth _ _ _ _ N1 U1) in E. symmetry in E. assert (Hk : k < List.length (d_sensors ds)) by (rewrite <- TL; apply nth_error_Some; congruence).
    destruct (nth_error (d_sensors ds) k) as [n'|] eqn:N2; [|apply nth_error_None in N2; lia]. destruct (nth_error (d_units ds) k) as [u'|] eqn:U2; [|apply nth_error_None in U2; lia].
    rewrite (titles_nth _ _ _ _ N2 U2) in E. injection E as E.
    assert (X : n' = n /\ u' = u).
    { pose proof (BR n (nth_error_In _ _ N1)) as B1. pose proof (BR n' (nth_error_In _ _ N2)) as B2. clear -E B1 B2. revert n B1 E. induction n' as [|x n' IH]; intros [|y n] B1 E; cbn in E.
      - injection E as E. apply app_inj_tail in E. destruct E; auto.
      - injection E as E0 E. subst y. destruct n as [|z n]; cbn in E; [discriminate|]. injection E as E1 E. exfalso. apply B1. right. left. symmetry. exact E1.
      - injection E as E0 E. subst x. destruct n' as [|z n']; cbn in E; [discriminate|]. injection E as E1 E. exfalso. apply B2. right. left. exact E1.
      - injection E as -> E. destruct (IH (fun H => B2 (or_intror H)) n (fun H => B1 (or_intror H)) E) as [-> ->]. auto. }
    destruct X as [-> ->]. apply (INJ j k n u); assumption. }
  unfold frame. rewrite (proj2 (forallb_forall _ _)); [|intros r Hr; rewrite (RW r Hr), TL; apply Nat.eqb_refl]. rewrite (kept_nodup (titles ds) [] 0 ND) by (intros ? ? []). exists (titles ds). split.
  - f_equal. f_equal; [apply map_nth_seq|]. rewrite <- (map_id (d_rows ds)) at 2. apply map_ext_in. intros r Hr. rewrite TL, <- (RW r Hr). apply map_nth_seq.
  - split; [exact TL|]. intros j n u. apply titles_nth.
Qed.
(** Two sections whose positions are equal after rounding to two decimals have the same column names: the values of the second are not in the table. *)
Theorem C38_close_sections_refuted : forall float_ around2 a b x y, around2 a = around2 b ->
  let h := mk_header 3 1 1 2 [Num a; Num b] None None [S_ "Fx"] (Some [S_ "N"]) None None in
  exists rows names units, org_data float_ around2 h [[[x]; [y]]] = Ok (rows, names, units) /\ rows = [[x; y]] /\
    frame (mk_dataset rows names units []) = Ok ([around2 a ++ S_ "m-Fx [N]"], [[x]]).
Proof.
  intros float_ around2 a b x y E. cbn. eexists. eexists. eexists. split; [reflexivity|]. split; [reflexivity|]. unfold frame, titles. cbn [d_sensors d_units d_rows combine map]. rewrite <- E. cbn [fst snd kept existsb].
  rewrite (proj2 (str_eqb_eq _ _) eq_refl). cbn. rewrite <- app_assoc. reflexivity.
Qed.
(** Fewer units than channels: no table is made. *)
Theorem C38_fewer_units : forall float_ around2 h data us rows names units name, org_data float_ around2 h data = Ok (rows, names, units) ->
  h_unit h = Some us -> List.length us < List.length (h_chan h) -> h_secs h <> [] -> data <> [] -> frame (mk_dataset rows names units name) = Err ValueError.
Proof.
  intros float_ around2 h data us rows names units name H U L NE D. unfold org_data in H. rewrite U in H. set (nz := Nat.min (List.length (h_chan h)) (List.length us)) in *. assert (NZ : nz < List.length (h_chan h)) by lia. clearbody nz.
  assert (H' : (names0 <- all_labels float_ around2 (h_secs h) (firstn nz (h_chan h)) ;;
     (if forallb (in_range (List.length (h_secs h)) nz) data then Ok (map (flat_row (List.length (h_secs h)) nz (List.length (h_secs h) * List.length (h_chan h))) data, names0, flat_map (fun _ => firstn nz us) (h_secs h)) else Err IndexError)) = Ok (rows, names, units)) by (destruct (h_secs h); exact H).
  clear H. destruct (all_labels _ _ _ _) as [ls|] eqn:EL; [|discriminate]. cbn [bind] in H'. destruct (forallb _ data); [|discriminate]. injection H' as <- <- <-. apply all_labels_spec in EL. destruct EL as [LL _]. rewrite firstn_length_le in LL by lia.
  unfold frame. cbn [d_rows]. destruct data as [|p data]; [contradiction|]. cbn [map forallb]. rewrite flat_row_length by nia. rewrite titles_length. cbn [d_sensors d_units]. rewrite LL.
  destruct (h_secs h) as [|s0 ss]; [contradiction|]. clear NE. destruct (Nat.eqb_spec (List.length (s0 :: ss) * List.length (h_chan h)) (Nat.min (List.length (s0 :: ss) * nz) (List.length (flat_map (fun _ => firstn nz us) (s0 :: ss))))) as [E|E]; [|reflexivity].
  cbn [List.length] in E. exfalso. assert (S (List.length ss) * nz < S (List.length ss) * List.length (h_chan h)) by nia. lia.
Qed.

(** ** C39: data sets *)
(** The tables read from the files that could be read and are not empty, in order *)
Definition usable (r : res (option table)) : list table := match r with Ok (Some t) => match t_rows t with [] => [] | _ => [t] end | _ => [] end.
Definition of_length (k : nat) (ts : list table) : list table := filter (fun t => Nat.eqb (t_nMajor t) k) ts.
Definition first_time (ts : list table) : option (Q * Q) := match ts with t :: _ => match t_min t, t_step t with Some a, Some b => Some (a, b) | _, _ => None end | [] => None end.
Definition units_of (t : table) : list str := match t_units t with Some us => us | None => [] end.
(** What the data set of the tables [ts], all of the same number of rows [k], is: the columns of all of them side by side,
    after the times of the first. *)
Definition gathered (k : nat) (ts : list table) (ds : dataset) : Prop :=
  (forall t, In t ts -> List.length (t_rows t) = List.length (d_rows ds)) /\
  match first_time ts with
  | Some (t0, dt) => d_sensors ds = S_ "Time" :: flat_map t_names ts /\ d_units ds = S_ "s" :: flat_map units_of ts /\ List.length (d_rows ds) = k /\
      forall i, i < k -> exists rest, nth_error (d_rows ds) i = Some (Some (inject_Z (Z.of_nat i) * dt + t0)%Q :: rest) /\ rest = flat_map (fun t => nth i (t_rows t) []) ts
  | None => d_sensors ds = flat_map t_names ts /\ d_units ds = flat_map units_of ts /\
      forall i, i < List.length (d_rows ds) -> nth_error (d_rows ds) i = Some (flat_map (fun t => nth i (t_rows t) []) ts)
  end /\
  match ts with [t] => t_cat t = Some (d_name ds) | _ => d_name ds = S_ "Misc_" ++ str_of_N (N.of_nat k) end.
Definition grouped (ts : list table) (sets : list (nat * dataset)) : Prop :=
  NoDup (map fst sets) /\
  (forall k ds, In (k, ds) sets -> of_length k ts <> [] /\ gathered k (of_length k ts) ds) /\
  (forall t, In t ts -> exists ds, In (t_nMajor t, ds) sets).

Lemma zget_in {A} (d : list (nat * A)) k v : zget d k = Some v -> In (k, v) d.
Proof. induction d as [|[k0 v0] d IH]; cbn; [discriminate|]. destruct (Nat.eqb_spec k0 k); [intro H; injection H as ->; subst; left; reflexivity | right; auto]. Qed.
Lemma zget_none {A} (d : list (nat * A)) k : zget d k = None -> ~ In k (map fst d).
Proof. induction d as [|[k0 v0] d IH]; cbn; [intros _ []|]. destruct (Nat.eqb_spec k0 k); [discriminate|]. intros H [E | I]; [contradiction | apply (IH H I)]. Qed.
Lemma zset_fst {A} (d : list (nat * A)) k v : map fst (zset d k v) = map fst d \/ (~ In k (map fst d) /\ map fst (zset d k v) = map fst d ++ [k]).
Proof. induction d as [|[k0 v0] d IH]; cbn; [right; auto|]. destruct (Nat.eqb_spec k0 k); [subst; left; reflexivity|]. cbn. destruct IH as [-> | [N ->]]; [left; reflexivity | right; split; [intros [E | I]; contradiction | reflexivity]]. Qed.
Lemma zset_nodup {A} (d : list (nat * A)) k v : NoDup (map fst d) -> NoDup (map fst (zset d k v)).
Proof. intro N. destruct (zset_fst d k v) as [-> | [I ->]]; [exact N|]. apply NoDup_rev in N. rewrite <- (rev_involutive (map fst d ++ [k])). apply NoDup_rev. rewrite rev_app_distr. cbn. constructor; [rewrite <- in_rev; exact I | exact N]. Qed.
Lemma zset_in {A} (d : list (nat * A)) k v k' v' : NoDup (map fst d) -> In (k', v') (zset d k v) <-> (k' = k /\ v' = v) \/ (k' <> k /\ In (k', v') d).
Proof.
  induction d as [|[k0 v0] d IH]; cbn; intro N.
  - split; [intros [E | []]; injection E as <- <-; left; auto | intros [[-> ->] | [_ []]]; left; reflexivity].
  - inversion N as [|? ? N1 N2]; subst. destruct (Nat.eqb_spec k0 k) as [-> | NE]; cbn.
    + split.
      * intros [E | I]; [injection E as <- <-; left; auto|]. right. split; [|right; exact I]. intros ->. apply N1. apply in_map_iff. exists (k, v'). auto.
      * intros [[-> ->] | [H1 [E | I]]]; [left; reflexivity | injection E as -> ->; contradiction | right; exact I].
    + rewrite (IH N2). split; [intros [E | [E | [H1 H2]]]; [injection E as <- <-; right; auto | left; exact E | right; auto] | intros [E | [H1 [E | H2]]]; [right; left; exact E | left; exact E | right; right; auto]].
Qed.
Lemma of_length_app k ts t : of_length k (ts ++ [t]) = of_length k ts ++ (if Nat.eqb (t_nMajor t) k then [t] else []).
Proof. unfold of_length. rewrite filter_app. cbn. destruct (Nat.eqb _ _); reflexivity. Qed.
Lemma stack_spec a b r : column_stack a b = Ok r -> List.length a = List.length b /\ List.length r = List.length a /\ forall i x y, nth_error a i = Some x -> nth_error b i = Some y -> nth_error r i = Some (x ++ y).
Proof.
  unfold column_stack. destruct (Nat.eqb_spec (List.length a) (List.length b)) as [L|L]; [|discriminate]. intro H. injection H as <-. split; [exact L|]. split; [rewrite map_length, combine_length; lia|].
  intros i x y X Y. rewrite nth_error_map. assert (C : nth_error (combine a b) i = Some (x, y)); [|rewrite C; reflexivity]. clear L. revert a b X Y. induction i as [|i IH]; intros [|x0 a] [|y0 b] X Y; cbn in *; try discriminate; [congruence | apply IH; assumption].
Qed.
Lemma nth_error_some {A} (l : list A) i d : i < List.length l -> nth_error l i = Some (nth i l d).
Proof. intro H. apply nth_error_nth'. exact H. Qed.
Lemma first_time_app t0 r t : first_time ((t0 :: r) ++ [t]) = first_time (t0 :: r). Proof. reflexivity. Qed.
Lemma gather_more k ts ds t rows us : ts <> [] -> gathered k ts ds -> column_stack (d_rows ds) (t_rows t) = Ok rows -> t_units t = Some us ->
  gathered k (ts ++ [t]) (mk_dataset rows (d_sensors ds ++ t_names t) (d_units ds ++ us) (S_ "Misc_" ++ str_of_N (N.of_nat k))).
Proof.
  intros NE [G1 [G2 _]] C U. destruct (stack_spec _ _ _ C) as [C1 [C2 C3]]. unfold gathered. cbn [d_rows d_sensors d_units d_name].
  assert (FT : first_time (ts ++ [t]) = first_time ts) by (destruct ts; [contradiction | reflexivity]). rewrite FT. assert (UO : units_of t = us) by (unfold units_of; rewrite U; reflexivity). rewrite !flat_map_app. cbn [flat_map]. rewrite UO, !app_nil_r.
  split; [|split].
  - intros t' I. apply in_app_or in I. destruct I as [I | [<- | []]]; [rewrite (G1 t' I); lia | lia].
  - destruct (first_time ts) as [[q0 dt]|].
    + destruct G2 as [S1 [S2 [S3 S4]]]. rewrite S1, S2. split; [reflexivity|]. split; [reflexivity|]. split; [lia|]. intros i Hi. destruct (S4 i Hi) as [rest [E1 E2]].
      exists (rest ++ nth i (t_rows t) []). split; [rewrite (C3 i _ (nth i (t_rows t) []) E1 (nth_error_some (t_rows t) i [] ltac:(lia))); reflexivity|]. rewrite E2, flat_map_app. cbn. rewrite app_nil_r. reflexivity.
    + destruct G2 as [S1 [S2 S4]]. rewrite S1, S2. split; [reflexivity|]. split; [reflexivity|]. intros i Hi. rewrite C2 in Hi. rewrite (C3 i _ (nth i (t_rows t) []) (S4 i Hi) (nth_error_some (t_rows t) i [] ltac:(lia))). rewrite flat_map_app. cbn. rewrite app_nil_r. reflexivity.
  - destruct ts as [|t1 [|t2 r]]; [contradiction | reflexivity | reflexivity].
Qed.
Lemma times_nth k mn st i : i < k -> nth_error (times k mn st) i = Some [Some (inject_Z (Z.of_nat i) * st + mn)%Q].
Proof. intro H. unfold times. rewrite map_seq_nth_error by exact H. reflexivity. Qed.
Lemma add_grouped ts sets t sets' : grouped ts sets -> add_table sets t = Ok sets' -> grouped (ts ++ [t]) sets'.
Proof.
  intros [N [G A]] H. unfold add_table in H. set (k := t_nMajor t) in *. destruct (zget sets k) as [ds|] eqn:Z.
  - destruct (column_stack _ _) as [rows|] eqn:C; [|discriminate]. cbn [bind] in H. destruct (t_units t) as [us|] eqn:U; [|discriminate]. cbn [need bind] in H. injection H as <-. apply zget_in in Z. split; [apply zset_nodup; exact N|]. split.
    + intros k' ds' I. apply zset_in in I; [|exact N]. rewrite of_length_app. fold k. destruct I as [[-> ->] | [NK I]].
      * rewrite Nat.eqb_refl. destruct (G k ds Z) as [G1 G2]. split; [destruct (of_length k ts); discriminate|]. apply gather_more; assumption.
      * destruct (Nat.eqb_spec k k') as [E|_]; [congruence|]. rewrite app_nil_r. apply G. exact I.
    + intros t' I. apply in_app_or in I. destruct I as [I | [<- | []]].
      * destruct (A t' I) as [ds' I']. destruct (Nat.eq_dec (t_nMajor t') k) as [E|E]; [rewrite E; eexists; apply zset_in; [exact N | left; split; reflexivity] | exists ds'; apply zset_in; [exact N | right; auto]].
      * eexists. apply zset_in; [exact N | left; split; reflexivity].
  - destruct (match t_step t with Some st => _ | None => _ end) as [[[rows names] units]|] eqn:E0; [|discriminate]. cbn [bind] in H. destruct (t_cat t) as [cat|] eqn:C; [|discriminate]. cbn [need bind] in H. injection H as <-. apply zget_none in Z.
    assert (NO : of_length k ts = []). { destruct (of_length k ts) as [|x r] eqn:E; [reflexivity|]. assert (I : In x (of_length k ts)) by (rewrite E; left; reflexivity). apply filter_In in I. destruct I as [I1 I2]. apply Nat.eqb_eq in I2. destruct (A x I1) as [ds I3]. exfalso. apply Z. apply in_map_iff. exists (t_nMajor x, ds). auto. }
    split; [apply zset_nodup; exact N|]. split.
    + intros k' ds' I. apply zset_in in I; [|exact N]. rewrite of_length_app. fold k. destruct I as [[-> ->] | [NK I]].
      * rewrite Nat.eqb_refl, NO. split; [discriminate|]. cbn [app]. unfold gathered. cbn [d_rows d_sensors d_units d_name first_time flat_map]. rewrite !app_nil_r. unfold units_of.
        destruct (t_step t) as [st|].
        -- destruct (t_min t) as [mn|]; [|discriminate]. cbn [need bind] in E0. destruct (column_stack _ _) as [rows0|] eqn:CS; [|discriminate]. cbn [bind] in E0. destruct (t_units t) as [us|]; [|discriminate]. cbn [need bind] in E0. injection E0 as <- <- <-.
           destruct (stack_spec _ _ _ CS) as [C1 [C2 C3]]. assert (TL : List.length (times k mn st) = k) by (unfold times; rewrite map_length, seq_length; reflexivity). split; [intros t' [<- | []]; lia|]. split; [|exact C].
           split; [reflexivity|]. split; [reflexivity|]. split; [lia|]. intros i Hi. exists (nth i (t_rows t) []). split; [|rewrite app_nil_r; reflexivity]. rewrite (C3 i _ (nth i (t_rows t) []) (times_nth k mn st i Hi) (nth_error_some (t_rows t) i [] ltac:(lia))). reflexivity.
        -- assert (FT : match t_min t with Some _ | _ => @None (Q * Q) end = None) by (destruct (t_min t); reflexivity). destruct (t_units t) as [us|]; [|discriminate]. cbn [need bind] in E0. injection E0 as <- <- <-.
           split; [intros t' [<- | []]; reflexivity|]. split; [|exact C]. destruct (t_min t); (split; [reflexivity|]; split; [reflexivity|]; intros i Hi; rewrite app_nil_r; apply nth_error_some; exact Hi).
      * destruct (Nat.eqb_spec k k') as [E|_]; [congruence|]. rewrite app_nil_r. apply G. exact I.
    + intros t' I. apply in_app_or in I. destruct I as [I | [<- | []]].
      * destruct (A t' I) as [ds' I']. destruct (Nat.eq_dec (t_nMajor t') k) as [E|E]; [rewrite E; eexists; apply zset_in; [exact N | left; split; reflexivity] | exists ds'; apply zset_in; [exact N | right; auto]].
      * eexists. apply zset_in; [exact N | left; split; reflexivity].
Qed.

Section Sets.
Variable float_ : str -> res Q.
Variable shlex : str -> res (list str).
Variable loadtxt : bytes -> res (list (list (option Q))).
Variable around2 : Q -> str.
Notation read_output := (read_output float_ shlex loadtxt around2).
Notation group := (group float_ shlex loadtxt around2).
Notation read_all := (read_all float_ shlex loadtxt around2).
Definition outcome (timeOnly : bool) (f : res (list str) * res bytes) : res (option table) := read_output (fst f) (snd f) timeOnly.
Lemma group_grouped single timeOnly files : forall ts sets sets', grouped ts sets -> group single timeOnly sets files = Ok sets' ->
  grouped (ts ++ flat_map (fun f => usable (outcome timeOnly f)) files) sets' /\ (forall f e, In f files -> outcome timeOnly f = Err e -> single = false /\ (e = OSError2 \/ e = ValueError)).
Proof.
  induction files as [|[s b] files IH]; intros ts sets sets' G H; cbn [Bladed_Model.group flat_map] in *.
  - injection H as <-. rewrite app_nil_r. split; [exact G | intros ? ? []].
  - unfold outcome at 1. cbn [fst snd]. assert (O : outcome timeOnly (s, b) = read_output s b timeOnly) by reflexivity. destruct (read_output s b timeOnly) as [[t|]|e] eqn:R.
    + unfold usable at 1. destruct (t_rows t) as [|r rs] eqn:T; cbn [List.length Nat.eqb] in H.
      * destruct (IH ts sets sets' G H) as [I1 I2]. split; [exact I1|]. intros f e [<- | I] E; [congruence | apply (I2 f e I E)].
      * destruct (add_table sets t) as [sets1|] eqn:A; [|discriminate]. cbn [bind] in H. pose proof (add_grouped ts sets t sets1 G A) as G1. destruct (IH _ _ _ G1 H) as [I1 I2]. rewrite <- app_assoc in I1. split; [exact I1|]. intros f e [<- | I] E; [congruence | apply (I2 f e I E)].
    + destruct (IH ts sets sets' G H) as [I1 I2]. split; [exact I1|]. intros f e [<- | I] E; [congruence | apply (I2 f e I E)].
    + destruct e; try discriminate; (destruct single; [discriminate|]; destruct (IH ts sets sets' G H) as [I1 I2]; split; [exact I1|]; intros f e [<- | I] E; [split; [reflexivity|]; rewrite E in O; injection O as ->; auto | apply (I2 f e I E)]).
Qed.
(** The data sets of a run, before they are named: the tables of the same length side by side.  A file that raises is
    skipped, if there are others, only when it or its data file is missing or has a wrong number or value. *)
Theorem C39_data_sets : forall single timeOnly files sets, group single timeOnly [] files = Ok sets ->
  grouped (flat_map (fun f => usable (outcome timeOnly f)) files) sets /\ (forall f e, In f files -> outcome timeOnly f = Err e -> single = false /\ (e = OSError2 \/ e = ValueError)).
Proof.
  intros single timeOnly files sets H. apply (group_grouped single timeOnly files [] [] sets); [|exact H]. split; [constructor|]. split; [intros ? ? [] | intros ? []].
Qed.

(** When all files of a run are read, those without time are left out and the others are read as when alone. *)
Theorem C39_time_files : forall lines b h, read_sensor_file float_ shlex lines = Ok h ->
  (h_step h = None -> read_output (Ok lines) b true = Ok None) /\ (h_step h <> None -> read_output (Ok lines) b true = read_output (Ok lines) b false) /\ read_output (Ok lines) b false <> Ok None.
Proof.
  intros lines b h H. unfold Bladed_Model.read_output. cbn [bind]. rewrite H. cbn [bind andb]. split; [intros ->; reflexivity|]. split; [destruct (h_step h); [reflexivity | contradiction]|].
  destruct b as [b|]; [|discriminate]. cbn [bind]. destruct (_ <? _)%Z; [discriminate|]. destruct (isBinary _).
  - destruct (h_prec h); [|discriminate]. destruct (_ =? 3)%Z; [destruct (reshape3 _ _ _ _); [|discriminate]; cbn [bind]; destruct (flat _ _ _ _ _); discriminate|]. destruct (_ =? 2)%Z; [|discriminate]. destruct (reshape _ _ _); discriminate.
  - destruct (_ =? 2)%Z; [destruct (loadtxt b); discriminate|]. destruct (_ =? 3)%Z; [|discriminate]. cbn zeta. destruct (flat _ _ _ _ _); discriminate.
Qed.
(** A single file is always read, with or without time. *)
Theorem C39_single_file : forall f t timeOnly, outcome false f = Ok (Some t) -> t_rows t <> [] -> read_all timeOnly [f] = read_all false [f] /\
  (forall cat us, t_cat t = Some cat -> t_units t = Some us -> t_step t = None -> read_all timeOnly [f] = Ok [(if startswith cat (S_ "Misc_") then S_ "Misc" else cat, mk_dataset (t_rows t) (t_names t) us cat)]).
Proof.
  intros [s b] t timeOnly O R. unfold outcome in O. cbn [fst snd] in O. assert (E : read_all timeOnly [(s, b)] = read_all false [(s, b)]) by (unfold Bladed_Model.read_all; cbn [List.length Nat.eqb negb]; rewrite andb_false_r; reflexivity).
  split; [exact E|]. intros cat us C U S. rewrite E. unfold Bladed_Model.read_all. cbn [List.length Nat.eqb negb andb]. cbn [Bladed_Model.group]. rewrite O. destruct (t_rows t) as [|r rs] eqn:T; [contradiction|]. cbn [List.length Nat.eqb].
  unfold add_table. cbn [zget]. rewrite S, U, C. cbn [need bind]. rewrite T. unfold publish, is_misc. cbn [zset filter snd d_name]. destruct (startswith cat _); reflexivity.
Qed.
End Sets.

(** Naming *)
Lemma publish_fold (sets : list (nat * dataset)) d : fold_left (fun d e => put d (d_name (snd e)) (snd e)) sets d = update d (map (fun e => (d_name (snd e), snd e)) sets).
Proof. revert d. induction sets as [|e sets IH]; intro d; [reflexivity|]. cbn [fold_left map]. rewrite IH. reflexivity. Qed.
Definition misc_name (n : str) : bool := startswith n (S_ "Misc_").
(** Every data set is available, under its name, if the names are distinct and the number of data sets named Misc_... is
    not exactly one among several. *)
Theorem C39_published_partial : forall sets, NoDup (map (fun e => d_name (snd e)) sets) -> List.length (filter misc_name (map (fun e => d_name (snd e)) sets)) <> 1 ->
  publish sets = map (fun e => (d_name (snd e), snd e)) sets.
Proof.
  intros sets N M. unfold publish. assert (L : List.length (filter is_misc sets) = List.length (filter misc_name (map (fun e => d_name (snd e)) sets))).
  { clear. induction sets as [|e sets IH]; [reflexivity|]. cbn [map filter]. unfold is_misc at 1, misc_name at 1. destruct (startswith _ _); cbn [List.length]; rewrite IH; reflexivity. }
  rewrite publish_fold, update_new; [|cbn; rewrite map_map; exact N]. destruct (filter is_misc sets) as [|e1 [|e2 r]]; [reflexivity | cbn in L; congruence | reflexivity].
Qed.
Theorem C39_only_one : forall k ds, publish [(k, ds)] = [(if startswith (d_name ds) (S_ "Misc_") then S_ "Misc" else d_name ds, ds)].
Proof. intros k ds. unfold publish, is_misc. cbn [filter snd]. destruct (startswith _ _); reflexivity. Qed.
(** With exactly one, the data sets of all other lengths are dropped, whatever they are. *)
Theorem C39_others_dropped_refuted : forall before after k ds, startswith (d_name ds) (S_ "Misc_") = true ->
  forallb (fun e => negb (startswith (d_name (snd e)) (S_ "Misc_"))) (before ++ after) = true -> publish (before ++ (k, ds) :: after) = [(S_ "Misc", ds)].
Proof.
  intros l1 l2 k ds M O. unfold publish. rewrite filter_app. cbn [filter]. unfold is_misc at 2. cbn [snd]. rewrite M. rewrite forallb_app in O. apply andb_true_iff in O. destruct O as [O1 O2].
  assert (E : forall l, forallb (fun e => negb (startswith (d_name (snd e)) (S_ "Misc_"))) l = true -> filter is_misc l = []).
  { clear. induction l as [|e l IH]; [reflexivity|]. cbn [forallb filter]. intro H. apply andb_true_iff in H. destruct H as [H1 H2]. unfold is_misc at 1. apply negb_true_iff in H1. rewrite H1. apply IH. exact H2. }
  rewrite (E l1 O1), (E l2 O2). reflexivity.
Qed.

(** ** Files of a run, for the examples: float() reads whole numbers, shlex.split cuts at blanks *)
Definition x_float (w : str) : res Q := z <- int_ w ;; Ok (inject_Z z).
Definition x_shlex (w : str) : res (list str) := Ok (split_ws w).
Definition x_load (b : bytes) : res (list (list (option Q))) := Err ValueError.
Definition x_around (q : Q) : str := str_of_N (Z.to_N (Qfloor q)).
Definition sheet (category dimens chans units step : string) : list str :=
  [S_ "FILE run.$04" ++ [nl]; S_ "ACCESS D" ++ [nl]; S_ "FORMAT R*4" ++ [nl]; S_ "NDIMENS 2" ++ [nl]; S_ "DIMENS " ++ S_ dimens ++ [nl]; S_ "GENLAB '" ++ S_ category ++ S_ "'" ++ [nl];
   S_ "VARIAB " ++ S_ chans ++ [nl]; S_ "VARUNIT " ++ S_ units ++ [nl]; S_ "AXISLAB Time" ++ [nl]; S_ "MIN 0" ++ [nl]; S_ "STEP " ++ S_ step ++ [nl]].
(** singles 1, 2, 3, 4, 5, 6 *)
Definition ones : list bytes := [[0;0;128;63]; [0;0;0;64]; [0;0;64;64]; [0;0;128;64]; [0;0;160;64]; [0;0;192;64]]%N.
Definition words (ks : list nat) : bytes := flat_map (fun k => nth (k - 1) ones []) ks.
Definition run1 := (@Ok (list str) (sheet "Hub loads" "1 2" "Mx" "FL" "1"), @Ok bytes (words [1; 2])).
Definition run2 := (@Ok (list str) (sheet "Pitch" "1 2" "Angle" "A" "1"), @Ok bytes (words [3; 4])).
Definition run3 := (@Ok (list str) (sheet "Generator" "2 3" "P Q" "P FL" "1"), @Ok bytes (words [1; 2; 3; 4; 5; 6])).
Definition sensors_of (r : res (@dict dataset)) : list (str * list str) := match r with Ok d => map (fun e => (fst e, d_sensors (snd e))) d | Err _ => [] end.
Notation x_read := (read_all x_float x_shlex x_load x_around).
(** Two files of two time steps and one of three: the channels of the latter, which is read when alone, are lost. *)
Theorem C39_refuted : sensors_of (x_read true [run1; run2; run3]) = [(S_ "Misc", [S_ "Time"; S_ "Mx"; S_ "Angle"])] /\ sensors_of (x_read true [run3]) = [(S_ "Generator", [S_ "Time"; S_ "P"; S_ "Q"])].
Proof. split; vm_compute; reflexivity. Qed.
(** Two files of different lengths and of the same category: only the last remains. *)
Definition run4 := (@Ok (list str) (sheet "Hub loads" "1 3" "My" "FL" "1"), @Ok bytes (words [1; 2; 3])).
Theorem C39_same_category_refuted : sensors_of (x_read true [run1; run4]) = [(S_ "Hub loads", [S_ "Time"; S_ "My"])].
Proof. vm_compute. reflexivity. Qed.
(** Two files of the same length with other time steps: the values of the second are shown at the times of the first. *)
Definition run5 := (@Ok (list str) (sheet "Slow" "1 2" "Slow" "A" "10"), @Ok bytes (words [3; 4])).
Theorem C39_times_refuted : exists ds, x_read true [run1; run5] = Ok [(S_ "Misc", ds)] /\ d_sensors ds = [S_ "Time"; S_ "Mx"; S_ "Slow"] /\
  map (map (option_map Qred)) (d_rows ds) = [[Some 0; Some 1; Some 3]; [Some 1; Some 2; Some 4]]%Q /\
  exists alone, x_read true [run5] = Ok [(S_ "Slow", alone)] /\ map (map (option_map Qred)) (d_rows alone) = [[Some 0; Some 3]; [Some 10; Some 4]]%Q.
Proof. eexists. split; [vm_compute; reflexivity|]. split; [vm_compute; reflexivity|]. split; [vm_compute; reflexivity|]. eexists. split; vm_compute; reflexivity. Qed.

(** ** C65: the declared type of the numbers *)
(** R*4 and R*8 are read as declared (C38_header, C38_binary_file); whole numbers, declared I*4, are read as singles. *)
Definition int_file := [S_ "FORMAT I*4" ++ [nl]; S_ "NDIMENS 2" ++ [nl]; S_ "DIMENS 1 2" ++ [nl]; S_ "GENLAB 'Counts'" ++ [nl]; S_ "VARIAB N" ++ [nl]; S_ "VARUNIT -" ++ [nl]; S_ "AXISLAB Time" ++ [nl]].
Theorem C65_integers_refuted : exists ds, x_read false [(Ok int_file, Ok (le 4 1 ++ le 4 2))] = Ok [(S_ "Counts", ds)] /\
  map (map (option_map Qred)) (d_rows ds) = [[Some (1 # 2 ^ 149)]; [Some (1 # 2 ^ 148)]]%Q.
Proof. eexists. split; vm_compute; reflexivity. Qed.
Theorem C65_reals_partial : forall float_ shlex lines h l next, read_sensor_file float_ shlex lines = Ok h -> last_line (S_ "FORMAT") 31 lines = Some (l, next) ->
  (strip (skipn 7 l) = S_ "R*4" -> h_prec h = Some binary32) /\ (strip (skipn 7 l) = S_ "R*8" -> h_prec h = Some binary64).
Proof.
  intros float_ shlex lines h l next H E. destruct (C38_header float_ shlex lines h H) as [_ [_ [_ [F _]]]]. rewrite E in F. destruct F as [w [x [F1 F2]]]. rewrite F1.
  assert (K : forall a b : str, forall c, w ++ [x] = a ++ [c] -> x = c) by (intros a b c K; apply app_inj_tail in K; apply K).
  split; intro Q; rewrite F2; [rewrite (K (S_ "R*") [] (ch 52) Q) | rewrite (K (S_ "R*") [] (ch 56) Q)]; reflexivity.
Qed.

(** ** C66: a data file that cannot be read *)
(** Two-dimensional text files that cannot be read are reported when alone. *)
Theorem C66_text_table_reported : forall float_ shlex loadtxt around2 lines b h e, read_sensor_file float_ shlex lines = Ok h -> h_ndim h = 2%Z -> (0 <= h_nMajor h)%Z ->
  isBinary (map ascii_of_N b) = false -> loadtxt b = Err e -> read_all float_ shlex loadtxt around2 false [(Ok lines, Ok b)] = Err e.
Proof.
  intros float_ shlex loadtxt around2 lines b h e H D M B L. unfold read_all. cbn [List.length Nat.eqb andb negb]. cbn [group]. unfold read_output. cbn [bind]. rewrite H. cbn [bind andb]. destruct (Z.ltb_spec (h_nMajor h) 0); [lia|]. rewrite B, D. cbn [Z.eqb Pos.eqb]. rewrite L. cbn [bind]. destruct e; reflexivity.
Qed.
(** Three-dimensional ones are replaced by a table without values, and no error is raised. *)
Theorem C66_three_dimensional_text_refuted : forall float_ shlex loadtxt around2 lines b h e us, read_sensor_file float_ shlex lines = Ok h -> h_ndim h = 3%Z -> (0 <= h_nMajor h)%Z ->
  h_nSec h = List.length (h_secs h) -> h_unit h = Some us -> List.length us = List.length (h_chan h) -> (forall w e', float_ w = Err e' -> e' = ValueError) ->
  isBinary (map ascii_of_N b) = false -> loadtxt b = Err e ->
  exists t, read_output float_ shlex loadtxt around2 (Ok lines) (Ok b) false = Ok (Some t) /\ t_rows t = repeat (repeat None (List.length (h_secs h) * List.length (h_chan h))) (Z.to_nat (h_nMajor h)).
Proof.
  intros float_ shlex loadtxt around2 lines b h e us H D M NS U LU FL B L. unfold read_output. cbn [bind]. rewrite H. cbn [bind andb]. destruct (Z.ltb_spec (h_nMajor h) 0); [lia|]. rewrite B, D. cbn [Z.eqb Pos.eqb]. rewrite L. cbn [bind].
  destruct (header_info float_ shlex lines h H) as [d [_ [_ [_ [_ [_ [_ [_ [_ [_ [_ [_ [_ HNS]]]]]]]]]]]]]. rewrite NS, HNS. unfold flat.
  assert (R : rectangular (List.length (h_secs h)) (List.length (h_chan h)) (nans (Z.to_nat (h_nMajor h)) (List.length (h_secs h)) (List.length (h_chan h)))).
  { unfold rectangular, nans. apply Forall_forall. intros p P. apply repeat_spec in P. subst p. split; [apply repeat_length|]. apply Forall_forall. intros q P. apply repeat_spec in P. subst q. apply repeat_length. }
  destruct (org_data_ok float_ around2 h _ us U LU FL R) as [names [units ->]]. cbn [bind]. eexists. split; [reflexivity|]. cbn [t_rows]. unfold nans. generalize (Z.to_nat (h_nMajor h)). intro n. induction n as [|n IH]; [reflexivity|]. cbn [repeat map]. f_equal; [|exact IH].
  unfold flat_row. set (w := flat_map _ _). assert (W : w = repeat None (List.length (h_secs h) * List.length (h_chan h))).
  { unfold w. generalize (List.length (h_secs h)) (List.length (h_chan h)). intros a c. transitivity (flat_map (fun _ : nat => repeat (@None Q) c) (seq 0 a)).
    - rewrite !flat_map_concat_map. f_equal. apply map_ext_in. intros x X. apply in_seq in X. transitivity (map (fun _ : nat => @None Q) (seq 0 c)).
      + apply map_ext_in. intros y Y. apply in_seq in Y. assert (X2 : x < a) by lia. rewrite (nth_error_nth (repeat (repeat None c) a) x [] (nth_error_repeat _ X2)). apply nth_repeat.
      + generalize 0. induction c as [|c IHc]; intro z; [reflexivity|]. cbn. f_equal. apply IHc.
    - generalize 0. induction a as [|a IHa]; intro z; [reflexivity|]. cbn [seq flat_map Nat.mul]. rewrite IHa, repeat_app. reflexivity. }
  rewrite W, repeat_length, Nat.sub_diag. apply app_nil_r.
Qed.
(** The hypotheses are met: a three-dimensional text file of two times, one section and one channel that is not a table of numbers *)
Definition sheet3 := [S_ "FORMAT R*4" ++ [nl]; S_ "NDIMENS 3" ++ [nl]; S_ "DIMENS 1 1 2" ++ [nl]; S_ "GENLAB 'Blade'" ++ [nl]; S_ "VARIAB Mx" ++ [nl]; S_ "VARUNIT FL" ++ [nl]; S_ "AXISLAB Distance" ++ [nl]; S_ "AXIVAL 12" ++ [nl]; S_ "MIN 0" ++ [nl]; S_ "STEP 1" ++ [nl]].
Example C66_demo : exists ds, x_read false [(Ok sheet3, Ok (map N_of_ascii (S_ "not a table")))] = Ok [(S_ "Blade", ds)] /\ map (map (option_map Qred)) (d_rows ds) = [[Some 0%Q; None]; [Some 1%Q; None]] /\ d_sensors ds = [S_ "Time"; S_ "12m-Mx"] /\ d_units ds = [S_ "s"; S_ "Nm"].
Proof. eexists. split; [vm_compute; reflexivity|]. split; [vm_compute; reflexivity|]. split; vm_compute; reflexivity. Qed.
(** Three dimensions, binary, two sections and two channels, two times *)
Definition sheet4 := [S_ "FORMAT R*4" ++ [nl]; S_ "NDIMENS 3" ++ [nl]; S_ "DIMENS 1 3 2" ++ [nl]; S_ "GENLAB 'Blade'" ++ [nl]; S_ "VARIAB Mx" ++ [nl]; S_ "VARUNIT FL" ++ [nl]; S_ "AXISLAB Distance" ++ [nl]; S_ "AXITICK 'root' '12' 'tip'" ++ [nl]; S_ "AXISLAB t" ++ [nl]; S_ "MIN 0" ++ [nl]; S_ "STEP 1" ++ [nl]].
Example C38_demo : exists h t, read_sensor_file x_float x_shlex sheet4 = Ok h /\ h_ndim h = 3%Z /\ h_prec h = Some binary32 /\ h_nSec h = List.length (h_secs h) /\ h_unit h = Some [S_ "Nm"] /\ h_secs h = [Txt (S_ "root"); Txt (S_ "12"); Txt (S_ "tip")] /\
  isBinary (map ascii_of_N (words [1; 2; 3; 4; 5; 6])) = true /\
  read_output x_float x_shlex x_load x_around (Ok sheet4) (Ok (words [1; 2; 3; 4; 5; 6])) false = Ok (Some t) /\ t_names t = [S_ "root-Mx"; S_ "12m-Mx"; S_ "tip-Mx"] /\ map (map (option_map Qred)) (t_rows t) = [[Some 1; Some 2; Some 3]; [Some 4; Some 5; Some 6]]%Q.
Proof. eexists. eexists. split; [vm_compute; reflexivity|]. repeat (split; [vm_compute; reflexivity|]). vm_compute; reflexivity. Qed.
(** Two sections at 12.001 and 12.004 *)
Example C38_close_demo : x_around (12001 # 1000) = x_around (12004 # 1000).
Proof. reflexivity. Qed.
Print Assumptions C38_dimens. Print Assumptions C38_units. Print Assumptions C39_time_files. Print Assumptions C39_single_file.
Print Assumptions C38_flattened. Print Assumptions C38_header. Print Assumptions C38_binary_file. Print Assumptions C38_binary_table. Print Assumptions C38_reads. Print Assumptions C38_sections. Print Assumptions C38_all_columns.
Print Assumptions C38_close_sections_refuted. Print Assumptions C38_fewer_units. Print Assumptions C39_data_sets. Print Assumptions C39_published_partial. Print Assumptions C39_only_one. Print Assumptions C39_others_dropped_refuted.
Print Assumptions C39_refuted. Print Assumptions C39_same_category_refuted. Print Assumptions C39_times_refuted. Print Assumptions C65_integers_refuted. Print Assumptions C65_reals_partial. Print Assumptions C66_text_table_reported. Print Assumptions C66_three_dimensional_text_refuted.
