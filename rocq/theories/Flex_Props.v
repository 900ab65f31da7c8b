(** C40 and C64: FLEX result files. *)
From Verif Require Import Py FS ListFacts Bytes Float TurbSim_Quant MannBox_Model MannBox_Proofs Flex_Model Flex_Proofs.
From Coq Require Import QArith Qabs Qround Qpower ZifyBool ZifyNat Lqa.
Local Open Scope nat_scope.

(** ** The file as a FLEX program writes it: numbers at byte offsets *)
Definition int32_at (b : bytes) (k : nat) : Z := sint 4 (firstn 4 (skipn k b)).
Definition int16_at (b : bytes) (k : nat) : Z := sint 2 (firstn 2 (skipn k b)).
Definition single_at (b : bytes) (k : nat) : option Q := decode binary32 (unle (firstn 4 (skipn k b))).
(** A stored integer times a scale factor, as a single precision number; None is an infinity or a NaN. *)
Definition product (scale : option Q) (raw : Z) : option Q :=
  match scale with
  | None => None
  | Some s => match encode binary32 (inject_Z raw * s) with None => None | Some _ => Some (rnd binary32 (inject_Z raw * s)) end
  end.
(** Where the value of sensor [j] at time [i] is stored, among the two-byte words of the data *)
Definition word_of (version : Z) (n nt i j : nat) : nat := if (version =? 3)%Z then j * nt + i else i * n + j.
(** A file with [n] sensors and [nt] time steps; a last odd byte is ignored. *)
Definition well_sized (b : bytes) (n nt : nat) : Prop := 96 + 8 * n + 2 * (n * nt) <= List.length b < 96 + 8 * n + 2 * (n * nt) + 2.

Lemma raw_nth b k w : w < (List.length b - k) / 2 -> nth_error (raw_of b k) w = Some (int16_at b (k + 2 * w)).
Proof.
  intro H. unfold raw_of. rewrite nth_error_map, nth_items by lia. rewrite skipn_length. assert (H2 : 2 * (w + 1) <= List.length b - k) by (pose proof (Nat.mul_div_le (List.length b - k) 2); lia).
  destruct (Nat.leb_spec (2 * (w + 1)) (List.length b - k)); [|lia]. cbn [option_map]. rewrite piece_skip. reflexivity.
Qed.
Lemma raw_length b k : List.length (raw_of b k) = (List.length b - k) / 2.
Proof. unfold raw_of, items. rewrite !map_length, seq_length, skipn_length. reflexivity. Qed.
Lemma params_nth b n j : j < n -> 96 + 8 * n <= List.length b -> nth_error (params_of b n) j = Some (single_at b (96 + 4 * n + 4 * j)).
Proof.
  intros H L. unfold params_of. rewrite nth_error_map, nth_fromfile by lia. destruct (Nat.ltb_spec j n); [|lia]. cbn [andb]. destruct (Nat.leb_spec (96 + 4 * n + 4 * (j + 1)) (Nat.max (96 + 4 * n) (List.length b))); [reflexivity | lia].
Qed.
Lemma params_short b n xs : map_at (params_of b n) (seq 0 n) = Ok xs -> 0 < n -> 96 + 8 * n <= List.length b.
Proof.
  intros H N. apply map_at_seq in H. destruct H as [L H]. specialize (H (n - 1) ltac:(lia)). unfold params_of in H. rewrite nth_error_map, nth_fromfile in H by lia.
  destruct (Nat.ltb_spec (n - 1) n); [|lia]. cbn [andb] in H. destruct (Nat.leb_spec (96 + 4 * n + 4 * (n - 1 + 1)) (Nat.max (96 + 4 * n) (List.length b))); [lia|].
  cbn in H. apply nth_error_None in H. lia.
Qed.
Lemma scale_row_nth scales row j s r : nth_error scales j = Some s -> nth_error row j = Some r -> nth_error (scale_row scales row) j = Some (product s r).
Proof.
  intros H1 H2. unfold scale_row. rewrite nth_error_map. assert (C : nth_error (combine scales row) j = Some (s, r)).
  { revert row j H1 H2. induction scales as [|x l IH]; intros [|y row] [|j] H1 H2; cbn in *; try discriminate; [congruence | apply IH; assumption]. }
  rewrite C. cbn. destruct s; reflexivity.
Qed.
(** The rows after the reshape *)
Lemma rows_spec (version : Z) n nt data rows : 0 < n -> nt = List.length data / n ->
  (if (version =? 3)%Z then r <- reshape n nt data ;; Ok (transpose nt r) else reshape nt n data) = Ok rows ->
  List.length data = n * nt /\ List.length rows = nt /\ forall i, i < nt -> exists row, nth_error rows i = Some row /\ List.length row = n /\ forall j, j < n -> nth_error row j = nth_error data (word_of version n nt i j).
Proof.
  intros N E H. unfold word_of. destruct (version =? 3)%Z.
  - unfold reshape in H. destruct (Nat.eqb_spec (List.length data) (n * nt)) as [L|L]; [|discriminate]. cbn [bind] in H. injection H as <-. split; [exact L|]. unfold transpose. split; [rewrite map_length, seq_length; reflexivity|].
    intros i Hi. eexists. split; [apply map_seq_nth_error; exact Hi|]. split; [rewrite map_length, chunks_length; reflexivity|]. intros j Hj. rewrite nth_error_map, chunks_nth by exact Hj. cbn [option_map].
    rewrite <- nth_error_nth' with (d := 0%Z) by (rewrite firstn_length, skipn_length, L; nia). rewrite nth_error_firstn, nth_error_skipn by exact Hi. reflexivity.
  - unfold reshape in H. destruct (Nat.eqb_spec (List.length data) (nt * n)) as [L|L]; [|discriminate]. injection H as <-. split; [lia|]. split; [apply chunks_length|].
    intros i Hi. eexists. split; [apply chunks_nth; exact Hi|]. split; [rewrite firstn_length, skipn_length, L; nia|]. intros j Hj. rewrite nth_error_firstn, nth_error_skipn by exact Hj. reflexivity.
Qed.
Lemma half_even a : (a / 2) * 2 <= a < (a / 2) * 2 + 2.
Proof. pose proof (Nat.div_mod a 2 ltac:(lia)). pose proof (Nat.mod_upper_bound a 2 ltac:(lia)). lia. Qed.
Lemma half_words b n nt : well_sized b n nt -> (List.length b - (96 + 8 * n)) / 2 = n * nt.
Proof. unfold well_sized. intro H. symmetry. apply Nat.div_unique with (r := List.length b - (96 + 8 * n) - 2 * (n * nt)); lia. Qed.

(** ** C40 *)
(** What a file that is read contains: every number comes from its place in the file. *)
Theorem C40_layout : forall b x, read_flex_res b = Ok x ->
  let n := x_n x in let nt := List.length (x_data x) in
  0 < n /\ int32_at b 76 = Z.of_nat n /\ well_sized b n nt /\
  x_version x = int32_at b (84 + 4 * n) /\ In (x_version x) [0; 2; 3]%Z /\
  x_tmin x = single_at b (88 + 4 * n) /\ x_dt x = single_at b (92 + 4 * n) /\
  forall i, i < nt -> exists row, nth_error (x_data x) i = Some row /\ List.length row = n /\
    forall j, j < n -> nth_error row j = Some (product (single_at b (96 + 4 * n + 4 * j)) (int16_at b (96 + 8 * n + 2 * word_of (x_version x) n nt i j))).
Proof.
  intros b x H. rewrite read_flex_res_eq in H. destruct (has_date _) as [isd|]; [|discriminate]. cbn [bind] in H. unfold body_of in H.
  destruct (Nat.leb_spec 80 (List.length b)) as [L80|]; [|discriminate]. fold (int32_at b 76) in H. change (sint 4 (piece 4 b 76)) with (int32_at b 76) in H.
  destruct (Z.ltb_spec (int32_at b 76) 0) as [|NS]; [discriminate|]. set (n := Z.to_nat (int32_at b 76)) in *. destruct (Nat.leb_spec (88 + 4 * n) (List.length b)) as [L88|]; [|discriminate].
  change (sint 4 (piece 4 b (84 + 4 * n))) with (int32_at b (84 + 4 * n)) in H. set (v := int32_at b (84 + 4 * n)) in *. destruct (date_and_title b isd) as [date title]. destruct (v =? 12)%Z; [discriminate|].
  destruct ((v =? 0) || (v =? 2) || (v =? 3))%Z eqn:K.
  - destruct (Nat.leb_spec (96 + 4 * n) (List.length b)) as [L96|]; [|discriminate]. unfold tail_of in H. destruct (Z.eqb_spec (int32_at b 76) 0) as [|NZ]; [destruct (raw_of _ _); discriminate|].
    destruct (Z.ltb_spec (int32_at b 76) 0); [lia|]. fold n in H. assert (N : 0 < n) by (unfold n; lia). set (nt := List.length (raw_of b (96 + 8 * n)) / n) in *. set (T := if (v =? 3)%Z then _ else _) in H.
    destruct T as [rows|e] eqn:ET; [|destruct e; discriminate]. subst T. destruct (rows_spec v n nt _ rows N eq_refl ET) as [DL [RL RV]].
    destruct (map_at (params_of b n) (seq 0 n)) as [scales|] eqn:EM; [|discriminate]. cbn [bind] in H. injection H as <-. cbn [x_n x_data x_version x_tmin x_dt].
    pose proof (params_short b n scales EM N) as LS. apply map_at_seq in EM. destruct EM as [ML MN]. rewrite raw_length in DL. rewrite map_length, RL.
    split; [exact N|]. split; [unfold n; lia|]. split; [pose proof (half_even (List.length b - (96 + 8 * n))); unfold well_sized; rewrite DL in *; lia|]. split; [reflexivity|].
    split; [cbn; lia|]. split; [reflexivity|]. split; [reflexivity|].
    intros i Hi. destruct (RV i Hi) as [row [R1 [R2 R3]]]. exists (scale_row scales row). split; [rewrite nth_error_map, R1; reflexivity|]. split; [unfold scale_row; rewrite map_length, combine_length; lia|].
    intros j Hj. apply scale_row_nth; [rewrite MN, params_nth by lia; reflexivity|]. rewrite R3 by exact Hj. apply raw_nth. rewrite DL. unfold word_of. destruct (v =? 3)%Z; nia.
  - exfalso. unfold tail_of in H. destruct (int32_at b 76 =? 0)%Z; [destruct (raw_of _ _); discriminate|]. destruct (int32_at b 76 <? 0)%Z; [discriminate|].
    set (T := if (v =? 3)%Z then _ else _) in H. destruct T as [rows|e]; [discriminate | destruct e; discriminate].
Qed.

(** Every such file is read: any number of sensors and time steps. *)
Lemma ints_all c k b : k + 4 * c <= List.length b -> fst (ints 4 (Z.of_nat c) (skipn k b)) = map (fun i => int32_at b (k + 4 * i)) (seq 0 c).
Proof.
  intro L. unfold ints, fromfile. destruct (Z.ltb_spec (Z.of_nat c) 0); [lia|]. rewrite Nat2Z.id. cbn [fst]. unfold items. rewrite map_map, firstn_length, skipn_length.
  replace (Nat.min (4 * c) (List.length b - k)) with (c * 4) by lia. rewrite Nat.div_mul by lia. apply map_ext_in. intros i Hi. apply in_seq in Hi. unfold int32_at. change (firstn 4 (skipn (4 * i) (firstn (4 * c) (skipn k b)))) with (piece 4 (firstn (4 * c) (skipn k b)) (4 * i)).
  rewrite piece_firstn, piece_skip by lia. reflexivity.
Qed.
Lemma six_ints b : 28 <= List.length b -> exists isd, has_date (fst (ints 4 6 (skipn 4 b))) = Ok isd /\
  (isd = true <-> (int32_at b 4 < 32 /\ int32_at b 8 < 13 /\ int32_at b 16 < 25 /\ int32_at b 20 < 61)%Z).
Proof.
  intro L. assert (A : forall j, j < 6 -> at_ (fst (ints 4 6 (skipn 4 b))) j = Ok (int32_at b (4 + 4 * j))).
  { intros j Hj. unfold at_, ints. pose proof (nth_fromfile 4 6 4 b j ltac:(lia)) as E. change (Z.of_nat 6) with 6%Z in E. destruct (fromfile 4 6 (skipn 4 b)) as [l r]. cbn [fst] in *. rewrite nth_error_map, E.
    destruct (Nat.ltb_spec j 6); [|lia]. cbn [andb]. destruct (Nat.leb_spec (4 + 4 * (j + 1)) (Nat.max 4 (List.length b))); [reflexivity | lia]. }
  unfold has_date. rewrite (A 0), (A 1), (A 3), (A 4) by lia. cbn [bind Nat.mul Nat.add].
  destruct (Z.ltb_spec (int32_at b 4) 32) as [H1|H1]; cbn [negb]; [|exists false; split; [reflexivity | split; [discriminate | intro H; exfalso; lia]]].
  destruct (Z.ltb_spec (int32_at b 8) 13) as [H2|H2]; cbn [negb]; [|exists false; split; [reflexivity | split; [discriminate | intro H; exfalso; lia]]].
  destruct (Z.ltb_spec (int32_at b 16) 25) as [H3|H3]; cbn [negb]; [|exists false; split; [reflexivity | split; [discriminate | intro H; exfalso; lia]]].
  eexists. split; [reflexivity|]. destruct (Z.ltb_spec (int32_at b 20) 61); split; intro; try discriminate; try lia; try reflexivity.
Qed.
Theorem C40_reads : forall b n nt, 0 < n -> int32_at b 76 = Z.of_nat n -> In (int32_at b (84 + 4 * n)) [0; 2; 3]%Z -> well_sized b n nt ->
  exists x, read_flex_res b = Ok x /\ x_n x = n /\ List.length (x_data x) = nt /\
    ((int32_at b 4 < 32 /\ int32_at b 8 < 13 /\ int32_at b 16 < 25 /\ int32_at b 20 < 61)%Z ->
       x_date x = map (fun i => int32_at b (4 + 4 * i)) [0; 1; 2; 3; 4; 5] /\ x_title x = strip_bytes (firstn 40 (skipn 28 b))) /\
    (~ (int32_at b 4 < 32 /\ int32_at b 8 < 13 /\ int32_at b 16 < 25 /\ int32_at b 20 < 61)%Z -> x_date x = [int32_at b 4] /\ x_title x = strip_bytes (firstn 60 (skipn 8 b))).
Proof.
  intros b n nt N EN EV W. pose proof (half_words b n nt W) as HW. unfold well_sized in W. destruct (six_ints b ltac:(lia)) as [isd [D1 D2]]. rewrite read_flex_res_eq, D1. cbn [bind]. unfold body_of.
  destruct (Nat.leb_spec 80 (List.length b)); [|lia]. change (sint 4 (piece 4 b 76)) with (int32_at b 76). rewrite EN. destruct (Z.ltb_spec (Z.of_nat n) 0); [lia|]. rewrite Nat2Z.id.
  destruct (Nat.leb_spec (88 + 4 * n) (List.length b)); [|lia]. change (sint 4 (piece 4 b (84 + 4 * n))) with (int32_at b (84 + 4 * n)). set (v := int32_at b (84 + 4 * n)) in *.
  destruct (date_and_title b isd) as [date title] eqn:DT. destruct (Z.eqb_spec v 12) as [V|_]; [cbn in EV; lia|].
  assert (K : ((v =? 0) || (v =? 2) || (v =? 3))%Z = true) by (cbn in EV; lia). rewrite K. destruct (Nat.leb_spec (96 + 4 * n) (List.length b)); [|lia].
  unfold tail_of. destruct (Z.eqb_spec (Z.of_nat n) 0); [lia|]. destruct (Z.ltb_spec (Z.of_nat n) 0); [lia|]. rewrite Nat2Z.id, raw_length, HW. rewrite (Nat.mul_comm n nt), Nat.div_mul by lia.
  assert (R : exists rows, (if (v =? 3)%Z then r <- reshape n nt (raw_of b (96 + 8 * n)) ;; Ok (transpose nt r) else reshape nt n (raw_of b (96 + 8 * n))) = Ok rows /\ List.length rows = nt).
  { unfold reshape. rewrite raw_length, HW. rewrite Nat.eqb_refl, (Nat.mul_comm n nt), Nat.eqb_refl. destruct (v =? 3)%Z; cbn [bind]; eexists; (split; [reflexivity|]); [unfold transpose; rewrite map_length, seq_length; reflexivity | apply chunks_length]. }
  destruct R as [rows [R1 R2]]. rewrite R1. rewrite (map_at_intro _ (fun j => single_at b (96 + 4 * n + 4 * j))) by (apply Forall_forall; intros j Hj; apply in_seq in Hj; apply params_nth; lia). cbn [bind].
  eexists. split; [reflexivity|]. cbn [x_n x_data x_date x_title]. split; [reflexivity|]. split; [rewrite map_length; exact R2|].
  unfold date_and_title in DT. split; intro P.
  - destruct isd; [|exfalso; destruct D2 as [_ D2]; specialize (D2 P); discriminate]. injection DT as <- <-. split; [|reflexivity].
    apply (ints_all 6 4 b). lia.
  - destruct isd; [exfalso; apply P; apply D2; reflexivity|]. injection DT as <- <-. split; [|reflexivity]. apply (ints_all 1 4 b). lia.
Qed.

(** The product is the exact one up to single precision. *)
Theorem C40_accuracy : forall scale raw v, product (Some scale) raw = Some v ->
  (Qabs (v - inject_Z raw * scale) <= Qabs (inject_Z raw * scale) * (1 # 16777216) + (1 # 1000000000000))%Q.
Proof. intros scale raw v H. unfold product in H. destruct (encode _ _); [|discriminate]. injection H as <-. apply rnd32_err. Qed.

(** A number of words that is not a multiple of the number of sensors is refused as a wrong format. *)
Theorem C40_wrong_size : forall b n, 0 < n -> int32_at b 76 = Z.of_nat n -> In (int32_at b (84 + 4 * n)) [0; 2; 3]%Z -> 96 + 8 * n <= List.length b ->
  (forall nt, ~ well_sized b n nt) -> read_flex_res b = Err WrongFormatError.
Proof.
  intros b n N EN EV L W. destruct (six_ints b ltac:(lia)) as [isd [D1 D2]]. rewrite read_flex_res_eq, D1. cbn [bind]. unfold body_of.
  destruct (Nat.leb_spec 80 (List.length b)); [|lia]. change (sint 4 (piece 4 b 76)) with (int32_at b 76). rewrite EN. destruct (Z.ltb_spec (Z.of_nat n) 0); [lia|]. rewrite Nat2Z.id.
  destruct (Nat.leb_spec (88 + 4 * n) (List.length b)); [|lia]. change (sint 4 (piece 4 b (84 + 4 * n))) with (int32_at b (84 + 4 * n)). set (v := int32_at b (84 + 4 * n)) in *.
  destruct (date_and_title b isd) as [date title] eqn:DT. destruct (Z.eqb_spec v 12) as [V|_]; [cbn in EV; lia|].
  assert (K : ((v =? 0) || (v =? 2) || (v =? 3))%Z = true) by (cbn in EV; lia). rewrite K. destruct (Nat.leb_spec (96 + 4 * n) (List.length b)); [|lia].
  unfold tail_of. destruct (Z.eqb_spec (Z.of_nat n) 0); [lia|]. destruct (Z.ltb_spec (Z.of_nat n) 0); [lia|]. rewrite Nat2Z.id. set (data := raw_of b (96 + 8 * n)). set (nt := List.length data / n).
  assert (Bad : List.length data <> n * nt).
  { intro E. apply (W nt). unfold well_sized. rewrite <- E. unfold data. rewrite raw_length. pose proof (half_even (List.length b - (96 + 8 * n))). lia. }
  unfold reshape. destruct (Nat.eqb_spec (List.length data) (n * nt)); [contradiction|]. destruct (Nat.eqb_spec (List.length data) (nt * n)); [lia|]. destruct (v =? 3)%Z; reflexivity.
Qed.

(** Files of any other version are never read: version 12 is refused as not implemented, the others raise
    UnboundLocalError (or are refused for their size). *)
Theorem C40_other_versions : forall b n, 0 < n -> int32_at b 76 = Z.of_nat n -> 88 + 4 * n <= List.length b ->
  (int32_at b (84 + 4 * n) = 12%Z -> read_flex_res b = Err NotImplementedError) /\
  (~ In (int32_at b (84 + 4 * n)) [0; 2; 3; 12]%Z -> read_flex_res b = Err UnboundLocalError \/ read_flex_res b = Err WrongFormatError).
Proof.
  intros b n N EN L. destruct (six_ints b ltac:(lia)) as [isd [D1 D2]]. rewrite read_flex_res_eq, D1. cbn [bind]. unfold body_of.
  destruct (Nat.leb_spec 80 (List.length b)); [|lia]. change (sint 4 (piece 4 b 76)) with (int32_at b 76). rewrite EN. destruct (Z.ltb_spec (Z.of_nat n) 0); [lia|]. rewrite Nat2Z.id.
  destruct (Nat.leb_spec (88 + 4 * n) (List.length b)); [|lia]. change (sint 4 (piece 4 b (84 + 4 * n))) with (int32_at b (84 + 4 * n)). set (v := int32_at b (84 + 4 * n)) in *.
  destruct (date_and_title b isd) as [date title]. split; intro V; [rewrite V; reflexivity|].
  destruct (Z.eqb_spec v 12) as [V2|_]; [exfalso; apply V; cbn; lia|]. assert (K : ((v =? 0) || (v =? 2) || (v =? 3))%Z = false) by (cbn in V; lia). rewrite K.
  unfold tail_of. destruct (Z.eqb_spec (Z.of_nat n) 0); [lia|]. destruct (Z.ltb_spec (Z.of_nat n) 0); [lia|]. rewrite Nat2Z.id.
  unfold reshape. destruct (v =? 3)%Z; [destruct (Nat.eqb _ _)|destruct (Nat.eqb _ _)]; cbn [bind]; auto.
Qed.

(** ** The data frame *)
Lemma sensor_lines_len float_ ls s : sensor_lines float_ ls = Ok s -> List.length (s_ID s) = List.length ls /\ List.length (s_unit s) = List.length ls /\ List.length (s_name s) = List.length ls.
Proof.
  revert s. induction ls as [|l ls IH]; intros s H; cbn in H; [injection H as <-; auto|]. destruct (sensor_line float_ l) as [[[[i u] n] d]|]; [|discriminate]. cbn in H. destruct (sensor_lines float_ ls) as [s1|]; [|discriminate].
  cbn in H. injection H as <-. destruct (IH s1 eq_refl) as [A [B C]]. cbn. lia.
Qed.
Lemma combine_nth_error {A B} (l : list A) (l' : list B) i x y : nth_error l i = Some x -> nth_error l' i = Some y -> nth_error (combine l l') i = Some (x, y).
Proof. revert l' i. induction l as [|a l IH]; intros [|b l'] [|i] H1 H2; cbn in *; try discriminate; [congruence | apply IH; assumption]. Qed.
(** The table has one row per time step and one column per sensor after the time; column [j+1] carries the name and
    unit of sensor [j] and its values. *)
Theorem C40_dataframe : forall float_ f b sensor_file o, flex_read float_ f b sensor_file = Ok o ->
  read_flex_res b = Ok (f_res o) /\
  let n := x_n (f_res o) in let nt := List.length (x_data (f_res o)) in
  List.length (flex_columns o) = S n /\ nth_error (flex_columns o) 0 = Some (S_ "Time_[s]") /\
  (forall j name unit, nth_error (s_name (f_sensors o)) j = Some name -> nth_error (s_unit (f_sensors o)) j = Some unit ->
     nth_error (flex_columns o) (S j) = Some (name ++ S_ "_[" ++ filter (fun c => negb (mem_chr c (S_ "()[]"))) unit ++ S_ "]")) /\
  List.length (flex_rows o) = nt /\ List.length (f_time o) = nt /\
  forall i t row, nth_error (f_time o) i = Some t -> nth_error (x_data (f_res o)) i = Some row -> nth_error (flex_rows o) i = Some (Some t :: row).
Proof.
  intros float_ f b sf o H. unfold flex_read in H. destruct (read_flex_res b) as [x|] eqn:EX; [|discriminate]. cbn [bind] in H. destruct (time_vector f _ _ _) as [time|] eqn:ET; [|discriminate]. cbn [bind] in H.
  assert (LT : List.length time = List.length (x_data x)).
  { unfold time_vector in ET. destruct (time_length _ _ _ _); [|discriminate]. cbn [bind] in ET. destruct (x_tmin x), (x_dt x); try discriminate. destruct (_ =? _)%Z; [|discriminate]. injection ET as <-. rewrite map_length, seq_length. reflexivity. }
  set (S0 := match sf with None => _ | Some ls => _ end) in H. destruct S0 as [s|] eqn:ES; [|discriminate]. cbn [bind] in H. injection H as <-. cbn [f_res f_time f_sensors].
  assert (LS : List.length (s_name s) = x_n x /\ List.length (s_unit s) = x_n x).
  { unfold S0 in ES. destruct sf as [ls|].
    - destruct (read_flex_sensor float_ ls) as [s1|] eqn:R; [|discriminate]. cbn [bind] in ES. destruct (Nat.eqb_spec (List.length (s_ID s1)) (x_n x)); [|discriminate]. injection ES as <-. apply sensor_lines_len in R. lia.
    - injection ES as <-. unfold fake_sensors. cbn [s_name s_unit]. rewrite map_length, seq_length, repeat_length. auto. }
  destruct LS as [L1 L2]. split; [reflexivity|]. split; [|split; [|split; [|split; [|split]]]].
  - unfold flex_columns. cbn [f_sensors]. rewrite map_length, combine_length, map_length. cbn [List.length]. lia.
  - reflexivity.
  - intros j name unit E1 E2. unfold flex_columns. cbn [f_sensors combine map nth_error]. rewrite nth_error_map, (combine_nth_error _ _ j name (clean_unit unit)); [reflexivity | exact E1 | rewrite nth_error_map, E2; reflexivity].
  - unfold flex_rows. cbn [f_time f_res]. rewrite map_length, combine_length. lia.
  - exact LT.
  - intros i t row E1 E2. unfold flex_rows. cbn [f_time f_res]. rewrite nth_error_map, (combine_nth_error _ _ i t row E1 E2). reflexivity.
Qed.

(** Names and units come from the sensor file, one line per sensor after two lines of header; without a sensor file
    sensor [j] is called S000j. *)
Theorem C40_sensors : forall float_ lines s, read_flex_sensor float_ lines = Ok s ->
  List.length (s_name s) = List.length lines - 2 /\
  forall j line, nth_error lines (2 + j) = Some line ->
    nth_error (s_name s) j = nth_error (split_ws line) 6 /\ nth_error (s_unit s) j = nth_error (split_ws line) 5 /\
    nth_error (s_desc s) j = Some (join (S_ " ") (skipn 7 (split_ws line))) /\
    (exists w, nth_error (split_ws line) 0 = Some w /\ exists id, int_ w = Ok id /\ nth_error (s_ID s) j = Some id).
Proof.
  intros float_ lines s H. unfold read_flex_sensor in H. split; [apply sensor_lines_len in H; rewrite skipn_length in H; lia|]. intros j line E. rewrite <- nth_error_skipn in E. revert s j E H. generalize (skipn 2 lines).
  induction l as [|l0 ls IH]; intros s j E H; [destruct j; discriminate|]. cbn [sensor_lines] in H. destruct (sensor_line float_ l0) as [[[[i u] n] d]|] eqn:L; [|discriminate]. cbn [bind] in H.
  destruct (sensor_lines float_ ls) as [s1|] eqn:R; [|discriminate]. cbn [bind] in H. injection H as <-. cbn [s_name s_unit s_ID s_desc]. destruct j as [|j]; [|cbn [nth_error] in *; apply (IH s1 j E eq_refl)].
  cbn in E. injection E as ->. unfold sensor_line, at_ in L. set (w := split_ws line) in *.
  destruct (nth_error w 0) as [w0|] eqn:E0; [|discriminate]. cbn [bind] in L. destruct (int_ w0) as [id|] eqn:I0; [|discriminate]. cbn [bind] in L. destruct (nth_error w 1); [|discriminate]. cbn [bind] in L. destruct (float_ _); [|discriminate]. cbn [bind] in L.
  destruct (nth_error w 2); [|discriminate]. cbn [bind] in L. destruct (float_ _); [|discriminate]. cbn [bind] in L. destruct (nth_error w 5) as [u5|]; [|discriminate]. cbn [bind] in L. destruct (nth_error w 6) as [w6|]; [|discriminate]. cbn [bind] in L.
  injection L as <- <- <- <-. split; [reflexivity|]. split; [reflexivity|]. split; [reflexivity|]. exists w0. split; [reflexivity|]. exists id. auto.
Qed.
Theorem C40_no_sensor_file : forall n j, j < n ->
  nth_error (s_name (fake_sensors n)) j = Some (S_ "S" ++ repeat (ch 48) (4 - List.length (str_of_N (N.of_nat (S j)))) ++ str_of_N (N.of_nat (S j))) /\ nth_error (s_unit (fake_sensors n)) j = Some (S_ "(NA)") /\
  nth_error (s_ID (fake_sensors n)) j = Some (Z.of_nat j + 1)%Z /\ nth_error (s_desc (fake_sensors n)) j = Some (S_ "NA").
Proof.
  intros n j H. unfold fake_sensors. cbn [s_name s_unit s_ID s_desc]. rewrite !map_seq_nth_error by exact H. split; [reflexivity|]. rewrite !nth_error_repeat by exact H. split; [reflexivity|]. split; [|reflexivity]. do 2 f_equal. lia.
Qed.

(** ** C64: the time column *)
(** When start and step are multiples [A] and [B] of a power of two, with enough bits in the format of the
    computation for the last time, there is one time per step. *)
Lemma op_exact f q M E : good_fmt f -> (Z.abs M < 2 ^ prec f)%Z -> (emin f <= E)%Z -> (Qabs q < Qpower (2 # 1) (2 ^ (wid f - 1) - 1))%Q -> (q == inject_Z M * Qpower (2 # 1) E)%Q ->
  exists r, op f q = Ok r /\ (r == q)%Q.
Proof.
  intros G HM HE HB HQ. unfold op. destruct (encode_some f q G HB) as [c ->]. eexists. split; [reflexivity|]. apply (rnd_exact f q M E G HM HE HQ).
Qed.
Definition power (e : Z) : Q := Qpower (2 # 1) e.
Lemma power_pos e : (0 < power e)%Q. Proof. apply qpow_pos. Qed.
Lemma power_mono a b : (a <= b)%Z -> (Qpower (2 # 1) a <= Qpower (2 # 1) b)%Q.
Proof.
  intro H. assert (E : (Qpower (2 # 1) b == Qpower (2 # 1) (b - a) * Qpower (2 # 1) a)%Q) by (rewrite <- Qpower_plus by apply two_nz; replace (b - a + a)%Z with b by lia; reflexivity).
  rewrite E. rewrite <- (Qmult_1_l (Qpower (2 # 1) a)) at 1. apply Qmult_le_compat_r; [|apply Qlt_le_weak, qpow_pos]. rewrite qpow_Z by lia. change 1%Q with (inject_Z 1). rewrite <- Zle_Qle.
  pose proof (Z.pow_pos_nonneg 2 (b - a) ltac:(lia) ltac:(lia)). lia.
Qed.
(** Multiples of a power of two below the precision are exact. *)
Lemma op_multiple f M E q : f = binary32 \/ f = binary64 -> (Z.abs M < 2 ^ prec f)%Z -> (emin f <= E)%Z -> (E + prec f <= 2 ^ (wid f - 1) - 1)%Z -> (q == inject_Z M * power E)%Q ->
  exists r, op f q = Ok r /\ (r == inject_Z M * power E)%Q.
Proof.
  intros HF HM HE HB HQ. assert (G : good_fmt f) by (destruct HF as [->| ->]; [apply good32 | apply good64]).
  assert (P0 : (0 <= prec f)%Z) by (destruct HF as [->| ->]; cbn; lia).
  assert (X : exists r, op f q = Ok r /\ (r == q)%Q).
  { apply (op_exact f q M E G HM HE); [|exact HQ]. rewrite HQ, Qabs_Qmult. fold (power E). rewrite (Qabs_pos (power E)) by (apply Qlt_le_weak, power_pos). change (Qabs (inject_Z M)) with (inject_Z (Z.abs M)).
    apply Qlt_le_trans with (inject_Z (2 ^ prec f) * power E)%Q.
    - apply Qmult_lt_compat_r; [apply power_pos|]. rewrite <- Zlt_Qlt. exact HM.
    - rewrite <- qpow_Z by exact P0. unfold power. rewrite <- Qpower_plus by apply two_nz. replace (prec f + E)%Z with (E + prec f)%Z by lia.
      apply power_mono. exact HB. }
  destruct X as [r [X1 X2]]. exists r. split; [exact X1|]. rewrite X2. exact HQ.
Qed.
Lemma format_bounds f : f = binary32 \/ f = binary64 -> (emin f <= 0)%Z /\ (0 + prec f <= 2 ^ (wid f - 1) - 1)%Z.
Proof. intros [->| ->]; vm_compute; split; discriminate. Qed.
Theorem C64_length : forall f A B e nt tmin dt, f = binary32 \/ f = binary64 ->
  (tmin == inject_Z A * power e)%Q -> (dt == inject_Z B * power e)%Q -> B <> 0%Z ->
  (emin f <= e)%Z -> (e + prec f <= 2 ^ (wid f - 1) - 1)%Z -> (Z.abs A + Z.of_nat nt * Z.abs B < 2 ^ prec f)%Z ->
  time_length f (Some tmin) (Some dt) nt = Ok (Z.of_nat nt).
Proof.
  intros f A B e nt tmin dt HF HT HD HB HE HU HS. destruct (format_bounds f HF) as [F1 F2]. unfold time_length.
  destruct (op_multiple f (Z.of_nat nt * B) e (inject_Z (Z.of_nat nt) * dt) HF) as [p [-> Hp]]; [rewrite Z.abs_mul; lia | exact HE | exact HU | rewrite HD, inject_Z_mult; ring|]. cbn [bind].
  destruct (op_multiple f (A + Z.of_nat nt * B) e (tmin + p) HF) as [s [-> Hs]]; [nia | exact HE | exact HU | rewrite HT, Hp, inject_Z_plus; ring|]. cbn [bind].
  destruct (op_multiple f (Z.of_nat nt * B) e (s - tmin) HF) as [d [-> Hd]]; [rewrite Z.abs_mul; lia | exact HE | exact HU | rewrite HT, Hs, inject_Z_plus; ring|]. cbn [bind].
  assert (PN : ~ (power e == 0)%Q) by (intro C; pose proof (power_pos e) as P; rewrite C in P; apply Qlt_irrefl in P; exact P).
  assert (BN : ~ (inject_Z B == 0)%Q) by (change 0%Q with (inject_Z 0); rewrite inject_Z_injective; exact HB).
  assert (DN : ~ (dt == 0)%Q) by (rewrite HD; intro C; apply Qmult_integral in C; destruct C; contradiction).
  destruct (Qeq_bool dt 0) eqn:QB; [apply Qeq_bool_iff in QB; contradiction|].
  destruct (op_multiple f (Z.of_nat nt) 0 (d / dt) HF) as [q [-> Hq]]; [nia | lia | lia | |].
  { rewrite Hd, HD, inject_Z_mult. change (power 0) with 1%Q. field. split; assumption. }
  cbn [bind]. f_equal. assert (C : Qceiling q = Z.of_nat nt); [|rewrite C; lia]. rewrite (Qceiling_comp q (inject_Z (Z.of_nat nt))); [apply Qceiling_Z | rewrite Hq; change (power 0) with 1%Q; ring].
Qed.
(** In single precision range the times are exactly start + i*step. *)
Lemma s32_multiple M E q : (Z.abs M < 2 ^ 24)%Z -> (-149 <= E)%Z -> (q == inject_Z M * power E)%Q -> (s32 q == inject_Z M * power E)%Q.
Proof. intros HM HE HQ. unfold s32. rewrite (rnd_exact binary32 q M E good32 HM HE HQ). exact HQ. Qed.
Theorem C64_times : forall f A B e nt tmin dt, f = binary32 \/ f = binary64 ->
  (tmin == inject_Z A * power e)%Q -> (dt == inject_Z B * power e)%Q -> B <> 0%Z -> (-149 <= e)%Z -> (e <= 103)%Z -> (Z.abs A + Z.of_nat nt * Z.abs B < 2 ^ 24)%Z ->
  exists ts, time_vector f (Some tmin) (Some dt) nt = Ok ts /\ List.length ts = nt /\
    forall i, i < nt -> exists t, nth_error ts i = Some t /\ (t == tmin + inject_Z (Z.of_nat i) * dt)%Q.
Proof.
  intros f A B e nt tmin dt HF HT HD HB HE HU HS. unfold time_vector. rewrite (C64_length f A B e nt tmin dt HF HT HD HB).
  - cbn [bind]. rewrite Z.eqb_refl. eexists. split; [reflexivity|]. split; [rewrite map_length, seq_length; reflexivity|]. intros i Hi. eexists. split; [apply map_seq_nth_error; exact Hi|].
    assert (S2 : (s32 (tmin + dt) == inject_Z (A + B) * power e)%Q).
    { apply s32_multiple; [nia | exact HE|]. rewrite HT, HD, inject_Z_plus. ring. }
    destruct i as [|[|i]]; cbn [time_value].
    + change (inject_Z (Z.of_nat 0)) with 0%Q. ring.
    + rewrite S2, HT, HD, inject_Z_plus. change (inject_Z (Z.of_nat 1)) with 1%Q. ring.
    + assert (S3 : (s32 (s32 (tmin + dt) - tmin) == inject_Z B * power e)%Q).
      { apply s32_multiple; [nia | exact HE|]. rewrite S2, HT, inject_Z_plus. ring. }
      assert (S4 : (s32 (inject_Z (Z.of_nat (S (S i)))) == inject_Z (Z.of_nat (S (S i))) * power 0)%Q).
      { apply s32_multiple; [nia | lia|]. change (power 0) with 1%Q. ring. }
      assert (S5 : (s32 (s32 (inject_Z (Z.of_nat (S (S i)))) * s32 (s32 (tmin + dt) - tmin)) == inject_Z (Z.of_nat (S (S i)) * B) * power e)%Q).
      { apply s32_multiple; [rewrite Z.abs_mul; nia | exact HE|]. rewrite S3, S4, inject_Z_mult. change (power 0) with 1%Q. ring. }
      rewrite (s32_multiple (A + Z.of_nat (S (S i)) * B) e); [|nia | exact HE | rewrite S5, HT, inject_Z_plus; ring]. rewrite HT, HD, inject_Z_plus, inject_Z_mult. ring.
  - destruct HF as [->| ->]; [exact HE|]. change (emin binary64) with (-1074)%Z. lia.
  - destruct HF as [->| ->]; [change (2 ^ (wid binary32 - 1) - 1)%Z with 127%Z | change (2 ^ (wid binary64 - 1) - 1)%Z with 1023%Z]; cbn [prec binary32 binary64]; lia.
  - destruct HF as [->| ->]; cbn [prec binary32 binary64]; [exact HS | lia].
Qed.
(** With single precision arithmetic (numpy 2), a step of 0.05 s and 13 time steps give 14 times, and the file is not
    read; double arithmetic (numpy 1) reads it. *)
Definition demo_file (version : Z) (scales : list Z) (dt : Z) (raw : list Z) : bytes :=
  repeat 0%N 4 ++ concat (map (le 4) [21; 6; 2010; 12; 30; 59]%Z) ++ map N_of_ascii (S_ "A test                                  ") ++ repeat 0%N 8 ++
  le 4 (Z.of_nat (List.length scales)) ++ concat (map (fun i => le 4 (Z.of_nat i)) (seq 1 (List.length scales))) ++ repeat 0%N 4 ++ le 4 version ++ le 4 0 ++ le 4 dt ++
  concat (map (le 4) scales) ++ concat (map (le 2) raw).
Definition f005 : Z := match encode binary32 (5 # 100) with Some c => c | None => 0%Z end.
Definition f_half : Z := match encode binary32 (1 # 2) with Some c => c | None => 0%Z end.
Definition f_two : Z := match encode binary32 2 with Some c => c | None => 0%Z end.
Definition no_float (s : str) : res Q := Err ValueError.
Theorem C64_single_precision_refuted : exists b, (exists x, read_flex_res b = Ok x /\ List.length (x_data x) = 13) /\
  flex_read no_float binary32 b None = Err ValueError /\ (exists o, flex_read no_float binary64 b None = Ok o /\ List.length (f_time o) = 13).
Proof.
  exists (demo_file 0 [f_half] f005 (map Z.of_nat (seq 1 13))). split; [|split].
  - eexists. split; [vm_compute; reflexivity | reflexivity].
  - vm_compute. reflexivity.
  - eexists. split; [vm_compute; reflexivity | reflexivity].
Qed.
Print Assumptions C40_layout.
Print Assumptions C40_reads.
Print Assumptions C40_accuracy.
Print Assumptions C40_wrong_size.
Print Assumptions C40_other_versions.
Print Assumptions C40_dataframe.
Print Assumptions C40_sensors.
Print Assumptions C40_no_sensor_file.
Print Assumptions C64_length.
Print Assumptions C64_times.
Print Assumptions C64_single_precision_refuted.

(** ** Concrete cases: two sensors, three time steps, both orders of storage *)
Definition demo0 : bytes := demo_file 0 [f_half; f_two] f_half [1; 10; 2; 20; 3; -30]%Z.
Definition demo3 : bytes := demo_file 3 [f_half; f_two] f_half [1; 2; 3; 10; 20; -30]%Z.
Example C40_demo_hypotheses : int32_at demo0 76 = Z.of_nat 2 /\ In (int32_at demo0 (84 + 4 * 2)) [0; 2; 3]%Z /\ well_sized demo0 2 3 /\ In (int32_at demo3 (84 + 4 * 2)) [0; 2; 3]%Z /\ well_sized demo3 2 3.
Proof. vm_compute. repeat split; auto; try (repeat (apply le_n || apply le_S)). Qed.
Example C40_demo_values : forall b, b = demo0 \/ b = demo3 ->
  match read_flex_res b with
  | Ok x => map (map (option_map Qred)) (x_data x) = [[Some (1 # 2); Some 20]; [Some 1; Some 40]; [Some (3 # 2); Some (-60)]]%Q /\ x_title x = map N_of_ascii (S_ "A test") /\ x_date x = [21; 6; 2010; 12; 30; 59]%Z
  | Err _ => False
  end.
Proof. intros b [->| ->]; vm_compute; repeat split; reflexivity. Qed.
Example C40_demo_columns :
  match flex_read no_float binary64 demo0 None with
  | Ok o => flex_columns o = [S_ "Time_[s]"; S_ "S0001_[NA]"; S_ "S0002_[NA]"] /\ map (map (option_map Qred)) (flex_rows o) = [[Some 0; Some (1 # 2); Some 20]; [Some (1 # 2); Some 1; Some 40]; [Some 1; Some (3 # 2); Some (-60)]]%Q
  | Err _ => False
  end.
Proof. vm_compute. repeat split; reflexivity. Qed.
Example C40_demo_refused : read_flex_res (demo0 ++ [0; 0]%N) = Err WrongFormatError /\ read_flex_res (demo_file 12 [f_half] f_half [1]%Z) = Err NotImplementedError /\ read_flex_res (demo_file 1 [f_half] f_half [1]%Z) = Err UnboundLocalError.
Proof. vm_compute. repeat split; reflexivity. Qed.
Example C40_demo_sensors :
  match read_flex_sensor (fun _ => Ok 1%Q) [S_ "Sensor list"; S_ " No   forst  offset  korr. c  Volt    Unit   Navn"; S_ "1  1.0   0.0      1.00     0.00 m/s Vhub Wind speed at hub"] with
  | Ok s => s_name s = [S_ "Vhub"] /\ s_unit s = [S_ "m/s"] /\ s_ID s = [1%Z] /\ s_desc s = [S_ "Wind speed at hub"]
  | Err _ => False
  end.
Proof. vm_compute. repeat split; reflexivity. Qed.
Example C64_demo : (2 == inject_Z 4 * power (-1))%Q /\ (3 # 2 == inject_Z 3 * power (-1))%Q /\ (Z.abs 4 + Z.of_nat 1000 * Z.abs 3 < 2 ^ 24)%Z.
Proof. vm_compute. repeat split; reflexivity. Qed.
