(** Proofs about Hawc2io.py and hawc2_dat_file.py. *)
From Verif Require Import Py PyFacts ListFacts TextFacts FS Bytes FASTOut_Model FASTOut_Round FASTOut_Quant H2io_Model.
From Coq Require Import QArith Lia.
Local Open Scope nat_scope.

(** ** Specification: what is in the file *)

(** Sample [k] of channel [i]: the int16 at byte 2*(i*NrSc+k), times the scale factor of channel [i]. *)
Definition sample (h : h2) (i k : nat) : Q :=
  (inject_Z (sint 2 (firstn 2 (skipn (2 * (i * NrSc h + k)) (dat h)))) * nth i (scale h) 0)%Q.
Definition channel (h : h2) (i : nat) : list Q := map (sample h i) (seq 0 (NrSc h)).
(** The .dat and .sel files are complete. *)
Definition complete (h : h2) : Prop :=
  2 * NrSc h * NrCh h <= List.length (dat h) /\ NrCh h <= List.length (scale h).
Definition fresh (h : h2) : Prop := Iknown h = [] /\ Data h = None.
(** What a call should return. *)
Definition answer (h : h2) (req : list nat) : option (list (list Q)) :=
  match req with
  | [] => Some (map (channel h) (seq 0 (NrCh h)))
  | _ => if forallb (fun i => i <? NrCh h) req then Some (map (channel h) req) else None
  end.

(** ** The binary reader *)
Lemma channel_ok h i : complete h -> i < NrCh h -> read_channel h i = Ok (channel h i).
Proof.
  intros [C1 C2] Hi. unfold read_channel.
  destruct (nth_error (scale h) i) as [s|] eqn:E.
  2:{ apply nth_error_None in E. lia. }
  assert (L : List.length (firstn (2 * NrSc h) (skipn (i * NrSc h * 2) (dat h))) = NrSc h * 2).
  { rewrite firstn_length, skipn_length. nia. }
  assert (EQ : map (fun z => (inject_Z z * s)%Q) (map (sint 2) (items 2 (firstn (2 * NrSc h) (skipn (i * NrSc h * 2) (dat h)))))
               = channel h i).
  { unfold items, channel, sample. rewrite L, Nat.div_mul by lia. rewrite !map_map.
    apply map_ext_in. intros k Hk. apply in_seq in Hk.
    rewrite (nth_error_nth _ _ _ E). do 3 f_equal.
    apply list_ext.
    - rewrite (firstn_length 2), (skipn_length (2 * k)), L, (firstn_length 2), (skipn_length (2 * (i * NrSc h + k))). nia.
    - intros j _. destruct (Nat.lt_ge_cases j 2) as [Hj|Hj].
      + rewrite !nth_error_firstn, !nth_error_skipn by lia. rewrite nth_error_firstn by lia.
        rewrite nth_error_skipn. f_equal. lia.
      + assert (A : forall l : bytes, nth_error (firstn 2 l) j = None).
        { intros l. apply nth_error_None. rewrite firstn_length. lia. }
        rewrite !A. reflexivity. }
  rewrite EQ. unfold channel at 1. rewrite map_length, seq_length, Nat.eqb_refl. reflexivity.
Qed.
Lemma map_res_ok {A B} (f : A -> res B) (g : A -> B) l : (forall x, In x l -> f x = Ok (g x)) -> map_res f l = Ok (map g l).
Proof.
  induction l as [|x l IH]; intros H; [reflexivity|]. cbn [map_res map].
  rewrite (H x) by now left. cbn. rewrite IH by (intros; apply H; now right). reflexivity.
Qed.
Lemma readall_ok h chs : complete h -> chs <> [] -> Forall (fun i => i < NrCh h) chs -> ReadAll h chs = Ok (map (channel h) chs).
Proof.
  intros C N F. unfold ReadAll, ReadBinary. destruct chs as [|c chs]; [congruence|].
  apply map_res_ok. intros x Hx. apply channel_ok; [assumption|]. rewrite Forall_forall in F. auto.
Qed.
Lemma readall_nil h : complete h -> ReadAll h [] = Ok (map (channel h) (seq 0 (NrCh h))).
Proof.
  intros C. unfold ReadAll, ReadBinary.
  destruct (seq 0 (NrCh h)) as [|x l] eqn:E; [reflexivity|]. rewrite <- E.
  apply map_res_ok. intros y Hy. apply channel_ok; [assumption|]. apply in_seq in Hy. lia.
Qed.

(** ** Sorting channels *)
Lemma index_of_in l i : In i l -> exists k, index_of l i = Some k /\ nth_error l k = Some i.
Proof.
  induction l as [|x l IH]; [easy|]. intros H. cbn. destruct (Nat.eqb_spec x i) as [->|N].
  - exists 0. auto.
  - destruct H as [H|H]; [congruence|]. destruct (IH H) as (k & -> & E). exists (S k). auto.
Qed.
Lemma index_of_notin l i : ~ In i l -> index_of l i = None.
Proof.
  induction l as [|x l IH]; intros H; [reflexivity|]. cbn. destruct (Nat.eqb_spec x i) as [->|N]; [destruct H; now left|].
  rewrite IH; [reflexivity|]. intros K. apply H. now right.
Qed.
Lemma sort_known chs known I1 : (forall i, In i chs -> In i known) ->
  exists J, sort_channels chs known I1 [] = (known, I1 ++ J, []) /\
            map (nth_error known) J = map Some chs.
Proof.
  revert I1. induction chs as [|i chs IH]; intros I1 H.
  - exists []. now rewrite app_nil_r.
  - cbn. destruct (index_of_in known i (H i (or_introl eq_refl))) as (k & -> & E).
    destruct (IH (I1 ++ [k])) as (J & -> & EJ). { intros j Hj. apply H. now right. }
    exists (k :: J). split; [now rewrite <- app_assoc|]. cbn. now rewrite E, EJ.
Qed.
Lemma sort_fresh chs known I2 : NoDup (known ++ chs) ->
  sort_channels chs known (seq 0 (List.length known)) I2 = (known ++ chs, seq 0 (List.length known + List.length chs), I2 ++ chs).
Proof.
  revert known I2. induction chs as [|i chs IH]; intros known I2 H.
  - cbn. now rewrite !app_nil_r, Nat.add_0_r.
  - cbn [sort_channels]. rewrite index_of_notin.
    + specialize (IH (known ++ [i]) (I2 ++ [i])). rewrite <- !app_assoc in IH. cbn [app] in IH.
      rewrite app_length in IH. cbn [List.length] in IH. rewrite seq_length.
      rewrite Nat.add_1_r, seq_S in IH. cbn [Nat.add] in IH. rewrite IH by assumption.
      cbn [List.length]. now rewrite <- Nat.add_succ_comm.
    + apply NoDup_remove_2 in H. intros K. apply H. apply in_or_app. now left.
Qed.
Lemma take_cols_map cols J chs (f : nat -> list Q) known :
  cols = map f known -> map (nth_error known) J = map Some chs -> take_cols (Some cols) J = Ok (map f chs).
Proof.
  intros -> H. unfold take_cols. revert chs H. induction J as [|k J IH]; intros [|c chs] H; try discriminate; [reflexivity|].
  cbn [map] in H. injection H as E H. cbn [map_res]. rewrite (map_nth_error f k known E). cbn. rewrite (IH _ H). reflexivity.
Qed.
Lemma nth_error_seq_self {A} (l : list A) : map (nth_error l) (seq 0 (List.length l)) = map Some l.
Proof.
  apply list_ext; [now rewrite !map_length, seq_length|]. intros i _.
  destruct (Nat.lt_ge_cases i (List.length l)) as [Hi|Hi].
  - rewrite map_seq_nth_error by assumption. destruct (nth_error l i) eqn:E; [now rewrite (map_nth_error Some i l E)|].
    apply nth_error_None in E. lia.
  - rewrite (proj2 (nth_error_None _ _)) by (now rewrite map_length, seq_length).
    symmetry. apply nth_error_None. now rewrite map_length.
Qed.
Lemma max_ge n req : req <> [] -> (n <=? fold_right Nat.max 0 req) = negb (forallb (fun i => i <? n) req).
Proof.
  intros N. destruct (Nat.leb_spec n (fold_right Nat.max 0 req)) as [H|H]; symmetry.
  - apply Bool.negb_true_iff. apply Bool.not_true_iff_false. intros K. rewrite forallb_forall in K.
    assert (forall l, (forall x, In x l -> x <? n = true) -> l <> [] -> fold_right Nat.max 0 l < n).
    { induction l as [|x l IH]; intros F E; [congruence|]. cbn.
      assert (x < n) by (apply Nat.ltb_lt, F; now left).
      destruct l as [|y l]; [cbn; lia|]. assert (fold_right Nat.max 0 (y :: l) < n) by (apply IH; [intros; apply F; now right|easy]). lia. }
    specialize (H0 req K N). lia.
  - apply Bool.negb_false_iff. apply forallb_forall. intros x Hx. apply Nat.ltb_lt.
    clear N. induction req as [|y l IH]; [easy|]. cbn in H. destruct Hx as [->|Hx]; [lia|]. apply IH; [lia|assumption].
Qed.

(** A cache that holds, in order, the data of the channels of [Iknown]. *)
Definition good (h : h2) (ks : list nat) : Prop := Iknown h = ks /\ Data h = Some (map (channel h) ks).
Definition same_file (h h' : h2) : Prop := NrSc h' = NrSc h /\ NrCh h' = NrCh h /\ scale h' = scale h /\ dat h' = dat h /\ ReadOnly h' = ReadOnly h.
Lemma channel_same h h' i : same_file h h' -> channel h' i = channel h i.
Proof. intros (A & B & C & D & _). unfold channel, sample. rewrite A, C, D. reflexivity. Qed.
Lemma channels_same h h' l : same_file h h' -> map (channel h') l = map (channel h) l.
Proof. intros S. apply map_ext. intros i. now apply channel_same. Qed.
Lemma answer_same h h' req : same_file h h' -> answer h' req = answer h req.
Proof.
  intros S. unfold answer. destruct S as (A & B & C) eqn:E. rewrite B. rewrite !(channels_same h h') by assumption. reflexivity.
Qed.
Lemma set_cache_same h k d : same_file h (set_cache h k d).
Proof. repeat split. Qed.
Lemma set_cache_id h k d : Iknown h = k -> Data h = d -> set_cache h k d = h.
Proof. destruct h; cbn. now intros -> ->. Qed.

Lemma call_known h ks req : ReadOnly h = false -> good h ks -> (forall i, In i (match req with [] => seq 0 (NrCh h) | _ => req end) -> i < NrCh h -> In i ks) ->
  call h req = (h, Ok (answer h req)).
Proof.
  intros RO [G1 G2] H. unfold call. unfold answer.
  destruct req as [|c req].
  - rewrite RO. destruct (sort_known (seq 0 (NrCh h)) ks []) as (J & E & EJ).
    { intros i Hi. apply H; [assumption|]. apply in_seq in Hi. lia. }
    rewrite G1, E. cbn [app]. rewrite G2, (take_cols_map _ J _ _ ks eq_refl EJ). cbn. f_equal.
    now apply set_cache_id.
  - rewrite max_ge by easy. destruct (forallb _ (c :: req)) eqn:F; cbn [negb]; [|reflexivity].
    rewrite RO. destruct (sort_known (c :: req) ks []) as (J & E & EJ).
    { intros i Hi. apply H; [assumption|]. rewrite forallb_forall in F. apply Nat.ltb_lt. now apply F. }
    rewrite G1, E. cbn [app]. rewrite G2, (take_cols_map _ J _ _ ks eq_refl EJ). cbn [bind]. f_equal.
    now apply set_cache_id.
Qed.
Lemma call_first h req ks : ReadOnly h = false -> complete h -> fresh h ->
  ks = (match req with [] => seq 0 (NrCh h) | _ => req end) -> ks <> [] -> NoDup ks -> Forall (fun i => i < NrCh h) ks ->
  exists h', call h req = (h', Ok (Some (map (channel h) ks))) /\ same_file h h' /\ good h' ks.
Proof.
  intros RO C [F1 F2] EK NE ND F. unfold call.
  assert (X : match req with [] => false | _ => NrCh h <=? fold_right Nat.max 0 req end = false).
  { destruct req; [reflexivity|]. rewrite max_ge by easy. apply Bool.negb_false_iff. apply forallb_forall.
    rewrite EK, Forall_forall in F. intros x Hx. apply Nat.ltb_lt. auto. }
  rewrite X, RO, <- EK, F1.
  pose proof (sort_fresh ks [] [] ND) as S. cbn [List.length seq app Nat.add] in S. rewrite S.
  destruct ks as [|k ks']; [congruence|]. remember (k :: ks') as ks eqn:EKS.
  rewrite (readall_ok h ks C NE F). rewrite F2. cbn [any_nonzero].
  eexists. split; [|split].
  - rewrite (take_cols_map _ _ ks _ ks eq_refl (nth_error_seq_self ks)). reflexivity.
  - apply set_cache_same.
  - split; reflexivity.
Qed.
Lemma calls_known reqs : forall h ks, ReadOnly h = false -> good h ks ->
  (forall req, In req reqs -> forall i, In i (match req with [] => seq 0 (NrCh h) | _ => req end) -> i < NrCh h -> In i ks) ->
  calls h reqs = (h, map (fun r => Ok (answer h r)) reqs).
Proof.
  induction reqs as [|r reqs IH]; intros h ks RO G H; [reflexivity|]. cbn [calls map].
  rewrite (call_known h ks r RO G) by (apply H; now left).
  rewrite (IH h ks RO G); [reflexivity|]. intros q Hq. apply H. now right.
Qed.
Lemma calls_readonly reqs : forall h, ReadOnly h = true -> complete h -> calls h reqs = (h, map (fun r => Ok (answer h r)) reqs).
Proof.
  induction reqs as [|r reqs IH]; intros h RO C; [reflexivity|]. cbn [calls map].
  assert (E : call h r = (h, Ok (answer h r))).
  { unfold call, answer. rewrite RO. destruct r as [|c r].
    - destruct (seq 0 (NrCh h)) eqn:E.
      + rewrite readall_nil by assumption. now rewrite E.
      + rewrite <- E, readall_ok; [reflexivity|assumption|congruence|]. apply Forall_forall. intros x Hx. apply in_seq in Hx. lia.
    - rewrite max_ge by easy. destruct (forallb _ (c :: r)) eqn:F; [|reflexivity]. cbn [negb].
      rewrite readall_ok; [reflexivity|assumption|easy|]. apply Forall_forall. intros x Hx. rewrite forallb_forall in F.
      now apply Nat.ltb_lt, F. }
  rewrite E, (IH h RO C). reflexivity.
Qed.

(** ** The defects *)
Definition has_data (h : h2) (i : nat) : Prop := any_nonzero (Some [channel h i]) = true.

Lemma second_request_wrong h i j : ReadOnly h = false -> complete h -> fresh h -> i < NrCh h -> j < NrCh h -> i <> j ->
  has_data h i -> snd (calls h [[i]; [j]]) = [Ok (Some [channel h i]); Ok (Some [channel h i])].
Proof.
  intros RO C F Hi Hj N D. cbn [calls].
  destruct (call_first h [i] [i] RO C F eq_refl) as (h' & E & S & [G1 G2]); [easy|repeat constructor; easy|repeat constructor; easy|].
  rewrite E.
  assert (E2 : call h' [j] = (set_cache h' [i; j] (Some [channel h i; channel h j]), Ok (Some [channel h i]))).
  { unfold call. destruct S as (A & B & S1 & S2 & S3).
    rewrite max_ge by easy. cbn [forallb]. rewrite B, (proj2 (Nat.ltb_lt j (NrCh h)) Hj). cbn [negb andb].
    rewrite S3, RO. rewrite G1. cbn [sort_channels index_of]. destruct (Nat.eqb_spec i j); [congruence|]. cbn [option_map app].
    assert (RA : ReadAll h' [j] = Ok [channel h j]).
    { rewrite readall_ok; [|unfold complete; rewrite A, B, S1, S2; exact C|easy|repeat constructor; lia].
      cbn [map]. rewrite (channel_same h h'); [reflexivity|]. repeat split; assumption. }
    rewrite RA. cbn [map] in G2. rewrite (channel_same h h' i) in G2 by (repeat split; assumption).
    rewrite G2. unfold has_data in D. rewrite D. reflexivity. }
  rewrite E2. reflexivity.
Qed.
Lemma repeat_request_fails h i j : ReadOnly h = false -> complete h -> fresh h -> i < NrCh h -> j < NrCh h -> i <> j ->
  snd (call h [i; i; j]) = Err IndexError.
Proof.
  intros RO C [F1 F2] Hi Hj N. unfold call. rewrite max_ge by easy. cbn [forallb].
  rewrite (proj2 (Nat.ltb_lt i (NrCh h)) Hi), (proj2 (Nat.ltb_lt j (NrCh h)) Hj). cbn [negb andb].
  rewrite RO, F1. cbn [sort_channels index_of app]. rewrite Nat.eqb_refl. cbn [index_of app].
  destruct (Nat.eqb_spec i j); [congruence|]. cbn [option_map app List.length].
  rewrite readall_ok; [|assumption|easy|repeat constructor; assumption]. rewrite F2. reflexivity.
Qed.
Lemma zero_channel_lost h i j : ReadOnly h = false -> complete h -> fresh h -> i < NrCh h -> j < NrCh h -> i <> j ->
  ~ has_data h i ->
  snd (calls h [[i]; [j]; [i]; [j]]) = [Ok (Some [channel h i]); Ok (Some [channel h j]); Ok (Some [channel h j]); Err IndexError].
Proof.
  intros RO C F Hi Hj N D. apply Bool.not_true_is_false in D. cbn [calls].
  destruct (call_first h [i] [i] RO C F eq_refl) as (h' & E & S & [G1 G2]); [easy|repeat constructor; easy|repeat constructor; easy|].
  rewrite E.
  assert (E2 : call h' [j] = (set_cache h' [i; j] (Some [channel h j]), Ok (Some [channel h j]))).
  { unfold call. destruct S as (A & B & S1 & S2 & S3).
    rewrite max_ge by easy. cbn [forallb]. rewrite B, (proj2 (Nat.ltb_lt j (NrCh h)) Hj). cbn [negb andb].
    rewrite S3, RO. rewrite G1. cbn [sort_channels index_of]. destruct (Nat.eqb_spec i j); [congruence|]. cbn [option_map app].
    assert (RA : ReadAll h' [j] = Ok [channel h j]).
    { rewrite readall_ok; [|unfold complete; rewrite A, B, S1, S2; exact C|easy|repeat constructor; lia].
      cbn [map]. rewrite (channel_same h h'); [reflexivity|]. repeat split; assumption. }
    rewrite RA. cbn [map] in G2. rewrite (channel_same h h' i) in G2 by (repeat split; assumption).
    rewrite G2, D. reflexivity. }
  rewrite E2.
  set (h2 := set_cache h' [i; j] (Some [channel h j])).
  assert (X : forall k, k < NrCh h -> (NrCh h2 <=? fold_right Nat.max 0 [k]) = false).
  { intros k Hk. rewrite max_ge by easy. cbn [forallb]. destruct S as (A & B & _). change (NrCh h2) with (NrCh h'). rewrite B. now rewrite (proj2 (Nat.ltb_lt k (NrCh h)) Hk). }
  assert (R2 : ReadOnly h2 = false) by (destruct S as (_ & _ & _ & _ & R); cbn; congruence).
  assert (E3 : call h2 [i] = (h2, Ok (Some [channel h j]))).
  { unfold call. rewrite (X i Hi), R2. cbn [Iknown h2 set_cache sort_channels index_of]. rewrite Nat.eqb_refl. reflexivity. }
  assert (E4 : call h2 [j] = (h2, Err IndexError)).
  { unfold call. rewrite (X j Hj), R2. cbn [Iknown h2 set_cache sort_channels index_of].
    destruct (Nat.eqb_spec i j); [congruence|]. rewrite Nat.eqb_refl. reflexivity. }
  fold h2. rewrite E3, E4. reflexivity.
Qed.

(** ** The .sel file *)
Lemma slice_app a x y : List.length x = a -> forall b, slice a b (x ++ y) = firstn (b - a) y.
Proof. intros <- b. unfold slice. now rewrite skipn_app, skipn_all, Nat.sub_diag. Qed.
Lemma pad_length n s : List.length s <= n -> List.length (pad n s) = n.
Proof. intros H. unfold pad. rewrite app_length, repeat_length. lia. Qed.
Lemma spaces_blank k : forallb is_space (repeat sp k) = true.
Proof. induction k; [reflexivity|]. exact IHk. Qed.
Lemma strip_padded n s : no_edge_space s = true -> strip (pad n s) = s.
Proof. intros H. unfold pad. change (s ++ repeat sp (n - List.length s)) with ([] ++ s ++ repeat sp (n - List.length s)).
  rewrite strip_pad; [|reflexivity|apply spaces_blank]. now apply strip_noedge. Qed.
Lemma readlines_line l t : forallb (fun c => negb (chr_eqb c nl)) l = true -> forall acc,
  readlines acc (l ++ nl :: t) = (acc ++ l ++ [nl]) :: readlines [] t.
Proof.
  intros H. induction l as [|c l IH]; intros acc.
  - cbn [app readlines]. rewrite chr_eqb_refl. reflexivity.
  - cbn [forallb] in H. apply andb_inv in H. destruct H as [H1 H2]. cbn [app readlines].
    apply Bool.negb_true_iff in H1. rewrite H1. rewrite IH by assumption. rewrite <- app_assoc. reflexivity.
Qed.
Definition one_line (l : str) : bool := forallb (fun c => negb (chr_eqb c nl)) l.
Lemma readlines_text ls : forallb one_line ls = true -> readlines [] (concat (map add_nl ls)) = map add_nl ls.
Proof.
  induction ls as [|l ls IH]; intros H; [reflexivity|]. cbn [forallb] in H. apply andb_inv in H. destruct H as [H1 H2].
  cbn [map concat]. unfold add_nl at 1 3. rewrite <- app_assoc. cbn [app]. rewrite readlines_line by assumption. cbn [app]. now rewrite IH.
Qed.

(** A label, unit and description that fit the columns. *)
Definition label_fits (s : str) : bool := (List.length s <=? 30) && no_edge_space s && one_line s.
Definition unit_fits (s : str) : bool :=
  (List.length s <=? 11) && no_edge_space s && one_line s && forallb (fun c => negb (mem_chr c (S_ "()[]"))) s.
Definition descr_fits (s : str) : bool := no_edge_space s && one_line s.

Lemma no_brackets_id u : forallb (fun c => negb (mem_chr c (S_ "()[]"))) u = true -> no_brackets u = u.
Proof.
  induction u as [|c u IH]; intros H; [reflexivity|]. cbn [forallb] in H. apply andb_inv in H. destruct H as [H1 H2].
  unfold no_brackets. cbn [filter]. fold (no_brackets u). rewrite IH by assumption.
  match goal with |- (if ?b then _ else _) = _ => assert (G : b = true) end.
  { chars_if c H1. }
  now rewrite G.
Qed.
Lemma one_line_app a b : one_line (a ++ b) = one_line a && one_line b.
Proof. unfold one_line. apply forallb_app. Qed.
Lemma one_line_spaces k : one_line (repeat sp k) = true.
Proof. induction k; [reflexivity|exact IHk]. Qed.
Lemma one_line_pad n s : one_line (pad n s) = one_line s.
Proof. unfold pad. rewrite one_line_app, one_line_spaces. apply andb_true_r. Qed.
Lemma digits_one_line s : forallb is_digit s = true -> one_line s = true.
Proof.
  intros H. unfold one_line. rewrite forallb_forall in *. intros c Hc. specialize (H c Hc). chars_if c H.
Qed.
(** The characters of the fields of one channel line. *)
Lemma channel_line_fields k n u d : List.length (str_of_N k) <= 12 -> label_fits n = true -> unit_fits u = true -> descr_fits d = true ->
  let l := add_nl (pad 12 (str_of_N k) ++ pad 31 (firstn 30 n) ++ pad 11 (no_brackets u) ++ d) in
  strip (slice 12 43 l) = n /\ strip (slice 43 54 l) = u /\ strip (slice_m1 54 l) = d.
Proof.
  intros HK HN HU HD l. unfold label_fits in HN. unfold unit_fits in HU. unfold descr_fits in HD.
  apply andb_inv in HN. destruct HN as [HN HN3]. apply andb_inv in HN. destruct HN as [HN1 HN2]. apply Nat.leb_le in HN1.
  apply andb_inv in HU. destruct HU as [HU HU4]. apply andb_inv in HU. destruct HU as [HU HU3]. apply andb_inv in HU. destruct HU as [HU1 HU2]. apply Nat.leb_le in HU1.
  apply andb_inv in HD. destruct HD as [HD1 HD2].
  subst l. unfold add_nl. rewrite firstn_all2 by assumption. rewrite no_brackets_id by assumption.
  assert (L1 := pad_length 12 _ HK). assert (L2 : List.length (pad 31 n) = 31) by (apply pad_length; lia).
  assert (L3 := pad_length 11 _ HU1). split; [|split].
  - rewrite <- !app_assoc. rewrite slice_app by assumption.
    rewrite firstn_app, L2. rewrite firstn_all2 by lia. cbn [Nat.sub firstn]. rewrite app_nil_r. now apply strip_padded.
  - rewrite <- !app_assoc. rewrite app_assoc. rewrite slice_app by (rewrite app_length; lia).
    rewrite firstn_app, L3. rewrite firstn_all2 by lia. cbn [Nat.sub firstn]. rewrite app_nil_r. now apply strip_padded.
  - unfold slice_m1. rewrite removelast_last. rewrite !app_assoc. rewrite skipn_app.
    rewrite skipn_all2 by (rewrite !app_length; lia). cbn [app].
    rewrite !app_length, L1, L2, L3. cbn [Nat.add Nat.sub skipn]. now apply strip_noedge.
Qed.
Lemma sel_channels_fields : forall names units descrs k,
  (forall j, j < List.length names -> List.length (str_of_N (k + N.of_nat j)) <= 12) ->
  List.length units = List.length names -> List.length descrs = List.length names ->
  forallb label_fits names = true -> forallb unit_fits units = true -> forallb descr_fits descrs = true ->
  let cl := map add_nl (sel_channels k names units descrs) in
  List.length cl = List.length names /\
  map (fun l => strip (slice 12 43 l)) cl = names /\
  map (fun l => strip (slice 43 54 l)) cl = units /\
  map (fun l => strip (slice_m1 54 l)) cl = descrs.
Proof.
  induction names as [|n names IH]; intros [|u units] [|d descrs] k HK LU LD HN HU HD; try discriminate.
  - cbn. auto.
  - cbn [forallb] in HN, HU, HD. apply andb_inv in HN, HU, HD. destruct HN as [HN1 HN], HU as [HU1 HU], HD as [HD1 HD].
    cbn [sel_channels map].
    destruct (IH units descrs (k + 1)%N) as (I0 & I1 & I2 & I3); [|cbn in *; lia|cbn in *; lia|assumption..|].
    { intros j Hj. specialize (HK (S j)). replace (k + 1 + N.of_nat j)%N with (k + N.of_nat (S j))%N by lia. apply HK. cbn. lia. }
    destruct (channel_line_fields k n u d) as (F1 & F2 & F3); [|assumption..|].
    { specialize (HK 0). rewrite N.add_0_r in HK. apply HK. cbn. lia. }
    rewrite F1, F2, F3, I1, I2, I3. cbn [List.length]. rewrite I0. auto.
Qed.
Lemma sel_channels_one_line : forall names units descrs k,
  forallb label_fits names = true -> forallb unit_fits units = true -> forallb descr_fits descrs = true ->
  forallb one_line (sel_channels k names units descrs) = true.
Proof.
  induction names as [|n names IH]; intros [|u units] [|d descrs] k HN HU HD; try reflexivity.
  cbn [forallb] in HN, HU, HD. apply andb_inv in HN, HU, HD. destruct HN as [HN1 HN], HU as [HU1 HU], HD as [HD1 HD].
  cbn [sel_channels forallb]. rewrite IH by assumption. rewrite Bool.andb_true_r.
  unfold label_fits in HN1. unfold unit_fits in HU1. unfold descr_fits in HD1.
  apply andb_inv in HN1. destruct HN1 as [HN1 HN3]. apply andb_inv in HN1. destruct HN1 as [HN1 _]. apply Nat.leb_le in HN1.
  apply andb_inv in HU1. destruct HU1 as [HU1 HU4]. apply andb_inv in HU1. destruct HU1 as [_ HU3].
  apply andb_inv in HD1. destruct HD1 as [_ HD2].
  rewrite firstn_all2 by assumption. rewrite no_brackets_id by assumption.
  rewrite !one_line_app, !one_line_pad, HN3, HU3, HD2, (digits_one_line _ (str_of_N_digits k)). reflexivity.
Qed.
Lemma split_ws_pad n s t : is_token s = true -> List.length s < n -> split_ws (pad n s ++ t) = s :: split_ws t.
Proof.
  intros T L. unfold pad. destruct (n - List.length s) as [|k] eqn:E; [lia|]. cbn [repeat]. rewrite <- app_assoc. cbn [app].
  rewrite split_ws_app by reflexivity. rewrite split_ws_token by assumption. cbn [app]. f_equal.
  rewrite split_ws_lpad; [reflexivity|apply spaces_blank].
Qed.
Lemma int_str_of_N n : int_ (str_of_N n) = Ok (Z.of_N n).
Proof.
  rewrite <- int_str_of_Z. f_equal. destruct n; reflexivity.
Qed.
Lemma token_one_line s : is_token s = true -> one_line s = true.
Proof.
  intros H. unfold is_token in H. apply andb_inv in H. destruct H as [_ H]. unfold one_line.
  rewrite forallb_forall in *. intros c Hc. specialize (H c Hc). chars_if c H.
Qed.
Definition count (l : list str) : N := N.of_nat (List.length l).

Lemma sel_roundtrip base time nscans names units descrs :
  one_line base = true -> is_token time = true -> zero_text time = false ->
  List.length (str_of_N nscans) < 12 -> List.length time < 16 ->
  (forall j, j < List.length names -> List.length (str_of_N (1 + N.of_nat j)) < 12) ->
  List.length units = List.length names -> List.length descrs = List.length names ->
  forallb label_fits names = true -> forallb unit_fits units = true -> forallb descr_fits descrs = true ->
  ReadSel (sel_text base time nscans (count names) names units descrs) =
  Some (Ok (mk_sel (Z.of_N nscans) (Z.of_nat (List.length names)) time false names units descrs)).
Proof.
  intros HB HT HZ LS LT HK LU LD HN HU HD.
  assert (LC : List.length (str_of_N (count names)) < 12).
  { unfold count. destruct (List.length names) as [|m] eqn:E; [cbn; lia|]. specialize (HK m).
    replace (N.of_nat (S m)) with (1 + N.of_nat m)%N by lia. apply HK. lia. }
  unfold ReadSel, sel_text.
  assert (RL : readlines [] (concat (map add_nl (sel_lines base time nscans (count names) names units descrs)))
          = map add_nl (sel_lines base time nscans (count names) names units descrs)).
  { apply readlines_text. unfold sel_lines. rewrite !forallb_app. cbn [forallb].
    rewrite sel_channels_one_line by assumption.
    rewrite !one_line_app, !one_line_pad, HB, (token_one_line _ HT), !(digits_one_line _ (str_of_N_digits _)). reflexivity. }
  rewrite RL. clear RL.
  unfold sel_lines. rewrite map_app. cbn [map app].
  assert (NB : contains (lower (add_nl rule120)) (S_ "bhawc") = false) by reflexivity. rewrite NB. clear NB.
  set (l8 := (pad 12 (str_of_N nscans) ++ pad 12 (str_of_N (count names)) ++ pad 16 time ++ S_ "ASCII") ++ [nl]).
  unfold nth_line at 1. cbn [nth_error bind].
  match goal with |- context [split_ws ?l] => change l with l8 end.
  assert (S8 : split_ws l8 = [str_of_N nscans; str_of_N (count names); time; S_ "ASCII"]).
  { unfold l8. rewrite <- !app_assoc. rewrite split_ws_pad by (try apply str_of_N_token; assumption).
    rewrite split_ws_pad by (try apply str_of_N_token; assumption). rewrite split_ws_pad by assumption. reflexivity. }
  rewrite S8. unfold nth_line at 1 2 3 4. cbn [nth_error bind]. rewrite !int_str_of_N. cbn [bind]. rewrite HZ. cbn [bind].
  unfold count at 1. rewrite nat_N_Z, Nat2Z.id.
  destruct (sel_channels_fields names units descrs 1%N) as (F0 & F1 & F2 & F3); try assumption.
  { intros j Hj. apply Nat.lt_le_incl, HK. lia. }
  set (cl := map add_nl (sel_channels 1 names units descrs)) in *.
  rewrite !(map_app add_nl). fold cl.
  match goal with |- context [map_res (fun i => nth_line ?L _) _] => set (LL := L) end.
  assert (M : map_res (fun i => nth_line LL (i + 12)) (seq 0 (List.length names)) = Ok cl).
  { rewrite <- F0. rewrite (map_res_ok _ (fun i => nth i cl [])).
    - f_equal. apply list_ext; [now rewrite map_length, seq_length|]. intros i _.
      destruct (Nat.lt_ge_cases i (List.length cl)) as [Hi|Hi].
      + rewrite map_seq_nth_error by assumption. symmetry. now apply nth_error_nth'.
      + rewrite !(proj2 (nth_error_None _ _)) by (rewrite ?map_length, ?seq_length; assumption). reflexivity.
    - intros i Hi. apply in_seq in Hi. unfold nth_line, LL. rewrite (Nat.add_comm i 12). cbn [nth_error Nat.add].
      rewrite nth_error_app1 by lia. now rewrite (nth_error_nth' cl []) by lia. }
  rewrite M. cbn [bind]. rewrite F1, F2, F3. unfold count. rewrite nat_N_Z. reflexivity.
Qed.

Lemma sel_zero_time base nscans names units descrs :
  one_line base = true -> List.length (str_of_N nscans) < 12 -> List.length (str_of_N (count names)) < 12 ->
  forallb label_fits names = true -> forallb unit_fits units = true -> forallb descr_fits descrs = true ->
  ReadSel (sel_text base (S_ "0.000") nscans (count names) names units descrs) = Some (Err ZeroDivisionError).
Proof.
  intros HB LS LC HN HU HD. unfold ReadSel, sel_text.
  assert (RL : readlines [] (concat (map add_nl (sel_lines base (S_ "0.000") nscans (count names) names units descrs)))
          = map add_nl (sel_lines base (S_ "0.000") nscans (count names) names units descrs)).
  { apply readlines_text. unfold sel_lines. rewrite !forallb_app. cbn [forallb].
    rewrite sel_channels_one_line by assumption.
    rewrite !one_line_app, !one_line_pad, HB, !(digits_one_line _ (str_of_N_digits _)). reflexivity. }
  rewrite RL. clear RL.
  unfold sel_lines. rewrite map_app. cbn [map app].
  assert (NB : contains (lower (add_nl rule120)) (S_ "bhawc") = false) by reflexivity. rewrite NB. clear NB.
  unfold nth_line at 1. cbn [nth_error bind].
  match goal with |- context [split_ws ?l] => assert (S8 : split_ws l = [str_of_N nscans; str_of_N (count names); S_ "0.000"; S_ "ASCII"]) end.
  { unfold add_nl. rewrite <- !app_assoc. rewrite split_ws_pad by (try apply str_of_N_token; assumption).
    rewrite split_ws_pad by (try apply str_of_N_token; assumption). reflexivity. }
  rewrite S8. unfold nth_line at 1 2 3. cbn [nth_error bind]. rewrite !int_str_of_N. reflexivity.
Qed.
