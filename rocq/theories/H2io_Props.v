(** Properties C27 and C54 (HAWC2 result files). *)
From Verif Require Import Py PyFacts ListFacts FS Bytes FASTOut_Model NumLen H2io_Model H2io_Proofs.
From Coq Require Import QArith Lia.
Local Open Scope nat_scope.

(** C27: "calling a ReadHawc2 object with a list of channels returns those channels' data in that order,
    whatever was requested before".  [answer h req] (H2io_Proofs.v) is what the file holds for the request:
    the channels in the requested order, all of them for an empty request, None when a number is too high.
    An object opened with ReadOnly satisfies it for every history of calls. *)
Theorem C27_readonly_history : forall h reqs, ReadOnly h = true -> complete h ->
  calls h reqs = (h, map (fun r => Ok (answer h r)) reqs).
Proof. intros h reqs RO C. now apply calls_readonly. Qed.
Print Assumptions C27_readonly_history.

(** An ordinary object satisfies it for every history that starts by asking for all channels. *)
Theorem C27_after_full_read_partial : forall h reqs, ReadOnly h = false -> complete h -> fresh h -> 0 < NrCh h ->
  snd (calls h ([] :: reqs)) = map (fun r => Ok (answer h r)) ([] :: reqs).
Proof.
  intros h reqs RO C F P.
  destruct (call_first h [] (seq 0 (NrCh h)) RO C F eq_refl) as (h' & E & S & G).
  - destruct (NrCh h); [lia|discriminate].
  - apply seq_NoDup.
  - apply Forall_forall. intros x Hx. apply in_seq in Hx. lia.
  - cbn [calls]. rewrite E. pose proof (proj1 (proj2 S)) as B.
    rewrite (calls_known reqs h' (seq 0 (NrCh h))); [|destruct S as (_ & _ & _ & _ & R); congruence|assumption|].
    + cbn [snd map]. f_equal. apply map_ext. intros r. now rewrite (answer_same h h' r S).
    + intros req _ i _ Hi. apply in_seq. lia.
Qed.
Print Assumptions C27_after_full_read_partial.

(** More generally: after a first request without repetitions, every history that asks only for channels of
    that first request. *)
Theorem C27_within_first_request_partial : forall h r0 reqs, ReadOnly h = false -> complete h -> fresh h ->
  r0 <> [] -> NoDup r0 -> Forall (fun i => i < NrCh h) r0 ->
  (forall r, In r reqs -> r <> [] /\ incl r r0) ->
  snd (calls h (r0 :: reqs)) = map (fun r => Ok (answer h r)) (r0 :: reqs).
Proof.
  intros h r0 reqs RO C F NE ND FA H.
  destruct (call_first h r0 r0 RO C F) as (h' & E & S & G); try assumption.
  { destruct r0; [congruence|reflexivity]. }
  cbn [calls]. rewrite E.
  rewrite (calls_known reqs h' r0); [|destruct S as (_ & _ & _ & _ & R); congruence|assumption|].
  - cbn [snd map]. f_equal.
    + unfold answer. destruct r0; [congruence|]. rewrite (proj2 (forallb_forall _ _)); [reflexivity|].
      intros x Hx. rewrite Forall_forall in FA. now apply Nat.ltb_lt, FA.
    + apply map_ext. intros r. now rewrite (answer_same h h' r S).
  - intros req Hr i Hi _. destruct (H req Hr) as [N I]. destruct req; [congruence|]. now apply I.
Qed.
Print Assumptions C27_within_first_request_partial.

(** What must not change: a request with a channel number that is too high returns None and leaves the object
    as it is, whatever happened before. *)
Theorem C27_too_high : forall h req i, In i req -> NrCh h <= i -> call h req = (h, Ok None).
Proof.
  intros h req i Hi Hn. unfold call. destruct req as [|c req]; [easy|]. rewrite max_ge by easy.
  destruct (forallb _ (c :: req)) eqn:F; [|reflexivity]. rewrite forallb_forall in F. specialize (F i Hi).
  apply Nat.ltb_lt in F. lia.
Qed.
Print Assumptions C27_too_high.

(** For an ordinary object the property fails, for every file: two requests for different single channels
    give the first channel twice, whenever that channel is not identically zero. *)
Theorem C27_second_request_refuted : forall h i j, ReadOnly h = false -> complete h -> fresh h ->
  i < NrCh h -> j < NrCh h -> i <> j -> (exists x, In x (channel h i) /\ ~ (x == 0)%Q) ->
  snd (calls h [[i]; [j]]) = [Ok (Some [channel h i]); Ok (Some [channel h i])].
Proof.
  intros h i j RO C F Hi Hj N (x & Hx & Z). apply second_request_wrong; try assumption.
  unfold has_data. cbn [any_nonzero existsb]. rewrite Bool.orb_false_r. apply existsb_exists. exists x. split; [assumption|].
  apply Bool.negb_true_iff. apply Bool.not_true_iff_false. intros K. apply Qeq_bool_iff in K. contradiction.
Qed.
Print Assumptions C27_second_request_refuted.
(** ... and when it is identically zero the first channel is forgotten: asking for it again gives the other
    channel, and asking for the other channel again fails. *)
Theorem C27_zero_channel_refuted : forall h i j, ReadOnly h = false -> complete h -> fresh h ->
  i < NrCh h -> j < NrCh h -> i <> j -> (forall x, In x (channel h i) -> (x == 0)%Q) ->
  snd (calls h [[i]; [j]; [i]; [j]]) =
  [Ok (Some [channel h i]); Ok (Some [channel h j]); Ok (Some [channel h j]); Err IndexError].
Proof.
  intros h i j RO C F Hi Hj N Z. apply zero_channel_lost; try assumption.
  unfold has_data. cbn [any_nonzero existsb]. rewrite Bool.orb_false_r. intros K. apply existsb_exists in K.
  destruct K as (x & Hx & K). apply Z in Hx. apply Qeq_bool_iff in Hx. now rewrite Hx in K.
Qed.
Print Assumptions C27_zero_channel_refuted.
(** A first request that names a channel twice before another one fails. *)
Theorem C27_repeated_channel_refuted : forall h i j, ReadOnly h = false -> complete h -> fresh h ->
  i < NrCh h -> j < NrCh h -> i <> j -> snd (call h [i; i; j]) = Err IndexError.
Proof. exact repeat_request_fails. Qed.
Print Assumptions C27_repeated_channel_refuted.

(** A file of 2 channels and 2 scans: channel 0 = 1, 2 and channel 1 = 1.5, -1. *)
Definition ex_h2 (ro : bool) : h2 := mk_h2 2 2 [1; 1 # 2]%Q [1; 0; 2; 0; 3; 0; 254; 255]%N ro [] None.
Example C27_example :
  complete (ex_h2 false) /\ fresh (ex_h2 false) /\
  channel (ex_h2 false) 0 = [1 * 1; 2 * 1]%Q /\
  snd (calls (ex_h2 true) [[1]; [0]; []; [1; 1]; [2]]) =
    [Ok (Some [channel (ex_h2 true) 1]); Ok (Some [channel (ex_h2 true) 0]);
     Ok (Some [channel (ex_h2 true) 0; channel (ex_h2 true) 1]);
     Ok (Some [channel (ex_h2 true) 1; channel (ex_h2 true) 1]); Ok None] /\
  snd (calls (ex_h2 false) [[0]; [1]]) = [Ok (Some [channel (ex_h2 false) 0]); Ok (Some [channel (ex_h2 false) 0])].
Proof. vm_compute. repeat split; auto using le_n, le_S. Qed.

(** C54: names, units and descriptions written to a .sel file are read back, for every number of channels.
    The texts have to fit their columns: names at most 30 characters, units at most 11 without brackets, no
    leading or trailing blank, no line feed; SimTime does not round to zero. *)
Theorem C54_sel_round_trip_partial : forall base time nscans names units descrs,
  one_line base = true -> is_token time = true -> zero_text time = false -> List.length time < 16 ->
  (nscans < 10 ^ 11)%N -> (count names < 10 ^ 11)%N ->
  List.length units = List.length names -> List.length descrs = List.length names ->
  forallb label_fits names = true -> forallb unit_fits units = true -> forallb descr_fits descrs = true ->
  ReadSel (sel_text base time nscans (count names) names units descrs) =
  Some (Ok (mk_sel (Z.of_N nscans) (Z.of_nat (List.length names)) time false names units descrs)).
Proof.
  intros base time nscans names units descrs HB HT HZ LT HS HC LU LD HN HU HD.
  apply sel_roundtrip; try assumption.
  - apply (str_of_N_length_lt _ 11); [lia|assumption].
  - unfold count in HC. intros j Hj. apply (str_of_N_length_lt _ 11); [lia|].
    change (10 ^ N.of_nat 11)%N with (10 ^ 11)%N. lia.
Qed.
Print Assumptions C54_sel_round_trip_partial.
(** Outside these limits it fails.  A unit of more than 11 characters spills into the description, a name of
    31 characters loses its last one, and brackets around units are lost. *)
Definition u12 : str := S_ "kN.m/rad/s^2".
Definition n31 : str := S_ "abcdefghijklmnopqrstuvwxyz12345".
Theorem C54_long_texts_refuted :
  ReadSel (sel_text (S_ "r.dat") (S_ "10.000") 5 2 [S_ "Time"; n31] [u12; S_ "[kN]"] [S_ "t"; S_ "d"]) =
  Some (Ok (mk_sel 5 2 (S_ "10.000") false [S_ "Time"; firstn 30 n31] [firstn 11 u12; S_ "kN"] [S_ "2t"; S_ "d"])).
Proof. vm_compute. reflexivity. Qed.
Print Assumptions C54_long_texts_refuted.
(** Whenever the last time rounds to 0.000 the written pair of files cannot be read (ZeroDivisionError), whatever the
    channels. *)
Theorem C54_short_time_refuted : forall base nscans names units descrs,
  one_line base = true -> (nscans < 10 ^ 11)%N -> (count names < 10 ^ 11)%N ->
  forallb label_fits names = true -> forallb unit_fits units = true -> forallb descr_fits descrs = true ->
  ReadSel (sel_text base (S_ "0.000") nscans (count names) names units descrs) = Some (Err ZeroDivisionError).
Proof.
  intros base nscans names units descrs HB HS HC HN HU HD. apply sel_zero_time; try assumption.
  - apply (str_of_N_length_lt _ 11); [lia|assumption].
  - apply (str_of_N_length_lt _ 11); [lia|assumption].
Qed.
Print Assumptions C54_short_time_refuted.
Example C54_example :
  ReadSel (sel_text (S_ "r.dat") (S_ "10.000") 5 3 [S_ "Time"; S_ "Wind speed"; []] [S_ "s"; S_ "m/s"; S_ "-"]
            [S_ "Time"; S_ "free wind speed  (at hub)"; []]) =
  Some (Ok (mk_sel 5 3 (S_ "10.000") false [S_ "Time"; S_ "Wind speed"; []] [S_ "s"; S_ "m/s"; S_ "-"]
            [S_ "Time"; S_ "free wind speed  (at hub)"; []])) /\
  forallb label_fits [S_ "Time"; S_ "Wind speed"; []] = true /\
  forallb unit_fits [S_ "s"; S_ "m/s"; S_ "-"] = true /\
  forallb descr_fits [S_ "Time"; S_ "free wind speed  (at hub)"; []] = true.
Proof. vm_compute. repeat split; reflexivity. Qed.
