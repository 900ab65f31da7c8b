(** Properties C17-C21, C52, C53: FAST/OpenFAST binary output files. *)
From Verif Require Import Py PyFacts ListFacts FS Bytes Float MannBox_Model MannBox_Proofs TurbSim_Model TurbSim_Proofs TurbSim_Quant TurbSim_More FASTOut_Model FASTOut_Proofs FASTOut_Round FASTOut_Quant FASTOut_Cols.
From Coq Require Import QArith Qabs Lqa.
Local Open Scope nat_scope.

(** ** Small specification *)

(** How units may be given to the writer: bare (and the first one non empty), or all in parentheses. *)
Inductive given_units (vs : list str) : list str -> Prop :=
| given_bare : (exists c u r, vs = (c :: u) :: r /\ c <> "("%char) -> given_units vs vs
| given_paren : vs <> [] -> given_units vs (map paren vs).

(** A table of fixed-size items read from bytes: nRows rows of nCols items, row by row. *)
Definition is_table (nb nRows nCols : nat) (b : bytes) (t : list (list bytes)) : Prop :=
  List.length t = nRows /\ (forall r, In r t -> List.length r = nCols) /\
  (forall i j, i < nRows -> j < nCols -> exists r, nth_error t i = Some r /\
     nth_error r j = Some (firstn nb (skipn (nb * (i * nCols + j)) b))).

Lemma given_units_read vs us us' : given_units vs us -> wrap_units us = Ok us' -> map inner (map strip us') = vs.
Proof.
  intros H E. assert (M : map inner (map strip (map paren vs)) = vs).
  { rewrite !map_map. rewrite <- (map_id vs) at 2. apply map_ext. apply inner_paren. }
  destruct H as [(c & u & r & -> & Hc)|Hne].
  - unfold wrap_units in E. destruct (chr_eqb_spec c "("%char); [contradiction|]. apply Ok_inj in E. subst us'. exact M.
  - destruct vs as [|v vs]; [contradiction|]. cbn [map] in E. unfold paren at 1 in E.
    cbn [S_ list_ascii_of_string app wrap_units] in E. apply Ok_inj in E. subst us'.
    change (map inner (map strip (map paren (v :: vs))) = v :: vs). exact M.
Qed.

(** ** C17 *)
Theorem C17_binary_roundtrip : forall f p c names vs units desc f' use_buffer,
  writeBinary f p c names units 2 desc = (f', Ok tt) ->
  List.length names = c_nC c -> List.length units = c_nC c -> 2 <= c_nC c -> (Z.of_nat (c_nC c - 1) <= 163840)%Z ->
  given_units vs units -> (forall n, In n names -> strip n = n) -> strip desc = desc ->
  exists b o, f' p = Reg b /\ load_binary use_buffer b = Ok o /\
    ob_desc o = desc /\ ob_names o = names /\ ob_units o = vs /\ ob_nT o = c_nT c /\ ob_nC o = c_nC c - 1 /\
    List.length (ob_data o) = c_nT c /\
    (forall j, j < c_nC c - 1 -> exists lo hi, col_bounds c (S j) lo hi /\
       forall i, i < c_nT c ->
         ob_int o i j = Some (pack16 (col_scl (rnd binary32) lo hi) (col_off (rnd binary32) lo hi) (c_v c i (S j)))) /\
    (forall q, q <> p -> f' q = f q).
Proof.
  intros f p c names vs units desc f' ub H HN HU HC HB Hg Hn Hd.
  destruct (out_roundtrip f p c names units desc f' ub H HN HU HC HB) as
    (b & o & units' & params & EF & EL & EO & EU & EP & _ & ET & EC & EN & EUn & ED & _ & _ & LD & HI).
  exists b, o. split; [exact EF|]. split; [exact EL|]. rewrite ED, EN, EUn. split; [exact Hd|].
  split; [rewrite <- (map_id names) at 2; apply map_ext_in; exact Hn|].
  split; [eapply given_units_read; eassumption|]. repeat (split; [assumption|]). split; [|exact EO].
  intros j Hj. pose proof (map_res_length _ _ _ EP) as LP. rewrite seq_length in LP. apply map_res_inv in EP.
  destruct (nth_error params j) as [[s r]|] eqn:Ej; [|apply nth_error_None in Ej; lia].
  assert (Es : nth_error (seq 0 (c_nC c - 1)) j = Some j).
  { rewrite (nth_error_nth' _ 0) by (rewrite seq_length; exact Hj). rewrite seq_nth by exact Hj. reflexivity. }
  pose proof (Forall2_nth_error _ _ _ _ _ _ EP Es Ej) as Hp. cbn beta in Hp.
  destruct (col_params_bounds _ _ _ _ _ Hp) as (lo & hi & Hb & -> & ->). exists lo, hi. split; [exact Hb|].
  intros i Hi. apply HI; assumption.
Qed.
Print Assumptions C17_binary_roundtrip.

Theorem C17_write_succeeds : forall f p c names vs units desc, table_ok c -> given_units vs units ->
  (exists r, names = S_ "Time" :: r) -> (forall n, In n names -> List.length n <= 10) ->
  (forall v, In v vs -> List.length v <= 8) -> (Z.of_nat (List.length desc) <= 2147483647)%Z -> f p <> Dir ->
  exists f', writeBinary f p c names units 2 desc = (f', Ok tt).
Proof.
  intros f p c names vs units desc Hc Hg (r & ->) Hn Hv Hd Hp.
  assert (G : wrap_units units = Ok (map paren vs)).
  { destruct Hg as [(ch & u & t & -> & Hch)|Hne].
    - unfold wrap_units. destruct (chr_eqb_spec ch "("%char); [contradiction|]. reflexivity.
    - destruct vs as [|v vs]; [contradiction|]. reflexivity. }
  apply (out_write_ok f p c _ units (map paren vs) desc); try assumption; [reflexivity|].
  intros u Hu. apply in_map_iff in Hu as (v & <- & Hin). specialize (Hv v Hin). unfold paren. cbn. rewrite app_length. cbn. lia.
Qed.
Print Assumptions C17_write_succeeds.

Definition ex_table : chans := {| c_nT := 3; c_nC := 3;
  c_v := fun i j => match j with 0 => inject_Z (Z.of_nat i) | 1 => (inject_Z (Z.of_nat (i * i)) - 7)%Q | _ => 5%Q end |}.
Example C17_nontrivial : exists f' b o,
  writeBinary (fun _ => Missing) (S_ "a.outb") ex_table [S_ "Time"; S_ "Power"; S_ "Const"] [S_ "s"; S_ "kW"; S_ "-"] 2 (S_ "hello") = (f', Ok tt) /\
  f' (S_ "a.outb") = Reg b /\ load_binary true b = Ok o /\ ob_names o = [S_ "Time"; S_ "Power"; S_ "Const"] /\
  ob_units o = [S_ "s"; S_ "kW"; S_ "-"] /\ ob_desc o = S_ "hello" /\ map (fun i => ob_int o i 0) [0; 1; 2] = [Some (-32768); Some (-16384); Some 32767]%Z.
Proof. do 3 eexists. split; [vm_compute; reflexivity|]. split; [vm_compute; reflexivity|]. split; [vm_compute; reflexivity|]. vm_compute. auto. Qed.

(** A table with no channel but the time is written, and cannot be read back. *)
Theorem C17_time_only_refuted : exists c f' b,
  writeBinary (fun _ => Missing) (S_ "a.outb") c [S_ "Time"] [S_ "s"] 2 [] = (f', Ok tt) /\
  f' (S_ "a.outb") = Reg b /\ load_binary true b = Err ZeroDivisionError.
Proof.
  exists {| c_nT := 2; c_nC := 1; c_v := fun i _ => inject_Z (Z.of_nat i) |}. do 2 eexists.
  split; [vm_compute; reflexivity|]. split; [vm_compute; reflexivity|]. vm_compute. reflexivity.
Qed.
Print Assumptions C17_time_only_refuted.

(** ** C18 *)
Theorem C18_buffer_size_irrelevant : forall good nb nCols nRows b, 0 < nCols -> (N.of_nat nCols <= good)%N ->
  (nb * (nRows * nCols) <= List.length b ->
     exists t, read_table good nb nCols (nRows * nCols) b = Ok (t, skipn (nb * (nRows * nCols)) b) /\
               read_table_direct nb nCols (nRows * nCols) b = Ok (t, skipn (nb * (nRows * nCols)) b) /\
               is_table nb nRows nCols b t) /\
  (List.length b < nb * (nRows * nCols) ->
     (exists e, read_table good nb nCols (nRows * nCols) b = Err e) /\ (exists e, read_table_direct nb nCols (nRows * nCols) b = Err e)).
Proof.
  intros good nb nCols nRows b Hc Hg. rewrite read_table_spec, read_table_direct_spec by assumption. split; intro H.
  - destruct (Nat.ltb_spec (List.length b) (nb * (nRows * nCols))); [lia|].
    eexists. split; [reflexivity|]. split; [reflexivity|]. apply rows_of_spec.
  - destruct (Nat.ltb_spec (List.length b) (nb * (nRows * nCols))); [|lia]. split; eexists; reflexivity.
Qed.
Print Assumptions C18_buffer_size_irrelevant.

(** A row longer than the buffer (or of no column) is always an error, never wrong data. *)
Theorem C18_row_larger_than_buffer : forall good nb nCols n b, (nCols = 0 \/ (good < N.of_nat nCols)%N) ->
  read_table good nb nCols n b = Err ZeroDivisionError.
Proof. exact read_table_bad. Qed.
Print Assumptions C18_row_larger_than_buffer.

Example C18_nontrivial :
  let b := map N.of_nat (seq 0 24) in
  exists t, read_table 5 2 2 12 b = Ok (t, []) /\ read_table 163840 2 2 12 b = Ok (t, []) /\ nth_error t 5 = Some [[20; 21]; [22; 23]]%N.
Proof. eexists. split; [vm_compute; reflexivity|]. split; vm_compute; reflexivity. Qed.

(** ** C19 *)
Theorem C19_quantisation_exact : forall c j lo hi i, col_bounds c j lo hi -> i < c_nT c ->
  let s := col_scl (fun q => q) lo hi in let o := col_off (fun q => q) lo hi in let n := pack16 s o (c_v c i j) in
  (-32768 <= n <= 32767)%Z /\ (0 < s)%Q /\ (Qabs ((inject_Z n - o) / s - c_v c i j) <= (hi - lo) / 65535)%Q /\
  ((lo == hi)%Q -> ((inject_Z n - o) / s == c_v c i j)%Q).
Proof.
  intros c j lo hi i (B & _ & _) Hi. cbv zeta. destruct (B i Hi) as [B1 B2]. split; [apply pack16_range|].
  destruct (pack16_exact (fun q => q) lo hi (c_v c i j) (fun q => Qeq_refl q) B1 B2) as [Hs He]. split; [exact Hs|]. split; [exact He|].
  intro E. assert (Z0 : ((hi - lo) / 65535 == 0)%Q) by (rewrite E; field).
  set (r := ((hi - lo) / 65535)%Q) in *. apply Qabs_bound in He. lra.
Qed.
Print Assumptions C19_quantisation_exact.

(** Any rounding whatsoever: the stored integer is the truncation of the scaled value clipped to the int16
    range, never a wrapped-around one. *)
Theorem C19_no_wrap_around : forall (fl : Q -> Q) lo hi x,
  let y := (col_scl fl lo hi * x + col_off fl lo hi)%Q in let n := pack16 (col_scl fl lo hi) (col_off fl lo hi) x in
  ((y < -32768)%Q -> n = (-32768)%Z) /\ ((32767 < y)%Q -> n = 32767%Z) /\
  ((-32768 <= y)%Q -> (y <= 32767)%Q -> (Qabs (y - inject_Z n) < 1)%Q /\ (-32768 <= n <= 32767)%Z).
Proof.
  intros fl lo hi x. cbv zeta. rewrite pack16_trunc. set (y := (_ * x + _)%Q). split; [|split].
  - intro H. apply Qtrunc_Z. unfold clip16. rewrite (Qminmax.Q.max_r y (-32768)) by lra. apply Qminmax.Q.min_l. discriminate.
  - intro H. apply Qtrunc_Z. unfold clip16. 
    apply Qminmax.Q.min_r.
    change (inject_Z 32767) with 32767%Q. apply Qle_trans with y; [lra|apply Qminmax.Q.le_max_l].
  - intros H1 H2. split.
    + pose proof (Qtrunc_spec (clip16 y)) as T. set (n := Qtrunc (clip16 y)) in *. rewrite (clip16_id y H1 H2) in T. exact T.
    + unfold y. rewrite <- pack16_trunc. apply pack16_range.
Qed.
Print Assumptions C19_no_wrap_around.

Example C19_nontrivial : col_bounds ex_table 1 (-7) (-3) /\ (~ (-7 == -3))%Q.
Proof.
  split; [|discriminate]. split; [|split].
  - intros [|[|[|i]]] Hi; cbn in Hi; try lia; split; vm_compute; discriminate.
  - exists 0. split; [cbn; lia|reflexivity].
  - exists 2. split; [cbn; lia|reflexivity].
Qed.

(** ** C52: accuracy of a written file, with single precision scale and offset *)
Theorem C52_file_accuracy : forall f p c names units desc f' use_buffer,
  writeBinary f p c names units 2 desc = (f', Ok tt) ->
  List.length names = c_nC c -> List.length units = c_nC c -> 2 <= c_nC c -> (Z.of_nat (c_nC c - 1) <= 163840)%Z ->
  exists b o, f' p = Reg b /\ load_binary use_buffer b = Ok o /\ ob_nT o = c_nT c /\ ob_nC o = c_nC c - 1 /\
    forall j, j < c_nC c - 1 -> exists lo hi, col_bounds c (S j) lo hi /\
      (fair_range lo hi -> forall i, i < c_nT c -> exists v, ob_value o i j = Some v /\
        (Qabs (v - c_v c i (S j)) <= eff_range lo hi / 65535 * (1 + (1 # 20)) + Qabs lo * (1 # 4000000))%Q).
Proof. exact out_accuracy. Qed.
Print Assumptions C52_file_accuracy.

Example C52_nontrivial : fair_range (-7) (-3) /\ fair_range 5 5.
Proof. split; [right; split; discriminate|left; reflexivity]. Qed.

(** ** C53: the time column *)
Theorem C53_uniform_time_partial : forall f p c names units desc f' use_buffer t0 dt,
  writeBinary f p c names units 2 desc = (f', Ok tt) ->
  List.length names = c_nC c -> List.length units = c_nC c -> 2 <= c_nC c -> (Z.of_nat (c_nC c - 1) <= 163840)%Z ->
  (forall i, i < c_nT c -> (c_v c i 0 == t0 + dt * inject_Z (Z.of_nat i))%Q) ->
  (rnd binary64 (c_v c 0 0) == t0)%Q -> (rnd binary64 (c_v c 1 0 - c_v c 0 0) == dt)%Q ->
  exists b o, f' p = Reg b /\ load_binary use_buffer b = Ok o /\
    forall i, i < c_nT c -> exists t, ob_time o i = Some t /\ (t == c_v c i 0)%Q.
Proof.
  intros f p c names units desc f' ub t0 dt H HN HU HC HB HT E0 E1.
  destruct (out_roundtrip f p c names units desc f' ub H HN HU HC HB) as
    (b & o & units' & params & EF & EL & _ & _ & _ & _ & _ & _ & _ & _ & _ & (a & d & Ea & Ed & Qa & Qd) & _).
  exists b, o. split; [exact EF|]. split; [exact EL|]. intros i Hi. unfold ob_time. rewrite Ea, Ed.
  eexists. split; [reflexivity|]. rewrite (HT i Hi), Qa, Qd, E0, E1. reflexivity.
Qed.
Print Assumptions C53_uniform_time_partial.

Theorem C53_time_column_refuted : exists c f' b o t,
  writeBinary (fun _ => Missing) (S_ "a.outb") c [S_ "Time"; S_ "A"] [S_ "s"; S_ "m"] 2 [] = (f', Ok tt) /\
  f' (S_ "a.outb") = Reg b /\ load_binary true b = Ok o /\ ob_time o 2 = Some t /\ (t == 2)%Q /\ (c_v c 2 0 == 10)%Q.
Proof.
  exists {| c_nT := 3; c_nC := 2; c_v := fun i j => match i with 2 => 10%Q | _ => inject_Z (Z.of_nat i) end |}. do 4 eexists.
  split; [vm_compute; reflexivity|]. split; [vm_compute; reflexivity|]. split; [vm_compute; reflexivity|].
  split; [vm_compute; reflexivity|]. split; reflexivity.
Qed.
Print Assumptions C53_time_column_refuted.

Example C53_nontrivial : (rnd binary64 (c_v ex_table 0 0) == 0)%Q /\ (rnd binary64 (c_v ex_table 1 0 - c_v ex_table 0 0) == 1)%Q.
Proof. split; vm_compute; reflexivity. Qed.

(** ** C20 *)
Theorem C20_units_follow_columns_refuted :
  (* a later column without unit silently gets the unit of the column before it *)
  split_columns None [S_ "Time_[s]"; S_ "Power_[kW]"; S_ "Counter"] = Ok [(S_ "Time", S_ "s"); (S_ "Power", S_ "kW"); (S_ "Counter", S_ "kW")] /\
  (* a first column without unit is an error *)
  split_columns None [S_ "Time"; S_ "Power_[kW]"] = Err UnboundLocalError.
Proof. split; vm_compute; reflexivity. Qed.
Print Assumptions C20_units_follow_columns_refuted.

Theorem C20_units_follow_columns_partial : forall cols : list (str * ascii * ascii * str),
  Forall (fun q => match q with (base, op, cl, u) => brackets op cl /\ 2 <= List.length base /\
      (forall c r, base = c :: r -> is_space c = false) /\ ~ In op u /\ ~ In cl u end) cols ->
  split_columns None (map (fun q => match q with (base, op, cl, u) => with_unit base op cl u end) cols) =
  Ok (map (fun q => match q with (base, op, cl, u) => (name_of base, u) end) cols).
Proof. exact (split_columns_units None). Qed.
Print Assumptions C20_units_follow_columns_partial.

Example C20_nontrivial : map (fun q => match q with (base, op, cl, u) => with_unit base op cl u end)
    [(S_ "Time_", "["%char, "]"%char, S_ "s"); (S_ "Gen Pwr ", "("%char, ")"%char, S_ "kW")] = [S_ "Time_[s]"; S_ "Gen Pwr (kW)"].
Proof. reflexivity. Qed.

(** What the writer does for every list of titles: a title without unit silently takes the last unit seen before it, and
    there must be one. *)
Theorem C20_units_inherited : forall base op cl u ts, Forall title_ok (WithUnit base op cl u :: ts) ->
  split_columns None (map title_text (WithUnit base op cl u :: ts)) =
  Ok (combine (map title_name (WithUnit base op cl u :: ts)) (last_units u (WithUnit base op cl u :: ts))).
Proof.
  intros base op cl u ts H. inversion H as [|? ? Ht Hts]; subst. destruct Ht as (A & B & C & D & E).
  cbn [map split_columns title_text title_name last_units combine]. rewrite split_column_unit by assumption. cbn [bind].
  rewrite split_columns_inherit by exact Hts. reflexivity.
Qed.
Print Assumptions C20_units_inherited.
Theorem C20_first_title_needs_unit : forall c cols, no_unit c -> split_columns None (c :: cols) = Err UnboundLocalError.
Proof. intros c cols H. cbn [split_columns]. rewrite split_column_no_unit_first by exact H. reflexivity. Qed.
Print Assumptions C20_first_title_needs_unit.
Example C20_inherited_nontrivial : Forall title_ok [WithUnit (S_ "Time_") "["%char "]"%char (S_ "s"); Bare (S_ "Counter"); Bare (S_ "a)")] /\
  last_units [] [WithUnit (S_ "Time_") "["%char "]"%char (S_ "s"); Bare (S_ "Counter"); Bare (S_ "a)")] = [S_ "s"; S_ "s"; S_ "s"].
Proof.
  split; [|reflexivity]. apply Forall_cons; [|apply Forall_cons; [|apply Forall_cons; [|constructor]]].
  - split; [left; split; reflexivity|]. split; [cbn; lia|]. split; [intros c r E; injection E as <- <-; reflexivity|]. split; cbn; intuition discriminate.
  - exists "r"%char. eexists. split; [vm_compute; reflexivity|]. left. split; discriminate.
  - exists ")"%char. eexists. split; [vm_compute; reflexivity|]. right. exists "("%char. split; [right; split; reflexivity|]. vm_compute. intuition discriminate.
Qed.

Theorem C20_first_column_without_unit : forall c, (forall d r, rev (strip c) = d :: r -> d <> "]"%char /\ d <> ")"%char) ->
  forall f p t cols, exists e, writeDataFrame f p t (c :: cols) = (f, Err e).
Proof.
  intros c Hc f p t cols. unfold writeDataFrame. cbn [split_columns]. rewrite split_column_none by exact Hc. cbn [bind].
  eexists. reflexivity.
Qed.
Print Assumptions C20_first_column_without_unit.

(** ** C21 *)
Theorem C21_previous_file_lost_refuted : exists c old f',
  let f := fun q => if str_eqb q (S_ "a.outb") then Reg old else Missing in
  old <> [] /\
  writeBinary f (S_ "a.outb") c [S_ "Time"; S_ "elevenchars"] [S_ "s"; S_ "m"] 2 [] = (f', Err StructError) /\
  f' (S_ "a.outb") <> Reg old.
Proof.
  exists {| c_nT := 2; c_nC := 2; c_v := fun i j => inject_Z (Z.of_nat i) |}, [7%N]. eexists. cbv zeta.
  split; [discriminate|]. split; [vm_compute; reflexivity|]. vm_compute. discriminate.
Qed.
Print Assumptions C21_previous_file_lost_refuted.

(** Names and units that fit, and numbers of ordinary size: a failure leaves everything as it was. *)
Theorem C21_failure_keeps_files_partial : forall f p c names units desc f' e,
  writeBinary f p c names units 2 desc = (f', Err e) ->
  (forall n, In n names -> List.length n <= 10) -> (forall u, In u units -> List.length u <= 8) ->
  (Z.of_nat (List.length desc) <= 2147483647)%Z -> table_ok c \/ c_nC c = 0 \/ c_nT c < 2 ->
  forall q, f' q = f q.
Proof.
  intros f p c names units desc f' e H Hn Hu Hd Hc q.
  destruct (wrap_units units) as [units'|] eqn:EU.
  2:{ unfold writeBinary in H. rewrite EU in H. cbn in H. congruence. }
  destruct (time_first names) eqn:ET.
  2:{ unfold writeBinary in H. rewrite EU, ET in H. cbn in H. congruence. }
  destruct Hc as [Hc|[Hc|Hc]].
  - destruct (out_pieces_ok f p c names units units' desc Hc EU ET Hn) as (bs & E); [|exact Hd|].
    + intros u Hin. unfold wrap_units in EU. destruct units as [|[|ch u0] us]; try discriminate. apply Ok_inj in EU. subst units'.
      destruct (chr_eqb ch "("%char).
      * specialize (Hu u Hin). lia.
      * apply in_map_iff in Hin as (v & <- & Hv). specialize (Hu v Hv). unfold paren. cbn. rewrite app_length. cbn. lia.
    + rewrite E in H. destruct (f p) eqn:Ep.
      1,3: destruct (write_file_ok f p bs) as (f1 & E1 & _); [congruence|]; rewrite E1 in H; discriminate.
      unfold write_file, fs_open_w in H. rewrite Ep in H. congruence.
  - unfold writeBinary in H. rewrite EU, ET in H. cbn [bind] in H. rewrite Hc in H. cbn in H. congruence.
  - unfold writeBinary in H. rewrite EU, ET in H. cbn [bind] in H. destruct (Nat.eqb_spec (c_nC c) 0); cbn [bind] in H; [congruence|].
    destruct (Nat.ltb_spec (c_nT c) 2); [|lia]. cbn in H. congruence.
Qed.
Print Assumptions C21_failure_keeps_files_partial.

Theorem C21_other_files_never_touched : forall f p c names units id desc q, q <> p ->
  fst (writeBinary f p c names units id desc) q = f q.
Proof.
  intros f p c names units id desc q Hq. unfold writeBinary.
  match goal with |- fst (match ?r with _ => _ end) q = _ => destruct r as [[u ps]|e] end; [|reflexivity].
  destruct (negb (id =? 2)%Z); [reflexivity|]. apply write_file_other. exact Hq.
Qed.
Print Assumptions C21_other_files_never_touched.

Example C21_nontrivial : exists f', writeBinary (fun _ => Reg [1%N]) (S_ "a.outb") ex_table [S_ "t"; S_ "A"; S_ "B"] [S_ "s"; S_ "m"; S_ "m"] 2 []
  = (f', Err PlainException).
Proof. eexists. vm_compute. reflexivity. Qed.
