From Verif Require Import Py PyFacts ListFacts FS Bytes Float MannBox_Model MannBox_Proofs TurbSim_Model TurbSim_Proofs TurbSim_Quant FASTOut_Model FASTOut_Proofs.
From Coq Require Import QArith Qminmax Qabs Lqa.
Local Open Scope nat_scope.

Lemma map_res_inv {A B} (g : A -> res B) l ys : map_res g l = Ok ys -> Forall2 (fun x y => g x = Ok y) l ys.
Proof.
  revert ys. induction l as [|x l IH]; intros ys H; cbn in H.
  - apply Ok_inj in H. subst. constructor.
  - destruct (g x) as [y|] eqn:E; cbn in H; [|discriminate]. destruct (map_res g l) as [zs|]; cbn in H; [|discriminate].
    apply Ok_inj in H. subst. constructor; [exact E|]. apply IH. reflexivity.
Qed.
Lemma map_res_length {A B} (g : A -> res B) l ys : map_res g l = Ok ys -> List.length ys = List.length l.
Proof. intro H. apply map_res_inv in H. induction H; cbn; congruence. Qed.
Lemma Forall2_nth_error {A B} (R : A -> B -> Prop) l m i x y : Forall2 R l m -> nth_error l i = Some x -> nth_error m i = Some y -> R x y.
Proof.
  intro H. revert i. induction H as [|a b l m Hab H IH]; intros [|i] H1 H2; cbn in *; try discriminate.
  - congruence.
  - eapply IH; eassumption.
Qed.

Lemma map_Ok_app {A} (l1 l2 : list (res A)) bs : l1 ++ l2 = map Ok bs ->
  exists b1 b2, bs = b1 ++ b2 /\ l1 = map Ok b1 /\ l2 = map Ok b2.
Proof.
  revert bs. induction l1 as [|x l1 IH]; intros bs H; cbn in H.
  - exists [], bs. auto.
  - destruct bs as [|b bs]; [discriminate|]. cbn [map] in H. apply cons_inj in H as [H1 H2].
    destruct (IH bs H2) as (b1 & b2 & -> & -> & ->). exists (b :: b1), b2. subst x. auto.
Qed.

(** The pieces of a successful write. *)
Lemma writeBinary_inv f p c names units desc f' :
  writeBinary f p c names units 2 desc = (f', Ok tt) ->
  exists units' params, wrap_units units = Ok units' /\ 2 <= c_nT c /\ 1 <= c_nC c /\
    map_res (fun j => col_params (rnd binary32) c (S j)) (seq 0 (c_nC c - 1)) = Ok params /\
    exists bt bd bscl boff bn bu,
      in_sint 4 (Z.of_nat (c_nC c - 1)) = true /\ in_sint 4 (Z.of_nat (c_nT c)) = true /\
      pack_f64 (c_v c 0 0) = Ok bt /\ pack_f64 (c_v c 1 0 - c_v c 0 0)%Q = Ok bd /\
      map pack_f32 (map fst params) = map Ok bscl /\ map pack_f32 (map snd params) = map Ok boff /\
      in_sint 4 (Z.of_nat (List.length desc)) = true /\
      map pack_name names = map Ok bn /\ map pack_name units' = map Ok bu /\
      f' p = Reg (le 2 2 ++ le 4 (Z.of_nat (c_nC c - 1)) ++ le 4 (Z.of_nat (c_nT c)) ++ bt ++ bd ++
                  concat bscl ++ concat boff ++ le 4 (Z.of_nat (List.length desc)) ++ map N_of_ascii desc ++
                  concat bn ++ concat bu ++ concat (map tobytes16 (packed_rows c params))) /\
      (forall q, q <> p -> f' q = f q).
Proof.
  unfold writeBinary. intro H.
  destruct (wrap_units units) as [units'|] eqn:EU; cbn [bind] in H; [|discriminate].
  destruct (time_first names); cbn [bind] in H; [|discriminate].
  destruct (Nat.eqb_spec (c_nC c) 0) as [|HC]; cbn [bind] in H; [discriminate|].
  destruct (Nat.ltb_spec (c_nT c) 2) as [|HT]; cbn [bind] in H; [discriminate|].
  destruct (map_res _ _) as [params|] eqn:EP; cbn [bind] in H; [|discriminate].
  change (2 =? 2)%Z with true in H. cbn [negb] in H. exists units', params. split; [reflexivity|]. split; [exact HT|]. split; [lia|].
  split; [reflexivity|].
  apply write_file_inv in H as (bs & E & EF & EO).
  apply map_Ok_app in E as (bs1 & bs2 & -> & E1 & E2).
  apply map_Ok_app in E2 as (bn & bs3 & -> & E2 & E3).
  apply map_Ok_app in E3 as (bu & bs4 & -> & E3 & E4).
  repeat (let b := fresh "b" in destruct bs1 as [|b bs1]; [discriminate|]; cbn [map] in E1;
    let X := fresh "X" in apply cons_inj in E1 as [X E1]).
  destruct bs1; [|discriminate].
  destruct bs4 as [|bdat bs4]; [discriminate|]. cbn [map] in E4. apply cons_inj in E4 as [X8 E4]. destruct bs4; [|discriminate].
  apply pack_s_inv in X as [_ ->]. apply pack_s_inv in X0 as [R0 ->]. apply pack_s_inv in X1 as [R1 ->].
  apply concat_res_inv in X4 as (bscl & X4 & ->). apply concat_res_inv in X5 as (boff & X5 & ->).
  apply pack_s_inv in X6 as [R6 ->]. apply Ok_inj in X7. apply Ok_inj in X8. subst.
  exists b2, b3, bscl, boff, bn, bu. rewrite !map_map. repeat (split; [assumption|]).
  split; [|exact EO]. rewrite EF. f_equal. rewrite !concat_app. cbn [concat app]. rewrite !app_nil_r, !app_assoc. reflexivity.
Qed.

Lemma packed_rows_ok c params : List.length params = c_nC c - 1 ->
  List.length (packed_rows c params) = c_nT c /\
  Forall (fun r => List.length r = c_nC c - 1 /\ Forall (fun z => in_sint 2 z = true) r) (packed_rows c params) /\
  (forall i j s o, i < c_nT c -> nth_error params j = Some (s, o) ->
     exists r, nth_error (packed_rows c params) i = Some r /\ nth_error r j = Some (pack16 s o (c_v c i (S j)))).
Proof.
  intro HL. unfold packed_rows. split; [rewrite map_length, seq_length; reflexivity|]. split.
  - apply Forall_forall. intros r Hr. apply in_map_iff in Hr as (i & <- & _). split.
    + rewrite map_length, combine_length, seq_length. lia.
    + apply Forall_forall. intros z Hz. apply in_map_iff in Hz as (jp & <- & _). apply in_int16, pack16_range.
  - intros i j s o Hi Hj. rewrite map_seq_nth_error by exact Hi. eexists. split; [reflexivity|].
    rewrite nth_error_map.
    assert (Hjl : j < List.length params) by (apply nth_error_Some; congruence).
    replace (nth_error (combine (seq 0 (List.length params)) params) j) with (Some (j, (s, o))); [reflexivity|].
    symmetry. rewrite (nth_error_nth' _ (0, (s, o))) by (rewrite combine_length, seq_length; lia).
    rewrite combine_nth by apply seq_length. rewrite seq_nth by exact Hjl. f_equal. f_equal.
    apply nth_error_nth. exact Hj.
Qed.

Lemma rows_of_packed R nC t :
  Forall (fun r => List.length r = nC /\ Forall (fun z => in_sint 2 z = true) r) R ->
  rows_of 2 (List.length R) nC (concat (map tobytes16 R) ++ t) = map (map (le 2)) R.
Proof.
  intro H. unfold tobytes16. rewrite <- (map_length (map (le 2)) R). 
  rewrite <- (map_map (map (le 2)) (@concat N)). apply rows_of_concat.
  apply Forall_map. eapply Forall_impl; [|exact H]. intros r [A _]. split; [rewrite map_length; exact A|].
  apply Forall_map, Forall_forall. intros z _. apply le_length.
Qed.

Lemma fread_text s r : fread 1 (Z.of_nat (List.length s)) (map N_of_ascii s ++ r) = Ok (map (fun x => [x]) (map N_of_ascii s), r).
Proof.
  rewrite fread_app by (rewrite map_length; lia). do 2 f_equal.
  rewrite <- (map_length N_of_ascii s). apply chunks_bytes.
Qed.

Theorem out_roundtrip f p c names units desc f' ub :
  writeBinary f p c names units 2 desc = (f', Ok tt) ->
  List.length names = c_nC c -> List.length units = c_nC c -> 2 <= c_nC c -> (Z.of_nat (c_nC c - 1) <= 163840)%Z ->
  exists b o units' params, f' p = Reg b /\ load_binary ub b = Ok o /\ (forall q, q <> p -> f' q = f q) /\
    wrap_units units = Ok units' /\
    map_res (fun j => col_params (rnd binary32) c (S j)) (seq 0 (c_nC c - 1)) = Ok params /\
    ob_ID o = 2%Z /\ ob_nT o = c_nT c /\ ob_nC o = c_nC c - 1 /\
    ob_names o = map strip names /\ ob_units o = map inner (map strip units') /\ ob_desc o = strip desc /\
    (exists t0 dt, ob_t0 o = Some t0 /\ ob_dt o = Some dt /\ (t0 == rnd binary64 (c_v c 0 0))%Q /\
        (dt == rnd binary64 (c_v c 1 0 - c_v c 0 0))%Q) /\
    (exists ss oo, ob_scl o = map Some ss /\ ob_off o = map Some oo /\
        Forall2 (fun v q => (v == rnd binary32 (fst q))%Q) ss params /\ Forall2 (fun v q => (v == rnd binary32 (snd q))%Q) oo params) /\
    List.length (ob_data o) = c_nT c /\
    (forall i j s r, i < c_nT c -> nth_error params j = Some (s, r) -> ob_int o i j = Some (pack16 s r (c_v c i (S j)))).
Proof.
  intros H HN HU HC HB. pose proof (writeBinary_inv _ _ _ _ _ _ _ H) as
    (units' & params & EU & HT & HC1 & EP & bt & bd & bscl & boff & bn & bu & R1 & R2 & Ebt & Ebd & Escl & Eoff & R3 & En & Eu & EF & EO).
  pose proof (map_res_length _ _ _ EP) as LP. rewrite seq_length in LP.
  assert (LU : List.length units' = c_nC c).
  { unfold wrap_units in EU. destruct units as [|[|ch u] us]; try discriminate. apply Ok_inj in EU. subst units'.
    destruct (chr_eqb ch "("); [exact HU|rewrite map_length; exact HU]. }
  set (data := concat (map tobytes16 (packed_rows c params))) in *.
  destruct (packed_rows_ok c params LP) as (LR & FR & NR).
  destruct (take_f64_pack _ _ (bd ++ concat bscl ++ concat boff ++ le 4 (Z.of_nat (List.length desc)) ++ map N_of_ascii desc ++
                  concat bn ++ concat bu ++ data) Ebt) as (t0 & T0 & Et0).
  destruct (take_f64_pack _ _ (concat bscl ++ concat boff ++ le 4 (Z.of_nat (List.length desc)) ++ map N_of_ascii desc ++
                  concat bn ++ concat bu ++ data) Ebd) as (dt & T1 & Edt).
  destruct (fread_f32 _ _ (concat boff ++ le 4 (Z.of_nat (List.length desc)) ++ map N_of_ascii desc ++
                  concat bn ++ concat bu ++ data) Escl) as (ss & T2 & Ess & Fss).
  destruct (fread_f32 _ _ (le 4 (Z.of_nat (List.length desc)) ++ map N_of_ascii desc ++
                  concat bn ++ concat bu ++ data) Eoff) as (oo & T3 & Eoo & Foo).
  rewrite map_length, LP in T2, T3.
  eexists. exists {| ob_ID := 2%Z; ob_nT := c_nT c; ob_nC := c_nC c - 1; ob_names := map strip names;
    ob_units := map inner (map strip units'); ob_desc := strip desc; ob_t0 := Some t0; ob_dt := Some dt; ob_ptime := [];
    ob_scl := map Some ss; ob_off := map Some oo; ob_data := map (map (le 2)) (packed_rows c params) |}, units', params.
  split; [exact EF|]. split; [|split; [exact EO|split; [exact EU|split; [exact EP|]]]].
  - unfold load_binary. rewrite take_s_app; [|lia|reflexivity]. cbn [bind].
    change (negb ((2 =? 1) || (2 =? 2) || (2 =? 3) || (2 =? 4))%Z) with false. cbn iota.
    change (2 =? 4)%Z with false. change (2 =? 3)%Z with false. change (2 =? 1)%Z with false. cbn iota. cbn [bind].
    rewrite take_s_app; [|lia|exact R1]. cbn [bind]. rewrite take_s_app; [|lia|exact R2]. cbn [bind].
    rewrite T0. cbn [bind]. rewrite T1. cbn [bind]. rewrite T2. cbn [bind]. rewrite T3. cbn [bind].
    rewrite take_s_app; [|lia|exact R3]. cbn [bind]. rewrite fread_text. cbn [bind].
    replace (Z.to_nat (Z.of_nat (c_nC c - 1) + 1)) with (List.length names) by lia.
    rewrite (read_names_pack _ _ _ En). cbn [bind].
    replace (List.length names) with (List.length units') by lia.
    rewrite (read_names_pack _ _ _ Eu). cbn [bind].
    destruct (Z.ltb_spec (Z.of_nat (c_nC c - 1)) 0); [lia|]. destruct (Z.ltb_spec (Z.of_nat (c_nT c)) 0); [lia|]. cbn [orb].
    rewrite !Nat2Z.id.
    assert (ED : rows_of 2 (c_nT c) (c_nC c - 1) data = map (map (le 2)) (packed_rows c params)).
    { rewrite <- LR at 1. unfold data. rewrite <- (app_nil_r (concat _)). apply rows_of_packed. exact FR. }
    assert (LD : List.length data = 2 * (c_nT c * (c_nC c - 1))).
    { unfold data. rewrite (concat_length_uniform (2 * (c_nC c - 1))).
      - rewrite map_length, LR. nia.
      - apply Forall_map. eapply Forall_impl; [|exact FR]. intros r [A _]. rewrite tobytes16_length, A. reflexivity. }
    assert (ER : (if ub then read_table good_buffer 2 (c_nC c - 1) (c_nT c * (c_nC c - 1)) data
                  else read_table_direct 2 (c_nC c - 1) (c_nT c * (c_nC c - 1)) data)
                 = Ok (map (map (le 2)) (packed_rows c params), skipn (2 * (c_nT c * (c_nC c - 1))) data)).
    { destruct ub.
      - rewrite read_table_spec; [|lia|unfold good_buffer; lia]. rewrite LD, Nat.ltb_irrefl, ED. reflexivity.
      - rewrite read_table_direct_spec by lia. rewrite LD, Nat.ltb_irrefl, ED. reflexivity. }
    rewrite ER. cbn [bind]. rewrite Ess, Eoo. do 2 f_equal.
    rewrite <- (app_nil_r (map N_of_ascii desc)) at 1. change (@nil N) with (repeat 32%N 0). rewrite text_of_ascii.
    cbn [repeat]. rewrite app_nil_r. reflexivity.
  - cbn [ob_ID ob_nT ob_nC ob_names ob_units ob_desc ob_t0 ob_dt ob_scl ob_off ob_data]. repeat (split; [reflexivity|]). split; [exists t0, dt; auto|]. split.
    + exists ss, oo. split; [reflexivity|]. split; [reflexivity|].
      split; [clear -Fss|clear -Foo].
      * revert ss Fss. induction params as [|q l IH]; intros ss F; inversion F; subst; constructor; auto.
      * revert oo Foo. induction params as [|q l IH]; intros oo F; inversion F; subst; constructor; auto.
    + split; [rewrite map_length; exact LR|].
      intros i j s r Hi Hj. destruct (NR i j s r Hi Hj) as (row & A & B). unfold ob_int. cbn [ob_data].
      rewrite nth_error_map, A. cbn [option_map]. rewrite nth_error_map, B. cbn [option_map].
      f_equal. apply sint_le; [lia|]. apply in_int16, pack16_range.
Qed.
