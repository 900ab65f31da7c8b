(** Proofs about AE and PC files. *)
From Verif Require Import Py PyFacts ListFacts TextFacts FS Bytes FASTOut_Model FASTOut_Round FASTOut_Quant H2io_Model H2io_Proofs AEPC_Model.
From Coq Require Import QArith Lia Lqa.
Local Open Scope nat_scope.

(** ** Dictionaries *)
Definition keys {V} (d : list (Z * V)) : list Z := map fst d.
Lemma zget_zset_same {V} (d : list (Z * V)) k v : zget (zset d k v) k = Some v.
Proof.
  induction d as [|[k' v'] d IH]; cbn; [now rewrite Z.eqb_refl|].
  destruct (Z.eqb_spec k' k) as [->|N]; cbn; [now rewrite Z.eqb_refl|]. destruct (Z.eqb_spec k' k); [congruence|exact IH].
Qed.
Lemma zget_zset_other {V} (d : list (Z * V)) k v k2 : k2 <> k -> zget (zset d k v) k2 = zget d k2.
Proof.
  intros N. induction d as [|[k' v'] d IH]; cbn.
  - destruct (Z.eqb_spec k k2); [congruence|reflexivity].
  - destruct (Z.eqb_spec k' k) as [->|N2]; cbn.
    + destruct (Z.eqb_spec k k2); [congruence|reflexivity].
    + destruct (k' =? k2)%Z; [reflexivity|exact IH].
Qed.
Lemma zget_None {V} (d : list (Z * V)) k : zget d k = None <-> ~ In k (keys d).
Proof.
  induction d as [|[k' v'] d IH]; cbn; [tauto|]. destruct (Z.eqb_spec k' k) as [->|N].
  - split; [discriminate|]. tauto.
  - rewrite IH. tauto.
Qed.
Lemma zmem_iff {V} (d : list (Z * V)) k : zmem d k = true <-> In k (keys d).
Proof.
  unfold zmem. pose proof (zget_None d k) as H. destruct (zget d k).
  - split; [intros _|reflexivity]. destruct (in_dec Z.eq_dec k (keys d)) as [I|I]; [assumption|]. apply H in I. discriminate.
  - split; [discriminate|]. intros I. now apply H in I.
Qed.
Lemma zset_new {V} (d : list (Z * V)) k v : ~ In k (keys d) -> zset d k v = d ++ [(k, v)].
Proof.
  induction d as [|[k' v'] d IH]; intros H; [reflexivity|]. cbn in *. destruct (Z.eqb_spec k' k); [tauto|]. rewrite IH; tauto.
Qed.

(** ** The search for a free number *)
Lemma free_id_spec {V} (d : list (Z * V)) fuel : forall k r, free_id fuel d k = Some r ->
  (k <= r)%Z /\ ~ In r (keys d) /\ forall j, (k <= j < r)%Z -> In j (keys d).
Proof.
  induction fuel as [|f IH]; intros k r; cbn; destruct (zmem d k) eqn:E; intros H; try discriminate.
  - injection H as <-. split; [lia|]. split; [|lia]. intros K. apply zmem_iff in K. congruence.
  - apply IH in H. destruct H as (A & B & C). split; [lia|]. split; [assumption|]. intros j Hj.
    destruct (Z.eq_dec j k) as [->|N]; [now apply zmem_iff|]. apply C. lia.
  - injection H as <-. split; [lia|]. split; [|lia]. intros K. apply zmem_iff in K. congruence.
Qed.
Lemma free_id_None {V} (d : list (Z * V)) fuel : forall k, free_id fuel d k = None ->
  forall i, i <= fuel -> In (k + Z.of_nat i)%Z (keys d).
Proof.
  induction fuel as [|f IH]; intros k; cbn; destruct (zmem d k) eqn:E; intros H; try discriminate; intros i Hi.
  - assert (i = 0) as -> by lia. rewrite Z.add_0_r. now apply zmem_iff.
  - destruct i as [|i]; [rewrite Z.add_0_r; now apply zmem_iff|].
    specialize (IH _ H i). replace (k + Z.of_nat (S i))%Z with (k + 1 + Z.of_nat i)%Z by lia. apply IH. lia.
Qed.
Lemma free_id_enough {V} (d : list (Z * V)) k : free_id (S (List.length d)) d k <> None.
Proof.
  intros H. pose proof (free_id_None _ _ _ H) as A.
  assert (L : List.length (map (fun i => (k + Z.of_nat i)%Z) (seq 0 (S (S (List.length d))))) <= List.length (keys d)).
  { apply NoDup_incl_length.
    - apply FinFun.Injective_map_NoDup; [|apply seq_NoDup]. intros a b. lia.
    - intros x Hx. apply in_map_iff in Hx. destruct Hx as (i & <- & Hi). apply in_seq in Hi. apply A. lia. }
  unfold keys in L. rewrite !map_length, seq_length in L. lia.
Qed.

(** ** Words *)
Lemma split_ws_rjust n s t : is_token s = true -> split_ws (rjust n s ++ sp :: t) = s :: split_ws t.
Proof.
  intros T. unfold rjust. rewrite <- app_assoc. rewrite split_ws_lpad by apply spaces_blank.
  rewrite split_ws_app by reflexivity. now rewrite split_ws_token.
Qed.
Lemma split_ws_rjust_end n s t : is_token s = true -> forallb is_space t = true -> split_ws (rjust n s ++ t) = [s].
Proof.
  intros T B. unfold rjust. rewrite <- app_assoc. rewrite split_ws_lpad by apply spaces_blank.
  rewrite split_ws_rpad by assumption. now rewrite split_ws_token.
Qed.
Lemma split_ws_tok s t : is_token s = true -> split_ws (s ++ sp :: t) = s :: split_ws t.
Proof. intros T. rewrite split_ws_app by reflexivity. now rewrite split_ws_token. Qed.
Lemma split_ws_tok_end s t : is_token s = true -> forallb is_space t = true -> split_ws (s ++ t) = [s].
Proof. intros T B. rewrite split_ws_rpad by assumption. now rewrite split_ws_token. Qed.
Lemma one_line_rjust n s : one_line s = true -> one_line (rjust n s) = true.
Proof. intros H. unfold rjust. now rewrite one_line_app, one_line_spaces. Qed.

Section Fmt.
  Context {F : Type} (e17 : F -> str) (trunc : F -> res Z) (float_ : str -> res F) (ofZ : Z -> F).
  Hypothesis float_int : forall z, float_ (str_of_Z z) = Ok (ofZ z).

  (** ** AE round trip *)
  (** [x] is written by '%.17e' and read back as [x]. *)
  Definition exact17 (x : F) : Prop := is_token (e17 x) = true /\ float_ (e17 x) = Ok x.
  (** A row of four numbers whose last one is converted to the integer [n]. *)
  Definition ae_row_ok (row row' : list F) : Prop :=
    exists x y z w n, row = [x; y; z; w] /\ row' = [x; y; z; ofZ n] /\ exact17 x /\ exact17 y /\ exact17 z /\ trunc w = Ok n.

  Lemma ae_row_read row row' : ae_row_ok row row' ->
    exists s, ae_row F e17 trunc row = Ok s /\ one_line s = true /\
      map_res float_ (firstn 4 (split_ws (add_nl s))) = Ok row'.
  Proof.
    intros (x & y & z & w & n & -> & -> & [Tx Fx] & [Ty Fy] & [Tz Fz] & W). cbn [ae_row]. rewrite W. cbn [bind].
    eexists. split; [reflexivity|]. split.
    - rewrite !one_line_app, !one_line_rjust; try reflexivity; apply token_one_line; try assumption. apply str_of_Z_token.
    - unfold add_nl. rewrite <- !app_assoc. cbn [app]. rewrite !split_ws_rjust by assumption. rewrite split_ws_rjust_end; [|apply str_of_Z_token|reflexivity].
      cbn [firstn map_res]. rewrite Fx, Fy, Fz. cbn. rewrite float_int. reflexivity.
  Qed.
  Lemma ae_rows_read t t' : Forall2 ae_row_ok t t' ->
    exists ls, map_res (ae_row F e17 trunc) t = Ok ls /\ forallb one_line ls = true /\ List.length ls = List.length t /\
      read_rows F float_ (map add_nl ls) = Ok t'.
  Proof.
    intros H.
    assert (A : exists ls, map_res (ae_row F e17 trunc) t = Ok ls /\ forallb one_line ls = true /\ List.length ls = List.length t /\
      map_res (fun l => map_res float_ (firstn 4 (split_ws l))) (map add_nl ls) = Ok t').
    { induction H as [|row row' t t' R H IH]; [exists []; auto|].
      destruct IH as (ls & E & O & L & M). destruct (ae_row_read _ _ R) as (s & E1 & O1 & M1).
      exists (s :: ls). cbn [map_res map forallb List.length]. rewrite E1. cbn [bind]. rewrite E. cbn [bind]. rewrite O1, O, L.
      rewrite M1. cbn [bind]. rewrite M. auto. }
    destruct A as (ls & E & O & L & M). exists ls. repeat split; try assumption.
    unfold read_rows. rewrite M. cbn [bind]. unfold np_array. destruct t' as [|r rs]; [reflexivity|].
    assert (W : Forall (fun r' => List.length r' = 4) (r :: rs)).
    { clear - H. remember (r :: rs) as t'. clear Heqt'. induction H as [|a b t t' R H IH]; constructor; [|exact IH].
      destruct R as (x & y & z & w & n & _ & -> & _). reflexivity. }
    inversion W as [|? ? W1 W2]; subst. rewrite (proj2 (forallb_forall _ _)); [reflexivity|].
    intros r' Hr. rewrite Forall_forall in W2. rewrite W1, (W2 _ Hr). reflexivity.
  Qed.

  (** Two collections with the same numbers and corresponding rows. *)
  Definition ae_corr (s s' : list (Z * list (list F))) : Prop :=
    Forall2 (fun a b => fst b = fst a /\ Forall2 ae_row_ok (snd a) (snd b)) s s'.

  Lemma ae_sets_read s s' : ae_corr s s' ->
    exists ls, ae_sets_lines F e17 trunc s = Ok ls /\ forallb one_line ls = true /\
      forall acc, NoDup (keys acc ++ keys s') ->
        ae_read_sets F float_ (List.length s) (map add_nl ls) acc = Some (Ok (acc ++ s')).
  Proof.
    induction 1 as [|[k t] [k' t'] s s' [K R] H IH].
    - exists []. split; [reflexivity|]. split; [reflexivity|]. intros acc _. cbn. now rewrite app_nil_r.
    - cbn [fst snd] in K, R. subst k'. destruct IH as (ls & E & O & IH).
      destruct (ae_rows_read _ _ R) as (rs & E1 & O1 & L1 & M1).
      eexists. split; [cbn [ae_sets_lines]; rewrite E1; cbn [bind]; rewrite E; cbn [bind]; reflexivity|]. split.
      + cbn [forallb]. rewrite forallb_app, O, O1, !one_line_app.
        rewrite (token_one_line _ (str_of_Z_token k)), (token_one_line _ (str_of_N_token _)). reflexivity.
      + intros acc ND. cbn [List.length map ae_read_sets].
        unfold add_nl at 1. rewrite <- !app_assoc. cbn [app]. rewrite split_ws_tok by apply str_of_Z_token.
        rewrite split_ws_tok_end; [|apply str_of_N_token|reflexivity].
        rewrite int_str_of_Z, int_str_of_N.
        assert (P : (Z.of_N (N.of_nat (List.length t)) <? 0)%Z = false) by (apply Z.ltb_ge; lia). rewrite P.
        rewrite nat_N_Z, Nat2Z.id. rewrite map_app.
        assert (LM : List.length (map add_nl rs) = List.length t) by now rewrite map_length.
        rewrite <- LM. rewrite firstn_app, Nat.sub_diag, firstn_all. cbn [firstn]. rewrite app_nil_r. rewrite M1.
        rewrite skipn_app, Nat.sub_diag, skipn_all. cbn [app skipn].
        cbn [keys map fst] in ND. fold (keys s') in ND.
        rewrite zset_new.
        * rewrite IH; [now rewrite <- app_assoc|]. unfold keys at 1. rewrite map_app. cbn [map fst]. rewrite <- app_assoc. exact ND.
        * apply NoDup_remove_2 in ND. intros I. apply ND. apply in_or_app. now left.
  Qed.
  Lemma ae_roundtrip s s' : ae_corr s s' -> NoDup (keys s) ->
    exists text, ae_str F e17 trunc s = Ok text /\ ae_read F float_ text = Some (Ok s').
  Proof.
    intros C ND. destruct (ae_sets_read _ _ C) as (ls & E & O & R).
    unfold ae_str. rewrite E. cbn [bind]. eexists. split; [reflexivity|].
    unfold ae_read. rewrite readlines_text.
    2:{ cbn [forallb]. rewrite O, one_line_app, (token_one_line _ (str_of_N_token _)). reflexivity. }
    cbn [map]. unfold add_nl at 1. rewrite <- app_assoc.
    change (S_ " r[m]           Chord[m]    T/C[%]  Set no." ++ [nl]) with (sp :: (S_ "r[m]           Chord[m]    T/C[%]  Set no." ++ [nl])).
    rewrite split_ws_tok by apply str_of_N_token. rewrite int_str_of_N, nat_N_Z, Nat2Z.id.
    rewrite R; [reflexivity|]. cbn [keys map app].
    replace (keys s') with (keys s); [assumption|].
    clear - C. induction C as [|a b s s' [K _] H IH]; [reflexivity|]. unfold keys in *. cbn [map]. now rewrite IH, K.
  Qed.
  Lemma ae_corr_refl s : Forall (fun p => Forall (fun row => ae_row_ok row row) (snd p)) s -> ae_corr s s.
  Proof.
    induction 1 as [|p s H1 H IH]; constructor; [|exact IH]. split; [reflexivity|]. induction H1; constructor; assumption.
  Qed.

End Fmt.

Section FmtPC.
  Context {F : Type} (float_ : str -> res F) (e15 f8 : F -> str).
  (** ** PC round trip *)
  (** '%.15e' (and '%1.08f') write a number whose reading is [x']. *)
  Definition reads15 (x x' : F) : Prop := is_token (e15 x) = true /\ float_ (e15 x) = Ok x'.
  Definition reads8 (x x' : F) : Prop := is_token (f8 x) = true /\ float_ (f8 x) = Ok x'.
  Definition pc_row_ok (row row' : list F) : Prop :=
    List.length row = 4 /\ Forall2 reads15 row row'.
  Definition pcset_ok (s s' : pcset F) : Prop :=
    List.length (fst s) = List.length (snd s) /\ Forall2 reads8 (fst s) (fst s') /\ Forall2 (Forall2 pc_row_ok) (snd s) (snd s').

  Lemma split_e15s x t : is_token (e15 x) = true -> split_ws (e15s F e15 x ++ sp :: t) = e15 x :: split_ws t.
  Proof.
    intros T. unfold e15s. destruct (e15 x) as [|c s] eqn:E; [discriminate|]. destruct (chr_eqb c (ch 45)).
    - now apply split_ws_rjust.
    - unfold rjust. rewrite <- app_assoc. rewrite split_ws_lpad by apply spaces_blank. cbn [app].
      rewrite split_ws_blank_cons by reflexivity. exact (split_ws_tok (c :: s) t T).
  Qed.
  Lemma split_e15s_end x t : is_token (e15 x) = true -> forallb is_space t = true -> split_ws (e15s F e15 x ++ t) = [e15 x].
  Proof.
    intros T B. rewrite split_ws_rpad by assumption. pose proof (split_e15s x [] T) as H.
    rewrite split_ws_rpad in H by reflexivity. exact H.
  Qed.
  Lemma one_line_e15s x : is_token (e15 x) = true -> one_line (e15s F e15 x) = true.
  Proof.
    intros T. unfold e15s. apply one_line_rjust. pose proof (token_one_line _ T) as O.
    destruct (e15 x) as [|c s] eqn:E; [reflexivity|]. destruct (chr_eqb c (ch 45)); [assumption|]. exact O.
  Qed.
  Lemma pc_row_read row row' : pc_row_ok row row' ->
    exists s, pc_row F e15 row = Ok s /\ one_line s = true /\
      map_res float_ (firstn 4 (split_ws (add_nl s))) = Ok row'.
  Proof.
    intros [L H]. destruct row as [|x [|y [|z [|w [|? ?]]]]]; try discriminate L.
    inversion H as [|? x' ? r1 [Tx Fx] H1]; subst. inversion H1 as [|? y' ? r2 [Ty Fy] H2]; subst.
    inversion H2 as [|? z' ? r3 [Tz Fz] H3]; subst. inversion H3 as [|? w' ? r4 [Tw Fw] H4]; subst. inversion H4; subst.
    cbn [pc_row]. eexists. split; [reflexivity|]. split.
    - rewrite !one_line_app, !one_line_e15s by assumption. reflexivity.
    - unfold add_nl. rewrite <- !app_assoc. cbn [app]. rewrite !split_e15s by assumption. rewrite split_e15s_end; [|assumption|reflexivity].
      cbn [firstn map_res]. rewrite Fx, Fy, Fz. cbn. rewrite Fw. reflexivity.
  Qed.
  Lemma pc_rows_read t t' : Forall2 pc_row_ok t t' ->
    exists ls, map_res (pc_row F e15) t = Ok ls /\ forallb one_line ls = true /\ List.length ls = List.length t /\
      read_rows F float_ (map add_nl ls) = Ok t'.
  Proof.
    intros H.
    assert (A : exists ls, map_res (pc_row F e15) t = Ok ls /\ forallb one_line ls = true /\ List.length ls = List.length t /\
      map_res (fun l => map_res float_ (firstn 4 (split_ws l))) (map add_nl ls) = Ok t').
    { induction H as [|row row' t t' R H IH]; [exists []; auto|].
      destruct IH as (ls & E & O & L & M). destruct (pc_row_read _ _ R) as (s & E1 & O1 & M1).
      exists (s :: ls). cbn [map_res map forallb List.length]. rewrite E1. cbn [bind]. rewrite E. cbn [bind]. rewrite O1, O, L.
      rewrite M1. cbn [bind]. rewrite M. auto. }
    destruct A as (ls & E & O & L & M). exists ls. repeat split; try assumption.
    unfold read_rows. rewrite M. cbn [bind]. unfold np_array. destruct t' as [|r rs]; [reflexivity|].
    assert (W : Forall (fun r' => List.length r' = 4) (r :: rs)).
    { clear - H. remember (r :: rs) as t'. clear Heqt'. induction H as [|a b t t' R H IH]; constructor; [|exact IH].
      destruct R as [L R]. rewrite <- L. clear - R. induction R; cbn; auto. }
    inversion W as [|? ? W1 W2]; subst. rewrite (proj2 (forallb_forall _ _)); [reflexivity|].
    intros r' Hr. rewrite Forall_forall in W2. rewrite W1, (W2 _ Hr). reflexivity.
  Qed.
  Lemma pc_profiles_read tcs tcs' : Forall2 reads8 tcs tcs' -> forall pcs pcs', List.length tcs = List.length pcs ->
    Forall2 (Forall2 pc_row_ok) pcs pcs' -> forall i,
    exists ls, pc_profiles F e15 f8 i tcs pcs = Ok ls /\ forallb one_line ls = true /\
      forall a b rest, pc_read_profiles F float_ (List.length tcs) (map add_nl ls ++ rest) a b
                     = Some (Ok ((a ++ tcs', b ++ pcs'), rest)).
  Proof.
    induction 1 as [|t t' tcs tcs' [T8 F8] H IH]; intros pcs pcs' L HP i.
    - destruct pcs; [|discriminate]. inversion HP; subst. exists []. split; [reflexivity|]. split; [reflexivity|].
      intros a b rest. cbn. now rewrite !app_nil_r.
    - destruct pcs as [|p pcs]; [discriminate|]. inversion HP as [|? p' ? pcs2 RP HP']; subst.
      destruct (IH pcs pcs2 (f_equal pred L) HP' (i + 1)%N) as (ls & E & O & R).
      destruct (pc_rows_read _ _ RP) as (rs & E1 & O1 & L1 & M1).
      eexists. split; [cbn [pc_profiles]; rewrite E1; cbn [bind]; rewrite E; cbn [bind]; reflexivity|]. split.
      + cbn [forallb]. rewrite forallb_app, O, O1, !one_line_app.
        rewrite (token_one_line _ T8), !(token_one_line _ (str_of_N_token _)). reflexivity.
      + intros a b rest. cbn [List.length map app pc_read_profiles].
        unfold add_nl at 1. rewrite <- !app_assoc. cbn [app]. rewrite split_ws_tok by apply str_of_N_token. rewrite <- app_assoc. cbn [app]. rewrite split_ws_tok by apply str_of_N_token.
        rewrite split_ws_tok_end; [|assumption|reflexivity].
        rewrite !int_str_of_N, F8.
        assert (P : (Z.of_N (N.of_nat (List.length p)) <? 0)%Z = false) by (apply Z.ltb_ge; lia). rewrite P.
        rewrite nat_N_Z, Nat2Z.id. rewrite map_app, <- app_assoc.
        assert (LM : List.length (map add_nl rs) = List.length p) by now rewrite map_length.
        rewrite <- LM. rewrite firstn_app, Nat.sub_diag, firstn_all. cbn [firstn]. rewrite app_nil_r. rewrite M1.
        rewrite skipn_app, Nat.sub_diag, skipn_all. cbn [app skipn]. rewrite R. now rewrite <- !app_assoc.
  Qed.
  (** The sets in order, under the labels n, n+1, ... *)
  Fixpoint renumber (n : Z) (sets : list (Z * pcset F)) : list (Z * pcset F) :=
    match sets with [] => [] | (_, s) :: sets' => (n, s) :: renumber (n + 1) sets' end.
  Lemma pc_sets_read s s' : Forall2 (fun a b => pcset_ok (snd a) (snd b)) s s' ->
    exists ls, pc_sets_lines F e15 f8 s = Ok ls /\ forallb one_line ls = true /\
      forall n acc, (forall k, In k (keys acc) -> (k < n)%Z) ->
        pc_read_sets F float_ (List.length s) n (map add_nl ls) acc = Some (Ok (acc ++ renumber n s')).
  Proof.
    induction 1 as [|[k [tcs pcs]] [k' [tcs' pcs']] s s' (L & H8 & HP) H IH].
    - exists []. split; [reflexivity|]. split; [reflexivity|]. intros n acc _. cbn. now rewrite app_nil_r.
    - cbn [fst snd] in L, H8, HP. destruct IH as (ls & E & O & IH).
      destruct (pc_profiles_read _ _ H8 _ _ L HP 1%N) as (ps & E1 & O1 & R1).
      eexists. split; [cbn [pc_sets_lines]; rewrite E1; cbn [bind]; rewrite E; cbn [bind]; reflexivity|]. split.
      + cbn [forallb]. now rewrite forallb_app, O, O1, (token_one_line _ (str_of_N_token _)).
      + intros n acc HA. cbn [List.length map pc_read_sets].
        unfold add_nl at 1. rewrite split_ws_tok_end; [|apply str_of_N_token|reflexivity]. rewrite int_str_of_N, nat_N_Z, Nat2Z.id.
        rewrite map_app, R1. cbn [app]. rewrite zset_new.
        * rewrite IH; [cbn [renumber]; now rewrite <- app_assoc|]. intros j Hj. unfold keys in Hj. rewrite map_app in Hj. cbn [map fst] in Hj.
          apply in_app_iff in Hj. cbn [In] in Hj. destruct Hj as [Hj|[Hj|[]]]; [|lia]. apply HA in Hj. lia.
        * intros I. apply HA in I. lia.
  Qed.
  Lemma pc_roundtrip s s' : Forall2 (fun a b => pcset_ok (snd a) (snd b)) s s' ->
    exists text, pc_str F e15 f8 s = Ok text /\ pc_read F float_ text = Some (Ok (renumber 1 s')).
  Proof.
    intros C. destruct (pc_sets_read _ _ C) as (ls & E & O & R).
    unfold pc_str. rewrite E. cbn [bind]. eexists. split; [reflexivity|].
    unfold pc_read. rewrite readlines_text.
    2:{ cbn [forallb]. now rewrite O, (token_one_line _ (str_of_N_token _)). }
    cbn [map]. unfold add_nl at 1. rewrite split_ws_tok_end; [|apply str_of_N_token|reflexivity].
    rewrite int_str_of_N, nat_N_Z, Nat2Z.id. rewrite R; [reflexivity|]. intros k [].
  Qed.
  Lemma renumber_keys s : forall n, keys (renumber n s) = map (fun i => (n + Z.of_nat i)%Z) (seq 0 (List.length s)).
  Proof.
    induction s as [|[k p] s IH]; intros n; [reflexivity|]. cbn [renumber keys map fst List.length seq]. fold (keys (renumber (n + 1) s)).
    rewrite IH, <- seq_shift, map_map. f_equal; [lia|]. apply map_ext. intros i. lia.
  Qed.
  Lemma renumber_id s : forall n, keys s = map (fun i => (n + Z.of_nat i)%Z) (seq 0 (List.length s)) -> renumber n s = s.
  Proof.
    induction s as [|[k p] s IH]; intros n H; [reflexivity|]. cbn [keys map fst List.length seq] in H.
    injection H as H1 H2. cbn [renumber]. rewrite IH.
    - f_equal. f_equal. lia.
    - rewrite <- seq_shift, map_map in H2. unfold keys. rewrite H2. apply map_ext. intros i. lia.
  Qed.
End FmtPC.

(** ** The list of all sets *)
Lemma ae_list_iff {V} (s : list (Z * V)) : NoDup (keys s) ->
  ((forall k, (1 <= k <= Z.of_nat (List.length s))%Z -> In k (keys s)) ->
    exists l, ae_list s = Ok l /\ List.length l = List.length s /\ (forall p, In p s -> In (snd p) l) /\
              forall i, i < List.length s -> nth_error l i = zget s (Z.of_nat i + 1)) /\
  (forall k, (1 <= k <= Z.of_nat (List.length s))%Z -> ~ In k (keys s) -> ae_list s = Err KeyError).
Proof.
  intros ND. split.
  - intros H. unfold ae_list.
    set (f := fun i => match zget s (Z.of_nat i + 1) with Some v => Ok v | None => Err KeyError end).
    assert (G : forall i, i < List.length s -> exists v, zget s (Z.of_nat i + 1) = Some v).
    { intros i Hi. destruct (zget s (Z.of_nat i + 1)) eqn:E; [eauto|]. apply zget_None in E. destruct E. apply H. lia. }
    destruct (map_res_total f (seq 0 (List.length s))) as [l E].
    { intros i Hi. apply in_seq in Hi. destruct (G i) as [v Hv]; [lia|]. exists v. unfold f. now rewrite Hv. }
    assert (N : forall i, i < List.length s -> nth_error l i = zget s (Z.of_nat i + 1)).
    { intros i Hi. pose proof (map_res_inv _ _ _ E) as FI. clear - FI Hi G.
      assert (forall a n, Forall2 (fun x y => f x = Ok y) (seq a n) l -> i < n -> nth_error l i = zget s (Z.of_nat (a + i) + 1)) as K.
      { clear. intros a n. revert a l i. induction n as [|n IH]; intros a l i H Hi; [lia|]. cbn [seq] in H.
        inversion H as [|? y ? l' H1 H2]; subst. destruct i as [|i].
        - cbn. rewrite Nat.add_0_r. unfold f in H1. destruct (zget s (Z.of_nat a + 1)); [now injection H1 as ->|discriminate].
        - cbn. rewrite (IH (S a) l' i H2) by lia. f_equal. lia. }
      apply (K 0 _ FI Hi). }
    exists l. split; [assumption|]. split; [rewrite (map_res_length _ _ _ E); apply seq_length|]. split; [|assumption].
    intros [k v] Hp. cbn [snd].
    assert (KI : In k (keys s)) by (apply in_map_iff; exists (k, v); auto).
    assert (INC : incl (keys s) (map (fun i => (Z.of_nat i + 1)%Z) (seq 0 (List.length s)))).
    { apply NoDup_length_incl.
      - apply FinFun.Injective_map_NoDup; [|apply seq_NoDup]. intros a b. lia.
      - rewrite map_length, seq_length. unfold keys. now rewrite map_length.
      - intros x Hx. apply in_map_iff in Hx. destruct Hx as (i & <- & Hi). apply in_seq in Hi. apply H. lia. }
    apply INC in KI. apply in_map_iff in KI. destruct KI as (i & <- & Hi). apply in_seq in Hi.
    apply nth_error_In with (n := i). rewrite N by lia.
    clear - Hp ND. induction s as [|[k' v'] s IH]; [easy|]. cbn in *. inversion ND as [|? ? N1 N2]; subst.
    destruct Hp as [Hp|Hp].
    + injection Hp as -> ->. now rewrite Z.eqb_refl.
    + destruct (Z.eqb_spec k' (Z.of_nat i + 1)) as [->|N]; [|now apply IH]. destruct N1. apply in_map_iff. exists ((Z.of_nat i + 1)%Z, v). auto.
  - intros k Hk NI. unfold ae_list. apply zget_None in NI.
    set (f := fun i => match zget s (Z.of_nat i + 1) with Some v => Ok v | None => Err KeyError end).
    assert (K : forall l, In (Z.to_nat (k - 1)) l -> map_res f l = Err KeyError).
    { induction l as [|i l IH]; [easy|]. intros [->|I]; cbn [map_res].
      - unfold f at 1. replace (Z.of_nat (Z.to_nat (k - 1)) + 1)%Z with k by lia. now rewrite NI.
      - unfold f at 1. destruct (zget s (Z.of_nat i + 1)); [|reflexivity]. cbn. now rewrite IH. }
    apply K. apply in_seq. lia.
Qed.
