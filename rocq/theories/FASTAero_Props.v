(** C133, C134: the data frames of AeroDyn blades and polars. *)
From Verif Require Import Py PyFacts ListFacts FASTIn_Model FASTTab_Model FASTFile_Model FASTSpec_Model FASTTab_Props FASTSpec_Props.
From Verif Require Import FASTAero_Model.
From Verif Require Import Dict.
From Coq Require Import QArith Lqa ZifyNat ZifyBool.
Local Open Scope nat_scope.
Local Notation ent := (FASTFile_Model.entry Q).

(** ** Specification *)
(** The tables of the file, in order: label, names, units, rows *)
Record tab := mk_tab { t_label : str; t_names : list str; t_units : option (list str); t_rows : list (list Q) }.
Inductive tables : list ent -> list tab -> Prop :=
| tables_nil : tables [] []
| tables_item d es ts : tables es ts -> tables (Item d :: es) ts
| tables_ref p es ts : tables es ts -> tables (Ref p :: es) ts
| tables_tab t ds k dm es ts : tables es ts -> tables (Tab (t_label t) ds k dm (Nums (t_rows t)) (Some (t_names t)) (t_units t) :: es) (t :: ts).
(** A table whose rows have as many cells as there are names (and units) *)
Definition square (t : tab) : Prop := rect (List.length (t_names t)) (t_rows t) /\ match t_units t with None => True | Some us => List.length us = List.length (t_names t) end.
Definition labels_of (t : tab) : list str := table_columns (t_names t) (t_units t).

Lemma columns_length t : square t -> List.length (labels_of t) = List.length (t_names t).
Proof. intros (_ & U). unfold labels_of, table_columns. destruct (t_units t) as [us|]; [|reflexivity]. rewrite map_length, combine_length. lia. Qed.
Lemma width_square t : square t -> width (t_names t) (t_rows t) = List.length (t_names t).
Proof. intros (R & _). unfold width. destruct (t_rows t) as [|r l]; [reflexivity|]. inversion R; assumption. Qed.

Section Aero.
Variables (pi : Q) (cos sin : Q -> Q) (number : val -> numv).
Lemma base_one es t : ~ is_tower es -> square t -> base_frame (value number) es (t_names t) (t_units t) (t_rows t) = Ok (labels_of t, t_rows t).
Proof.
  intros NT S. unfold base_frame. assert (A : after_first (S_ "TwFAM1Sh(2)") es = false) by (apply not_true_iff_false; rewrite after_iff; exact NT). rewrite A.
  unfold frame. rewrite (width_square t S). fold (labels_of t). rewrite (columns_length t S), Nat.eqb_refl. reflexivity.
Qed.
Lemma put_new {V} (d : @dict V) k v : ~ In k (map fst d) -> put d k v = d ++ [(k, v)].
Proof.
  induction d as [|[k0 v0] d IH]; intro H; [reflexivity|]. cbn [put fst]. cbn [map In fst] in H. destruct (str_eqb k0 k) eqn:E; [apply str_eqb_eq in E; subst; tauto|]. cbn [app]. rewrite IH by tauto. reflexivity.
Qed.
Lemma frames_ok es l ts : ~ is_tower es -> tables l ts -> Forall square ts -> forall acc, NoDup (map fst acc ++ map t_label ts) -> ~ In (S_ "DampingCoeffs") (map t_label ts) ->
  base_frames number es l acc = Ok (acc ++ map (fun t => (t_label t, (labels_of t, t_rows t))) ts).
Proof.
  intros NT T. induction T as [|d l ts T IH|p l ts T IH|t ds k dm l ts T IH]; intros S acc ND D.
  - cbn [map base_frames]. now rewrite app_nil_r.
  - cbn [base_frames]. now apply IH.
  - cbn [base_frames]. now apply IH.
  - cbn [base_frames]. inversion S as [|? ? S1 S2]; subst. rewrite (base_one es t NT S1). cbn [bind]. cbn [map In] in D. destruct (str_eqb (t_label t) (S_ "DampingCoeffs")) eqn:E; [apply str_eqb_eq in E; rewrite E in D; tauto|].
    cbn [map] in ND. rewrite put_new. 2:{ apply NoDup_remove_2 in ND. intro X. apply ND. apply in_or_app. now left. }
    rewrite IH; [|exact S2| |tauto].
    + rewrite <- app_assoc. reflexivity.
    + rewrite map_app. cbn [map fst]. rewrite <- app_assoc. exact ND.
Qed.

Lemma frames_one es t : ~ is_tower es -> tables es [t] -> square t -> t_label t <> S_ "DampingCoeffs" -> base_frames number es es [] = Ok [(t_label t, (labels_of t, t_rows t))].
Proof.
  intros NT T S D. rewrite (frames_ok es es [t] NT T); [reflexivity|constructor; [exact S|constructor]| |].
  - cbn [map app]. constructor; [intros []|constructor].
  - cbn [map]. intros [X|[]]. now apply D.
Qed.

(** ** C133: blades *)
(** Position of the aerodynamic centre, in chords from the leading edge, at the [i]-th of [L] stations: from 1/2 at the root down to 1/4 over the first 15% of the stations, then 1/4 *)
Definition Centre (L i : nat) (a : Q) : Prop :=
  let n := (15 * L) / 100 in
  (n <= i -> (a == 1 # 4)%Q) /\ (i < n -> n = 1 -> (a == 1 # 2)%Q) /\ (i < n -> 1 < n -> (a * (qn n - 1) == (1 # 2) * (qn n - 1) - (1 # 4) * qn i)%Q).
Lemma n15_ok L : n15 L = (15 * L) / 100.
Proof. unfold n15. replace (15 * L) with (3 * L * 5) by lia. replace 100 with (20 * 5) by lia. now rewrite Nat.div_mul_cancel_r by lia. Qed.
Lemma qn_S n : (1 <= n)%nat -> (qn (n - 1) == qn n - 1)%Q.
Proof. intro H. unfold qn. rewrite Nat2Z.inj_sub by exact H. unfold Z.sub. rewrite inject_Z_plus. reflexivity. Qed.
Lemma qn_pos n : (2 <= n)%nat -> (0 < qn n - 1)%Q.
Proof. intro H. rewrite <- qn_S by lia. unfold qn. change 0%Q with (inject_Z 0). rewrite <- Zlt_Qlt. lia. Qed.
Lemma centre_ok L i : Centre L i (ac_loc L i).
Proof.
  unfold Centre, ac_loc. rewrite n15_ok. set (n := (15 * L) / 100). split; [|split].
  - intro H. replace (i <? n) with false by lia. reflexivity.
  - intros H E. replace (i <? n) with true by lia. unfold linspace_ac. rewrite E. reflexivity.
  - intros H E. replace (i <? n) with true by lia. unfold linspace_ac. replace (n =? 1) with false by lia. pose proof (qn_S n ltac:(lia)) as Q1. pose proof (qn_pos n ltac:(lia)) as Q2.
    rewrite Q1. field. lra.
Qed.
Lemma ad_rows_ok L rows : Forall (fun r => 6 <= List.length r) rows -> forall i,
  exists out, ad_rows pi cos sin L i rows rows = Ok out /\ List.length out = List.length rows /\
  forall j r, nth_error rows j = Some r -> exists crv swp tw ch, nth_error r 1 = Some crv /\ nth_error r 2 = Some swp /\ nth_error r 4 = Some tw /\ nth_error r 5 = Some ch /\
    nth_error out j = Some (r ++ [crv + ch * ((1 # 2) - ac_loc L (i + j)) * sin (tw * pi / 180); swp + ch * ((1 # 2) - ac_loc L (i + j)) * cos (tw * pi / 180); ac_loc L (i + j)]%Q).
Proof.
  induction 1 as [|r rows Hr _ IH]; intro i.
  - exists []. split; [reflexivity|]. split; [reflexivity|]. intros [|j] r H; discriminate H.
  - destruct (IH (S i)) as (out & E & Lo & P). assert (X : forall k, k < 6 -> exists q, nth_error r k = Some q). { intros k Hk. destruct (nth_error r k) eqn:N; [eexists; reflexivity|]. apply nth_error_None in N. lia. }
    destruct (X 1 ltac:(lia)) as (q1 & E1), (X 2 ltac:(lia)) as (q2 & E2), (X 4 ltac:(lia)) as (q4 & E4), (X 5 ltac:(lia)) as (q5 & E5).
    cbn [ad_rows]. unfold ad_row, cell_at. rewrite E1, E2, E4, E5. cbn [bind]. rewrite E. cbn [bind]. eexists. split; [reflexivity|]. split; [cbn [List.length]; now rewrite Lo|].
    intros [|j] r0 H; cbn [nth_error] in *.
    + injection H as <-. exists q1, q2, q4, q5. repeat (split; [assumption|]). rewrite Nat.add_0_r. unfold rad. reflexivity.
    + destruct (P j r0 H) as (a & b & c & d & A1 & A2 & A3 & A4 & A5). exists a, b, c, d. repeat (split; [assumption|]). replace (i + S j) with (S i + j) by lia. exact A5.
Qed.
(** The frame of a blade: the table, and behind each row the approximate positions of the mid chord and of the aerodynamic centre *)
Theorem C133_blade : forall es t, tables es [t] -> ~ is_tower es -> square t -> 6 <= List.length (t_names t) -> (exists ds k dm, first_is es (S_ "BldAeroNodes") (Tab (t_label t) ds k dm (Nums (t_rows t)) (Some (t_names t)) (t_units t))) ->
  t_label t <> S_ "DampingCoeffs" -> (forall c, In c (labels_of t) -> ~ In c (map S_ ["c2_Crv_Approx_[m]"; "c2_Swp_Approx_[m]"; "AC_Approx_[-]"]%string)) ->
  exists out, ad_blade pi cos sin number es = Ok (labels_of t ++ map S_ ["c2_Crv_Approx_[m]"; "c2_Swp_Approx_[m]"; "AC_Approx_[-]"]%string, out) /\ List.length out = List.length (t_rows t) /\
    forall i r, nth_error (t_rows t) i = Some r -> exists crv swp tw ch a x y, nth_error r 1 = Some crv /\ nth_error r 2 = Some swp /\ nth_error r 4 = Some tw /\ nth_error r 5 = Some ch /\
      nth_error out i = Some (r ++ [x; y; a]) /\ Centre (List.length (t_rows t)) i a /\
      (x == crv + ch * ((1 # 2) - a) * sin (tw * pi / 180))%Q /\ (y == swp + ch * ((1 # 2) - a) * cos (tw * pi / 180))%Q.
Proof.
  intros es t T NT S W (ds & k & dm & F) D NC. unfold ad_blade. rewrite (frames_one es t NT T S D). cbn [bind]. rewrite (first_find _ _ _ F). rewrite (width_square t S). replace (List.length (t_names t) <? 6) with false by lia.
  assert (TK : taken AD_COLS (labels_of t) = false).
  { apply not_true_iff_false. intro X. unfold taken in X. apply existsb_exists in X. destruct X as (c & I & X). apply existsb_exists in X. destruct X as (c' & I' & X). apply str_eqb_eq in X. subst c'. exact (NC c I' I). }
  rewrite TK. destruct (ad_rows_ok (List.length (t_rows t)) (t_rows t)) with (i := 0) as (out & E & Lo & P).
  { destruct S as (R & _). eapply Forall_impl; [|exact R]. cbn. intros r Hr. lia. }
  rewrite E. cbn [bind]. exists out. split; [reflexivity|]. split; [exact Lo|]. intros i r H. destruct (P i r H) as (a & b & c & d & A1 & A2 & A3 & A4 & A5). do 7 eexists. repeat (split; [eassumption|]).
  split; [apply centre_ok|]. split; reflexivity.
Qed.
(** The centre is between a quarter and half of the chord, at a quarter at the tip; the displacement to the mid chord has the length of the distance *)
Theorem C133_centre : forall L i a, i < L -> Centre L i a -> ((1 # 4) <= a <= 1 # 2)%Q /\ (i + 1 = L -> (a == 1 # 4)%Q) /\ (7 <= L -> i = 0 -> (a == 1 # 2)%Q).
Proof.
  intros L i a Hi (A & B & C). set (n := (15 * L) / 100) in *.
  assert (N : n < L). { unfold n. apply Nat.div_lt_upper_bound; lia. }
  split; [|split].
  - destruct (le_lt_dec n i) as [H|H]; [rewrite (A H); split; lra|]. destruct (Nat.eq_dec n 1) as [E|E]; [rewrite (B H E); split; lra|].
    pose proof (C H ltac:(lia)) as V. pose proof (qn_pos n ltac:(lia)) as P. assert (I0 : (0 <= qn i)%Q) by (unfold qn; change 0%Q with (inject_Z 0); rewrite <- Zle_Qle; lia).
    assert (I1 : (qn i <= qn n - 1)%Q) by (rewrite <- qn_S by lia; unfold qn; rewrite <- Zle_Qle; lia).
    split; nra.
  - intro E. apply A. lia.
  - intros HL ->. assert (1 <= n) by (apply Nat.div_le_lower_bound; lia). destruct (Nat.eq_dec n 1) as [E|E]; [apply B; lia|]. pose proof (C ltac:(lia) ltac:(lia)) as V. pose proof (qn_pos n ltac:(lia)) as P.
    change (qn 0) with 0%Q in V. assert (Z : ((a - (1 # 2)) * (qn n - 1) == 0)%Q) by lra. apply Qmult_integral in Z. destruct Z as [Z|Z]; lra.
Qed.
Theorem C133_distance : forall ch a crv swp t x y, (cos t * cos t + sin t * sin t == 1)%Q -> (x == crv + ch * ((1 # 2) - a) * sin t)%Q -> (y == swp + ch * ((1 # 2) - a) * cos t)%Q ->
  ((x - crv) * (x - crv) + (y - swp) * (y - swp) == (ch * ((1 # 2) - a)) * (ch * ((1 # 2) - a)))%Q.
Proof.
  intros ch a crv swp t x y H -> ->.
  transitivity ((ch * ((1 # 2) - a)) * (ch * ((1 # 2) - a)) * (cos t * cos t + sin t * sin t))%Q; [ring|]. rewrite H. ring.
Qed.
(** With fewer than seven stations the centre is at a quarter everywhere, also at the root *)
Theorem C133_short_refuted : forall L i a, L < 7 -> Centre L i a -> (a == 1 # 4)%Q.
Proof. intros L i a H (A & _). apply A. rewrite Nat.div_small by lia. lia. Qed.
Theorem C133_narrow : forall es t ds k dm, tables es [t] -> ~ is_tower es -> square t -> List.length (t_names t) < 6 -> first_is es (S_ "BldAeroNodes") (Tab (t_label t) ds k dm (Nums (t_rows t)) (Some (t_names t)) (t_units t)) ->
  t_label t <> S_ "DampingCoeffs" -> ad_blade pi cos sin number es = Err IndexError.
Proof.
  intros es t ds k dm T NT S W F D. unfold ad_blade. rewrite (frames_one es t NT T S D). cbn [bind]. rewrite (first_find _ _ _ F). rewrite (width_square t S). replace (List.length (t_names t) <? 6) with true by lia. reflexivity.
Qed.
End Aero.
Print Assumptions C133_blade.
Print Assumptions C133_centre.
Print Assumptions C133_distance.
Print Assumptions C133_short_refuted.
Print Assumptions C133_narrow.

(** ** Cases that meet the hypotheses *)
Definition xnum (v : val) : numv := match v with VInt z => KNum (inject_Z z) | VFloat _ => KNan | VStr _ => KText | _ => KOther end.
Definition xline (v : val) (l : string) : ent := Item (mkItem v (S_ l) false (S_ "- text") NOT_A_TAB).
Definition xblade : tab := mk_tab (S_ "BldAeroNodes") (map S_ ["BlSpn"; "BlCrvAC"; "BlSwpAC"; "BlCrvAng"; "BlTwist"; "BlChord"; "BlAFID"]%string) (Some (map S_ ["(m)"; "(m)"; "(m)"; "(deg)"; "(deg)"; "(m)"; "(-)"]%string))
  (repeat [0; 1; 2; 0; 60; 4; 1]%Q 14).
Definition xblades : list ent := [xline (VInt 14) "NumBlNds"; Tab (S_ "BldAeroNodes") (S_ "") NumHeader (Key (S_ "NumBlNds")) (Nums (t_rows xblade)) (Some (t_names xblade)) (t_units xblade)].
Example C133_nonvacuous : tables xblades [xblade] /\ ~ is_tower xblades /\ square xblade /\ 6 <= List.length (t_names xblade) /\
  first_is xblades (S_ "BldAeroNodes") (Tab (t_label xblade) (S_ "") NumHeader (Key (S_ "NumBlNds")) (Nums (t_rows xblade)) (Some (t_names xblade)) (t_units xblade)) /\
  (forall c, In c (labels_of xblade) -> ~ In c (map S_ ["c2_Crv_Approx_[m]"; "c2_Swp_Approx_[m]"; "AC_Approx_[-]"]%string)) /\
  match ad_blade 3 (fun _ => 3 # 5)%Q (fun _ => 4 # 5)%Q xnum xblades with
  | Ok (cols, rows) => last cols [] = S_ "AC_Approx_[-]" /\ Forall2 Qeq (nth 0 rows []) [0; 1; 2; 0; 60; 4; 1; 1; 2; 1 # 2]%Q /\ Forall2 Qeq (nth 1 rows []) [0; 1; 2; 0; 60; 4; 1; 9 # 5; 13 # 5; 1 # 4]%Q
  | _ => False end.
Proof.
  split; [unfold xblades; constructor; apply (tables_tab xblade); constructor|]. split; [rewrite <- after_iff; vm_compute; discriminate|]. split; [split; [repeat constructor|reflexivity]|]. split; [cbn; lia|]. split.
  - eexists [_], []. split; [reflexivity|]. split; [reflexivity|]. repeat constructor. vm_compute. discriminate.
  - split; [intros c H I; cbn in H, I; repeat (destruct H as [<-|H]; [repeat (destruct I as [I|I]; [discriminate I|]); destruct I|]); destruct H|].
    vm_compute. split; [reflexivity|]. split; repeat (constructor; [reflexivity|]); constructor.
Qed.
