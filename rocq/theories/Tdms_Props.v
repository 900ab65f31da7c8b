(** C107: TDMS files: every channel a column, against the common time. *)
From Coq Require Import QArith Lqa.
From Verif Require Import Py PyFacts TextFacts ListFacts Tdms_Model.
Local Open Scope nat_scope.

(** * Specification: a file has groups, and a group has channels with samples and times *)
Record signal := mk_signal { name : str; values : list Q; times : list Q }.
Record group := mk_group { g_name : str; signals : list signal }.
(** The objects of such a file: the file itself, then each group followed by its channels *)
Definition no_data : channel := mk_channel [] None.
Definition group_address (g : str) : str := slash :: quote :: replace_chr quote [quote; quote] g ++ [quote].
Definition objects (gs : list group) : tdms :=
  (S_ "/", no_data) :: flat_map (fun g => (group_address (g_name g), no_data) :: map (fun s => (address (g_name g) (name s), mk_channel (values s) (Some (times s)))) (signals g)) gs.
Definition all_signals (gs : list group) : list signal := flat_map signals gs.
Definition plain (n : str) : Prop := ~ In quote n /\ ~ In slash n.
Definition plain_names (gs : list group) : Prop := Forall (fun g => plain (g_name g) /\ Forall (fun s => plain (name s)) (signals g)) gs.
(** No two groups of one name, no two channels of one name in a group *)
Definition distinct_names (gs : list group) : Prop := NoDup (map g_name gs) /\ Forall (fun g => NoDup (map name (signals g))) gs.
(** A table with the times and the values of the signals at every index *)
Definition table_of (t : list Q) (ss : list signal) (d : table) : Prop :=
  columns d = S_ "Time_[s]" :: map name ss /\ List.length (rows d) = List.length t /\
  forall i r, nth_error (rows d) i = Some r -> List.length r = S (List.length ss) /\ nth_error r 0 = nth_error t i /\ forall k s, nth_error ss k = Some s -> nth_error r (S k) = nth_error (values s) i.

(** * Lemmas *)
Lemma no_quotes n : ~ In quote n -> forall b, replace_chr quote b n = n.
Proof. intros H b. unfold replace_chr. induction n as [|c n IH]; [reflexivity|]. cbn [flat_map]. destruct (chr_eqb c quote) eqn:E; [apply chr_eqb_eq in E; subst; elim H; now left|]. cbn [app]. f_equal. apply IH. intro. apply H. now right. Qed.
Lemma unquote_app a b : replace_chr quote [] (a ++ b) = replace_chr quote [] a ++ replace_chr quote [] b.
Proof. unfold replace_chr. now rewrite flat_map_app. Qed.
Lemma no_slash n : ~ In slash n -> forallb (fun x => negb (chr_eqb x slash)) n = true.
Proof. intro H. apply forallb_forall. intros x Hx. destruct (chr_eqb x slash) eqn:E; [apply chr_eqb_eq in E; subst; contradiction|reflexivity]. Qed.
Lemma group_skip g : plain g -> exists p, split_chr slash (replace_chr quote [] (group_address g)) = [[]; p].
Proof.
  intros [Hq Hs]. exists g. unfold group_address. rewrite (no_quotes g Hq [quote; quote]). change (slash :: quote :: g ++ [quote]) with ([slash; quote] ++ g ++ [quote]). rewrite !unquote_app. rewrite (no_quotes g Hq). cbn [app replace_chr flat_map]. change (chr_eqb slash quote) with false. change (chr_eqb quote quote) with true. cbn [app]. rewrite app_nil_r.
  unfold split_chr. cbn [split_on]. change (chr_eqb slash slash) with true. cbv iota. now rewrite split_on_none by (now apply no_slash).
Qed.
Lemma channel_split g c : plain g -> plain c -> split_chr slash (replace_chr quote [] (address g c)) = [[]; g; c].
Proof.
  intros [Hq Hs] [Hq' Hs']. unfold address. rewrite (no_quotes g Hq [quote; quote]), (no_quotes c Hq' [quote; quote]). change (slash :: quote :: g ++ quote :: slash :: quote :: c ++ [quote]) with ([slash; quote] ++ g ++ [quote; slash; quote] ++ c ++ [quote]). rewrite !unquote_app. rewrite (no_quotes g Hq []), (no_quotes c Hq' []). cbn [app replace_chr flat_map]. change (chr_eqb slash quote) with false. change (chr_eqb quote quote) with true. cbn [app]. rewrite app_nil_r.
  unfold split_chr. cbn [split_on]. change (chr_eqb slash slash) with true. cbv iota. rewrite split_on_app_sep by (now apply no_slash || reflexivity). now rewrite split_on_none by (now apply no_slash).
Qed.
Definition keys_of (gs : list group) : list (str * str) := flat_map (fun g => map (fun s => (g_name g, name s)) (signals g)) gs.
Lemma channel_keys_app a b : channel_keys (a ++ b) = channel_keys a ++ channel_keys b.
Proof. induction a as [|s a IH]; [reflexivity|]. cbn [app channel_keys]. destruct (split_chr slash (replace_chr quote [] s)) as [|? [|? [|? [|? ?]]]]; rewrite IH; reflexivity. Qed.
Lemma keys_ok gs : plain_names gs -> channel_keys (map fst (objects gs)) = keys_of gs.
Proof.
  intro H. unfold objects. cbn [map fst]. cbn [channel_keys]. replace (split_chr slash (replace_chr quote [] (S_ "/"))) with [@nil ascii; []] by reflexivity. cbv iota.
  induction H as [|g gs [Hg Hs] _ IH]; [reflexivity|]. cbn [flat_map]. rewrite map_app, channel_keys_app, IH. unfold keys_of. cbn [flat_map]. f_equal. cbn [map fst channel_keys]. destruct (group_skip _ Hg) as (p & ->). rewrite map_map. cbn [fst].
  induction Hs as [|s ss Hn _ IHs]; [reflexivity|]. cbn [map channel_keys]. rewrite channel_split by assumption. now rewrite IHs.
Qed.
Lemma address_inj g c g' c' : plain g -> plain c -> plain g' -> plain c' -> address g c = address g' c' -> g = g' /\ c = c'.
Proof. intros A B C D E. pose proof (channel_split g c A B) as P. rewrite E, channel_split in P by assumption. now injection P as -> ->. Qed.
Lemma group_not_channel g g' c' : plain g -> plain g' -> plain c' -> group_address g <> address g' c'.
Proof. intros A B C E. destruct (group_skip g A) as (p & P). rewrite E, channel_split in P by assumption. discriminate. Qed.
Lemma root_not_channel g c : plain g -> plain c -> S_ "/" <> address g c.
Proof. intros A B E. discriminate E. Qed.
Lemma find_app {A} (f : A -> bool) a b : find f (a ++ b) = match find f a with Some x => Some x | None => find f b end.
Proof. induction a as [|x a IH]; [reflexivity|]. cbn [app find]. destruct (f x); [reflexivity|exact IH]. Qed.
Lemma find_none_all {A} (f : A -> bool) l : (forall x, In x l -> f x = false) -> find f l = None.
Proof. induction l as [|x l IH]; intro H; [reflexivity|]. cbn [find]. rewrite (H x) by now left. apply IH. intros. apply H. now right. Qed.
Lemma object_ok gs g s : plain_names gs -> distinct_names gs -> In g gs -> In s (signals g) -> object (objects gs) (g_name g) (name s) = Ok (mk_channel (values s) (Some (times s))).
Proof.
  intros P [N1 N2] Hg Hs. unfold object. enough (E : find (fun o => str_eqb (fst o) (address (g_name g) (name s))) (objects gs) = Some (address (g_name g) (name s), mk_channel (values s) (Some (times s)))) by now rewrite E.
  assert (Pg : plain (g_name g) /\ Forall (fun s => plain (name s)) (signals g)). { unfold plain_names in P. rewrite Forall_forall in P. exact (P g Hg). } destruct Pg as [Pg Ps]. assert (Pn : plain (name s)) by (rewrite Forall_forall in Ps; now apply Ps).
  unfold objects. cbn [find fst]. replace (str_eqb (S_ "/") (address (g_name g) (name s))) with false by reflexivity.
  revert P N1 N2 Hg. induction gs as [|h gs IH]; intros P N1 N2 Hg; [destruct Hg|]. cbn [flat_map]. inversion P as [|? ? [Ph Phs] P']; subst. inversion N1 as [|? ? N1a N1b]; subst. inversion N2 as [|? ? N2a N2b]; subst.
  change ((group_address (g_name h), no_data) :: map (fun s0 => (address (g_name h) (name s0), mk_channel (values s0) (Some (times s0)))) (signals h)) with ([(group_address (g_name h), no_data)] ++ map (fun s0 => (address (g_name h) (name s0), mk_channel (values s0) (Some (times s0)))) (signals h)).
  rewrite <- app_assoc. rewrite find_app. cbn [find fst]. replace (str_eqb (group_address (g_name h)) (address (g_name g) (name s))) with false. 2:{ symmetry. apply str_eqb_neq. now apply group_not_channel. } rewrite find_app. destruct Hg as [->|Hg].
  - clear IH. revert Hs N2a Phs. induction (signals g) as [|x xs IHx]; intros Hs N2a Phs; [destruct Hs|]. cbn [map find fst]. inversion N2a as [|? ? Na Nb]; subst. inversion Phs as [|? ? Px Pxs]; subst. cbn [map] in *. destruct Hs as [->|Hs].
    + now rewrite str_eqb_refl.
    + destruct (str_eqb (address (g_name g) (name x)) (address (g_name g) (name s))) eqn:E.
      * apply str_eqb_eq in E. apply address_inj in E; try assumption. destruct E as [_ E]. elim Na. rewrite E. now apply in_map.
      * apply IHx; assumption.
  - rewrite find_none_all. 2:{ intros x Hx. apply in_map_iff in Hx. destruct Hx as (y & <- & Hy). cbn [fst]. apply str_eqb_neq. intro E. apply address_inj in E; try assumption. 2:{ rewrite Forall_forall in Phs. now apply Phs. } destruct E as [E _]. apply N1a. rewrite E. now apply in_map. }
    now apply IH.
Qed.
Lemma signals_ok gs : plain_names gs -> distinct_names gs -> signals_times (objects gs) (keys_of gs) = Ok (map values (all_signals gs), map times (all_signals gs)).
Proof.
  intros P N. assert (G : forall hs, incl hs gs -> signals_times (objects gs) (keys_of hs) = Ok (map values (all_signals hs), map times (all_signals hs))); [|apply G; apply incl_refl].
  assert (A : forall f ks ks' ss ts ss' ts', signals_times f ks = Ok (ss, ts) -> signals_times f ks' = Ok (ss', ts') -> signals_times f (ks ++ ks') = Ok (ss ++ ss', ts ++ ts')).
  { intros f ks. induction ks as [|[g c] ks IH]; intros ks' ss ts ss' ts' E E'; cbn [signals_times app] in *; [injection E as <- <-; exact E'|]. destruct (object f g c) as [o|]; [|discriminate]. cbn [bind] in *. destruct (time_track o); [|discriminate]. destruct (signals_times f ks) as [[s1 t1]|] eqn:F; [|discriminate]. cbn [bind] in E. injection E as <- <-. rewrite (IH _ _ _ _ _ eq_refl E'). reflexivity. }
  induction hs as [|h hs IH]; intro I; [reflexivity|]. unfold keys_of, all_signals. cbn [flat_map]. rewrite !map_app. apply A; [|apply IH; intros x Hx; apply I; now right].
  assert (Hh : In h gs) by (apply I; now left). assert (J : incl (signals h) (signals h)) by apply incl_refl. revert J. generalize (signals h) at 1 3 4 5 as ss. induction ss as [|s ss IHs]; intro J; [reflexivity|]. cbn [map signals_times]. rewrite (object_ok gs h s P N Hh) by (apply J; now left). cbn [bind time_track]. rewrite IHs by (intros x Hx; apply J; now right). reflexivity.
Qed.

Lemma several_no {A} (eqb : A -> A -> bool) x l : eqb x x = true -> Forall (fun y => y = x) l -> several eqb l = false.
Proof.
  intros R H. destruct H as [|y l E H]; [reflexivity|]. subst y. cbn [several]. induction H as [|y l E _ IH]; [reflexivity|]. subst y. cbn [existsb]. now rewrite R, IH.
Qed.
Lemma mapM_const {A B} (f : A -> res B) t v l : f t = Ok v -> Forall (fun x => x = t) l -> mapM f l = Ok (map (fun _ => v) l).
Proof. intros E H. induction H as [|x l -> _ IH]; [reflexivity|]. cbn [mapM map]. now rewrite E, IH. Qed.
Lemma stack_ok ts ss d : Forall (fun s => List.length (values s) = List.length ts) ss -> columns d = S_ "Time_[s]" :: map name ss -> column_stack (ts :: map values ss) = Ok (rows d) -> table_of ts ss d.
Proof.
  intros L C E. split; [exact C|]. cbn [column_stack] in E. destruct (forallb _ _); [|discriminate]. injection E as E. rewrite <- E. split; [now rewrite map_length, seq_length|].
  intros i r Hr. rewrite nth_error_map in Hr. destruct (nth_error (seq 0 (List.length ts)) i) as [j|] eqn:J; [|discriminate]. injection Hr as <-. assert (B : i < List.length ts). { rewrite <- (seq_length (List.length ts) 0). apply nth_error_Some. congruence. }
  rewrite (nth_error_nth' _ 0) in J by now rewrite seq_length. rewrite seq_nth in J by exact B. injection J as <-. cbn [Nat.add].
  split; [cbn [map List.length]; now rewrite !map_length|]. split; [cbn [map nth_error]; symmetry; now apply nth_error_nth'|]. intros k s Hk. cbn [map nth_error]. rewrite map_map, nth_error_map, Hk. cbn [option_map]. symmetry. apply nth_error_nth'.
  rewrite Forall_forall in L. rewrite (L s) by exact (nth_error_In _ _ Hk). exact B.
Qed.
(** Names without quotes and slashes, one time track for all: every channel is a column, under its name, in the order of the file. *)
Theorem C107_read gs t : plain_names gs -> distinct_names gs -> all_signals gs <> [] -> t <> [] -> Forall (fun s => times s = t /\ List.length (values s) = List.length t) (all_signals gs) ->
  exists d, read (objects gs) = Ok d /\ table_of t (all_signals gs) d.
Proof.
  intros P N Ne Nt H. unfold read. rewrite keys_ok by exact P. rewrite signals_ok by assumption. cbn [bind].
  assert (T : Forall (fun x => x = t) (map times (all_signals gs))). { apply Forall_forall. intros x Hx. apply in_map_iff in Hx. destruct Hx as (s & <- & Hs). rewrite Forall_forall in H. now apply H. }
  destruct t as [|t0 t]; [contradiction|]. rewrite (mapM_const _ (t0 :: t) (fold_left qmin t t0)) by (exact T || reflexivity). rewrite (mapM_const _ (t0 :: t) (fold_left qmax t t0)) by (exact T || reflexivity). cbn [bind].
  rewrite (several_no Nat.eqb (S (List.length t))); [|apply Nat.eqb_refl|]. 2:{ apply Forall_forall. intros x Hx. apply in_map_iff in Hx. destruct Hx as (y & <- & Hy). rewrite Forall_forall in T. now rewrite (T y Hy). }
  assert (K : forall v : Q, several Qeq_bool (map (fun _ => v) (map times (all_signals gs))) = false). { intro v. apply (several_no _ v); [apply Qeq_bool_iff; reflexivity|]. apply Forall_forall. intros x Hx. apply in_map_iff in Hx. now destruct Hx as (y & <- & _). }
  rewrite !K. destruct (map times (all_signals gs)) as [|x l] eqn:E; [destruct (all_signals gs); [contradiction|discriminate]|]. inversion T as [|? ? -> _]; subst.
  assert (S : exists m, column_stack ((t0 :: t) :: map values (all_signals gs)) = Ok m). { cbn [column_stack]. replace (forallb _ _) with true; [eexists; reflexivity|]. symmetry. apply forallb_forall. intros y Hy. apply in_map_iff in Hy. destruct Hy as (s & <- & Hs). rewrite Forall_forall in H. apply Nat.eqb_eq. now apply H. }
  destruct S as (m & S). rewrite S. cbn [bind]. eexists. split; [reflexivity|]. apply stack_ok; [|cbn [columns]; f_equal|exact S].
  - eapply Forall_impl; [|exact H]. cbv beta. intros s [_ L]. exact L.
  - unfold keys_of, all_signals. clear. induction gs as [|g gs IH]; [reflexivity|]. cbn [flat_map]. rewrite !map_app, IH. f_equal. now rewrite map_map.
Qed.

(** Sampling at equal steps, forwards: the three tests then tell exactly whether all times are the same. *)
Definition regular (t : list Q) : Prop := exists a h, (0 <= h)%Q /\ forall i x, nth_error t i = Some x -> (x == a + inject_Z (Z.of_nat i) * h)%Q.
Lemma fold_min t : forall x, (forall y, In y t -> (x <= y)%Q) -> (fold_left qmin t x == x)%Q.
Proof.
  induction t as [|y t IH]; intros x H; [reflexivity|]. cbn [fold_left]. unfold qmin at 2. replace (Qle_bool x y) with true by (symmetry; apply Qle_bool_iff; apply H; now left). apply IH. intros z Hz. apply H. now right.
Qed.
Lemma fold_max t : forall x m, (x <= m)%Q -> (forall y, In y t -> (y <= m)%Q) -> ((x == m)%Q \/ exists y, In y t /\ (y == m)%Q) -> (fold_left qmax t x == m)%Q.
Proof.
  induction t as [|y t IH]; intros x m Hx H E; [destruct E as [E|(y & [] & _)]; exact E|]. cbn [fold_left]. apply IH; [unfold qmax; destruct (Qle_bool x y); [apply H; now left|exact Hx]|intros z Hz; apply H; now right|]. unfold qmax. destruct (Qle_bool x y) eqn:Q.
  - apply Qle_bool_iff in Q. assert (y <= m)%Q by (apply H; now left). destruct E as [E|(z & [->|Hz] & E)]; [left; lra|left; exact E|right; now exists z].
  - destruct E as [E|(z & [->|Hz] & E)]; [now left| |right; now exists z]. left. assert (~ (x <= z)%Q) by (intro; apply Qle_bool_iff in H0; congruence). lra.
Qed.
Lemma step_mono h i j : (0 <= h)%Q -> i <= j -> (inject_Z (Z.of_nat i) * h <= inject_Z (Z.of_nat j) * h)%Q.
Proof. intros H L. apply Qmult_le_compat_r; [|exact H]. rewrite <- Zle_Qle. lia. Qed.
Lemma min_regular x t : regular (x :: t) -> (fold_left qmin t x == x)%Q.
Proof.
  intros (a & h & Hh & H). apply fold_min. intros y Hy. apply In_nth_error in Hy. destruct Hy as (i & Hi). pose proof (H 0 x eq_refl) as E0. pose proof (H (S i) y Hi) as E1. rewrite E0, E1. apply Qplus_le_r, step_mono; [exact Hh|lia].
Qed.
Lemma max_regular x t : regular (x :: t) -> (fold_left qmax t x == last (x :: t) 0%Q)%Q.
Proof.
  intros (a & h & Hh & H). assert (L : nth_error (x :: t) (List.length t) = Some (last (x :: t) 0%Q)).
  { clear. revert x. induction t as [|y t IH]; intro x; [reflexivity|]. cbn [List.length nth_error]. rewrite (IH y). reflexivity. }
  pose proof (H _ _ L) as EL. revert L EL. generalize (last (x :: t) 0%Q) as m. intros m L EL. apply fold_max.
  - pose proof (H 0 x eq_refl) as E0. rewrite E0, EL. apply Qplus_le_r, step_mono; [exact Hh|lia].
  - intros y Hy. apply In_nth_error in Hy. destruct Hy as (i & Hi). assert (i < List.length t) by (apply nth_error_Some; congruence). pose proof (H (S i) y Hi) as E1. rewrite E1, EL. apply Qplus_le_r, step_mono; [exact Hh|lia].
  - destruct t as [|y t]; [left; injection L as ->; reflexivity|]. right. exists m. split; [|reflexivity]. cbn [List.length nth_error] in L. exact (nth_error_In _ _ L).
Qed.
Lemma nth_last {A} (t : list A) d : t <> [] -> nth_error t (List.length t - 1) = Some (last t d).
Proof. induction t as [|x [|y t] IH]; intro H; [contradiction|reflexivity|]. cbn [List.length] in *. replace (S (S (List.length t)) - 1) with (S (S (List.length t) - 1)) by lia. cbn [nth_error]. rewrite IH by discriminate. reflexivity. Qed.
Lemma regular_same t u : regular t -> regular u -> List.length t = List.length u -> t <> [] -> (hd 0 t == hd 0 u)%Q -> (last t 0 == last u 0)%Q -> Forall2 Qeq t u.
Proof.
  intros (a & h & _ & H) (b & k & _ & G) L Nt E1 E2.
  assert (A : (a == hd 0 t)%Q). { destruct t as [|x t]; [contradiction|]. pose proof (H 0 x eq_refl) as X. cbn [hd]. rewrite X. cbn. ring. }
  assert (B : (b == hd 0 u)%Q). { destruct u as [|x u]; [destruct t; [contradiction|discriminate L]|]. pose proof (G 0 x eq_refl) as X. cbn [hd]. rewrite X. cbn. ring. }
  assert (Nu : u <> []) by (destruct u; [destruct t; [contradiction|discriminate L]|discriminate]).
  pose proof (H _ _ (nth_last t 0%Q Nt)) as HL. pose proof (G _ _ (nth_last u 0%Q Nu)) as GL. rewrite <- L in GL.
  assert (P : forall i x y, nth_error t i = Some x -> nth_error u i = Some y -> (x == y)%Q).
  { intros i x y Hx Hy. pose proof (H i x Hx) as E3. pose proof (G i y Hy) as E4. rewrite E3, E4. assert (I : i < List.length t) by (apply nth_error_Some; congruence). assert (Z1 : (inject_Z (Z.of_nat i) * h == inject_Z (Z.of_nat i) * k)%Q).
    { destruct i as [|i]; [cbn; ring|]. assert (D : (inject_Z (Z.of_nat (List.length t - 1)) * h == inject_Z (Z.of_nat (List.length t - 1)) * k)%Q) by (apply (Qplus_inj_l _ _ (hd 0 t)%Q); rewrite A in HL; rewrite B in GL; rewrite <- HL, E2, GL, E1; reflexivity). apply Qmult_inj_l in D; [now rewrite D|].
      change 0%Q with (inject_Z 0). intro C. apply (proj1 (inject_Z_injective _ _)) in C. lia. }
    rewrite Z1, A, B, E1. reflexivity. }
  clear - L P. revert u L P. induction t as [|x t IH]; intros [|y u] L P; try discriminate L; constructor; [exact (P 0 x y eq_refl eq_refl)|]. apply IH; [now injection L|]. intros i v w. exact (P (S i) v w).
Qed.
Lemma several_false {A} (eqb : A -> A -> bool) x l : several eqb (x :: l) = false -> forall y, In y l -> eqb x y = true.
Proof. cbn [several]. intros H y Hy. destruct (eqb x y) eqn:E; [reflexivity|]. assert (existsb (fun y => negb (eqb x y)) l = true); [apply existsb_exists; exists y; split; [exact Hy|now rewrite E]|congruence]. Qed.
Lemma mapM_in {A B} (f : A -> res B) l r x : mapM f l = Ok r -> In x l -> exists y, f x = Ok y /\ In y r.
Proof.
  revert r. induction l as [|z l IH]; intros r E H; [destruct H|]. cbn [mapM] in E. destruct (f z) as [v|] eqn:F; [|discriminate]. cbn [bind] in E. destruct (mapM f l) as [vs|]; [|discriminate]. cbn [bind] in E. injection E as <-.
  destruct H as [->|H]; [exists v; split; [exact F|now left]|]. destruct (IH vs eq_refl H) as (y & Fy & Hy). exists y. split; [exact Fy|now right].
Qed.
Theorem C107_success gs d : plain_names gs -> distinct_names gs -> Forall (fun s => regular (times s)) (all_signals gs) -> read (objects gs) = Ok d ->
  exists s0 rest, all_signals gs = s0 :: rest /\ table_of (times s0) (all_signals gs) d /\ Forall (fun s => Forall2 Qeq (times s0) (times s)) (all_signals gs).
Proof.
  intros P N R H. unfold read in H. rewrite keys_ok in H by exact P. rewrite signals_ok in H by assumption. cbn [bind] in H.
  destruct (mapM (extreme qmin) _) as [mins|] eqn:E1; [|discriminate]. destruct (mapM (extreme qmax) _) as [maxs|] eqn:E2; [|discriminate]. cbn [bind] in H.
  destruct (several Nat.eqb _) eqn:S1; [discriminate|]. destruct (several Qeq_bool mins) eqn:S2; [discriminate|]. destruct (several Qeq_bool maxs) eqn:S3; [discriminate|].
  destruct (all_signals gs) as [|s0 rest] eqn:E; [discriminate|]. exists s0, rest. split; [reflexivity|]. cbn [map] in *.
  destruct (column_stack _) as [m|] eqn:C; [|discriminate]. cbn [bind] in H. injection H as <-. split.
  - apply (stack_ok (times s0) (s0 :: rest)); [|cbn [columns]; f_equal|exact C].
    + cbn [column_stack] in C. destruct (forallb _ _) eqn:F; [|discriminate]. rewrite forallb_forall in F. apply Forall_forall. intros s Hs. apply Nat.eqb_eq, F. change (values s0 :: map values rest) with (map values (s0 :: rest)). now apply in_map.
    + rewrite <- E. unfold keys_of, all_signals. clear. induction gs as [|g gs IH]; [reflexivity|]. cbn [flat_map]. rewrite !map_app, IH. f_equal. now rewrite map_map.
  - constructor; [clear; induction (times s0); constructor; [reflexivity|assumption]|]. apply Forall_forall. intros s Hs. inversion R as [|? ? R0 R']; subst. rewrite Forall_forall in R'. specialize (R' s Hs).
    assert (L : List.length (times s0) = List.length (times s)). { apply Nat.eqb_eq. apply (several_false _ _ _ S1). rewrite map_map. apply in_map_iff. now exists s. }
    cbn [mapM] in E1, E2. destruct (extreme qmin (times s0)) as [m0|] eqn:X1; [|discriminate]. destruct (mapM (extreme qmin) (map times rest)) as [ms|] eqn:Y1; [|discriminate]. injection E1 as <-.
    destruct (extreme qmax (times s0)) as [n0|] eqn:X2; [|discriminate]. cbn [bind] in E2. destruct (mapM (extreme qmax) (map times rest)) as [ns|] eqn:Y2; [|discriminate]. injection E2 as <-.
    destruct (mapM_in _ _ _ (times s) Y1) as (v & V1 & V2); [now apply in_map|]. destruct (mapM_in _ _ _ (times s) Y2) as (w & W1 & W2); [now apply in_map|].
    pose proof (several_false _ _ _ S2 v V2) as Q1. pose proof (several_false _ _ _ S3 w W2) as Q2. apply Qeq_bool_iff in Q1, Q2.
    destruct (times s0) as [|x t] eqn:T0; [discriminate|]. destruct (times s) as [|y u] eqn:T1; [discriminate|]. cbn [extreme] in X1, X2, V1, W1. injection X1 as X1. injection X2 as X2. injection V1 as V1. injection W1 as W1.
    apply regular_same; try assumption; [discriminate| |]; cbn [hd].
    + rewrite <- (min_regular x t R0), <- (min_regular y u R'), X1, V1. exact Q1.
    + rewrite <- (max_regular x t R0), <- (max_regular y u R'), X2, W1. exact Q2.
Qed.
(** Different numbers of samples are refused. *)
Theorem C107_other_length gs s s' : plain_names gs -> distinct_names gs -> Forall (fun s => times s <> []) (all_signals gs) -> In s (all_signals gs) -> In s' (all_signals gs) -> List.length (times s) <> List.length (times s') -> read (objects gs) = Err NotImplementedError.
Proof.
  intros P N Ne Hs Hs' L. unfold read. rewrite keys_ok by exact P. rewrite signals_ok by assumption. cbn [bind].
  assert (M : forall f, exists r, mapM (extreme f) (map times (all_signals gs)) = Ok r). { intro f. clear - Ne. induction Ne as [|s ss H _ (r & IH)]; [now exists []|]. cbn [map mapM]. destruct (times s); [contradiction|]. cbn [extreme bind]. rewrite IH. eexists. reflexivity. }
  destruct (M qmin) as (r1 & ->). destruct (M qmax) as (r2 & ->). cbn [bind]. destruct (several Nat.eqb _) eqn:S1; [reflexivity|]. exfalso.
  destruct (all_signals gs) as [|s0 rest]; [destruct Hs|]. cbn [map] in S1. assert (G : forall x, In x (s0 :: rest) -> List.length (times s0) = List.length (times x)). { intros x [->|Hx]; [reflexivity|]. apply Nat.eqb_eq, (several_false _ _ _ S1). rewrite map_map. apply in_map_iff. now exists x. }
  apply L. now rewrite <- (G s Hs), <- (G s' Hs').
Qed.
(** No channel at all *)
Theorem C107_no_channel gs : plain_names gs -> all_signals gs = [] -> read (objects gs) = Err IndexError.
Proof.
  intros P E. unfold read. rewrite keys_ok by exact P. replace (keys_of gs) with (@nil (str * str)); [reflexivity|]. unfold keys_of, all_signals in *. clear P. induction gs as [|g gs IH]; [reflexivity|]. cbn [flat_map] in *. apply app_eq_nil in E. destruct E as [E1 E2]. rewrite E1. cbn [map app]. now apply IH.
Qed.
(** A name with a slash: the channel is left out without an error (here all others are plain). *)
Definition sig (n : string) (v : Q) : signal := mk_signal (S_ n) [v; v] [0; 1]%Q.
Theorem C107_slash_refuted : exists gs d, distinct_names gs /\ List.length (all_signals gs) = 2 /\ read (objects gs) = Ok d /\ columns d = [S_ "Time_[s]"; S_ "b"].
Proof.
  exists [mk_group (S_ "g") [sig "m/s" 1; sig "b" 2]]. eexists. split; [|split; [reflexivity|]; split; [vm_compute; reflexivity|reflexivity]].
  split; [repeat constructor; cbn; intuition discriminate|]. constructor; [|constructor]. cbn. repeat constructor; cbn; intuition discriminate.
Qed.
(** A quote in the name of a channel: no file with such a channel can be read. *)
Lemma unquote_clean s : ~ In quote (replace_chr quote [] s).
Proof. unfold replace_chr. intro H. apply in_flat_map in H. destruct H as (c & _ & H). destruct (chr_eqb c quote) eqn:E; [destruct H|]. destruct H as [->|[]]. now rewrite chr_eqb_refl in E. Qed.
Theorem C107_quote_refuted : exists gs, distinct_names gs /\ Forall (fun s => times s = [0; 1]%Q) (all_signals gs) /\ read (objects gs) = Err KeyError.
Proof.
  exists [mk_group (S_ "g") [sig "l'axe" 1]]. split; [|split; [repeat constructor|vm_compute; reflexivity]]. split; [repeat constructor; cbn; intuition discriminate|]. constructor; [|constructor]. repeat constructor; cbn; intuition discriminate.
Qed.
(** A slash in the name of a group: the group itself is taken for a channel. *)
Theorem C107_group_slash_refuted : exists gs, distinct_names gs /\ Forall (fun s => plain (name s)) (all_signals gs) /\ read (objects gs) = Err KeyError.
Proof.
  exists [mk_group (S_ "g/h") [sig "a" 1]; mk_group (S_ "k") [sig "a" 1]]. split; [|split; [|vm_compute; reflexivity]]. { split; [repeat constructor; cbn; intuition discriminate|]. repeat constructor; cbn; intuition discriminate. }
  repeat constructor; intros [H|[]]; discriminate.
Qed.

(** * Example *)
Definition ex : list group := [mk_group (S_ "Lidar") [mk_signal (S_ "u") [3; 4; 5]%Q [0; 1 # 2; 1]%Q; mk_signal (S_ "v") [6; 7; 8]%Q [0; 1 # 2; 1]%Q]; mk_group (S_ "empty") []; mk_group (S_ "Mast") [mk_signal (S_ "u") [1; 1; 2]%Q [0; 1 # 2; 1]%Q]].
Example ex_ok : plain_names ex /\ distinct_names ex /\ all_signals ex <> [] /\ Forall (fun s => times s = [0; 1 # 2; 1]%Q /\ List.length (values s) = 3) (all_signals ex) /\ Forall (fun s => regular (times s)) (all_signals ex).
Proof.
  assert (P : forall n : string, existsb (fun c => chr_eqb c quote || chr_eqb c slash) (S_ n) = false -> plain (S_ n)). { intros n H. split; intro I; assert (existsb (fun c => chr_eqb c quote || chr_eqb c slash) (S_ n) = true) by (apply existsb_exists; eexists; split; [exact I|reflexivity]); congruence. }
  split; [repeat (constructor; try (split; [apply P; reflexivity|])); apply P; reflexivity|]. split; [split; [repeat constructor; cbn; intuition discriminate|repeat constructor; cbn; intuition discriminate]|]. split; [discriminate|]. split; [repeat constructor|].
  assert (R : regular [0; 1 # 2; 1]%Q). { exists 0%Q, (1 # 2). split; [lra|]. intros [|[|[|i]]] x E; cbn in E; [| | |destruct i; discriminate]; injection E as <-; reflexivity. }
  repeat constructor; exact R.
Qed.
Example ex_read : read (objects ex) = Ok (mk_table [S_ "Time_[s]"; S_ "u"; S_ "v"; S_ "u"] [[0; 3; 6; 1]; [1 # 2; 4; 7; 1]; [1; 5; 8; 2]]%Q).
Proof. vm_compute. reflexivity. Qed.

Print Assumptions C107_read.
Print Assumptions C107_success.
Print Assumptions C107_other_length.
Print Assumptions C107_no_channel.
Print Assumptions C107_slash_refuted.
Print Assumptions C107_quote_refuted.
Print Assumptions C107_group_slash_refuted.
