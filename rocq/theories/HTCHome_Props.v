(** Properties of the model folder of an HTC file and of its batch job. *)
From Verif Require Import Py PyFacts HTC_Model.
From Verif Require Registry_Model Registry_Proofs Deck_Model HTCPath_Model.
From Verif Require Import HTCHome_Model.
From Coq Require Import Lia.
Local Open Scope nat_scope.

(** ** Specification *)
Definition absolute (p : str) : Prop := exists t, p = S_ "/" ++ t.
(** The file [name] is in the folder [d]. *)
Definition in_folder (name d : str) : Prop :=
  exists base, name = d ++ S_ "/" ++ base /\ d <> [] /\ (forall t, d <> t ++ S_ "/") /\ ~ In "/"%char base /\ ~ In "\"%char name.
(** The folder [i] levels above [d], written with dots. *)
Fixpoint dots (i : nat) : str := match i with 0 => [] | S j => S_ "../" ++ dots j end.
Definition above (d : str) (i : nat) : str := d ++ S_ "/" ++ dots i.
(** The relative files of [files] that exist when they are looked for in the folder [i] levels above [d]. *)
Definition relative (f : str) : bool := match f with c :: _ => negb (chr_eqb c "/"%char) | [] => true end.
Definition found_at (here : str -> bool) (d : str) (files : list str) (i : nat) : nat :=
  List.length (filter (fun f => relative f && here (above d i ++ f)) files).
(** The folder with most of the files, and of those the nearest. *)
Definition best (n : nat -> nat) (i : nat) : Prop := i < 4 /\ 0 < n i /\ (forall j, j < 4 -> n j <= n i) /\ (forall j, j < i -> n j < n i).
(** Backslashes become slashes. *)
Definition forward (p : str) : str := map (fun c => if chr_eqb c "\"%char then "/"%char else c) p.
(** [q] is [p] with a slash at its end. *)
Definition slashed (p q : str) : Prop := (exists t, p = t ++ S_ "/") /\ q = p \/ (~ exists t, p = t ++ S_ "/") /\ q = p ++ S_ "/".

(** ** Facts *)
Lemma ups_dots i : ups i = dots i.
Proof. unfold ups. induction i as [|i IH]; [reflexivity|]. cbn [repeat concat dots]. rewrite IH. reflexivity. Qed.
Lemma isabs_rel f : negb (isabs f) = relative f.
Proof. unfold isabs, relative. destruct f as [|c f]; [reflexivity|]. cbn. rewrite andb_true_r. reflexivity. Qed.
Lemma isabs_iff p : isabs p = true <-> absolute p.
Proof. unfold isabs, absolute. apply startswith_iff. Qed.
Lemma not_ends d : d <> [] -> (forall t, d <> t ++ S_ "/") -> Deck_Model.ends_slash d = false.
Proof.
  intros N H. unfold Deck_Model.ends_slash. destruct (rev d) as [|c r] eqn:E; [reflexivity|].
  unfold Deck_Model.is_slash. destruct (chr_eqb_spec c Registry_Model.slash) as [->|X]; [|first [reflexivity|assumption]].
  exfalso. apply (H (rev r)). rewrite <- (rev_involutive d), E. reflexivity.
Qed.
Lemma join_folder d x : d <> [] -> (forall t, d <> t ++ S_ "/") -> relative x = true -> Deck_Model.path_join d x = d ++ S_ "/" ++ x.
Proof.
  intros N H R. unfold Deck_Model.path_join. rewrite (not_ends d N H). destruct d as [|a d]; [contradiction|]. cbn [nonempty negb orb].
  destruct x as [|c x]; [reflexivity|]. cbn [relative] in R. unfold Deck_Model.is_slash. apply negb_true_iff in R.
  change Registry_Model.slash with "/"%char. rewrite R. reflexivity.
Qed.
Lemma join_slashed a x : relative x = true -> Deck_Model.path_join (a ++ S_ "/") x = a ++ S_ "/" ++ x.
Proof.
  intro R. unfold Deck_Model.path_join. assert (E : Deck_Model.ends_slash (a ++ S_ "/") = true).
  { unfold Deck_Model.ends_slash. rewrite rev_app_distr. reflexivity. }
  rewrite E, orb_true_r, <- app_assoc. destruct x as [|c x]; [reflexivity|]. cbn [relative] in R. unfold Deck_Model.is_slash. apply negb_true_iff in R.
  change Registry_Model.slash with "/"%char. rewrite R. reflexivity.
Qed.
Lemma dots_end i : exists t, S_ "/" ++ dots i = t ++ S_ "/".
Proof.
  induction i as [|i (t & IH)]; [exists []; reflexivity|]. exists (S_ "/.." ++ t). cbn [dots].
  change (S_ "/.." ++ (S_ "/" ++ dots i) = (S_ "/.." ++ t) ++ S_ "/"). rewrite IH, app_assoc. reflexivity.
Qed.
Lemma dots_relative i : relative (dots i) = true.
Proof. destruct i; reflexivity. Qed.
Lemma rstrip_slash_end d : d <> [] -> (forall t, d <> t ++ S_ "/") -> Deck_Model.rstrip_slash (d ++ [Registry_Model.slash]) = d.
Proof.
  induction d as [|c d IH]; intros N H; [contradiction|]. cbn [app Deck_Model.rstrip_slash]. destruct d as [|c' d].
  - cbn. unfold Deck_Model.is_slash. destruct (chr_eqb_spec c Registry_Model.slash) as [->|X]; [exfalso; apply (H []); reflexivity|reflexivity].
  - rewrite IH; [reflexivity|discriminate|]. intros t E. apply (H (c :: t)). rewrite E. reflexivity.
Qed.
Lemma dirname_folder name d : in_folder name d -> Deck_Model.dirname name = d.
Proof.
  intros (base & -> & N & H & B & _). unfold Deck_Model.dirname. change (d ++ S_ "/" ++ base) with (d ++ Registry_Model.slash :: base).
  rewrite Registry_Proofs.rsplit1_app by exact B. cbv zeta.
  destruct (forallb Deck_Model.is_slash (d ++ [Registry_Model.slash])) eqn:E; [|apply rstrip_slash_end; assumption].
  exfalso. rewrite forallb_app in E. apply andb_prop in E. destruct E as [E _].
  destruct (exists_last N) as (t & c & X). subst d. rewrite forallb_app in E. apply andb_prop in E. destruct E as [_ E]. cbn in E. rewrite andb_true_r in E.
  unfold Deck_Model.is_slash in E. apply chr_eqb_eq in E. subst c. apply (H t). reflexivity.
Qed.
Lemma candidate_ok name d i f : in_folder name d -> relative f = true -> candidate name i f = above d i ++ f.
Proof.
  intros F R. unfold candidate, above. rewrite (dirname_folder name d F), ups_dots. destruct F as (base & _ & N & H & _).
  rewrite (join_folder d (dots i) N H (dots_relative i)). destruct (dots_end i) as (t & E). rewrite E, !app_assoc. rewrite join_slashed by exact R. rewrite <- !app_assoc. reflexivity.
Qed.
Lemma count_ok here name d files i : in_folder name d ->
  List.length (filter (fun f => here (candidate name i f)) (filter (fun f => negb (isabs f)) files)) = found_at here d files i.
Proof.
  intro F. unfold found_at. f_equal. induction files as [|f l IH]; [reflexivity|]. cbn [filter]. rewrite isabs_rel. destruct (relative f) eqn:R; cbn [andb]; [|exact IH].
  cbn [filter]. rewrite (candidate_ok name d i f F R). destruct (here (above d i ++ f)); [f_equal|]; exact IH.
Qed.
Lemma argmax_spec l : l <> [] -> argmax l < List.length l /\ (forall j, j < List.length l -> nth j l 0 <= nth (argmax l) l 0) /\ (forall j, j < argmax l -> nth j l 0 < nth (argmax l) l 0).
Proof.
  induction l as [|x l IH]; intro N; [contradiction|]. cbn [argmax List.length]. destruct (forallb (fun y => y <=? x) l) eqn:E.
  - split; [lia|]. split; [|intros j J; lia]. intros [|j] J; [apply le_n|]. cbn [nth]. rewrite forallb_forall in E. apply Nat.leb_le. apply E. apply nth_In. lia.
  - assert (M : l <> []) by (destruct l; [discriminate E|discriminate]). destruct (IH M) as (A & B & C). cbn [nth].
    assert (X : x < nth (argmax l) l 0).
    { assert (Y : exists y, In y l /\ x < y).
      { clear - E. induction l as [|y l IH]; [discriminate E|]. cbn [forallb] in E. destruct (y <=? x) eqn:Z.
        - destruct (IH E) as (w & W1 & W2). exists w. split; [right; exact W1|exact W2].
        - apply Nat.leb_gt in Z. exists y. split; [left; reflexivity|exact Z]. }
      destruct Y as (y & Y1 & Y2). destruct (In_nth l y 0 Y1) as (j & J1 & J2). specialize (B j J1). lia. }
    split; [lia|]. split.
    + intros [|j] J; [lia|]. apply B. lia.
    + intros [|j] J; [exact X|]. apply C. lia.
Qed.
Lemma unback_id s : ~ In "\"%char s -> HTCPath_Model.unback s = s.
Proof.
  intro H. unfold HTCPath_Model.unback. induction s as [|c s IH]; [reflexivity|]. cbn [map]. rewrite IH by (intro X; apply H; right; exact X).
  destruct (chr_eqb_spec c backslash) as [->|X]; [exfalso; apply H; left; reflexivity|reflexivity].
Qed.
Lemma best_unique n i j : best n i -> best n j -> i = j.
Proof.
  intros (A1 & A2 & A3 & A4) (B1 & B2 & B3 & B4). destruct (Nat.lt_trichotomy i j) as [X|[X|X]]; [|exact X|].
  - specialize (B4 i X). specialize (A3 j B1). lia.
  - specialize (A4 j X). specialize (B3 i A1). lia.
Qed.
Lemma above_plain name d i : in_folder name d -> ~ In "\"%char (above d i).
Proof.
  intros (base & -> & _ & _ & _ & H) X. unfold above in X. apply in_app_iff in X. destruct X as [X|X]; [apply H; apply in_app_iff; left; exact X|].
  apply in_app_iff in X. destruct X as [X|X]; [cbn in X; destruct X as [X|[]]; discriminate X|].
  clear - X. induction i as [|i IH]; [exact X|]. cbn [dots] in X. apply in_app_iff in X. destruct X as [X|X]; [cbn in X; repeat (destruct X as [X|X]; [discriminate X|]); exact X|apply IH; exact X].
Qed.
Lemma detect_step here abspath inputs name d files : in_folder name d -> inputs name = Ok files -> List.length files <> 1 ->
  auto_detect here abspath inputs (Some name) =
  let found := map (found_at here d files) [0; 1; 2; 3] in
  if existsb (fun n => 0 <? n) found then Ok (abspath (above d (argmax found))) else Err ValueError.
Proof.
  intros F I N. unfold auto_detect. rewrite I. cbn [bind]. apply Nat.eqb_neq in N. rewrite N. cbv zeta. cbn [map].
  rewrite !(count_ok here name d files _ F), (dirname_folder name d F).
  assert (J : forall i, HTCPath_Model.unback (Deck_Model.path_join d (ups i)) = above d i).
  { intro i. rewrite ups_dots. pose proof (above_plain name d i F) as P. destruct F as (base & _ & Z & H & _). rewrite (join_folder d (dots i) Z H (dots_relative i)). apply unback_id. exact P. }
  rewrite J. reflexivity.
Qed.
Lemma found_best n : existsb (fun x => 0 <? x) (map n [0; 1; 2; 3]) = true -> best n (argmax (map n [0; 1; 2; 3])).
Proof.
  intro E. assert (M : map n [0; 1; 2; 3] <> []) by discriminate. destruct (argmax_spec _ M) as (A & B & C). set (i := argmax (map n [0; 1; 2; 3])) in *.
  cbn [List.length map] in A. assert (V : forall j, j < 4 -> nth j (map n [0; 1; 2; 3]) 0 = n j).
  { intros j J. destruct j as [|[|[|[|j]]]]; [reflexivity..|lia]. }
  split; [exact A|]. split.
  - apply existsb_exists in E. destruct E as (x & X & P). apply Nat.ltb_lt in P. destruct (In_nth _ _ 0 X) as (j & J1 & J2). specialize (B j J1). rewrite (V i A) in B. lia.
  - split; intros j J.
    + specialize (B j). rewrite (V i A), (V j J) in B. apply B. exact J.
    + specialize (C j J). rewrite (V i A), (V j) in C by lia. exact C.
Qed.

(** ** The model folder *)
(** The folder that is detected is the one of the four (that of the file and the three above it) where most of the relative input files are, and of
    those the nearest. *)
Theorem C153_detected : forall here abspath inputs name d files p, in_folder name d -> inputs name = Ok files -> List.length files <> 1 ->
  (auto_detect here abspath inputs (Some name) = Ok p <-> exists i, best (found_at here d files) i /\ p = abspath (above d i)).
Proof.
  intros here abspath inputs name d files p F I N. rewrite (detect_step here abspath inputs name d files F I N). cbv zeta.
  destruct (existsb (fun n => 0 <? n) (map (found_at here d files) [0; 1; 2; 3])) eqn:E.
  - pose proof (found_best _ E) as B. split.
    + intro H. injection H as <-. eexists. split; [exact B|reflexivity].
    + intros (i & B' & ->). rewrite (best_unique _ _ _ B' B). reflexivity.
  - split; [discriminate|]. intros (i & (B1 & B2 & _) & _). exfalso. assert (X : existsb (fun n => 0 <? n) (map (found_at here d files) [0; 1; 2; 3]) = true); [|rewrite X in E; discriminate E].
    apply existsb_exists. exists (found_at here d files i). split; [|apply Nat.ltb_lt; exact B2]. apply in_map. destruct i as [|[|[|[|i]]]]; cbn; [auto..|lia].
Qed.
(** The detection fails exactly when none of the relative input files is in one of the four folders. *)
Theorem C153_not_detected : forall here abspath inputs name d files, in_folder name d -> inputs name = Ok files -> List.length files <> 1 ->
  (auto_detect here abspath inputs (Some name) = Err ValueError <-> forall i f, i < 4 -> In f files -> ~ absolute f -> here (above d i ++ f) = false).
Proof.
  intros here abspath inputs name d files F I N. rewrite (detect_step here abspath inputs name d files F I N). cbv zeta.
  assert (Z : forall i, found_at here d files i = 0 <-> forall f, In f files -> ~ absolute f -> here (above d i ++ f) = false).
  { intro i. unfold found_at. split.
    - intros H f M A. apply length_zero_iff_nil in H. destruct (here (above d i ++ f)) eqn:X; [|reflexivity]. exfalso.
      assert (Y : In f (filter (fun f => relative f && here (above d i ++ f)) files)); [|rewrite H in Y; exact Y].
      apply filter_In. split; [exact M|]. rewrite X, andb_true_r, <- isabs_rel. apply negb_true_iff. destruct (isabs f) eqn:Q; [exfalso; apply A; apply isabs_iff; exact Q|reflexivity].
    - intro H. destruct (filter (fun f => relative f && here (above d i ++ f)) files) as [|f l] eqn:Y; [reflexivity|]. exfalso.
      assert (M : In f (filter (fun f => relative f && here (above d i ++ f)) files)) by (rewrite Y; left; reflexivity).
      apply filter_In in M. destruct M as [M1 M2]. apply andb_prop in M2. destruct M2 as [R X]. rewrite H in X; [discriminate X|exact M1|].
      intro A. apply isabs_iff in A. rewrite <- isabs_rel, A in R. discriminate R. }
  destruct (existsb (fun n => 0 <? n) (map (found_at here d files) [0; 1; 2; 3])) eqn:E.
  - split; [discriminate|]. intro H. exfalso. apply existsb_exists in E. destruct E as (x & X & P). apply in_map_iff in X. destruct X as (i & <- & M).
    assert (L : i < 4) by (cbn in M; lia). apply Nat.ltb_lt in P. assert (Q : found_at here d files i = 0) by (apply Z; intros f; apply H; exact L). lia.
  - split; [|reflexivity]. intros _ i f L M A. revert f M A. apply Z. destruct (found_at here d files i) as [|x] eqn:X; [reflexivity|]. exfalso.
    assert (Y : existsb (fun n => 0 <? n) (map (found_at here d files) [0; 1; 2; 3]) = true); [|rewrite Y in E; discriminate E].
    apply existsb_exists. exists (found_at here d files i). split; [|rewrite X; reflexivity]. apply in_map. destruct i as [|[|[|[|i]]]]; cbn; [auto..|lia].
Qed.
(** FINDING: a file whose other input files are all given by absolute paths, which need no model folder, cannot be opened without one. *)
Theorem C153_absolute_refuted : forall here abspath realpath inputs name d files, in_folder name d -> inputs name = Ok files -> List.length files <> 1 -> Forall absolute files ->
  init_modelpath here abspath realpath inputs (Some name) None = Err ValueError.
Proof.
  intros here abspath realpath inputs name d files F I N A. unfold init_modelpath.
  assert (X : auto_detect here abspath inputs (Some name) = Err ValueError).
  { apply (proj2 (C153_not_detected here abspath inputs name d files F I N)). intros i f _ M B. rewrite Forall_forall in A. exfalso. apply B. apply A. exact M. }
  rewrite X. reflexivity.
Qed.
Lemma last_step m : m <> [] -> exists q, match rev m with [] => Err IndexError | c :: _ => if chr_eqb c (ch 47) then Ok m else Ok (m ++ S_ "/") end = Ok q /\ slashed m q.
Proof.
  intro N. destruct (rev m) as [|c r] eqn:E; [exfalso; apply N; rewrite <- (rev_involutive m), E; reflexivity|].
  assert (M : m = rev r ++ [c]) by (rewrite <- (rev_involutive m), E; reflexivity).
  destruct (chr_eqb_spec c (ch 47)) as [->|X].
  - exists m. split; [reflexivity|]. left. split; [exists (rev r); exact M|reflexivity].
  - exists (m ++ S_ "/"). split; [reflexivity|]. right. split; [|reflexivity]. intros (t & T). rewrite M in T. apply app_inj_tail in T. apply X. apply T.
Qed.
(** The model folder always ends with a slash, or is the word for an unknown one. *)
Theorem C153_slash : forall here abspath realpath inputs filename modelpath m, init_modelpath here abspath realpath inputs filename modelpath = Ok m ->
  m = S_ "unknown" \/ exists t, m = t ++ S_ "/".
Proof.
  intros here abspath realpath inputs filename modelpath m H. unfold init_modelpath in H.
  destruct (match modelpath with Some (c :: m) => Ok (c :: m) | _ => auto_detect here abspath inputs filename end) as [m0|e]; [|discriminate H]. cbn [bind] in H.
  cbv zeta in H. match type of H with (if str_eqb ?x _ then _ else _) = _ => remember x as m1 eqn:Hm1; clear Hm1 end.
  destruct (str_eqb m1 (S_ "unknown")) eqn:U; [injection H as <-; left; apply str_eqb_eq; exact U|].
  assert (N : m1 <> []) by (intros ->; discriminate H).
  destruct (last_step m1 N) as (q & Q & S1). rewrite Q in H. injection H as <-. right. destruct S1 as [((t & T) & ->)|(_ & ->)]; [exists t; exact T|exists m1; reflexivity].
Qed.
(** A folder given by an absolute path is taken as it is, and a relative one is taken from the folder of the file. *)
Theorem C153_given : forall here abspath realpath inputs name d m, in_folder name d -> m <> [] -> m <> S_ "unknown" ->
  (absolute m -> exists q, init_modelpath here abspath realpath inputs (Some name) (Some m) = Ok q /\ slashed m q) /\
  (~ absolute m -> absolute (realpath (d ++ S_ "/" ++ m)) ->
     exists q, init_modelpath here abspath realpath inputs (Some name) (Some m) = Ok q /\ slashed (forward (realpath (d ++ S_ "/" ++ m))) q).
Proof.
  intros here abspath realpath inputs name d m F N U. unfold init_modelpath. destruct m as [|a m]; [contradiction|]. cbn [bind].
  assert (U1 : str_eqb (a :: m) (S_ "unknown") = false) by (apply str_eqb_neq; exact U).
  assert (NN : exists c n, name = c :: n) by (destruct F as ([|? ?] & -> & Z & _); destruct d as [|x d]; [contradiction| |contradiction|]; eexists; eexists; reflexivity).
  destruct NN as (c & n & NN). split.
  - intro A. apply isabs_iff in A. rewrite NN, A. cbn [negb]. rewrite andb_false_r. cbv zeta. rewrite U1. apply last_step. discriminate.
  - intros A R. destruct (isabs (a :: m)) eqn:B; [exfalso; apply A; apply isabs_iff; exact B|]. rewrite NN, U1. cbn [negb andb]. rewrite <- NN, (dirname_folder name d F).
    destruct F as (base & _ & Z & H & _). rewrite (join_folder d (a :: m) Z H) by (rewrite <- isabs_rel, B; reflexivity).
    destruct R as (t & T). cbv zeta. rewrite T.
    assert (E : str_eqb (HTCPath_Model.unback (S_ "/" ++ t)) (S_ "unknown") = false) by reflexivity. rewrite E. apply (last_step (HTCPath_Model.unback (S_ "/" ++ t))). discriminate.
Qed.
(** Without a folder, the detected one is used; a file that names no other one is taken to be one level below its model. *)
Theorem C153_default : forall here abspath realpath inputs name d files, in_folder name d -> inputs name = Ok files ->
  (forall p, absolute (abspath p)) -> (forall p, absolute (realpath p)) ->
  (List.length files = 1 -> exists q, init_modelpath here abspath realpath inputs (Some name) None = Ok q /\
     slashed (forward (realpath (d ++ S_ "/../"))) q) /\
  (List.length files <> 1 -> forall i, best (found_at here d files) i -> exists q, init_modelpath here abspath realpath inputs (Some name) None = Ok q /\ slashed (abspath (above d i)) q).
Proof.
  intros here abspath realpath inputs name d files F I A R. assert (NN : exists c n, name = c :: n) by (destruct F as ([|? ?] & -> & Z & _); destruct d as [|x d]; [contradiction| |contradiction|]; eexists; eexists; reflexivity).
  destruct NN as (c & n & NN). split.
  - intro L. unfold init_modelpath, auto_detect. rewrite I. cbn [bind]. rewrite L. cbn [Nat.eqb bind]. rewrite NN.
    change (negb (str_eqb (S_ "../") (S_ "unknown")) && negb (isabs (S_ "../"))) with true. cbv iota. rewrite <- NN, (dirname_folder name d F).
    destruct F as (base & _ & Z & H & _). rewrite (join_folder d (S_ "../") Z H) by reflexivity. change (S_ "/" ++ S_ "../") with (S_ "/../").
    destruct (R (d ++ S_ "/../")) as (t & T). rewrite T. cbv zeta.
    assert (E : str_eqb (HTCPath_Model.unback (S_ "/" ++ t)) (S_ "unknown") = false) by reflexivity. rewrite E. apply (last_step (HTCPath_Model.unback (S_ "/" ++ t))). discriminate.
  - intros L i B. assert (X : auto_detect here abspath inputs (Some name) = Ok (abspath (above d i))).
    { apply (proj2 (C153_detected here abspath inputs name d files _ F I L)). exists i. split; [exact B|reflexivity]. }
    unfold init_modelpath. rewrite X. cbn [bind]. rewrite NN. destruct (A (above d i)) as (t & T). pose proof (A (above d i)) as AA. apply isabs_iff in AA. rewrite AA.
    cbn [negb]. rewrite andb_false_r, T. assert (E : str_eqb (S_ "/" ++ t) (S_ "unknown") = false) by reflexivity. cbv zeta. rewrite E. apply last_step. discriminate.
Qed.
(** The word unknown stays as it is, a file without a name gets a relative folder, and an empty text is as no folder. *)
Theorem C153_words : forall here abspath realpath inputs filename, init_modelpath here abspath realpath inputs filename (Some (S_ "unknown")) = Ok (S_ "unknown") /\
  init_modelpath here abspath realpath inputs None None = Ok (S_ "../") /\
  init_modelpath here abspath realpath inputs filename (Some []) = init_modelpath here abspath realpath inputs filename None.
Proof. intros here abspath realpath inputs filename. split; [|split; reflexivity]. destruct filename as [[|c f]|]; reflexivity. Qed.

(** ** The batch job *)
(** FINDING: no batch job can be made: the class of batch jobs is not imported, and the call raises an exception whatever the arguments. *)
Theorem C153_never_refuted : forall isfile own_in own_out turb given_in given_out copy_turb, exists e, snd (pbs_file isfile own_in own_out turb given_in given_out copy_turb) = Err e.
Proof.
  intros isfile own_in own_out turb given_in given_out copy_turb. unfold pbs_file, pbs_job.
  destruct (copies copy_turb) as [[fwd back]|e]; [|exists e; reflexivity]. destruct (given_or given_in own_in) as [[ins mine]|e]; [|exists e; reflexivity].
  destruct (if fwd then t <- turb ;; Ok (filter isfile t) else Ok []) as [more|e]; [|exists e; reflexivity].
  destruct (given_or given_out own_out) as [[outs mine']|e]; [|exists e; reflexivity]. destruct (if back then turb else Ok []) as [more'|e]; [|exists e; reflexivity].
  exists NameError. reflexivity.
Qed.
(** Were it imported, the job would have the input files and those turbulence files that exist, and the output files and all turbulence files, each list
    being the one that is given when that is not empty. *)
Definition chosen_list (given : option (list str)) (own : list str) : list str := match given with Some l => if nonempty l then l else own | None => own end.
Theorem C153_job : forall isfile ins outs t given_in given_out fwd back,
  snd (pbs_job isfile (Ok ins) (Ok outs) (Ok t) true given_in given_out [fwd; back]) =
    Ok (mk_job (chosen_list given_in ins ++ (if fwd then filter isfile t else [])) (chosen_list given_out outs ++ (if back then t else []))).
Proof.
  intros isfile ins outs t given_in given_out fwd back.
  destruct given_in as [[|f l]|]; destruct given_out as [[|g k]|]; destruct fwd; destruct back; reflexivity.
Qed.
(** FINDING: one flag for both directions is never looked at: False in a tuple of one copies the turbulence all the same. *)
Theorem C153_one_flag_refuted : forall isfile own_in own_out turb known given_in given_out b,
  pbs_job isfile own_in own_out turb known given_in given_out [b] = pbs_job isfile own_in own_out turb known given_in given_out [true; true].
Proof. reflexivity. Qed.
(** FINDING: the lists of the caller are extended, even though the call fails, so that each further call adds the turbulence files again. *)
Theorem C153_callers_refuted : forall isfile own_in own_out t f l g k fwd back,
  pbs_file isfile own_in own_out (Ok t) (Some (f :: l)) (Some (g :: k)) [fwd; back] =
    (Some ((f :: l) ++ (if fwd then filter isfile t else [])), Some ((g :: k) ++ (if back then t else [])), Err NameError).
Proof. intros isfile own_in own_out t f l g k fwd back. destruct fwd; destruct back; reflexivity. Qed.
(** FINDING: an empty list of files is taken for none. *)
Theorem C153_empty_refuted : forall isfile ins outs t fwd back,
  snd (pbs_job isfile (Ok ins) (Ok outs) (Ok t) true (Some []) (Some []) [fwd; back]) = snd (pbs_job isfile (Ok ins) (Ok outs) (Ok t) true None None [fwd; back]).
Proof. intros isfile ins outs t fwd back. rewrite !C153_job. reflexivity. Qed.
Print Assumptions C153_detected.
Print Assumptions C153_not_detected.
Print Assumptions C153_absolute_refuted.
Print Assumptions C153_slash.
Print Assumptions C153_given.
Print Assumptions C153_default.
Print Assumptions C153_words.
Print Assumptions C153_never_refuted.
Print Assumptions C153_job.
Print Assumptions C153_one_flag_refuted.
Print Assumptions C153_callers_refuted.
Print Assumptions C153_empty_refuted.

(** ** Concrete cases *)
Definition ex_name : str := S_ "/m/htc/sub/a.htc".
Definition ex_dir : str := S_ "/m/htc/sub".
Definition ex_files : list str := [ex_name; S_ "data/ae.dat"; S_ "data/pc.dat"; S_ "st.dat"].
Definition ex_disk (p : str) : bool := existsb (str_eqb p) (map S_ ["/m/htc/sub/../../data/ae.dat"; "/m/htc/sub/../../data/pc.dat"; "/m/htc/sub/st.dat"]%string).
Example ex_in_folder : in_folder ex_name ex_dir.
Proof.
  exists (S_ "a.htc"). split; [reflexivity|]. split; [discriminate|]. split.
  - intros t H. apply (f_equal (fun s => hd sp (rev s))) in H. rewrite rev_app_distr in H. cbn in H. discriminate H.
  - split; intro H; cbn in H; repeat (destruct H as [H|H]; [discriminate H|]); exact H.
Qed.
Example ex_best : best (found_at ex_disk ex_dir ex_files) 2.
Proof.
  split; [lia|]. split; [vm_compute; lia|]. split; intros j J; destruct j as [|[|[|[|j]]]]; vm_compute; lia.
Qed.
Example ex_detected : init_modelpath ex_disk (fun _ => S_ "/m") (fun p => p) (fun _ => Ok ex_files) (Some ex_name) None = Ok (S_ "/m/").
Proof. vm_compute. reflexivity. Qed.
Example ex_absolute : Forall absolute [ex_name; S_ "/data/ae.dat"].
Proof. repeat constructor; eexists; reflexivity. Qed.
Example ex_twice : let '(i, o, _) := pbs_file (fun _ => true) (Ok []) (Ok []) (Ok [S_ "u.bin"]) (Some [S_ "a"]) (Some [S_ "b"]) [true; false] in
  pbs_file (fun _ => true) (Ok []) (Ok []) (Ok [S_ "u.bin"]) i o [true; false] = (Some [S_ "a"; S_ "u.bin"; S_ "u.bin"], Some [S_ "b"], Err NameError).
Proof. reflexivity. Qed.
