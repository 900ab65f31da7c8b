(** Properties of sets of HTC files. *)
From Verif Require Import Py PyFacts HTC_Model.
From Verif Require Deck_Model.
From Verif Require Import HTCHome_Model HTCSet_Model.
From Verif Require HTCHome_Props.
From Coq Require Import Lia.
Local Open Scope nat_scope.

(** ** Specification *)
(** [q] is the path [p] seen from the folder [m]: absolute paths stay, relative ones follow the folder and one slash, which the folder may end with *)
Definition seen_from (m p q : str) : Prop :=
  ((exists t, p = ch 47 :: t) /\ q = p) \/
  (~ (exists t, p = ch 47 :: t) /\
    ((m = [] /\ q = p) \/ (exists h, m = h ++ [ch 47] /\ q = m ++ p) \/ (m <> [] /\ (forall h, m <> h ++ [ch 47]) /\ q = m ++ ch 47 :: p))).
(** The files of one entry of the list: the entry itself if there is such a file, else all that match it in the folder *)
Definition files_of (isfile : str -> bool) (glob : str -> list str) (m p : str) (l : list str) : Prop :=
  (isfile p = true /\ l = [p]) \/ (isfile p = false /\ exists q, seen_from m p q /\ l = glob q).
(** The jobs [js] of the files [fs] are made from the lists of the caller and saved in turn, and lead from [w] to [w']. *)
Inductive chain {W J} (make : W -> str -> option (list str) -> option (list str) -> option (list str) * option (list str) * res J)
    (save : W -> J -> W * res unit) (ins outs : option (list str)) : W -> list str -> list J -> W -> Prop :=
| chain_none w : chain make save ins outs w [] [] w
| chain_next w f j w1 fs js w' : snd (make w f ins outs) = Ok j -> save w j = (w1, Ok tt) -> chain make save ins outs w1 fs js w' ->
    chain make save ins outs w (f :: fs) (j :: js) w'.

(** ** The files *)
Lemma isabs_iff p : isabs p = true <-> exists t, p = ch 47 :: t.
Proof.
  unfold isabs. destruct p as [|c t]; [split; [discriminate|intros (t & E); discriminate]|].
  split.
  - intro H. exists t. cbn in H. rewrite andb_true_iff in H. destruct H as (H & _). f_equal. apply chr_eqb_eq in H. rewrite H. reflexivity.
  - intros (t' & E). injection E as -> ->. destruct t'; reflexivity.
Qed.
Lemma ends_iff m : Deck_Model.ends_slash m = true <-> exists h, m = h ++ [ch 47].
Proof.
  unfold Deck_Model.ends_slash. split.
  - intro H. destruct (rev m) as [|c l] eqn:E; [discriminate|]. exists (rev l). apply chr_eqb_eq in H. rewrite <- (rev_involutive m), E. cbn. rewrite H. reflexivity.
  - intros (h & ->). rewrite rev_app_distr. reflexivity.
Qed.
Lemma seen_step m p : seen_from m p (if isabs p then p else Deck_Model.path_join m p).
Proof.
  destruct (isabs p) eqn:A; [left; split; [apply isabs_iff, A|reflexivity]|]. right.
  assert (N : ~ exists t, p = ch 47 :: t) by (rewrite <- isabs_iff, A; discriminate). split; [exact N|].
  assert (E : Deck_Model.path_join m p = if negb (nonempty m) || Deck_Model.ends_slash m then m ++ p else m ++ ch 47 :: p).
  { unfold Deck_Model.path_join. destruct p as [|c t]; [reflexivity|]. destruct (Deck_Model.is_slash c) eqn:S; [|reflexivity].
    exfalso. apply N. exists t. apply chr_eqb_eq in S. rewrite S. reflexivity. }
  rewrite E. destruct m as [|c m]; [left; split; reflexivity|]. right. cbn [nonempty negb orb].
  destruct (Deck_Model.ends_slash (c :: m)) eqn:S.
  - left. apply ends_iff in S. destruct S as (h & S). exists h. split; [exact S|reflexivity].
  - right. split; [discriminate|]. split; [|reflexivity]. intros h H. assert (T : Deck_Model.ends_slash (c :: m) = true) by (apply ends_iff; exists h; exact H). congruence.
Qed.
Lemma seen_unique m p q q' : seen_from m p q -> seen_from m p q' -> q = q'.
Proof.
  intros [(A & ->)|(A & H)] [(B & ->)|(B & K)]; try tauto; try reflexivity.
  destruct H as [(H & ->)|[(h & H & ->)|(H & H' & ->)]]; destruct K as [(K & ->)|[(k & K & ->)|(K & K' & ->)]]; try reflexivity; try contradiction.
  - subst m. destruct k; discriminate.
  - subst m. destruct h; discriminate.
  - exfalso. exact (K' h H).
  - exfalso. exact (H' k K).
Qed.
Lemma collect_app isfile glob m l acc : exists ls, Forall2 (files_of isfile glob m) l ls /\ collect isfile glob m l acc = acc ++ concat ls.
Proof.
  revert acc. induction l as [|p l IH]; intro acc; [exists []; split; [constructor|cbn; rewrite app_nil_r; reflexivity]|].
  cbn [collect]. destruct (isfile p) eqn:F.
  - destruct (IH (acc ++ [p])) as (ls & A & B). exists ([p] :: ls). split; [constructor; [left; split; [exact F|reflexivity]|exact A]|]. rewrite B. cbn. rewrite <- app_assoc. reflexivity.
  - cbv zeta. destruct (IH (acc ++ glob (if isabs p then p else Deck_Model.path_join m p))) as (ls & A & B).
    exists (glob (if isabs p then p else Deck_Model.path_join m p) :: ls). split; [constructor; [right; split; [exact F|eexists; split; [apply seen_step|reflexivity]]|exact A]|].
    rewrite B. cbn. rewrite <- app_assoc. reflexivity.
Qed.
Lemma files_unique isfile glob m l ls ls' : Forall2 (files_of isfile glob m) l ls -> Forall2 (files_of isfile glob m) l ls' -> ls = ls'.
Proof.
  intro H. revert ls'. induction H as [|p x l ls A _ IH]; intros ls' K; inversion K as [|p' x' l' ls'' B C]; subst; [reflexivity|]. f_equal; [|apply IH; exact C].
  destruct A as [(A & ->)|(A & q & Q & ->)]; destruct B as [(B & ->)|(B & q' & Q' & ->)]; try congruence. rewrite (seen_unique _ _ _ _ Q Q'). reflexivity.
Qed.
(** The files of the set are those of the entries of the list, in their order and that of the matches, whatever the file system. *)
Theorem C157_files : forall isfile glob m l r,
  file_set isfile glob m (AList l) = Ok r <-> exists ls, Forall2 (files_of isfile glob m) l ls /\ r = concat ls.
Proof.
  intros isfile glob m l r. destruct (collect_app isfile glob m l []) as (ls & A & B). cbn [file_set]. rewrite B. split.
  - intro E. injection E as <-. exists ls. split; [exact A|reflexivity].
  - intros (ls' & A' & ->). rewrite (files_unique _ _ _ _ _ _ A A'). reflexivity.
Qed.
(** A single text is a list of one; without a list, the set has what matches **/*.htc in the folder. *)
Theorem C157_single : forall isfile glob m p, file_set isfile glob m (AText p) = file_set isfile glob m (AList [p]).
Proof. reflexivity. Qed.
Theorem C157_default : forall isfile glob h, isfile (S_ "**/*.htc") = false ->
  file_set isfile glob (h ++ S_ "/") default_names = Ok (glob (h ++ S_ "/**/*.htc")).
Proof.
  intros isfile glob h F. unfold default_names. rewrite C157_single. apply C157_files. exists [glob (h ++ S_ "/**/*.htc")].
  split; [|cbn; rewrite app_nil_r; reflexivity]. constructor; [|constructor]. right. split; [exact F|]. exists (h ++ S_ "/**/*.htc"). split; [|reflexivity].
  right. split; [intros (t & E); discriminate|]. right. left. exists h. split; [reflexivity|]. rewrite <- app_assoc. reflexivity.
Qed.
(** FINDING: a tuple of names is not accepted. *)
Theorem C157_tuple_refuted : forall isfile glob m l, file_set isfile glob m (ATuple l) = Err TypeError.
Proof. reflexivity. Qed.
(** FINDING: a name is looked up in the working directory first: where it exists there, the file of the model folder is not taken. *)
Theorem C157_folder_refuted : forall isfile glob m p, isfile p = true -> file_set isfile glob m (AText p) = Ok [p].
Proof. intros isfile glob m p F. cbn. rewrite F. reflexivity. Qed.
(** FINDING: a file that two entries stand for is in the set twice. *)
Theorem C157_twice_refuted : forall isfile glob m p r, file_set isfile glob m (AText p) = Ok r -> file_set isfile glob m (AList [p; p]) = Ok (r ++ r).
Proof.
  intros isfile glob m p r H. rewrite C157_single in H. apply C157_files in H. destruct H as (ls & A & ->). apply C157_files.
  inversion A as [|p' x l' ls' B C]; subst. inversion C; subst. exists [x; x]. split; [constructor; [exact B|constructor; [exact B|constructor]]|]. cbn. rewrite !app_nil_r. reflexivity.
Qed.

(** ** The jobs *)
Section Jobs.
  Variables W J : Type.
  Variable make : W -> str -> option (list str) -> option (list str) -> option (list str) * option (list str) * res J.
  Variable save : W -> J -> W * res unit.
  Notation chain := (chain make save).
  Notation save_all := (save_all W J make save).
  Notation save_pbs_files := (save_pbs_files W J make save).

  Lemma all_ok ins outs fs : forall w acc w' js, save_all w fs ins outs acc = (w', (ins, outs), js, Ok tt) <-> exists ks, js = acc ++ ks /\ chain ins outs w fs ks w'.
  Proof.
    induction fs as [|f fs IH]; intros w acc w' js; cbn [HTCSet_Model.save_all].
    - split; [intro E; injection E as <- <-; exists []; split; [symmetry; apply app_nil_r|constructor]|]. intros (ks & -> & C). inversion C; subst. rewrite app_nil_r. reflexivity.
    - destruct (make w f ins outs) as [ab [j|e]] eqn:M; destruct ab as [a b].
      + destruct (save w j) as [w1 [[]|e]] eqn:S.
        * rewrite IH. split; intros (ks & -> & C).
          -- exists (j :: ks). split; [rewrite <- app_assoc; reflexivity|]. econstructor; [rewrite M; reflexivity|exact S|exact C].
          -- inversion C as [|w0 f0 j0 w2 fs0 js0 w3 A B D]; subst. rewrite M in A. cbn in A. injection A as <-. rewrite S in B. injection B as <-.
             exists js0. split; [rewrite <- app_assoc; reflexivity|exact D].
        * split; [discriminate|]. intros (ks & _ & C). inversion C as [|w0 f0 j0 w2 fs0 js0 w3 A B D]; subst. rewrite M in A. cbn in A. injection A as <-. congruence.
      + split; [discriminate|]. intros (ks & _ & C). inversion C as [|w0 f0 j0 w2 fs0 js0 w3 A B D]; subst. rewrite M in A. discriminate.
  Qed.
  Lemma all_err ins outs fs : forall w acc w' js e, save_all w fs ins outs acc = (w', (ins, outs), js, Err e) ->
    exists ks front f rest w1, js = acc ++ ks /\ fs = front ++ f :: rest /\ chain ins outs w front ks w1 /\
      ((snd (make w1 f ins outs) = Err e /\ w' = w1) \/ (exists j, snd (make w1 f ins outs) = Ok j /\ save w1 j = (w', Err e))).
  Proof.
    induction fs as [|f fs IH]; intros w acc w' js e; cbn [HTCSet_Model.save_all]; [discriminate|].
    destruct (make w f ins outs) as [ab [j|e']] eqn:M; destruct ab as [a b].
    - destruct (save w j) as [w1 [[]|e']] eqn:S.
      + intro E. apply IH in E. destruct E as (ks & front & g & rest & w2 & -> & -> & C & D). exists (j :: ks), (f :: front), g, rest, w2.
        split; [rewrite <- app_assoc; reflexivity|]. split; [reflexivity|]. split; [econstructor; [rewrite M; reflexivity|exact S|exact C]|exact D].
      + intro E. injection E as <- <- <-. exists [], [], f, fs, w. split; [symmetry; apply app_nil_r|]. split; [reflexivity|]. split; [constructor|].
        right. exists j. rewrite M. split; [reflexivity|exact S].
    - intro E. injection E as <- <- <-. exists [], [], f, fs, w. split; [symmetry; apply app_nil_r|]. split; [reflexivity|]. split; [constructor|]. left. rewrite M. split; reflexivity.
  Qed.
  Lemma all_lists ins outs fs : forall w acc, snd (fst (fst (save_all w fs ins outs acc))) = (ins, outs).
  Proof.
    induction fs as [|f fs IH]; intros w acc; cbn [HTCSet_Model.save_all]; [reflexivity|].
    destruct (make w f ins outs) as [[a b] [j|e]]; [|reflexivity]. destruct (save w j) as [w1 [[]|e]]; [apply IH|reflexivity].
  Qed.
  (** The lists of the caller stay as they are, although making a job extends the lists it gets. *)
  Theorem C157_lists : forall w fs ins outs, snd (fst (fst (save_pbs_files w fs ins outs))) = (ins, outs).
  Proof. intros w fs ins outs. apply all_lists. Qed.
  (** All is well exactly when each job, made from the lists of the caller after the one before was saved, can be made and saved. *)
  Theorem C157_saved : forall w fs ins outs w' js,
    save_pbs_files w fs ins outs = (w', (ins, outs), js, Ok tt) <-> chain ins outs w fs js w'.
  Proof.
    intros w fs ins outs w' js. unfold HTCSet_Model.save_pbs_files. rewrite all_ok. split; [intros (ks & -> & C); exact C|intro C; exists js; split; [reflexivity|exact C]].
  Qed.
  Lemma err_all ins outs w front ks w1 : chain ins outs w front ks w1 -> forall acc f rest w' e,
    (snd (make w1 f ins outs) = Err e /\ w' = w1) \/ (exists j, snd (make w1 f ins outs) = Ok j /\ save w1 j = (w', Err e)) ->
    save_all w (front ++ f :: rest) ins outs acc = (w', (ins, outs), acc ++ ks, Err e).
  Proof.
    intro C. induction C as [w|w g j w2 fs js w3 A B _ IH]; intros acc f rest w' e H; cbn [app HTCSet_Model.save_all].
    - rewrite app_nil_r. destruct (make w f ins outs) as [[a b] r]. cbn in H. destruct H as [(-> & ->)|(j & -> & S)]; [reflexivity|rewrite S; reflexivity].
    - destruct (make w g ins outs) as [[a b] r]. cbn in A. subst r. rewrite B, (IH _ f rest w' e H), <- app_assoc. reflexivity.
  Qed.
  (** The first job that cannot be made or saved ends the work: those before are saved, those after are not, and the exception is that of this job. *)
  Theorem C157_stops : forall w fs ins outs w' js e,
    save_pbs_files w fs ins outs = (w', (ins, outs), js, Err e) <->
    exists front f rest w1, fs = front ++ f :: rest /\ chain ins outs w front js w1 /\
      ((snd (make w1 f ins outs) = Err e /\ w' = w1) \/ (exists j, snd (make w1 f ins outs) = Ok j /\ save w1 j = (w', Err e))).
  Proof.
    intros w fs ins outs w' js e. split.
    - intro E. apply all_err in E. destruct E as (ks & front & f & rest & w1 & -> & A & C & D). exists front, f, rest, w1. split; [exact A|]. split; [exact C|exact D].
    - intros (front & f & rest & w1 & -> & C & D). exact (err_all ins outs w front js w1 C [] f rest w' e D).
  Qed.
End Jobs.
(** FINDING: as no batch job can be made (C153), a set with files saves nothing and raises an exception; only the empty set succeeds. *)
Theorem C157_never_refuted : forall W isfile (own_in own_out turb : W -> str -> res (list str)) copy_turb save w f fs ins outs,
  exists e, save_pbs_files W job (fun w f i o => pbs_file isfile (own_in w f) (own_out w f) (turb w f) i o copy_turb) save w (f :: fs) ins outs = (w, (ins, outs), [], Err e).
Proof.
  intros W isfile own_in own_out turb copy_turb save w f fs ins outs. unfold save_pbs_files. cbn [save_all].
  destruct (HTCHome_Props.C153_never_refuted isfile (own_in w f) (own_out w f) (turb w f) ins outs copy_turb) as (e & E).
  destruct (pbs_file isfile (own_in w f) (own_out w f) (turb w f) ins outs copy_turb) as [[a b] r]. cbn in E. subst r. exists e. reflexivity.
Qed.
Print Assumptions C157_files.
Print Assumptions C157_single.
Print Assumptions C157_default.
Print Assumptions C157_tuple_refuted.
Print Assumptions C157_folder_refuted.
Print Assumptions C157_twice_refuted.
Print Assumptions C157_lists.
Print Assumptions C157_saved.
Print Assumptions C157_stops.
Print Assumptions C157_never_refuted.

(** ** Examples *)
(** A set of a file in the working directory and a pattern in the model folder *)
Example C157_files_nonvacuous :
  file_set (fun p => str_eqb p (S_ "a.htc")) (fun q => if str_eqb q (S_ "/m/htc/*.htc") then [S_ "/m/htc/b.htc"; S_ "/m/htc/c.htc"] else []) (S_ "/m") (AList [S_ "a.htc"; S_ "htc/*.htc"])
  = Ok [S_ "a.htc"; S_ "/m/htc/b.htc"; S_ "/m/htc/c.htc"].
Proof. vm_compute. reflexivity. Qed.
(** Jobs that extend the lists they get, in a world that counts what is saved: the third save fails. *)
Definition demo_make (w : nat) (f : str) (i o : option (list str)) : option (list str) * option (list str) * res (nat * str * option (list str)) :=
  (match i with Some l => Some (l ++ [f]) | None => None end, o, Ok (w, f, i)).
Definition demo_save (w : nat) (j : nat * str * option (list str)) : nat * res unit := if w =? 2 then (w, Err OSError2) else (S w, Ok tt).
Example C157_saved_nonvacuous : save_pbs_files nat _ demo_make demo_save 0 [S_ "a"; S_ "b"] (Some [S_ "x"]) None
  = (2, (Some [S_ "x"], None), [(0, S_ "a", Some [S_ "x"]); (1, S_ "b", Some [S_ "x"])], Ok tt).
Proof. vm_compute. reflexivity. Qed.
Example C157_stops_nonvacuous : save_pbs_files nat _ demo_make demo_save 0 [S_ "a"; S_ "b"; S_ "c"; S_ "d"] (Some [S_ "x"]) None
  = (2, (Some [S_ "x"], None), [(0, S_ "a", Some [S_ "x"]); (1, S_ "b", Some [S_ "x"])], Err OSError2).
Proof. vm_compute. reflexivity. Qed.
