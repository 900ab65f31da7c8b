(** C83, C84: what reading a SubDyn summary file stores, and the content of its JSON form. *)
From Verif Require Import Py PyFacts TextFacts ListFacts Dict YAML_Model SubDyn_Model SubDyn_Props SubDynModes_Props.
From Coq Require Import QArith Qreduction ZifyBool ZifyNat.
Local Open Scope nat_scope.

(** ** Specification *)
(** Some line among the first five mentions SubDyn, in any case *)
Definition mentions (l : str) : Prop := exists a b, lower (strip l) = a ++ S_ "subdyn" ++ b.
Definition announced (text : str) : Prop := exists n l, n < 5 /\ nth_error (split_chr nl text) n = Some l /\ mentions l.
(** The numbers of a matrix, by line and column *)
Definition at_rc (v : yval Q) (i j : nat) : option Q :=
  match v with
  | MatI _ rows => match nth_error rows i with Some r => option_map inject_Z (nth_error r j) | None => None end
  | MatF _ rows => match nth_error rows i with Some r => nth_error r j | None => None end
  | _ => None
  end.
Definition same_num (a b : option Q) : Prop := match a, b with Some x, Some y => (x == y)%Q | None, None => True | _, _ => False end.
(** [v'] is [v] with every number lowered by one *)
Definition lowered (v v' : yval Q) : Prop := forall i j, same_num (at_rc v' i j) (option_map (fun x => x - 1)%Q (at_rc v i j)).
(** Degrees of freedom are numbered from zero: by their line when the file has three columns, else by the first column less one *)
Definition numbered (v v' : yval Q) : Prop :=
  exists c rows rows', v = MatI c rows /\ v' = MatI (if Nat.eqb c 3 then 4 else c) rows' /\ List.length rows' = List.length rows /\
    forall i r, nth_error rows i = Some r ->
      if Nat.eqb c 3 then nth_error rows' i = Some (Z.of_nat i :: r) else forall x t, r = x :: t -> nth_error rows' i = Some ((x - 1)%Z :: t).
(** Column [j] of the nodes *)
Definition coordinates (nodes v : yval Q) (j : nat) : Prop := exists xs, v = MatF 1 (map (fun x => [x]) xs) /\ forall i, nth_error xs i = at_rc nodes i j.

Lemma contains_iff s t : contains s t = true <-> exists a b, s = a ++ t ++ b.
Proof.
  induction s as [|x s IH]; cbn [contains].
  - rewrite orb_false_r. split; [intro H; apply startswith_iff in H; destruct H as (b & ->); exists [], b; reflexivity|].
    intros (a & b & H). destruct a as [|y a]; [|discriminate H]. cbn [app] in H. rewrite H. apply startswith_app.
  - rewrite orb_true_iff, IH. split.
    + intros [H|(a & b & ->)]; [apply startswith_iff in H; destruct H as (b & ->); exists [], b; reflexivity|exists (x :: a), b; reflexivity].
    + intros (a & b & H). destruct a as [|y a]; [left; cbn [app] in H; rewrite H; apply startswith_app|right; injection H as _ ->; exists a, b; reflexivity].
Qed.
Lemma announced_iff text : existsb (fun l => contains (lower (strip l)) (S_ "subdyn")) (firstn 5 (split_chr nl text)) = true <-> announced text.
Proof.
  rewrite existsb_exists. unfold announced, mentions. split.
  - intros (l & I & C). apply In_nth_error in I. destruct I as (n & N). exists n, l. apply contains_iff in C.
    assert (L : n < 5) by (assert (n < List.length (firstn 5 (split_chr nl text))) by (apply nth_error_Some; congruence); pose proof (firstn_le_length 5 (split_chr nl text)); lia).
    rewrite nth_error_firstn in N by exact L. auto.
  - intros (n & l & L & N & M). exists l. split; [|apply contains_iff; exact M]. apply (nth_error_In _ n). rewrite nth_error_firstn by exact L. exact N.
Qed.

Section Read.
Variable flt : str -> option Q.
Variable argsort : list (option Q) -> list nat.
Context {D : Type}.
Variable diam : Q -> D.

(** A file that does not announce SubDyn within its first five lines is refused and the object keeps its content; likewise a
    missing and an empty file. *)
Theorem C83_refused d text : ~ announced text -> text <> [] -> read_summary flt d (Some text) = (d, Err NotImplementedError).
Proof.
  intros A N. unfold read_summary. destruct text as [|x t] eqn:E; [contradiction|]. rewrite <- E in *. destruct (existsb _ _) eqn:X; [|reflexivity]. elim A. apply announced_iff. exact X.
Qed.
Theorem C83_no_file d : read_summary flt d None = (d, Err OSError2) /\ read_summary flt d (Some []) = (d, Err EmptyFileError).
Proof. split; reflexivity. Qed.

Lemma change_inv k g d d' : change k g d = Ok d' -> exists v v', get d k = Some v /\ g v = Ok v' /\ d' = put d k v'.
Proof. unfold change, item. destruct (get d k) as [v|]; cbn [bind]; [|discriminate]. destruct (g v) as [v'|] eqn:G; cbn [bind]; [|discriminate]. intro H. apply Ok_inj in H. exists v, v'. auto. Qed.
Lemma dec_all_lowered v v' : dec_all v = Ok v' -> lowered v v'.
Proof.
  unfold dec_all. destruct v as [z|q|s|c rows|c rows]; try discriminate; intro H; apply Ok_inj in H; subst v'; intros i j; cbn [at_rc]; rewrite nth_error_map; destruct (nth_error rows i) as [r|]; cbn [option_map]; try exact I;
    rewrite nth_error_map; destruct (nth_error r j) as [x|]; cbn [option_map same_num]; try exact I.
  - unfold Z.pred. rewrite inject_Z_plus. reflexivity.
  - apply Qred_correct.
Qed.
Lemma number_ok v v1 v' : number_lines v = Ok v1 -> dec_col v1 0 = Ok v' -> numbered v v'.
Proof.
  unfold number_lines. destruct v as [z|q|s|c rows|c rows]; try discriminate. destruct (Nat.eqb c 3) eqn:C; intro H; apply Ok_inj in H; subst v1; intro H; unfold dec_col in H.
  - cbn [Nat.ltb Nat.leb] in H. apply Ok_inj in H. subst v'. unfold numbered. exists c, rows. eexists. rewrite C. split; [reflexivity|]. split; [reflexivity|]. rewrite !map_length, combine_length, seq_length, Nat.min_id. split; [reflexivity|].
    intros i r N. rewrite map_map, nth_error_map.
    assert (X : nth_error (combine (seq 0 (List.length rows)) rows) i = Some (i, r)).
    { assert (L : i < List.length rows) by (apply nth_error_Some; congruence). rewrite (nth_error_nth' _ (0, []) (n := i)) by (rewrite combine_length, seq_length, Nat.min_id; exact L).
      rewrite combine_nth by (apply seq_length). rewrite seq_nth by exact L. rewrite (nth_error_nth rows i [] N). reflexivity. }
    rewrite X. cbn [option_map fst snd dec_at]. do 2 f_equal. lia.
  - destruct (Nat.ltb 0 c); [|discriminate H]. apply Ok_inj in H. subst v'. unfold numbered. exists c, rows. eexists. rewrite C. split; [reflexivity|]. split; [reflexivity|]. rewrite map_length. split; [reflexivity|].
    intros i r N x t ->. rewrite nth_error_map, N. reflexivity.
Qed.
Lemma coordinate_inv j k d d' : coordinate j k d = Ok d' -> exists v v', get d (S_ "Nodes") = Some v /\ coordinates v v' j /\ d' = put d k v'.
Proof.
  unfold coordinate, field, item. destruct (get d (S_ "Nodes")) as [v|]; cbn [bind]; [|discriminate]. destruct (SubDyn_Model.num v) as [m|] eqn:M; cbn [bind]; [|discriminate].
  unfold col. destruct (Nat.ltb j (fst m)); [|discriminate]. match goal with |- (_ <- ?q ;; _) = _ -> _ => destruct q as [xs|] eqn:X end; cbn [bind]; [|discriminate]. intro H. apply Ok_inj in H. subst d'. exists v. eexists. split; [reflexivity|]. split; [|reflexivity].
  exists xs. split; [reflexivity|]. intro i.
  assert (G : forall rows, mapM (fun r => match nth_error r j with Some x => Ok x | None => Err Unmodelled end) rows = Ok xs -> nth_error xs i = match nth_error rows i with Some r => nth_error r j | None => None end).
  { clear. intros rows H. apply mapM_F2 in H. revert i. induction H as [|r x rows xs H1 H2 IH]; intros [|i]; try reflexivity; cbn [nth_error]; [|apply IH]. destruct (nth_error r j); congruence. }
  unfold SubDyn_Model.num in M. destruct v as [z|q|s|c rows|c rows]; try discriminate M; apply Ok_inj in M; subst m; cbn [snd] in X; rewrite (G _ X); cbn [at_rc].
  - rewrite nth_error_map. destruct (nth_error rows i) as [r|]; cbn [option_map]; [|reflexivity]. apply nth_error_map.
  - reflexivity.
Qed.

(** After a successful reading the entries are those of the YAML document, with the degrees of freedom numbered from zero, the
    lists of degrees of freedom lowered by one, the frequencies in one column and the coordinates of the nodes in X, Y, Z;
    every other entry is the one of the document. *)
Theorem C83_reads d text d' : read_summary flt d (Some text) = (d', Ok tt) ->
  announced text /\
  exists doc, yaml_read flt (put d (S_ "module") (Txt (S_ "SubDyn"))) text = (doc, Ok tt) /\
    (exists v v', get doc (S_ "DOF2Nodes") = Some v /\ get d' (S_ "DOF2Nodes") = Some v' /\ numbered v v') /\
    Forall (fun k => exists v v', get doc k = Some v /\ get d' k = Some v' /\ lowered v v') [S_ "DOF___L"; S_ "DOF___B"; S_ "DOF___F"] /\
    (exists v m, get doc (S_ "CB_frequencies") = Some v /\ SubDyn_Model.num v = Ok m /\ get d' (S_ "CB_frequencies") = Some (MatF 1 (map (fun x => [x]) (List.concat (snd m))))) /\
    (exists v, get doc (S_ "Nodes") = Some v /\ get d' (S_ "Nodes") = Some v /\
       Forall (fun p => exists v', get d' (fst p) = Some v' /\ coordinates v v' (snd p)) [(S_ "X", 1); (S_ "Y", 2); (S_ "Z", 3)]) /\
    forall k, ~ In k (map S_ ["DOF2Nodes"; "DOF___L"; "DOF___B"; "DOF___F"; "CB_frequencies"; "X"; "Y"; "Z"]%string) -> get d' k = get doc k.
Proof.
  intro H. unfold read_summary in H. destruct text as [|c t] eqn:ET; [discriminate H|]. rewrite <- ET in *. destruct (existsb _ _) eqn:X; [|discriminate H]. split; [apply announced_iff; exact X|].
  unfold readSubDynSum in H. destruct (yaml_read flt _ text) as [doc [[]|e]] eqn:Y; [|discriminate H]. exists doc. split; [reflexivity|]. clear X Y ET.
  unfold treatment in H.
  Ltac onestep H := cbn [steps] in H; match type of H with match ?q with Ok _ => _ | Err _ => _ end = _ => let E := fresh "ST" in let dd := fresh "dd" in destruct q as [dd|] eqn:E; [|discriminate H] end.
  do 9 (onestep H). cbn [steps] in H. injection H as <-.
  repeat match goal with E : change _ _ _ = Ok _ |- _ => apply change_inv in E; destruct E as (? & ? & ? & ? & ->) end.
  repeat match goal with E : coordinate _ _ _ = Ok _ |- _ => apply coordinate_inv in E; destruct E as (? & ? & ? & ? & ->) end.
  repeat match goal with G : get (put _ ?k _) ?k = Some _ |- _ => rewrite get_put_same in G | G : get (put _ _ _) _ = Some _ |- _ => rewrite get_put_other in G by discriminate end.
  repeat match goal with G : get doc ?k = Some ?a, G' : get doc ?k = Some ?b |- _ => first [constr_eq a b; fail 1 | assert (b = a) by congruence; subst b; clear G'] end.
  repeat match goal with G : Some _ = Some _ |- _ => injection G as <- end.
  Ltac look := repeat (rewrite get_put_same || (rewrite get_put_other by discriminate)).
  split; [|split; [|split; [|split]]].
  - eexists _, _. split; [eassumption|]. look. split; [reflexivity|]. eapply number_ok; eassumption.
  - repeat apply Forall_cons; try apply Forall_nil; eexists _, _; (split; [eassumption|]); look; (split; [reflexivity|]); apply dec_all_lowered; assumption.
  - match goal with G : (m <- SubDyn_Model.num ?v ;; _) = Ok _ |- _ => destruct (SubDyn_Model.num v) as [m|] eqn:M; cbn [bind] in G; [|discriminate G]; injection G as <-; exists v, m end. split; [assumption|]. split; [exact M|]. look. reflexivity.
  - eexists. split; [eassumption|]. look. split; [eassumption|]. repeat apply Forall_cons; try apply Forall_nil; cbn [fst snd]; eexists; look; (split; [reflexivity|]); assumption.
  - intros k NI. cbn [map In] in NI. repeat (rewrite get_put_other by (intro; subst k; apply NI; tauto)). reflexivity.
Qed.
(** A complete document is accepted. *)
Definition matrix (v : yval Q) : Prop := match v with MatI _ _ | MatF _ _ => True | _ => False end.
Definition wide (n : nat) (v : yval Q) : Prop :=
  match v with MatI c rows => n <= c /\ Forall (fun r => List.length r = c) rows | MatF c rows => n <= c /\ Forall (fun r => List.length r = c) rows | _ => False end.
Lemma dec_all_ok v : matrix v -> exists v', dec_all v = Ok v'.
Proof. destruct v; cbn; intro H; try contradiction; eexists; reflexivity. Qed.
Lemma col_ok v j : wide (S j) v -> exists m xs, SubDyn_Model.num v = Ok m /\ col (fst m) (snd m) j = Ok xs.
Proof.
  assert (G : forall c (rows : list (list Q)), S j <= c -> Forall (fun r => List.length r = c) rows -> exists xs, col c rows j = Ok xs).
  { intros c rows L F. unfold col. destruct (Nat.ltb_spec j c); [|lia]. induction F as [|r rows F1 F2 IH]; cbn [mapM]; [eexists; reflexivity|]. destruct IH as (xs & ->). destruct (nth_error r j) eqn:E; [|apply nth_error_None in E; lia]. eexists. reflexivity. }
  destruct v as [z|q|s|c rows|c rows]; cbn [wide]; intro W; try contradiction; destruct W as [L F]; cbn [SubDyn_Model.num]; eexists; [destruct (G c (map (map inject_Z) rows) L) as (xs & E)|destruct (G c rows L F) as (xs & E)]; try (exists xs; split; [reflexivity|exact E]).
  apply Forall_map. eapply Forall_impl; [|exact F]. intros r Hr. cbn beta. rewrite map_length. exact Hr.
Qed.
Theorem C83_accepts d text doc c rows vL vB vF vC vN : announced text -> yaml_read flt (put d (S_ "module") (Txt (S_ "SubDyn"))) text = (doc, Ok tt) ->
  get doc (S_ "DOF2Nodes") = Some (MatI c rows) -> 0 < c ->
  get doc (S_ "DOF___L") = Some vL -> get doc (S_ "DOF___B") = Some vB -> get doc (S_ "DOF___F") = Some vF -> get doc (S_ "CB_frequencies") = Some vC -> get doc (S_ "Nodes") = Some vN ->
  Forall matrix [vL; vB; vF; vC] -> wide 4 vN ->
  exists d', read_summary flt d (Some text) = (d', Ok tt).
Proof.
  intros A Y G1 C G2 G3 G4 G5 G6 M W. repeat match goal with M : Forall _ (_ :: _) |- _ => apply Forall_cons_iff in M; destruct M as [? M] end.
  unfold read_summary. destruct text as [|x t] eqn:ET. { destruct A as (n & l & _ & N & a & b & E). cbn in N. destruct n as [|n]; [|destruct n; discriminate N]. injection N as <-. cbn in E. destruct a; discriminate E. }
  rewrite <- ET in *. destruct (announced_iff text) as [_ X]. rewrite (X A). clear X. unfold readSubDynSum. rewrite Y. unfold treatment.
  destruct (dec_all_ok vL) as (vL' & EL); [assumption|]. destruct (dec_all_ok vB) as (vB' & EB); [assumption|]. destruct (dec_all_ok vF) as (vF' & EF); [assumption|].
  assert (W1 : wide 2 vN) by (destruct vN; cbn in W |- *; try contradiction; intuition lia). assert (W2 : wide 3 vN) by (destruct vN; cbn in W |- *; try contradiction; intuition lia).
  destruct (col_ok vN 1 W1) as (m & x1 & E1 & EX). destruct (col_ok vN 2 W2) as (m2 & x2 & E2 & EY). destruct (col_ok vN 3 W) as (m3 & x3 & E3 & EZ).
  assert (EC : exists mc, SubDyn_Model.num vC = Ok mc) by (destruct vC; cbn in *; try contradiction; eexists; reflexivity). destruct EC as (mc & EC).
  cbn [steps]. unfold change, coordinate, field, item.
  rewrite G1. cbn [bind]. assert (NL : exists c' rows', number_lines (MatI c rows) = Ok (MatI c' rows') /\ 0 < c') by (cbn [number_lines]; destruct (Nat.eqb c 3); eexists _, _; split; try reflexivity; lia).
  destruct NL as (c' & rows' & -> & C'). cbn [bind]. rewrite get_put_same. cbn [bind]. assert (exists v', dec_col (MatI c' rows') 0 = Ok v') as (v' & ->) by (cbn [dec_col]; destruct (Nat.ltb_spec 0 c'); [eexists; reflexivity|lia]). cbn [bind].
  Ltac step E E' := repeat ((rewrite get_put_other by discriminate)); rewrite E; cbn [bind]; rewrite E'; cbn [bind].
  step G2 EL. step G3 EB. step G4 EF. step G5 EC. step G6 E1. rewrite EX. cbn [bind]. step G6 E2. rewrite EY. cbn [bind]. step G6 E3. rewrite EZ. cbn [bind]. eexists. reflexivity.
Qed.

(** ** The JSON form *)
Lemma Forall2_length {A B} (P : A -> B -> Prop) l l' : Forall2 P l l' -> List.length l = List.length l'.
Proof. intro F. induction F; cbn; congruence. Qed.
Lemma Forall2_weaken {A B} (P Q : A -> B -> Prop) l l' : (forall a b, P a b -> Q a b) -> Forall2 P l l' -> Forall2 Q l l'.
Proof. intros H F. induction F; constructor; auto. Qed.
Lemma modes_spec pre freq disp n ms : modes pre freq disp n = Ok ms ->
  List.length ms = n /\ forall k, k < n -> exists m, nth_error ms k = Some m /\ m_name m = pre ++ str_of_N (N.of_nat (k + 1)) /\ freq k = Ok (m_freq m) /\ List.length (m_displ m) = List.length disp /\
    forall p j, match nth_error (m_displ m) p with Some r => nth_error r j | None => None end = cell disp p j k.
Proof.
  unfold modes. intro H. apply mapM_F2 in H. split; [apply Forall2_length in H; rewrite seq_length in H; auto|].
  intros k Hk. assert (N : nth_error (seq 0 n) k = Some k) by (rewrite (nth_error_nth' _ 0) by (rewrite seq_length; exact Hk); rewrite seq_nth by exact Hk; reflexivity).
  assert (G : forall (g : nat -> res mode) l ys i x, Forall2 (fun x y => g x = Ok y) l ys -> nth_error l i = Some x -> exists y, nth_error ys i = Some y /\ g x = Ok y).
  { clear. intros g l ys i x F. revert i. induction F as [|a b l ys F1 F2 IH]; intros [|i] E; cbn [nth_error] in *; try discriminate E; [injection E as ->; exists b; auto|apply IH; exact E]. }
  destruct (G _ _ _ _ _ H N) as (m & E & Em). exists m. split; [exact E|]. destruct (freq k) as [f|]; cbn [bind] in Em; [|discriminate Em]. destruct (shape disp k) as [s|] eqn:S; cbn [bind] in Em; [|discriminate Em]. apply Ok_inj in Em. subst m. cbn [m_name m_freq m_displ].
  split; [rewrite Nat.add_1_r; reflexivity|]. split; [reflexivity|]. unfold shape in S. apply mapM_F2 in S. split; [symmetry; apply Forall2_length in S; exact S|].
  clear -S. intros p j. unfold cell. revert p. induction S as [|nd r disp s S1 S2 IH]; intros [|p]; try reflexivity; cbn [nth_error]; [|apply IH]. clear IH S2.
  apply mapM_F2 in S1. revert j. induction S1 as [|v x nd r H1 H2 IH]; intros [|j]; try reflexivity; cbn [nth_error]; [|apply IH]. apply at_ok in H1. symmetry. exact H1.
Qed.
Lemma fold_min l z : let g := fold_left qmin l z in In g (z :: l) /\ Forall (fun x => (g <= x)%Q) (z :: l).
Proof.
  revert z. induction l as [|x l IH]; intro z; cbn [fold_left]; [split; [now left|repeat constructor; apply Qle_refl]|].
  destruct (IH (qmin z x)) as [I F]. apply Forall_cons_iff in F. destruct F as [F1 F2]. unfold qmin in *. destruct (Qle_bool z x) eqn:E.
  - apply Qle_bool_iff in E. split; [destruct I as [I|I]; [left; exact I|right; right; exact I]|]. repeat constructor; [exact F1|eapply Qle_trans; [exact F1|exact E]|exact F2].
  - assert (L : (x <= z)%Q). { destruct (Qlt_le_dec x z) as [L|L]; [apply Qlt_le_weak; exact L|]. apply Qle_bool_iff in L. congruence. }
    split; [destruct I as [I|I]; [right; left; exact I|right; right; exact I]|]. repeat constructor; [eapply Qle_trans; [exact F1|exact L]|exact F1|exact F2].
Qed.
(** The modes of the JSON form are the Guyan modes GY1, GY2, ... followed by the Craig-Bampton modes CB1, CB2, ...; a mode gives
    the displacement of every node in the three directions; Craig-Bampton modes carry their frequency; the ground is at the
    lowest node; elements carry their property set and the diameter computed from their area. *)
Theorem C84_json w o w' j vR vM cR R cM M dG pG nG dC pC nC zs fs :
  w_last w = Some o -> w_json argsort diam w o = (w', Ok j) ->
  getModes argsort (w_objs w o) (w_objs w o) None (Some 2) = Ok (dG, pG, nG, (dC, pC, nC)) ->
  get (w_objs w o) (S_ "PhiR") = Some vR -> SubDyn_Model.num vR = Ok (cR, R) -> get (w_objs w o) (S_ "PhiM") = Some vM -> SubDyn_Model.num vM = Ok (cM, M) ->
  get (w_objs w o) (S_ "Z") = Some (MatF 1 (map (fun x => [x]) zs)) -> get (w_objs w o) (S_ "CB_frequencies") = Some (MatF 1 (map (fun x => [x]) fs)) ->
  List.length (j_modes j) = cR + cM /\
  (forall k, k < cR -> exists m, nth_error (j_modes j) k = Some m /\ m_name m = S_ "GY" ++ str_of_N (N.of_nat (k + 1)) /\ m_freq m = None /\ List.length (m_displ m) = List.length dG /\
     forall p i, match nth_error (m_displ m) p with Some r => nth_error r i | None => None end = cell dG p i k) /\
  (forall k, k < cM -> exists m f, nth_error (j_modes j) (cR + k) = Some m /\ m_name m = S_ "CB" ++ str_of_N (N.of_nat (k + 1)) /\ nth_error fs k = Some f /\ m_freq m = Some f /\ List.length (m_displ m) = List.length dC /\
     forall p i, match nth_error (m_displ m) p with Some r => nth_error r i | None => None end = cell dC p i k) /\
  In (j_ground j) zs /\ Forall (fun z => (j_ground j <= z)%Q) zs.
Proof.
  intros LS H GM GR NR GC NC GZ GF. unfold w_json in H. rewrite LS in H. destruct (to_json argsort diam (w_objs w o) (w_objs w o)) as [s1 r] eqn:TJ. injection H as _ ->.
  unfold to_json in TJ. rewrite GM in TJ. match type of TJ with (let (_,_) := ?q in _) = _ => destruct q as [s2 r] end. apply pair_equal_spec in TJ. destruct TJ as [_ TJ].
  destruct r as [[]|]; cbn [bind] in TJ; [|discriminate TJ]. destruct (field s2 (S_ "Nodes")) as [nodes|]; cbn [bind] in TJ; [|discriminate TJ]. destruct (field s2 (S_ "Elements")) as [els|]; cbn [bind] in TJ; [|discriminate TJ].
  assert (F1 : field (w_objs w o) (S_ "CB_frequencies") = Ok (1, map (fun x => [x]) fs)) by (unfold field, item; rewrite GF; reflexivity).
  assert (F2 : field (w_objs w o) (S_ "PhiR") = Ok (cR, R)) by (unfold field, item; rewrite GR; exact NR).
  assert (F3 : field (w_objs w o) (S_ "PhiM") = Ok (cM, M)) by (unfold field, item; rewrite GC; exact NC).
  assert (F4 : field (w_objs w o) (S_ "Z") = Ok (1, map (fun x => [x]) zs)) by (unfold field, item; rewrite GZ; reflexivity).
  rewrite F1 in TJ. cbn [bind] in TJ. do 3 (match type of TJ with (_ <- ?q ;; _) = _ => destruct q; cbn [bind] in TJ; [|discriminate TJ] end). rewrite F2, F3, F4 in TJ. cbn [bind fst snd] in TJ.
  destruct (modes (S_ "GY") (fun _ => Ok None) dG cR) as [g|] eqn:MG; cbn [bind] in TJ; [|discriminate TJ]. destruct (modes (S_ "CB") _ dC cM) as [cb|] eqn:MC; cbn [bind] in TJ; [|discriminate TJ].
  assert (RV : forall l : list Q, ravel (1, map (fun x => [x]) l) = l) by (intro l; unfold ravel; cbn [snd]; induction l as [|x l IH]; [reflexivity|cbn [map List.concat app]; rewrite IH; reflexivity]).
  rewrite RV in TJ, MC. match type of TJ with (_ <- ?q ;; _) = _ => destruct q as [gr|] eqn:EG; cbn [bind] in TJ; [|discriminate TJ] end. apply Ok_inj in TJ. subst j. cbn [j_modes j_ground].
  destruct (modes_spec _ _ _ _ _ MG) as [LG SG]. destruct (modes_spec _ _ _ _ _ MC) as [LC SC]. split; [rewrite app_length; lia|]. split; [|split].
  - intros k Hk. destruct (SG k Hk) as (m & N & A1 & A2 & A3 & A4). exists m. split; [rewrite nth_error_app1 by lia; exact N|]. split; [exact A1|]. split; [congruence|]. split; assumption.
  - intros k Hk. destruct (SC k Hk) as (m & N & A1 & A2 & A3 & A4). destruct (at_ fs k) as [f|] eqn:EF; cbn [bind] in A2; [|discriminate A2]. exists m, f. split; [rewrite nth_error_app2 by lia; rewrite <- N; f_equal; lia|]. split; [exact A1|]. split; [apply at_ok; exact EF|]. split; [congruence|]. split; assumption.
  - destruct zs as [|z l]; [discriminate EG|]. apply Ok_inj in EG. subst gr. apply fold_min.
Qed.
(** The nodes and elements of the JSON form *)
Theorem C84_elements w o w' j vN cN nodes cE els :
  w_last w = Some o -> w_json argsort diam w o = (w', Ok j) ->
  get (w_objs w o) (S_ "Nodes") = Some vN -> SubDyn_Model.num vN = Ok (cN, nodes) -> get (w_objs w o) (S_ "Elements") = Some (MatI cE els) ->
  Forall2 (fun r p => exists x y z, nth_error r 1 = Some x /\ nth_error r 2 = Some y /\ nth_error r 3 = Some z /\ p = [x; y; z]) nodes (j_nodes j) /\
  Forall2 (fun r e => exists a b, nth_error r 1 = Some a /\ nth_error r 2 = Some b /\ e = [a - 1; b - 1]%Z) els (j_conn j) /\
  Forall2 (fun r p => exists t a, nth_error r 5 = Some t /\ nth_error r 7 = Some a /\ p = (t, diam (inject_Z a))) els (j_props j).
Proof.
  intros LS H GN NN GE. split; [|split; [eapply C43_first_call; eassumption|]].
  - unfold w_json in H. rewrite LS in H. destruct (to_json argsort diam (w_objs w o) (w_objs w o)) as [s1 r] eqn:TJ. injection H as _ ->.
    unfold to_json in TJ. destruct (getModes argsort _ _ None (Some 2)) as [[gy cb]|]; [|discriminate TJ]. fold dec_steps in TJ. destruct (steps dec_steps (w_objs w o)) as [s2 r] eqn:ST. apply pair_equal_spec in TJ. destruct TJ as [<- TJ].
    destruct r as [[]|]; cbn [bind] in TJ; [|discriminate TJ]. destruct (dec_steps_inv _ _ ST) as (E & E' & _ & _ & _ & B & _).
    assert (FN : field s2 (S_ "Nodes") = Ok (cN, nodes)) by (unfold field, item; rewrite <- (B (S_ "Nodes")) by discriminate; rewrite GN; exact NN). rewrite FN in TJ. cbn [bind fst snd] in TJ.
    destruct (field s2 (S_ "Elements")) as [me|]; cbn [bind] in TJ; [|discriminate TJ]. do 2 (match type of TJ with (_ <- ?q ;; _) = _ => destruct q; cbn [bind] in TJ; [|discriminate TJ] end).
    match type of TJ with (_ <- ?q ;; _) = _ => destruct q as [xyz|] eqn:PX; cbn [bind] in TJ; [|discriminate TJ] end. do 6 (match type of TJ with (_ <- ?q ;; _) = _ => destruct q; cbn [bind] in TJ; [|discriminate TJ] end).
    match type of TJ with (_ <- ?q ;; _) = _ => destruct q; cbn [bind] in TJ; [|discriminate TJ] end. apply Ok_inj in TJ. subst j. cbn [j_nodes].
    unfold pick in PX. destruct (forallb _ _); [|discriminate PX]. apply mapM_F2 in PX. eapply Forall2_weaken; [|exact PX]. intros row p Q. cbn beta in Q. cbn [mapM] in Q. unfold at_ in Q.
    destruct (nth_error row 1) as [x|]; cbn [bind] in Q; [|discriminate Q]. destruct (nth_error row 2) as [y|]; cbn [bind] in Q; [|discriminate Q]. destruct (nth_error row 3) as [z|]; cbn [bind] in Q; [|discriminate Q]. apply Ok_inj in Q. exists x, y, z. auto.
  - unfold w_json in H. rewrite LS in H. destruct (to_json argsort diam (w_objs w o) (w_objs w o)) as [s1 r] eqn:TJ. injection H as _ ->.
    destruct (to_json_ok _ _ _ _ _ _ TJ) as (E & E' & m & G & L & G' & _ & NM & _).
    unfold to_json in TJ. destruct (getModes argsort _ _ None (Some 2)) as [[gy cb]|]; [|discriminate TJ]. fold dec_steps in TJ. destruct (steps dec_steps (w_objs w o)) as [s2 r] eqn:ST. apply pair_equal_spec in TJ. destruct TJ as [<- TJ].
    destruct r as [[]|]; cbn [bind] in TJ; [|discriminate TJ]. destruct (field s2 (S_ "Nodes")) as [nn|]; cbn [bind] in TJ; [|discriminate TJ].
    assert (FE : field s2 (S_ "Elements") = Ok m) by (unfold field, item; rewrite G'; exact NM). rewrite FE in TJ. cbn [bind] in TJ.
    do 3 (match type of TJ with (_ <- ?q ;; _) = _ => destruct q; cbn [bind] in TJ; [|discriminate TJ] end). match type of TJ with (_ <- ?q ;; _) = _ => destruct q as [ps|] eqn:PP; cbn [bind] in TJ; [|discriminate TJ] end.
    do 6 (match type of TJ with (_ <- ?q ;; _) = _ => destruct q; cbn [bind] in TJ; [|discriminate TJ] end). apply Ok_inj in TJ. subst j. cbn [j_props].
    assert (E = MatI cE els) by congruence. subst E. cbn [lower_ends] in L. destruct (Nat.ltb 2 cE); [|discriminate L]. injection L as <-. cbn [SubDyn_Model.num] in NM. apply Ok_inj in NM. subst m. cbn [snd] in PP. clear -PP.
    apply mapM_F2 in PP. rewrite map_map in PP. revert ps PP. induction els as [|e els IH]; intros ps PP; cbn [map] in PP; inversion PP as [|? p ? ps0 P1 P2]; subst; constructor; [|apply IH; exact P2].
    unfold at_ in P1. rewrite !nth_error_map, !dec3_nth in P1. cbn [Nat.ltb Nat.leb] in P1. destruct (nth_error e 5) as [t|] eqn:N5; cbn [option_map bind] in P1; [|discriminate P1]. destruct (nth_error e 7) as [a|] eqn:N7; cbn [option_map bind] in P1; [|discriminate P1].
    apply Ok_inj in P1. subst p. exists t, a. split; [reflexivity|]. split; [reflexivity|]. unfold trunc. cbn [inject_Z Qnum Qden]. rewrite Z.quot_1_r. reflexivity.
Qed.
End Read.

(** ** The hypotheses are met *)
Example C83_example : announced (summary_text (S_ "10")) /\ snd (read_summary flt_ex [] (Some (summary_text (S_ "10")))) = Ok tt /\
  let d := fst (read_summary flt_ex [] (Some (summary_text (S_ "10")))) in
  get d (S_ "DOF2Nodes") = Some (MatI 4 [[0; 1; 1; 3]; [1; 2; 1; 1]; [2; 2; 1; 2]]%Z) /\ get d (S_ "DOF___L") = Some (MatI 1 [[2]]%Z).
Proof.
  split; [apply (proj1 (announced_iff _)); vm_compute; reflexivity|]. repeat split; vm_compute; reflexivity.
Qed.
Example C84_example : match w_json sort_ex diam_ex w_a 0 with (_, Ok j) => map m_name (j_modes j) = map S_ ["GY1"; "CB1"]%string /\ Qred (j_ground j) = 0%Q | _ => False end /\ w_last w_a = Some 0.
Proof. vm_compute. repeat split. Qed.
Example C84_hypotheses : exists x, getModes sort_ex (w_objs w_a 0) (w_objs w_a 0) None (Some 2) = Ok x /\ (exists vR vM mR mM, get (w_objs w_a 0) (S_ "PhiR") = Some vR /\ SubDyn_Model.num vR = Ok mR /\ get (w_objs w_a 0) (S_ "PhiM") = Some vM /\ SubDyn_Model.num vM = Ok mM) /\
  (exists zs fs, get (w_objs w_a 0) (S_ "Z") = Some (MatF 1 (map (fun x => [x]) zs)) /\ get (w_objs w_a 0) (S_ "CB_frequencies") = Some (MatF 1 (map (fun x => [x]) fs))).
Proof. vm_compute. eexists. split; [reflexivity|]. split; [eexists _, _, _, _; split; [reflexivity|split; [reflexivity|split; reflexivity]]|]. eexists [_; _], [_]. split; reflexivity. Qed.
Example C84_elements_hypotheses : (exists vN m, get (w_objs w_a 0) (S_ "Nodes") = Some vN /\ SubDyn_Model.num vN = Ok m) /\ exists c r, get (w_objs w_a 0) (S_ "Elements") = Some (MatI c r).
Proof. vm_compute. split; [eexists _, _; split; reflexivity|eexists _, _; reflexivity]. Qed.
Print Assumptions C83_refused.
Print Assumptions C83_no_file.
Print Assumptions C83_reads.
Print Assumptions C83_accepts.
Print Assumptions C84_json.
Print Assumptions C84_elements.
