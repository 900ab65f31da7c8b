(** C104: FLEX blade files: every quantity of every section under its name, in the four versions of the format. *)
From Coq Require Import FinFun.
From Verif Require Import Py PyFacts TextFacts FlexBlade_Model.
Local Open Scope nat_scope.

(** * Specification *)
Section Spec.
Context {V : Type}.
Variable num : str -> option V.
(** The quantities of a line of the structure and, after the position, of a line of the aerodynamics *)
Definition struct_names (v : nat) : list string :=
  match v with
  | 0 | 1 => ["r_[m]"; "EIFlap_[Nm2]"; "EIEdge_[Nm2]"; "Mass_[kg/m]"; "Str.Twist_[deg]"; "CalcOutput_[0/1]"; "PreBendFlap_[m]"; "PreBendEdge_[m]"]
  | 2 => ["r_[m]"; "EIFlap_[Nm2]"; "EIEdge_[Nm2]"; "Mass_[kg/m]"; "Str.Twist_[deg]"; "CalcOutput_[0/1]"; "PreBendFlap_[m]"; "PreBendEdge_[m]"; "GKt_[Nm2]"]
  | _ => ["r_[m]"; "EIFlap_[Nm2]"; "EIEdge_[Nm2]"; "GKt_[Nm2]"; "Mass_[kg/m]"; "Jxx_[kg.m]"; "PreBendFlap_[m]"; "PreBendEdge_[m]"; "Str.Twist_[deg]"; "PhiOut_[deg]"; "Ycog_[m]"; "Yshc_[m]"; "CalcOutput_[0/1]"]
  end%string.
Definition aero_names (v : nat) : list string :=
  match v with
  | 0 => ["Chord_[m]"; "AeroTwist_[deg]"; "RelThickness_[%]"; "AeroCenter_[m]"]
  | 1 => ["Chord_[m]"; "AeroTwist_[deg]"; "RelThickness_[%]"; "AeroCenter_[m]"; "AeroTorsion_[0/1]"]
  | _ => ["Chord_[m]"; "AeroTwist_[deg]"; "RelThickness_[%]"; "AeroCenter_[m]"; "AeroTorsion_[0/1]"; "ProfileSet_[#]"]
  end%string.
Definition all_names : list string := (struct_names 3 ++ aero_names 3)%list.

(** Words that are numbers, and a line that starts with them *)
Definition are (ws : list str) (vs : list V) : Prop := Forall2 (fun w v => num w = Some v) ws vs.
Definition starts_with (vs : list V) (l : str) : Prop := exists ws more, split_ws l = ws ++ more /\ are ws vs.
(** The version of the format: three digits after the first character of the file, or none *)
Definition version_line (l : str) (v : nat) : Prop :=
  (exists c t, strip l = c :: S_ "00" ++ str_of_N (N.of_nat v) ++ t) \/
  (v = 0 /\ exists c, In c (firstn 3 (tl (strip l))) /\ ~ In c (S_ "0123456789+-") /\ is_space c = false).
Record contents := mk_contents { version : nat; sections : list (list V * V * list V); beta : V; flap : list V; edge : list V; tors : list V; profile : str }.
(** A line of numbers with a remark after a semicolon *)
Definition remarked (vs : list V) (l : str) : Prop := exists a, (strip l = a \/ exists z, strip l = a ++ ";"%char :: z) /\ ~ In ";"%char a /\ are (split_ws a) vs.
(** The lines of damping *)
Definition damping_lines (c : contents) (ls : list str) : Prop :=
  if Nat.eqb (version c) 3 then
    exists skip1 f e t skip2 skip3, ls = [skip1; f; e; t; skip2; skip3] /\ remarked (flap c) f /\ remarked (edge c) e /\ remarked (tors c) t
  else exists l a b d e, ls = [l] /\ starts_with [a; b; d; e] l /\ flap c = [a; b] /\ edge c = [d; e] /\ tors c = [].
Definition file_of (c : contents) (file : list str) : Prop :=
  version c <= 3 /\
  Forall (fun s => List.length (fst (fst s)) = List.length (struct_names (version c)) /\ List.length (snd s) = List.length (aero_names (version c))) (sections c) /\
  exists first count more st b ds ae prof rest, file = first :: count :: st ++ b :: ds ++ ae ++ prof :: rest /\
    version_line first (version c) /\ split_ws count = str_of_N (N.of_nat (List.length (sections c))) :: more /\
    Forall2 (fun s l => starts_with (fst (fst s)) l) (sections c) st /\ starts_with [beta c] b /\ damping_lines c ds /\
    Forall2 (fun s l => starts_with (snd (fst s) :: snd s) l) (sections c) ae /\ strip prof = profile c.
(** A column of the data frame *)
Definition column (b : blade) (c : string) : option (list (option V)) := option_map snd (find (fun e => str_eqb (fst e) (S_ c)) (b_data b)).
End Spec.
Arguments contents : clear implicits.

(** * Lemmas *)
Lemma not_integer s : (exists c, In c s /\ ~ In c (S_ "0123456789+-") /\ is_space c = false) -> exists e, int_ s = Err e.
Proof.
  intros (c & Hc & Hn & Hs). assert (I : In c (strip s)).
  { unfold strip. destruct (lstrip_decomp s) as (b & Hb & E). assert (I1 : In c (lstrip s)) by (rewrite E in Hc; apply in_app_iff in Hc; destruct Hc as [Hc|Hc]; [|exact Hc]; exfalso; rewrite forallb_forall in Hb; specialize (Hb c Hc); congruence).
    destruct (rstrip_decomp (lstrip s)) as (b' & Hb' & E'). rewrite E' in I1. apply in_app_iff in I1. destruct I1 as [I1|I1]; [exact I1|]. exfalso. rewrite forallb_forall in Hb'. specialize (Hb' c I1). congruence. }
  assert (U : forall t, In c t -> uint_of_str t = None).
  { induction t as [|z t IH]; [intros []|]. intros [->|G]; cbn [uint_of_str]; [|now rewrite (IH G)]. destruct (uint_of_str t) as [d|]; [|reflexivity].
    assert (Q : mem_chr c (S_ "0123456789") = false) by (apply not_true_is_false; intro M; apply mem_chr_iff in M; apply Hn; change (S_ "0123456789+-") with (S_ "0123456789" ++ S_ "+-"); apply in_or_app; now left).
    clear -Q. destruct c as [[] [] [] [] [] [] [] []]; try discriminate Q; reflexivity. }
  assert (N : forall t, In c t -> N_of_str t = None) by (intros t Ht; unfold N_of_str; destruct t; [destruct Ht|]; now rewrite (U _ Ht)).
  unfold int_. destruct (strip s) as [|z t]; [destruct I|]. destruct I as [->|I].
  - assert (E1 : chr_eqb c (ch 45) = false) by (apply chr_eqb_neq; intros ->; apply Hn; cbn; intuition). assert (E2 : chr_eqb c (ch 43) = false) by (apply chr_eqb_neq; intros ->; apply Hn; cbn; intuition).
    rewrite E1, E2, (N (c :: t) (or_introl eq_refl)). eauto.
  - rewrite (N t I), (N (z :: t) (or_intror I)). destruct (chr_eqb z (ch 45)); [eauto|]. destruct (chr_eqb z (ch 43)); eauto.
Qed.
Lemma int_of_N n : int_ (str_of_N n) = Ok (Z.of_N n).
Proof. replace (str_of_N n) with (str_of_Z (Z.of_N n)); [apply int_str_of_Z|]. destruct n; reflexivity. Qed.
Lemma version_read l v : v <= 3 -> version_line l v -> match int_ (firstn 3 (skipn 1 (strip l))) with Ok z => z | Err _ => 0%Z end = Z.of_nat v.
Proof.
  intros Hv [(c & t & ->)|(-> & H)].
  - destruct v as [|[|[|[|v]]]]; [| | | |lia]; reflexivity.
  - replace (skipn 1 (strip l)) with (tl (strip l)) by (destruct (strip l); reflexivity). destruct (not_integer _ H) as [e ->]. reflexivity.
Qed.
Section Proofs.
Context {V : Type}.
Variable num : str -> option V.
Notation are := (are num).
Notation starts_with := (starts_with num).
Lemma floats_are ws vs : are ws vs -> floats num ws = Ok vs.
Proof. intro H. induction H as [|w v ws vs Hw H IH]; [reflexivity|]. cbn [floats]. now rewrite Hw, IH. Qed.
Lemma are_length ws vs : are ws vs -> List.length ws = List.length vs.
Proof. intro H. induction H; [reflexivity|]. cbn [List.length]. now f_equal. Qed.
Lemma starts_firstn vs l : starts_with vs l -> exists ws, firstn (List.length vs) (split_ws l) = ws /\ are ws vs.
Proof. intros (ws & more & -> & H). exists ws. split; [|exact H]. rewrite <- (are_length _ _ H), firstn_app, firstn_all, Nat.sub_diag. cbn [firstn]. apply app_nil_r. Qed.
Lemma row_ok n vs l : starts_with vs l -> List.length vs = n -> row num n l = Ok vs.
Proof. intros H L. unfold row. destruct (starts_firstn vs l H) as (ws & E & F). rewrite <- L at 1. rewrite E, (floats_are _ _ F). cbn [bind]. apply Nat.eqb_eq in L. now rewrite L. Qed.
Lemma rows_ok n vss ls rest : Forall2 starts_with vss ls -> Forall (fun vs => List.length vs = n) vss -> rows num (List.length vss) n (ls ++ rest) = Ok (vss, rest).
Proof.
  intro H. induction H as [|vs l vss ls H1 H IH]; intro L; [reflexivity|]. inversion L as [|x y L1 L2]; subst. cbn [List.length rows app line_at hd tl]. rewrite (row_ok _ vs l H1 eq_refl). cbn [bind]. rewrite (IH L2). reflexivity.
Qed.
Lemma first_float_ok v l : starts_with [v] l -> first_float num l = Ok v.
Proof. intros (ws & more & E & H). unfold first_float. rewrite split_ws_strip, E. inversion H as [|w v' ws' vs' Hw H']; subst. inversion H'; subst. cbn [app]. now rewrite Hw. Qed.
Lemma semi_ok vs l : remarked num vs l -> semi num l = Ok vs.
Proof.
  intros (a & E & N & H). unfold semi. assert (F : forallb (fun x => negb (chr_eqb x (ch 59))) a = true) by (apply forallb_forall; intros x Hx; apply negb_true_iff, chr_eqb_neq; intros ->; exact (N Hx)).
  replace (hd [] (split_chr (ch 59) (strip l))) with a; [now apply floats_are|]. symmetry. unfold split_chr. destruct E as [->|[z ->]]; [now rewrite (split_on_none _ _ F)|]. change ";"%char with (ch 59). now rewrite (split_on_app_sep _ _ _ _ F (chr_eqb_refl _)).
Qed.
Lemma damping_ok (c : contents V) b ds rest : version c <= 3 -> starts_with [beta c] b -> damping_lines num c ds -> damping num (Z.of_nat (version c)) (b :: ds ++ rest) = Ok (beta c, flap c, edge c, tors c, rest).
Proof.
  intros Hv Hb Hd. unfold damping. cbn [line_at hd tl]. rewrite (first_float_ok _ _ Hb). cbn [bind]. unfold damping_lines in Hd. destruct (Nat.eqb (version c) 3) eqn:E.
  - apply Nat.eqb_eq in E. rewrite E. destruct Hd as (s1 & f & e & t & s2 & s3 & -> & Hf & He & Ht). cbn [app]. unfold line_at. cbn [tl hd]. cbv zeta. change (Z.of_nat 3 =? 3)%Z with true. cbv iota. cbn [tl hd]. rewrite (semi_ok _ _ Hf), (semi_ok _ _ He), (semi_ok _ _ Ht). reflexivity.
  - destruct Hd as (l & a & b' & d & e & -> & Hl & -> & -> & ->). replace (Z.eqb (Z.of_nat (version c)) 3) with false by (apply Nat.eqb_neq in E; symmetry; apply Z.eqb_neq; lia). cbn [app]. cbv zeta. unfold line_at. cbn [hd tl].
    rewrite split_ws_strip. destruct (starts_firstn _ _ Hl) as (ws & Ew & Fw). cbn [List.length] in Ew. rewrite Ew, (floats_are _ _ Fw). reflexivity.
Qed.
Lemma headers_ok v : v <= 3 -> exists x, headers (Z.of_nat v) = Some (map S_ (struct_names v), x :: map S_ (aero_names v)).
Proof. intro H. destruct v as [|[|[|[|v]]]]; [| | | |lia]; eexists; reflexivity. Qed.
Lemma find_map (f : str -> list (option V)) c cs : In c cs -> find (fun e => str_eqb (fst e) c) (map (fun c => (c, f c)) cs) = Some (c, f c).
Proof.
  induction cs as [|x cs IH]; [intros []|]. intro H. cbn [map find fst]. destruct (str_eqb x c) eqn:E; [apply str_eqb_eq in E; now subst|]. apply IH. destruct H as [->|H]; [rewrite str_eqb_refl in E; discriminate|exact H].
Qed.
Lemma all_names_ok : headers_all = map S_ all_names.
Proof. reflexivity. Qed.
Lemma position_none c l i : ~ In c l -> position c l i = None.
Proof. revert i. induction l as [|x l IH]; intros i H; [reflexivity|]. cbn [position]. replace (str_eqb x c) with false; [apply IH; intro; apply H; now right|]. symmetry. apply str_eqb_neq. intros ->. apply H. now left. Qed.
Lemma position_nth c l i j : NoDup l -> nth_error l j = Some c -> position c l i = Some (i + j).
Proof.
  revert i j. induction l as [|x l IH]; intros i j N H; [destruct j; discriminate|]. inversion N as [|y z N1 N2]; subst. cbn [position]. destruct j as [|j]; cbn [nth_error] in H.
  - injection H as ->. rewrite str_eqb_refl. f_equal. lia.
  - replace (str_eqb x c) with false; [rewrite (IH (S i) j N2 H); f_equal; lia|]. symmetry. apply str_eqb_neq. intros ->. apply N1. now apply nth_error_In in H.
Qed.
Lemma S_inj a b : S_ a = S_ b -> a = b.
Proof. intro H. rewrite <- (string_of_list_ascii_of_string a), <- (string_of_list_ascii_of_string b). now f_equal. Qed.
Lemma all_in v c : In c (struct_names v ++ aero_names v) -> In c all_names.
Proof.
  intro H. assert (F : forall v, v <= 3 -> forallb (fun c => existsb (String.eqb c) all_names) (struct_names v ++ aero_names v) = true) by (intros w Hw; destruct w as [|[|[|[|w]]]]; [| | | |lia]; vm_compute; reflexivity).
  assert (G : exists w, w <= 3 /\ In c (struct_names w ++ aero_names w)) by (destruct v as [|[|[|v]]]; [exists 0|exists 1|exists 2|exists 3]; (split; [lia|exact H])).
  destruct G as (w & Hw & G). specialize (F w Hw). rewrite forallb_forall in F. specialize (F c G). apply existsb_exists in F. destruct F as (y & Hy & E). apply String.eqb_eq in E. now subst.
Qed.
Lemma names_nodup v : NoDup (struct_names v ++ aero_names v).
Proof. destruct v as [|[|[|v]]]; cbn [struct_names aero_names app]; repeat (apply NoDup_cons; [cbn [In]; intuition discriminate|]); apply NoDup_nil. Qed.
Lemma nodup_map (l : list string) : NoDup l -> NoDup (map S_ l).
Proof. intro H. apply Injective_map_NoDup; [|exact H]. intros a b. apply S_inj. Qed.

(** A blade file is read: its version, its damping, its file of profiles, and every quantity of every section under its name; quantities that the
    version does not have are missing. *)
Theorem C104_read (c : contents V) file : file_of num c file -> exists b, read num file = Ok b /\
  b_version b = Z.of_nat (version c) /\ b_beta b = beta c /\ b_flap b = flap c /\ b_edge b = edge c /\ b_tors b = tors c /\ b_profile b = profile c /\
  map fst (b_data b) = map S_ all_names /\
  (forall j name, nth_error (struct_names (version c)) j = Some name -> column b name = Some (map (fun s => nth_error (fst (fst s)) j) (sections c))) /\
  (forall j name, nth_error (aero_names (version c)) j = Some name -> column b name = Some (map (fun s => nth_error (snd s) j) (sections c))) /\
  (forall name, In name all_names -> ~ In name (struct_names (version c)) -> ~ In name (aero_names (version c)) -> column b name = Some (map (fun _ => None) (sections c))).
Proof.
  intros (Hv & Hs & first & count & more & st & b & ds & ae & prof & rest & -> & Hf & Hc & Ht & Hb & Hd & Ha & Hp).
  unfold read. cbn [hd tl line_at]. rewrite split_ws_strip, Hc, int_of_N. cbn [as_wrong bind]. cbv zeta. rewrite (version_read first (version c) Hv Hf). destruct (headers_ok (version c) Hv) as [x Hh]. rewrite Hh.
  replace (Z.of_N (N.of_nat (List.length (sections c))) <? 0)%Z with false by (symmetry; apply Z.ltb_ge; lia). replace (Z.to_nat (Z.of_N (N.of_nat (List.length (sections c))))) with (List.length (sections c)) by lia. rewrite map_length.
  assert (R1 : rows num (List.length (sections c)) (List.length (struct_names (version c))) (st ++ b :: ds ++ ae ++ prof :: rest) = Ok (map (fun s => fst (fst s)) (sections c), b :: ds ++ ae ++ prof :: rest)).
  { replace (List.length (sections c)) with (List.length (map (fun s => fst (fst s)) (sections c))) by (now rewrite map_length). apply rows_ok.
    - clear -Ht. induction Ht; constructor; assumption.
    - apply Forall_forall. intros y Hy. apply in_map_iff in Hy. destruct Hy as (s & <- & Hy). rewrite Forall_forall in Hs. now apply Hs. }
  rewrite R1. cbn [as_wrong bind]. rewrite (damping_ok c b ds (ae ++ prof :: rest) Hv Hb Hd). cbn [bind List.length]. rewrite map_length.
  assert (R2 : rows num (List.length (sections c)) (S (List.length (aero_names (version c)))) (ae ++ prof :: rest) = Ok (map (fun s => snd (fst s) :: snd s) (sections c), prof :: rest)).
  { replace (List.length (sections c)) with (List.length (map (fun s => snd (fst s) :: snd s) (sections c))) by (now rewrite map_length). apply rows_ok.
    - clear -Ha. induction Ha; constructor; assumption.
    - apply Forall_forall. intros y Hy. apply in_map_iff in Hy. destruct Hy as (s & <- & Hy). rewrite Forall_forall in Hs. cbn [List.length]. f_equal. now apply Hs. }
  rewrite R2. cbn [as_wrong bind line_at hd tl]. eexists. split; [reflexivity|]. cbn [b_version b_beta b_flap b_edge b_tors b_profile b_data]. do 5 (split; [reflexivity|]). split; [exact Hp|].
  set (data := map _ (combine _ _)). assert (D : data = map (fun s => fst (fst s) ++ snd s) (sections c)).
  { unfold data. clear. induction (sections c) as [|s l IH]; [reflexivity|]. cbn [map combine fst snd tl]. now rewrite IH. }
  rewrite <- map_app. set (names := map S_ (struct_names (version c) ++ aero_names (version c))). assert (ND : NoDup names) by (apply nodup_map, names_nodup).
  split; [unfold frame; rewrite map_map, <- all_names_ok; cbn [fst]; apply map_id|]. unfold column. cbn [b_data]. unfold frame.
  assert (X : forall name, In name all_names -> find (fun e => str_eqb (fst e) (S_ name)) (map (fun c0 => (c0, match position c0 names 0 with Some j => nth_col j data | None => map (fun _ => None) data end)) headers_all) = Some (S_ name, match position (S_ name) names 0 with Some j => nth_col j data | None => map (fun _ => None) data end)).
  { intros name Hn. apply (find_map (fun c0 => match position c0 names 0 with Some j => nth_col j data | None => map (fun _ => None) data end)). rewrite all_names_ok. now apply in_map. }
  split; [|split].
  - intros j name Hj. rewrite X by (apply (all_in (version c)), in_or_app; left; now apply nth_error_In in Hj). cbn [option_map snd].
    assert (Lj : j < List.length (struct_names (version c))) by (apply nth_error_Some; congruence).
    assert (P : nth_error names j = Some (S_ name)) by (unfold names; apply map_nth_error; rewrite nth_error_app1; assumption).
    rewrite (position_nth _ _ 0 j ND P). cbn [Nat.add]. unfold nth_col. rewrite D, map_map. f_equal. apply map_ext_in. intros s Hi. rewrite Forall_forall in Hs. destruct (Hs s Hi) as [L1 _]. apply nth_error_app1. lia.
  - intros j name Hj. rewrite X by (apply (all_in (version c)), in_or_app; right; now apply nth_error_In in Hj). cbn [option_map snd].
    assert (P : nth_error names (List.length (struct_names (version c)) + j) = Some (S_ name)) by (unfold names; apply map_nth_error; rewrite nth_error_app2 by lia; rewrite Nat.add_comm, Nat.add_sub; exact Hj).
    rewrite (position_nth _ _ 0 _ ND P). cbn [Nat.add]. unfold nth_col. rewrite D, map_map. f_equal. apply map_ext_in. intros s Hi. rewrite Forall_forall in Hs. destruct (Hs s Hi) as [L1 _]. rewrite nth_error_app2 by lia. f_equal. lia.
  - intros name Hn N1 N2. rewrite (X name Hn). cbn [option_map snd]. rewrite position_none.
    + rewrite D, map_map. reflexivity.
    + unfold names. intro G. apply in_map_iff in G. destruct G as (y & E & G). apply S_inj in E. subst y. apply in_app_iff in G. tauto.
Qed.

(** The positions of the aerodynamic table are not compared with those of the structure: they change nothing. *)
Theorem C104_positions_refuted (c c' : contents V) file file' b b' : file_of num c file -> file_of num c' file' -> version c = version c' ->
  map (fun s => (fst (fst s), snd s)) (sections c) = map (fun s => (fst (fst s), snd s)) (sections c') -> read num file = Ok b -> read num file' = Ok b' ->
  forall name, In name all_names -> column b name = column b' name.
Proof.
  intros H H' Ev Es R R' name Hn. destruct (C104_read c file H) as (b1 & R1 & _ & _ & _ & _ & _ & _ & _ & A1 & A2 & A3). destruct (C104_read c' file' H') as (b2 & R2 & _ & _ & _ & _ & _ & _ & _ & B1 & B2 & B3).
  rewrite R in R1. injection R1 as <-. rewrite R' in R2. injection R2 as <-. rewrite <- Ev in *.
  assert (M : forall (f : list V * list V -> option V), map (fun s => f (fst (fst s), snd s)) (sections c) = map (fun s => f (fst (fst s), snd s)) (sections c')).
  { intro f. apply (f_equal (map f)) in Es. rewrite !map_map in Es. exact Es. }
  destruct (in_dec string_dec name (struct_names (version c))) as [I|N1].
  - apply In_nth_error in I. destruct I as [j I]. rewrite (A1 j name I), (B1 j name I). f_equal. exact (M (fun p => nth_error (fst p) j)).
  - destruct (in_dec string_dec name (aero_names (version c))) as [I|N2].
    + apply In_nth_error in I. destruct I as [j I]. rewrite (A2 j name I), (B2 j name I). f_equal. exact (M (fun p => nth_error (snd p) j)).
    + rewrite (A3 name Hn N1 N2), (B3 name Hn N1 N2). f_equal. exact (M (fun _ => None)).
Qed.
Lemma rows_length k n lines rs rest : rows num k n lines = Ok (rs, rest) -> List.length rs = k /\ Forall (fun r => List.length r = n) rs.
Proof.
  revert lines rs rest. induction k as [|k IH]; intros lines rs rest H; cbn [rows] in H; [injection H as <- _; split; [reflexivity|constructor]|]. destruct (row num n (line_at lines)) as [r|] eqn:E; [|discriminate]. cbn [bind] in H. destruct (rows num k n (tl lines)) as [[rs' rest']|] eqn:F; [|discriminate]. cbn [bind] in H. injection H as <- <-.
  destruct (IH _ _ _ F) as [L1 L2]. split; [cbn [List.length]; now f_equal|]. constructor; [|exact L2]. unfold row in E. destruct (floats num _) as [vs|]; [|discriminate]. cbn [bind] in E. destruct (Nat.eqb (List.length vs) n) eqn:Q; [injection E as <-; now apply Nat.eqb_eq|]. destruct vs as [|v [|v2 vs]]; try discriminate. injection E as <-. apply repeat_length.
Qed.
(** Whatever the file, when it is read: the version is one of the four, the columns are the known ones, and every column has one value per section. *)
Theorem C104_success file b : read num file = Ok b -> exists n w ws, split_ws (nth 1 file []) = w :: ws /\ int_ w = Ok (Z.of_nat n) /\ (0 <= b_version b <= 3)%Z /\
  map fst (b_data b) = map S_ all_names /\ forall name col, In (name, col) (b_data b) -> List.length col = n.
Proof.
  intro H. unfold read in H. cbv zeta in H. replace (nth 1 file []) with (line_at (tl file)) by (destruct file as [|a [|b' f]]; reflexivity). rewrite split_ws_strip in H. destruct (split_ws (line_at (tl file))) as [|w ws]; [discriminate|]. destruct (int_ w) as [z|] eqn:Ez; [|discriminate]. cbn [as_wrong bind] in H.
  set (v := match int_ _ with Ok z => z | Err _ => 0%Z end) in *. destruct (headers v) as [[sh ah]|] eqn:Eh; [|discriminate]. destruct (z <? 0)%Z eqn:Ez0; [discriminate|]. apply Z.ltb_ge in Ez0.
  destruct (rows num (Z.to_nat z) (List.length sh) (tl (tl file))) as [[st r1]|] eqn:E1; [|discriminate]. cbn [as_wrong bind] in H. destruct (damping num v r1) as [[[[[bt f] e] t] r2]|]; [|discriminate]. cbn [bind] in H.
  destruct (rows num (Z.to_nat z) (List.length ah) r2) as [[ae r3]|] eqn:E2; [|discriminate]. cbn [as_wrong bind] in H. injection H as <-. cbn [b_version b_data].
  exists (Z.to_nat z), w, ws. split; [reflexivity|]. split; [rewrite Z2Nat.id by exact Ez0; exact Ez|]. split.
  - unfold headers in Eh. destruct v as [|[p|p|]|p]; try discriminate Eh; [lia|destruct p; try discriminate Eh; lia|destruct p; try discriminate Eh; lia|lia].
  - split; [unfold frame; rewrite map_map; cbn [fst]; rewrite map_id; apply all_names_ok|]. intros name col I. unfold frame in I. apply in_map_iff in I. destruct I as (c & E & _). injection E as _ <-.
    assert (L : List.length (combine st ae) = Z.to_nat z) by (rewrite combine_length; apply rows_length in E1, E2; lia). destruct (position c _ 0); unfold nth_col; rewrite !map_length; exact L.
Qed.
(** A line of the structure with only one number is accepted: the section has this number for every quantity. *)
Theorem C104_one_number_refuted first w x b d e f c1 c2 c3 c4 c5 : version_line first 0 -> num w = Some x -> is_token w = true -> starts_with [b] d -> starts_with [b; b; b; b] e -> starts_with [c1; c2; c3; c4; c5] f ->
  exists r, read num [first; S_ "1"; w; d; e; f] = Ok r /\ forall name, In name (struct_names 0) -> column r name = Some [Some x].
Proof.
  intros Hf Hw Tw Hd He Ha. unfold read. cbn [hd tl line_at]. replace (split_ws (strip (S_ "1"))) with [S_ "1"] by reflexivity. replace (int_ (S_ "1")) with (Ok 1%Z) by reflexivity. cbn [as_wrong bind]. cbv zeta. rewrite (version_read first 0 (Nat.le_0_l 3) Hf). cbn [Z.of_nat].
  set (H0 := headers 0). vm_compute in H0. subst H0. cbv iota beta. replace (1 <? 0)%Z with false by reflexivity. cbv iota beta. change (Z.to_nat 1) with 1. cbn [List.length rows line_at hd tl].
  assert (R1 : row num 8 w = Ok (repeat x 8)). { unfold row. rewrite (split_ws_token w Tw). cbn [firstn floats]. rewrite Hw. reflexivity. }
  rewrite R1. cbn [bind as_wrong]. unfold damping. cbn [line_at hd tl]. rewrite (first_float_ok b d Hd). cbn [bind Z.eqb]. rewrite split_ws_strip. destruct (starts_firstn _ _ He) as (ws & Ew & Fw). cbn [List.length] in Ew. rewrite Ew, (floats_are _ _ Fw). cbn [bind line_at hd tl].
  assert (R2 : row num 5 f = Ok [c1; c2; c3; c4; c5]) by (now apply row_ok). rewrite R2. cbn [bind as_wrong]. eexists. split; [reflexivity|]. intros name Hn. cbn [struct_names In] in Hn. repeat (destruct Hn as [<-|Hn]; [vm_compute; reflexivity|]). destruct Hn.
Qed.
(** Another version is refused; a second line without a number too. *)
Theorem C104_other_version first count more w rest z : split_ws count = w :: more -> (exists n, int_ w = Ok n) -> int_ (firstn 3 (tl (strip first))) = Ok z -> ~ (0 <= z <= 3)%Z -> read num (first :: count :: rest) = Err BrokenFormatError.
Proof.
  intros Hc [n Hn] Hz Hr. unfold read. cbn [hd tl line_at]. rewrite split_ws_strip, Hc, Hn. cbn [as_wrong bind]. cbv zeta. replace (skipn 1 (strip first)) with (tl (strip first)) by (destruct (strip first); reflexivity). rewrite Hz.
  replace (headers z) with (@None (list str * list str)); [reflexivity|]. symmetry. unfold headers. destruct z as [|[p|p|]|p]; try reflexivity; try lia; destruct p; try reflexivity; lia.
Qed.
Theorem C104_other_file first count rest : (forall w ws n, split_ws count = w :: ws -> int_ w <> Ok n) -> read num (first :: count :: rest) = Err WrongFormatError.
Proof.
  intro H. unfold read. cbn [hd tl line_at]. rewrite split_ws_strip. destruct (split_ws count) as [|w ws]; [reflexivity|]. destruct (int_ w) as [n|] eqn:E; [elim (H w ws n eq_refl E)|]. reflexivity.
Qed.
End Proofs.

(** * Examples *)
Definition toy (w : str) : option nat := if forallb is_digit w && nonempty w then Some (fold_left (fun a c => 10 * a + (ord c - 48)) w 0) else None.
Definition ex : contents nat :=
  mk_contents 2 [([0; 9; 8; 7; 1; 0; 2; 3; 50], 0, [4; 13; 100; 25; 1; 1]); ([10; 5; 4; 3; 0; 0; 2; 3; 60], 10, [3; 12; 30; 12; 1; 1])] 0 [3; 3] [4; 4] [] (S_ "data/profile.pro").
Definition ex_file : list str := map S_ ["#002 Comment"; "2 r[m]  EI"; "0 9 8 7 1 0 2 3 50"; "10 5 4 3 0 0 2 3 60"; "0 !BetaC"; "3 3 4 4 log decr"; "0 4 13 100 25 1 1"; "10 3 12 30 12 1 1"; " data/profile.pro "; "61 Xtip"]%string.
Example ex_ok : file_of toy ex ex_file.
Proof.
  assert (G : forall vs l, map toy (firstn (List.length vs) (split_ws l)) = map Some vs -> starts_with toy vs l).
  { intros vs l M. exists (firstn (List.length vs) (split_ws l)), (skipn (List.length vs) (split_ws l)). split; [symmetry; apply firstn_skipn|]. unfold are. revert M. generalize (firstn (List.length vs) (split_ws l)). clear. intro ws. revert vs. induction ws as [|w ws IH]; intros [|v vs] M; try discriminate; constructor; [now injection M|apply IH; now injection M]. }
  split; [cbn; lia|]. split; [repeat constructor|]. exists (S_ "#002 Comment"), (S_ "2 r[m]  EI"), [S_ "r[m]"; S_ "EI"], [S_ "0 9 8 7 1 0 2 3 50"; S_ "10 5 4 3 0 0 2 3 60"], (S_ "0 !BetaC"), [S_ "3 3 4 4 log decr"], [S_ "0 4 13 100 25 1 1"; S_ "10 3 12 30 12 1 1"], (S_ " data/profile.pro "), [S_ "61 Xtip"].
  split; [reflexivity|]. split; [left; exists "#"%char, (S_ " Comment"); reflexivity|]. split; [reflexivity|].
  split; [constructor; [apply G; vm_compute; reflexivity|constructor; [apply G; vm_compute; reflexivity|constructor]]|]. split; [apply G; vm_compute; reflexivity|].
  split; [exists (S_ "3 3 4 4 log decr"), 3, 3, 4, 4; split; [reflexivity|]; split; [apply G; vm_compute; reflexivity|repeat split]|].
  split; [constructor; [apply G; vm_compute; reflexivity|constructor; [apply G; vm_compute; reflexivity|constructor]]|reflexivity].
Qed.
Example ex_column : exists b, read toy ex_file = Ok b /\ column b "Mass_[kg/m]" = Some [Some 7; Some 3] /\ column b "Chord_[m]" = Some [Some 4; Some 3] /\ column b "Jxx_[kg.m]" = Some [None; None].
Proof. eexists. split; [vm_compute; reflexivity|]. repeat split. Qed.

Print Assumptions C104_read.
Print Assumptions C104_positions_refuted.
Print Assumptions C104_success.
Print Assumptions C104_one_number_refuted.
Print Assumptions C104_other_version.
Print Assumptions C104_other_file.
