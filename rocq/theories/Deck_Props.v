(** Theorems about writing and reading sets of FAST input files (C44, C80). *)
From Verif Require Import Py PyFacts FS Registry_Model Registry_Proofs FASTIn_Model FASTIn_Proofs FASTIn_Props TurbSim_Model TurbSim_Proofs Deck_Model.
From Coq Require Import Lia.
Local Open Scope Z_scope.

(** ** Specification *)
(** The value under a label, whatever its case *)
Definition entry_of (l : list item) (k : str) : option val := option_map it_value (find (fun d => str_eqb (lower (it_label d)) (lower k)) l).
Definition frame_of (l : list item) := map (fun d => (it_label d, it_comment d, it_descr d, it_tab d)) l.
(** The modules that the switches of the main file ask for *)
Record switches := mk_sw { c_elast : Z; c_inflow : Z; c_aero : Z; c_servo : Z; c_hydro : Z; c_sub : Z; c_mooring : Z; c_ice : Z }.
Definition has_switches (l : list item) (c : switches) : Prop :=
  entry_of l (S_ "CompElast") = Some (VInt (c_elast c)) /\ entry_of l (S_ "CompInflow") = Some (VInt (c_inflow c)) /\
  entry_of l (S_ "CompAero") = Some (VInt (c_aero c)) /\ entry_of l (S_ "CompServo") = Some (VInt (c_servo c)) /\
  entry_of l (S_ "CompHydro") = Some (VInt (c_hydro c)) /\ entry_of l (S_ "CompSub") = Some (VInt (c_sub c)) /\
  entry_of l (S_ "CompMooring") = Some (VInt (c_mooring c)) /\ entry_of l (S_ "CompIce") = Some (VInt (c_ice c)).
Definition needed (c : switches) (m : modk) : bool :=
  match m with
  | Fst | ElastoDyn => true
  | ElastoDynTower => 0 <? c_elast c
  | ElastoDynBlade => c_elast c =? 1
  | BeamDyn | BeamDynBlade => c_elast c =? 2
  | InflowWind => 0 <? c_inflow c
  | AeroDyn15 => 0 <? c_aero c
  | ServoDyn => 0 <? c_servo c
  | HydroDyn => c_hydro c =? 1
  | SubDyn => c_sub c =? 1
  | MAP => c_mooring c =? 1
  | MoorDyn => c_mooring c =? 2
  | AeroDyn14 | AeroDynBlade => false
  end.
Definition tag_of (m : modk) : str :=
  match m with
  | Fst => [] | ElastoDyn => S_ "ED" | ElastoDynTower => S_ "ED_twr" | ElastoDynBlade => S_ "ED_bld" | BeamDyn => S_ "BD" | BeamDynBlade => S_ "BD_bld"
  | InflowWind => S_ "IW" | AeroDyn15 | AeroDyn14 => S_ "AD" | AeroDynBlade => S_ "AD_bld" | ServoDyn => S_ "SvD" | HydroDyn => S_ "HD" | SubDyn => S_ "SD"
  | MAP | MoorDyn => S_ "MD"
  end.
(** The file of a module *)
Definition file_of (name dir prefix suffix : str) (m : modk) : str :=
  match m with Fst => name | _ => path_join dir (prefix ++ tag_of m ++ suffix ++ S_ ".dat") end.
(** The entries of the main file, of ElastoDyn and of BeamDyn that name the file of a module *)
Definition main_refs : list (str * modk) :=
  [(S_ "EDFile", ElastoDyn); (S_ "BDBldFile(1)", BeamDyn); (S_ "BDBldFile(2)", BeamDyn); (S_ "BDBldFile(3)", BeamDyn); (S_ "InflowFile", InflowWind);
   (S_ "AeroFile", AeroDyn15); (S_ "HydroFile", HydroDyn); (S_ "SubFile", SubDyn); (S_ "MooringFile", MAP); (S_ "MooringFile", MoorDyn)].
Definition main_keys : list str := map fst main_refs ++ [S_ "ServoFile"; S_ "IceFile"].
Definition ed_keys : list str := map S_ ["TwrFile"; "BldFile1"; "BldFile2"; "BldFile3"; "BldFile(1)"; "BldFile(2)"; "BldFile(3)"]%string.
Definition quoted (b : str) : val := VStr (quote :: b ++ [quote]).

(** ** Values and assignments *)
Definition setl (l : list item) (k : str) (v : val) : list item := map (fun d => if key_match k d then set_value v d else d) l.
Lemma entry_find l k : entry_of l k = option_map it_value (find (key_match k) l).
Proof. reflexivity. Qed.
Lemma getitem_entry o k v : entry_of (f_data o) k = Some v -> getitem o k = Ok v.
Proof.
  rewrite entry_find. unfold getitem, find_item. destruct (find (key_match k) (f_data o)) as [d|]; [|discriminate]. cbn. intro H. apply Some_inj in H. congruence.
Qed.
Lemma entry_set_other l k v k' : lower k' <> lower k -> entry_of (setl l k v) k' = entry_of l k'.
Proof.
  intro N. rewrite !entry_find. unfold setl. rewrite find_map_set. destruct (find (key_match k') l) as [d|] eqn:E; [|reflexivity]. apply find_some in E. destruct E as [_ E]. apply key_match_true in E.
  destruct (key_match k d) eqn:K; [|reflexivity]. apply key_match_true in K. congruence.
Qed.
Lemma entry_set_same l k v : entry_of l k <> None -> entry_of (setl l k v) k = Some v.
Proof.
  rewrite !entry_find. unfold setl. rewrite find_map_set. destruct (find (key_match k) l) as [d|] eqn:E; [|intro N; exfalso; apply N; reflexivity]. intros _. apply find_some in E. destruct E as [_ E]. rewrite E. reflexivity.
Qed.
Lemma frame_set l k v : frame_of (setl l k v) = frame_of l.
Proof. unfold frame_of, setl. rewrite map_map. apply map_ext. intro d. destruct (key_match k d); reflexivity. Qed.
Fixpoint setsl (l : list item) (kvs : list (str * val)) : list item := match kvs with [] => l | (k, v) :: r => setsl (setl l k v) r end.
Lemma entry_sets_other kvs : forall l k', ~ In (lower k') (map (fun p => lower (fst p)) kvs) -> entry_of (setsl l kvs) k' = entry_of l k'.
Proof.
  induction kvs as [|[k v] kvs IH]; intros l k' N; [reflexivity|]. cbn [setsl]. cbn [map fst In] in N. rewrite IH by tauto. apply entry_set_other. intro E. apply N. left. symmetry. exact E.
Qed.
Lemma frame_sets kvs : forall l, frame_of (setsl l kvs) = frame_of l.
Proof. induction kvs as [|[k v] kvs IH]; intro l; [reflexivity|]. cbn [setsl]. rewrite IH. apply frame_set. Qed.

(** ** File names *)
Definition no_slash (s : str) : Prop := ~ In slash s.
Lemma join_split dir x : x <> [] -> no_slash x -> exists D, path_join dir x = D ++ x /\ (D = [] \/ exists E, D = E ++ [slash]) /\ (forall y, y <> [] -> no_slash y -> path_join dir y = D ++ y).
Proof.
  intros NE N. assert (G : forall y, y <> [] -> no_slash y -> path_join dir y = if negb (nonempty dir) || ends_slash dir then dir ++ y else dir ++ slash :: y).
  { intros y Y Z. unfold path_join. destruct y as [|c y]; [contradiction|]. assert (is_slash c = false) as ->; [|reflexivity]. unfold is_slash. destruct (chr_eqb c slash) eqn:K; [|reflexivity]. exfalso. apply Z. left. now apply chr_eqb_eq. }
  exists (if negb (nonempty dir) || ends_slash dir then dir else dir ++ [slash]). split; [|split].
  - rewrite G by assumption. destruct (negb (nonempty dir) || ends_slash dir); [reflexivity|]. now rewrite <- app_assoc.
  - destruct (negb (nonempty dir) || ends_slash dir) eqn:E.
    + destruct dir as [|c dir]; [left; reflexivity|]. right. cbn [nonempty negb orb] in E. unfold ends_slash in E. destruct (rev (c :: dir)) as [|a r] eqn:R; [discriminate|]. exists (rev r). apply chr_eqb_eq in E. subst a.
      rewrite <- (rev_involutive (c :: dir)), R. reflexivity.
    + right. eexists. reflexivity.
  - intros y Y Z. rewrite G by assumption. destruct (negb (nonempty dir) || ends_slash dir); [reflexivity|]. now rewrite <- app_assoc.
Qed.
Lemma basename_join dir x : x <> [] -> no_slash x -> basename (path_join dir x) = x.
Proof.
  intros NE N. destruct (join_split dir x NE N) as (D & -> & [-> | [E ->]] & _); unfold basename.
  - cbn [app]. rewrite rsplit1_none by exact N. reflexivity.
  - rewrite <- app_assoc. cbn [app]. rewrite rsplit1_app by exact N. reflexivity.
Qed.
Lemma join_inj dir x y : x <> [] -> no_slash x -> y <> [] -> no_slash y -> path_join dir x = path_join dir y -> x = y.
Proof. intros X1 X2 Y1 Y2 H. rewrite <- (basename_join dir x X1 X2), <- (basename_join dir y Y1 Y2), H. reflexivity. Qed.
Definition tag_list := map S_ ["ED"; "ED_twr"; "ED_bld"; "BD"; "BD_bld"; "IW"; "AD"; "AD_bld"; "SvD"; "HD"; "SD"; "MD"; "Ice"]%string.
Lemma lit_slash (s : str) : forallb (fun c => negb (chr_eqb c slash)) s = true -> no_slash s.
Proof. intros H I. rewrite forallb_forall in H. specialize (H _ I). rewrite chr_eqb_refl in H. discriminate. Qed.
Lemma name_ok prefix suffix t : no_slash prefix -> no_slash suffix -> In t tag_list -> prefix ++ t ++ suffix ++ S_ ".dat" <> [] /\ no_slash (prefix ++ t ++ suffix ++ S_ ".dat").
Proof.
  intros P S T. split.
  - intro H. apply app_eq_nil in H. destruct H as [_ H]. apply app_eq_nil in H. destruct H as [_ H]. apply app_eq_nil in H. destruct H as [_ H]. discriminate H.
  - unfold no_slash. rewrite !in_app_iff. assert (no_slash t).
    { apply lit_slash. cbn in T. repeat (destruct T as [<- | T]; [reflexivity|]). destruct T. }
    assert (no_slash (S_ ".dat")) by (apply lit_slash; reflexivity). unfold no_slash in *; tauto.
Qed.
Lemma tag_in m : m <> Fst -> In (tag_of m) tag_list.
Proof. intro H. destruct m; try contradiction; cbv; tauto. Qed.

(** ** One step at a time *)
Section Steps.
Variable text : list item -> res str.
Hypothesis text_total : forall l, exists t, text l = Ok t.
Definition holds (f : fs) (p : str) (l : list item) : Prop := exists t, text l = Ok t /\ f p = Reg (map N_of_ascii t).
Variables (f0 : fs) (d0 : deck) (c : switches) (file : modk -> str) (D0 : modk -> list item).
Hypothesis Hfile : forall m, file m <> [].
Hypothesis Hdir : forall m, needed c m = true -> f0 (file m) <> Dir.
Hypothesis Hinj : forall m m', needed c m = true -> needed c m' = true -> file m = file m' -> m = m'.

(** What is known between two steps: the modules written so far, and the present data of every module *)
Record inv (W : modk -> bool) (D : modk -> list item) (s : fs * deck) : Prop := {
  i_mods : forall m, needed c m = true -> exists o, d_mods (snd s) m = Some o /\ f_data o = D m;
  i_done : forall m, W m = true -> needed c m = true /\ holds (fst s) (file m) (D m);
  i_rest : forall q, (forall m, W m = true -> q <> file m) -> fst s q = f0 q;
  i_absent : forall m, needed c m = false -> d_mods (snd s) m = d_mods d0 m;
  i_keep : d_readlist (snd s) = d_readlist d0 /\ d_af (snd s) = d_af d0 /\ d_ac (snd s) = d_ac d0 /\ d_inputs (snd s) = d_inputs d0 }.
Definition updD (D : modk -> list item) (m : modk) (l : list item) : modk -> list item := fun k => if modk_eqb k m then l else D k.
Lemma modk_eqb_eq a b : modk_eqb a b = true <-> a = b.
Proof. split; [|intros ->; destruct b; reflexivity]. destruct a, b; intro H; (discriminate H || reflexivity). Qed.
Lemma modk_eqb_refl a : modk_eqb a a = true.
Proof. destruct a; reflexivity. Qed.

Lemma switch_ok W D s k g v b : inv W D s -> entry_of (D Fst) k = Some v -> g v = Ok b -> switch k g s = (s, Ok b).
Proof.
  intros I E G. destruct (i_mods _ _ _ I Fst eq_refl) as (o & O & X). unfold switch, seq_, w_get, mget, lift. rewrite O. rewrite <- X in E. rewrite (getitem_entry _ _ _ E), G. reflexivity.
Qed.
Lemma set_ok W D s m k v : inv W D s -> needed c m = true -> W m = false ->
  exists s', w_set m k v s = (s', Ok tt) /\ inv W (updD D m (setl (D m) k v)) s' /\ d_file (snd s') = d_file (snd s).
Proof.
  intros I N NW. destruct (i_mods _ _ _ I m N) as (o & O & X). unfold w_set. rewrite O. cbn [setitem]. eexists. split; [reflexivity|]. split; [|reflexivity]. destruct I as [I1 I2 I3 I4 I5]. constructor; cbn [fst snd set_mod d_mods].
  - intros m' N'. unfold updD. destruct (modk_eqb m' m) eqn:E; [|apply I1; exact N']. eexists. split; [reflexivity|]. cbn [f_data]. unfold setl. now rewrite X.
  - intros m' W'. destruct (I2 m' W') as [A B]. split; [exact A|]. unfold updD. destruct (modk_eqb m' m) eqn:E; [|exact B]. apply modk_eqb_eq in E. congruence.
  - exact I3.
  - intros m' N'. destruct (modk_eqb m' m) eqn:E; [|apply I4; exact N']. apply modk_eqb_eq in E. congruence.
  - exact I5.
Qed.
Lemma sets_ok {B} m kvs (k : st ws B) : forall W D s, inv W D s -> needed c m = true -> W m = false ->
  exists s', fold_right (fun p r => w_set m (fst p) (snd p) ;~ r) k kvs s = k s' /\ inv W (updD D m (setsl (D m) kvs)) s' /\ d_file (snd s') = d_file (snd s).
Proof.
  induction kvs as [|[k0 v] kvs IH]; intros W D s I N NW.
  - exists s. split; [reflexivity|]. split; [|reflexivity]. destruct I as [I1 I2 I3 I4 I5]. assert (E : forall m', updD D m (setsl (D m) []) m' = D m').
    { intro m'. unfold updD. cbn [setsl]. destruct (modk_eqb m' m) eqn:E; [|reflexivity]. apply modk_eqb_eq in E. now subst. }
    constructor; [intros m' N'; rewrite E; auto|intros m' W'; rewrite E; auto|exact I3|exact I4|exact I5].
  - cbn [fold_right fst snd setsl]. destruct (set_ok W D s m k0 v I N NW) as (s1 & E1 & I1 & F1). unfold seq_. rewrite E1. destruct (IH _ _ _ I1 N NW) as (s2 & E2 & I2 & F2). exists s2. split; [exact E2|]. split; [|congruence].
    destruct I2 as [J1 J2 J3 J4 J5]. assert (E : forall m', updD (updD D m (setl (D m) k0 v)) m (setsl (updD D m (setl (D m) k0 v) m) kvs) m' = updD D m (setsl (setl (D m) k0 v) kvs) m').
    { intro m'. unfold updD. rewrite modk_eqb_refl. destruct (modk_eqb m' m); reflexivity. }
    constructor; [intros m' N'; rewrite <- E; auto|intros m' W'; rewrite <- E; auto|exact J3|exact J4|exact J5].
Qed.
Lemma write_ok W D s m p : inv W D s -> needed c m = true -> W m = false -> p = file m ->
  exists s', w_write text m p s = (s', Ok tt) /\ inv (fun k => W k || modk_eqb k m) D s' /\ d_file (snd s') = d_file (snd s).
Proof.
  intros I N NW ->. destruct (i_mods _ _ _ I m N) as (o & O & X). unfold w_write. rewrite O. pose proof (Hfile m) as NE.
  assert (fst s (file m) <> Dir) as ND.
  { rewrite (i_rest _ _ _ I (file m)); [apply Hdir; exact N|]. intros m' W' E. destruct (i_done _ _ _ I m' W') as [N' _]. specialize (Hinj _ _ N N' E). congruence. }
  destruct (text_total (f_data o)) as [t T]. destruct (write_file_ok (fst s) (file m) [map N_of_ascii t] ND) as (f' & E & R & Q). cbn [map concat] in E, R. rewrite app_nil_r in R.
  destruct (file m) as [|a r] eqn:F; [contradiction|]. cbn [f_name]. rewrite T. cbn [bind]. rewrite E. eexists. split; [reflexivity|]. split; [|reflexivity]. destruct I as [I1 I2 I3 I4 I5]. constructor; cbn [fst snd set_mod d_mods].
  - intros m' N'. destruct (modk_eqb m' m) eqn:K; [|apply I1; exact N']. apply modk_eqb_eq in K. subst m'. eexists. split; [reflexivity|]. exact X.
  - intros m' W'. apply Bool.orb_true_iff in W'. destruct (modk_eqb m' m) eqn:K.
    + apply modk_eqb_eq in K. subst m'. split; [exact N|]. exists t. rewrite <- X, F. split; assumption.
    + destruct W' as [W'|W']; [|discriminate]. destruct (I2 m' W') as [A (t' & T' & B)]. split; [exact A|]. exists t'. split; [exact T'|]. rewrite Q; [exact B|]. rewrite <- F. intro Y. specialize (Hinj _ _ A N Y). subst m'. rewrite modk_eqb_refl in K. discriminate.
  - intros q NQ. rewrite Q. { apply I3. intros m' W'. apply NQ. now rewrite W'. } rewrite <- F. apply NQ. rewrite modk_eqb_refl. now rewrite Bool.orb_true_r.
  - intros m' N'. destruct (modk_eqb m' m) eqn:E'; [|apply I4; exact N']. apply modk_eqb_eq in E'. congruence.
  - exact I5.
Qed.
Lemma inv_ext W W' D D' s : (forall m, W m = W' m) -> (forall m, D m = D' m) -> inv W D s -> inv W' D' s.
Proof.
  intros A B [I1 I2 I3 I4 I5]. constructor; [intros m N; rewrite <- B; auto|intros m N; rewrite <- A in N; rewrite <- B; auto|intros q Q; apply I3; intros m N; apply Q; now rewrite <- A|exact I4|exact I5].
Qed.
Lemma when_ok W D s m p (b : bool) : inv W D s -> (b = true -> needed c m = true) -> W m = false -> (b = true -> p = file m) ->
  exists s', when b (w_write text m p) s = (s', Ok tt) /\ inv (fun k => W k || (b && modk_eqb k m)) D s' /\ d_file (snd s') = d_file (snd s).
Proof.
  intros I N NW P. destruct b; cbn [when].
  - apply write_ok; auto.
  - exists s. split; [reflexivity|]. split; [|reflexivity]. apply (inv_ext W _ D D); auto. intro k. now rewrite Bool.orb_false_r.
Qed.
End Steps.

(** ** The whole of deck.write *)
Definition data_of (d : deck) (m : modk) : list item := match d_mods d m with Some o => f_data o | None => [] end.
Definition path_of (dir prefix suffix tag : str) (b : bool) : str := if b then path_join dir (prefix ++ tag ++ suffix ++ S_ ".dat") else S_ "none".
Definition fst_sets (dir prefix suffix : str) (c : switches) : list (str * val) :=
  let path := path_of dir prefix suffix in
  [(S_ "EDFile", refer (path (S_ "ED") (0 <? c_elast c))); (S_ "BDBldFile(1)", refer (path (S_ "BD") (c_elast c =? 2)));
   (S_ "BDBldFile(2)", refer (path (S_ "BD") (c_elast c =? 2))); (S_ "BDBldFile(3)", refer (path (S_ "BD") (c_elast c =? 2)));
   (S_ "InflowFile", refer (path (S_ "IW") (0 <? c_inflow c))); (S_ "AeroFile", refer (path (S_ "AD") (0 <? c_aero c)));
   (S_ "ServoFile", refer (path (S_ "AD") (0 <? c_aero c))); (S_ "HydroFile", refer (path (S_ "HD") (0 <? c_hydro c)));
   (S_ "SubFile", refer (path (S_ "SD") (0 <? c_sub c))); (S_ "MooringFile", refer (path (S_ "MD") (0 <? c_mooring c)));
   (S_ "IceFile", refer (path (S_ "Ice") (0 <? c_ice c)))].
Definition old_blades (l : list item) : bool := existsb (str_eqb (S_ "BldFile1")) (keys (mkF l None)).
Definition blade_sets (dir prefix suffix : str) (l : list item) : list (str * val) :=
  let v := refer (path_of dir prefix suffix (S_ "ED_bld") true) in
  if old_blades l then [(S_ "BldFile1", v); (S_ "BldFile2", v); (S_ "BldFile3", v)] else [(S_ "BldFile(1)", v); (S_ "BldFile(2)", v); (S_ "BldFile(3)", v)].
Definition ed_data (dir prefix suffix : str) (c : switches) (l : list item) : list item :=
  let l1 := setl l (S_ "TwrFile") (refer (path_of dir prefix suffix (S_ "ED_twr") true)) in
  if c_elast c =? 1 then setsl l1 (blade_sets dir prefix suffix l1) else l1.
Definition final_data (dir prefix suffix : str) (c : switches) (D : modk -> list item) (m : modk) : list item :=
  match m with
  | Fst => setsl (D Fst) (fst_sets dir prefix suffix c)
  | ElastoDyn => ed_data dir prefix suffix c (D ElastoDyn)
  | BeamDyn => if c_elast c =? 2 then setl (D BeamDyn) (S_ "BldFile") (refer (path_of dir prefix suffix (S_ "BD_bld") true)) else D BeamDyn
  | _ => D m
  end.
Lemma seq_step {S A B} (x : st S A) (k : A -> st S B) s s' a : x s = (s', Ok a) -> seq_ x k s = k a s'.
Proof. intro H. unfold seq_. rewrite H. reflexivity. Qed.
Lemma keys_name l n n' : keys (mkF l n) = keys (mkF l n').
Proof. reflexivity. Qed.
Section Write.
Variable text : list item -> res str.
Hypothesis text_total : forall l, exists t, text l = Ok t.
Variables (f0 : fs) (d0 : deck) (c : switches) (name dir prefix suffix : str).
Let file := file_of name dir prefix suffix.
Let D0 := data_of d0.
Hypothesis Hsw : has_switches (D0 Fst) c.
Hypothesis Helast : 0 < c_elast c.
Hypothesis Hsub : c_sub c <> 2.
Hypothesis Hmods : forall m, needed c m = true -> d_mods d0 m <> None.
Hypothesis Hdir : forall m, needed c m = true -> f0 (file m) <> Dir.
Hypothesis Hne : forall m, file m <> [].
Hypothesis Hinj : forall m m', needed c m = true -> needed c m' = true -> file m = file m' -> m = m'.

Ltac look L := first [exact L | eapply eq_trans; [apply entry_sets_other; cbn [map fst fst_sets]; vm_compute; intuition discriminate | exact L]].
Lemma write_run : forall s0 fname dir', s0 = (f0, d0) -> match fname with Some n => n | None => d_file d0 end = name -> match dir' with Some x => x | None => dirname name end = dir ->
  exists s', deck_write text fname prefix suffix dir' s0 = (s', Ok tt) /\ inv text f0 d0 c file (needed c) (final_data dir prefix suffix c D0) s' /\ d_file (snd s') = name.
Proof.
  intros s0 fname dir' -> En Ed. unfold deck_write. cbn [snd fst]. rewrite En, Ed. fold (path_of dir prefix suffix).
  destruct Hsw as (L1 & L2 & L3 & L4 & L5 & L6 & L7 & L8).
  assert (I0 : inv text f0 d0 c file (fun _ => false) D0 (f0, set_file d0 name)).
  { constructor; cbn [fst snd set_file d_mods d_readlist d_af d_ac d_inputs]; try (intros; discriminate); auto. intros m N. unfold D0, data_of. specialize (Hmods m N). destruct (d_mods d0 m) as [o|]; [exists o; auto|contradiction]. }
  match goal with |- exists s', ?prog ?s = _ /\ _ => remember s as s1 eqn:E1 end. assert (F1 : d_file (snd s1) = name) by (subst s1; reflexivity). clear E1.
  Ltac sw I L := erewrite seq_step; [|eapply switch_ok; [exact I | exact L | reflexivity]].
  sw I0 L1. sw I0 L2. sw I0 L1. sw I0 L3. sw I0 L5. sw I0 L6. sw I0 L7. sw I0 L4. sw I0 L8. sw I0 L1. sw I0 L1. sw I0 L1. cbv zeta.
  Ltac ws I := let s := fresh "s" in let E := fresh "E" in let J := fresh "J" in let F := fresh "F" in
    match goal with |- context [seq_ (w_set ?m ?k ?v) _ ?s0] => destruct (set_ok _ _ _ _ _ _ _ _ m k v I eq_refl eq_refl) as (s & E & J & F); erewrite seq_step; [|exact E]; clear E; clear I; rename J into I end.
  ws I0. ws I0. ws I0. ws I0. ws I0. ws I0. ws I0. ws I0. ws I0. ws I0. ws I0.
  match goal with |- context [seq_ _ _ ?s] => assert (Fs : d_file (snd s) = name) by congruence; set (sa := s) in *; clearbody sa end.
  assert (Ia : inv text f0 d0 c file (fun _ => false) (updD D0 Fst (setsl (D0 Fst) (fst_sets dir prefix suffix c))) sa).
  { eapply inv_ext; [| |exact I0]; [reflexivity|]. intro m. destruct m; reflexivity. }
  clear I0. repeat match goal with H : d_file (snd _) = d_file (snd _) |- _ => clear H end. repeat match goal with x : ws |- _ => clear x end. clear s1 F1.
  set (L := setsl (D0 Fst) (fst_sets dir prefix suffix c)) in *.
  assert (K : forall k v, entry_of (D0 Fst) k = Some v -> existsb (fun p => str_eqb (lower (fst p)) (lower k)) (fst_sets dir prefix suffix c) = false -> entry_of (updD D0 Fst L Fst) k = Some v).
  { intros k v H X. change (entry_of L k = Some v). unfold L. rewrite entry_sets_other; [exact H|]. intro Y. apply in_map_iff in Y. destruct Y as (p & Y1 & Y2). assert (existsb (fun p => str_eqb (lower (fst p)) (lower k)) (fst_sets dir prefix suffix c) = true); [|congruence]. apply existsb_exists. exists p. split; [exact Y2|]. rewrite Y1. apply str_eqb_refl. }
  pose proof (K _ _ L1 eq_refl) as M1. pose proof (K _ _ L2 eq_refl) as M2. pose proof (K _ _ L3 eq_refl) as M3. pose proof (K _ _ L4 eq_refl) as M4. pose proof (K _ _ L5 eq_refl) as M5. pose proof (K _ _ L6 eq_refl) as M6. pose proof (K _ _ L7 eq_refl) as M7. clear K.
  destruct (write_ok text text_total f0 d0 c file Hne Hdir Hinj _ _ _ Fst name Ia eq_refl eq_refl eq_refl) as (sb & Eb & Ib & Fb). erewrite seq_step; [|exact Eb]. clear Eb Ia.
  assert (B0 : (0 <? c_elast c) = true) by (apply Z.ltb_lt; exact Helast).
  sw Ib M1. rewrite B0. cbn [when].
  (* the tower *)
  assert (T : exists sc, (w_set ElastoDyn (S_ "TwrFile") (refer (file ElastoDynTower)) ;~ w_write text ElastoDynTower (file ElastoDynTower)) sb = (sc, Ok tt) /\ d_file (snd sc) = name /\
    inv text f0 d0 c file (fun k => modk_eqb k Fst || modk_eqb k ElastoDynTower) (updD (updD D0 Fst L) ElastoDyn (setl (D0 ElastoDyn) (S_ "TwrFile") (refer (file ElastoDynTower)))) sc).
  { destruct (set_ok text f0 d0 c file _ _ _ ElastoDyn (S_ "TwrFile") (refer (file ElastoDynTower)) Ib eq_refl eq_refl) as (s2 & E2 & I2 & F2). erewrite seq_step; [|exact E2].
    destruct (write_ok text text_total f0 d0 c file Hne Hdir Hinj _ _ _ ElastoDynTower (file ElastoDynTower) I2 B0 eq_refl eq_refl) as (s3 & E3 & I3 & F3). exists s3. split; [exact E3|]. split; [congruence|]. eapply inv_ext; [| |exact I3]; intro m; destruct m; reflexivity. }
  destruct T as (sc & Ec & Fc & Ic). erewrite seq_step; [|exact Ec]. clear Ec Ib. set (l1 := setl (D0 ElastoDyn) (S_ "TwrFile") (refer (file ElastoDynTower))) in *.
  sw Ic M1.
  (* the blades *)
  match goal with |- exists s', seq_ ?x _ sc = _ /\ _ => assert (T : exists sd, x sc = (sd, Ok tt) /\ d_file (snd sd) = name /\
    inv text f0 d0 c file (fun k => modk_eqb k Fst || modk_eqb k ElastoDynTower || ((c_elast c =? 1) && modk_eqb k ElastoDynBlade) || ((c_elast c =? 2) && (modk_eqb k BeamDyn || modk_eqb k BeamDynBlade))) (final_data dir prefix suffix c D0) sd) end.
  { destruct (c_elast c =? 1) eqn:B1.
    - assert (B2 : (c_elast c =? 2) = false) by (apply Z.eqb_eq in B1; rewrite B1; reflexivity).
      assert (Kq : is_key ElastoDyn (S_ "BldFile1") sc = (sc, Ok (old_blades l1))).
      { destruct (i_mods _ _ _ _ _ _ _ _ Ic ElastoDyn eq_refl) as (o & O & X). unfold is_key. rewrite O. unfold old_blades, keys. rewrite X. reflexivity. }
      erewrite seq_step; [|exact Kq]. clear Kq.
      match goal with |- exists sd, seq_ ?x _ sc = _ /\ _ => assert (T : exists se, x sc = (se, Ok tt) /\ d_file (snd se) = name /\ inv text f0 d0 c file (fun k => modk_eqb k Fst || modk_eqb k ElastoDynTower) (updD (updD D0 Fst L) ElastoDyn (setsl l1 (blade_sets dir prefix suffix l1))) se) end.
      { unfold blade_sets. destruct (old_blades l1).
        all: ws Ic; ws Ic; match goal with |- context [w_set ?m ?k ?v ?s0] => destruct (set_ok _ _ _ _ _ _ _ _ m k v Ic eq_refl eq_refl) as (s5 & E5 & I5 & F5) end; exists s5; split; [exact E5|]; split; [congruence|]; (eapply inv_ext; [| |exact I5]; intro m; destruct m; reflexivity). }
      destruct T as (se & Ee & Fe & Ie). erewrite seq_step; [|exact Ee]. clear Ee.
      destruct (write_ok text text_total f0 d0 c file Hne Hdir Hinj _ _ _ ElastoDynBlade (file ElastoDynBlade) Ie B1 eq_refl eq_refl) as (s3 & E3 & I3 & F3). exists s3. split; [exact E3|]. split; [congruence|].
      eapply inv_ext; [| |exact I3]; intro m; rewrite ?B2; destruct m; unfold final_data, ed_data; rewrite ?B1, ?B2; reflexivity.
    - sw Ic M1. destruct (c_elast c =? 2) eqn:B2; cbn [when].
      + match goal with |- context [seq_ (w_set BeamDyn ?k ?v) _ ?s0] => destruct (set_ok _ _ _ _ _ _ _ _ BeamDyn k v Ic B2 eq_refl) as (s2 & E2 & I2 & G2) end. erewrite seq_step; [|exact E2].
        destruct (write_ok text text_total f0 d0 c file Hne Hdir Hinj _ _ _ BeamDynBlade (file BeamDynBlade) I2 B2 eq_refl eq_refl) as (s3' & E3 & I3 & G3). erewrite seq_step; [|exact E3].
        assert (N4 : needed c BeamDyn = true) by exact B2.
        destruct (write_ok text text_total f0 d0 c file Hne Hdir Hinj _ _ _ BeamDyn (file BeamDyn) I3 N4 eq_refl eq_refl) as (s4' & E4 & I4 & G4). exists s4'. split; [exact E4|]. split; [congruence|].
        eapply inv_ext; [| |exact I4]; intro m; destruct m; unfold final_data, ed_data; rewrite ?B1, ?B2; reflexivity.
      + exists sc. split; [reflexivity|]. split; [exact Fc|].
        eapply inv_ext; [| |exact Ic]; intro m; destruct m; unfold final_data, ed_data; rewrite ?B1, ?B2; reflexivity. }
  destruct T as (sd & Ed' & Fd & Id). erewrite seq_step; [|exact Ed']. clear Ed' Ic.
  destruct (write_ok text text_total f0 d0 c file Hne Hdir Hinj _ _ _ ElastoDyn (file ElastoDyn) Id eq_refl) as (se & Ee & Ie & Fe); [rewrite !Bool.andb_false_r; reflexivity|reflexivity|].
  erewrite seq_step; [|exact Ee]. clear Ee Id.
  assert (U : final_data dir prefix suffix c D0 Fst = updD D0 Fst L Fst) by reflexivity. rewrite <- U in M1, M2, M3, M4, M5, M6, M7. clear U.
  Ltac wn text_total Hne Hdir Hinj I m := let s := fresh "s" in let E := fresh "E" in let J := fresh "J" in let F := fresh "F" in
    match goal with |- context [when ?b (w_write _ m ?p)] => destruct (when_ok _ text_total _ _ _ _ Hne Hdir Hinj _ _ _ m p b I) as (s & E & J & F) end.
  sw Ie M2. wn text_total Hne Hdir Hinj Ie InflowWind; [auto|rewrite !Bool.andb_false_r; reflexivity|intros ->; reflexivity|]. erewrite seq_step; [|exact E]. clear E Ie.
  sw J M3. wn text_total Hne Hdir Hinj J AeroDyn15; [auto|rewrite !Bool.andb_false_r; reflexivity|intros ->; reflexivity|]. erewrite seq_step; [|exact E]. clear E J.
  sw J0 M4. wn text_total Hne Hdir Hinj J0 ServoDyn; [auto|rewrite !Bool.andb_false_r; reflexivity|intros ->; reflexivity|]. erewrite seq_step; [|exact E]. clear E J0.
  sw J M5. wn text_total Hne Hdir Hinj J HydroDyn; [auto|rewrite !Bool.andb_false_r; reflexivity|intro Q; apply Z.eqb_eq in Q; rewrite Q; reflexivity|]. erewrite seq_step; [|exact E]. clear E J.
  sw J0 M6.
  match goal with |- exists s', seq_ ?x _ ?s = _ /\ _ => assert (T : exists sd, x s = (sd, Ok tt) /\ d_file (snd sd) = name /\
    inv text f0 d0 c file (fun k => needed c k && negb (modk_eqb k MAP) && negb (modk_eqb k MoorDyn)) (final_data dir prefix suffix c D0) sd) end.
  { destruct (c_sub c =? 1) eqn:B.
    - assert (B' : (0 <? c_sub c) = true) by (apply Z.eqb_eq in B; rewrite B; reflexivity). rewrite B'.
      destruct (write_ok text text_total f0 d0 c file Hne Hdir Hinj _ _ _ SubDyn (file SubDyn) J0 B) as (s3' & E3 & I3 & G3); [rewrite !Bool.andb_false_r; reflexivity|reflexivity|].
      exists s3'. split; [exact E3|]. split; [congruence|]. eapply inv_ext; [| |exact I3]; [|reflexivity]. intro m. clear - B B0. destruct m; cbn [needed modk_eqb orb andb negb]; rewrite ?B, ?B0; rewrite ?Bool.andb_false_r, ?Bool.andb_true_r, ?Bool.orb_false_r; cbn [orb andb]; try reflexivity.
    - assert (B' : (c_sub c =? 2) = false) by (apply Z.eqb_neq; exact Hsub). sw J0 M6. rewrite B'. cbn [when]. eexists. split; [reflexivity|]. split; [congruence|].
      eapply inv_ext; [| |exact J0]; [|reflexivity]. intro m. clear - B B0. destruct m; cbn [needed modk_eqb orb andb negb]; rewrite ?B, ?B0; rewrite ?Bool.andb_false_r, ?Bool.andb_true_r, ?Bool.orb_false_r; cbn [orb andb]; try reflexivity. }
  destruct T as (sf & Ef & Ff & If). erewrite seq_step; [|exact Ef]. clear Ef J0.
  sw If M7. wn text_total Hne Hdir Hinj If MAP; [auto|cbn [modk_eqb negb]; rewrite !Bool.andb_false_r; reflexivity|intro Q; apply Z.eqb_eq in Q; rewrite Q; reflexivity|]. erewrite seq_step; [|exact E]. clear E If.
  sw J M7. wn text_total Hne Hdir Hinj J MoorDyn; [auto|cbn [modk_eqb negb orb]; rewrite !Bool.andb_false_r; reflexivity|intro Q; apply Z.eqb_eq in Q; rewrite Q; reflexivity|].
  eexists. split; [exact E|]. split; [|congruence]. eapply inv_ext; [| |exact J0]; [|reflexivity]. intro m. clear. destruct m; cbn [needed modk_eqb orb andb negb]; rewrite ?Bool.andb_false_r, ?Bool.andb_true_r, ?Bool.orb_false_r; cbn [orb andb]; try reflexivity.
Qed.
End Write.

Lemma entry_sets_in kvs : forall l k v, In (k, v) kvs -> NoDup (map (fun p => lower (fst p)) kvs) -> entry_of l k <> None -> entry_of (setsl l kvs) k = Some v.
Proof.
  induction kvs as [|[k0 v0] kvs IH]; intros l k v I N E; [destruct I|]. cbn [setsl]. cbn [map fst] in N. apply NoDup_cons_iff in N. destruct N as [N1 N2]. destruct I as [I|I].
  - apply pair_equal_spec in I. destruct I as [<- <-]. rewrite entry_sets_other by exact N1. apply entry_set_same. exact E.
  - apply IH; auto. rewrite entry_set_other; [exact E|]. intro X. apply N1. rewrite <- X. apply in_map_iff. exists (k, v). split; [reflexivity|exact I].
Qed.
Lemma nodup_fst dir prefix suffix c : NoDup (map (fun p => lower (fst p)) (fst_sets dir prefix suffix c)).
Proof.
  unfold fst_sets. cbn [map fst]. repeat constructor; vm_compute; intuition discriminate.
Qed.
Lemma file_inj name dir prefix suffix c : no_slash prefix -> no_slash suffix -> (forall m, m <> Fst -> needed c m = true -> name <> file_of name dir prefix suffix m) ->
  forall m m', needed c m = true -> needed c m' = true -> file_of name dir prefix suffix m = file_of name dir prefix suffix m' -> m = m'.
Proof.
  intros P S N m m' A B E.
  assert (G : m <> Fst -> m' <> Fst -> m = m').
  { intros X Y. assert (E' : path_join dir (prefix ++ tag_of m ++ suffix ++ S_ ".dat") = path_join dir (prefix ++ tag_of m' ++ suffix ++ S_ ".dat")) by (destruct m, m'; (contradiction || exact E)).
    destruct (name_ok prefix suffix (tag_of m) P S (tag_in m X)) as [Q1 Q2]. destruct (name_ok prefix suffix (tag_of m') P S (tag_in m' Y)) as [Q3 Q4].
    apply join_inj in E'; auto. apply app_inv_head in E'. apply app_inv_tail in E'. clear - E' A B.
    destruct m, m'; try reflexivity; try (vm_compute in E'; discriminate E'); try discriminate A; try discriminate B; cbn [needed] in A, B; apply Z.eqb_eq in A; apply Z.eqb_eq in B; congruence. }
  destruct m; try (destruct m'; [exfalso; refine (N _ _ A _); [discriminate|symmetry; exact E] | apply G; discriminate ..]).
  destruct m'; [reflexivity|exfalso; refine (N _ _ B _); [discriminate|exact E] ..].
Qed.
Lemma file_ne name dir prefix suffix : name <> [] -> no_slash prefix -> no_slash suffix -> forall m, file_of name dir prefix suffix m <> [].
Proof.
  intros N P S m. assert (G : m <> Fst -> file_of name dir prefix suffix m = path_join dir (prefix ++ tag_of m ++ suffix ++ S_ ".dat")) by (destruct m; intro; (contradiction || reflexivity)).
  assert (D : m = Fst \/ m <> Fst) by (destruct m; (left; reflexivity) || (right; discriminate)). destruct D as [-> | D]; [exact N|]. rewrite G by exact D. destruct (name_ok prefix suffix (tag_of m) P S (tag_in m D)) as [Q1 Q2].
  destruct (join_split dir _ Q1 Q2) as (X & -> & _). intro H. apply app_eq_nil in H. tauto.
Qed.
(** What the user asks for: the deck has the modules, and none of the files is a directory or the main file *)
Record writable (f : fs) (d : deck) (c : switches) (name dir prefix suffix : str) : Prop := {
  w_name : name <> [];
  w_prefix : no_slash prefix;
  w_suffix : no_slash suffix;
  w_switches : has_switches (data_of d Fst) c;
  w_elast : 0 < c_elast c;
  w_sub : c_sub c <> 2;
  w_mods : forall m, needed c m = true -> d_mods d m <> None;
  w_dir : forall m, needed c m = true -> f (file_of name dir prefix suffix m) <> Dir;
  w_other : forall m, m <> Fst -> needed c m = true -> name <> file_of name dir prefix suffix m }.
Definition refers (l l' : list item) (k : str) (base file : str) : Prop := entry_of l k <> None -> exists b, entry_of l' k = Some (quoted b) /\ path_join base b = file.
Definition blade_keys (l : list item) : list str :=
  if existsb (fun d => negb (it_comment d) && str_eqb (it_label d) (S_ "BldFile1")) l then map S_ ["BldFile1"; "BldFile2"; "BldFile3"]%string else map S_ ["BldFile(1)"; "BldFile(2)"; "BldFile(3)"]%string.

Section C44.
Variable text : list item -> res str.
Hypothesis text_total : forall l, exists t, text l = Ok t.
Lemma write_spec f d c fname prefix suffix dir' name dir : match fname with Some n => n | None => d_file d end = name -> match dir' with Some x => x | None => dirname name end = dir ->
  writable f d c name dir prefix suffix ->
  exists f' d', deck_write text fname prefix suffix dir' (f, d) = ((f', d'), Ok tt) /\ d_file d' = name /\
    (forall m, needed c m = true -> data_of d' m = final_data dir prefix suffix c (data_of d) m /\ holds text f' (file_of name dir prefix suffix m) (data_of d' m)) /\
    (forall m, needed c m = false -> d_mods d' m = d_mods d m) /\
    (forall q, (forall m, needed c m = true -> q <> file_of name dir prefix suffix m) -> f' q = f q).
Proof.
  intros En Ed [W1 W2 W3 W4 W5 W6 W7 W8 W9].
  destruct (write_run text text_total f d c name dir prefix suffix W4 W5 W6 W7 W8 (file_ne _ _ _ _ W1 W2 W3) (file_inj _ _ _ _ c W2 W3 W9) (f, d) fname dir' eq_refl En Ed) as ([f' d'] & E & I & F).
  exists f', d'. split; [exact E|]. split; [exact F|]. destruct I as [I1 I2 I3 I4 I5]. cbn [fst snd] in *. split; [|split].
  - intros m N. destruct (I1 m N) as (o & O & X). assert (Q : data_of d' m = final_data dir prefix suffix c (data_of d) m) by (unfold data_of at 1; rewrite O; exact X). split; [exact Q|]. rewrite Q. apply I2. exact N.
  - exact I4.
  - exact I3.
Qed.
Lemma refer_file dir prefix suffix tag : no_slash prefix -> no_slash suffix -> In tag tag_list -> refer (path_of dir prefix suffix tag true) = quoted (prefix ++ tag ++ suffix ++ S_ ".dat").
Proof. intros P S T. unfold refer, path_of, quoted. destruct (name_ok prefix suffix tag P S T) as [A B]. rewrite basename_join by assumption. reflexivity. Qed.
Lemma old_blades_iff l : old_blades l = existsb (fun d => negb (it_comment d) && str_eqb (it_label d) (S_ "BldFile1")) l.
Proof.
  unfold old_blades, keys. cbn [f_data]. induction l as [|x l IH]; [reflexivity|]. cbn [filter existsb]. destruct (it_comment x); cbn [negb map existsb andb orb]; [exact IH|]. rewrite <- IH. f_equal. destruct (str_eqb (it_label x) (S_ "BldFile1")) eqn:E.
  - apply str_eqb_eq in E. rewrite E. apply str_eqb_refl.
  - apply str_eqb_neq in E. apply str_eqb_neq. congruence.
Qed.
Lemma existsb_frame (g : str * bool * str * tabtype -> bool) l l' : frame_of l = frame_of l' -> existsb (fun d => g (it_label d, it_comment d, it_descr d, it_tab d)) l = existsb (fun d => g (it_label d, it_comment d, it_descr d, it_tab d)) l'.
Proof.
  revert l'. induction l as [|x l IH]; intros [|y l'] H; try discriminate H; [reflexivity|]. unfold frame_of in H. cbn [map] in H. apply cons_inj in H. destruct H as [H1 H2]. cbn [existsb]. rewrite H1. f_equal. apply IH. exact H2.
Qed.
Theorem C44_references_partial : forall f d c fname prefix suffix name, match fname with Some n => n | None => d_file d end = name ->
  let dir := dirname name in writable f d c name dir prefix suffix ->
  exists f' d', deck_write text fname prefix suffix None (f, d) = ((f', d'), Ok tt) /\ d_file d' = name /\
    (* every module is written, and nothing else *)
    (forall m, needed c m = true -> holds text f' (file_of name dir prefix suffix m) (data_of d' m)) /\
    (forall q, (forall m, needed c m = true -> q <> file_of name dir prefix suffix m) -> f' q = f q) /\
    (* the references *)
    (forall k m, In (k, m) main_refs -> needed c m = true -> refers (data_of d Fst) (data_of d' Fst) k dir (file_of name dir prefix suffix m)) /\
    refers (data_of d ElastoDyn) (data_of d' ElastoDyn) (S_ "TwrFile") dir (file_of name dir prefix suffix ElastoDynTower) /\
    (c_elast c = 1 -> forall k, In k (blade_keys (data_of d ElastoDyn)) -> refers (data_of d ElastoDyn) (data_of d' ElastoDyn) k dir (file_of name dir prefix suffix ElastoDynBlade)) /\
    (c_elast c = 2 -> refers (data_of d BeamDyn) (data_of d' BeamDyn) (S_ "BldFile") dir (file_of name dir prefix suffix BeamDynBlade)) /\
    (* everything else is unchanged *)
    (forall m, frame_of (data_of d' m) = frame_of (data_of d m)) /\
    (forall k, ~ In (lower k) (map lower main_keys) -> entry_of (data_of d' Fst) k = entry_of (data_of d Fst) k) /\
    (forall k, ~ In (lower k) (map lower ed_keys) -> entry_of (data_of d' ElastoDyn) k = entry_of (data_of d ElastoDyn) k) /\
    (forall k, lower k <> lower (S_ "BldFile") -> entry_of (data_of d' BeamDyn) k = entry_of (data_of d BeamDyn) k) /\
    (forall m, m <> Fst -> m <> ElastoDyn -> m <> BeamDyn -> data_of d' m = data_of d m).
Proof.
  intros f d c fname prefix suffix name En dir W. destruct (write_spec f d c fname prefix suffix None name dir En eq_refl W) as (f' & d' & E & F & M & A & R).
  exists f', d'. split; [exact E|]. split; [exact F|]. split; [intros m N; apply M; exact N|]. split; [exact R|].
  assert (DD : forall m, data_of d' m = final_data dir prefix suffix c (data_of d) m).
  { intro m. destruct (needed c m) eqn:N; [apply M; exact N|]. unfold data_of at 1. rewrite A by exact N. destruct m; try reflexivity; try discriminate N. cbn [needed] in N. unfold final_data. rewrite N. reflexivity. }
  pose proof (w_prefix _ _ _ _ _ _ _ W) as P. pose proof (w_suffix _ _ _ _ _ _ _ W) as S. pose proof (w_elast _ _ _ _ _ _ _ W) as EL.
  assert (RF : forall l l' k tag, In tag tag_list -> entry_of l' k = Some (refer (path_of dir prefix suffix tag true)) -> refers l l' k dir (path_join dir (prefix ++ tag ++ suffix ++ S_ ".dat"))).
  { intros l l' k tag T H _. eexists. split; [rewrite H, refer_file by assumption; reflexivity|reflexivity]. }
  split; [|split; [|split; [|split; [|split; [|split; [|split; [|split]]]]]]].
  - intros k m I N HE. assert (G : exists tag, In tag tag_list /\ file_of name dir prefix suffix m = path_join dir (prefix ++ tag ++ suffix ++ S_ ".dat") /\ In (k, refer (path_of dir prefix suffix tag true)) (fst_sets dir prefix suffix c)).
    { clear HE M A R DD E. unfold main_refs in I. cbn [In] in I.
      repeat (destruct I as [I|I]; [apply pair_equal_spec in I; destruct I as [<- <-]; exists (tag_of ltac:(match goal with H : needed c ?m = true |- _ => exact m end)); split; [apply tag_in; discriminate|split; [reflexivity|]]; cbn [needed] in N; unfold fst_sets|]); [..|destruct I].
      all: try rewrite N.
      - apply Z.ltb_lt in EL. rewrite EL. cbn; tauto.
      - cbn; tauto.
      - cbn; tauto.
      - cbn; tauto.
      - cbn; tauto.
      - cbn; tauto.
      - assert (Q : (0 <? c_hydro c) = true) by (apply Z.eqb_eq in N; rewrite N; reflexivity). rewrite Q. cbn; tauto.
      - assert (Q : (0 <? c_sub c) = true) by (apply Z.eqb_eq in N; rewrite N; reflexivity). rewrite Q. cbn; tauto.
      - assert (Q : (0 <? c_mooring c) = true) by (apply Z.eqb_eq in N; rewrite N; reflexivity). rewrite Q. cbn; tauto.
      - assert (Q : (0 <? c_mooring c) = true) by (apply Z.eqb_eq in N; rewrite N; reflexivity). rewrite Q. cbn; tauto. }
    destruct G as (tag & T & -> & I'). eapply RF; [exact T| |exact HE]. rewrite DD. cbn [final_data]. apply entry_sets_in; [exact I'|apply nodup_fst|exact HE].
  - intros HE. eapply RF; [cbv; tauto| |exact HE]. rewrite DD. cbn [final_data]. unfold ed_data. set (l1 := setl _ _ _). assert (X : entry_of l1 (S_ "TwrFile") = Some (refer (path_of dir prefix suffix (S_ "ED_twr") true))) by (apply entry_set_same; exact HE).
    destruct (c_elast c =? 1); [|exact X]. rewrite entry_sets_other; [exact X|]. unfold blade_sets. destruct (old_blades l1); vm_compute; intuition discriminate.
  - intros C1 k K HE. eapply RF; [cbv; tauto| |exact HE]. rewrite DD. cbn [final_data]. unfold ed_data. rewrite C1. cbn [Z.eqb Pos.eqb]. set (l1 := setl _ _ _).
    assert (OB : old_blades l1 = existsb (fun d => negb (it_comment d) && str_eqb (it_label d) (S_ "BldFile1")) (data_of d ElastoDyn)).
    { rewrite old_blades_iff. apply (existsb_frame (fun q => negb (snd (fst (fst q))) && str_eqb (fst (fst (fst q))) (S_ "BldFile1"))). apply frame_set. }
    assert (H1 : entry_of l1 k <> None).
    { unfold l1. destruct (str_eqb (lower k) (lower (S_ "TwrFile"))) eqn:Q; [|apply str_eqb_neq in Q; rewrite entry_set_other by exact Q; exact HE].
      exfalso. clear - K Q. unfold blade_keys in K. destruct existsb; cbn [map In] in K; repeat (destruct K as [<-|K]; [vm_compute in Q; discriminate Q|]); destruct K. }
    apply entry_sets_in; [| |exact H1]; unfold blade_sets; unfold blade_keys in K; rewrite OB; destruct existsb.
    1,2: cbn [map In] in K; repeat (destruct K as [<-|K]; [cbn; tauto|]); destruct K.
    1,2: cbn [map fst]; repeat constructor; vm_compute; intuition discriminate.
  - intros C2 HE. eapply RF; [cbv; tauto| |exact HE]. rewrite DD. cbn [final_data]. rewrite C2. cbn [Z.eqb Pos.eqb]. apply entry_set_same. exact HE.
  - intro m. rewrite DD. destruct m; try reflexivity; cbn [final_data].
    + apply frame_sets.
    + unfold ed_data. destruct (c_elast c =? 1); rewrite ?frame_sets; apply frame_set.
    + destruct (c_elast c =? 2); [apply frame_set|reflexivity].
  - intros k K. rewrite DD. cbn [final_data]. apply entry_sets_other. intro X. apply K. clear - X. cbn in X |- *. tauto.
  - intros k K. rewrite DD. cbn [final_data]. unfold ed_data. set (l1 := setl _ _ _). assert (X : entry_of l1 k = entry_of (data_of d ElastoDyn) k).
    { apply entry_set_other. intro X. apply K. rewrite X. cbn. tauto. }
    destruct (c_elast c =? 1); [|exact X]. rewrite entry_sets_other; [exact X|]. intro Y. apply K. clear - Y. unfold blade_sets in Y. destruct (old_blades l1); cbn in Y |- *; tauto.
  - intros k K. rewrite DD. cbn [final_data]. destruct (c_elast c =? 2); [|reflexivity]. apply entry_set_other. exact K.
  - intros m X Y Z. rewrite DD. destruct m; try reflexivity; contradiction.
Qed.
(** The entry ServoFile names the file of AeroDyn, not the one of ServoDyn *)
Theorem C44_servo_refuted : forall f d c fname prefix suffix name, match fname with Some n => n | None => d_file d end = name ->
  let dir := dirname name in writable f d c name dir prefix suffix -> 0 < c_servo c -> entry_of (data_of d Fst) (S_ "ServoFile") <> None ->
  exists f' d' b, deck_write text fname prefix suffix None (f, d) = ((f', d'), Ok tt) /\ entry_of (data_of d' Fst) (S_ "ServoFile") = Some (quoted b) /\
    path_join dir b <> file_of name dir prefix suffix ServoDyn /\ (0 < c_aero c -> path_join dir b = file_of name dir prefix suffix AeroDyn15).
Proof.
  intros f d c fname prefix suffix name En dir W SV HE. destruct (write_spec f d c fname prefix suffix None name dir En eq_refl W) as (f' & d' & E & F & M & A & R).
  pose proof (w_prefix _ _ _ _ _ _ _ W) as P. pose proof (w_suffix _ _ _ _ _ _ _ W) as S.
  exists f', d', (basename (path_of dir prefix suffix (S_ "AD") (0 <? c_aero c))). split; [exact E|]. split.
  - rewrite (proj1 (M Fst eq_refl)). cbn [final_data]. apply entry_sets_in; [|apply nodup_fst|exact HE]. unfold fst_sets, refer, quoted. cbn [In]. tauto.
  - destruct (name_ok prefix suffix (S_ "AD") P S) as [A1 A2]; [cbv; tauto|]. destruct (name_ok prefix suffix (S_ "SvD") P S) as [B1 B2]; [cbv; tauto|].
    destruct (0 <? c_aero c) eqn:Q; unfold path_of.
    + rewrite basename_join by assumption. split; [|reflexivity]. intro X. cbn [file_of tag_of] in X. apply join_inj in X; auto. apply app_inv_head in X. apply app_inv_tail in X. discriminate X.
    + split.
      * change (basename (S_ "none")) with (S_ "none"). cbn [file_of tag_of]. intro X. apply join_inj in X; auto; [|discriminate|apply lit_slash; reflexivity]. apply (f_equal (@rev ascii)) in X. rewrite !rev_app_distr in X. cbn in X. discriminate X.
      * intro X. apply Z.ltb_nlt in Q. contradiction.
Qed.
(** With another directory the files go there, and the references stay base names *)
Theorem C44_directory_refuted : forall f d c fname prefix suffix name dir, match fname with Some n => n | None => d_file d end = name ->
  writable f d c name dir prefix suffix -> entry_of (data_of d Fst) (S_ "EDFile") <> None ->
  exists f' d' b, deck_write text fname prefix suffix (Some dir) (f, d) = ((f', d'), Ok tt) /\ entry_of (data_of d' Fst) (S_ "EDFile") = Some (quoted b) /\
    holds text f' (path_join dir b) (data_of d' ElastoDyn) /\
    ((forall m, needed c m = true -> path_join (dirname name) b <> file_of name dir prefix suffix m) -> f' (path_join (dirname name) b) = f (path_join (dirname name) b)).
Proof.
  intros f d c fname prefix suffix name dir En W HE. destruct (write_spec f d c fname prefix suffix (Some dir) name dir En eq_refl W) as (f' & d' & E & F & M & A & R).
  pose proof (w_prefix _ _ _ _ _ _ _ W) as P. pose proof (w_suffix _ _ _ _ _ _ _ W) as S. pose proof (w_elast _ _ _ _ _ _ _ W) as EL. apply Z.ltb_lt in EL.
  exists f', d', (prefix ++ S_ "ED" ++ suffix ++ S_ ".dat"). split; [exact E|]. split; [|split].
  - rewrite (proj1 (M Fst eq_refl)). cbn [final_data]. rewrite <- (refer_file dir) by (auto; cbv; tauto). apply entry_sets_in; [|apply nodup_fst|exact HE]. unfold fst_sets. rewrite EL. cbn [In]. tauto.
  - apply (proj2 (M ElastoDyn eq_refl)).
  - apply R.
Qed.
(** The file of the ice module is named but never written *)
Theorem C44_ice_refuted : forall f d c fname prefix suffix name, match fname with Some n => n | None => d_file d end = name ->
  let dir := dirname name in writable f d c name dir prefix suffix -> 0 < c_ice c -> entry_of (data_of d Fst) (S_ "IceFile") <> None -> name <> path_join dir (prefix ++ S_ "Ice" ++ suffix ++ S_ ".dat") ->
  exists f' d' b, deck_write text fname prefix suffix None (f, d) = ((f', d'), Ok tt) /\ entry_of (data_of d' Fst) (S_ "IceFile") = Some (quoted b) /\ f' (path_join dir b) = f (path_join dir b).
Proof.
  intros f d c fname prefix suffix name En dir W IC HE NN. destruct (write_spec f d c fname prefix suffix None name dir En eq_refl W) as (f' & d' & E & F & M & A & R).
  pose proof (w_prefix _ _ _ _ _ _ _ W) as P. pose proof (w_suffix _ _ _ _ _ _ _ W) as S. apply Z.ltb_lt in IC.
  exists f', d', (prefix ++ S_ "Ice" ++ suffix ++ S_ ".dat"). split; [exact E|]. split.
  - rewrite (proj1 (M Fst eq_refl)). cbn [final_data]. rewrite <- (refer_file dir) by (auto; cbv; tauto). apply entry_sets_in; [|apply nodup_fst|exact HE]. unfold fst_sets. rewrite IC. cbn [In]. tauto.
  - apply R. intros m N X. assert (D : m = Fst \/ m <> Fst) by (destruct m; (left; reflexivity) || (right; discriminate)). destruct D as [-> | D]; [apply NN; symmetry; exact X|].
    assert (X' : path_join dir (prefix ++ S_ "Ice" ++ suffix ++ S_ ".dat") = path_join dir (prefix ++ tag_of m ++ suffix ++ S_ ".dat")) by (destruct m; (contradiction || exact X)).
    destruct (name_ok prefix suffix (S_ "Ice") P S) as [A1 A2]; [cbv; tauto|]. destruct (name_ok prefix suffix (tag_of m) P S (tag_in m D)) as [B1 B2].
    apply join_inj in X'; auto. apply app_inv_head in X'. apply app_inv_tail in X'. destruct m; try discriminate X'; contradiction.
Qed.
End C44.

(** ** A deck *)
Definition entry_ (k : string) (v : val) : item := mkItem v (S_ k) false (S_ "-") NOT_A_TAB.
Definition demo_main (ce : Z) : list item :=
  [comment_item (S_ "---- OpenFAST ----"); entry_ "CompElast" (VInt ce); entry_ "CompInflow" (VInt 1); entry_ "CompAero" (VInt 2); entry_ "CompServo" (VInt 1); entry_ "CompHydro" (VInt 0); entry_ "CompSub" (VInt 0);
   entry_ "CompMooring" (VInt 2); entry_ "CompIce" (VInt 0); entry_ "EDFile" (VStr (S_ "old")); entry_ "InflowFile" (VStr (S_ "old")); entry_ "AeroFile" (VStr (S_ "old")); entry_ "ServoFile" (VStr (S_ "old")); entry_ "MooringFile" (VStr (S_ "old"))].
Definition demo_deck (ce : Z) : deck := mk_deck (S_ "new/main.fst") [] (fun m => match m with Fst => Some (mkF (demo_main ce) (Some (S_ "main.fst"))) | ElastoDyn => Some (mkF [entry_ "TwrFile" (VStr (S_ "t")); entry_ "BldFile1" (VStr (S_ "b"))] None) | AeroDyn14 => None | _ => Some (mkF [entry_ "x" (VInt 7)] None) end) [] [] [].
Definition demo_text (l : list item) : res str := Ok (toString (mkF l None)).
Definition demo_sw (ce : Z) : switches := mk_sw ce 1 2 1 0 0 2 0.
Example C44_writable : writable (fun _ => Missing) (demo_deck 1) (demo_sw 1) (S_ "new/main.fst") (S_ "new") (S_ "a_") (S_ "_1") /\ dirname (S_ "new/main.fst") = S_ "new".
Proof.
  split; [|reflexivity]. constructor; try discriminate; try (apply lit_slash; reflexivity); try (cbv; tauto).
  - intros m N. destruct m; try discriminate; discriminate N.
  - intros m NF N. destruct m; try discriminate; contradiction.
Qed.
Example C44_example : exists f' d', deck_write demo_text None (S_ "a_") (S_ "_1") None ((fun _ => Missing), demo_deck 1) = ((f', d'), Ok tt) /\
  entry_of (data_of d' Fst) (S_ "MooringFile") = Some (VStr (quote :: S_ "a_MD_1.dat" ++ [quote])) /\ f' (S_ "new/a_MD_1.dat") <> Missing /\ f' (S_ "new/a_HD_1.dat") = Missing.
Proof. eexists. eexists. split; [vm_compute; reflexivity|]. split; [vm_compute; reflexivity|]. split; [vm_compute; discriminate|vm_compute; reflexivity]. Qed.
(** A directory in the prefix is lost in the references *)
Theorem C44_prefix_refuted : exists f' d', deck_write demo_text None (S_ "sub/") [] None ((fun _ => Missing), demo_deck 1) = ((f', d'), Ok tt) /\
  entry_of (data_of d' Fst) (S_ "EDFile") = Some (quoted (S_ "ED.dat")) /\ holds demo_text f' (S_ "new/sub/ED.dat") (data_of d' ElastoDyn) /\ f' (S_ "new/ED.dat") = Missing.
Proof. eexists. eexists. split; [vm_compute; reflexivity|]. split; [vm_compute; reflexivity|]. split; [|vm_compute; reflexivity]. eexists. split; vm_compute; reflexivity. Qed.
(** Without a structural module, ElastoDyn is written all the same, in a file called none in the working directory *)
Theorem C44_none_file_refuted : exists f' d', deck_write demo_text None [] [] None ((fun _ => Missing), demo_deck 0) = ((f', d'), Ok tt) /\ holds demo_text f' (S_ "none") (data_of d' ElastoDyn).
Proof. eexists. eexists. split; [vm_compute; reflexivity|]. eexists. split; vm_compute; reflexivity. Qed.
Print Assumptions C44_references_partial.
Print Assumptions C44_servo_refuted.
Print Assumptions C44_directory_refuted.
Print Assumptions C44_ice_refuted.
Print Assumptions C44_prefix_refuted.
Print Assumptions C44_none_file_refuted.
