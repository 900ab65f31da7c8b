(** C120: the data frame of the time data of a CACTUS simulation. *)
From Verif Require Import Py PyFacts TextFacts.
From Verif Require Import Cactus_Model.
From Verif Require Import Dict.
From Coq Require Import QArith Qround Qfield.
Local Open Scope nat_scope.

(** ** Specification *)
(** A column of a table, of which it has only one *)
Definition column (df : frame) (k : string) (v : list Q) : Prop := exists a b, df = a ++ (S_ k, v) :: b /\ ~ In (S_ k) (map fst a) /\ ~ In (S_ k) (map fst b).
Definition column_ (df : frame) (k : str) (v : list Q) : Prop := exists a b, df = a ++ (k, v) :: b /\ ~ In k (map fst a) /\ ~ In k (map fst b).
(** A number of the input files *)
Definition value (d : @dict gv) (k : string) (q : Q) : Prop := get d (S_ k) = Some (GNum q) \/ exists n, get d (S_ k) = Some (GInt n) /\ q = inject_Z (Z.of_nat n).
Local Open Scope Q_scope.
Definition foot : Q := 328084 # 100000.
(** The radius in metres: one without a geometry file; the area in square metres *)
Definition radius (o : cactus) (R : Q) : Prop :=
  get (geom o) (S_ "file") = Some GNone /\ R = 1 \/ exists p r, get (geom o) (S_ "file") = Some (GText p) /\ value (geom o) "refr" r /\ R = r / foot.
Definition area (o : cactus) (A : Q) : Prop := exists a r, value (geom o) "refar" a /\ value (geom o) "refr" r /\ A = a * r ^ 2 / foot ^ 2.
(** The simulation: rotations, steps per rotation, speed, tip speed ratio, density, radius, area, blades *)
Record setting := mk_setting { rots : Z; per_rot : Z; speed : Q; tsr : Q; density : Q; rad : Q; are : Q; nblade : nat }.
Section Spec.
Variables (pi : Q) (cos sin : Q -> Q).
Definition set_of (o : cactus) (s : setting) : Prop :=
  value (config o) "nr" (inject_Z (rots s)) /\ value (config o) "nti" (inject_Z (per_rot s)) /\ value (cases o) "rpm" (speed s) /\ value (cases o) "ut" (tsr s) /\
  (exists x, get (cases o) (S_ "ctexcrm") = Some x) /\ value (cases o) "rho" (density s) /\ radius o (rad s) /\ area o (are s) /\ get (geom o) (S_ "nblade") = Some (GInt (nblade s)) /\
  per_rot s <> 0%Z /\ ~ speed s == 0 /\ ~ tsr s == 0 /\ ~ pi == 0.
Section Setting.
Variable s : setting.
Definition omega : Q := speed s * 2 * pi / 60.
Definition t (i : nat) : Q := inject_Z (Z.of_nat i) * (2 * pi / omega / inject_Z (per_rot s)).
Definition angle (i : nat) : Q := t i * omega.
Definition wind : Q := omega * rad s / tsr s.
(** The density in kg/m^3 *)
Definition air : Q := density s * (12 # 10) / (2328 # 1000000).
Definition power_unit : Q := (1 # 2) * air * are s * wind ^ 3.
Definition force_unit : Q := (1 # 2) * air * are s * wind ^ 2.
Definition torque_unit : Q := force_unit * rad s.
Definition wrapped (x : Q) : Q := x - 360 * inject_Z (Qfloor (x / 360)).
(** The components along two axes turned by an angle *)
Definition along (a x z : Q) : Q := cos a * x - sin a * z.
Definition across (a x z : Q) : Q := - (cos a * z + sin a * x).
Definition at_ (v : list Q) (i : nat) : Q := nth i v 0.
(** The columns for the rotor, from the coefficients of power, torque and force *)
Definition rotor_table (P T X Y Z : list Q) : list (str * (nat -> Q)) :=
  [ (S_ "Time_[s]", t);
    (S_ "Azimuth_[deg]", fun i => wrapped (angle i * 180 / pi));
    (S_ "HWindSpeedX_[m/s]", fun _ => wind);
    (S_ "RtAeroCp_[-]", at_ P);
    (S_ "RtAeroCq_[-]", at_ T);
    (S_ "ZAeroFxg_[N]", fun i => at_ X i * force_unit);
    (S_ "ZAeroFyg_[N]", fun i => - at_ Z i * force_unit);
    (S_ "ZAeroFzg_[N]", fun i => at_ Y i * force_unit);
    (S_ "ZAeroMzg_[N-m]", fun i => at_ T i * torque_unit);
    (S_ "RtAeroFxh_[N]", fun i => at_ Y i * force_unit);
    (S_ "RtAeroFyh_[N]", fun i => along (angle i) (at_ X i) (at_ Z i) * force_unit);
    (S_ "RtAeroFzh_[N]", fun i => across (angle i) (at_ X i) (at_ Z i) * force_unit);
    (S_ "RtAeroMxh_[N-m]", fun i => at_ T i * torque_unit);
    (S_ "RtAeroPwr_[W]", fun i => at_ P (max i 1) * power_unit);
    (S_ "RotSpeed_[rpm]", fun _ => speed s) ].
Definition nth_blade (i : nat) (a b : string) : str := S_ a ++ str_of_N (N.of_nat i) ++ S_ b.
(** The columns for the blade of number [i] *)
Definition blade_table (i : nat) (X Y Z T : list Q) : list (str * (nat -> Q)) :=
  let a j := angle j - inject_Z (Z.of_nat (i - 1)) * (2 * pi / inject_Z (Z.of_nat (nblade s))) in
  [ (nth_blade i "Y" "AeroFxb_[N]", fun j => across (a j) (at_ X j) (at_ Z j) * force_unit);
    (nth_blade i "Y" "AeroFyb_[N]", fun j => along (a j) (at_ X j) (at_ Z j) * force_unit);
    (nth_blade i "Y" "AeroFzb_[N]", fun j => - at_ Y j * force_unit);
    (nth_blade i "Y" "AeroMxb_[N-m]", fun j => at_ T j * torque_unit);
    (nth_blade i "Y" "AeroPwr_[W]", fun j => at_ T (max j 1) * torque_unit * omega);
    (nth_blade i "Z" "AeroFxg_[N]", fun j => at_ X j * force_unit);
    (nth_blade i "Z" "AeroFyg_[N]", fun j => - at_ Z j * force_unit);
    (nth_blade i "Z" "AeroFzg_[N]", fun j => at_ Y j * force_unit);
    (nth_blade i "Z" "AeroMzg_[N-m]", fun j => at_ T j * torque_unit) ].
(** All the new columns: the rotor, every blade with the coefficients [B i], the wind *)
Definition new_table (P T X Y Z : list Q) (BX BY BZ BT : nat -> list Q) : list (str * (nat -> Q)) :=
  rotor_table P T X Y Z ++ flat_map (fun i => blade_table i (BX i) (BY i) (BZ i) (BT i)) (seq 1 (nblade s)) ++ [(S_ "Wind1VelX_[m/s]", fun _ => wind)].
End Setting.
End Spec.
(** A column of [n] rows holds the values given *)
Definition holds (n : nat) (v : list Q) (g : nat -> Q) : Prop := List.length v = n /\ forall i, (i < n)%nat -> nth i v 0 == g i.
Definition describes (n : nat) (c : str * list Q) (e : str * (nat -> Q)) : Prop := fst c = fst e /\ holds n (snd c) (snd e).
(** The coefficients in the time data *)
Definition coefficients (df : frame) (nb : nat) (P T X Y Z : list Q) (BX BY BZ BT : nat -> list Q) : Prop :=
  column df "Power Coeff. (-)" P /\ column df "Torque Coeff. (-)" T /\ column df "Fx Coeff. (-)" X /\ column df "Fy Coeff. (-)" Y /\ column df "Fz Coeff. (-)" Z /\
  forall i, (1 <= i <= nb)%nat -> column_ df (nth_blade i "Blade" " Fx Coeff. (-)") (BX i) /\ column_ df (nth_blade i "Blade" " Fy Coeff. (-)") (BY i) /\
    column_ df (nth_blade i "Blade" " Fz Coeff. (-)") (BZ i) /\ column_ df (nth_blade i "Blade" " Torque Coeff. (-)") (BT i).
Local Open Scope nat_scope.

(** ** Columns *)
Lemma filter_none k (l : frame) : ~ In k (map fst l) -> filter (fun c => str_eqb (fst c) k) l = [].
Proof. induction l as [|[k' v] l IH]; intro N; [reflexivity|]. cbn [filter fst]. destruct (str_eqb k' k) eqn:E; [apply str_eqb_eq in E; subst; destruct N; now left|]. apply IH. intro C. apply N. now right. Qed.
Lemma col_ok df k v : column_ df k v -> col df k = Ok v.
Proof. intros (a & b & -> & Na & Nb). unfold col. rewrite filter_app. cbn [filter fst]. now rewrite str_eqb_refl, (filter_none k a Na), (filter_none k b Nb). Qed.
Lemma col_before pre df k : ~ In k (map fst pre) -> col (pre ++ df) k = col df k.
Proof. intro N. unfold col. now rewrite filter_app, (filter_none k pre N). Qed.
Lemma column_in df k v : column_ df k v -> In k (map fst df).
Proof. intros (a & b & -> & _). rewrite map_app. apply in_or_app. right. now left. Qed.
Lemma column_len df k v n : column_ df k v -> Forall (fun c => List.length (snd c) = n) df -> List.length v = n.
Proof. intros (a & b & -> & _) F. apply Forall_app in F. destruct F as [_ F]. now inversion F. Qed.
Lemma nth_map_in (f : Q -> Q) v i : i < List.length v -> nth i (map f v) 0%Q = f (nth i v 0%Q).
Proof. revert i. induction v as [|x v IH]; intros [|i] H; cbn in *; try lia; [reflexivity|]. apply IH. lia. Qed.
Lemma zip_length f a b n : List.length a = n -> List.length b = n -> List.length (zip f a b) = n.
Proof. intros Ha Hb. unfold zip. rewrite map_length, combine_length. lia. Qed.
Lemma nth_zip f a : forall b i, i < List.length a -> i < List.length b -> nth i (zip f a b) 0%Q = f (nth i a 0%Q) (nth i b 0%Q).
Proof. induction a as [|x a IH]; intros [|y b] [|i] H1 H2; cbn in *; try lia; [reflexivity|]. apply IH; lia. Qed.

(** ** Sequences of insertions *)
Section Run.
Variables (n : nat) (df0 : frame).
Hypothesis rect : Forall (fun c => List.length (snd c) = n) df0.
Hypothesis some : df0 <> [].
Notation exps := (list (str * (nat -> Q))).
Definition St (pre : frame) (e : exps) : Prop := Forall2 (describes n) pre e.
Definition fine (e : exps) : Prop := NoDup (map fst e) /\ forall k, In k (map fst e) -> ~ In k (map fst df0).
Definition good (l : list step) (e e' : exps) : Prop := forall pre, St pre e -> exists pre', St pre' e' /\ forall rest, run (List.length pre) (pre ++ df0) (l ++ rest) = run (List.length pre') (pre' ++ df0) rest.
Lemma St_names pre e : St pre e -> map fst pre = map fst e.
Proof. induction 1 as [|c x pre e [H _] F IH]; [reflexivity|]. cbn. now rewrite H, IH. Qed.
Lemma St_rows pre e : St pre e -> rows (pre ++ df0) = n.
Proof. intros [|c x pre' e' [_ [H _]] F]; [|destruct c; exact H]. cbn [app]. destruct df0 as [|[k v] d]; [congruence|]. now inversion rect. Qed.
Lemma NoDup_left {A} (a b : list A) : NoDup (a ++ b) -> NoDup a.
Proof. induction a as [|x a IH]; intro H; [constructor|]. cbn in H. inversion H; subst. constructor; [|now apply IH]. intro C. apply H2. apply in_or_app. now left. Qed.
Lemma NoDup_app_disjoint {A} (a b : list A) : NoDup a -> NoDup b -> (forall x, In x a -> In x b -> False) -> NoDup (a ++ b).
Proof. induction 1 as [|x a N D IH]; intros Nb H; [exact Nb|]. cbn. constructor; [|apply IH; [exact Nb|intros y H1 H2; apply (H y); [now right|exact H2]]]. intro C. apply in_app_or in C. destruct C as [C|C]; [contradiction|]. apply (H x); [now left|exact C]. Qed.
Lemma fine_left a b : fine (a ++ b) -> fine a.
Proof. intros [N D]. rewrite map_app in *. split; [exact (NoDup_left _ _ N)|]. intros k H. apply D. apply in_or_app. now left. Qed.
Lemma good_nil e : good [] e e.
Proof. intros pre H. exists pre. split; [exact H|reflexivity]. Qed.
Lemma good_app l1 l2 e1 e2 e3 : good l1 e1 e2 -> good l2 e2 e3 -> good (l1 ++ l2) e1 e3.
Proof. intros G1 G2 pre H. destruct (G1 pre H) as (p2 & S2 & E2). destruct (G2 p2 S2) as (p3 & S3 & E3). exists p3. split; [exact S3|]. intro rest. now rewrite <- app_assoc, E2, E3. Qed.
Lemma good_ins k f g e : fine (e ++ [(k, g)]) -> (forall pre, St pre e -> exists v, f (pre ++ df0) = Ok v /\ holds n v g) -> good [Ins k f] e (e ++ [(k, g)]).
Proof.
  intros [ND DJ] H pre S. destruct (H pre S) as (v & E & L & V). rewrite map_app in ND, DJ. cbn [map fst] in ND, DJ.
  exists (pre ++ [(k, v)]). split; [apply Forall2_app; [exact S|repeat constructor; assumption]|]. intro rest. cbn [app run]. rewrite E. cbn [bind]. unfold insert.
  assert (X : existsb (str_eqb k) (names (pre ++ df0)) = false).
  { destruct (existsb _ _) eqn:D; [|reflexivity]. apply existsb_exists in D. destruct D as (k' & I & D). apply str_eqb_eq in D. subst k'. unfold names in I. rewrite map_app, (St_names _ _ S) in I. apply in_app_or in I. destruct I as [I|I].
    - apply NoDup_remove_2 in ND. rewrite app_nil_r in ND. contradiction.
    - exfalso. apply (DJ k); [apply in_or_app; right; now left|exact I]. }
  rewrite X, (St_rows _ _ S), L, Nat.eqb_refl. cbn [negb]. rewrite firstn_app, Nat.sub_diag, firstn_all, skipn_app, skipn_all, Nat.sub_diag. cbn [firstn skipn]. rewrite app_nil_r, app_length. cbn [List.length].
  rewrite Nat.add_1_r, <- app_assoc. reflexivity.
Qed.
Lemma set_none k v (l : frame) : ~ In k (map fst l) -> set_col k v l = l.
Proof. induction l as [|[k' w] l IH]; intro N; [reflexivity|]. cbn [set_col map fst]. destruct (str_eqb k' k) eqn:E; [apply str_eqb_eq in E; subst; destruct N; now left|]. f_equal. apply IH. intro C. apply N. now right. Qed.
Lemma good_fix k g a b : n >= 2 -> fine (a ++ (k, g) :: b) -> good [Fix k] (a ++ (k, g) :: b) (a ++ (k, fun i => g (max i 1)) :: b).
Proof.
  intros N2 [ND DJ] pre S. rewrite map_app in ND, DJ. cbn [map fst] in ND, DJ. apply Forall2_app_inv_r in S. destruct S as (pa & pb & Sa & Sb & ->). inversion Sb as [|[k' v] ? p' ? [Hk [L V]] Sb']; subst. cbn [fst snd] in *. subst k'.
  destruct v as [|x [|y r]]; [cbn in L; lia|cbn in L; lia|].
  exists (pa ++ (k, y :: y :: r) :: p'). split.
  - apply Forall2_app; [exact Sa|]. constructor; [|exact Sb']. split; [reflexivity|]. cbn [snd]. split; [exact L|]. intros [|i] Hi; cbn [nth Nat.max]; [apply (V 1); lia|]. rewrite Nat.max_0_r. apply (V (S i)). exact Hi.
  - intro rest. cbn [app run]. assert (Na : ~ In k (map fst pa)) by (rewrite (St_names _ _ Sa); intro C; apply NoDup_remove_2 in ND; apply ND; apply in_or_app; now left).
    assert (Nb : ~ In k (map fst p')) by (rewrite (St_names _ _ Sb'); intro C; apply NoDup_remove_2 in ND; apply ND; apply in_or_app; now right).
    assert (Nd : ~ In k (map fst df0)) by (apply DJ; apply in_or_app; right; now left).
    rewrite (col_ok _ k (x :: y :: r)).
    + cbn [bind second_first]. unfold set_col. rewrite !map_app. cbn [map fst]. rewrite str_eqb_refl. fold (set_col k (y :: y :: r) pa). fold (set_col k (y :: y :: r) p'). fold (set_col k (y :: y :: r) df0).
      rewrite !set_none by assumption. rewrite !app_length. reflexivity.
    + exists pa, (p' ++ df0). rewrite <- app_assoc. repeat split; [exact Na|]. rewrite map_app. intro C. apply in_app_or in C. tauto.
Qed.
(** What the functions find *)
Lemma find_col pre e k v : fine e -> St pre e -> column_ df0 k v -> col (pre ++ df0) k = Ok v.
Proof. intros [_ D] S C. rewrite col_before; [now apply col_ok|]. rewrite (St_names _ _ S). intro I. exact (D k I (column_in _ _ _ C)). Qed.
End Run.

Section Time.
Variables (pi : Q) (cos sin : Q -> Q) (o : cactus) (s : setting).
Hypothesis Hset : set_of pi o s.
Lemma number_ok d k q : value d k q -> num_item d k = Ok q.
Proof. unfold num_item, item. intros [-> | (m & -> & ->)]; reflexivity. Qed.
Lemma pydiv_ok a b : ~ (b == 0)%Q -> pydiv a b = Ok (a / b)%Q.
Proof. intro H. unfold pydiv. destruct (Qeq_bool b 0) eqn:E; [apply Qeq_bool_iff in E; contradiction|reflexivity]. Qed.
Lemma mult_nonzero a b : ~ (a == 0)%Q -> ~ (b == 0)%Q -> ~ (a * b == 0)%Q.
Proof. intros H1 H2 E. apply Qmult_integral in E. tauto. Qed.
Lemma omega_nonzero : ~ (omega pi s == 0)%Q.
Proof.
  destruct Hset as (_ & _ & _ & _ & _ & _ & _ & _ & _ & _ & Hs & _ & Hp). unfold omega. apply mult_nonzero; [|intro E; discriminate E]. apply mult_nonzero; [|exact Hp]. apply mult_nonzero; [exact Hs|intro E; discriminate E].
Qed.
Lemma omega_ok : omega_of pi o = Ok (omega pi s).
Proof. destruct Hset as (_ & _ & H & _). unfold omega_of. now rewrite (number_ok _ _ _ H). Qed.
Lemma per_nonzero : ~ (inject_Z (per_rot s) == 0)%Q.
Proof. destruct Hset as (_ & _ & _ & _ & _ & _ & _ & _ & _ & H & _). intro E. apply H. unfold Qeq in E. cbn in E. lia. Qed.
Lemma dt_ok : dt_of pi o = Ok (2 * pi / omega pi s / inject_Z (per_rot s))%Q.
Proof.
  destruct Hset as (H1 & H2 & _). unfold dt_of. rewrite (number_ok _ _ _ H1). cbn [bind]. rewrite (number_ok _ _ _ H2). cbn [bind]. rewrite omega_ok. cbn [bind].
  rewrite pydiv_ok by apply omega_nonzero. cbn [bind]. apply pydiv_ok, per_nonzero.
Qed.
Lemma time_ok : time_of pi o = Ok (map (t pi s) (seq 0 (Z.to_nat (rots s * per_rot s)))).
Proof.
  pose proof dt_ok as D. destruct Hset as (H1 & H2 & _). unfold time_of. rewrite (number_ok _ _ _ H1). cbn [bind]. rewrite (number_ok _ _ _ H2). cbn [bind]. rewrite D. cbn [bind].
  change (inject_Z (rots s) * inject_Z (per_rot s))%Q with (inject_Z (rots s * per_rot s)). rewrite Qceiling_Z. reflexivity.
Qed.
Lemma R_ok : R_of o = Ok (rad s).
Proof.
  destruct Hset as (_ & _ & _ & _ & _ & _ & HR & _). unfold R_of, item. destruct HR as [[-> ->]|(p & r & -> & Hr & ->)]; [reflexivity|]. cbn [bind]. now rewrite (number_ok _ _ _ Hr).
Qed.
Lemma A_ok : A_of o = Ok (are s).
Proof.
  destruct Hset as (_ & _ & _ & _ & _ & _ & _ & (a & r & Ha & Hr & ->) & _). unfold A_of. pose proof (number_ok _ _ _ Hr) as Er. unfold num_item in Er.
  unfold item at 1. destruct Ha as [-> | (m & -> & ->)]; cbn [bind number]; unfold num_item; rewrite Er; reflexivity.
Qed.
Lemma U_ok : U_of pi o = Ok (wind pi s).
Proof.
  pose proof R_ok as ER. destruct Hset as (_ & _ & _ & Hu & _ & _ & HR & _ & _ & _ & _ & Nu & _). unfold U_of. rewrite omega_ok. cbn [bind]. rewrite ER. cbn [bind]. rewrite (number_ok _ _ _ Hu). cbn [bind]. unfold item.
  destruct HR as [[-> _]|(p & r & -> & _)]; cbn [bind]; [now apply pydiv_ok|]. destruct (Qeq_bool (tsr s) 0) eqn:E; [apply Qeq_bool_iff in E; contradiction|reflexivity].
Qed.
Lemma firstn_map_seq n m : n <= m -> firstn n (map (t pi s) (seq 0 m)) = map (t pi s) (seq 0 n).
Proof. intro H. rewrite firstn_map. f_equal. replace m with (n + (m - n)) by lia. rewrite seq_app, firstn_app, seq_length, Nat.sub_diag, firstn_O, app_nil_r. rewrite <- (seq_length n 0) at 1. apply firstn_all. Qed.
Lemma scales_ok n : n <= Z.to_nat (rots s * per_rot s) ->
  scales_of pi o n = Ok (mk_scales (map (t pi s) (seq 0 n)) (map (angle pi s) (seq 0 n)) (wind pi s) (speed s) (omega pi s) (power_unit pi s) (force_unit pi s) (torque_unit pi s)).
Proof.
  intro L. pose proof time_ok as ET. pose proof omega_ok as EO. pose proof R_ok as ER. pose proof A_ok as EA. pose proof U_ok as EU. destruct Hset as (H1 & H2 & H3 & H4 & (x & H5) & H6 & _).
  unfold scales_of. rewrite (number_ok _ _ _ H1). cbn [bind]. rewrite (number_ok _ _ _ H2). cbn [bind]. rewrite (number_ok _ _ _ H4). cbn [bind]. unfold item at 1. rewrite H5. cbn [bind]. rewrite (number_ok _ _ _ H6). cbn [bind]. cbv zeta.
  rewrite ET. cbn [bind]. rewrite EO. cbn [bind]. rewrite ER. cbn [bind]. rewrite EU. cbn [bind]. rewrite EA. cbn [bind]. rewrite (number_ok _ _ _ H3). cbn [bind]. rewrite map_length, seq_length.
  assert (E : (if n <? Z.to_nat (rots s * per_rot s) then firstn n (map (t pi s) (seq 0 (Z.to_nat (rots s * per_rot s)))) else map (t pi s) (seq 0 (Z.to_nat (rots s * per_rot s)))) = map (t pi s) (seq 0 n)).
  { destruct (Nat.ltb_spec n (Z.to_nat (rots s * per_rot s))); [now apply firstn_map_seq|]. now replace n with (Z.to_nat (rots s * per_rot s)) by lia. }
  rewrite E, map_map. reflexivity.
Qed.

Variables (df0 : frame) (n : nat).
Hypothesis rect : Forall (fun c => List.length (snd c) = n) df0.
Hypothesis some : df0 <> [].
Notation good := (good n df0).
Notation fine := (fine df0).
Lemma holds_map_seq (g h : nat -> Q) : (forall i, g i == h i)%Q -> holds n (map g (seq 0 n)) h.
Proof. intro H. split; [now rewrite map_length, seq_length|]. intros i Hi. rewrite (nth_indep _ 0%Q (g 0)) by (now rewrite map_length, seq_length). rewrite map_nth, seq_nth by exact Hi. apply H. Qed.
Lemma holds_ones {X} (l : list X) x : List.length l = n -> holds n (map (fun _ => x) l) (fun _ => x).
Proof. intro L. split; [now rewrite map_length|]. intros i Hi. rewrite <- L in Hi. clear L. revert i Hi. induction l as [|a l IH]; intros [|i] Hi; cbn in *; try lia; [reflexivity|]. apply IH. lia. Qed.
Lemma holds_map f v (g : nat -> Q) : List.length v = n -> (forall i, f (nth i v 0) == g i)%Q -> holds n (map f v) g.
Proof. intros L H. split; [now rewrite map_length|]. intros i Hi. rewrite nth_map_in by lia. apply H. Qed.
Lemma at_map (g : nat -> Q) i : i < n -> nth i (map g (seq 0 n)) 0%Q = g i.
Proof. intro Hi. rewrite (nth_indep _ 0%Q (g 0)) by (now rewrite map_length, seq_length). now rewrite map_nth, seq_nth. Qed.
Lemma holds_along a X Z F : List.length X = n -> List.length Z = n ->
  holds n (map (fun x => x * F)%Q (zip Qminus (zip (fun u x => cos u * x)%Q (map a (seq 0 n)) X) (zip (fun u x => sin u * x)%Q (map a (seq 0 n)) Z))) (fun i => along cos sin (a i) (at_ X i) (at_ Z i) * F)%Q.
Proof.
  intros LX LZ. assert (LA : List.length (map a (seq 0 n)) = n) by now rewrite map_length, seq_length. split; [rewrite map_length; apply zip_length; now apply zip_length|]. intros i Hi.
  rewrite nth_map_in by (rewrite (zip_length _ _ _ n); [exact Hi| |]; now apply zip_length). rewrite nth_zip by (rewrite (zip_length _ _ _ n); assumption). rewrite !nth_zip by lia. rewrite at_map by exact Hi. reflexivity.
Qed.
Lemma holds_across a X Z F : List.length X = n -> List.length Z = n ->
  holds n (map (fun x => - x * F)%Q (zip Qplus (zip (fun u x => cos u * x)%Q (map a (seq 0 n)) Z) (zip (fun u x => sin u * x)%Q (map a (seq 0 n)) X))) (fun i => across cos sin (a i) (at_ X i) (at_ Z i) * F)%Q.
Proof.
  intros LX LZ. assert (LA : List.length (map a (seq 0 n)) = n) by now rewrite map_length, seq_length. split; [rewrite map_length; apply zip_length; now apply zip_length|]. intros i Hi.
  rewrite nth_map_in by (rewrite (zip_length _ _ _ n); [exact Hi| |]; now apply zip_length). rewrite nth_zip by (rewrite (zip_length _ _ _ n); assumption). rewrite !nth_zip by lia. rewrite at_map by exact Hi. reflexivity.
Qed.
Lemma len k v : column_ df0 k v -> List.length v = n.
Proof. intro C. exact (column_len _ _ _ _ C rect). Qed.
Lemma good_take k k0 v f g e : fine (e ++ [(k, g)]) -> column_ df0 k0 v -> (forall df, col df k0 = Ok v -> exists w, f df = Ok w /\ holds n w g) -> good [Ins k f] e (e ++ [(k, g)]).
Proof. intros F C H. apply good_ins; try assumption. intros pre S. apply H. exact (find_col n df0 pre e k0 v (fine_left _ _ _ F) S C). Qed.
Lemma good_take2 k k0 v k1 v1 f g e : fine (e ++ [(k, g)]) -> column_ df0 k0 v -> column_ df0 k1 v1 -> (forall df, col df k0 = Ok v -> col df k1 = Ok v1 -> exists w, f df = Ok w /\ holds n w g) -> good [Ins k f] e (e ++ [(k, g)]).
Proof. intros F C C1 H. apply good_ins; try assumption. intros pre S. apply H; [exact (find_col n df0 pre e k0 v (fine_left _ _ _ F) S C)|exact (find_col n df0 pre e k1 v1 (fine_left _ _ _ F) S C1)]. Qed.
Lemma good_const k w g e : fine (e ++ [(k, g)]) -> holds n w g -> good [Ins k (fun _ => Ok w)] e (e ++ [(k, g)]).
Proof. intros F H. apply good_ins; try assumption. intros pre S. exists w. now split. Qed.
Lemma good_scaled k k0 v x e : fine (e ++ [(k, fun i => at_ v i * x)%Q]) -> column_ df0 (S_ k0) v -> good [Ins k (scaled k0 x)] e (e ++ [(k, fun i => at_ v i * x)%Q]).
Proof. intros F C. apply (good_take k (S_ k0) v); try assumption. intros df E. unfold scaled. rewrite E. cbn [bind]. eexists. split; [reflexivity|]. apply holds_map; [exact (len _ _ C)|reflexivity]. Qed.
Lemma good_minus k k0 v x e : fine (e ++ [(k, fun i => - at_ v i * x)%Q]) -> column_ df0 (S_ k0) v -> good [Ins k (minus k0 x)] e (e ++ [(k, fun i => - at_ v i * x)%Q]).
Proof. intros F C. apply (good_take k (S_ k0) v); try assumption. intros df E. unfold minus. rewrite E. cbn [bind]. eexists. split; [reflexivity|]. apply holds_map; [exact (len _ _ C)|reflexivity]. Qed.
Lemma good_scaled_b k i k0 v x e : fine (e ++ [(k, fun i => at_ v i * x)%Q]) -> column_ df0 (nth_blade i "Blade" k0) v -> good [Ins k (scaled_b i k0 x)] e (e ++ [(k, fun i => at_ v i * x)%Q]).
Proof. intros F C. apply (good_take k (nth_blade i "Blade" k0) v); try assumption. intros df E. unfold scaled_b, bcol, bl. unfold nth_blade in E. rewrite E. cbn [bind]. eexists. split; [reflexivity|]. apply holds_map; [exact (len _ _ C)|reflexivity]. Qed.
Lemma good_minus_b k i k0 v x e : fine (e ++ [(k, fun i => - at_ v i * x)%Q]) -> column_ df0 (nth_blade i "Blade" k0) v -> good [Ins k (minus_b i k0 x)] e (e ++ [(k, fun i => - at_ v i * x)%Q]).
Proof. intros F C. apply (good_take k (nth_blade i "Blade" k0) v); try assumption. intros df E. unfold minus_b, bcol, bl. unfold nth_blade in E. rewrite E. cbn [bind]. eexists. split; [reflexivity|]. apply holds_map; [exact (len _ _ C)|reflexivity]. Qed.
Lemma good_along k a kx X kz Z F e : fine (e ++ [(k, fun i => along cos sin (a i) (at_ X i) (at_ Z i) * F)%Q]) -> column_ df0 kx X -> column_ df0 kz Z ->
  good [Ins k (turned_y cos sin (map a (seq 0 n)) kx kz F)] e (e ++ [(k, fun i => along cos sin (a i) (at_ X i) (at_ Z i) * F)%Q]).
Proof. intros Fi CX CZ. apply (good_take2 k kx X kz Z); try assumption. intros df EX EZ. unfold turned_y. rewrite EX. cbn [bind]. rewrite EZ. cbn [bind]. eexists. split; [reflexivity|]. apply holds_along; eapply len; eassumption. Qed.
Lemma good_across k a kx X kz Z F e : fine (e ++ [(k, fun i => across cos sin (a i) (at_ X i) (at_ Z i) * F)%Q]) -> column_ df0 kx X -> column_ df0 kz Z ->
  good [Ins k (turned_z cos sin (map a (seq 0 n)) kx kz F)] e (e ++ [(k, fun i => across cos sin (a i) (at_ X i) (at_ Z i) * F)%Q]).
Proof. intros Fi CX CZ. apply (good_take2 k kx X kz Z); try assumption. intros df EX EZ. unfold turned_z. rewrite EZ. cbn [bind]. rewrite EX. cbn [bind]. eexists. split; [reflexivity|]. apply holds_across; eapply len; eassumption. Qed.
Lemma good_cons x l e1 e2 e3 : good [x] e1 e2 -> good l e2 e3 -> good (x :: l) e1 e3.
Proof. exact (good_app n df0 [x] l e1 e2 e3). Qed.
Lemma fine_prefix e e' : fine e -> (exists r, map fst e = map fst e' ++ r) -> fine e'.
Proof. intros [N D] [r E]. rewrite E in N, D. split; [exact (NoDup_left _ _ N)|]. intros k H. apply D. apply in_or_app. now left. Qed.
Variables (P T X Y Z : list Q) (BX BY BZ BT : nat -> list Q).
Hypothesis coefs : coefficients df0 (nblade s) P T X Y Z BX BY BZ BT.
Local Ltac pre_ H := eapply (fine_prefix _ _ H); eexists; cbn [app map fst rotor_table]; reflexivity.
Lemma fourteen_good : fine (rotor_table pi cos sin s P T X Y Z) ->
  good (firstn 14 (rotor_steps pi cos sin (map (t pi s) (seq 0 n)) (map (angle pi s) (seq 0 n)) (wind pi s) (speed s) (power_unit pi s) (force_unit pi s) (torque_unit pi s))) []
    (firstn 13 (rotor_table pi cos sin s P T X Y Z) ++ [(S_ "RtAeroPwr_[W]", fun i => at_ P i * power_unit pi s)%Q]).
Proof.
  intro F. destruct coefs as (CP & CT & CX & CY & CZ & _). assert (L : List.length (map (t pi s) (seq 0 n)) = n) by now rewrite map_length, seq_length.
  unfold rotor_steps. cbn [firstn].
  eapply good_cons; [apply (good_const _ _ (t pi s)); [pre_ F|apply holds_map_seq; reflexivity]|].
  eapply good_cons; [apply (good_const _ _ (fun i => wrapped (angle pi s i * 180 / pi))%Q); [pre_ F|rewrite map_map; apply holds_map_seq; reflexivity]|].
  eapply good_cons; [apply (good_const _ _ (fun _ => wind pi s)); [pre_ F|now apply holds_ones]|].
  eapply good_cons; [apply (good_take _ (S_ "Power Coeff. (-)") P _ (at_ P)); [pre_ F|exact CP|intros df E; exists P; split; [exact E|split; [exact (len _ _ CP)|reflexivity]]]|].
  eapply good_cons; [apply (good_take _ (S_ "Torque Coeff. (-)") T _ (at_ T)); [pre_ F|exact CT|intros df E; exists T; split; [exact E|split; [exact (len _ _ CT)|reflexivity]]]|].
  eapply good_cons; [apply (good_scaled _ _ X); [pre_ F|exact CX]|].
  eapply good_cons; [apply (good_minus _ _ Z); [pre_ F|exact CZ]|].
  eapply good_cons; [apply (good_scaled _ _ Y); [pre_ F|exact CY]|].
  eapply good_cons; [apply (good_scaled _ _ T); [pre_ F|exact CT]|].
  eapply good_cons; [apply (good_scaled _ _ Y); [pre_ F|exact CY]|].
  eapply good_cons; [apply (good_along _ (angle pi s) _ X _ Z); [pre_ F|exact CX|exact CZ]|].
  eapply good_cons; [apply (good_across _ (angle pi s) _ X _ Z); [pre_ F|exact CX|exact CZ]|].
  eapply good_cons; [apply (good_scaled _ _ T); [pre_ F|exact CT]|].
  match goal with |- good _ ?e ?r => change r with (e ++ [(S_ "RtAeroPwr_[W]", fun i => at_ P i * power_unit pi s)%Q]) end.
  apply (good_scaled _ _ P); [pre_ F|exact CP].
Qed.
Hypothesis two : n >= 2.
Lemma rotor_good : fine (rotor_table pi cos sin s P T X Y Z) ->
  good (rotor_steps pi cos sin (map (t pi s) (seq 0 n)) (map (angle pi s) (seq 0 n)) (wind pi s) (speed s) (power_unit pi s) (force_unit pi s) (torque_unit pi s)) [] (rotor_table pi cos sin s P T X Y Z).
Proof.
  intro F. pose proof (fourteen_good F) as G. match goal with |- good ?l _ _ => change l with (firstn 14 l ++ [Fix (S_ "RtAeroPwr_[W]"); Ins (S_ "RotSpeed_[rpm]") (fun _ => Ok (ones (map (t pi s) (seq 0 n)) (speed s)))]) end.
  eapply good_app; [exact G|]. eapply good_cons; [apply (good_fix n df0 _ _ _ []); [exact two|pre_ F]|].
  match goal with |- good _ ?e _ => change (rotor_table pi cos sin s P T X Y Z) with (e ++ [(S_ "RotSpeed_[rpm]", fun _ : nat => speed s)]) end.
  apply (good_const _ _ (fun _ => speed s)); [pre_ F|]. apply holds_ones. now rewrite map_length, seq_length.
Qed.
Local Ltac preb H := eapply (fine_prefix _ _ H); eexists; rewrite !map_app, <- !app_assoc; f_equal; unfold blade_table; cbv zeta; cbn [map fst app]; reflexivity.
Lemma nth_map_seq (g : nat -> Q) m i : i < m -> nth i (map g (seq 0 m)) 0%Q = g i.
Proof. intro Hi. rewrite (nth_indep _ 0%Q (g 0)) by (now rewrite map_length, seq_length). now rewrite map_nth, seq_nth. Qed.
Lemma azimuth_at i : i < nblade s -> nth i (azimuths pi (nblade s)) 0%Q = (inject_Z (Z.of_nat i) * (2 * pi / inject_Z (Z.of_nat (nblade s))))%Q.
Proof. intro H. unfold azimuths. exact (nth_map_seq (fun i => inject_Z (Z.of_nat i) * (2 * pi / inject_Z (Z.of_nat (nblade s))))%Q _ _ H). Qed.
Lemma blade_good e i : 1 <= i <= nblade s -> fine (e ++ blade_table pi cos sin s i (BX i) (BY i) (BZ i) (BT i)) ->
  good (blade_steps cos sin (map (angle pi s) (seq 0 n)) (force_unit pi s) (torque_unit pi s) (omega pi s) (nth (i - 1) (azimuths pi (nblade s)) 0%Q) i) e (e ++ blade_table pi cos sin s i (BX i) (BY i) (BZ i) (BT i)).
Proof.
  intros Hi F. destruct coefs as (_ & _ & _ & _ & _ & CB). destruct (CB i Hi) as (CX & CY & CZ & CT). unfold blade_steps. cbv zeta. rewrite map_map. rewrite azimuth_at by lia.
  set (a := fun x => (angle pi s x - inject_Z (Z.of_nat (i - 1)) * (2 * pi / inject_Z (Z.of_nat (nblade s))))%Q).
  eapply good_cons; [apply (good_across _ a _ (BX i) _ (BZ i)); [preb F|exact CX|exact CZ]|].
  eapply good_cons; [apply (good_along _ a _ (BX i) _ (BZ i)); [preb F|exact CX|exact CZ]|].
  eapply good_cons; [apply (good_minus_b _ _ _ (BY i)); [preb F|exact CY]|].
  eapply good_cons; [apply (good_scaled_b _ _ _ (BT i)); [preb F|exact CT]|].
  eapply good_cons; [apply (good_take _ (nth_blade i "Blade" " Torque Coeff. (-)") (BT i) _ (fun j => at_ (BT i) j * torque_unit pi s * omega pi s)%Q); [preb F|exact CT|]|].
  { intros df E. unfold scaled_b, bcol, bl. unfold nth_blade in E. rewrite E. cbn [bind]. eexists. split; [reflexivity|]. rewrite map_map. apply holds_map; [exact (len _ _ CT)|reflexivity]. }
  eapply good_cons; [apply (good_scaled_b _ _ _ (BX i)); [preb F|exact CX]|].
  eapply good_cons; [apply (good_minus_b _ _ _ (BZ i)); [preb F|exact CZ]|].
  eapply good_cons; [apply (good_scaled_b _ _ _ (BY i)); [preb F|exact CY]|].
  eapply good_cons; [apply (good_scaled_b _ _ _ (BT i)); [preb F|exact CT]|].
  repeat rewrite <- app_assoc. cbn [app]. unfold blade_table. cbv zeta. fold a.
  match goal with |- good _ (e ++ ?x1 :: ?x2 :: ?x3 :: ?x4 :: ?x5 :: ?r) _ => replace (e ++ x1 :: x2 :: x3 :: x4 :: x5 :: r) with ((e ++ [x1; x2; x3; x4]) ++ x5 :: r) by (rewrite <- app_assoc; reflexivity) end.
  match goal with |- good _ _ (e ++ ?x1 :: ?x2 :: ?x3 :: ?x4 :: ?x5 :: ?r) => replace (e ++ x1 :: x2 :: x3 :: x4 :: x5 :: r) with ((e ++ [x1; x2; x3; x4]) ++ x5 :: r) by (rewrite <- app_assoc; reflexivity) end.
  apply (good_fix n df0); [exact two|]. preb F.
Qed.
Lemma blades_good e l : (forall i, In i l -> 1 <= i <= nblade s) -> fine (e ++ flat_map (fun i => blade_table pi cos sin s i (BX i) (BY i) (BZ i) (BT i)) l) ->
  good (flat_map (fun i => blade_steps cos sin (map (angle pi s) (seq 0 n)) (force_unit pi s) (torque_unit pi s) (omega pi s) (nth (i - 1) (azimuths pi (nblade s)) 0%Q) i) l) e (e ++ flat_map (fun i => blade_table pi cos sin s i (BX i) (BY i) (BZ i) (BT i)) l).
Proof.
  revert e. induction l as [|i l IH]; intros e Hl F; [cbn [flat_map]; rewrite app_nil_r; apply good_nil|]. cbn [flat_map] in *. rewrite app_assoc in *. eapply good_app.
  - apply blade_good; [apply Hl; now left|exact (fine_left _ _ _ F)].
  - apply IH; [intros j Hj; apply Hl; now right|exact F].
Qed.
(** The new names are all different *)
Lemma digits_split a b x y : forallb is_digit a = true -> forallb is_digit b = true -> a ++ "A"%char :: x = b ++ "A"%char :: y -> a = b /\ x = y.
Proof.
  revert b. induction a as [|c a IH]; intros [|d b] Ha Hb E; cbn in *.
  - now injection E.
  - injection E as <- _. discriminate.
  - injection E as -> _. discriminate.
  - apply andb_prop in Ha, Hb. injection E as -> E. destruct (IH b (proj2 Ha) (proj2 Hb) E) as [-> ->]. now split.
Qed.
Lemma nth_blade_inj i j x y a b : nth_blade i x (String "A" a) = nth_blade j y (String "A" b) -> String.length x = 1 -> String.length y = 1 -> i = j /\ x = y /\ a = b.
Proof.
  intros E Lx Ly. destruct x as [|cx [|]]; try discriminate. destruct y as [|cy [|]]; try discriminate. unfold nth_blade, S_ in E. cbn [list_ascii_of_string app] in E. injection E as -> E.
  destruct (digits_split _ _ _ _ (str_of_N_digits _) (str_of_N_digits _) E) as [E1 E2]. split; [|split; [reflexivity|]].
  - apply (f_equal N_of_str) in E1. rewrite !N_of_str_of_N in E1. injection E1 as E1. lia.
  - rewrite <- (string_of_list_ascii_of_string a), <- (string_of_list_ascii_of_string b). now rewrite E2.
Qed.
Lemma blade_in k i : In k (map fst (blade_table pi cos sin s i (BX i) (BY i) (BZ i) (BT i))) -> exists x a, k = nth_blade i x (String "A" a) /\ (x = "Y"%string \/ x = "Z"%string).
Proof. unfold blade_table. cbv zeta. cbn [map fst In]. intro H. repeat (destruct H as [<-|H]; [eexists _, _; split; [reflexivity|auto]|]). contradiction. Qed.
Lemma blade_nodup i : NoDup (map fst (blade_table pi cos sin s i (BX i) (BY i) (BZ i) (BT i))).
Proof.
  unfold blade_table. cbv zeta. cbn [map fst]. repeat constructor; cbn [In]; intro H; repeat (destruct H as [H|H]; [apply nth_blade_inj in H; try reflexivity; destruct H as (_ & H1 & H2); discriminate|]); exact H.
Qed.
Lemma blades_nodup l : NoDup l -> NoDup (map fst (flat_map (fun i => blade_table pi cos sin s i (BX i) (BY i) (BZ i) (BT i)) l)) /\
  forall k, In k (map fst (flat_map (fun i => blade_table pi cos sin s i (BX i) (BY i) (BZ i) (BT i)) l)) -> exists i x a, In i l /\ k = nth_blade i x (String "A" a) /\ (x = "Y"%string \/ x = "Z"%string).
Proof.
  induction 1 as [|i l N D [IH1 IH2]]; cbn [flat_map map]; [split; [constructor|contradiction]|]. rewrite map_app. split.
  - apply NoDup_app_disjoint; [apply blade_nodup|exact IH1|]. intros k H1 H2. destruct (blade_in _ _ H1) as (x & a & -> & Hx). destruct (IH2 _ H2) as (j & y & b & Hj & E & Hy).
    apply nth_blade_inj in E; [destruct E as (-> & _); contradiction|destruct Hx as [-> | ->]; reflexivity|destruct Hy as [-> | ->]; reflexivity].
  - intros k H. apply in_app_or in H. destruct H as [H|H]; [destruct (blade_in _ _ H) as (x & a & E & Hx); exists i, x, a; split; [now left|now split]|]. destruct (IH2 _ H) as (j & x & a & Hj & E); exists j, x, a; split; [now right|exact E].
Qed.
Lemma not_rotor i x a : x = "Y"%string \/ x = "Z"%string -> ~ In (nth_blade i x (String "A" a)) (map fst (rotor_table pi cos sin s P T X Y Z)) /\ nth_blade i x (String "A" a) <> S_ "Wind1VelX_[m/s]".
Proof.
  intro Hx. assert (D : exists d r, str_of_N (N.of_nat i) = d :: r /\ is_digit d = true).
  { pose proof (str_of_N_nonempty (N.of_nat i)) as NE. pose proof (str_of_N_digits (N.of_nat i)) as DG. destruct (str_of_N (N.of_nat i)) as [|d r]; [congruence|]. cbn in DG. apply andb_prop in DG. exists d, r. now split. }
  destruct D as (d & r & E & Dd). unfold nth_blade. rewrite E. split.
  - cbn [rotor_table map fst In]. intro H. repeat (destruct H as [H|H]; [destruct Hx as [-> | ->]; unfold S_ in H; cbn [list_ascii_of_string app] in H; try discriminate H; injection H as <- _; discriminate Dd|]). exact H.
  - destruct Hx as [-> | ->]; discriminate.
Qed.
Lemma new_nodup : NoDup (map fst (new_table pi cos sin s P T X Y Z BX BY BZ BT)).
Proof.
  unfold new_table. rewrite !map_app. destruct (blades_nodup (seq 1 (nblade s)) (seq_NoDup _ _)) as [N1 N2]. apply NoDup_app_disjoint.
  - cbn [rotor_table map fst]. repeat (constructor; [cbn [In]; intuition discriminate|]). constructor.
  - apply NoDup_app_disjoint; [exact N1|constructor; [intros []|constructor]|]. intros k H1 [<-|[]]. destruct (N2 _ H1) as (i & x & a & _ & E & Hx). symmetry in E. exact (proj2 (not_rotor i x a Hx) E).
  - intros k H1 H2. apply in_app_or in H2. destruct H2 as [H2|[<-|[]]].
    + destruct (N2 _ H2) as (i & x & a & _ & -> & Hx). exact (proj1 (not_rotor i x a Hx) H1).
    + cbn [rotor_table map fst In] in H1. intuition discriminate.
Qed.
Notation all := (new_table pi cos sin s P T X Y Z BX BY BZ BT).
Hypothesis fresh : forall k, In k (map fst df0) -> ~ In k (map fst all).
Lemma all_fine : fine all.
Proof. split; [exact new_nodup|]. intros k H C. exact (fresh k C H). Qed.
Lemma rows_n : rows df0 = n.
Proof. destruct df0 as [|[k v] d]; [congruence|]. now inversion rect. Qed.
Hypothesis enough : n <= Z.to_nat (rots s * per_rot s).
Lemma time_good : exists pre, Forall2 (describes n) pre all /\ time_data pi cos sin o df0 = (pre ++ df0, Ok (List.length pre)).
Proof.
  pose proof all_fine as F. unfold new_table in F. pose proof (fine_left _ _ _ F) as FR. rewrite app_assoc in F. pose proof (fine_left _ _ _ F) as FB. unfold time_data. rewrite rows_n, (scales_ok n enough). cbn [s_time s_theta s_U s_rpm s_P0 s_F0 s_Q0 s_w].
  destruct (rotor_good FR [] (Forall2_nil _)) as (p1 & S1 & E1). specialize (E1 []). rewrite app_nil_r in E1. cbn [List.length app run] in E1. rewrite E1.
  assert (BN : blade_number o = Ok (nblade s)). { destruct Hset as (_ & _ & _ & _ & _ & _ & _ & _ & H & _). unfold blade_number, item. now rewrite H. }
  rewrite BN. pose proof (blades_good _ (seq 1 (nblade s)) (fun i Hi => ltac:(apply in_seq in Hi; lia)) FB) as GB. destruct (GB p1 S1) as (p2 & S2 & E2).
  assert (GW : good [Ins (S_ "Wind1VelX_[m/s]") (fun _ => Ok (ones (map (t pi s) (seq 0 n)) (wind pi s)))] (rotor_table pi cos sin s P T X Y Z ++ flat_map (fun i => blade_table pi cos sin s i (BX i) (BY i) (BZ i) (BT i)) (seq 1 (nblade s)))
    ((rotor_table pi cos sin s P T X Y Z ++ flat_map (fun i => blade_table pi cos sin s i (BX i) (BY i) (BZ i) (BT i)) (seq 1 (nblade s))) ++ [(S_ "Wind1VelX_[m/s]", fun _ => wind pi s)])).
  { apply good_const; [exact F|]. apply holds_ones. now rewrite map_length, seq_length. }
  destruct (GW p2 S2) as (p3 & S3 & E3). specialize (E3 []). cbn [run] in E3. rewrite app_nil_r in E3. exists p3. split; [unfold new_table; rewrite app_assoc; exact S3|].
  assert (EQ : flat_map (fun i => blade_steps cos sin (map (angle pi s) (seq 0 n)) (force_unit pi s) (torque_unit pi s) (omega pi s) (nth i (azimuths pi (nblade s)) 0%Q) (i + 1)) (seq 0 (nblade s)) =
    flat_map (fun i => blade_steps cos sin (map (angle pi s) (seq 0 n)) (force_unit pi s) (torque_unit pi s) (omega pi s) (nth (i - 1) (azimuths pi (nblade s)) 0%Q) i) (seq 1 (nblade s))).
  { rewrite <- seq_shift, !flat_map_concat_map, map_map. f_equal. apply map_ext. intro i. cbn [Nat.sub]. now rewrite Nat.sub_0_r, Nat.add_1_r. }
  rewrite EQ, E2. exact E3.
Qed.
End Time.

(** C120: for a simulation with a table of time steps, at least two of them, the data frame starts with the columns of OpenFAST, each with the values stated; the columns of the file follow, unchanged. *)
Theorem C120_time_data pi cos sin o s df n P T X Y Z BX BY BZ BT : set_of pi o s -> df <> [] -> Forall (fun c => List.length (snd c) = n) df ->
  coefficients df (nblade s) P T X Y Z BX BY BZ BT -> 2 <= n -> (Z.of_nat n <= rots s * per_rot s)%Z ->
  (forall k, In k (map fst df) -> ~ In k (map fst (new_table pi cos sin s P T X Y Z BX BY BZ BT))) ->
  exists new, time_data pi cos sin o df = (new ++ df, Ok (List.length new)) /\ Forall2 (describes n) new (new_table pi cos sin s P T X Y Z BX BY BZ BT).
Proof. intros H1 H2 H3 H4 H5 H6 H7. destruct (time_good pi cos sin o s H1 df n H3 H2 P T X Y Z BX BY BZ BT H4 H5 H7) as (pre & A & B); [lia|]. exists pre. now split. Qed.
(** C120: the names of the new columns are all different. *)
Theorem C120_names pi cos sin s P T X Y Z BX BY BZ BT : NoDup (map fst (new_table pi cos sin s P T X Y Z BX BY BZ BT)).
Proof. apply (new_nodup pi cos sin s 2). apply le_n. Qed.
(** C120: turning the axes does not change the force: the components along the turned axes have the same resultant. *)
Theorem C120_resultant cos sin a x z F : (cos a ^ 2 + sin a ^ 2 == 1)%Q -> ((along cos sin a x z * F) ^ 2 + (across cos sin a x z * F) ^ 2 == (x * F) ^ 2 + (- z * F) ^ 2)%Q.
Proof.
  intro H. unfold along, across. transitivity ((cos a ^ 2 + sin a ^ 2) * ((x * F) ^ 2 + (z * F) ^ 2))%Q; [ring|]. rewrite H. ring.
Qed.
(** C120: the azimuth is in [0, 360) and differs from the angle by whole turns. *)
Theorem C120_azimuth x : (0 <= wrapped x /\ wrapped x < 360)%Q /\ exists z, (x - wrapped x == inject_Z z * 360)%Q.
Proof.
  unfold wrapped. pose proof (Qfloor_le (x / 360)) as L. pose proof (Qlt_floor (x / 360)) as U. assert (E : (x == 360 * (x / 360))%Q) by (field; discriminate). split; [split|].
  - apply (Qplus_le_l _ _ (360 * inject_Z (Qfloor (x / 360)))). ring_simplify. rewrite E at 2. apply Qmult_le_l; [reflexivity|exact L].
  - apply (Qplus_lt_l _ _ (360 * inject_Z (Qfloor (x / 360)))). ring_simplify. rewrite E at 1. rewrite inject_Z_plus in U. apply Qlt_le_trans with (360 * (inject_Z (Qfloor (x / 360)) + inject_Z 1))%Q; [apply Qmult_lt_l; [reflexivity|exact U]|]. ring_simplify. apply Qle_refl.
  - exists (Qfloor (x / 360)). ring.
Qed.

(** ** What fails *)
(** C120: a table with more rows than there are time steps is refused, and nothing is changed. *)
Theorem C120_too_long pi cos sin o s df n : set_of pi o s -> df <> [] -> Forall (fun c => List.length (snd c) = n) df -> 0 < n -> (rots s * per_rot s < Z.of_nat n)%Z ->
  time_data pi cos sin o df = (df, Err ValueError).
Proof.
  intros H NE R Pn L. assert (Rn : rows df = n) by (destruct df as [|[k v] d]; [congruence|now inversion R]). unfold time_data.
  pose proof (scales_ok pi cos sin o s H (Z.to_nat (rots s * per_rot s)) (le_n _)) as E.
  assert (E2 : scales_of pi o (rows df) = scales_of pi o (Z.to_nat (rots s * per_rot s))).
  { unfold scales_of. destruct (num_item (config o) "nr"); [cbn [bind]|reflexivity]. destruct (num_item (config o) "nti"); [cbn [bind]|reflexivity]. destruct (num_item (cases o) "ut"); [cbn [bind]|reflexivity]. destruct (item (cases o) "ctexcrm"); [cbn [bind]|reflexivity].
    destruct (num_item (cases o) "rho"); [cbn [bind]|reflexivity]. cbv zeta. rewrite (time_ok pi cos sin o s H). cbn [bind]. rewrite map_length, seq_length, Nat.ltb_irrefl, Rn. destruct (Nat.ltb_spec n (Z.to_nat (rots s * per_rot s))); [lia|reflexivity]. }
  rewrite E2, E. unfold rotor_steps. cbn [run bind s_time]. unfold insert. destruct (existsb _ _); [reflexivity|]. rewrite map_length, seq_length, Rn. destruct (Nat.eqb_spec (Z.to_nat (rots s * per_rot s)) n); [lia|reflexivity].
Qed.
(** C120, refuted for a simulation of one step: an IndexError, and the table of the object has been changed. *)
Theorem C120_one_row_refuted pi cos sin o s df P T X Y Z BX BY BZ BT : set_of pi o s -> df <> [] -> Forall (fun c => List.length (snd c) = 1) df ->
  coefficients df (nblade s) P T X Y Z BX BY BZ BT -> (1 <= rots s * per_rot s)%Z ->
  (forall k, In k (map fst df) -> ~ In k (map fst (new_table pi cos sin s P T X Y Z BX BY BZ BT))) ->
  exists new, time_data pi cos sin o df = (new ++ df, Err IndexError) /\ List.length new = 14.
Proof.
  intros H NE R C L F. assert (Rn : rows df = 1) by (destruct df as [|[k v] d]; [congruence|now inversion R]).
  assert (FA : fine df (rotor_table pi cos sin s P T X Y Z)). { apply (fine_left df _ (flat_map (fun i => blade_table pi cos sin s i (BX i) (BY i) (BZ i) (BT i)) (seq 1 (nblade s)) ++ [(S_ "Wind1VelX_[m/s]", fun _ => wind pi s)])). split; [exact (C120_names pi cos sin s P T X Y Z BX BY BZ BT)|]. intros k H1 H2. exact (F k H2 H1). }
  pose proof (fourteen_good pi cos sin s df 1 R NE P T X Y Z BX BY BZ BT C FA) as G. destruct (G [] (Forall2_nil _)) as (p1 & S1 & E1).
  exists p1. split; [|rewrite <- (map_length fst p1), (St_names _ _ _ S1); reflexivity]. unfold time_data. rewrite Rn, (scales_ok pi cos sin o s H 1) by lia. cbn [s_time s_theta s_U s_rpm s_P0 s_F0 s_Q0 s_w].
  match goal with |- context [run 0 df ?l] => change l with (firstn 14 l ++ skipn 14 l) end. cbn [List.length app] in E1. rewrite E1. unfold rotor_steps. cbn [skipn run].
  apply Forall2_app_inv_r in S1. destruct S1 as (pa & pb & Sa & Sb & ->). inversion Sb as [|[k v] ? p' ? [Hk [Lv _]] Sb']; subst. inversion Sb'; subst. cbn [fst snd] in *. subst k.
  rewrite (col_ok _ (S_ "RtAeroPwr_[W]") v).
  - destruct v as [|x [|y r]]; try discriminate Lv. reflexivity.
  - exists pa, df. rewrite <- app_assoc. split; [reflexivity|]. destruct FA as [ND DJ]. split.
    + rewrite (St_names _ _ _ Sa). cbn [rotor_table firstn map fst]. cbn [In]. intuition discriminate.
    + apply DJ. cbn [rotor_table map fst In]. tauto.
Qed.

(** Names are never lost *)
Lemma insert_names c k v df df' : insert c k v df = Ok df' -> In k (map fst df') /\ incl (map fst df) (map fst df').
Proof.
  unfold insert. destruct (existsb _ _); [discriminate|]. destruct (negb _); [discriminate|]. intro E. apply Ok_inj in E. subst df'. rewrite map_app. cbn [map fst]. split; [apply in_or_app; right; now left|].
  intros x Hx. rewrite <- (firstn_skipn c df), map_app in Hx. apply in_app_or in Hx. apply in_or_app. destruct Hx; [now left|right; now right].
Qed.
Lemma set_names k v df : map fst (set_col k v df) = map fst df.
Proof. unfold set_col. rewrite map_map. apply map_ext. intros [k' w]. cbn [fst]. destruct (str_eqb k' k) eqn:E; [apply str_eqb_eq in E; now subst|reflexivity]. Qed.
Lemma run_names l : forall c df df' r, run c df l = (df', r) -> incl (map fst df) (map fst df').
Proof.
  induction l as [|[k f|k] l IH]; intros c df df' r E; cbn [run] in E.
  - injection E as <- _. apply incl_refl.
  - destruct (f df) as [v|e]; cbn [bind] in E; [|injection E as <- _; apply incl_refl]. destruct (insert c k v df) as [d|e] eqn:I; [|injection E as <- _; apply incl_refl]. eapply incl_tran; [exact (proj2 (insert_names _ _ _ _ _ I))|exact (IH _ _ _ _ E)].
  - destruct (v <- col df k ;; second_first v) as [v|e]; [|injection E as <- _; apply incl_refl]. rewrite <- (set_names k v df). exact (IH _ _ _ _ E).
Qed.
Lemma run_first k f l c df df' c' : run c df (Ins k f :: l) = (df', Ok c') -> In k (map fst df').
Proof.
  cbn [run]. destruct (f df) as [v|e]; cbn [bind]; [|discriminate]. destruct (insert c k v df) as [d|e] eqn:I; [|discriminate]. intro E. exact (run_names _ _ _ _ _ E _ (proj1 (insert_names _ _ _ _ _ I))).
Qed.
Lemma time_names pi cos sin o df df' c : time_data pi cos sin o df = (df', Ok c) -> In (S_ "Time_[s]") (map fst df') /\ exists sc, scales_of pi o (rows df) = Ok sc.
Proof.
  unfold time_data. destruct (scales_of pi o (rows df)) as [sc|e]; [|discriminate]. destruct (run 0 df (rotor_steps _ _ _ _ _ _ _ _ _ _)) as [d [c1|e]] eqn:E1; [|discriminate]. destruct (blade_number o); [|discriminate]. intro E. split; [|now exists sc].
  unfold rotor_steps in E1. apply run_first in E1. exact (run_names _ _ _ _ _ E _ E1).
Qed.
Lemma scales_any pi o n m sc : scales_of pi o n = Ok sc -> exists sc', scales_of pi o m = Ok sc'.
Proof.
  unfold scales_of. intro H.
  repeat match type of H with bind ?x _ = _ => destruct x; [cbn [bind] in H |- *; cbv zeta in H |- *|discriminate H] end. eexists. reflexivity.
Qed.
Lemma time_again pi cos sin o df df' c : time_data pi cos sin o df = (df', Ok c) -> forall d, In (S_ "Time_[s]") (map fst d) -> time_data pi cos sin (with_time o df') d = (d, Err ValueError).
Proof.
  intros E d I. destruct (time_names _ _ _ _ _ _ _ E) as (_ & sc & Es). destruct (scales_any pi o _ (rows d) _ Es) as (sc' & Es').
  unfold time_data. change (scales_of pi (with_time o df') (rows d)) with (scales_of pi o (rows d)). rewrite Es'. unfold rotor_steps. cbn [run bind]. unfold insert.
  assert (X : existsb (str_eqb (S_ "Time_[s]")) (names d) = true) by (apply existsb_exists; exists (S_ "Time_[s]"); split; [exact I|apply str_eqb_refl]). now rewrite X.
Qed.
(** C120, refuted without element data: there is never a data frame, though the table of the object is changed; without time data neither. *)
Theorem C120_no_elements_refuted pi cos sin sg o : dfElem o = None -> forall df, snd (to_frame pi cos sin sg o) <> Ok df.
Proof.
  intros H df. unfold to_frame. destruct (dfTime o) as [d|]; [|discriminate]. destruct (time_data pi cos sin o d) as [d' [c|e]]; cbn [snd]; [|discriminate]. rewrite H. cbn [snd]. destruct (_ =? 2); discriminate.
Qed.
Theorem C120_no_time_refuted pi cos sin sg o : dfTime o = None -> to_frame pi cos sin sg o = (o, Err TypeError).
Proof. intro H. unfold to_frame. now rewrite H. Qed.

(** ** Examples *)
Lemma column_at df k v i : NoDup (map fst df) -> nth_error df i = Some (k, v) -> column_ df k v.
Proof.
  intros N H. apply nth_error_split in H. destruct H as (a & b & -> & _). exists a, b. split; [reflexivity|]. rewrite map_app in N. cbn [map fst] in N. apply NoDup_remove_2 in N. split; intro C; apply N; apply in_or_app; [now left|now right].
Qed.
Definition ex_time (v : list Q) : frame :=
  map (fun k => (S_ k, v)) ["Normalized Time (-)"; "Theta (rad)"; "Rev"; "Torque Coeff. (-)"; "Power Coeff. (-)"; "Fx Coeff. (-)"; "Fy Coeff. (-)"; "Fz Coeff. (-)";
    "Blade1 Fx Coeff. (-)"; "Blade1 Fy Coeff. (-)"; "Blade1 Fz Coeff. (-)"; "Blade1 Torque Coeff. (-)"; "Blade2 Fx Coeff. (-)"; "Blade2 Fy Coeff. (-)"; "Blade2 Fz Coeff. (-)"; "Blade2 Torque Coeff. (-)"]%string.
Definition ex_cactus (df : frame) (el ds : option frame) : cactus :=
  mk_cactus [(S_ "nr", GNum 1); (S_ "nti", GNum 2)] [(S_ "rpm", GNum 10); (S_ "ut", GNum 3); (S_ "ctexcrm", GNum 0); (S_ "rho", GNum (2 # 1000))]
    [(S_ "file", GText (S_ "rotor.geom")); (S_ "refr", GNum 8); (S_ "refar", GNum 2); (S_ "nblade", GInt 2)] (Some df) el ds.
Definition ex_setting : setting := mk_setting 1 2 10 3 (2 # 1000) (8 / foot) (2 * 8 ^ 2 / foot ^ 2) 2.
Example ex_set df el ds : set_of (22 # 7) (ex_cactus df el ds) ex_setting.
Proof.
  unfold set_of. repeat split; try (left; reflexivity); try (intro H; discriminate H).
  - exists (GNum 0). reflexivity.
  - right. exists (S_ "rotor.geom"), 8%Q. repeat split. now left.
  - exists 2%Q, 8%Q. repeat split; now left.
Qed.
Example ex_nodup v : NoDup (map fst (ex_time v)).
Proof. unfold ex_time. rewrite map_map. cbn [map fst]. repeat (constructor; [cbn [In]; intuition discriminate|]). constructor. Qed.
Example ex_coefs v : coefficients (ex_time v) 2 v v v v v (fun _ => v) (fun _ => v) (fun _ => v) (fun _ => v).
Proof.
  unfold coefficients. pose proof (ex_nodup v) as N. repeat split.
  1-5: unfold column; [> apply (column_at _ _ _ 4) | apply (column_at _ _ _ 3) | apply (column_at _ _ _ 5) | apply (column_at _ _ _ 6) | apply (column_at _ _ _ 7) ]; (exact N || reflexivity).
  all: destruct i as [|[|[|i]]]; [lia| | |lia].
  - apply (column_at _ _ _ 8); [exact N|reflexivity].
  - apply (column_at _ _ _ 12); [exact N|reflexivity].
  - apply (column_at _ _ _ 9); [exact N|reflexivity].
  - apply (column_at _ _ _ 13); [exact N|reflexivity].
  - apply (column_at _ _ _ 10); [exact N|reflexivity].
  - apply (column_at _ _ _ 14); [exact N|reflexivity].
  - apply (column_at _ _ _ 11); [exact N|reflexivity].
  - apply (column_at _ _ _ 15); [exact N|reflexivity].
Qed.
Example ex_fresh pi cos sin v k : In k (map fst (ex_time v)) -> ~ In k (map fst (new_table pi cos sin ex_setting v v v v v (fun _ => v) (fun _ => v) (fun _ => v) (fun _ => v))).
Proof.
  assert (X : forallb (fun a => forallb (fun b => negb (str_eqb a b)) (map fst (new_table 1 (fun x => x) (fun x => x) ex_setting v v v v v (fun _ => v) (fun _ => v) (fun _ => v) (fun _ => v)))) (map fst (ex_time v)) = true) by reflexivity.
  intros H1 H2. rewrite forallb_forall in X. specialize (X k H1). rewrite forallb_forall in X. specialize (X k H2). rewrite str_eqb_refl in X. discriminate.
Qed.
Example ex_rows v n : List.length v = n -> ex_time v <> [] /\ Forall (fun c => List.length (snd c) = n) (ex_time v).
Proof. intro L. split; [discriminate|]. unfold ex_time. repeat (constructor; [exact L|]). constructor. Qed.
(** Two steps are answered by 34 new columns; three are too many, one is too few *)
Example ex_two pi cos sin : pi = 22 # 7 -> exists new, time_data pi cos sin (ex_cactus (ex_time [1; 2]%Q) None None) (ex_time [1; 2]%Q) = (new ++ ex_time [1; 2]%Q, Ok (List.length new)) /\ List.length new = 34.
Proof.
  intros ->. destruct (ex_rows [1; 2]%Q 2 eq_refl) as [NE R]. destruct (C120_time_data (22 # 7) cos sin _ _ _ 2 _ _ _ _ _ _ _ _ _ (ex_set (ex_time [1; 2]%Q) None None) NE R (ex_coefs _) (le_n _)) as (new & E & F); [cbn; lia|apply ex_fresh|].
  exists new. split; [exact E|].
  rewrite <- (map_length fst new), (St_names _ _ _ F). reflexivity.
Qed.
Example ex_three cos sin : time_data (22 # 7) cos sin (ex_cactus (ex_time [1; 2; 3]%Q) None None) (ex_time [1; 2; 3]%Q) = (ex_time [1; 2; 3]%Q, Err ValueError).
Proof. destruct (ex_rows [1; 2; 3]%Q 3 eq_refl) as [NE R]. apply (C120_too_long _ _ _ _ ex_setting _ 3); [apply ex_set|exact NE|exact R|lia|cbn; lia]. Qed.
Example ex_one cos sin : exists new, time_data (22 # 7) cos sin (ex_cactus (ex_time [1]%Q) None None) (ex_time [1]%Q) = (new ++ ex_time [1]%Q, Err IndexError) /\ List.length new = 14.
Proof. destruct (ex_rows [1]%Q 1 eq_refl) as [NE R]. apply (C120_one_row_refuted _ _ _ _ ex_setting _ _ _ _ _ _ _ _ _ _ (ex_set _ _ _) NE R (ex_coefs _)); [cbn; lia|apply ex_fresh]. Qed.

Print Assumptions C120_time_data.
Print Assumptions C120_names.
Print Assumptions C120_resultant.
Print Assumptions C120_azimuth.
Print Assumptions C120_too_long.
Print Assumptions C120_one_row_refuted.
Print Assumptions C120_no_elements_refuted.
Print Assumptions C120_no_time_refuted.
