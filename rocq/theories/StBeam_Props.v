(** Properties C94 and C95: element stiffness matrix and shape functions of HAWC2 st files. *)
From Coq Require Import QArith Qfield Lia Lqa Setoid.
From Verif Require Import Py PyFacts AEPC_Model AEPC_Interp St_Model.
Local Open Scope Q_scope.

(** ** Specification *)
(** Forces at the two nodes: degrees of freedom 1-3 and 7-9 are displacements, 4-6 and 10-12 rotations *)
Definition force (K : nat -> nat -> Q) (u : nat -> Q) (i : nat) : Q := fold_right (fun j s => K i j * u j + s) 0 (seq 1 12).
Definition energy2 (K : nat -> nat -> Q) (u : nat -> Q) : Q := fold_right (fun i s => u i * force K u i + s) 0 (seq 1 12).
(** A small rigid motion: translation (tx,ty,tz) and rotation (rx,ry,rz) about the first node; the element lies along z *)
Definition rigid (L tx ty tz rx ry rz : Q) (i : nat) : Q :=
  nth (i - 1) [tx; ty; tz; rx; ry; rz; tx + L * ry; ty - L * rx; tz; rx; ry; rz] 0.
(** Twice the energy of a Timoshenko beam in bending: deflections v1 v2 and slopes t1 t2 at the ends, bending stiffness EI, shear stiffness kGA *)
Definition bending (EI kGA L v1 t1 v2 t2 : Q) : Q :=
  let p := 12 * EI / (kGA * L * L) in
  EI / (L * (1 + p)) * (3 * (2 * (v1 - v2) / L + t1 + t2) * (2 * (v1 - v2) / L + t1 + t2) + (1 + p) * (t1 - t2) * (t1 - t2)).
(** Extension, twist, bending about x and about y; forces act on the shear center (ES1, ES2) *)
Definition beam_energy (b : beam) (L : Q) (u : nat -> Q) : Q :=
  let d i j := u i - u j in
  EMOD b * AREA b / L * d 3%nat 9%nat * d 3%nat 9%nat
  + GMOD b * IZ b / L * d 6%nat 12%nat * d 6%nat 12%nat
  + bending (EMOD b * IX b) (KY b * GMOD b * AREA b) L (u 2%nat + ES1 b * u 6%nat) (- u 4%nat) (u 8%nat + ES1 b * u 12%nat) (- u 10%nat)
  + bending (EMOD b * IY b) (KX b * GMOD b * AREA b) L (u 1%nat - ES2 b * u 6%nat) (u 5%nat) (u 7%nat - ES2 b * u 12%nat) (u 11%nat).
(** A beam with positive stiffnesses *)
Definition solid (b : beam) : Prop := 0 < EMOD b /\ 0 < GMOD b /\ 0 < IX b /\ 0 < IY b /\ 0 < IZ b /\ 0 < KX b /\ 0 < KY b /\ 0 < AREA b.

(** ** Lemmas *)
Lemma eta_pos E I k G A L : 0 < E -> 0 < I -> 0 < k -> 0 < G -> 0 < A -> 0 < L -> 0 < E * I / (k * G * A * L ^ 2).
Proof.
  intros. apply Qlt_shift_div_l; [|rewrite Qmult_0_l; now apply Qmult_lt_0_compat].
  repeat apply Qmult_lt_0_compat; auto.
Qed.
Ltac expand := unfold energy2, force, stiffness, entry, upper, at_; cbn [seq fold_right find Nat.eqb andb fst snd].

Lemma energy_any b L u : ~ L == 0 ->
  let X := etax b L in let Y := etay b L in let R := 1 / (1 + 12 * X) in let d i j := u i - u j in
  let f EI E v1 t1 v2 t2 := EI * R / L * (3 * (2 * (v1 - v2) / L + t1 + t2) * (2 * (v1 - v2) / L + t1 + t2) + (1 + 12 * E) * (t1 - t2) * (t1 - t2)) in
  energy2 (stiffness b L) u ==
  EMOD b * AREA b / L * d 3%nat 9%nat * d 3%nat 9%nat
  + GMOD b * IZ b / L * d 6%nat 12%nat * d 6%nat 12%nat
  + f (EMOD b * IX b) X (u 2%nat + ES1 b * u 6%nat) (- u 4%nat) (u 8%nat + ES1 b * u 12%nat) (- u 10%nat)
  + f (EMOD b * IY b) Y (u 1%nat - ES2 b * u 6%nat) (u 5%nat) (u 7%nat - ES2 b * u 12%nat) (u 11%nat).
Proof.
  intros HL X Y R d f. unfold d, f. clear d f. expand. fold X Y R. generalize X Y R. clear X Y R. intros X Y R.
  generalize (u 1%nat) (u 2%nat) (u 3%nat) (u 4%nat) (u 5%nat) (u 6%nat) (u 7%nat) (u 8%nat) (u 9%nat) (u 10%nat) (u 11%nat) (u 12%nat).
  intros. field. exact HL.
Qed.
Lemma eta_nz e : 0 < e -> ~ 1 + 12 * e == 0. Proof. intros H E. lra. Qed.
Lemma solid_x b L : solid b -> 0 < L -> 0 < etax b L.
Proof. intros (? & ? & ? & ? & ? & ? & ? & ?) HL. now apply eta_pos. Qed.
Lemma solid_y b L : solid b -> 0 < L -> 0 < etay b L.
Proof. intros (? & ? & ? & ? & ? & ? & ? & ?) HL. now apply eta_pos. Qed.
Lemma bending_eta EI k L v1 t1 v2 t2 e : ~ L == 0 -> ~ k == 0 -> e == EI / (k * L ^ 2) -> ~ 1 + 12 * e == 0 ->
  bending EI k L v1 t1 v2 t2 == EI * (1 / (1 + 12 * e)) / L * (3 * (2 * (v1 - v2) / L + t1 + t2) * (2 * (v1 - v2) / L + t1 + t2) + (1 + 12 * e) * (t1 - t2) * (t1 - t2)).
Proof.
  intros HL Hk He H. unfold bending. assert (E : 12 * EI / (k * L * L) == 12 * e) by (rewrite He; field; auto). rewrite E. field. auto.
Qed.
Lemma sq_nonneg a : 0 <= a * a.
Proof. unfold Qle. cbn. rewrite Z.mul_1_r. destruct a as [[|n|n] d]; cbn; lia. Qed.
Lemma sq_zero a : a * a == 0 -> a == 0.
Proof. intro H. destruct (Qeq_dec a 0) as [E|E]; [exact E|]. apply Qmult_integral in H. tauto. Qed.

(** ** C94 *)
(** The matrix is symmetric *)
Theorem C94_symmetric : forall b L i j, stiffness b L i j == stiffness b L j i.
Proof. intros. unfold stiffness. rewrite (Nat.eqb_sym j i). destruct (Nat.eqb_spec i j) as [->|N]; ring. Qed.

(** No rigid motion meets any force *)
Theorem C94_rigid : forall b L tx ty tz rx ry rz i, ~ L == 0 -> In i (seq 1 12) ->
  force (stiffness b L) (rigid L tx ty tz rx ry rz) i == 0.
Proof.
  intros b L tx ty tz rx ry rz i HL Hi. unfold rigid. cbn [seq In] in Hi.
  repeat (destruct Hi as [<-|Hi]; [unfold force, stiffness, entry, upper, at_; cbn [seq fold_right find Nat.eqb andb fst snd nth minus]; generalize (etax b L) (etay b L); intros X Y; generalize (1 / (1 + 12 * X)); intro R; field; exact HL|]). destruct Hi.
Qed.

(** Forces and moments of the two nodes are in equilibrium for every displacement *)
Theorem C94_equilibrium : forall b L u, ~ L == 0 -> let F := force (stiffness b L) u in
  F 1%nat + F 7%nat == 0 /\ F 2%nat + F 8%nat == 0 /\ F 3%nat + F 9%nat == 0 /\
  F 4%nat + F 10%nat - L * F 8%nat == 0 /\ F 5%nat + F 11%nat + L * F 7%nat == 0 /\ F 6%nat + F 12%nat == 0.
Proof.
  intros b L u HL F. unfold F, force, stiffness, entry, upper, at_; cbn [seq fold_right find Nat.eqb andb fst snd]; generalize (etax b L) (etay b L); intros X Y; generalize (1 / (1 + 12 * X)); intro R.
  repeat split; field; exact HL.
Qed.
(** The energy is never negative, and zero for rigid motions only *)
Theorem C94_energy_positive : forall b L u, solid b -> 0 < L ->
  0 <= energy2 (stiffness b L) u /\
  (energy2 (stiffness b L) u == 0 -> exists tx ty tz rx ry rz, forall i, In i (seq 1 12) -> u i == rigid L tx ty tz rx ry rz i).
Proof.
  intros b L u Hs HL. assert (HX := solid_x b L Hs HL). assert (HY := solid_y b L Hs HL). destruct Hs as (PE & PG & PX & PY & PZ & PKX & PKY & PA).
  rewrite energy_any by lra. cbv zeta. set (X := etax b L) in *. set (Y := etay b L) in *. clearbody X Y.
  assert (PR : 0 < 1 / (1 + 12 * X)) by (apply Qlt_shift_div_l; lra). set (R := 1 / (1 + 12 * X)) in *. clearbody R.
  assert (Pi : 0 < / L) by now apply Qinv_lt_0_compat.
  set (EA := EMOD b * AREA b / L). set (GJ := GMOD b * IZ b / L). set (BX := EMOD b * IX b * R / L). set (BY := EMOD b * IY b * R / L).
  assert (P1 : 0 < EA) by (unfold EA, Qdiv; repeat apply Qmult_lt_0_compat; auto).
  assert (P2 : 0 < GJ) by (unfold GJ, Qdiv; repeat apply Qmult_lt_0_compat; auto).
  assert (P3 : 0 < BX) by (unfold BX, Qdiv; repeat apply Qmult_lt_0_compat; auto).
  assert (P4 : 0 < BY) by (unfold BY, Qdiv; repeat apply Qmult_lt_0_compat; auto). clearbody EA GJ BX BY.
  set (d39 := u 3%nat - u 9%nat). set (d612 := u 6%nat - u 12%nat).
  set (s1 := 2 * (u 2%nat + ES1 b * u 6%nat - (u 8%nat + ES1 b * u 12%nat)) / L + - u 4%nat + - u 10%nat).
  set (s2 := 2 * (u 1%nat - ES2 b * u 6%nat - (u 7%nat - ES2 b * u 12%nat)) / L + u 5%nat + u 11%nat).
  set (r1 := - u 4%nat - - u 10%nat). set (r2 := u 5%nat - u 11%nat).
  assert (Q1 : 0 <= EA * (d39 * d39)) by (apply Qmult_le_0_compat; [lra|apply sq_nonneg]).
  assert (Q2 : 0 <= GJ * (d612 * d612)) by (apply Qmult_le_0_compat; [lra|apply sq_nonneg]).
  assert (Q3 : 0 <= BX * (s1 * s1)) by (apply Qmult_le_0_compat; [lra|apply sq_nonneg]).
  assert (Q4 : 0 <= BX * (1 + 12 * X) * (r1 * r1)) by (apply Qmult_le_0_compat; [apply Qmult_le_0_compat; lra|apply sq_nonneg]).
  assert (Q5 : 0 <= BY * (s2 * s2)) by (apply Qmult_le_0_compat; [lra|apply sq_nonneg]).
  assert (Q6 : 0 <= BY * (1 + 12 * Y) * (r2 * r2)) by (apply Qmult_le_0_compat; [apply Qmult_le_0_compat; lra|apply sq_nonneg]).
  assert (T : EA * d39 * d39 + GJ * d612 * d612 + BX * (3 * s1 * s1 + (1 + 12 * X) * r1 * r1) + BY * (3 * s2 * s2 + (1 + 12 * Y) * r2 * r2) ==
    EA * (d39 * d39) + GJ * (d612 * d612) + 3 * (BX * (s1 * s1)) + BX * (1 + 12 * X) * (r1 * r1) + 3 * (BY * (s2 * s2)) + BY * (1 + 12 * Y) * (r2 * r2)) by ring.
  rewrite T. clear T. split; [lra|]. intro E.
  assert (Z : forall c a, 0 < c -> c * (a * a) == 0 -> a == 0).
  { intros c a Hc H. apply sq_zero. apply Qmult_integral in H. destruct H; [lra|assumption]. }
  assert (E1 : d39 == 0) by (apply (Z EA); [assumption|lra]).
  assert (E2 : d612 == 0) by (apply (Z GJ); [assumption|lra]).
  assert (E3 : s1 == 0) by (apply (Z BX); [assumption|lra]).
  assert (E4 : r1 == 0) by (apply (Z (BX * (1 + 12 * X))); [apply Qmult_lt_0_compat; lra|lra]).
  assert (E5 : s2 == 0) by (apply (Z BY); [assumption|lra]).
  assert (E6 : r2 == 0) by (apply (Z (BY * (1 + 12 * Y))); [apply Qmult_lt_0_compat; lra|lra]).
  clear Q1 Q2 Q3 Q4 Q5 Q6 E. unfold d39, d612, s1, s2, r1, r2 in *. clear d39 d612 s1 s2 r1 r2.
  exists (u 1%nat), (u 2%nat), (u 3%nat), (u 4%nat), (u 5%nat), (u 6%nat).
  assert (E12 : u 12%nat == u 6%nat) by lra. assert (E10 : u 10%nat == u 4%nat) by lra. assert (E11 : u 11%nat == u 5%nat) by lra.
  rewrite E12, E10 in E3. rewrite E12, E11 in E5.
  assert (F3 : u 8%nat == u 2%nat - L * u 4%nat).
  { assert (G : 2 * (u 2%nat + ES1 b * u 6%nat - (u 8%nat + ES1 b * u 6%nat)) / L + - u 4%nat + - u 4%nat == (2 / L) * (u 2%nat - L * u 4%nat - u 8%nat)) by (field; lra).
    rewrite G in E3. apply Qmult_integral in E3. destruct E3 as [E3|E3]; [|lra]. exfalso. assert (0 < 2 / L) by (apply Qlt_shift_div_l; lra). lra. }
  assert (F7 : u 7%nat == u 1%nat + L * u 5%nat).
  { assert (G : 2 * (u 1%nat - ES2 b * u 6%nat - (u 7%nat - ES2 b * u 6%nat)) / L + u 5%nat + u 5%nat == (2 / L) * (u 1%nat + L * u 5%nat - u 7%nat)) by (field; lra).
    rewrite G in E5. apply Qmult_integral in E5. destruct E5 as [E5|E5]; [|lra]. exfalso. assert (0 < 2 / L) by (apply Qlt_shift_div_l; lra). lra. }
  intros i Hi. cbn [seq In] in Hi. unfold rigid. repeat (destruct Hi as [<-|Hi]; [cbn [minus nth]; first [lra|reflexivity]|]). destruct Hi.
Qed.
(** The energy is that of a Timoshenko beam when both planes have the same ratio of bending to shear flexibility.
    MISSING: all other beams, see the next theorem *)
Theorem C94_energy_partial : forall b L u, solid b -> 0 < L -> KX b * IX b == KY b * IY b ->
  energy2 (stiffness b L) u == beam_energy b L u.
Proof.
  intros b L u Hs HL Hk. assert (HX := solid_x b L Hs HL). destruct Hs as (PE & PG & PX & PY & PZ & PKX & PKY & PA).
  assert (EXY : etay b L == etax b L).
  { unfold etax, etay. assert (IX b == KY b * IY b / KX b) by (rewrite <- Hk; field; lra). rewrite H. field. repeat split; lra. }
  rewrite energy_any by lra. cbv zeta. unfold beam_energy. cbv zeta.
  rewrite (bending_eta _ _ _ _ _ _ _ (etax b L)) by (try (unfold etax; reflexivity); try (apply eta_nz; exact HX); try lra; intro Z; repeat (apply Qmult_integral in Z; destruct Z as [Z|Z]); lra).
  rewrite (bending_eta _ _ _ _ _ _ _ (etay b L)) by (try (unfold etay; reflexivity); try (rewrite EXY; apply eta_nz; exact HX); try lra; intro Z; repeat (apply Qmult_integral in Z; destruct Z as [Z|Z]); lra).
  rewrite EXY. reflexivity.
Qed.
(** All other beams have another energy: the shear flexibility of the plane x is used for both planes *)
Theorem C94_energy_refuted : forall b L, solid b -> 0 < L -> ~ KX b * IX b == KY b * IY b ->
  exists u, ~ energy2 (stiffness b L) u == beam_energy b L u.
Proof.
  intros b L Hs HL Hk. exists (fun i => match i with 5%nat => 1 | 11%nat => - (1) | _ => 0 end). intro E. apply Hk. clear Hk.
  assert (HX := solid_x b L Hs HL). assert (HY := solid_y b L Hs HL). destruct Hs as (PE & PG & PX & PY & PZ & PKX & PKY & PA).
  rewrite energy_any in E by lra. cbv zeta in E. unfold beam_energy in E. cbv zeta in E.
  rewrite (bending_eta _ _ _ _ _ _ _ (etax b L)) in E by (try (unfold etax; reflexivity); try (apply eta_nz; exact HX); try lra; intro Z; repeat (apply Qmult_integral in Z; destruct Z as [Z|Z]); lra).
  rewrite (bending_eta _ _ _ _ _ _ _ (etay b L)) in E by (try (unfold etay; reflexivity); try (apply eta_nz; exact HY); try lra; intro Z; repeat (apply Qmult_integral in Z; destruct Z as [Z|Z]); lra).
  assert (EXY : etax b L == etay b L).
  { set (X := etax b L) in *. set (Y := etay b L) in *. clearbody X Y.
    assert (E' : 4 * EMOD b * IY b / L * (1 + 12 * Y) / (1 + 12 * X) == 4 * EMOD b * IY b / L).
    { revert E. set (c := EMOD b * IY b). intro E.
      assert (A : 4 * EMOD b * IY b / L == 4 * c / L) by (unfold c; field; lra). rewrite A. clearbody c.
      apply (Qplus_inj_l _ _ (EMOD b * AREA b / L * (0 - 0) * (0 - 0) + GMOD b * IZ b / L * (0 - 0) * (0 - 0) + EMOD b * IX b * (1 / (1 + 12 * X)) / L *
        (3 * (2 * (0 + ES1 b * 0 - (0 + ES1 b * 0)) / L + - 0 + - 0) * (2 * (0 + ES1 b * 0 - (0 + ES1 b * 0)) / L + - 0 + - 0) + (1 + 12 * X) * (- 0 - - 0) * (- 0 - - 0)))).
      eapply Qeq_trans; [|eapply Qeq_trans; [exact E|]]; field; repeat split; lra. }
    assert (E2 : 4 * EMOD b * IY b / L * (12 * (Y - X)) == 0).
    { assert (4 * EMOD b * IY b / L * (1 + 12 * Y) == 4 * EMOD b * IY b / L * (1 + 12 * X)).
      { rewrite <- E' at 2. field. split; lra. } lra. }
    apply Qmult_integral in E2. destruct E2 as [E2|E2]; [|lra]. exfalso. assert (P : 0 < 4 * EMOD b * IY b / L); [|lra].
    apply Qlt_shift_div_l; [exact HL|]. assert (0 < EMOD b * IY b) by now apply Qmult_lt_0_compat. lra. }
  unfold etax, etay in EXY.
  assert (G : KX b * IX b == EMOD b * IX b / (KY b * GMOD b * AREA b * L ^ 2) * (KX b * KY b * GMOD b * AREA b * L ^ 2 / EMOD b)) by (field; repeat split; lra).
  rewrite G, EXY. field. repeat split; lra.
Qed.
(** A cantilever with a force at its end, in the plane y: deflection by bending and by shear, and slope *)
Theorem C94_cantilever : forall b L, solid b -> 0 < L ->
  let u i := match i with
             | 8%nat => L * L * L / (3 * EMOD b * IX b) + L / (KY b * GMOD b * AREA b)
             | 10%nat => - (L * L / (2 * EMOD b * IX b))
             | _ => 0
             end in
  let F := force (stiffness b L) u in F 7%nat == 0 /\ F 8%nat == 1 /\ F 9%nat == 0 /\ F 10%nat == 0 /\ F 11%nat == 0 /\ F 12%nat == ES1 b.
Proof.
  intros b L Hs HL u F. assert (HX := solid_x b L Hs HL). destruct Hs as (PE & PG & PX & PY & PZ & PKX & PKY & PA).
  assert (Ek : L / (KY b * GMOD b * AREA b) == etax b L * (L * L * L) / (EMOD b * IX b)) by (unfold etax; field; repeat split; lra).
  assert (Eu : u 8%nat == L * L * L / (3 * EMOD b * IX b) + etax b L * (L * L * L) / (EMOD b * IX b)) by (unfold u; now rewrite Ek).
  unfold F, force, stiffness, entry, upper, at_; cbn [seq fold_right find Nat.eqb andb fst snd].
  assert (Hn : ~ 1 + 12 * etax b L == 0) by now apply eta_nz.
  repeat split; rewrite Eu; unfold u; generalize dependent (etax b L); intros X **; generalize (etay b L); intro Y; field; repeat split; auto; lra.
Qed.

(** ** C95: shape functions *)
(** The motion at a position: the sum over the degrees of freedom of the nodes *)
Definition motion (N : list (list Q)) (u : nat -> Q) (k : nat) : Q := fold_right (fun i s => u i * nth (k - 1) (nth (i - 1) N []) 0 + s) 0 (seq 1 12).
Lemma shape_eta b L : solid b -> 0 < L -> EMOD b * IX b / KY b / GMOD b / AREA b / L ^ 2 == etax b L /\ EMOD b * IY b / KX b / GMOD b / AREA b / L ^ 2 == etay b L.
Proof. intros (? & ? & ? & ? & ? & ? & ? & ?) HL. unfold etax, etay. split; field; repeat split; lra. Qed.
Ltac six Hi tac := cbn [seq In] in Hi; repeat (destruct Hi as [<-|Hi]; [tac|]); destruct Hi.
Ltac shapes b L HX HY :=
  let X := fresh "X" in let Y := fresh "Y" in
  set (X := EMOD b * IX b / KY b / GMOD b / AREA b / L ^ 2) in *; set (Y := EMOD b * IY b / KX b / GMOD b / AREA b / L ^ 2) in *; clearbody X Y.
Theorem C95_ends : forall b L u k, solid b -> 0 < L -> In k (seq 1 6) ->
  motion (shape b L 0) u k == u k /\ motion (shape b L L) u k == u (k + 6)%nat.
Proof.
  intros b L u k Hs HL Hk. assert (HX := solid_x b L Hs HL). assert (HY := solid_y b L Hs HL). destruct (shape_eta b L Hs HL) as [EX EY]. rewrite <- EX in HX. rewrite <- EY in HY. clear Hs EX EY.
  unfold shape. shapes b L HX HY. unfold motion.
  six Hk ltac:(cbn [seq fold_right nth minus plus]; split; field; repeat split; lra).
Qed.
Theorem C95_rigid : forall b L z tx ty tz rx ry rz k, solid b -> 0 < L -> In k (seq 1 6) ->
  motion (shape b L z) (rigid L tx ty tz rx ry rz) k == nth (k - 1) [tx + z * ry; ty - z * rx; tz; rx; ry; rz] 0.
Proof.
  intros b L z tx ty tz rx ry rz k Hs HL Hk. assert (HX := solid_x b L Hs HL). assert (HY := solid_y b L Hs HL). destruct (shape_eta b L Hs HL) as [EX EY]. rewrite <- EX in HX. rewrite <- EY in HY. clear Hs EX EY.
  unfold shape. shapes b L HX HY. unfold motion, rigid.
  six Hk ltac:(cbn [seq fold_right nth minus plus]; field; repeat split; lra).
Qed.
(** The deflection and the slope all along a cantilever with a force at its end, in both planes *)
Theorem C95_cantilever : forall b L z, solid b -> 0 < L ->
  let deflection EI kGA x := x * x * (3 * L - x) / (6 * EI) + x / kGA in
  let slope EI x := x * (2 * L - x) / (2 * EI) in
  (let EI := EMOD b * IX b in let kGA := KY b * GMOD b * AREA b in
   let u i := match i with 8%nat => deflection EI kGA L | 10%nat => - slope EI L | _ => 0 end in
   motion (shape b L z) u 2%nat == deflection EI kGA z /\ motion (shape b L z) u 4%nat == - slope EI z) /\
  (let EI := EMOD b * IY b in let kGA := KX b * GMOD b * AREA b in
   let u i := match i with 7%nat => deflection EI kGA L | 11%nat => slope EI L | _ => 0 end in
   motion (shape b L z) u 1%nat == deflection EI kGA z /\ motion (shape b L z) u 5%nat == slope EI z).
Proof.
  intros b L z Hs HL. assert (HX := solid_x b L Hs HL). assert (HY := solid_y b L Hs HL). destruct (shape_eta b L Hs HL) as [EX EY]. rewrite <- EX in HX. rewrite <- EY in HY.
  destruct Hs as (PE & PG & PX & PY & PZ & PKX & PKY & PA). unfold shape.
  set (X := EMOD b * IX b / KY b / GMOD b / AREA b / L ^ 2) in *. set (Y := EMOD b * IY b / KX b / GMOD b / AREA b / L ^ 2) in *.
  assert (GX : forall x, x / (KY b * GMOD b * AREA b) == x * X * L * L / (EMOD b * IX b)) by (intro x; unfold X; field; repeat split; lra).
  assert (GY : forall x, x / (KX b * GMOD b * AREA b) == x * Y * L * L / (EMOD b * IY b)) by (intro x; unfold Y; field; repeat split; lra).
  set (EX' := EMOD b * IX b) in *. set (EY' := EMOD b * IY b) in *.
  assert (NX : ~ EX' == 0) by (assert (0 < EX') by (unfold EX'; now apply Qmult_lt_0_compat); lra).
  assert (NY : ~ EY' == 0) by (assert (0 < EY') by (unfold EY'; now apply Qmult_lt_0_compat); lra).
  clearbody X Y EX' EY'. cbv zeta. unfold motion. cbn [seq fold_right nth minus plus].
  generalize (ES1 b) (ES2 b). intros e1 e2. rewrite !GX, !GY. clear GX GY PE PG PX PY PZ PKX PKY PA EX EY. clear b.
  split; split; rewrite ?Qmult_0_l, ?Qmult_0_r, ?Qplus_0_l, ?Qplus_0_r; field; repeat split; lra.
Qed.

(** ** The file decides on the beam *)
Lemma columns_in c (a : array Q) row : In row a -> In (nth 0 row 0, nth c row 0) (columns c a).
Proof. intro H. unfold columns. apply in_map_iff. eexists. split; [reflexivity|exact H]. Qed.
Lemma columns_fst c (a : array Q) : map fst (columns c a) = map (fun r => nth 0 r 0) a.
Proof. unfold columns. rewrite map_map. reflexivity. Qed.
Lemma value_node o m s d a n c row : zget (main o) m = Some d -> zget d s = Some a -> width a = Ok n -> (c < n)%nat ->
  Sorted.StronglySorted Qlt (map (fun r => nth 0 r 0) a) -> In row a -> exists v, value_at o c (nth 0 row 0) m s = Ok v /\ v == nth c row 0.
Proof.
  intros Hm Hd Hw Hc Hs Hr. unfold value_at, zfind. rewrite Hm. cbn [bind]. rewrite Hd. cbn [bind]. unfold column. rewrite Hw. cbn [bind].
  replace (Nat.leb n c) with false by (symmetry; apply Nat.leb_gt; exact Hc). cbn [bind].
  apply interp_at; [now rewrite columns_fst|]. now apply columns_in.
Qed.
Theorem C94_from_file : forall o m s d a L r mass x_cg y_cg ri_x ri_y x_sh y_sh E G I_x I_y I_p k_x k_y A pitch x_e y_e,
  cols o = Some stc -> zget (main o) m = Some d -> zget d s = Some a -> width a = Ok 19%nat ->
  Sorted.StronglySorted Qlt (map (fun r => nth 0 r 0) a) ->
  In [r; mass; x_cg; y_cg; ri_x; ri_y; x_sh; y_sh; E; G; I_x; I_y; I_p; k_x; k_y; A; pitch; x_e; y_e] a ->
  exists b, element_stiffnessmatrix o r m s L = Ok (Some (stiffness b L)) /\
    (forall z, shape_function_ori o r m s L z = Ok (Some (shape b L z))) /\
    ES1 b == x_sh /\ ES2 b == y_sh /\ EMOD b == E /\ GMOD b == G /\ IX b == I_x /\ IY b == I_y /\ IZ b == I_p /\ KX b == k_x /\ KY b == k_y /\ AREA b == A.
Proof.
  intros o m s d a L r mass x_cg y_cg ri_x ri_y x_sh y_sh E G I_x I_y I_p k_x k_y A pitch x_e y_e Hc Hm Hd Hw Hs Hr.
  set (row := [r; mass; x_cg; y_cg; ri_x; ri_y; x_sh; y_sh; E; G; I_x; I_y; I_p; k_x; k_y; A; pitch; x_e; y_e]) in *.
  assert (P : forall c, (c < 19)%nat -> exists v, value_at o c r m s = Ok v /\ v == nth c row 0).
  { intros c Hc'. apply (value_node o m s d a 19 c row); auto. }
  destruct (P 6%nat) as (v6 & E6 & Q6); [lia|]. destruct (P 7%nat) as (v7 & E7 & Q7); [lia|]. destruct (P 8%nat) as (v8 & E8 & Q8); [lia|].
  destruct (P 9%nat) as (v9 & E9 & Q9); [lia|]. destruct (P 10%nat) as (v10 & E10 & Q10); [lia|]. destruct (P 11%nat) as (v11 & E11 & Q11); [lia|].
  destruct (P 12%nat) as (v12 & E12 & Q12); [lia|]. destruct (P 13%nat) as (v13 & E13 & Q13); [lia|]. destruct (P 14%nat) as (v14 & E14 & Q14); [lia|]. destruct (P 15%nat) as (v15 & E15 & Q15); [lia|].
  exists (mk_beam v6 v7 v8 v9 v10 v11 v12 v13 v14 v15).
  assert (B : beam_at o r m s = Ok (Some (mk_beam v6 v7 v8 v9 v10 v11 v12 v13 v14 v15))).
  { unfold beam_at. rewrite Hc. change (Nat.eqb (List.length stc) 30) with false. cbv iota. cbn [mapM]. unfold method. rewrite Hc.
    change (index_of (S_ "x_sh") stc) with (Some 6%nat). change (index_of (S_ "y_sh") stc) with (Some 7%nat). change (index_of (S_ "E") stc) with (Some 8%nat).
    change (index_of (S_ "G") stc) with (Some 9%nat). change (index_of (S_ "I_x") stc) with (Some 10%nat). change (index_of (S_ "I_y") stc) with (Some 11%nat).
    change (index_of (S_ "I_p") stc) with (Some 12%nat). change (index_of (S_ "k_x") stc) with (Some 13%nat). change (index_of (S_ "k_y") stc) with (Some 14%nat). change (index_of (S_ "A") stc) with (Some 15%nat).
    cbv iota. rewrite E6, E7, E8, E9, E10, E11, E12, E13, E14, E15. reflexivity. }
  split; [unfold element_stiffnessmatrix; rewrite B; reflexivity|]. split; [intro z; unfold shape_function_ori; rewrite B; reflexivity|].
  cbn [ES1 ES2 EMOD GMOD IX IY IZ KX KY AREA]. cbn [nth row] in *. repeat split; assumption.
Qed.
(** Files with the fully populated matrix: no result, and no error *)
Theorem C94_full_matrix_none : forall o r m s L, cols o = Some fpm -> element_stiffnessmatrix o r m s L = Ok None /\ forall z, shape_function_ori o r m s L z = Ok None.
Proof. intros o r m s L H. unfold element_stiffnessmatrix, shape_function_ori, beam_at. rewrite H. split; reflexivity. Qed.

(** ** Examples *)
Definition example_beam : beam := mk_beam (1#10) (-1#5) 200 80 3 2 5 (1#2) (1#2) 7.
Example solid_example : solid example_beam /\ 0 < 4 /\ ~ KX example_beam * IX example_beam == KY example_beam * IY example_beam.
Proof. unfold solid. cbn. repeat split; try reflexivity. discriminate. Qed.
Example round_beam_example : solid (mk_beam 0 0 200 80 3 3 5 (1#2) (1#2) 7) /\ KX (mk_beam 0 0 200 80 3 3 5 (1#2) (1#2) 7) * 3 == KY (mk_beam 0 0 200 80 3 3 5 (1#2) (1#2) 7) * 3.
Proof. unfold solid. cbn. repeat split; reflexivity. Qed.
Definition example_row (r : Q) : list Q := [r; 1; 2; 3; 4; 5; 1#10; -1#5; 200; 80; 3; 2; 5; 1#2; 1#2; 7; 0; 0; 0].
Definition example_file : st Q := mk_st [(1%Z, [(2%Z, [example_row 0; example_row 10])])] (Some stc).
Example file_example : exists b, element_stiffnessmatrix example_file 10 1 2 4 = Ok (Some (stiffness b 4)) /\ EMOD b == 200 /\ KY b == 1 # 2.
Proof.
  destruct (C94_from_file example_file 1 2 [(2%Z, [example_row 0; example_row 10])] [example_row 0; example_row 10] 4 10 1 2 3 4 5 (1#10) (-1#5) 200 80 3 2 5 (1#2) (1#2) 7 0 0 0) as (b & H & _ & E);
    [reflexivity|reflexivity|reflexivity|reflexivity|repeat constructor|right; now left|]. destruct E as (_ & _ & E1 & _ & _ & _ & _ & _ & E2 & _). exists b. split; [exact H|]. split; [exact E1|exact E2].
Qed.
Print Assumptions C94_energy_partial.
Print Assumptions C94_energy_refuted.
Print Assumptions C94_energy_positive.
Print Assumptions C94_cantilever.
Print Assumptions C94_from_file.
Print Assumptions C95_rigid.
Print Assumptions C95_cantilever.
