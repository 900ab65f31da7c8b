(** C47: step wind files. *)
From Verif Require Import Py PyFacts ListFacts Wind_Model.
From Coq Require Import QArith Qround Qminmax Lqa ZifyBool ZifyNat.
Local Open Scope nat_scope.

(** ** What is asked: the speeds, the duration of each step and its start *)
Definition speed (WSstep WSmin : Q) (i : nat) : Q := (WSmin + inject_Z (Z.of_nat i) * WSstep)%Q.
(** A speed is used as long as it is below WSmax + WSstep. *)
Definition number_of_steps (WSstep WSmin WSmax : Q) (n : nat) : Prop :=
  (0 < WSstep)%Q /\ 0 < n /\ (speed WSstep WSmin (n - 1) < WSmax + WSstep)%Q /\ (WSmax + WSstep <= speed WSstep WSmin n)%Q.
(** The duration of step [i] among [n]: the number given, or going from the first to the second one given, rounded to
    seconds (to even halves). *)
Definition duration (tstep : durations) (n i : nat) : Q :=
  match tstep with
  | Number d => d
  | Sequence l => around (if n =? 1 then nth 0 l 0 else nth 0 l 0 + inject_Z (Z.of_nat i) * ((nth 1 l 0 - nth 0 l 0) / inject_Z (Z.of_nat (n - 1))))%Q
  end.
Definition usable (tstep : durations) : Prop := match tstep with Number _ => True | Sequence l => 2 <= List.length l end.
Fixpoint start (tmin : Q) (dur : nat -> Q) (i : nat) : Q := match i with O => tmin | S i' => (start tmin dur i' + dur i')%Q end.
(** Time and wind speed of row [r] *)
Definition time_at (rows : list (list Q)) (r : nat) : option Q := match nth_error rows r with Some (t :: _) => Some t | _ => None end.
Definition speed_at (rows : list (list Q)) (r : nat) : option Q := match nth_error rows r with Some (_ :: s :: _) => Some s | _ => None end.

(** ** Lemmas *)
Lemma steps_length WSstep WSmin WSmax n : number_of_steps WSstep WSmin WSmax n -> Z.to_nat (Qceiling ((WSmax + WSstep - WSmin) / WSstep)) = n.
Proof.
  intros (P & N & H1 & H2). unfold speed in *. set (x := ((WSmax + WSstep - WSmin) / WSstep)%Q).
  assert (X : (x * WSstep == WSmax + WSstep - WSmin)%Q) by (unfold x; field; intro E; rewrite E in P; discriminate P).
  assert (U : (x <= inject_Z (Z.of_nat n))%Q).
  { apply (Qmult_le_r _ _ WSstep P). rewrite X. lra. }
  assert (L : (inject_Z (Z.of_nat (n - 1)) < x)%Q).
  { apply (Qmult_lt_r _ _ WSstep P). rewrite X. lra. }
  pose proof (Qle_ceiling x) as C1. pose proof (Qceiling_lt x) as C2.
  assert (A : (Qceiling x <= Z.of_nat n)%Z). { rewrite <- (Qceiling_Z (Z.of_nat n)). apply Qceiling_resp_le. exact U. }
  assert (B : (Z.of_nat (n - 1) < Qceiling x)%Z). { rewrite Zlt_Qlt. eapply Qlt_le_trans; [exact L|exact C1]. }
  lia.
Qed.
Lemma upd_ok {A} (l : list A) i v : i < List.length l -> upd l i v = Some (firstn i l ++ v :: skipn (S i) l).
Proof.
  revert i. induction l as [|x l IH]; intros [|i] H; cbn [List.length] in H; try lia; [reflexivity|]. cbn [upd]. rewrite IH by lia. reflexivity.
Qed.
Lemma upd_nth {A} (l l' : list A) i v : upd l i v = Some l' -> List.length l' = List.length l /\ forall k, nth_error l' k = if k =? i then Some v else nth_error l k.
Proof.
  revert i l'. induction l as [|x l IH]; intros i l' H; [discriminate H|]. destruct i as [|i]; cbn [upd] in H.
  - injection H as <-. split; [reflexivity|]. intros [|k]; reflexivity.
  - destruct (upd l i v) as [l1|] eqn:E; [|discriminate H]. injection H as <-. destruct (IH _ _ E) as [L N]. split; [cbn; lia|]. intros [|k]; [reflexivity|]. cbn [nth_error]. rewrite N. reflexivity.
Qed.
Lemma set_ok m i v : i < List.length m -> exists m', set_ m i v = Ok m' /\ List.length m' = List.length m /\ forall k, nth_error m' k = if k =? i then Some v else nth_error m k.
Proof.
  intro H. unfold set_. rewrite (upd_ok m i v H). eexists. split; [reflexivity|]. apply upd_nth with (v := v) (i := i). apply upd_ok. exact H.
Qed.

(** ** C47: the rows of the table.  Each step has a row at its start and, dt before its end, a second row with the same speed;
    the last row closes the last step, or extends it to tmax; the other columns are zero. *)
Theorem C47_rows WSstep WSmin WSmax tstep dt tmin tmax n :
  number_of_steps WSstep WSmin WSmax n -> usable tstep ->
  let dur := duration tstep n in let T := start tmin dur in let v := speed WSstep WSmin in
  exists rows, stepWind WSstep WSmin WSmax tstep dt tmin tmax = Ok rows /\ List.length rows = 2 * n /\
    time_at rows 0 = Some tmin /\ speed_at rows 0 = Some WSmin /\
    (forall i, 0 < i < n -> time_at rows (2 * i) = Some (T i) /\ speed_at rows (2 * i) = Some (v i)) /\
    (forall i, i < n - 1 -> time_at rows (2 * i + 1) = Some (T i + dur i - dt)%Q /\ speed_at rows (2 * i + 1) = Some (v i)) /\
    time_at rows (2 * n - 1) = Some (Qmax tmax (T (n - 1) + dur (n - 1)%nat)) /\ speed_at rows (2 * n - 1) = Some WSmax /\
    (forall r, In r rows -> List.length r = 8 /\ skipn 2 r = repeat 0%Q 6).
Proof.
  intros NS U dur T v. pose proof (steps_length _ _ _ _ NS) as SL. destruct NS as (P & N & _ & _).
  unfold stepWind, arange. destruct (Qeq_bool WSstep 0) eqn:Q0; [apply Qeq_bool_eq in Q0; rewrite Q0 in P; discriminate P|]. cbn [bind]. rewrite SL.
  set (steps := map _ (seq 0 n)). assert (LS : List.length steps = n) by (unfold steps; rewrite map_length, seq_length; reflexivity). rewrite LS.
  assert (HS : forall i, i < n -> nth_error steps i = Some (v i)) by (intros i Hi; unfold steps; rewrite map_seq_nth_error by exact Hi; reflexivity).
  assert (HT : exists ts, match tstep with Number d => Ok (repeat d n) | Sequence l => a <- at_ l 0 ;; b <- at_ l 1 ;; Ok (map around (linspace a b n)) end = Ok ts /\ List.length ts = n /\ forall i, i < n -> nth_error ts i = Some (dur i)).
  { destruct tstep as [d|l]; cbn [usable] in U.
    - exists (repeat d n). split; [reflexivity|]. split; [apply repeat_length|]. intros i Hi. unfold dur, duration. apply nth_error_repeat. exact Hi.
    - destruct l as [|a [|b l]]; cbn [List.length] in U; try lia. cbn [at_ nth_error bind]. eexists. split; [reflexivity|]. unfold linspace. rewrite !map_length, seq_length. split; [reflexivity|].
      intros i Hi. rewrite map_map, map_seq_nth_error by exact Hi. reflexivity. }
  destruct HT as (ts & ET & LT & HT). rewrite ET. cbn [bind].
  destruct (set_ok (repeat (0, 0)%Q (n * 2)) 0 (tmin, WSmin)) as (m0 & E0 & L0 & N0); [rewrite repeat_length; lia|]. rewrite E0. cbn [bind]. rewrite repeat_length in L0.
  assert (V0 : forall r : nat, r <= 0 -> 0 < n -> nth_error m0 (2 * r) = Some (start tmin dur r, match r with O => WSmin | _ => v r end)).
  { intros r R _. replace r with 0 by lia. rewrite N0. reflexivity. }
  set (v' := fun r => match r with O => WSmin | _ => v r end).
  (* the speed of the first row is WSmin itself; v 0 is WSmin + 0 * WSstep *)
  assert (LOOP : exists m' , loop steps ts dt (seq 0 (n - 1)) m0 tmin = Ok (m', start tmin dur (n - 1)) /\ List.length m' = n * 2 /\
     (forall r, r <= n - 1 -> 0 < n -> nth_error m' (2 * r) = Some (start tmin dur r, v' r)) /\
     (forall r, r < n - 1 -> nth_error m' (2 * r + 1) = Some ((start tmin dur r + dur r - dt)%Q, v r))).
  { clear -HS LS HT N0 L0 N V0.
    (* generalised over the first row *)
    assert (G : forall k i m, i + k = n - 1 -> List.length m = n * 2 ->
      (forall r, r <= i -> 0 < n -> nth_error m (2 * r) = Some (start tmin dur r, v' r)) ->
      (forall r, r < i -> nth_error m (2 * r + 1) = Some ((start tmin dur r + dur r - dt)%Q, v r)) ->
      exists m', loop steps ts dt (seq i k) m (start tmin dur i) = Ok (m', start tmin dur (n - 1)) /\ List.length m' = n * 2 /\
        (forall r, r <= n - 1 -> 0 < n -> nth_error m' (2 * r) = Some (start tmin dur r, v' r)) /\
        (forall r, r < n - 1 -> nth_error m' (2 * r + 1) = Some ((start tmin dur r + dur r - dt)%Q, v r))).
    { induction k as [|k IH]; intros i m E L H1 H2.
      - exists m. replace i with (n - 1) in * by lia. cbn [seq loop]. auto.
      - cbn [seq loop]. unfold at_. rewrite (HT i), (HS i) by lia. cbn [bind]. replace (i <? List.length steps - 1) with true by (symmetry; apply Nat.ltb_lt; lia).
        rewrite (HS (i + 1)) by lia. cbn [bind].
        destruct (set_ok m (2 * i + 1) ((start tmin dur i + dur i - dt)%Q, v i)) as (m1 & E1 & L1 & N1); [lia|]. rewrite E1. cbn [bind].
        destruct (set_ok m1 (2 * i + 2) ((start tmin dur i + dur i)%Q, v (i + 1))) as (m2 & E2 & L2 & N2); [lia|]. rewrite E2. cbn [bind].
        change (start tmin dur i + dur i)%Q with (start tmin dur (S i)) in *. apply IH; [lia|lia| |].
        + intros r R R0. rewrite N2. destruct (Nat.eqb_spec (2 * r) (2 * i + 2)) as [Q|Q].
          * replace r with (S i) by lia. replace (i + 1) with (S i) by lia. reflexivity.
          * rewrite N1. destruct (Nat.eqb_spec (2 * r) (2 * i + 1)); [lia|]. apply H1; lia.
        + intros r R. rewrite N2. destruct (Nat.eqb_spec (2 * r + 1) (2 * i + 2)); [lia|]. rewrite N1. destruct (Nat.eqb_spec (2 * r + 1) (2 * i + 1)) as [Q|Q].
          * replace r with i by lia. reflexivity.
          * apply H2. lia. }
    apply (G (n - 1) 0 m0); [lia|lia|exact V0|intros r R; lia]. }
  destruct LOOP as (m' & EL & LL & R1 & R2). rewrite EL. cbn [bind]. unfold at_last, at_. rewrite LT, (HT (n - 1)) by lia. cbn [bind].
  destruct (set_ok m' (n * 2 - 1) (Qmax tmax (start tmin dur (n - 1) + dur (n - 1)%nat), WSmax)) as (m2 & E2 & L2 & N2); [lia|]. rewrite E2. cbn [bind].
  eexists. split; [reflexivity|]. rewrite map_length. split; [lia|].
  assert (AT : forall r p, nth_error m2 r = Some p -> time_at (map (fun p => fst p :: snd p :: repeat 0%Q 6) m2) r = Some (fst p) /\ speed_at (map (fun p => fst p :: snd p :: repeat 0%Q 6) m2) r = Some (snd p)).
  { intros r p H. unfold time_at, speed_at. rewrite nth_error_map, H. split; reflexivity. }
  assert (A0 : nth_error m2 0 = Some (tmin, WSmin)). { rewrite N2. destruct (Nat.eqb_spec 0 (n * 2 - 1)); [lia|]. apply (R1 0); lia. }
  apply AT in A0. split; [apply A0|]. split; [apply A0|]. split; [|split; [|split; [|split]]].
  - intros i Hi. assert (A : nth_error m2 (2 * i) = Some (T i, v i)).
    { rewrite N2. destruct (Nat.eqb_spec (2 * i) (n * 2 - 1)); [lia|]. rewrite R1 by lia. destruct i; [lia|reflexivity]. }
    apply AT in A. exact A.
  - intros i Hi. assert (A : nth_error m2 (2 * i + 1) = Some ((T i + dur i - dt)%Q, v i)).
    { rewrite N2. destruct (Nat.eqb_spec (2 * i + 1) (n * 2 - 1)); [lia|]. apply R2. exact Hi. }
    apply AT in A. exact A.
  - assert (A : nth_error m2 (2 * n - 1) = Some (Qmax tmax (T (n - 1) + dur (n - 1)%nat), WSmax)).
    { rewrite N2. replace (2 * n - 1) with (n * 2 - 1) by lia. rewrite Nat.eqb_refl. reflexivity. }
    apply AT in A. apply A.
  - assert (A : nth_error m2 (2 * n - 1) = Some (Qmax tmax (T (n - 1) + dur (n - 1)%nat), WSmax)).
    { rewrite N2. replace (2 * n - 1) with (n * 2 - 1) by lia. rewrite Nat.eqb_refl. reflexivity. }
    apply AT in A. apply A.
  - intros r Hr. apply in_map_iff in Hr. destruct Hr as (p & <- & _). split; reflexivity.
Qed.

(** The times are strictly increasing and start at tmin. *)
Theorem C47_times_increasing WSstep WSmin WSmax tstep dt tmin tmax n :
  number_of_steps WSstep WSmin WSmax n -> usable tstep -> (0 < dt)%Q -> (forall i, i < n -> (dt < duration tstep n i)%Q) ->
  exists rows, stepWind WSstep WSmin WSmax tstep dt tmin tmax = Ok rows /\ List.length rows = 2 * n /\ time_at rows 0 = Some tmin /\
    forall r, r + 1 < 2 * n -> exists t t', time_at rows r = Some t /\ time_at rows (r + 1) = Some t' /\ (t < t')%Q.
Proof.
  intros NS U D0 D. destruct (C47_rows _ _ _ tstep dt tmin tmax n NS U) as (rows & E & L & T0 & _ & TS & TE & TL & _ & _).
  exists rows. split; [exact E|]. split; [exact L|]. split; [exact T0|]. intros r R.
  set (dur := duration tstep n) in *. set (T := start tmin dur) in *.
  assert (TS' : forall i, i < n -> time_at rows (2 * i) = Some (T i)) by (intros [|i] Hi; [exact T0|apply TS; lia]).
  destruct (Nat.Even_or_Odd r) as [[i Hi]|[i Hi]]; subst r.
  - exists (T i). destruct (Nat.eq_dec i (n - 1)) as [->|Ne].
    + exists (Qmax tmax (T (n - 1) + dur (n - 1)%nat)). split; [apply TS'; lia|]. split; [replace (2 * (n - 1) + 1) with (2 * n - 1) by lia; exact TL|].
      pose proof (Q.le_max_r tmax (T (n - 1) + dur (n - 1)%nat)). pose proof (D (n - 1) ltac:(lia)). lra.
    + eexists. split; [apply TS'; lia|]. split; [apply TE; lia|]. pose proof (D i ltac:(lia)). unfold T. lra.
  - eexists _, (T (i + 1)). split; [apply TE; lia|]. split; [replace (2 * i + 1 + 1) with (2 * (i + 1)) by lia; apply TS'; lia|].
    replace (i + 1) with (S i) by lia. unfold T. cbn [start]. lra.
Qed.
(** When WSmax is reached by whole steps, the last step has the speed WSmax too: every speed from WSmin to WSmax is held. *)
Theorem C47_last_speed_held WSstep WSmin WSmax n k :
  number_of_steps WSstep WSmin WSmax n -> (WSmax == WSmin + inject_Z (Z.of_nat k) * WSstep)%Q -> n = k + 1 /\ (speed WSstep WSmin (n - 1) == WSmax)%Q.
Proof.
  intros (P & N & H1 & H2) E. unfold speed in *. assert (A : n = k + 1).
  { assert (H3 : (inject_Z (Z.of_nat (n - 1)) * WSstep < (inject_Z (Z.of_nat k) + 1) * WSstep)%Q) by lra.
    assert (H4 : ((inject_Z (Z.of_nat k) + 1) * WSstep <= inject_Z (Z.of_nat n) * WSstep)%Q) by lra.
    apply Qmult_lt_r in H3; [|exact P]. apply Qmult_le_r in H4; [|exact P].
    change 1%Q with (inject_Z 1) in *. rewrite <- inject_Z_plus in *. rewrite <- Zlt_Qlt in H3. rewrite <- Zle_Qle in H4. lia. }
  split; [exact A|]. subst n. replace (k + 1 - 1) with k by lia. lra.
Qed.
(** There are such numbers of steps as soon as WSmin is below WSmax + WSstep. *)
Lemma C47_steps_exist WSstep WSmin WSmax : (0 < WSstep)%Q -> (WSmin < WSmax + WSstep)%Q -> exists n, number_of_steps WSstep WSmin WSmax n.
Proof.
  intros P H. set (x := ((WSmax + WSstep - WSmin) / WSstep)%Q). assert (X : (x * WSstep == WSmax + WSstep - WSmin)%Q) by (unfold x; field; intro E; rewrite E in P; discriminate P).
  assert (X0 : (0 < x)%Q). { apply (Qmult_lt_r _ _ WSstep P). rewrite X. lra. }
  assert (C0 : (0 < Qceiling x)%Z). { rewrite Zlt_Qlt. eapply Qlt_le_trans; [exact X0|]. apply Qle_ceiling. }
  exists (Z.to_nat (Qceiling x)). unfold number_of_steps, speed. split; [exact P|]. split; [lia|]. split.
  - pose proof (Qceiling_lt x) as C2. replace (Z.of_nat (Z.to_nat (Qceiling x) - 1)) with (Qceiling x - 1)%Z by lia.
    apply (Qmult_lt_r _ _ WSstep P) in C2. rewrite X in C2. lra.
  - pose proof (Qle_ceiling x) as C1. replace (Z.of_nat (Z.to_nat (Qceiling x))) with (Qceiling x) by lia. apply (Qmult_le_r _ _ WSstep P) in C1. rewrite X in C1. lra.
Qed.
(** When whole steps do not reach WSmax, the last step starts with a speed above WSmax, and does not hold it: its last row
    has WSmax. *)
Theorem C47_speed_above_maximum_refuted WSstep WSmin WSmax tstep dt tmin tmax n :
  number_of_steps WSstep WSmin WSmax n -> usable tstep -> 1 < n -> (forall k, ~ (WSmax == WSmin + inject_Z (Z.of_nat k) * WSstep)%Q) ->
  exists rows s, stepWind WSstep WSmin WSmax tstep dt tmin tmax = Ok rows /\ speed_at rows (2 * n - 2) = Some s /\ (WSmax < s)%Q /\ speed_at rows (2 * n - 1) = Some WSmax.
Proof.
  intros NS U N1 NM. destruct (C47_rows _ _ _ tstep dt tmin tmax n NS U) as (rows & E & L & _ & _ & TS & _ & _ & SL & _).
  exists rows, (speed WSstep WSmin (n - 1)). split; [exact E|]. split; [replace (2 * n - 2) with (2 * (n - 1)) by lia; apply TS; lia|]. split; [|exact SL].
  destruct NS as (P & N & H1 & H2). unfold speed in *. assert (H3 : (WSmax <= WSmin + inject_Z (Z.of_nat (n - 1)) * WSstep)%Q).
  { replace (Z.of_nat n) with (Z.of_nat (n - 1) + 1)%Z in H2 by lia. rewrite inject_Z_plus in H2. change (inject_Z 1) with 1%Q in H2. lra. }
  destruct (Qlt_le_dec WSmax (WSmin + inject_Z (Z.of_nat (n - 1)) * WSstep)) as [H4|H4]; [exact H4|]. elim (NM (n - 1)). lra.
Qed.
(** The duration of a step is the nearest whole number of seconds to the one asked, an even one if there are two. *)
Theorem C47_durations_rounded a b l n i : 1 < n -> exists k : Z,
  duration (Sequence (a :: b :: l)) n i = inject_Z k /\
  let asked := (a + inject_Z (Z.of_nat i) * ((b - a) / inject_Z (Z.of_nat (n - 1))))%Q in
  (inject_Z k - (1 # 2) <= asked)%Q /\ (asked <= inject_Z k + (1 # 2))%Q /\ ((asked == inject_Z k - (1 # 2))%Q \/ (asked == inject_Z k + (1 # 2))%Q -> Z.even k = true).
Proof.
  intro N. unfold duration. destruct (Nat.eqb_spec n 1) as [E|E]; [lia|]. cbn [nth]. set (x := (a + _)%Q). clearbody x. unfold around.
  pose proof (Qfloor_le x) as F1. pose proof (Qlt_floor x) as F2. rewrite inject_Z_plus in F2. change (inject_Z 1) with 1%Q in F2. set (f := Qfloor x) in *. clearbody f.
  destruct (Qcompare_spec (x - inject_Z f) (1 # 2)) as [C|C|C].
  - destruct (Z.even f) eqn:EV.
    + exists f. split; [reflexivity|]. cbv zeta. split; [lra|]. split; [lra|]. intros _. exact EV.
    + exists (f + 1)%Z. split; [reflexivity|]. cbv zeta. rewrite inject_Z_plus. change (inject_Z 1) with 1%Q. split; [lra|]. split; [lra|]. intros _. rewrite Z.even_add, EV. reflexivity.
  - exists f. split; [reflexivity|]. cbv zeta. split; [lra|]. split; [lra|]. intros [K|K]; lra.
  - exists (f + 1)%Z. split; [reflexivity|]. cbv zeta. rewrite inject_Z_plus. change (inject_Z 1) with 1%Q. split; [lra|]. split; [lra|]. intros [K|K]; lra.
Qed.
(** Without any step, and for an empty or one-element sequence of durations, an IndexError is raised. *)
Theorem C47_no_step WSstep WSmin WSmax tstep dt tmin tmax : (0 < WSstep)%Q -> (WSmax + WSstep <= WSmin)%Q ->
  stepWind WSstep WSmin WSmax tstep dt tmin tmax = Err IndexError.
Proof.
  intros P H. unfold stepWind, arange. destruct (Qeq_bool WSstep 0) eqn:Q0; [apply Qeq_bool_eq in Q0; rewrite Q0 in P; discriminate P|]. cbn [bind].
  assert (Z0 : Z.to_nat (Qceiling ((WSmax + WSstep - WSmin) / WSstep)) = 0).
  { assert (X : ((WSmax + WSstep - WSmin) / WSstep <= 0)%Q).
    { apply (Qmult_le_r _ _ WSstep P). assert (Y : ((WSmax + WSstep - WSmin) / WSstep * WSstep == WSmax + WSstep - WSmin)%Q) by (field; intro E; rewrite E in P; discriminate P). rewrite Y. lra. }
    apply Qceiling_resp_le in X. change (Qceiling 0) with 0%Z in X. lia. }
  rewrite Z0. cbn [seq map List.length]. destruct tstep as [d|l]; [reflexivity|]. unfold at_. destruct (nth_error l 0); [|reflexivity]. cbn [bind]. destruct (nth_error l 1); reflexivity.
Qed.
(** A sequence of durations is rounded to seconds, so that times can go backwards although every duration given is above dt. *)
Theorem C47_rounded_durations_refuted : exists rows t t', stepWind 1 3 4 (Sequence [2 # 5; 2 # 5]) (1 # 10) 0 0 = Ok rows /\ time_at rows 0 = Some t /\ time_at rows 1 = Some t' /\ (t' < t)%Q.
Proof. eexists _, _, _. split; [vm_compute; reflexivity|]. split; [reflexivity|]. split; [reflexivity|]. reflexivity. Qed.

(** ** The default call: 3 to 25 m/s, steps of 100 s *)
Example C47_example : number_of_steps 1 3 25 23 /\
  (forall rows, stepWind 1 3 25 (Number 100) (1 # 2) 0 999 = Ok rows -> time_at rows 45 = Some 2300%Q /\ speed_at rows 2 = Some 4%Q).
Proof.
  split.
  - repeat split; try reflexivity; try lia; vm_compute; congruence.
  - intros rows H. vm_compute in H. injection H as <-. split; reflexivity.
Qed.
Example C47_not_reached : number_of_steps 2 3 24 12 /\ forall k, ~ (24 == 3 + inject_Z (Z.of_nat k) * 2)%Q.
Proof.
  split; [repeat split; try reflexivity; try lia; vm_compute; congruence|]. intros k H.
  change 24%Q with (inject_Z 24) in H. change 3%Q with (inject_Z 3) in H. change 2%Q with (inject_Z 2) in H. rewrite <- inject_Z_mult, <- inject_Z_plus in H.
  unfold Qeq in H. cbn [Qnum Qden inject_Z] in H.
  lia.
Qed.
Print Assumptions C47_rows.
Print Assumptions C47_times_increasing.
Print Assumptions C47_last_speed_held.
Print Assumptions C47_steps_exist.
Print Assumptions C47_speed_above_maximum_refuted.
Print Assumptions C47_no_step.
Print Assumptions C47_rounded_durations_refuted.
Print Assumptions C47_durations_rounded.
