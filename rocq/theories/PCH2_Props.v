(** Properties of the lift of PC files on a grid of whole degrees. *)
From Verif Require Import Py FASTOut_Model AEPC_Model.
From Verif Require AEPC_Interp.
From Verif Require Import PCH2_Model.
From Coq Require Import QArith Lia Lqa Sorting.Sorted.
Local Open Scope nat_scope.

(** ** Specification *)
(** The same number, both not a number, or the same exception *)
Definition same (r r' : res (option Q)) : Prop :=
  match r, r' with
  | Ok (Some v), Ok (Some w) => (v == w)%Q
  | Ok None, Ok None => True
  | Err e, Err e' => e = e'
  | _, _ => False
  end.

(** ** Facts *)
Lemma same_refl r : same r r.
Proof. destruct r as [[v|]|e]; cbn; [apply Qeq_refl|exact I|reflexivity]. Qed.
Lemma Qle_bool_comp a b c d : (a == c)%Q -> (b == d)%Q -> Qle_bool a b = Qle_bool c d.
Proof.
  intros E F. destruct (Qle_bool a b) eqn:A, (Qle_bool c d) eqn:B; try reflexivity; exfalso.
  - apply Qle_bool_iff in A. assert (X : (c <= d)%Q) by lra. apply Qle_bool_iff in X. rewrite X in B. discriminate B.
  - apply Qle_bool_iff in B. assert (X : (a <= b)%Q) by lra. apply Qle_bool_iff in X. rewrite X in A. discriminate A.
Qed.
Definition iv (x : Q) (tab : list (Q * Q)) : Q := match interp x tab with Ok v => v | Err _ => 0%Q end.
Lemma interp_iv x tab : tab <> [] -> interp x tab = Ok (iv x tab).
Proof. intro N. unfold iv. destruct (AEPC_Interp.interp_total tab x N) as (v & V). rewrite V. reflexivity. Qed.
(** Moving the table by [s] moves the values. *)
Definition moved (s : Q) (a b : Q * Q) : Prop := (fst a == fst b + s)%Q /\ (snd a == snd b)%Q.
Lemma from_moved s x y t t' : Forall2 (moved s) t t' -> forall a b a' b', moved s (a, b) (a', b') -> (x == y + s)%Q -> (interp_from x a b t == interp_from y a' b' t')%Q.
Proof.
  intro F. induction F as [|[c d] [c' d'] t t' (M1 & M2) F IH]; intros a b a' b' (A1 & A2) E; cbn [interp_from fst snd] in *; [exact A2|].
  rewrite (Qle_bool_comp c x (c' + s) (y + s) M1 E). assert (Q : Qle_bool (c' + s) (y + s) = Qle_bool c' y).
  { destruct (Qle_bool c' y) eqn:X; [apply Qle_bool_iff in X; apply Qle_bool_iff; lra|]. destruct (Qle_bool (c' + s) (y + s)) eqn:Y; [|reflexivity].
    apply Qle_bool_iff in Y. assert (W : (c' <= y)%Q) by lra. apply Qle_bool_iff in W. rewrite W in X. discriminate X. }
  rewrite Q. destruct (Qle_bool c' y); [apply IH; [split; assumption|exact E]|].
  rewrite A1, A2, M1, M2, E. setoid_replace (c' + s - (a' + s))%Q with (c' - a')%Q by ring. setoid_replace (y + s - (a' + s))%Q with (y - a')%Q by ring. reflexivity.
Qed.
Lemma iv_moved s x y t t' : Forall2 (moved s) t t' -> (x == y + s)%Q -> (iv x t == iv y t')%Q.
Proof.
  intros F E. unfold iv. destruct F as [|[c d] [c' d'] t t' M F]; [reflexivity|]. cbn [interp].
  assert (Q : Qle_bool c x = Qle_bool c' y).
  { destruct M as (M1 & _). cbn [fst] in M1. rewrite (Qle_bool_comp c x (c' + s) (y + s) M1 E).
    destruct (Qle_bool c' y) eqn:X; [apply Qle_bool_iff in X; apply Qle_bool_iff; lra|]. destruct (Qle_bool (c' + s) (y + s)) eqn:Y; [|reflexivity].
    apply Qle_bool_iff in Y. assert (W : (c' <= y)%Q) by lra. apply Qle_bool_iff in W. rewrite W in X. discriminate X. }
  rewrite Q. destruct (Qle_bool c' y); [|exact (proj2 M)]. apply (from_moved s x y t t' F); assumption.
Qed.
Lemma shifted_moved c p : Forall2 (moved 180) (shifted c p) (columns c p).
Proof. unfold shifted, columns. induction p as [|r p IH]; cbn [map]; constructor; [split; cbn [fst snd]; reflexivity|exact IH]. Qed.
Lemma iv_comp x y t : (x == y)%Q -> (iv x t == iv y t)%Q.
Proof.
  intro E. apply (iv_moved 0); [|lra]. induction t as [|[a b] t IH]; constructor; [split; cbn [fst snd]; [lra|reflexivity]|exact IH].
Qed.
Definition mixq (w0 w1 u v : Q) : Q := (u + (v - u) * w0 / w1)%Q.
Lemma mix_comp w0 w1 u v u' v' : (u == u')%Q -> (v == v')%Q -> (mixq w0 w1 u v == mixq w0 w1 u' v')%Q.
Proof. intros E F. unfold mixq. rewrite E, F. reflexivity. Qed.
Lemma map_res_all {A B} (f : A -> res B) (g : A -> B) l : (forall x, f x = Ok (g x)) -> map_res f l = Ok (map g l).
Proof. intro H. induction l as [|x l IH]; [reflexivity|]. cbn [map_res map]. rewrite H. cbn [bind]. rewrite IH. reflexivity. Qed.
Lemma on_grid_ok c p : p <> [] -> on_grid c p = Ok (map (fun d => iv d (shifted c p)) degrees).
Proof. intro N. unfold on_grid. apply map_res_all. intro x. apply interp_iv. destruct p; [contradiction|discriminate]. Qed.
Lemma on_grid_empty c : on_grid c [] = Err ValueError.
Proof. reflexivity. Qed.
Definition grid (w0 w1 : Q) (c : nat) (p0 p1 : list (list Q)) : list (Q * Q) := map (fun d => (d, mixq w0 w1 (iv d (shifted c p0)) (iv d (shifted c p1)))) degrees.
Lemma combine_blend w0 w1 (f g : Q -> Q) (l : list Q) : combine l (blend w0 w1 (map f l) (map g l)) = map (fun d => (d, mixq w0 w1 (f d) (g d))) l.
Proof. unfold blend. induction l as [|d l IH]; [reflexivity|]. cbn [map combine]. f_equal. exact IH. Qed.
Lemma shape ths profs t : (exists e, forall alpha c, Cxxx ths profs t alpha c = Err e /\ CxxxH2 ths profs t alpha c = Err e) \/
  (forall alpha c, Cxxx ths profs t alpha c = Ok None /\ CxxxH2 ths profs t alpha c = Ok None) \/
  exists p0 p1 w0 w1, forall alpha c, Cxxx ths profs t alpha c = Ok (Some (mixq w0 w1 (iv alpha (columns c p0)) (iv alpha (columns c p1)))) /\
    CxxxH2 ths profs t alpha c = Ok (Some (iv (alpha + 180) (grid w0 w1 c p0 p1))).
Proof.
  unfold Cxxx, CxxxH2. cbv zeta. set (index := if searchsorted ths t =? 0 then 1 else searchsorted ths t).
  destruct (firstn 2 (skipn (index - 1) profs)) as [|p0 [|p1 [|? ?]]]; try (left; exists ValueError; intros; split; reflexivity).
  destruct p0 as [|r0 p0]; [left; exists ValueError; intros; split; reflexivity|].
  destruct p1 as [|r1 p1].
  { left. exists ValueError. intros alpha c. rewrite (interp_iv alpha (columns c (r0 :: p0))) by discriminate. rewrite (on_grid_ok c (r0 :: p0)) by discriminate. split; reflexivity. }
  destruct (firstn 2 (skipn (index - 1) ths)) as [|th0 [|th1 [|? ?]]];
    try (left; exists ValueError; intros alpha c; rewrite !interp_iv by discriminate; rewrite !on_grid_ok by discriminate; split; reflexivity).
  destruct (Qeq_bool th1 th0) eqn:E; [right; left; intros alpha c; rewrite !interp_iv by discriminate; rewrite !on_grid_ok by discriminate; split; reflexivity|].
  right. right. exists (r0 :: p0), (r1 :: p1), (t - th0)%Q, (th1 - th0)%Q. intros alpha c.
  rewrite (interp_iv alpha (columns c (r0 :: p0))) by discriminate. rewrite (interp_iv alpha (columns c (r1 :: p1))) by discriminate.
  rewrite !on_grid_ok by discriminate. cbn [bind]. split; [reflexivity|]. rewrite combine_blend. fold (grid (t - th0) (th1 - th0) c (r0 :: p0) (r1 :: p1)).
  rewrite interp_iv by discriminate. reflexivity.
Qed.
Lemma degrees_sorted : StronglySorted Qlt degrees.
Proof.
  unfold degrees. generalize 360 as k. generalize 0 as a. intros a k. revert a. induction k as [|k IH]; intro a; [constructor|]. cbn [seq map]. constructor; [apply IH|].
  rewrite Forall_forall. intros x X. apply in_map_iff in X. destruct X as (i & <- & I). apply in_seq in I. rewrite <- Zlt_Qlt. lia.
Qed.
Lemma grid_sorted w0 w1 c p0 p1 : StronglySorted Qlt (map fst (grid w0 w1 c p0 p1)).
Proof. unfold grid. rewrite map_map. rewrite map_ext with (g := fun d => d) by reflexivity. rewrite map_id. exact degrees_sorted. Qed.
Lemma degrees_nth i : i < 360 -> nth_error degrees i = Some (inject_Z (Z.of_nat i)).
Proof.
  intro I. unfold degrees. rewrite nth_error_map. rewrite (nth_error_nth' _ 0) by (rewrite seq_length; exact I). rewrite seq_nth by exact I. reflexivity.
Qed.
Lemma grid_nth w0 w1 c p0 p1 i : i < 360 -> nth_error (grid w0 w1 c p0 p1) i =
  Some (inject_Z (Z.of_nat i), mixq w0 w1 (iv (inject_Z (Z.of_nat i)) (shifted c p0)) (iv (inject_Z (Z.of_nat i)) (shifted c p1))).
Proof. intro I. unfold grid. rewrite nth_error_map, (degrees_nth i I). reflexivity. Qed.
(** The value of the grid at a whole angle *)
Lemma grid_value w0 w1 c p0 p1 a i : (Z.of_nat i = a + 180)%Z ->
  (mixq w0 w1 (iv (inject_Z (Z.of_nat i)) (shifted c p0)) (iv (inject_Z (Z.of_nat i)) (shifted c p1)) == mixq w0 w1 (iv (inject_Z a) (columns c p0)) (iv (inject_Z a) (columns c p1)))%Q.
Proof.
  intro E. assert (X : (inject_Z (Z.of_nat i) == inject_Z a + 180)%Q) by (rewrite E, inject_Z_plus; reflexivity).
  apply mix_comp; apply (iv_moved 180); try exact X; apply shifted_moved.
Qed.
Lemma at_whole w0 w1 c p0 p1 a : (-180 <= a <= 179)%Z ->
  (iv (inject_Z a + 180) (grid w0 w1 c p0 p1) == mixq w0 w1 (iv (inject_Z a) (columns c p0)) (iv (inject_Z a) (columns c p1)))%Q.
Proof.
  intro A. set (i := Z.to_nat (a + 180)). assert (I : (Z.of_nat i = a + 180)%Z) by lia. assert (L : i < 360) by lia.
  rewrite <- (grid_value w0 w1 c p0 p1 a i I). assert (X : (inject_Z a + 180 == inject_Z (Z.of_nat i))%Q) by (rewrite I, inject_Z_plus; reflexivity).
  rewrite (iv_comp _ _ _ X). pose proof (nth_error_In _ _ (grid_nth w0 w1 c p0 p1 i L)) as Y.
  apply AEPC_Interp.interp_at in Y; [|apply grid_sorted]. destruct Y as (v & V & W). unfold iv at 1. rewrite V. exact W.
Qed.
Lemma at_between w0 w1 c p0 p1 a x : (-180 <= a <= 178)%Z -> (inject_Z a <= x < inject_Z a + 1)%Q ->
  let u := mixq w0 w1 (iv (inject_Z a) (columns c p0)) (iv (inject_Z a) (columns c p1)) in
  let v := mixq w0 w1 (iv (inject_Z (a + 1)) (columns c p0)) (iv (inject_Z (a + 1)) (columns c p1)) in
  (iv (x + 180) (grid w0 w1 c p0 p1) == u + (v - u) * (x - inject_Z a))%Q.
Proof.
  intros A X u v. set (i := Z.to_nat (a + 180)). assert (I : (Z.of_nat i = a + 180)%Z) by lia. assert (I' : (Z.of_nat (S i) = a + 1 + 180)%Z) by lia.
  pose proof (grid_value w0 w1 c p0 p1 a i I) as U. pose proof (grid_value w0 w1 c p0 p1 (a + 1) (S i) I') as V. fold u in U. fold v in V.
  assert (Y : (inject_Z (Z.of_nat i) == inject_Z a + 180)%Q) by (rewrite I, inject_Z_plus; reflexivity).
  assert (Z : (inject_Z (Z.of_nat (S i)) == inject_Z a + 181)%Q). { rewrite I'. replace (a + 1 + 180)%Z with (a + 181)%Z by lia. rewrite inject_Z_plus. reflexivity. }
  unfold iv at 1. rewrite (AEPC_Interp.interp_between _ (grid_sorted w0 w1 c p0 p1) i _ _ _ _ (x + 180)%Q (grid_nth w0 w1 c p0 p1 i ltac:(lia)) (grid_nth w0 w1 c p0 p1 (S i) ltac:(lia))) by lra.
  rewrite U, V, Y, Z. field. lra.
Qed.
Lemma at_right w0 w1 c p0 p1 x : (179 <= x)%Q -> (iv (x + 180) (grid w0 w1 c p0 p1) == mixq w0 w1 (iv 179 (columns c p0)) (iv 179 (columns c p1)))%Q.
Proof.
  intro X. assert (G : exists g, grid w0 w1 c p0 p1 = g ++ [(359, mixq w0 w1 (iv 359 (shifted c p0)) (iv 359 (shifted c p1)))]%Q).
  { unfold grid, degrees. change 360 with (359 + 1). rewrite seq_app, !map_app. eexists. reflexivity. }
  assert (B : forall p, In p (grid w0 w1 c p0 p1) -> (fst p <= x + 180)%Q).
  { intros p P. unfold grid, degrees in P. apply in_map_iff in P. destruct P as (d & <- & D). apply in_map_iff in D. destruct D as (i & <- & I). apply in_seq in I. cbn [fst].
    assert (W : (inject_Z (Z.of_nat i) <= inject_Z 359)%Q) by (rewrite <- Zle_Qle; lia). change (inject_Z 359) with 359%Q in W. lra. }
  destruct G as (g & G). unfold iv at 1. rewrite G in *. rewrite (AEPC_Interp.interp_outside_right g _ _ _ B).
  exact (grid_value w0 w1 c p0 p1 179 359 eq_refl).
Qed.
Lemma at_left w0 w1 c p0 p1 x : (x <= -180)%Q -> (iv (x + 180) (grid w0 w1 c p0 p1) == mixq w0 w1 (iv (-180) (columns c p0)) (iv (-180) (columns c p1)))%Q.
Proof.
  intro X. apply Qle_lteq in X. destruct X as [X|X]; [|rewrite (iv_comp (x + 180) (inject_Z (-180) + 180)%Q _) by (change (inject_Z (-180)) with (-180)%Q; lra); apply at_whole; lia].
  assert (G : exists g, grid w0 w1 c p0 p1 = (0, mixq w0 w1 (iv 0 (shifted c p0)) (iv 0 (shifted c p1)))%Q :: g).
  { unfold grid, degrees. change 360 with (1 + 359). rewrite seq_app, !map_app. eexists. reflexivity. }
  destruct G as (g & G). unfold iv at 1. rewrite G. rewrite AEPC_Interp.interp_outside_left by lra. exact (grid_value w0 w1 c p0 p1 (-180) 0 eq_refl).
Qed.

(** ** The lift on whole degrees *)
(** At whole degrees from -180 to 179 it is the lift. *)
Theorem C155_whole : forall sets t a nr, (-180 <= a <= 179)%Z -> same (CL_H2 sets t (inject_Z a) nr) (CL sets t (inject_Z a) nr).
Proof.
  intros sets t a nr A. unfold CL_H2, CL, coefficient. destruct (zget sets nr) as [[ths profs]|]; [|reflexivity].
  destruct (shape ths profs t) as [(e & H)|[H|(p0 & p1 & w0 & w1 & H)]]; destruct (H (inject_Z a) 1) as (H1 & H2); rewrite H1, H2; cbn [same]; [reflexivity|exact I|].
  apply at_whole. exact A.
Qed.
(** Between two whole degrees it is on the straight line between the lifts there. *)
Theorem C155_between : forall sets t a nr u v x, (-180 <= a <= 178)%Z -> CL sets t (inject_Z a) nr = Ok (Some u) -> CL sets t (inject_Z (a + 1)) nr = Ok (Some v) ->
  (inject_Z a <= x < inject_Z a + 1)%Q -> exists w, CL_H2 sets t x nr = Ok (Some w) /\ (w == u + (v - u) * (x - inject_Z a))%Q.
Proof.
  intros sets t a nr u v x A U V X. unfold CL_H2, CL, coefficient in *. destruct (zget sets nr) as [[ths profs]|]; [|discriminate U].
  destruct (shape ths profs t) as [(e & H)|[H|(p0 & p1 & w0 & w1 & H)]].
  - rewrite (proj1 (H _ 1)) in U. discriminate U.
  - rewrite (proj1 (H _ 1)) in U. discriminate U.
  - rewrite (proj1 (H _ 1)) in U. injection U as <-. rewrite (proj1 (H _ 1)) in V. injection V as <-. rewrite (proj2 (H x 1)). eexists. split; [reflexivity|].
    apply at_between; assumption.
Qed.
(** FINDING: from 179 degrees on it is the lift at 179 degrees, also at 180 where the polar has its own value. *)
Theorem C155_right_refuted : forall sets t nr x, (179 <= x)%Q -> same (CL_H2 sets t x nr) (CL sets t 179 nr).
Proof.
  intros sets t nr x X. unfold CL_H2, CL, coefficient. destruct (zget sets nr) as [[ths profs]|]; [|reflexivity].
  destruct (shape ths profs t) as [(e & H)|[H|(p0 & p1 & w0 & w1 & H)]]; rewrite (proj1 (H 179%Q 1)), (proj2 (H x 1)); cbn [same]; [reflexivity|exact I|].
  apply at_right. exact X.
Qed.
(** Below -180 degrees it is the lift at -180 degrees. *)
Theorem C155_left : forall sets t nr x, (x <= -180)%Q -> same (CL_H2 sets t x nr) (CL sets t (-180) nr).
Proof.
  intros sets t nr x X. unfold CL_H2, CL, coefficient. destruct (zget sets nr) as [[ths profs]|]; [|reflexivity].
  destruct (shape ths profs t) as [(e & H)|[H|(p0 & p1 & w0 & w1 & H)]]; rewrite (proj1 (H (-180)%Q 1)), (proj2 (H x 1)); cbn [same]; [reflexivity|exact I|].
  apply at_left. exact X.
Qed.
(** It fails exactly when the lift does, with the same exception, whatever the angle. *)
Theorem C155_fails : forall sets t nr x y e, CL_H2 sets t x nr = Err e <-> CL sets t y nr = Err e.
Proof.
  intros sets t nr x y e. unfold CL_H2, CL, coefficient. destruct (zget sets nr) as [[ths profs]|]; [|tauto].
  destruct (shape ths profs t) as [(e' & H)|[H|(p0 & p1 & w0 & w1 & H)]]; rewrite (proj1 (H y 1)), (proj2 (H x 1)); [tauto|split; discriminate|split; discriminate].
Qed.

(** ** Examples *)
Definition polar : list (list Q) := [[-180; 0; 1; 0]; [1 # 2; 1; 1; 0]; [180; 0; 1; 0]]%Q.
Definition two : list (Z * (list Q * list (list (list Q)))) := [(1%Z, ([21; 24]%Q, [polar; polar]))].
Definition lift (r : res (option Q)) : option Q := match r with Ok (Some v) => Some (Qred v) | _ => None end.
(** FINDING: a point of the polar between two whole degrees is cut off. *)
Theorem C155_kink_refuted : exists sets t x nr u v, CL sets t x nr = Ok (Some u) /\ CL_H2 sets t x nr = Ok (Some v) /\ (u == 1)%Q /\ ~ (v == 1)%Q.
Proof.
  exists two, 22%Q, (1 # 2)%Q, 1%Z. destruct (CL two 22 (1 # 2) 1) as [[u|]|] eqn:U; try (vm_compute in U; discriminate U).
  destruct (CL_H2 two 22 (1 # 2) 1) as [[v|]|] eqn:V; try (vm_compute in V; discriminate V). exists u, v. split; [reflexivity|]. split; [reflexivity|].
  vm_compute in U. injection U as <-. vm_compute in V. injection V as <-. split; [reflexivity|discriminate].
Qed.
Example lift_1 : lift (CL two 22 10 1) = Some (340 # 359)%Q /\ lift (CL_H2 two 22 10 1) = Some (340 # 359)%Q /\ lift (CL_H2 two 22 (21 # 2) 1) = Some (339 # 359)%Q.
Proof. split; [|split]; vm_compute; reflexivity. Qed.
Example right_1 : lift (CL two 22 180 1) = Some 0%Q /\ lift (CL_H2 two 22 180 1) = Some (2 # 359)%Q.
Proof. split; vm_compute; reflexivity. Qed.
Example between_met : exists u v, CL two 22 (inject_Z 10) 1 = Ok (Some u) /\ CL two 22 (inject_Z (10 + 1)) 1 = Ok (Some v).
Proof. eexists. eexists. split; reflexivity. Qed.
Example fails_1 : CL_H2 two 25 10 1 = Err ValueError /\ CL_H2 two 22 10 2 = Err KeyError.
Proof. split; vm_compute; reflexivity. Qed.
Print Assumptions C155_whole.
Print Assumptions C155_between.
Print Assumptions C155_right_refuted.
Print Assumptions C155_left.
Print Assumptions C155_fails.
Print Assumptions C155_kink_refuted.
