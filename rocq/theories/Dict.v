(** Python dictionaries with string keys, in insertion order. *)
From Verif Require Import Py PyFacts.

Section Dict.
  Context {V : Type}.
  Definition dict := list (str * V).
  (** [d[k]] / [d.get(k)] *)
  Definition get (d : dict) (k : str) : option V := option_map snd (find (fun e => str_eqb (fst e) k) d).
  Definition has (d : dict) (k : str) : bool := existsb (fun e => str_eqb (fst e) k) d.
  (** [d[k] = v]: an existing key keeps its place. *)
  Fixpoint put (d : dict) (k : str) (v : V) : dict :=
    match d with
    | [] => [(k, v)]
    | e :: d' => if str_eqb (fst e) k then (k, v) :: d' else e :: put d' k v
    end.
  (** [d.update(e)] *)
  Definition update (d e : dict) : dict := fold_left (fun acc p => put acc (fst p) (snd p)) e d.
  (** [del d[k]] / [d.pop(k)] on an existing key. *)
  Definition del (d : dict) (k : str) : dict := filter (fun e => negb (str_eqb (fst e) k)) d.

  Lemma get_put_same d k v : get (put d k v) k = Some v.
  Proof.
    induction d as [|[k' v'] d IH]; unfold get; cbn [put find fst].
    - rewrite str_eqb_refl. reflexivity.
    - destruct (str_eqb k' k) eqn:E; cbn [find fst].
      + rewrite str_eqb_refl. reflexivity.
      + rewrite E. exact IH.
  Qed.
  Lemma get_put_other d k k' v : k' <> k -> get (put d k v) k' = get d k'.
  Proof.
    intro H. induction d as [|[k0 v0] d IH]; unfold get; cbn [put find fst].
    - destruct (str_eqb k k') eqn:E; [apply str_eqb_eq in E; congruence | reflexivity].
    - destruct (str_eqb k0 k) eqn:E; cbn [find fst].
      + apply str_eqb_eq in E. subst k0. destruct (str_eqb k k') eqn:E; [apply str_eqb_eq in E; congruence | reflexivity].
      + destruct (str_eqb k0 k'); [reflexivity | exact IH].
  Qed.
  Lemma has_get d k : has d k = match get d k with Some _ => true | None => false end.
  Proof. unfold has, get. induction d as [|[k0 v0] d IH]; [reflexivity|]. cbn [existsb find fst]. destruct (str_eqb k0 k); [reflexivity | exact IH]. Qed.
  Lemma has_in d k : has d k = true <-> In k (map fst d).
  Proof.
    unfold has. rewrite existsb_exists, in_map_iff. split; intros [x [H1 H2]]; exists x.
    - apply str_eqb_eq in H2. split; assumption.
    - split; [exact H2|]. subst k. apply str_eqb_refl.
  Qed.
  Lemma put_new d k v : ~ In k (map fst d) -> put d k v = d ++ [(k, v)].
  Proof.
    induction d as [|[k0 v0] d IH]; intro H; [reflexivity|]. cbn [put fst]. destruct (str_eqb k0 k) eqn:E.
    - apply str_eqb_eq in E. exfalso. apply H. left. exact E.
    - cbn [app]. f_equal. apply IH. intro C. apply H. right. exact C.
  Qed.
  Lemma update_new d e : NoDup (map fst d ++ map fst e) -> update d e = d ++ e.
  Proof.
    revert d. induction e as [|[k v] e IH]; intros d H; [cbn; symmetry; apply app_nil_r|].
    unfold update. cbn [fold_left fst snd]. cbn [map fst] in H. pose proof (NoDup_remove_2 _ _ _ H) as N.
    rewrite put_new by (intro C; apply N; apply in_or_app; left; exact C).
    change (update (d ++ [(k, v)]) e = d ++ (k, v) :: e). rewrite IH.
    - rewrite <- app_assoc. reflexivity.
    - rewrite map_app. cbn [map fst]. rewrite <- app_assoc. exact H.
  Qed.
  Lemma get_in d k v : NoDup (map fst d) -> In (k, v) d -> get d k = Some v.
  Proof.
    induction d as [|[k0 v0] d IH]; intros H1 H2; [contradiction|]. cbn [map fst] in H1. inversion H1 as [|? ? N1 N2]; subst.
    unfold get. cbn [find fst]. destruct H2 as [E|H2].
    - injection E as -> ->. rewrite str_eqb_refl. reflexivity.
    - destruct (str_eqb k0 k) eqn:E; [|apply IH; assumption]. apply str_eqb_eq in E. subst k0. exfalso. apply N1.
      apply in_map_iff. exists (k, v). split; [reflexivity | exact H2].
  Qed.
  Lemma get_some_in d k v : get d k = Some v -> In (k, v) d.
  Proof.
    unfold get. destruct (find _ d) as [[k' v']|] eqn:E; [|discriminate]. cbn. intro H. injection H as ->.
    apply find_some in E. destruct E as [E1 E2]. cbn [fst] in E2. apply str_eqb_eq in E2. subst k'. exact E1.
  Qed.
  Lemma put_keys d k v : map fst (put d k v) = if has d k then map fst d else map fst d ++ [k].
  Proof.
    induction d as [|[k0 v0] d IH]; [reflexivity|]. cbn [put has existsb fst map]. destruct (str_eqb k0 k) eqn:E; cbn [map fst orb].
    - apply str_eqb_eq in E. subst. reflexivity.
    - rewrite IH. unfold has. destruct (existsb _ d); reflexivity.
  Qed.
  Lemma get_del_same d k : get (del d k) k = None.
  Proof.
    unfold get, del. induction d as [|[k0 v0] d IH]; [reflexivity|]. cbn [filter fst]. destruct (str_eqb k0 k) eqn:E; cbn [negb]; [exact IH|].
    cbn [find fst]. rewrite E. exact IH.
  Qed.
  Lemma get_del_other d k k' : k' <> k -> get (del d k) k' = get d k'.
  Proof.
    intro H. unfold get, del. induction d as [|[k0 v0] d IH]; [reflexivity|]. cbn [filter fst]. destruct (str_eqb k0 k) eqn:E; cbn [negb find fst].
    - apply str_eqb_eq in E. subst k0. destruct (str_eqb k k') eqn:F; [apply str_eqb_eq in F; congruence | exact IH].
    - destruct (str_eqb k0 k'); [reflexivity | exact IH].
  Qed.
End Dict.
Arguments dict V : clear implicits.
