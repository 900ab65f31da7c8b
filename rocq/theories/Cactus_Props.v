(** C118, C119: what is read of a CACTUS simulation. *)
From Verif Require Import Py PyFacts TextFacts.
From Verif Require Import Cactus_Model.
From Verif Require Import Dict.
From Coq Require Import QArith.
Local Open Scope nat_scope.

(** ** Specification *)
Definition without (cs : list ascii) (s : str) : Prop := Forall (fun c => ~ In c cs) s.
Definition blank (s : str) : Prop := Forall (fun c => is_space c = true) s.
Definition comment (s : str) : Prop := s = [] \/ exists m, s = "!"%char :: m.
Section Spec.
Variable num : str -> option Q.
(** What the text [b] after a colon says; [u] is what follows a second colon *)
Inductive says (b u : str) : gv -> Prop :=
| says_number q : forall w, split_ws b = [w] -> num w = Some q -> says b u (GNum q)
| says_numbers qs : Forall2 (fun w q => num w = Some q) (split_ws b) qs -> List.length qs <> 1 -> says b u (GArr qs)
| says_text w : In w (split_ws b) -> num w = None -> says b u (GText (match u with [] => rstrip b | _ => b end)).
(** A line of the geometry: a key, a colon, a value, a comment. What follows a second colon is lost. *)
Definition entry (line k : str) (v : gv) : Prop := exists a b u com, line = a ++ ":"%char :: b ++ u ++ com /\ without (S_ ":!") a /\ without (S_ ":!") b /\
  without (S_ "!") u /\ (u = [] \/ exists m, u = ":"%char :: m) /\ comment com /\ strip a <> [] /\ k = lower (strip a) /\ says b u v.
(** A line without a key *)
Definition idle (line : str) : Prop := exists a m, line = a ++ m /\ blank a /\ (comment m \/ exists t, m = ":"%char :: t).
(** A line with a text and no colon *)
Definition colonless (line : str) : Prop := exists a m, line = a ++ m /\ without (S_ ":!") a /\ strip a <> [] /\ comment m.
Definition line_is (line : str) (e : option (str * gv)) : Prop := match e with None => idle line | Some (k, v) => entry line k v end.
End Spec.
(** The last value given to a key *)
Fixpoint last_of (k : str) (es : list (option (str * gv))) : option gv :=
  match es with
  | [] => None
  | e :: es' => match last_of k es' with Some v => Some v | None => match e with Some (k', v) => if str_eq_dec k' k then Some v else None | None => None end end
  end.

(** ** Texts *)
Lemma without_forallb cs c s : without cs s -> In c cs -> forallb (fun x => negb (chr_eqb x c)) s = true.
Proof. intros H I. apply forallb_forall. intros x Hx. rewrite negb_true_iff. apply chr_eqb_neq. intros ->. unfold without in H. rewrite Forall_forall in H. exact (H c Hx I). Qed.
Lemma lstrip_keep x c y : is_space c = false -> lstrip (x ++ c :: y) = lstrip x ++ c :: y.
Proof. intro H. induction x as [|d x IH]; cbn [app lstrip]; [now rewrite H|]. destruct (is_space d); [exact IH|reflexivity]. Qed.
Lemma rstrip_keep s c t : is_space c = false -> rstrip (s ++ c :: t) = s ++ c :: rstrip t.
Proof. intro H. unfold rstrip. rewrite rev_app_distr. cbn [rev]. rewrite <- app_assoc. cbn [app]. rewrite lstrip_keep by exact H. rewrite rev_app_distr. cbn [rev]. rewrite rev_involutive, <- app_assoc. reflexivity. Qed.
Lemma strip_keep x c y : is_space c = false -> strip (x ++ c :: y) = lstrip x ++ c :: rstrip y.
Proof. intro H. unfold strip. rewrite lstrip_keep, rstrip_keep by exact H. reflexivity. Qed.
Lemma without_lstrip cs s : without cs s -> without cs (lstrip s).
Proof. intro H. induction s as [|c s IH]; [exact H|]. cbn [lstrip]. destruct (is_space c); [apply IH; now inversion H|exact H]. Qed.
Lemma without_rstrip cs s : without cs s -> without cs (rstrip s).
Proof. intro H. destruct (rstrip_decomp s) as [b [_ E]]. unfold without in *. rewrite E in H. now apply Forall_app in H. Qed.
Lemma without_sub cs ds s : without cs s -> incl ds cs -> without ds s.
Proof. intros H I. eapply Forall_impl; [|exact H]. intros c Hc Hd. apply Hc, I, Hd. Qed.
Lemma strip_lstrip s : strip (lstrip s) = strip s.
Proof. unfold strip. now rewrite lstrip_idem. Qed.
Lemma split_ws_rstrip s : split_ws (rstrip s) = split_ws s.
Proof. destruct (rstrip_decomp s) as [b [Hb E]]. rewrite E at 2. now rewrite split_ws_rpad. Qed.
Lemma split_first c a t : forallb (fun x => negb (chr_eqb x c)) a = true -> split_chr c (a ++ c :: t) = a :: split_chr c t.
Proof. intro H. apply (split_on_app_sep (fun x => chr_eqb x c)); [exact H|apply chr_eqb_refl]. Qed.
Lemma split_none c a : forallb (fun x => negb (chr_eqb x c)) a = true -> split_chr c a = [a].
Proof. intro H. now apply (split_on_none (fun x => chr_eqb x c)). Qed.
Lemma blank_forallb s : blank s -> forallb is_space s = true.
Proof. intro H. apply forallb_forall. now apply Forall_forall. Qed.
Lemma blank_without s : blank s -> without (S_ ":!") s.
Proof. intro H. eapply Forall_impl; [|exact H]. intros c Hc I. cbn in I. destruct I as [<-|[<-|[]]]; discriminate. Qed.
(** What is before the comment *)
Lemma before_comment s com : without (S_ "!") s -> comment com -> strip (hd [] (split_chr "!"%char (strip (s ++ com)))) = strip s.
Proof.
  intros W [-> | [m ->]].
  - rewrite app_nil_r, split_none; [cbn [hd]; apply strip_idem|]. apply (without_forallb (S_ "!")); [apply without_rstrip, without_lstrip, W|now left].
  - rewrite strip_keep by reflexivity. rewrite split_first; [cbn [hd]; now rewrite strip_lstrip|]. apply (without_forallb (S_ "!")); [apply without_lstrip, W|now left].
Qed.
Section Geometry.
Variable num : str -> option Q.
Lemma mapO_some l qs : Forall2 (fun w q => num w = Some q) l qs -> mapO num l = Some qs.
Proof. induction 1 as [|w q l qs H F IH]; [reflexivity|]. cbn [mapO]. now rewrite H, IH. Qed.
Lemma mapO_none l w : In w l -> num w = None -> mapO num l = None.
Proof. induction l as [|x l IH]; intros I N; [contradiction|]. cbn [mapO]. destruct I as [-> | I]; [now rewrite N|]. rewrite (IH I N). now destruct (num x). Qed.
Lemma says_value b u v : says num b u v -> forall s, split_ws s = split_ws b -> s = match u with [] => rstrip b | _ => b end -> geom_value num s = v.
Proof.
  intros H s E F. unfold geom_value. rewrite E. destruct H as [q w Hw Hq|qs F2 L|w I N].
  - rewrite Hw. cbn [mapO]. now rewrite Hq.
  - rewrite (mapO_some _ _ F2). destruct qs as [|q [|q' qs]]; try reflexivity. now destruct L.
  - rewrite (mapO_none _ _ I N). now rewrite F.
Qed.
Lemma entry_line g line k v : entry num line k v -> geom_line num g line = Ok (put g k v).
Proof.
  intros (a & b & u & com & -> & Wa & Wb & Wu & Hu & Hc & Na & -> & Hs). unfold geom_line. cbv zeta.
  replace (a ++ ":"%char :: b ++ u ++ com) with ((a ++ ":"%char :: b ++ u) ++ com) by (rewrite <- app_assoc; cbn [app]; now rewrite <- app_assoc).
  assert (I : incl (S_ "!") (S_ ":!")) by (intros x [<-|[]]; right; now left).
  rewrite before_comment; [|unfold without; apply Forall_app; split; [now apply (without_sub (S_ ":!"))|constructor; [intros [E|[]]; discriminate|apply Forall_app; split; [now apply (without_sub (S_ ":!"))|exact Wu]]]|exact Hc].
  rewrite strip_keep by reflexivity. rewrite split_first by (apply (without_forallb (S_ ":!")); [now apply without_lstrip|now left]). cbn [hd]. rewrite strip_lstrip.
  assert (NE : nonempty (lower (strip a)) = true) by (destruct (strip a); [congruence|reflexivity]). rewrite NE.
  destruct Hu as [-> | [m ->]].
  - rewrite app_nil_r. rewrite split_none by (apply (without_forallb (S_ ":!")); [now apply without_rstrip|now left]). now rewrite (says_value _ _ _ Hs _ (split_ws_rstrip b) eq_refl).
  - rewrite rstrip_keep by reflexivity. rewrite split_first by (apply (without_forallb (S_ ":!")); [exact Wb|now left]). now rewrite (says_value _ _ _ Hs b eq_refl eq_refl).
Qed.
Lemma idle_line g line : idle line -> geom_line num g line = Ok g.
Proof.
  intros (a & m & -> & B & H). unfold geom_line. cbv zeta. pose proof (blank_forallb _ B) as BF. destruct H as [C | [t ->]].
  - rewrite before_comment; [|apply (without_sub (S_ ":!")); [now apply blank_without|intros x [<-|[]]; right; now left]|exact C]. rewrite (strip_blank a) by exact BF. reflexivity.
  - rewrite strip_keep by reflexivity. rewrite lstrip_blank by exact BF. cbn [app].
    assert (E : exists r, hd [] (split_chr "!"%char (":"%char :: rstrip t)) = ":"%char :: r). { unfold split_chr. cbn [split_on]. change (chr_eqb ":" "!") with false. cbv iota. destruct (split_on _ (rstrip t)) as [|w ws]; eexists; reflexivity. }
    destruct E as [r ->]. change (":"%char :: r) with ([] ++ ":"%char :: r). rewrite strip_keep by reflexivity. cbn [lstrip app]. unfold split_chr. cbn [split_on]. change (chr_eqb ":" ":") with true. cbv iota. reflexivity.
Qed.
Lemma colonless_line g line : colonless line -> geom_line num g line = Err IndexError.
Proof.
  intros (a & m & -> & W & N & C). unfold geom_line. cbv zeta. rewrite before_comment; [|apply (without_sub (S_ ":!")); [exact W|intros x [<-|[]]; right; now left]|exact C].
  rewrite split_none by (apply (without_forallb (S_ ":!")); [now apply without_rstrip, without_lstrip|now left]). cbn [hd]. rewrite strip_idem.
  assert (NE : nonempty (lower (strip a)) = true) by (destruct (strip a); [congruence|reflexivity]). now rewrite NE.
Qed.
Definition put_entry (g : @dict gv) (e : option (str * gv)) : @dict gv := match e with Some (k, v) => put g k v | None => g end.
Lemma line_ok g line e : line_is num line e -> geom_line num g line = Ok (put_entry g e).
Proof. destruct e as [[k v]|]; [apply entry_line|apply idle_line]. Qed.
Lemma lines_ok : forall lines es g i, Forall2 (line_is num) lines es -> i + List.length lines <= 11 -> geom_lines num g i lines = Ok (fold_left put_entry es g).
Proof.
  intros lines es g i F. revert g i. induction F as [|l e lines es H F IH]; intros g i L; [reflexivity|]. cbn [geom_lines]. rewrite (line_ok _ _ _ H). cbn [bind fold_left]. cbn [List.length] in L.
  unfold NMAX. destruct (Nat.eqb_spec i 10) as [->|Ni].
  - destruct lines; [inversion F; subst; reflexivity|cbn [List.length] in L; lia].
  - apply IH. lia.
Qed.
Lemma lines_cut : forall lines es rest g i, Forall2 (line_is num) lines es -> i + List.length lines = 11 -> i <= 10 -> geom_lines num g i (lines ++ rest) = Ok (fold_left put_entry es g).
Proof.
  intros lines es rest g i F. revert g i. induction F as [|l e lines es H F IH]; intros g i L Li; [cbn in L; lia|]. cbn [app geom_lines]. rewrite (line_ok _ _ _ H). cbn [bind fold_left]. cbn [List.length] in L.
  unfold NMAX. destruct (Nat.eqb_spec i 10) as [->|Ni].
  - destruct lines; [inversion F; subst; reflexivity|cbn [List.length] in L; lia].
  - apply IH; lia.
Qed.
Lemma lines_bad : forall lines es bad rest g i, Forall2 (line_is num) lines es -> colonless bad -> i + List.length lines <= 10 -> geom_lines num g i (lines ++ bad :: rest) = Err IndexError.
Proof.
  intros lines es bad rest g i F B. revert g i. induction F as [|l e lines es H F IH]; intros g i L; cbn [app geom_lines].
  - now rewrite (colonless_line _ _ B).
  - rewrite (line_ok _ _ _ H). cbn [bind]. cbn [List.length] in L. unfold NMAX. destruct (Nat.eqb_spec i 10) as [->|Ni]; [lia|]. apply IH. lia.
Qed.
Lemma get_fold es : forall g k, get (fold_left put_entry es g) k = match last_of k es with Some v => Some v | None => get g k end.
Proof.
  induction es as [|e es IH]; intros g k; [reflexivity|]. cbn [fold_left last_of]. rewrite IH. destruct (last_of k es); [reflexivity|]. destruct e as [[k' v]|]; [|reflexivity]. cbn [put_entry].
  destruct (str_eq_dec k' k) as [->|N]; [apply get_put_same|]. apply get_put_other. congruence.
Qed.

(** C118: the first eleven lines of the geometry are read, the last value of a key counts, whatever the later lines are. *)
Theorem C118_geometry path lines es : Forall2 (line_is num) (firstn 11 lines) es ->
  exists g, read_geom num path (Some lines) = Ok g /\ get g (S_ "file") = Some (GText path) /\ forall k, k <> S_ "file" -> get g k = last_of k es.
Proof.
  intro F. exists (put (fold_left put_entry es []) (S_ "file") (GText path)). split; [|split].
  - unfold read_geom. destruct (Nat.le_gt_cases (List.length lines) 11) as [L|L].
    + rewrite firstn_all2 in F by exact L. now rewrite (lines_ok _ _ [] 0 F) by exact L.
    + assert (L1 : List.length (firstn 11 lines) = 11) by (rewrite firstn_length; lia). rewrite <- (firstn_skipn 11 lines) at 1. rewrite (lines_cut _ _ (skipn 11 lines) [] 0 F) by lia. reflexivity.
  - apply get_put_same.
  - intros k N. rewrite get_put_other by exact N. rewrite get_fold. now destruct (last_of k es).
Qed.
(** C118: without a geometry file: one blade, a reference radius of one metre (in feet), an aspect ratio of two, and no file. *)
Theorem C118_no_file path : exists g, read_geom num path None = Ok g /\ get g (S_ "nblade") = Some (GInt 1) /\
  (exists r, get g (S_ "refr") = Some (GNum r) /\ r == 3 + (28084 # 100000))%Q /\ (exists a, get g (S_ "refar") = Some (GNum a) /\ a == 2)%Q /\
  get g (S_ "file") = Some GNone /\ forall k, ~ In k [S_ "nblade"; S_ "refr"; S_ "refar"; S_ "file"] -> get g k = None.
Proof.
  eexists. split; [reflexivity|]. split; [reflexivity|]. split; [eexists; split; [reflexivity|reflexivity]|]. split; [eexists; split; [reflexivity|reflexivity]|]. split; [reflexivity|].
  intros k N. cbn [In] in N. unfold default_geom, get. cbn [find fst snd]. repeat match goal with |- context [str_eqb ?a ?b] => replace (str_eqb a b) with false by (symmetry; apply str_eqb_neq; intro X; apply N; rewrite X; tauto) end. reflexivity.
Qed.
(** C118: one of these lines with a text and no colon is an error. *)
Theorem C118_no_colon path lines es bad rest : Forall2 (line_is num) lines es -> List.length lines <= 10 -> colonless bad -> read_geom num path (Some (lines ++ bad :: rest)) = Err IndexError.
Proof. intros F L B. unfold read_geom. now rewrite (lines_bad _ _ _ _ [] 0 F B) by exact L. Qed.
(** C118: every line is of one of the three kinds. *)
Theorem C118_every_line line : (exists e, line_is num line e) \/ colonless line.
Proof.
  assert (S1 : forall cs (s : str), exists a r, s = a ++ r /\ without cs a /\ (r = [] \/ exists c t, r = c :: t /\ In c cs)).
  { intros cs s. induction s as [|c s (a & r & -> & W & H)]; [exists [], []; repeat split; [constructor|now left]|].
    destruct (in_dec ascii_dec c cs) as [I|N]; [exists [], (c :: a ++ r); repeat split; [constructor|right; now exists c, (a ++ r)]|exists (c :: a), r; repeat split; [constructor; assumption|exact H]]. }
  destruct (S1 (S_ ":!") line) as (a & r & -> & W & H).
  assert (B : strip a = [] -> blank a). { intro E. apply Forall_forall. destruct (forallb is_space a) eqn:D; [now apply forallb_forall|]. exfalso.
    assert (exists x c y, a = x ++ c :: y /\ is_space c = false) as (x & c & y & -> & C). { clear - D. induction a as [|c a IH]; [discriminate|]. cbn in D. destruct (is_space c) eqn:C; [destruct (IH D) as (x & d & y & -> & H); now exists (c :: x), d, y|now exists [], c, a]. }
    rewrite strip_keep in E by exact C. now destruct (lstrip x). }
  destruct H as [-> | (c & t & -> & I)].
  - destruct (strip a) as [|c0 s0] eqn:E; [left; exists None; exists a, []; repeat split; [now apply B|left; now left]|right; exists a, []; repeat split; [exact W|congruence|now left]].
  - assert (c = ":"%char \/ c = "!"%char) as [-> | ->] by (cbn in I; destruct I as [<-|[<-|[]]]; [left|right]; reflexivity).
    + destruct (strip a) as [|c0 s0] eqn:E; [left; exists None; exists a, (":"%char :: t); repeat split; [now apply B|right; now exists t]|]. left.
      destruct (S1 (S_ ":!") t) as (b & r & -> & Wb & Hr).
      assert (exists u com, r = u ++ com /\ without (S_ "!") u /\ (u = [] \/ exists m, u = ":"%char :: m) /\ comment com) as (u & com & -> & Wu & Hu & Hc).
      { destruct Hr as [-> | (c & t & -> & I')]; [exists [], []; repeat split; [constructor|now left|now left]|].
        assert (c = ":"%char \/ c = "!"%char) as [-> | ->] by (cbn in I'; destruct I' as [<-|[<-|[]]]; [left|right]; reflexivity).
        - destruct (S1 (S_ "!") t) as (m & com & -> & Wm & Hm). exists (":"%char :: m), com. repeat split; [constructor; [intros [D|[]]; discriminate|exact Wm]|right; now exists m|]. destruct Hm as [->|(d & t & -> & [<-|[]])]; [now left|right; now exists t].
        - exists [], ("!"%char :: t). repeat split; [constructor|now left|right; now exists t]. }
      assert (exists v, says num b u v) as [v Hv].
      { assert (D : (exists qs, Forall2 (fun w q => num w = Some q) (split_ws b) qs) \/ exists w, In w (split_ws b) /\ num w = None).
        { induction (split_ws b) as [|w ws [(qs & F)|(x & I1 & I2)]]; [left; exists []; constructor| |right; exists x; split; [now right|exact I2]].
          destruct (num w) as [q|] eqn:Q0; [left; exists (q :: qs); now constructor|right; exists w; split; [now left|exact Q0]]. }
        destruct D as [(qs & F)|(x & I1 & I2)]; [|eexists; now apply (says_text num b u x)].
        destruct (Nat.eq_dec (List.length qs) 1) as [L|L]; [|exists (GArr qs); now constructor].
        destruct qs as [|q [|]]; try discriminate. inversion F as [|w ? ws ? Hq F' E1]; subst. inversion F'; subst. exists (GNum q). now apply (says_number num b u q w). }
      exists (Some (lower (strip a), v)). exists a, b, u, com. repeat split; try assumption; try congruence.
    + destruct (strip a) as [|c0 s0] eqn:E; [left; exists None; exists a, ("!"%char :: t); repeat split; [now apply B|left; right; now exists t]|right; exists a, ("!"%char :: t); repeat split; [exact W|congruence|right; now exists t]].
Qed.
End Geometry.
(** C118, refuted for long files: a value after the eleventh line is not read. *)
Theorem C118_long_refuted : forall num path lines, List.length lines = 11 -> Forall idle lines -> forall rest, exists g, read_geom num path (Some (lines ++ rest)) = Ok g /\ map fst g = [S_ "file"].
Proof.
  intros num path lines L F rest. exists [(S_ "file", GText path)]. split; [|reflexivity]. unfold read_geom. rewrite (lines_cut num lines (map (fun _ => None) lines) rest [] 0).
  - replace (fold_left put_entry (map (fun _ => None) lines) []) with (@nil (str * gv)); [reflexivity|]. clear. induction lines as [|l ls IH]; [reflexivity|exact IH].
  - clear L. induction F as [|l ls H F IH]; constructor; [exact H|exact IH].
  - exact L.
  - lia.
Qed.

(** ** Names of the time data *)
Definition fx : str := S_ "Blade Fx Coeff. (-)".
Definition blade_names (i : nat) : list str :=
  [S_ "Blade" ++ str_of_N (N.of_nat i) ++ S_ " Fx Coeff. (-)"; S_ "Blade" ++ str_of_N (N.of_nat i) ++ S_ " Fy Coeff. (-)";
   S_ "Blade" ++ str_of_N (N.of_nat i) ++ S_ " Fz Coeff. (-)"; S_ "Blade" ++ str_of_N (N.of_nat i) ++ S_ " Torque Coeff. (-)"].
(** A table as CACTUS writes it: eight columns of the rotor, then four of each blade, the first of them called [fx] *)
Definition time_table (n : nat) (df : frame) : Prop := exists (rotor : frame) (bl : list frame), df = rotor ++ concat bl /\ List.length rotor = 8 /\ ~ In fx (map fst rotor) /\ List.length bl = n /\
  Forall (fun b => exists c1 c2 c3 c4, b = [(fx, c1); c2; c3; c4] /\ ~ In fx (map fst [c2; c3; c4])) bl.
Lemma count_app k a b : count_name k (a ++ b) = count_name k a + count_name k b.
Proof. unfold count_name. now rewrite filter_app, app_length. Qed.
Lemma count_none k a : ~ In k a -> count_name k a = 0.
Proof. induction a as [|x a IH]; intro N; [reflexivity|]. unfold count_name in *. cbn [filter]. destruct (str_eqb k x) eqn:E; [apply str_eqb_eq in E; subst; destruct N; now left|]. apply IH. intro C. apply N. now right. Qed.
Lemma count_blades bl : Forall (fun b : frame => exists c1 c2 c3 c4, b = [(fx, c1); c2; c3; c4] /\ ~ In fx (map fst [c2; c3; c4])) bl ->
  count_name fx (map fst (concat bl)) = List.length bl /\ List.length (concat bl) = 4 * List.length bl.
Proof.
  induction 1 as [|b bl (c1 & c2 & c3 & c4 & -> & N) F [I1 I2]]; [split; reflexivity|]. cbn [concat]. rewrite map_app, count_app, app_length. cbn [List.length]. split; [|rewrite I2; lia].
  rewrite I1. change (map fst [(fx, c1); c2; c3; c4]) with ([fx] ++ map fst [c2; c3; c4]). rewrite count_app, (count_none _ _ N). reflexivity.
Qed.
Lemma nblades_table n df : time_table n df -> nblades df = n /\ List.length df = 8 + 4 * n.
Proof.
  intros (rotor & bl & -> & L & N & Lb & F). destruct (count_blades _ F) as [C1 C2]. unfold nblades, names. change (S_ "Blade Fx Coeff. (-)") with fx.
  rewrite map_app, count_app, (count_none _ _ N), C1, app_length, C2. rewrite Lb, L. split; reflexivity.
Qed.
Lemma flat_length l : List.length (flat_map (fun i => blade_cols (i + 1)) l) = 4 * List.length l.
Proof. induction l as [|i l IH]; [reflexivity|]. cbn [flat_map]. rewrite app_length, IH. cbn [blade_cols map List.length]. lia. Qed.
Lemma combine_fst {A B} (a : list A) (b : list B) : List.length a = List.length b -> map fst (combine a b) = a.
Proof. revert b. induction a as [|x a IH]; intros [|y b] H; try discriminate; [reflexivity|]. cbn. f_equal. apply IH. now injection H. Qed.
Lemma combine_snd {A B} (a : list A) (b : list B) : List.length a = List.length b -> map snd (combine a b) = b.
Proof. revert b. induction a as [|x a IH]; intros [|y b] H; try discriminate; [reflexivity|]. cbn. f_equal. apply IH. now injection H. Qed.

(** C119: the columns keep their numbers and their order; the first eight keep their names, the others are numbered by blade. *)
Theorem C119_names n df : time_table n df ->
  exists df', rename df = Ok df' /\ map snd df' = map snd df /\ map fst df' = firstn 8 (map fst df) ++ flat_map blade_names (seq 1 n).
Proof.
  intro T. destruct (nblades_table _ _ T) as [B L]. unfold rename. assert (E : List.length (new_names df) = List.length df).
  { unfold new_names, FIRST, names. rewrite app_length, firstn_length, map_length, flat_length, seq_length, B, L. lia. }
  rewrite E, Nat.eqb_refl. exists (combine (new_names df) (map snd df)). split; [reflexivity|]. assert (E' : List.length (new_names df) = List.length (map snd df)) by now rewrite map_length.
  split; [now apply combine_snd|]. rewrite combine_fst by exact E'. unfold new_names, FIRST, names. rewrite B. f_equal. rewrite <- seq_shift, !flat_map_concat_map, map_map. f_equal. apply map_ext. intro i. now rewrite Nat.add_1_r.
Qed.
(** C119: any other number of columns is refused. *)
Theorem C119_other_size df n : List.length (filter (fun c => if str_eq_dec (fst c) fx then true else false) df) = n -> List.length df <> min 8 (List.length df) + 4 * n -> rename df = Err ValueError.
Proof.
  intros C L. assert (B : nblades df = n).
  { subst n. unfold nblades, count_name, names. change (S_ "Blade Fx Coeff. (-)") with fx. clear L. induction df as [|[k v] df IH]; [reflexivity|]. cbn [map fst filter]. destruct (str_eq_dec k fx) as [->|N].
    - rewrite str_eqb_refl. cbn [List.length]. now rewrite IH.
    - destruct (str_eqb fx k) eqn:E; [apply str_eqb_eq in E; congruence|exact IH]. }
  unfold rename. destruct (Nat.eqb_spec (List.length (new_names df)) (List.length df)) as [E|E]; [|reflexivity]. exfalso. apply L. rewrite <- E at 1. unfold new_names, FIRST, names.
  rewrite app_length, firstn_length, map_length, flat_length, seq_length, B. reflexivity.
Qed.
(** C119: the whole reading. The two groups of the namelist are kept, the number of blades is that of the time data, and files that are missing are
    answered by None; of the dynamic stall data also a file that is empty. *)
Theorem C119_read num nml geometry co ca ap path g : get nml (S_ "configinputs") = Some co -> get nml (S_ "caseinputs") = Some ca ->
  get ca (S_ "afdpath") = Some (GText ap) -> get ca (S_ "geomfilepath") = Some (GText path) -> read_geom num path (geometry path) = Ok g ->
  (forall elem ds e d, (elem = Missing /\ e = None \/ exists x, elem = Found x /\ e = Some x) -> (ds = Missing /\ d = None \/ ds = Empty /\ d = None \/ exists x, ds = Found x /\ d = Some x) ->
    (exists o, read_cactus num nml geometry Missing elem ds = Ok o /\ config o = co /\ cases o = ca /\ geom o = g /\ dfTime o = None /\ dfElem o = e /\ dfDS o = d) /\
    (forall n df, time_table n df -> exists o df', read_cactus num nml geometry (Found df) elem ds = Ok o /\ config o = co /\ cases o = ca /\ rename df = Ok df' /\ dfTime o = Some df' /\ dfElem o = e /\ dfDS o = d /\
       get (geom o) (S_ "nblade") = Some (GInt n) /\ forall k, k <> S_ "nblade" -> get (geom o) k = get g k)) /\
  (forall elem ds, read_cactus num nml geometry Empty elem ds = Err EmptyFileError).
Proof.
  intros H1 H2 H3 H4 H5. assert (P : forall (K : @dict gv -> @dict gv -> @dict gv -> res cactus),
    (co <- group nml "configinputs" ;; ca <- group nml "caseinputs" ;; a <- item ca "afdpath" ;; _ <- text a ;; p <- item ca "geomfilepath" ;; p <- text p ;; g <- read_geom num p (geometry p) ;; K co ca g) = K co ca g).
  { intro K. unfold group, item. rewrite H1. cbn [bind]. rewrite H2. cbn [bind]. rewrite H3. cbn [bind text]. rewrite H4. cbn [bind text]. now rewrite H5. }
  split; [intros elem ds e d He Hd; split|].
  - unfold read_cactus. rewrite (P (fun co ca g => _)). cbn [bind].
    destruct He as [[-> ->]|(x & -> & ->)]; destruct Hd as [[-> ->]|[[-> ->]|(y & -> & ->)]]; cbn [bind]; eexists; repeat split.
  - intros n df T. destruct (C119_names _ _ T) as (df' & R & _). destruct (nblades_table _ _ T) as [B _]. unfold read_cactus. rewrite (P (fun co ca g => _)). rewrite R. cbn [bind]. rewrite B.
    destruct He as [[-> ->]|(x & -> & ->)]; destruct Hd as [[-> ->]|[[-> ->]|(y & -> & ->)]]; cbn [bind]; eexists; exists df'; repeat split; cbn [geom]; try apply get_put_same; intros k N; now apply get_put_other.
  - intros elem ds. unfold read_cactus. now rewrite (P (fun co ca g => _)).
Qed.

(** ** The hypotheses are met *)
Definition ex_num (s : str) : option Q := match N_of_str s with Some n => Some (inject_Z (Z.of_N n)) | None => None end.
Definition ex_geo : list str := [S_ "NBlade: 3 ! blades"; S_ "! nothing"; S_ " RefR :  8 "; S_ "RotN: 0 0 1"; S_ "Type: VAWT : old"; []].
Example ex_lines : Forall2 (line_is ex_num) (firstn 11 ex_geo) [Some (S_ "nblade", GNum 3); None; Some (S_ "refr", GNum 8); Some (S_ "rotn", GArr [0; 0; 1]%Q); Some (S_ "type", GText (S_ " VAWT ")); None].
Proof.
  assert (W : forall cs s, forallb (fun c => negb (existsb (chr_eqb c) cs)) s = true -> without cs s).
  { intros cs s H. apply Forall_forall. intros c Hc I. rewrite forallb_forall in H. specialize (H c Hc). apply negb_true_iff in H. assert (existsb (chr_eqb c) cs = true) by (apply existsb_exists; exists c; split; [exact I|apply chr_eqb_refl]). congruence. }
  repeat (apply Forall2_cons); [| | | | | |constructor].
  - exists (S_ "NBlade"), (S_ " 3 "), [], (S_ "! blades"). repeat split; try (apply W; reflexivity); [now left|right; now exists (S_ " blades")|discriminate|]. now apply (says_number _ _ _ 3 (S_ "3")).
  - exists [], (S_ "! nothing"). repeat split; [constructor|left; right; now exists (S_ " nothing")].
  - exists (S_ " RefR "), (S_ "  8 "), [], []. repeat split; try (apply W; reflexivity); [now left|now left|discriminate|]. now apply (says_number _ _ _ 8 (S_ "8")).
  - exists (S_ "RotN"), (S_ " 0 0 1"), [], []. repeat split; try (apply W; reflexivity); [now left|now left|discriminate|]. apply says_numbers; [repeat constructor|discriminate].
  - exists (S_ "Type"), (S_ " VAWT "), (S_ ": old"), []. repeat split; try (apply W; reflexivity); [right; now exists (S_ " old")|now left|discriminate|]. apply (says_text ex_num (S_ " VAWT ") (S_ ": old") (S_ "VAWT")); [now left|reflexivity].
  - exists [], []. repeat split; [constructor|left; now left].
Qed.
Example ex_bad : colonless (S_ "RefR 8 ! radius").
Proof. exists (S_ "RefR 8 "), (S_ "! radius"). repeat split; [|discriminate|right; now exists (S_ " radius")]. repeat constructor; cbn; intuition discriminate. Qed.
Example ex_table : exists df, time_table 2 df /\ List.length df = 16.
Proof.
  exists (map (fun k => (S_ k, [1; 2]%Q)) ["Normalized Time (-)"; "Theta (rad)"; "Rev"; "Torque Coeff. (-)"; "Power Coeff. (-)"; "Fx Coeff. (-)"; "Fy Coeff. (-)"; "Fz Coeff. (-)"]%string ++
    concat (repeat (map (fun k => (S_ k, [3; 4]%Q)) ["Blade Fx Coeff. (-)"; "Blade Fy Coeff. (-)"; "Blade Fz Coeff. (-)"; "Blade Torque Coeff. (-)"]%string) 2)).
  split; [|reflexivity]. eexists _, (repeat _ 2). split; [reflexivity|]. repeat split; [cbn; intuition discriminate|].
  assert (E : forall b : frame, (exists c1 c2 c3 c4, b = [(fx, c1); c2; c3; c4] /\ ~ In fx (map fst [c2; c3; c4])) -> Forall (fun b => exists c1 c2 c3 c4, b = [(fx, c1); c2; c3; c4] /\ ~ In fx (map fst [c2; c3; c4])) (repeat b 2)) by (intros b H; repeat constructor; exact H).
  apply E. do 4 eexists. split; [reflexivity|]. cbn; intuition discriminate.
Qed.

Print Assumptions C118_geometry.
Print Assumptions C118_no_file.
Print Assumptions C118_no_colon.
Print Assumptions C118_every_line.
Print Assumptions C118_long_refuted.
Print Assumptions C119_names.
Print Assumptions C119_other_size.
Print Assumptions C119_read.
