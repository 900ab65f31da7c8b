(** Theorems about OpenFAST linearization files (C81, C82). *)
From Verif Require Import Py PyFacts TextFacts Dict Lin_Model.
From Verif Require TS_Model TS_Props Tecplot_Model.
From Coq Require Import Lia.
Local Open Scope nat_scope.

(** ** Specification *)
Definition has_text (l w : str) : Prop := exists a b, l = a ++ w ++ b.
(** The first line that contains a title contains it once, and is continued by a word *)
Definition field (hs : list str) (key w : str) : Prop := exists before l after a b ws,
  hs = before ++ l :: after /\ (forall x, In x before -> ~ has_text x key) /\ l = a ++ key ++ b /\ (forall a' b', l = a' ++ key ++ b' -> a' = a) /\ split_ws b = w :: ws.
Inductive what := Wx | Wxdot | Wu | Wy | WA | WB | WC | WD | Wdudu | Wdudy | WM.
Definition title (k : what) : str :=
  match k with
  | Wx => S_ "Order of continuous states:" | Wxdot => S_ "Order of continuous state derivatives:" | Wu => S_ "Order of inputs" | Wy => S_ "Order of outputs"
  | WA => S_ "A:" | WB => S_ "B:" | WC => S_ "C:" | WD => S_ "D:" | Wdudu => S_ "dUdu:" | Wdudy => S_ "dUdy:" | WM => S_ "ED M:"
  end.
(** The key under which the values are stored *)
Definition entry (k : what) : str :=
  match k with
  | Wx => S_ "x" | Wxdot => S_ "xdot" | Wu => S_ "u" | Wy => S_ "y"
  | WA => S_ "A" | WB => S_ "B" | WC => S_ "C" | WD => S_ "D" | Wdudu => S_ "dUdu" | Wdudy => S_ "dUdy" | WM => S_ "M"
  end.
Definition is_op (k : what) : Prop := match k with Wx | Wxdot | Wu | Wy => True | _ => False end.
Definition is_mat (k : what) : Prop := match k with WA | WB | WC | WD | Wdudu | Wdudy => True | _ => False end.
(** A line with the title of one block only, and a line without any *)
Definition titled (l : str) (k : what) : Prop := has_text (strip l) (title k) /\ forall k', k' <> k -> ~ has_text (strip l) (title k').
Definition untitled (l : str) : Prop := forall k, ~ has_text (strip l) (title k).
Definition unlines (ls : list str) : str := flat_map (fun l => l ++ [nl]) ls.
Section Spec.
Context {V : Type}.
Variable num : str -> option V.
Variables nx nu ny : nat.
(** The number of lines of a block: states, inputs or outputs *)
Definition size (k : what) : nat := match k with Wx | Wxdot | WA | WB => nx | Wu | Wdudu | Wdudy => nu | Wy | WC | WD => ny | WM => 24 end.
(** A line of an operating point: number, value, frame, order of derivative if there is such a column, description; an
    orientation has three values, separated by commas, of which the first one is kept *)
Inductive value_line (deriv : bool) (l : str) : V -> str -> Z -> str -> Prop :=
| one_value i w v rot d z ds : split_ws l = i :: w :: rot :: (if deriv then d :: ds else ds) -> ~ In ","%char w -> num w = Some v -> (if deriv then int_ d = Ok z else z = (-1)%Z) -> value_line deriv l v rot z (join [sp] ds)
| three_values i w w2 w3 v rot d z ds : split_ws l = i :: (w ++ [","%char]) :: w2 :: w3 :: rot :: (if deriv then d :: ds else ds) -> num w = Some v -> (if deriv then int_ d = Ok z else z = (-1)%Z) -> value_line deriv l v rot z (join [sp] ds).
Inductive value_lines (deriv : bool) : list str -> list V -> info -> Prop :=
| vl_nil : value_lines deriv [] [] (mk_info [] [] [])
| vl_cons l ls v vs rot rots z zs ds dss : value_line deriv l v rot z ds -> value_lines deriv ls vs (mk_info rots zs dss) -> value_lines deriv (l :: ls) (v :: vs) (mk_info (rot :: rots) (z :: zs) (ds :: dss)).
(** A matrix: rows of numbers, of the same length *)
Definition matrix_lines (ls : list str) (m : list (list V)) : Prop := Forall2 (fun l r => Forall2 (fun w v => num w = Some v) (split_ws l) r) ls m /\ exists c, Forall (fun r => List.length r = c) m.
(** A part of the file and what it gives *)
Inductive block : list str -> list (str * lval V) -> Prop :=
| b_other l : untitled l -> block [l] []
| b_op k t c s ls vs i (deriv : bool) : is_op k -> titled t k -> (deriv = true <-> has_text (strip c) (S_ "Derivative Order")) -> List.length ls = size k -> 0 < size k -> value_lines deriv ls vs i ->
    block (t :: c :: s :: ls) [(entry k, Vec vs); (entry k ++ S_ "_info", Info i)]
| b_mat k t ls m : is_mat k -> titled t k -> List.length ls = size k -> matrix_lines ls m -> block (t :: ls) [(entry k, Mat m)]
| b_mass t r ls m : titled t WM -> strip t = title WM ++ r -> List.length ls = size WM -> matrix_lines ls m -> block (t :: ls) [(S_ "EDDOF", Words (split_ws r)); (S_ "M", Mat m)].
Inductive blocks : list str -> list (str * lval V) -> Prop :=
| bs_nil : blocks [] []
| bs_cons ls g lss gs : block ls g -> blocks lss gs -> blocks (ls ++ lss) (g ++ gs).
(** The value of a number in the header, None if it is not there or not a number *)
Definition optional (hs : list str) (key : str) (v : lval V) : Prop :=
  (exists w x, field hs key w /\ num w = Some x /\ v = Num x) \/
  (exists w, field hs key w /\ num w = None /\ v = NoNum) \/
  ((forall l, In l hs -> ~ has_text l key) /\ v = NoNum).
End Spec.
(** The last value that was given to a key *)
Definition last_given {A} (gs : list (str * A)) (k : str) (old : option A) : option A := fold_left (fun o g => if str_eq_dec (fst g) k then Some (snd g) else o) gs old.

(** ** Proofs *)
Lemma has_b l w : contains l w = true <-> has_text l w.
Proof. apply contains_iff. Qed.
Lemma hasn_b l w : ~ has_text l w -> contains l w = false.
Proof. intro H. destruct (contains l w) eqn:E; [apply has_b in E; contradiction|reflexivity]. Qed.
Lemma file_lines_unlines ls : Forall (fun l => ~ In nl l) ls -> TS_Model.file_lines (unlines ls) = ls.
Proof. induction 1 as [|l ls N F IH]; [reflexivity|]. unfold unlines. cbn [flat_map]. rewrite <- app_assoc. cbn [app]. rewrite TS_Props.file_lines_line by exact N. f_equal. exact IH. Qed.
Lemma cut_none l key : ~ has_text l key -> cut l key = None.
Proof.
  induction l as [|c l IH]; intro N; cbn [cut].
  - destruct (startswith [] key) eqn:E; [|reflexivity]. apply startswith_iff in E. destruct E as [t E]. exfalso. apply N. exists [], t. exact E.
  - destruct (startswith (c :: l) key) eqn:E; [apply startswith_iff in E; destruct E as [t E]; exfalso; apply N; exists [], t; exact E|]. apply IH. intros (a & b & ->). apply N. exists (c :: a), b. reflexivity.
Qed.
Lemma cut_some a key b : (forall a' b', a ++ key ++ b = a' ++ key ++ b' -> a' = a) -> cut (a ++ key ++ b) key = Some b.
Proof.
  induction a as [|c a IH]; intro U.
  - cbn [app]. assert (E : cut (key ++ b) key = if startswith (key ++ b) key then Some (skipn (List.length key) (key ++ b)) else match key ++ b with [] => None | _ :: s' => cut s' key end) by (destruct (key ++ b); reflexivity).
    rewrite E, startswith_app. f_equal. rewrite skipn_app, Nat.sub_diag, skipn_all. reflexivity.
  - cbn [app cut]. destruct (startswith (c :: a ++ key ++ b) key) eqn:E.
    + apply startswith_iff in E. destruct E as [t E]. specialize (U [] t E). discriminate U.
    + apply IH. intros a' b' H. specialize (U (c :: a') b'). cbn [app] in U. rewrite H in U. specialize (U eq_refl). injection U as U. exact U.
Qed.
Lemma upto_none s key : key <> [] -> ~ has_text s key -> upto s key = s.
Proof.
  intro K. induction s as [|c s IH]; intro N; cbn [upto].
  - destruct (startswith [] key); reflexivity.
  - destruct (startswith (c :: s) key) eqn:E; [apply startswith_iff in E; destruct E as [t E]; exfalso; apply N; exists [], t; exact E|]. f_equal. apply IH. intros (a & b & ->). apply N. exists (c :: a), b. reflexivity.
Qed.
Lemma once_rest a key b : key <> [] -> (forall a' b', a ++ key ++ b = a' ++ key ++ b' -> a' = a) -> ~ has_text b key.
Proof.
  intros K U (x & y & ->). specialize (U (a ++ key ++ x) y). assert (E : a ++ key ++ x ++ key ++ y = (a ++ key ++ x) ++ key ++ y) by (rewrite <- !app_assoc; reflexivity).
  specialize (U E). apply (f_equal (@List.length ascii)) in U. rewrite !app_length in U. destruct key; [contradiction|]. cbn [List.length] in U. lia.
Qed.
Lemma extract_field hs key w : key <> [] -> field hs key w -> extractVal hs key = Ok (Some w).
Proof.
  intros K (before & l & after & a & b & ws & -> & NB & -> & U & W). induction before as [|x before IH]; cbn [app extractVal].
  - rewrite cut_some by exact U. rewrite upto_none; [|exact K|eapply once_rest; eassumption]. rewrite W. reflexivity.
  - rewrite cut_none by (apply NB; left; reflexivity). apply IH. intros y I. apply NB. right. exact I.
Qed.
Lemma extract_none hs key : (forall l, In l hs -> ~ has_text l key) -> extractVal hs key = Ok None.
Proof. induction hs as [|l hs IH]; intro N; [reflexivity|]. cbn [extractVal]. rewrite cut_none by (apply N; left; reflexivity). apply IH. intros x I. apply N. right. exact I. Qed.
Lemma marker_ok H J rest : forall i acc last, Forall (fun l => ~ has_text l (S_ "Jacobians included")) H -> has_text J (S_ "Jacobians included") -> i + List.length H <= 30 ->
  readToMarker (S_ "Jacobians included") 30 i acc last (H ++ J :: rest) = Ok (acc ++ map strip H, J, rest).
Proof.
  induction H as [|l H IH]; intros i acc last F HJ L; cbn [app readToMarker List.length map] in *.
  - assert (Nat.ltb 30 i = false) as -> by (apply Nat.ltb_ge; lia). apply has_b in HJ. rewrite HJ, app_nil_r. reflexivity.
  - assert (Nat.ltb 30 i = false) as -> by (apply Nat.ltb_ge; lia). inversion F as [|? ? F1 F2]; subst. rewrite (hasn_b _ _ F1), IH by (auto; lia). rewrite <- app_assoc. reflexivity.
Qed.
Lemma Forall2_length {A B} (R : A -> B -> Prop) l m : Forall2 R l m -> List.length l = List.length m.
Proof. induction 1; [reflexivity|]. cbn [List.length]. congruence. Qed.
Lemma strip_words s : strip (join [sp] (split_ws s)) = join [sp] (split_ws s).
Proof. apply strip_noedge, join_words_noedge, split_ws_tokens. Qed.
Section Reads.
Context {V : Type}.
Variable num : str -> option V.
Lemma strip_tail s k : strip (join [sp] (skipn k (split_ws s))) = join [sp] (skipn k (split_ws s)).
Proof.
  apply strip_noedge, join_words_noedge. pose proof (split_ws_tokens s) as T. rewrite <- (firstn_skipn k (split_ws s)) in T. rewrite forallb_app in T. apply andb_inv in T. tauto.
Qed.
Lemma comma_b w : contains w (S_ ",") = true <-> In ","%char w.
Proof.
  rewrite has_b. split.
  - intros (a & b & ->). apply in_or_app. right. left. reflexivity.
  - intro I. apply in_split in I. destruct I as (a & b & ->). exists a, b. reflexivity.
Qed.
Lemma value_ok deriv l v rot z ds : value_line num deriv l v rot z ds -> op_line num deriv l = Ok (v, rot, z, ds).
Proof.
  intro H. unfold op_line. rewrite split_ws_strip. destruct H as [i w v rot d z ds E N Hv Hz|i w w2 w3 v rot d z ds E Hv Hz].
  - pose proof (strip_tail l) as ST. rewrite E in *. cbn [at_ nth_error bind]. destruct (contains w (S_ ",")) eqn:C; [apply comma_b in C; contradiction|]. unfold float_. rewrite Hv. cbn [bind nth_error at_].
    destruct deriv; cbn [at_ nth_error Nat.add bind].
    + rewrite Hz. cbn [bind]. specialize (ST 4). cbn [skipn] in *. rewrite ST. reflexivity.
    + subst z. specialize (ST 3). cbn [skipn] in *. rewrite ST. reflexivity.
  - pose proof (strip_tail l) as ST. rewrite E in *. cbn [at_ nth_error bind]. assert (contains (w ++ [","%char]) (S_ ",") = true) as -> by (apply comma_b, in_or_app; right; left; reflexivity). rewrite removelast_last. unfold float_. rewrite Hv. cbn [bind nth_error at_].
    destruct deriv; cbn [at_ nth_error Nat.add bind].
    + rewrite Hz. cbn [bind]. specialize (ST 6). cbn [skipn] in *. rewrite ST. reflexivity.
    + subst z. specialize (ST 5). cbn [skipn] in *. rewrite ST. reflexivity.
Qed.
Lemma values_ok deriv ls vs i rest : value_lines num deriv ls vs i -> exists xs, op_lines num deriv (List.length ls) (ls ++ rest) = Ok (xs, rest) /\
  map (fun x => fst (fst (fst x))) xs = vs /\ mk_info (map (fun x => snd (fst (fst x))) xs) (map (fun x => snd (fst x)) xs) (map snd xs) = i.
Proof.
  induction 1 as [|l ls v vs rot rots z zs ds dss H F (xs & E & E1 & E2)]; cbn [List.length app op_lines].
  - exists []. repeat split.
  - rewrite (value_ok _ _ _ _ _ _ H). cbn [bind]. rewrite E. cbn [bind]. eexists. split; [reflexivity|]. cbn [map fst snd]. rewrite E1. injection E2 as -> -> ->. split; reflexivity.
Qed.
Lemma op_ok deriv c s ls vs i n rest : (deriv = true <-> has_text (strip c) (S_ "Derivative Order")) -> List.length ls = n -> 0 < n -> value_lines num deriv ls vs i -> readOP num (c :: s :: ls ++ rest) (Z.of_nat n) = Ok (vs, i, rest).
Proof.
  intros D L P H. unfold readOP. cbn [TS_Model.readline]. assert (contains (strip c) (S_ "Derivative Order") = deriv) as ->.
  { destruct deriv; [apply has_b; apply D; reflexivity|]. apply hasn_b. intro X. apply D in X. discriminate X. }
  replace (Z.to_nat (Z.max 1 (Z.of_nat n))) with (List.length ls) by lia. destruct (values_ok _ _ _ _ rest H) as (xs & E & E1 & E2). rewrite E. cbn [bind]. rewrite E1, E2. reflexivity.
Qed.
Lemma take_ok ls rest : take_lines (List.length ls) (ls ++ rest) = (ls, rest).
Proof. induction ls as [|l ls IH]; [reflexivity|]. cbn [List.length app take_lines TS_Model.readline]. rewrite IH. reflexivity. Qed.
Lemma floats_ok ws vs : Forall2 (fun w v => num w = Some v) ws vs -> TS_Model.floats num ws = Ok vs.
Proof. induction 1 as [|w v ws vs H F IH]; [reflexivity|]. cbn [TS_Model.floats]. rewrite H, IH. reflexivity. Qed.
Lemma matrix_ok ls m : matrix_lines num ls m -> TS_Model.matrix num ls = Ok m.
Proof.
  intros [F (c & L)]. assert (R : TS_Model.rows num ls = Ok m). { clear L. induction F as [|l r ls m H F IH]; [reflexivity|]. cbn [TS_Model.rows]. rewrite (floats_ok _ _ H). cbn [bind]. rewrite IH. reflexivity. }
  destruct F as [|l r ls m H F]; [reflexivity|]. unfold TS_Model.matrix. inversion L as [|? ? L1 L2]; subst. pose proof (Forall2_length _ _ _ H) as HL.
  match goal with |- (if ?b then _ else _) = _ => assert (b = true) as -> end; [|exact R]. clear R H L. induction F as [|x r' ls m H F IH]; [reflexivity|]. cbn [forallb]. inversion L2 as [|? ? L3 L4]; subst. rewrite IH by exact L4. rewrite Bool.andb_true_r. apply Nat.eqb_eq. pose proof (Forall2_length _ _ _ H). lia.
Qed.
Lemma mat_ok ls m n rest : List.length ls = n -> matrix_lines num ls m -> readMat num (ls ++ rest) (Z.of_nat n) = Ok (m, rest).
Proof. intros L H. unfold readMat. rewrite Nat2Z.id, <- L, take_ok, (matrix_ok _ _ H). reflexivity. Qed.
Definition put_all (gs : list (str * lval V)) (d : @dict (lval V)) : @dict (lval V) := fold_left (fun d g => put d (fst g) (snd g)) gs d.
Lemma keys_b k l : has_text l (title k) -> existsb (contains l) KEYS = true.
Proof.
  intros (a & b & ->). apply existsb_exists. destruct k; cbn [title].
  - exists (S_ "Order of"). split; [cbn; tauto|]. apply has_b. exists a, (S_ " continuous states:" ++ b). reflexivity.
  - exists (S_ "Order of"). split; [cbn; tauto|]. apply has_b. exists a, (S_ " continuous state derivatives:" ++ b). reflexivity.
  - exists (S_ "Order of"). split; [cbn; tauto|]. apply has_b. exists a, (S_ " inputs" ++ b). reflexivity.
  - exists (S_ "Order of"). split; [cbn; tauto|]. apply has_b. exists a, (S_ " outputs" ++ b). reflexivity.
  - exists (S_ "A:"). split; [cbn; tauto|]. apply has_b. exists a, (S_ "" ++ b). reflexivity.
  - exists (S_ "B:"). split; [cbn; tauto|]. apply has_b. exists a, (S_ "" ++ b). reflexivity.
  - exists (S_ "C:"). split; [cbn; tauto|]. apply has_b. exists a, (S_ "" ++ b). reflexivity.
  - exists (S_ "D:"). split; [cbn; tauto|]. apply has_b. exists a, (S_ "" ++ b). reflexivity.
  - exists (S_ "dUdu"). split; [cbn; tauto|]. apply has_b. exists a, (S_ ":" ++ b). reflexivity.
  - exists (S_ "dUdy"). split; [cbn; tauto|]. apply has_b. exists a, (S_ ":" ++ b). reflexivity.
  - exists (S_ "ED M:"). split; [cbn; tauto|]. apply has_b. exists a, (S_ "" ++ b). reflexivity.
Qed.
Ltac nt T2 k := let X := fresh in pose proof (hasn_b _ _ (T2 k ltac:(first [discriminate | let E := fresh in intro E; subst; contradiction]))) as X; cbn [title] in X; rewrite X; clear X.
Lemma block_ok nx nu ny ls gs rest d : block num nx nu ny ls gs -> exists l r, ls = l :: r /\ turn num (Z.of_nat nx) (Z.of_nat nu) (Z.of_nat ny) d l (r ++ rest) = (put_all gs d, Ok rest).
Proof.
  intro B. destruct B as [l U|k t c s ls vs i deriv K [T1 T2] D L P H|k t ls m K [T1 T2] L H|t r ls m [T1 T2] ST L H].
  - exists l, []. split; [reflexivity|]. unfold turn, untitled in *. cbn [app]. pose proof (hasn_b _ _ (U Wx)) as U1. pose proof (hasn_b _ _ (U Wxdot)) as U2. pose proof (hasn_b _ _ (U Wu)) as U3. pose proof (hasn_b _ _ (U Wy)) as U4. pose proof (hasn_b _ _ (U WA)) as U5. pose proof (hasn_b _ _ (U WB)) as U6. pose proof (hasn_b _ _ (U WC)) as U7. pose proof (hasn_b _ _ (U WD)) as U8. pose proof (hasn_b _ _ (U Wdudu)) as U9. pose proof (hasn_b _ _ (U Wdudy)) as U10. pose proof (hasn_b _ _ (U WM)) as U11.
    cbn [title] in *. rewrite U1, U2, U3, U4, U5, U6, U7, U8, U9, U10, U11. destruct (existsb _ KEYS); reflexivity.
  - exists t, (c :: s :: ls). split; [reflexivity|]. unfold turn. rewrite (keys_b _ _ T1). apply has_b in T1. cbn [app].
    pose proof (op_ok deriv c s ls vs i (size nx nu ny k) rest D L P H) as E.
    destruct k; try contradiction; repeat match goal with T : has_text _ _ |- _ => clear T end; cbn [title size entry app] in *;
    try nt T2 Wx; try nt T2 Wxdot; try nt T2 Wu; rewrite T1; unfold put_op; rewrite E; reflexivity.
  - exists t, ls. split; [reflexivity|]. unfold turn. rewrite (keys_b _ _ T1). apply has_b in T1. pose proof (mat_ok ls m (size nx nu ny k) rest L H) as E.
    nt T2 Wx. nt T2 Wxdot. nt T2 Wu. nt T2 Wy.
    destruct k; try contradiction; cbn [title size entry] in *;
    try nt T2 WA; try nt T2 WB; try nt T2 WC; try nt T2 WD; try nt T2 Wdudu; rewrite T1; unfold put_mat; rewrite E; reflexivity.
  - exists t, ls. split; [reflexivity|]. unfold turn. rewrite (keys_b _ _ T1). apply has_b in T1. pose proof (mat_ok ls m 24 rest L H) as E. change (Z.of_nat 24) with 24%Z in E.
    nt T2 Wx. nt T2 Wxdot. nt T2 Wu. nt T2 Wy. nt T2 WA. nt T2 WB. nt T2 WC. nt T2 WD. nt T2 Wdudu. nt T2 Wdudy.
    cbn [title] in T1. rewrite T1. unfold put_mat. rewrite E. rewrite ST. reflexivity.
Qed.
Lemma blocks_ok nx nu ny ls gs : blocks num nx nu ny ls gs -> forall fuel d, List.length ls <= fuel -> scan num fuel (Z.of_nat nx) (Z.of_nat nu) (Z.of_nat ny) d ls = (put_all gs d, Ok tt).
Proof.
  induction 1 as [|ls g lss gs B BS IH]; intros fuel d L.
  - destruct fuel; reflexivity.
  - destruct (block_ok nx nu ny ls g lss d B) as (l & r & -> & E). cbn [app List.length] in *. destruct fuel as [|fuel]; [lia|]. cbn [scan]. rewrite E. rewrite IH by (rewrite app_length in L; lia). unfold put_all. rewrite fold_left_app. reflexivity.
Qed.
Lemma optional_ok hs key v : key <> [] -> optional num hs key v -> float_or_none num (extractVal hs key) = v.
Proof.
  intros K [(w & x & F & N & ->)|[(w & F & N & ->)|[F ->]]].
  - rewrite (extract_field _ _ _ K F). cbn. rewrite N. reflexivity.
  - rewrite (extract_field _ _ _ K F). cbn. rewrite N. reflexivity.
  - rewrite (extract_none _ _ F). reflexivity.
Qed.
Lemma get_put_all gs : forall d k, get (put_all gs d) k = last_given gs k (get d k).
Proof.
  induction gs as [|[k0 v] gs IH]; intros d k; [reflexivity|]. unfold put_all, last_given in *. cbn [fold_left fst snd]. rewrite IH. f_equal. destruct (str_eq_dec k0 k) as [->|N]; [apply get_put_same|]. apply get_put_other. congruence.
Qed.

Ltac ex F := match type of F with field ?h ?k ?w => rewrite (extract_field h k w ltac:(discriminate) F) end; cbn [bind int_of].
Ltac opt O := match type of O with optional _ ?h ?k ?v => rewrite (optional_ok h k v ltac:(discriminate) O) end.
(** Everything the file gives, and nothing else, is in the dictionary after reading; what an earlier file gave and this one does
    not give remains *)
Theorem C81_reads : forall d0 H J body gs nx nxd nz nu ny j az rs wsp wx wxd wz wu wy,
  Forall (fun l => ~ In nl l) (H ++ J :: body) -> List.length H <= 30 -> Forall (fun l => ~ has_text l (S_ "Jacobians included")) H -> has_text J (S_ "Jacobians included") ->
  let header := map strip H ++ [J] in
  field header (S_ "Number of continuous states:") wx -> int_ wx = Ok (Z.of_nat nx) -> field header (S_ "Number of discrete states:") wxd -> int_ wxd = Ok nxd ->
  field header (S_ "Number of constraint states:") wz -> int_ wz = Ok nz -> field header (S_ "Number of inputs:") wu -> int_ wu = Ok (Z.of_nat nu) ->
  field header (S_ "Number of outputs:") wy -> int_ wy = Ok (Z.of_nat ny) -> field header (S_ "Jacobians included in this file?") j ->
  optional num header (S_ "Azimuth:") az -> optional num header (S_ "Rotor Speed:") rs -> optional num header (S_ "Wind Speed:") wsp ->
  blocks num nx nu ny body gs ->
  exists d, lin_read num d0 (unlines (H ++ J :: body)) = (d, Ok tt) /\
    forall k, get d k = last_given ([(S_ "header", Lines header); (S_ "Azimuth", az); (S_ "RotSpeed", rs); (S_ "WindSpeed", wsp)] ++ gs) k (get d0 k).
Proof.
  intros d0 H J body gs nx nxd nz nu ny j az rs wsp wx wxd wz wu wy NL LH NH HJ header F1 I1 F2 I2 F3 I3 F4 I4 F5 I5 F6 O1 O2 O3 B.
  unfold lin_read. rewrite file_lines_unlines by exact NL. rewrite marker_ok by (auto; lia). change ([] ++ map strip H) with (map strip H). change (map strip H ++ [J]) with header.
  ex F1. rewrite I1. cbn [bind]. ex F2. rewrite I2. cbn [bind]. ex F3. rewrite I3. cbn [bind].
  ex F4. rewrite I4. cbn [bind]. ex F5. rewrite I5. cbn [bind]. ex F6.
  opt O1. opt O2. opt O3. rewrite (blocks_ok _ _ _ _ _ B) by lia.
  eexists. split; [reflexivity|]. intro k. rewrite get_put_all. unfold last_given. rewrite fold_left_app. f_equal. cbn [fold_left fst snd].
  assert (G : forall (d : @dict (lval V)) k0 v, get (put d k0 v) k = if str_eq_dec k0 k then Some v else get d k). { intros d k0 v. destruct (str_eq_dec k0 k) as [->|N]; [apply get_put_same|]. apply get_put_other. congruence. }
  rewrite !G. destruct (str_eq_dec (S_ "WindSpeed") k); [reflexivity|]. destruct (str_eq_dec (S_ "RotSpeed") k); [reflexivity|]. destruct (str_eq_dec (S_ "Azimuth") k); [reflexivity|]. destruct (str_eq_dec (S_ "header") k); reflexivity.
Qed.
(** A header of more than 31 lines is refused *)
Theorem C81_long_header_refused : forall d0 H rest, Forall (fun l => ~ In nl l) (H ++ rest) -> 31 < List.length H -> Forall (fun l => ~ has_text l (S_ "Jacobians included")) H ->
  snd (lin_read num d0 (unlines (H ++ rest))) = Err BrokenFormatError.
Proof.
  intros d0 H rest NL L F. unfold lin_read. rewrite file_lines_unlines by exact NL.
  assert (G : forall H i acc last, Forall (fun l => ~ has_text l (S_ "Jacobians included")) H -> i <= 31 -> 31 < i + List.length H -> readToMarker (S_ "Jacobians included") 30 i acc last (H ++ rest) = Err BrokenFormatError).
  { clear. induction H as [|l H IH]; intros i acc last F P L; cbn [List.length app readToMarker] in *; [lia|]. destruct (Nat.ltb 30 i) eqn:E; [reflexivity|]. inversion F as [|? ? F1 F2]; subst. rewrite (hasn_b _ _ F1). apply IH; [exact F2| |lia]. apply Nat.ltb_ge in E. lia. }
  rewrite G by (auto; lia). reflexivity.
Qed.
End Reads.

(** ** Tables *)
Inductive axis := States | Derivs | Inputs | Outputs | Dofs.
(** The rows and the columns of the matrices *)
Definition rows_of (k : what) : axis := match k with WA | WB => States | WC | WD => Outputs | Wdudu | Wdudy => Inputs | _ => Dofs end.
Definition cols_of (k : what) : axis := match k with WA | WC | Wx => States | WB | WD | Wdudu | Wu => Inputs | Wdudy | Wy => Outputs | Wxdot => Derivs | WM => Dofs end.
Section Tab.
Context {V : Type}.
Notation ldict := (@dict (lval V)).
Variable d : ldict.
(** The names along an axis: short names of the descriptions, nothing without descriptions *)
Definition info_key (a : axis) : str := match a with States => S_ "x_info" | Derivs => S_ "xdot_info" | Inputs => S_ "u_info" | Outputs => S_ "y_info" | Dofs => S_ "EDDOF" end.
Definition named (a : axis) (ns : list str) : Prop :=
  match a with
  | Dofs => get d (S_ "EDDOF") = Some (Words ns)
  | _ => (exists i, get d (info_key a) = Some (Info i) /\ ns = map shortname (i_descr i)) \/ (get d (info_key a) = None /\ ns = [])
  end.
(** The entries fit to the names *)
Definition fits (nm : axis -> list str) (k : what) : Prop :=
  get d (entry k) = None \/
  (is_op k /\ exists v, get d (entry k) = Some (Vec v) /\ List.length v = List.length (nm (cols_of k))) \/
  (~ is_op k /\ exists m, get d (entry k) = Some (Mat m) /\ m <> [] /\ List.length m = List.length (nm (rows_of k)) /\ Forall (fun r => List.length r = List.length (nm (cols_of k))) m).
Definition the_table (nm : axis -> list str) (k : what) (t : option (table V)) : Prop :=
  match get d (entry k) with
  | Some (Mat m) => t = Some (mk_table (Some (nm (rows_of k))) (nm (cols_of k)) m)
  | Some (Vec v) => t = Some (mk_table None (nm (cols_of k)) [v])
  | _ => t = None
  end.
Definition assoc {A} (k : str) (l : list (str * A)) : option A := option_map snd (find (fun e => str_eqb (fst e) k) l).
Lemma descr_ok a ns k : info_key a = k -> a <> Dofs -> named a ns -> descr d k = Ok ns.
Proof. intros <- N H. unfold descr. destruct a; try contradiction; cbn [named info_key] in *; destruct H as [(i & -> & ->)|[-> ->]]; reflexivity. Qed.
Lemma forallb_len n (m : list (list V)) : Forall (fun r => List.length r = n) m -> forallb (fun r => Nat.eqb (List.length r) n) m = true.
Proof. intro F. apply forallb_forall. intros r I. rewrite Forall_forall in F. apply Nat.eqb_eq. apply F. exact I. Qed.
(** One step of the construction *)
Definition adds (nm : axis -> list str) (k : what) (t t' : list (str * table V)) : Prop := exists n, t' = t ++ n /\ match n with [] => the_table nm k None | [(k', x)] => k' = entry k /\ the_table nm k (Some x) | _ => False end.
Lemma mat_adds nm k t : ~ is_op k -> fits nm k -> exists t', add_mat d (entry k) (nm (rows_of k)) (nm (cols_of k)) t = Ok t' /\ adds nm k t t'.
Proof.
  intros NO [E|[[O _]|[_ (m & E & NE & L & F)]]]; [|contradiction|].
  - unfold add_mat. rewrite E. exists t. split; [reflexivity|]. exists []. split; [now rewrite app_nil_r|]. unfold the_table. now rewrite E.
  - unfold add_mat. rewrite E. unfold frame. destruct m as [|r m]; [contradiction|]. rewrite (forallb_len _ _ F). apply Nat.eqb_eq in L. rewrite L. cbn [andb bind]. eexists. split; [reflexivity|]. eexists [_]. split; [reflexivity|]. cbn. split; [reflexivity|]. unfold the_table. now rewrite E.
Qed.
Lemma vec_adds nm k t : is_op k -> fits nm k -> exists t', add_vec d (entry k) (nm (cols_of k)) t = Ok t' /\ adds nm k t t'.
Proof.
  intros O [E|[[_ (v & E & L)]|[NO _]]]; [| |contradiction].
  - unfold add_vec. rewrite E. exists t. split; [reflexivity|]. exists []. split; [now rewrite app_nil_r|]. unfold the_table. now rewrite E.
  - unfold add_vec. rewrite E. apply Nat.eqb_eq in L. rewrite L. eexists. split; [reflexivity|]. eexists [_]. split; [reflexivity|]. cbn. split; [reflexivity|]. unfold the_table. now rewrite E.
Qed.
Fixpoint added (nm : axis -> list str) (ks : list what) (t : list (str * table V)) : Prop := match ks with [] => t = [] | k :: ks' => exists t0, added nm ks' t0 /\ adds nm k t0 t end.
Lemma entry_inj k k' : entry k = entry k' -> k = k'.
Proof. destruct k, k'; intro H; reflexivity || discriminate H. Qed.
Lemma find_app' {A} (f : A -> bool) l1 l2 : find f (l1 ++ l2) = match find f l1 with Some x => Some x | None => find f l2 end.
Proof. induction l1 as [|x l1 IH]; [reflexivity|]. cbn [app find]. destruct (f x); [reflexivity|exact IH]. Qed.
Lemma added_other nm ks : forall t k, added nm ks t -> ~ In k ks -> assoc (entry k) t = None.
Proof.
  induction ks as [|k0 ks IH]; intros t k A N; cbn [added] in A.
  - subst t. reflexivity.
  - destruct A as (t0 & A & n & -> & M). specialize (IH t0 k A (fun X => N (or_intror X))). unfold assoc in *. rewrite find_app'. destruct (find _ t0); [discriminate IH|]. destruct n as [|[k' x] [|? ?]]; [reflexivity| |contradiction]. destruct M as [-> _]. cbn [find fst]. destruct (str_eqb (entry k0) (entry k)) eqn:E; [|reflexivity]. apply str_eqb_eq, entry_inj in E. exfalso. apply N. left. exact E.
Qed.
Lemma added_in nm ks : NoDup ks -> forall t k, added nm ks t -> In k ks -> the_table nm k (assoc (entry k) t).
Proof.
  induction 1 as [|k0 ks NI ND IH]; intros t k A I; [destruct I|]. cbn [added] in A. destruct A as (t0 & A & n & -> & M). destruct I as [->|I].
  - pose proof (added_other nm ks t0 k A NI) as O. unfold assoc in *. rewrite find_app'. destruct (find _ t0); [discriminate O|]. destruct n as [|[k' x] [|? ?]]; [exact M| |contradiction]. destruct M as [-> M]. cbn [find fst]. rewrite str_eqb_refl. exact M.
  - specialize (IH t0 k A I). unfold assoc in *. rewrite find_app'. destruct (find _ t0) as [e|] eqn:E; [exact IH|]. destruct n as [|[k' x] [|? ?]]; [exact IH| |contradiction]. destruct M as [-> _]. cbn [find fst]. destruct (str_eqb (entry k0) (entry k)) eqn:X; [|exact IH]. apply str_eqb_eq, entry_inj in X. subst k0. contradiction.
Qed.
(** Every entry has its table, with the names of its rows and columns *)
Theorem C82_tables : forall nm, (forall a, a <> Dofs -> named a (nm a)) -> (get d (S_ "M") <> None -> named Dofs (nm Dofs)) -> (forall k, fits nm k) ->
  exists t, lin_tables d = Ok t /\ (forall k, the_table nm k (assoc (entry k) t)) /\ (forall k x, assoc k t = Some x -> exists w, k = entry w).
Proof.
  intros nm N ND F. unfold lin_tables.
  rewrite (descr_ok States _ (S_ "x_info") eq_refl ltac:(discriminate) (N States ltac:(discriminate))). cbn [bind]. rewrite (descr_ok Derivs _ (S_ "xdot_info") eq_refl ltac:(discriminate) (N Derivs ltac:(discriminate))). cbn [bind].
  rewrite (descr_ok Outputs _ (S_ "y_info") eq_refl ltac:(discriminate) (N Outputs ltac:(discriminate))). cbn [bind]. rewrite (descr_ok Inputs _ (S_ "u_info") eq_refl ltac:(discriminate) (N Inputs ltac:(discriminate))). cbn [bind].
  destruct (mat_adds nm WA [] (fun x => x) (F WA)) as (t1 & E1 & A1). cbn [entry rows_of cols_of] in E1. rewrite E1. cbn [bind].
  destruct (mat_adds nm WB t1 (fun x => x) (F WB)) as (t2 & E2 & A2). cbn [entry rows_of cols_of] in E2. rewrite E2. cbn [bind].
  destruct (mat_adds nm WC t2 (fun x => x) (F WC)) as (t3 & E3 & A3). cbn [entry rows_of cols_of] in E3. rewrite E3. cbn [bind].
  destruct (mat_adds nm WD t3 (fun x => x) (F WD)) as (t4 & E4 & A4). cbn [entry rows_of cols_of] in E4. rewrite E4. cbn [bind].
  destruct (vec_adds nm Wx t4 I (F Wx)) as (t5 & E5 & A5). cbn [entry rows_of cols_of] in E5. rewrite E5. cbn [bind].
  destruct (vec_adds nm Wxdot t5 I (F Wxdot)) as (t6 & E6 & A6). cbn [entry rows_of cols_of] in E6. rewrite E6. cbn [bind].
  destruct (vec_adds nm Wu t6 I (F Wu)) as (t7 & E7 & A7). cbn [entry rows_of cols_of] in E7. rewrite E7. cbn [bind].
  destruct (vec_adds nm Wy t7 I (F Wy)) as (t8 & E8 & A8). cbn [entry rows_of cols_of] in E8. rewrite E8. cbn [bind].
  assert (X : exists t9, match get d (S_ "M") with None => Ok t8 | Some _ => match get d (S_ "EDDOF") with Some (Words w) => add_mat d (S_ "M") w w t8 | None => Err KeyError | Some _ => Err Unmodelled end end = Ok t9 /\ adds nm WM t8 t9).
  { destruct (get d (S_ "M")) eqn:G.
    - cbn [named] in ND. rewrite ND by discriminate. destruct (mat_adds nm WM t8 (fun x => x) (F WM)) as (t9 & E9 & A9). cbn [entry rows_of cols_of] in E9. exists t9. split; assumption.
    - exists t8. split; [reflexivity|]. exists []. split; [now rewrite app_nil_r|]. unfold the_table. cbn [entry]. now rewrite G. }
  destruct X as (t9 & E9 & A9). rewrite E9. cbn [bind].
  destruct (mat_adds nm Wdudu t9 (fun x => x) (F Wdudu)) as (t10 & E10 & A10). cbn [entry rows_of cols_of] in E10. rewrite E10. cbn [bind].
  destruct (mat_adds nm Wdudy t10 (fun x => x) (F Wdudy)) as (t11 & E11 & A11). cbn [entry rows_of cols_of] in E11. rewrite E11.
  assert (AD : added nm [Wdudy; Wdudu; WM; Wy; Wu; Wxdot; Wx; WD; WC; WB; WA] t11).
  { exists t10. split; [|exact A11]. exists t9. split; [|exact A10]. exists t8. split; [|exact A9]. exists t7. split; [|exact A8]. exists t6. split; [|exact A7]. exists t5. split; [|exact A6]. exists t4. split; [|exact A5]. exists t3. split; [|exact A4]. exists t2. split; [|exact A3]. exists t1. split; [|exact A2]. exists []. split; [reflexivity|exact A1]. }
  exists t11. split; [reflexivity|]. split.
  - intro k. eapply added_in; [|exact AD|destruct k; cbn; tauto]. repeat constructor; cbn; intuition discriminate.
  - intros k x H. unfold assoc in H. destruct (find _ t11) as [[k' x']|] eqn:G; [|discriminate H]. apply find_some in G. destruct G as [G1 G2]. cbn [fst] in G2. apply str_eqb_eq in G2. subst k'.
    clear - AD G1. revert t11 AD G1. generalize [Wdudy; Wdudu; WM; Wy; Wu; Wxdot; Wx; WD; WC; WB; WA] as ks. induction ks as [|k0 ks IH]; intros t A G; cbn [added] in A; [subst t; destruct G|].
    destruct A as (t0 & A & n & -> & M). apply in_app_or in G. destruct G as [G|G]; [eapply IH; eassumption|]. destruct n as [|[k1 y] [|? ?]]; [destruct G| |contradiction]. destruct M as [-> _]. destruct G as [G|[]]. injection G as G _. exists k0. symmetry. exact G.
Qed.
End Tab.

(** ** Short names *)
Lemma repl_out p b c s : ~ In c s -> ~ In c b -> forall k, ~ In c (Tecplot_Model.repl p b k s).
Proof.
  intros N B. induction s as [|x s IH]; intro k; cbn [Tecplot_Model.repl]; [destruct k; cbn; tauto|]. cbn [In] in N.
  assert (N' : ~ In c s) by tauto. specialize (IH N'). destruct k as [|k]; [|apply IH]. destruct (startswith (x :: s) p); [rewrite in_app_iff; intros [H|H]; [contradiction|exact (IH _ H)]|]. cbn [In]. intros [H|H]; [apply N; left; exact H|exact (IH _ H)].
Qed.
Lemma repl_gone c s : ~ In c (Tecplot_Model.repl [c] [] 0 s).
Proof. induction s as [|x s IH]; cbn [Tecplot_Model.repl]; [tauto|]. cbn [startswith]. destruct (chr_eqb x c) eqn:E; cbn [andb app List.length Nat.sub]; [exact IH|]. cbn [In]. intros [H|H]; [subst; rewrite chr_eqb_refl in E; discriminate|exact (IH H)]. Qed.
Lemma lstrip_sub c s : In c (lstrip s) -> In c s.
Proof. induction s as [|x s IH]; [tauto|]. cbn [lstrip]. destruct (is_space x); [intro H; right; apply IH; exact H|tauto]. Qed.
Lemma strip_sub c s : In c (strip s) -> In c s.
Proof. unfold strip, rstrip. rewrite <- in_rev. intro H. apply lstrip_sub in H. rewrite <- in_rev in H. apply lstrip_sub in H. exact H. Qed.
Lemma reps_app a b s : reps (a ++ b) s = reps b (reps a s).
Proof. unfold reps. apply fold_left_app. Qed.
(** A short name contains neither blanks nor commas *)
Theorem C82_no_blanks : forall s, ~ In " "%char (shortname s) /\ ~ In ","%char (shortname s).
Proof.
  intro s. unfold shortname. set (t := if Nat.eqb _ 1 then _ else _). clearbody t.
  assert (E : exists pre, names2 = pre ++ [(",","");(" ","")]%string). { exists (firstn (List.length names2 - 2) names2). reflexivity. } destruct E as [pre E]. rewrite E, reps_app. set (r := reps pre t). clearbody r. clear E pre t s.
  unfold reps. cbn [fold_left fst snd]. unfold Tecplot_Model.replace_. split; intro H; apply strip_sub in H.
  - exact (repl_gone " "%char _ H).
  - eapply (repl_out (S_ " ") [] ","%char); [|cbn; tauto|exact H]. apply (repl_gone ","%char).
Qed.
(** Different descriptions can have the same short name: the columns of a table are then not told apart *)
Theorem C82_unique_refuted : exists a b, a <> b /\ shortname a = shortname b /\ shortname a = S_ "B1FLAP" /\ a = S_ "ED Blade 1 (internal) flapwise" /\ b = S_ "ED Blade 1 flapwise (other)".
Proof. eexists. eexists. split; [|split; [|split; [|split; reflexivity]]]; vm_compute; (discriminate || reflexivity). Qed.

(** ** Files *)
Lemma field_by before l after key a b w ws : l = a ++ key ++ b -> forallb (fun x => negb (contains x key)) before = true ->
  forallb (fun n => Nat.eqb n (List.length a) || negb (startswith (skipn n l) key)) (seq 0 (S (List.length l))) = true -> split_ws b = w :: ws -> field (before ++ l :: after) key w.
Proof.
  intros E NB U W. exists before, l, after, a, b, ws. split; [reflexivity|]. split; [|split; [exact E|split; [|exact W]]].
  - intros x I H. rewrite forallb_forall in NB. apply NB in I. apply has_b in H. rewrite H in I. discriminate I.
  - intros a' b' E'. rewrite forallb_forall in U. specialize (U (List.length a')). assert (I : In (List.length a') (seq 0 (S (List.length l)))) by (apply in_seq; rewrite E'; rewrite !app_length; lia).
    specialize (U I). apply Bool.orb_true_iff in U. destruct U as [U|U].
    + apply Nat.eqb_eq in U. rewrite E in E'. assert (F : firstn (List.length a') (a ++ key ++ b) = firstn (List.length a') (a' ++ key ++ b')) by congruence. rewrite U in F at 1. rewrite !firstn_app, !Nat.sub_diag, !firstn_all in F. cbn [firstn] in F. rewrite !app_nil_r in F. symmetry. exact F.
    + rewrite E' in U. rewrite skipn_app, skipn_all, Nat.sub_diag in U. cbn [app skipn] in U. rewrite startswith_app in U. discriminate U.
Qed.
Definition all_what : list what := [Wx; Wxdot; Wu; Wy; WA; WB; WC; WD; Wdudu; Wdudy; WM].
Lemma what_dec (a b : what) : {a = b} + {a <> b}.
Proof. decide equality. Defined.
Lemma titled_by l k : forallb (fun k' => Bool.eqb (contains (strip l) (title k')) (if what_dec k' k then true else false)) all_what = true -> titled l k.
Proof.
  intro H. rewrite forallb_forall in H. assert (A : forall k, In k all_what) by (intros []; cbn; tauto). split.
  - apply has_b. specialize (H k (A k)). destruct (what_dec k k); [|contradiction]. apply Bool.eqb_prop in H. exact H.
  - intros k' N X. apply has_b in X. specialize (H k' (A k')). destruct (what_dec k' k); [contradiction|]. apply Bool.eqb_prop in H. rewrite H in X. discriminate X.
Qed.
Lemma untitled_by l : forallb (fun k' => negb (contains (strip l) (title k'))) all_what = true -> untitled l.
Proof.
  intros H k X. rewrite forallb_forall in H. assert (A : In k all_what) by (destruct k; cbn; tauto). specialize (H k A). apply has_b in X. rewrite X in H. discriminate H.
Qed.
Definition lin_H : list str := map S_ [" Linearized model"; "   Azimuth:   0.5 rad"; " Number of continuous states: 2"; "Number of discrete states: 0"; "Number of constraint states: 0"; "Number of inputs: 1"; "Number of outputs: 1"]%string.
Definition lin_J : str := S_ "Jacobians included in this file? Yes".
Definition lin_x : list str := map S_ ["Order of continuous states:"; "Row/Column Operating Point  Reference Frame  Derivative Order Description"; "----------"; "  1  0.5  F  2  ED Platform surge, m"; " 2 1.0, 2.0, 3.0 T 1 BD rotation"]%string.
Definition lin_u : list str := map S_ ["Order of inputs:"; "Row/Column Operating Point  Reference Frame Description"; "----------"; "  1  7.0  F ED  pitch, rad"]%string.
Definition lin_A : list str := map S_ ["A: 2 x 2"; "1.0 2.0"; "3.0 4.0"]%string.
Definition lin_body : list str := [[]] ++ lin_x ++ [[]] ++ lin_u ++ lin_A ++ [].
Definition word (w : str) : option str := Some w.
Definition lin_gs : list (str * lval str) :=
  [] ++ [(S_ "x", Vec (map S_ ["0.5"; "1.0"]%string)); (S_ "x_info", Info (mk_info (map S_ ["F"; "T"]%string) [2%Z; 1%Z] (map S_ ["ED Platform surge, m"; "BD rotation"]%string)))] ++ [] ++
  [(S_ "u", Vec [S_ "7.0"]); (S_ "u_info", Info (mk_info [S_ "F"] [(-1)%Z] [S_ "ED pitch, rad"]))] ++ [(S_ "A", Mat (map (map S_) [["1.0"; "2.0"]; ["3.0"; "4.0"]]%string))] ++ [].
Ltac nocomma := let H := fresh in intro H; cbv in H; intuition discriminate.
Ltac fld n := match goal with |- field ?h ?key ?w =>
  let l := eval vm_compute in (nth n h []) in let be := eval vm_compute in (firstn n h) in let af := eval vm_compute in (skipn (S n) h) in
  let b := eval vm_compute in (match cut l key with Some b => b | None => [] end) in let a := eval vm_compute in (firstn (List.length l - List.length b - List.length key) l) in
  let ws := eval vm_compute in (tl (split_ws b)) in exact (field_by be l af key a b w ws eq_refl eq_refl eq_refl eq_refl) end.
Example C81_example : exists d, lin_read word [] (unlines (lin_H ++ lin_J :: lin_body)) = (d, Ok tt) /\
  get d (S_ "A") = Some (Mat (map (map S_) [["1.0"; "2.0"]; ["3.0"; "4.0"]]%string)) /\ get d (S_ "Azimuth") = Some (Num (S_ "0.5")) /\ get d (S_ "WindSpeed") = Some NoNum /\ get d (S_ "y") = None.
Proof.
  destruct (C81_reads word [] lin_H lin_J lin_body lin_gs 2 0%Z 0%Z 1 1 (S_ "Yes") (Num (S_ "0.5")) NoNum NoNum (S_ "2") (S_ "0") (S_ "0") (S_ "1") (S_ "1")) as (d & E & G).
  - apply Forall_forall. intros l I. cbv in I. repeat (destruct I as [<- | I]; [nocomma|]). destruct I.
  - cbn. lia.
  - apply Forall_forall. intros l I H. apply has_b in H. cbv in I. repeat (destruct I as [<- | I]; [discriminate H|]). destruct I.
  - apply has_b. reflexivity.
  - fld 2.
  - reflexivity.
  - fld 3.
  - reflexivity.
  - fld 4.
  - reflexivity.
  - fld 5.
  - reflexivity.
  - fld 6.
  - reflexivity.
  - fld 7.
  - left. exists (S_ "0.5"), (S_ "0.5"). split; [fld 1|]. split; reflexivity.
  - right. right. split; [|reflexivity]. intros l I H. apply has_b in H. cbv in I. repeat (destruct I as [<- | I]; [discriminate H|]). destruct I.
  - right. right. split; [|reflexivity]. intros l I H. apply has_b in H. cbv in I. repeat (destruct I as [<- | I]; [discriminate H|]). destruct I.
  - unfold lin_body, lin_gs. apply bs_cons. { apply b_other, untitled_by. reflexivity. } apply bs_cons.
    { apply (b_op _ _ _ _ Wx _ _ _ _ _ _ true); [exact I|apply titled_by; reflexivity| |reflexivity|cbn; lia|].
      - split; [intros _; apply has_b; reflexivity|reflexivity].
      - eapply vl_cons; [eapply (one_value word true _ (S_ "1") (S_ "0.5") _ _ (S_ "2") _ (map S_ ["ED"; "Platform"; "surge,"; "m"]%string)); [reflexivity|nocomma|reflexivity|reflexivity]|].
        eapply vl_cons; [eapply (three_values word true _ (S_ "2") (S_ "1.0") _ _ _ _ (S_ "1") _ (map S_ ["BD"; "rotation"]%string)); reflexivity|]. constructor. }
    apply bs_cons. { apply b_other, untitled_by. reflexivity. } apply bs_cons.
    { apply (b_op _ _ _ _ Wu _ _ _ _ _ _ false); [exact I|apply titled_by; reflexivity| |reflexivity|cbn; lia|].
      - split; [discriminate|]. intro H. apply has_b in H. discriminate H.
      - eapply vl_cons; [eapply (one_value word false _ (S_ "1") (S_ "7.0") _ _ [] _ (map S_ ["ED"; "pitch,"; "rad"]%string)); [reflexivity|nocomma|reflexivity|reflexivity]|]. constructor. }
    apply bs_cons; [|constructor]. apply b_mat with (k := WA); [exact I|apply titled_by; reflexivity|reflexivity|]. split; [|exists 2; repeat constructor]. repeat constructor.
  - exists d. split; [exact E|]. clear G. replace d with (fst (lin_read word [] (unlines (lin_H ++ lin_J :: lin_body)))) by (rewrite E; reflexivity). vm_compute. repeat split.
Qed.
(** What an earlier file gave remains *)
Theorem C81_stale_refuted : let d1 := fst (lin_read word [] (unlines (lin_H ++ lin_J :: lin_body))) in let text2 := unlines (lin_H ++ [lin_J]) in
  get (fst (lin_read word d1 text2)) (S_ "A") = get d1 (S_ "A") /\ get d1 (S_ "A") <> None /\ snd (lin_read word d1 text2) = Ok tt /\ get (fst (lin_read word [] text2)) (S_ "A") = None.
Proof. vm_compute. repeat split. discriminate. Qed.
(** The number of columns of a matrix is not compared with the header: the table cannot be made *)
Theorem C81_columns_refuted : exists rows, let text := unlines (lin_H ++ lin_J :: lin_x ++ S_ "B: 2 x 1" :: rows) in let d := fst (lin_read word [] text) in
  snd (lin_read word [] text) = Ok tt /\ get d (S_ "B") = Some (Mat (map (map S_) [["1.0"; "2.0"; "9.0"]; ["3.0"; "4.0"; "9.0"]]%string)) /\ lin_tables d = Err ValueError.
Proof. exists (map S_ ["1.0 2.0 9.0"; "3.0 4.0 9.0"]%string). vm_compute. repeat split. Qed.
(** A file without the line about the Jacobians is read all the same, its last line twice in the header *)
Theorem C81_no_marker_refuted : let d := fst (lin_read word [] (unlines lin_H)) in snd (lin_read word [] (unlines lin_H)) = Ok tt /\ get d (S_ "header") = Some (Lines (map strip lin_H ++ [S_ "Number of outputs: 1"])).
Proof. vm_compute. repeat split. Qed.
(** The tables of the file *)
Example C82_example : let d := fst (lin_read word [] (unlines (lin_H ++ lin_J :: lin_body))) in
  lin_tables d = Ok [(S_ "A", mk_table (Some (map S_ ["Ptfmsurge_[m]"; "BDrotation"]%string)) (map S_ ["Ptfmsurge_[m]"; "BDrotation"]%string) (map (map S_) [["1.0"; "2.0"]; ["3.0"; "4.0"]]%string));
                     (S_ "x", mk_table None (map S_ ["Ptfmsurge_[m]"; "BDrotation"]%string) [map S_ ["0.5"; "1.0"]%string]); (S_ "u", mk_table None [S_ "pitch_[rad]"] [[S_ "7.0"]])].
Proof. vm_compute. reflexivity. Qed.
Example C82_hypotheses : let d := fst (lin_read word [] (unlines (lin_H ++ lin_J :: lin_body))) in
  let nm a := match a with States => map S_ ["Ptfmsurge_[m]"; "BDrotation"]%string | Inputs => [S_ "pitch_[rad]"] | _ => [] end in
  (forall a, a <> Dofs -> named d a (nm a)) /\ (get d (S_ "M") <> None -> named d Dofs (nm Dofs)) /\ (forall k, fits d nm k).
Proof.
  split; [|split].
  - intros [] N; try contradiction; cbn [named info_key].
    + left. eexists. split; [vm_compute; reflexivity|vm_compute; reflexivity].
    + right. split; [vm_compute; reflexivity|reflexivity].
    + left. eexists. split; [vm_compute; reflexivity|vm_compute; reflexivity].
    + right. split; [vm_compute; reflexivity|reflexivity].
  - intro H. exfalso. apply H. vm_compute. reflexivity.
  - intros []; try (left; vm_compute; reflexivity).
    + right. left. split; [exact I|]. eexists. split; [vm_compute; reflexivity|reflexivity].
    + right. left. split; [exact I|]. eexists. split; [vm_compute; reflexivity|reflexivity].
    + right. right. split; [exact (fun x => x)|]. eexists. split; [vm_compute; reflexivity|]. split; [discriminate|]. split; [reflexivity|]. repeat constructor.
Qed.
Print Assumptions C81_reads.
Print Assumptions C81_long_header_refused.
Print Assumptions C81_stale_refuted.
Print Assumptions C81_columns_refuted.
Print Assumptions C81_no_marker_refuted.
Print Assumptions C82_tables.
Print Assumptions C82_no_blanks.
Print Assumptions C82_unique_refuted.
