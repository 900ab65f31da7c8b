(** Specification of HTC trees: names of repeated objects, well-formed files, the tree expected after a round trip.
    Used by the statements of HTC_Props.v. *)
From Verif Require Import Py PyFacts HTC_Model.
Local Open Scope nat_scope.

(** ** Names *)
Definition keys {V} (d : list (str * V)) : list str := map fst d.

(** No double underscore. *)
Definition no_uu (s : str) : Prop := contains s uu = false.
(** Number of objects of that name so far -> key of the next one. *)
Definition key_for (name : str) (seen : nat) : str :=
  match seen with O => name | S b => name ++ S_ "__" ++ str_of_N (N.of_nat (S seen)) end.
Definition occurrences (name : str) (l : list node) : nat := List.length (filter (fun n => str_eqb (node_name n) name) l).
Fixpoint number (seen : list node) (l : list node) : list (str * node) :=
  match l with
  | [] => []
  | n :: l' => (key_for (node_name n) (occurrences (node_name n) seen), n) :: number (seen ++ [n]) l'
  end.


(** ** Texts *)
Definition cr : ascii := ch 13.
(** No line break inside. *)
Definition clean (s : str) : bool := forallb (fun c => negb (chr_eqb c nl) && negb (chr_eqb c cr)) s.
Definition no_semi (s : str) : bool := forallb (fun c => negb (chr_eqb c semi)) s.
(** A word: not empty, no blank, no semicolon. *)
Definition word (s : str) : Prop := is_token s = true /\ no_semi s = true.
(** A comment: a first line, then lines that start with a semicolon, all without surrounding blanks. *)
Definition continuation (l : str) : Prop := clean l = true /\ strip l = l /\ startswith l [semi] = true.
Definition comment (c : str) : Prop :=
  exists c0 cs, c = join [nl] (c0 :: cs) /\ clean c0 = true /\ strip c0 = c0 /\ Forall continuation cs.
(** The same for the comment after "end": its first line may start with blanks. *)
Definition end_comment (c : str) : Prop :=
  exists c0 cs, c = join [nl] (c0 :: cs) /\ clean c0 = true /\ rstrip c0 = c0 /\ Forall continuation cs.

Definition nonnil (s : str) : bool := match s with [] => false | _ => true end.
(** ** Well-formed files *)
Definition keyword_free (nm : str) : Prop := startswith (lower nm) (S_ "begin") = false /\ startswith (lower nm) (S_ "end") = false.
Inductive place := Top | InPlain | InOutput.
Definition place_of (k : kind) : place := match k with Plain => InPlain | _ => InOutput end.
(** The entries of an output section that are not sensors. *)
Definition output_entries : list str := [S_ "filename"; S_ "data_format"; S_ "buffer"; S_ "time"].
(** What a line may be called, depending on where it is. *)
Definition line_ok (p : place) (nm : str) (vs : list str) : Prop :=
  match p with
  | Top => nm <> S_ "exit" /\ startswith (lower nm) (S_ "begin") = false
  | InPlain => keyword_free nm
  | InOutput => In nm output_entries /\ vs <> []
  end.

Section Wf.
  Variable num : str -> option (res str).
  Variable float_str : str -> res str.
  Definition value_ok (v : str) : Prop := word v /\ fmt_value num v = Ok v.
  Definition sensor_ok (s : sensor) : Prop :=
    word (s_type s) /\ word (s_sensor s) /\ keyword_free (s_type s) /\ ~ In (s_type s) output_entries /\
    Forall (fun v => word v /\ fmt_sensor num v = Ok v) (s_values s) /\ comment (s_comments s).
  (** A section name as the reader produces it. *)
  Definition name_ok (nm : str) : Prop := strip nm = nm /\ lower nm = nm /\ clean nm = true /\ no_semi nm = true /\ no_uu nm.
  Definition sec_ok (k : kind) (nm bc : str) (ss : list sensor) : Prop :=
    name_ok nm /\
    match k with
    | Plain => nm <> S_ "output" /\ startswith nm output_at_time = false /\ ss = []
    | Output => nm = S_ "output"
    | AtTime typ time =>
        word nm /\ startswith nm output_at_time = true /\ word typ /\ lower typ = typ /\ word time /\ lower time = time /\
        float_str time = Ok time /\ List.length (strip bc) <= 1
    end.
  (** Lines without a name (blank lines of the file) are allowed anywhere: they are not printed. *)
  Inductive wf : place -> node -> Prop :=
  | wf_blank p vs c : wf p (Line [] vs c)
  | wf_line p nm vs c : word nm -> no_uu nm -> line_ok p nm vs -> Forall value_ok vs -> comment c -> wf p (Line nm vs c)
  | wf_sec p k nm bc ec cont ss : sec_ok k nm bc ss -> comment bc -> end_comment ec -> Forall sensor_ok ss ->
      Forall (fun e => wf (place_of k) (snd e)) cont -> wf p (Sec k nm bc ec cont ss).
  Definition initial_ok (c : str) : Prop := exists s, c = s ++ [nl] /\ continuation s.
  Definition wf_file (h : htc) : Prop := Forall initial_ok (initial_comments h) /\ Forall (fun e => wf Top (snd e)) (h_contents h).
End Wf.

(** ** The tree that is read back *)
Definition named (n : node) : bool := match n with Line nm _ _ => nonnil nm | Sec _ _ _ _ _ _ => true end.
Definition is_main (n : node) : bool := str_eqb (node_name n) main_body.
(** Main bodies first, the rest in the same order; blank lines dropped; the n-th object of a name is called name__n. *)
Definition main_first (l : list node) : list node := filter is_main l ++ filter (fun n => negb (is_main n)) l.
Definition arranged (l : list node) : list (str * node) := number [] (filter named (main_first l)).
(** The comment after "end" comes back with the tab that separates it. *)
Definition end_read (c : str) : str := match c with [] => [] | x :: _ => if chr_eqb x nl then c else tab :: c end.
Fixpoint canon (n : node) : node :=
  match n with
  | Line _ _ _ => n
  | Sec k nm bc ec cont ss => Sec k nm bc (end_read ec) (arranged (map (fun e => canon (snd e)) cont)) ss
  end.
Definition canon_file (h : htc) : htc := mk_htc (initial_comments h) (arranged (map (fun e => canon (snd e)) (h_contents h))).

(** Sections whose end comment has no text on the first line, at every level. *)
Inductive plain_ends : node -> Prop :=
| pe_line nm vs c : plain_ends (Line nm vs c)
| pe_sec k nm bc ec cont ss : end_read ec = ec -> Forall (fun e => plain_ends (snd e)) cont -> plain_ends (Sec k nm bc ec cont ss).

(** A tree of plain sections without surrounding blanks in names and comments. *)
Inductive copyable : node -> Prop :=
| cp_line nm vs c : no_uu nm -> strip_bt c = c -> copyable (Line nm vs c)
| cp_sec nm bc ec cont ss : strip nm = nm -> strip_bt bc = bc -> strip_bt ec = ec -> Forall (fun e => copyable (snd e)) cont ->
    copyable (Sec Plain nm bc ec cont ss).
