(** C113: superelement files with negative sizes. *)
From Verif Require Import Py PyFacts TextFacts FASTIn_Model FASTTab_Proofs FASTTab_Props FASTTabRead_Props AD14_Props.
From Verif Require Import ExtPtfm_Model ExtPtfm_Props.
From Verif Require Import Dict.
Local Open Scope nat_scope.

Section Ext.
Context {V : Type}.
Variable num : str -> option V.
Variable ofz : Z -> V.
Variable steps : V -> V -> option Z.
(** A negative size is an error that is not one of the format errors: a matrix of dimension -1 before the dimension is known, loads with a negative
    number of times, and loads after a dimension below -1. *)
Theorem C113_negative_refuted : forall d lines pre bad n d1, is_ext lines -> skipn 2 lines = pre ++ bad -> reads num steps (-1) d pre n d1 ->
  (forall kw key title header s rest, bad = title :: header :: rest -> In (kw, key) matrices -> keyword title kw -> after_colon header s -> int_ s = Ok (-1)%Z -> n = (-1)%Z -> read_ext num ofz steps d lines = (d1, Err ValueError)) /\
  (forall title rest t dt z, bad = title :: rest -> keyword title "!loading" -> get d1 (S_ "T") = Some (ENum t) -> get d1 (S_ "dt") = Some (ENum dt) -> steps t dt = Some z -> (z < -1 \/ n < -1)%Z -> read_ext num ofz steps d lines = (d1, Err ValueError)).
Proof.
  intros d lines pre bad n d1 H E R. rewrite (read_start num ofz steps d lines n d1 pre bad H E R). split.
  - intros kw key title header s rest -> Hk Ht Hh Hs ->. cbn [eloop]. rewrite (turn_matrix num ofz steps _ _ _ _ _ Hk Ht). unfold matrix. rewrite (field_ok _ _ Hh). cbn [bind]. rewrite Hs. reflexivity.
  - intros title rest t dt z -> Ht H1 H2 H3 Hz. cbn [eloop]. rewrite (turn_loading_eq num ofz steps _ _ _ Ht). unfold loading, samples, number. rewrite H1, H2, H3. cbn [option_map]. unfold readmat.
    replace ((z + 1 <? 0)%Z || (n + 1 <? 0)%Z) with true by (symmetry; apply orb_true_iff; rewrite !Z.ltb_lt; lia). reflexivity.
Qed.
End Ext.

Definition neg_file : list str := map S_ ["!a"; "!flex"; "!Dimension: -3"; "!Time increment: 5"; "!Total simulation time: 14"; ""; "!Loading"; ""; ""; ""]%string.
Example C113_negative_example : exists d, read_ext inum (fun z => z) isteps [] neg_file = (d, Err ValueError).
Proof.
  eexists. refine (proj2 (C113_negative_refuted inum (fun z => z) isteps [] neg_file (firstn 4 (skipn 2 neg_file)) (skipn 6 neg_file) (-3)%Z _ _ eq_refl _) (S_ "!Loading") _ 14%Z 5%Z 2%Z eq_refl _ _ _ _ _).
  - split; [cbn; lia|]. eexists _, _, _, _. split; [reflexivity|]. split; [eexists; reflexivity|]. split; [eexists; reflexivity|]. split; [exists (S_ "!"), []; reflexivity|exists [], (S_ ": -3"); reflexivity].
  - assert (C : forall a s, ~ In (ch 58) a -> ~ In (ch 58) s -> after_colon (a ++ ch 58 :: s) s) by (intros a s Ha Hs; exists a, []; rewrite app_nil_r; repeat split; try assumption; now left).
    eapply (r_dimension inum isteps _ _ _ (S_ " -3") (-3)%Z).
    + exists (S_ ": -3"). reflexivity.
    + apply (C (S_ "!dimension") (S_ " -3")); vm_compute; intuition discriminate.
    + reflexivity.
    + eapply (r_step inum isteps _ _ _ (S_ " 5") 5%Z).
      * exists (S_ ": 5"). reflexivity.
      * apply (C (S_ "!time increment") (S_ " 5")); vm_compute; intuition discriminate.
      * reflexivity.
      * eapply (r_total inum isteps _ _ _ (S_ " 14") 14%Z).
        -- exists (S_ ": 14"). reflexivity.
        -- apply (C (S_ "!total simulation time") (S_ " 14")); vm_compute; intuition discriminate.
        -- reflexivity.
        -- apply r_blank; [reflexivity|]. apply r_end.
  - exists []. reflexivity.
  - reflexivity.
  - reflexivity.
  - reflexivity.
  - right. lia.
Qed.
Print Assumptions C113_negative_refuted.
