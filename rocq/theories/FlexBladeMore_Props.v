(** C104: FLEX blade files with a negative number of sections, or that end before the damping. *)
From Verif Require Import Py PyFacts TextFacts FlexBlade_Model FlexBlade_Props.
Local Open Scope nat_scope.

Section Proofs.
Context {V : Type}.
Variable num : str -> option V.
(** A negative number of sections is an error, but not one of the format errors. *)
Theorem C104_negative_refuted first v count more w rest z : v <= 3 -> version_line first v -> split_ws count = w :: more -> int_ w = Ok z -> (z < 0)%Z ->
  read num (first :: count :: rest) = Err ValueError.
Proof.
  intros Hv Hf Hc Hz Hn. unfold read. cbn [hd tl line_at]. rewrite split_ws_strip, Hc, Hz. cbn [as_wrong bind]. cbv zeta. rewrite (version_read first v Hv Hf). destruct (headers_ok v Hv) as [x ->].
  destruct (Z.ltb_spec z 0); [reflexivity|lia].
Qed.
(** Without the line of damping (the file ends, or the line is blank), the error is that of an index, whatever comes later. *)
Theorem C104_no_damping_refuted first v count more (secs : list (list V)) st (rest : list str) : v <= 3 -> version_line first v -> split_ws count = str_of_N (N.of_nat (List.length secs)) :: more ->
  Forall (fun s => List.length s = List.length (struct_names v)) secs -> Forall2 (starts_with num) secs st -> rest = [] \/ (exists b rest', rest = b :: rest' /\ split_ws b = []) ->
  read num (first :: count :: st ++ rest) = Err IndexError.
Proof.
  intros Hv Hf Hc Hl Hs Hr. unfold read. cbn [hd tl line_at]. rewrite split_ws_strip, Hc, int_of_N. cbn [as_wrong bind]. cbv zeta. rewrite (version_read first v Hv Hf). destruct (headers_ok v Hv) as [x ->].
  destruct (Z.ltb_spec (Z.of_N (N.of_nat (List.length secs))) 0); [lia|]. rewrite nat_N_Z, Nat2Z.id, map_length. rewrite (rows_ok num _ secs st rest Hs Hl). cbn [as_wrong bind]. unfold damping.
  replace (first_float num (line_at rest)) with (@Err V IndexError); [reflexivity|]. destruct Hr as [->|(b & rest' & -> & Hb)]; [reflexivity|]. cbn [line_at hd]. unfold first_float. rewrite split_ws_strip, Hb. reflexivity.
Qed.
End Proofs.

Example C104_negative_example : read toy (map S_ ["#003"; "-2 r[m]"]%string) = Err ValueError.
Proof. apply (C104_negative_refuted toy _ 3 _ [S_ "r[m]"] (S_ "-2") [] (-2)%Z); try reflexivity; try lia. left. exists "#"%char, []. reflexivity. Qed.
Example C104_no_damping_example : read toy (map S_ ["#000"; "1"; "0 9 8 7 1 0 2 3 Root"; " "; "5"]%string) = Err IndexError.
Proof.
  apply (C104_no_damping_refuted toy (S_ "#000") 0 (S_ "1") [] [[0; 9; 8; 7; 1; 0; 2; 3]] [S_ "0 9 8 7 1 0 2 3 Root"] [S_ " "; S_ "5"]); try reflexivity; try lia.
  - left. exists "#"%char, []. reflexivity.
  - repeat constructor.
  - constructor; [|constructor]. exists (map S_ ["0"; "9"; "8"; "7"; "1"; "0"; "2"; "3"]%string), [S_ "Root"]. split; [reflexivity|]. repeat constructor.
  - right. exists (S_ " "), [S_ "5"]. split; reflexivity.
Qed.
Print Assumptions C104_negative_refuted.
Print Assumptions C104_no_damping_refuted.
