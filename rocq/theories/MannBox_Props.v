(** Property theorems C09-C12 (Mann boxes). *)
From Verif Require Import Py PyFacts FS Registry_Model MannBox_Model MannBox_Proofs.

(** C09: writing a non-empty box and reading it back with its dimensions gives the same box; no other file
    changes. *)
Theorem C09_write_read : forall f fn x nx ny nz, fn <> [] -> f fn <> Dir ->
  0 < nx -> 0 < ny -> 0 < nz -> shaped nx ny nz x ->
  exists f', mann_write f fn x = (f', Ok tt) /\
    mann_read f' fn (Some (nx, ny, nz)) = Ok x /\
    f' fn = Reg (write_field x) /\ forall q, q <> fn -> f' q = f q.
Proof. exact mann_file_round_trip. Qed.
Print Assumptions C09_write_read.

(** Reading then writing reproduces the bytes that were read. *)
Theorem C09_read_write : forall f fn nx ny nz x, mann_read f fn (Some (nx, ny, nz)) = Ok x ->
  exists b, f fn = Reg b /\ write_field x = firstn (4 * nx * ny * nz) b.
Proof. exact mann_read_write_back. Qed.
Print Assumptions C09_read_write.

(** The round trip fails for a box with no time step: the file is empty and is refused. *)
Theorem C09_empty_box_refuted : exists f fn x, shaped 0 2 2 x /\ f fn = Missing /\
  mann_read (fst (mann_write f fn x)) fn (Some (0, 2, 2)) = Err EmptyFileError.
Proof.
  exists (fun _ => Missing), (S_ "a"), []. split; [split; [reflexivity | constructor]|]. split; reflexivity.
Qed.
Print Assumptions C09_empty_box_refuted.

(** C10: position of every value in the file, and which files are accepted. *)
Theorem C10_layout : forall nx ny nz b, 4 * nx * ny * nz <= List.length b ->
  exists x, read_buffered nx ny nz b = Ok x /\ shaped nx ny nz x /\
    forall ix iy iz, ix < nx -> iy < ny -> iz < nz ->
      exists p r, nth_error x ix = Some p /\ nth_error p iy = Some r /\
        nth_error r iz = Some (firstn 4 (skipn (4 * (ix * ny * nz + (ny - 1 - iy) * nz + iz)) b)).
Proof. exact read_planes_ok. Qed.
Print Assumptions C10_layout.
Theorem C10_accepted_iff_long_enough : forall f fn b nx ny nz, fn <> [] -> f fn = Reg b -> b <> [] ->
  ((exists x, mann_read f fn (Some (nx, ny, nz)) = Ok x) <-> 4 * nx * ny * nz <= List.length b) /\
  (List.length b < 4 * nx * ny * nz -> mann_read f fn (Some (nx, ny, nz)) = Err ValueError).
Proof. exact mann_read_ok_iff. Qed.
Print Assumptions C10_accepted_iff_long_enough.

(** C11: the two readers agree on files of the exact size. *)
Theorem C11_readers_agree : forall nx ny nz b, List.length b = 4 * nx * ny * nz ->
  read_nonbuffered nx ny nz b = read_buffered nx ny nz b.
Proof. exact readers_agree. Qed.
Print Assumptions C11_readers_agree.
(** They do not on longer files: one accepts, the other refuses. *)
Theorem C11_longer_file_refuted : exists b x, read_buffered 1 1 1 b = Ok x /\ read_nonbuffered 1 1 1 b = Err AssertionError.
Proof. exists [1;2;3;4;5;6;7;8]%N. eexists. split; vm_compute; reflexivity. Qed.
Print Assumptions C11_longer_file_refuted.

(** C12: the dimensions are recovered from the name given by toMannBox, for every base. *)
Theorem C12_name_dims : forall base nx ny nz c, c <> slash -> c <> dot ->
  infer_dims (mann_name base nx ny nz c) = Ok (nx, ny, nz).
Proof. exact infer_mann_name. Qed.
Print Assumptions C12_name_dims.
Theorem C12_named_round_trip : forall f base nx ny nz c x, c <> slash -> c <> dot ->
  (0 < nx)%N -> (0 < ny)%N -> (0 < nz)%N ->
  f (mann_name base nx ny nz c) <> Dir ->
  shaped (N.to_nat nx) (N.to_nat ny) (N.to_nat nz) x ->
  exists f', mann_write f (mann_name base nx ny nz c) x = (f', Ok tt) /\
    mann_read f' (mann_name base nx ny nz c) None = Ok x.
Proof. exact mann_named_round_trip. Qed.
Print Assumptions C12_named_round_trip.

(** Non-vacuity: a 2x3x1 box with distinct words, written to 'run12/b3' and read back. *)
Definition ex_box : field := [[[[1;0;0;0]]; [[2;0;0;0]]; [[3;0;0;0]]]; [[[4;0;0;0]]; [[5;0;0;0]]; [[6;0;0;0]]]]%N.
Example C09_example :
  shaped 2 3 1 ex_box /\
  mann_name (S_ "run12/b3") 2 3 1 (ch 117) = S_ "run12/b3_2x3x1.u" /\
  write_field ex_box = [3;0;0;0;2;0;0;0;1;0;0;0;6;0;0;0;5;0;0;0;4;0;0;0]%N /\
  mann_read (fst (mann_write (fun _ => Missing) (S_ "run12/b3_2x3x1.u") ex_box)) (S_ "run12/b3_2x3x1.u") None = Ok ex_box /\
  infer_dims (S_ "d/nodims12.u") = Err BrokenFormatError /\
  infer_dims (S_ "box_1024x32x32_seed1.u") = Ok (32, 32, 1)%N.
Proof.
  split; [|vm_compute; repeat split; reflexivity].
  split; [reflexivity|]. repeat constructor.
Qed.
