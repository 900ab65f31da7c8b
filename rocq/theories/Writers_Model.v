(** Writers of small formats: base class, CACTUS, linearization.
    SIMPLIFICATION: the object is only what the writer uses. *)
From Verif Require Import Py FS File_Model TurbSim_Model.

(** The writer of a class that does not define one (file.py:85-86), of bmodes_out_file.py:103-108 and of raawmat_file.py:181-186 *)
Definition no_writer {data} (f : fs) (p : str) (d : data) : fs * data * res unit := (f, d, Err NotImplementedError).
(** CactusFile._write (cactus_file.py:366-369) and CactusElementFile._write (cactus_element_file.py:87-90): the method, not its
    result, is written *)
Definition cactus_write {data} (f : fs) (p : str) (d : data) : fs * data * res unit := let (f', r) := write_file f p [Err TypeError] in (f', d, r).
(** FASTLinearizationFile.toString and _write (fast_linearization_file.py:151-157) *)
Definition lin_toString {data} (d : data) : str := [].
Definition lin_write {data} (f : fs) (p : str) (d : data) : fs * data * res unit := let (f', r) := write_file f p [Ok (map N_of_ascii (lin_toString d))] in (f', d, r).
