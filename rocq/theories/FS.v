(** A minimal file system: what weio observes of the operating system.
    SIMPLIFICATION: one process, no permissions, no symbolic links; a path is missing, a directory or a
    regular file with some bytes. *)
From Verif Require Import Py.

Notation bytes := (list N).
Inductive entry := Missing | Dir | Reg (b : bytes).
Definition fs := str -> entry.

Definition fs_put (f : fs) (p : str) (b : bytes) : fs :=
  fun q => if str_eqb q p then Reg b else f q.

(** [open(p, 'w')] / [open(p, 'wb')]: truncates or creates a regular file, fails on a directory. *)
Definition fs_open_w (f : fs) (p : str) : res fs :=
  match f p with
  | Dir => Err OSError2     (* IsADirectoryError, an OSError *)
  | _ => Ok (fs_put f p [])
  end.
(** [fh.write(b)] on a file opened for writing at its end. *)
Definition fs_append (f : fs) (p : str) (b : bytes) : fs :=
  match f p with
  | Reg old => fs_put f p (old ++ b)
  | _ => f
  end.
