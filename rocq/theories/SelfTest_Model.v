(** Model of the tests every file object offers, test_write_read and test_ascii (weio/file.py:114-153), and of the removal of files by
    ascii_comp (file.py:172-191).  The reader and the writer of the class are parameters; [kind] tells what the first argument of an exception is,
    as the handlers add it to a text. *)
From Verif Require Import Py FS File_Model Registry_Model.
Local Open Scope nat_scope.

Inductive argument := AText | ANone | AOther.
(** os.remove *)
Definition fs_remove (f : fs) (p : str) : res fs := match f p with Reg _ => Ok (fun q => if str_eqb q p then Missing else f q) | _ => Err OSError2 end.
(** open(p, 'r').read(); bytes are taken as characters *)
Definition text_of (f : fs) (p : str) : res str := match f p with Reg b => Ok (map (fun n => ascii_of_N n) b) | _ => Err OSError2 end.
(** ascii_comp (file.py:172-191) *)
Definition comp_files (f : fs) (p1 p2 : str) (bDelete : bool) : res (fs * bool) :=
  a <- text_of f p1 ;; b <- text_of f p2 ;;
  if ascii_comp a b then if bDelete then f' <- fs_remove f p2 ;; Ok (f', true) else Ok (f, true)
  else Ok (f, false).
(** os.path.splitext *)
Definition root_ext (name : str) : str * str := (firstn (List.length name - List.length (splitext_ext name)) name, splitext_ext name).
Definition tmp_name (suffix name : str) : str := fst (root_ext name) ++ suffix ++ snd (root_ext name).

Section T.
Variable data : Type.
Variable child_read : fs -> str -> unit -> data -> data * res unit.
Variable child_write : fs -> str -> data -> fs * data * res unit.
Variable kind : exn -> argument.
(** 'text' + e.args[0] in a handler *)
Definition masked (e : exn) : exn := match kind e with AText => PlainException | ANone => IndexError | AOther => TypeError end.
(** test_write_read (file.py:114-133) *)
Definition test_write_read (f : fs) (o : file_obj data) (bDelete : bool) : fs * file_obj data * res str :=
  match o_filename o with
  | None => (f, o, Err (masked TypeError))
  | Some name =>
      let out := tmp_name (S_ "_TMP") name in
      let '(f1, o1, r1) := File_write data child_write f o (Some out) in
      match r1 with
      | Err e => (f1, o1, Err (masked e))
      | Ok _ =>
          let '(o2, r2) := File_read data unit child_read f1 o1 (Some out) tt in
          match r2 with
          | Err e => (f1, o2, Err (masked e))
          | Ok _ => if bDelete then match fs_remove f1 out with Ok f2 => (f2, o2, Ok out) | Err e => (f1, o2, Err e) end else (f1, o2, Ok out)
          end
      end
  end.
(** test_ascii (file.py:135-153) *)
Definition test_ascii (f : fs) (o : file_obj data) (bCompareWritesOnly bDelete : bool) : fs * file_obj data * res unit :=
  match o_filename o with
  | None => (f, o, Err TypeError)
  | Some name =>
      let '(f1, o1, r1) := test_write_read f o false in
      match r1 with
      | Err e => (f1, o1, Err e)
      | Ok out =>
          let '(f2, o2, r2) := if bCompareWritesOnly then File_write data child_write f1 o1 (Some (tmp_name (S_ "_TMP2") name)) else (f1, o1, Ok tt) in
          match r2 with
          | Err e => (f2, o2, Err e)
          | Ok _ =>
              let p1 := if bCompareWritesOnly then out else fst (root_ext name) ++ snd (root_ext name) in
              let p2 := if bCompareWritesOnly then tmp_name (S_ "_TMP2") name else out in
              match comp_files f2 p1 p2 bDelete with
              | Err e => (f2, o2, Err e)
              | Ok (f3, false) => (f3, o2, Err PlainException)
              | Ok (f3, true) => if bCompareWritesOnly && bDelete then match fs_remove f3 p1 with Ok f4 => (f4, o2, Ok tt) | Err e => (f3, o2, Err e) end else (f3, o2, Ok tt)
              end
          end
      end
  end.
End T.
