(** Model of sets of HTC files: HTCFileSet of weio/wetb/hawc2/htc_file_set.py.
    SIMPLIFICATIONS: the paths are those of Linux; [isfile] and [glob] are os.path.isfile and glob.iglob(..., recursive=True) of the file system, which
    does not change while the set is made; the imports of lines 4-6 are taken to succeed (the modules hawc2_pbs_file and pbsfile are not part of the
    repository); the lists of files that are given are lists or None. *)
From Verif Require Import Py HTC_Model.
From Verif Require Deck_Model.
From Verif Require Import HTCHome_Model.
Local Open Scope nat_scope.

Section Files.
  Variable isfile : str -> bool.
  Variable glob : str -> list str.
  (** The argument htc_lst: a text, a list, or a tuple of names *)
  Inductive names_arg := AText (p : str) | AList (l : list str) | ATuple (l : list str).
  (** The default of htc_lst, htc_file_set.py:10 *)
  Definition default_names : names_arg := AText (S_ "**/*.htc").
  (** The loop of htc_file_set.py:17-24 *)
  Fixpoint collect (model_path : str) (l : list str) (htc_files : list str) : list str :=
    match l with
    | [] => htc_files
    | p :: l' =>
        if isfile p then collect model_path l' (htc_files ++ [p])
        else let p := if isabs p then p else Deck_Model.path_join model_path p in
             collect model_path l' (htc_files ++ glob p)
    end.
  (** __init__, htc_file_set.py:10-24: what is no list becomes the only element of one; isfile of a tuple raises TypeError *)
  Definition file_set (model_path : str) (a : names_arg) : res (list str) :=
    match a with
    | AText p => Ok (collect model_path [p] [])
    | AList l => Ok (collect model_path l [])
    | ATuple _ => Err TypeError
    end.
End Files.

Section Jobs.
  (** The state of the outer world, batch jobs, [HTCFile(htc).pbs_file(...)] with the two lists afterwards, and [pbs.save(self.model_path)] *)
  Variables W J : Type.
  Variable make : W -> str -> option (list str) -> option (list str) -> option (list str) * option (list str) * res J.
  Variable save : W -> J -> W * res unit.
  (** pbs_files and save_pbs_files, htc_file_set.py:26-40: the jobs are made one by one, each when the one before has been saved, from copies of the lists.
      The result: the world, the lists of the caller, the jobs that were saved, and what is raised *)
  Fixpoint save_all (w : W) (files : list str) (ins outs : option (list str)) (saved : list J)
      : W * (option (list str) * option (list str)) * list J * res unit :=
    match files with
    | [] => (w, (ins, outs), saved, Ok tt)
    | f :: files' =>
        let '(_, _, r) := make w f ins outs in
        match r with
        | Err e => (w, (ins, outs), saved, Err e)
        | Ok j => let (w', s) := save w j in
                  match s with
                  | Err e => (w', (ins, outs), saved, Err e)
                  | Ok _ => save_all w' files' ins outs (saved ++ [j])
                  end
        end
    end.
  Definition save_pbs_files (w : W) (files : list str) (ins outs : option (list str)) := save_all w files ins outs [].
End Jobs.
