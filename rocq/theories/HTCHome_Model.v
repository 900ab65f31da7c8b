(** Model of the model folder of an HTC file and of its batch job: __init__, auto_detect_modelpath and pbs_file of weio/wetb/hawc2/htc_file.py.
    SIMPLIFICATIONS: the paths are those of Linux, where os.path.splitdrive gives no drive; [here] is isfile_case_insensitive (fixcase is modelled in
    HTCPath_Model, the file system is quantified over); [abspath] and [realpath] are those of lines 24-31; the file is loaded as in HTC_Model and
    HTCPath_Model, and its input, output and turbulence files are those of HTCInp_Model and HTCSim_Model: here they are given. *)
From Verif Require Import Py HTC_Model.
From Verif Require Deck_Model HTCPath_Model.
Local Open Scope nat_scope.

(** os.path.isabs *)
Definition isabs (p : str) : bool := startswith p (S_ "/").
(** ["../" * i] *)
Definition ups (i : nat) : str := concat (repeat (S_ "../") i).
(** np.argmax: the first of the greatest *)
Fixpoint argmax (l : list nat) : nat :=
  match l with
  | [] => 0
  | x :: l' => if forallb (fun y => y <=? x) l' then 0 else S (argmax l')
  end.

Section Home.
  (** isfile_case_insensitive, lines 147-152 *)
  Variable here : str -> bool.
  Variables abspath realpath : str -> str.
  (** HTCFile(self.filename, 'unknown').input_files(), line 142 *)
  Variable inputs : str -> res (list str).

  (** os.path.join(os.path.dirname(self.filename), "../" * i, f), line 153 *)
  Definition candidate (filename : str) (i : nat) (f : str) : str :=
    Deck_Model.path_join (Deck_Model.path_join (Deck_Model.dirname filename) (ups i)) f.
  (** auto_detect_modelpath, htc_file.py:136-161 *)
  Definition auto_detect (filename : option str) : res str :=
    match filename with
    | None => Ok (S_ "../")
    | Some name =>
        files <- inputs name ;;
        if List.length files =? 1 then Ok (S_ "../")
        else
          let rel := filter (fun f => negb (isabs f)) files in
          let found := map (fun i => List.length (filter (fun f => here (candidate name i f)) rel)) [0; 1; 2; 3] in
          if existsb (fun n => 0 <? n) found
          then Ok (abspath (HTCPath_Model.unback (Deck_Model.path_join (Deck_Model.dirname name) (ups (argmax found)))))
          else Err ValueError
    end.
  (** self.modelpath as __init__ leaves it, lines 126-132; [filename]: the name as lines 115-123 leave it *)
  Definition init_modelpath (filename modelpath : option str) : res str :=
    m <- (match modelpath with Some (c :: m) => Ok (c :: m) | _ => auto_detect filename end) ;;
    let m := match filename with
             | Some (c :: f) =>
                 if negb (str_eqb m (S_ "unknown")) && negb (isabs m)
                 then HTCPath_Model.unback (realpath (Deck_Model.path_join (Deck_Model.dirname (c :: f)) m)) else m
             | _ => m
             end in
    if str_eqb m (S_ "unknown") then Ok m
    else match rev m with
         | [] => Err IndexError
         | c :: _ => if chr_eqb c (ch 47) then Ok m else Ok (m ++ S_ "/")
         end.
End Home.

(** ** pbs_file, htc_file.py:295-313 *)
Section Batch.
  (** os.path.isfile *)
  Variable isfile : str -> bool.
  (** self.input_files(), self.output_files() and self.turbulence_files() *)
  Variables own_inputs own_outputs turbulence : res (list str).
  (** Lines 298-301: a tuple of one element is used as it is in place of its element, and is true. *)
  Definition copies (copy_turb : list bool) : res (bool * bool) :=
    match copy_turb with
    | [_] => Ok (true, true)
    | [a; b] => Ok (a, b)
    | _ => Err ValueError
    end.
  (** [given or own]: a list that is given and not empty, and whether it is that of the caller *)
  Definition given_or (given : option (list str)) (own : res (list str)) : res (list str * bool) :=
    match given with Some (f :: l) => Ok (f :: l, true) | _ => l <- own ;; Ok (l, false) end.
  Record job := mk_job { j_inputs : list str; j_outputs : list str }.
  (** The lists of the caller afterwards ([+=] changes them in place), and the files of the job or what is raised. [known]: the name HAWC2PBSFile is
      defined; its import is commented out (line 8). *)
  Definition pbs_job (known : bool) (given_in given_out : option (list str)) (copy_turb : list bool)
      : option (list str) * option (list str) * res job :=
    match copies copy_turb with
    | Err e => (given_in, given_out, Err e)
    | Ok (fwd, back) =>
        match given_or given_in own_inputs with
        | Err e => (given_in, given_out, Err e)
        | Ok (ins, mine) =>
            match (if fwd then t <- turbulence ;; Ok (filter isfile t) else Ok []) with
            | Err e => (given_in, given_out, Err e)
            | Ok more =>
                let ins := ins ++ more in
                let given_in := if mine then Some ins else given_in in
                match given_or given_out own_outputs with
                | Err e => (given_in, given_out, Err e)
                | Ok (outs, mine') =>
                    match (if back then turbulence else Ok []) with
                    | Err e => (given_in, given_out, Err e)
                    | Ok more' =>
                        let outs := outs ++ more' in
                        let given_out := if mine' then Some outs else given_out in
                        (given_in, given_out, if known then Ok (mk_job ins outs) else Err NameError)
                    end
                end
            end
        end
    end.
  Definition pbs_file := pbs_job false.
End Batch.
