(** Model of weio/tdms_file.py: TDMS measurement files, read through the library nptdms.
    SIMPLIFICATIONS: the file is what nptdms gives: the addresses of its objects in order, with the samples and the time track of each
    (an object without a time track: [None]).  nptdms writes the address of a channel /'group'/'channel', doubling the quotes of the
    names, and looks an object up by this address (KeyError when there is none).  A double is a rational number (no NaN). *)
From Coq Require Import QArith.
From Verif Require Import Py.
Local Open Scope nat_scope.

Definition quote : ascii := "'"%char.
Definition slash : ascii := "/"%char.
(** nptdms: the address of the object of a group and a channel *)
Definition address (g c : str) : str := slash :: quote :: replace_chr quote [quote; quote] g ++ quote :: slash :: quote :: replace_chr quote [quote; quote] c ++ [quote].
Record channel := mk_channel { samples : list Q; time_track : option (list Q) }.
Definition tdms := list (str * channel).
Record table := mk_table { columns : list str; rows : list (list Q) }.
(** fh.object(group, channel) *)
Definition object (f : tdms) (g c : str) : res channel := match find (fun o => str_eqb (fst o) (address g c)) f with Some o => Ok (snd o) | None => Err KeyError end.
(** The keys of the channels (tdms_file.py:23-24): quotes removed, three pieces between slashes *)
Fixpoint channel_keys (addresses : list str) : list (str * str) :=
  match addresses with
  | [] => []
  | s :: l => match split_chr slash (replace_chr quote [] s) with [_; g; c] => (g, c) :: channel_keys l | _ => channel_keys l end
  end.
(** The loop over the channels (tdms_file.py:28-31) *)
Fixpoint signals_times (f : tdms) (keys : list (str * str)) : res (list (list Q) * list (list Q)) :=
  match keys with
  | [] => Ok ([], [])
  | (g, c) :: ks => ch <- object f g c ;; match time_track ch with None => Err KeyError | Some t => '(ss, ts) <- signals_times f ks ;; Ok (samples ch :: ss, t :: ts) end
  end.
(** np.min and np.max *)
Definition qmin (a b : Q) : Q := if Qle_bool a b then a else b.
Definition qmax (a b : Q) : Q := if Qle_bool a b then b else a.
Definition extreme (f : Q -> Q -> Q) (t : list Q) : res Q := match t with [] => Err ValueError | x :: l => Ok (fold_left f l x) end.
Fixpoint mapM {A B} (f : A -> res B) (l : list A) : res (list B) := match l with [] => Ok [] | x :: l' => y <- f x ;; ys <- mapM f l' ;; Ok (y :: ys) end.
(** len(np.unique(l)) > 1: two different values *)
Definition several {A} (eqb : A -> A -> bool) (l : list A) : bool := match l with [] => false | x :: l' => existsb (fun y => negb (eqb x y)) l' end.
(** np.column_stack: one row for each index; the arrays must have one length *)
Definition column_stack (l : list (list Q)) : res (list (list Q)) :=
  match l with
  | [] => Err ValueError
  | x :: l' => if forallb (fun y => Nat.eqb (List.length y) (List.length x)) l' then Ok (map (fun i => map (fun y => nth i y 0%Q) l) (seq 0 (List.length x))) else Err ValueError
  end.
(** _read (tdms_file.py:15-51) *)
Definition read (f : tdms) : res table :=
  let keys := channel_keys (map fst f) in
  '(signals, times) <- signals_times f keys ;;
  mins <- mapM (extreme qmin) times ;;
  maxs <- mapM (extreme qmax) times ;;
  if several Nat.eqb (map (@List.length Q) times) then Err NotImplementedError
  else if several Qeq_bool mins then Err NotImplementedError
  else if several Qeq_bool maxs then Err NotImplementedError
  else match times with
       | [] => Err IndexError
       | time :: _ => m <- column_stack (time :: signals) ;; Ok (mk_table (S_ "Time_[s]" :: map snd keys) m)
       end.
