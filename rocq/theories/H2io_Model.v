(** Model of the channel cache of weio/wetb/hawc2/Hawc2io.py (class ReadHawc2), its binary reader and its .sel
    reader, and of the .sel writer of weio/hawc2_dat_file.py.
    SIMPLIFICATIONS: double precision products are exact rational products; channel numbers are naturals (a
    negative number makes [fid.seek] fail); the ASCII data file (np.savetxt/np.loadtxt) is not modelled. *)
From Verif Require Import Py FS Bytes FASTOut_Model.
From Coq Require Import QArith.
Local Open Scope nat_scope.

(** ** The object *)

(** The attributes ReadHawc2 keeps (Hawc2io.py:155-181, 349-381): number of scans and channels, scale factors,
    the bytes of the .dat file, and the cache: [Iknown] (list of channel numbers) and [Data].  [Data] is
    [None] for the initial one-dimensional [np.zeros(0)], otherwise a matrix given by its columns. *)
Record h2 := mk_h2 { NrSc : nat; NrCh : nat; scale : list Q; dat : bytes; ReadOnly : bool;
                     Iknown : list nat; Data : option (list (list Q)) }.
Definition set_cache (h : h2) (k : list nat) (d : option (list (list Q))) : h2 :=
  mk_h2 (NrSc h) (NrCh h) (scale h) (dat h) (ReadOnly h) k d.

(** ** ReadBinary: Hawc2io.py:240-251 *)

(** One pass of the loop: seek to [i*NrSc*2], read at most [NrSc] whole int16 items, multiply by the scale
    factor and assign to a column of [NrSc] rows (a single item is broadcast, any other count is a
    ValueError). *)
Definition read_channel (h : h2) (i : nat) : res (list Q) :=
  let b := firstn (2 * NrSc h) (skipn (i * NrSc h * 2) (dat h)) in
  let zs := map (sint 2) (items 2 b) in
  match nth_error (scale h) i with
  | None => Err IndexError
  | Some s =>
      let v := map (fun z => (inject_Z z * s)%Q) zs in
      if Nat.eqb (List.length v) (NrSc h) then Ok v
      else match v with [x] => Ok (repeat x (NrSc h)) | _ => Err ValueError end
  end.
Definition ReadBinary (h : h2) (chs : list nat) : res (list (list Q)) :=
  map_res (read_channel h) (match chs with [] => seq 0 (NrCh h) | _ => chs end).
(** ReadAll, Hawc2io.py:293-306, for FileFormat 'HAWC2_BINARY'. *)
Definition ReadAll (h : h2) (chs : list nat) : res (list (list Q)) :=
  ReadBinary h (match chs with [] => seq 0 (NrCh h) | _ => chs end).

(** ** __call__: Hawc2io.py:310-342 *)

(** [Iknown.index(i)] *)
Fixpoint index_of (l : list nat) (i : nat) : option nat :=
  match l with
  | [] => None
  | x :: l' => if Nat.eqb x i then Some 0 else option_map S (index_of l' i)
  end.
(** The sorting loop, Hawc2io.py:325-331: returns (Iknown, I1, I2).  In the except branch I1 receives
    [len(I1)]. *)
Fixpoint sort_channels (chs : list nat) (known I1 I2 : list nat) : list nat * list nat * list nat :=
  match chs with
  | [] => (known, I1, I2)
  | i :: chs' =>
      match index_of known i with
      | Some k => sort_channels chs' known (I1 ++ [k]) I2
      | None => sort_channels chs' (known ++ [i]) (I1 ++ [List.length I1]) (I2 ++ [i])
      end
  end.
(** [Data.any()] *)
Definition any_nonzero (d : option (list (list Q))) : bool :=
  match d with
  | None => false
  | Some cols => existsb (existsb (fun x => negb (Qeq_bool x 0))) cols
  end.
(** [Data[:, tuple(I1)]] *)
Definition take_cols (d : option (list (list Q))) (I1 : list nat) : res (list (list Q)) :=
  match d with
  | None => Err IndexError
  | Some cols => map_res (fun k => match nth_error cols k with Some c => Ok c | None => Err IndexError end) I1
  end.
(** The call: the new object and what is returned ([Ok None] is Python's None).  An exception of ReadAll
    leaves the extended [Iknown] behind. *)
Definition call (h : h2) (req : list nat) : h2 * res (option (list (list Q))) :=
  let chs := match req with [] => seq 0 (NrCh h) | _ => req end in
  if match req with [] => false | _ => Nat.leb (NrCh h) (fold_right Nat.max 0 req) end then (h, Ok None)
  else if ReadOnly h then (h, c <- ReadAll h chs ;; Ok (Some c))
  else
    let '(known, I1, I2) := sort_channels chs (Iknown h) [] [] in
    match I2 with
    | [] => (set_cache h known (Data h), c <- take_cols (Data h) I1 ;; Ok (Some c))
    | _ =>
        match ReadAll h I2 with
        | Err e => (set_cache h known (Data h), Err e)
        | Ok temp =>
            let d := if any_nonzero (Data h)
                     then match Data h with Some old => Some (old ++ temp) | None => Some temp end
                     else Some temp in
            (set_cache h known d, c <- take_cols d I1 ;; Ok (Some c))
        end
    end.

(** A history of calls on one object: the list of what each call returned. *)
Fixpoint calls (h : h2) (reqs : list (list nat)) : h2 * list (res (option (list (list Q)))) :=
  match reqs with
  | [] => (h, [])
  | r :: reqs' => let '(h1, o) := call h r in let '(h2, os) := calls h1 reqs' in (h2, o :: os)
  end.

(** ** The .sel file *)

(** A written line. *)
Definition add_nl (l : str) : str := l ++ [nl].
(** ['{:ns}'.format(s)] *)
Definition pad (n : nat) (s : str) : str := s ++ repeat sp (n - List.length s).
(** [unit.replace('(','').replace(')','').replace('[','').replace(']','')], hawc2_dat_file.py:149 *)
Definition no_brackets (u : str) : str :=
  filter (fun c => negb (chr_eqb c (ch 40) || chr_eqb c (ch 41) || chr_eqb c (ch 91) || chr_eqb c (ch 93))) u.
Definition rule120 : str := repeat (ch 95) 120.
(** The loop over zip(names, descr, units), hawc2_dat_file.py:148-150 (lines without their line feed). *)
Fixpoint sel_channels (k : N) (names units descrs : list str) : list str :=
  match names, units, descrs with
  | n :: names', u :: units', d :: descrs' =>
      (pad 12 (str_of_N k) ++ pad 31 (firstn 30 n) ++ pad 11 (no_brackets u) ++ d)
        :: sel_channels (k + 1) names' units' descrs'
  | _, _, _ => []
  end.
(** hawc2_dat_file.py:134-151 (bHawc false).  [base] is the base name of the .dat file and [time] the text
    ['{:.3f}'.format(SimTime)]. *)
Definition sel_lines (base time : str) (nscans : N) (nchan : N) (names units descrs : list str) : list str :=
  [ rule120;
    S_ "  Version ID : NA";
    repeat sp 60 ++ S_ "Time : 00:00:00";
    repeat sp 60 ++ S_ "Date : 01:01.2001";
    rule120;
    S_ "  Result file : " ++ base;
    rule120;
    S_ "   Scans    Channels    Time [sec]      Format";
    pad 12 (str_of_N nscans) ++ pad 12 (str_of_N nchan) ++ pad 16 time ++ S_ "ASCII";
    [];
    pad 12 (S_ "Channel") ++ pad 31 (S_ "Name") ++ pad 11 (S_ "Unit") ++ S_ "Variable Description";
    [] ] ++ sel_channels 1 names units descrs ++ [rule120].
Definition sel_text (base time : str) (nscans nchan : N) (names units descrs : list str) : str :=
  concat (map add_nl (sel_lines base time nscans nchan names units descrs)).

(** [fid.readlines()]: every line keeps its line feed, the last one may have none. *)
Fixpoint readlines (acc s : str) : list str :=
  match s with
  | [] => match acc with [] => [] | _ => [acc] end
  | c :: s' => if chr_eqb c nl then (acc ++ [c]) :: readlines [] s' else readlines (acc ++ [c]) s'
  end.
(** [L[a:b]] for a line; [54:-1] drops the last character. *)
Definition slice (a b : nat) (s : str) : str := firstn (b - a) (skipn a s).
Definition slice_m1 (a : nat) (s : str) : str := skipn a (removelast s).
(** float(temp[2]) = 0, for texts made by '{:.3f}' *)
Definition zero_text (s : str) : bool :=
  forallb (fun c => chr_eqb c (ch 48) || chr_eqb c (ch 46) || chr_eqb c (ch 45)) s.

Record sel := mk_sel { s_NrSc : Z; s_NrCh : Z; s_time : str; s_binary : bool;
                       s_names : list str; s_units : list str; s_descrs : list str }.
Definition nth_line (ls : list str) (i : nat) : res str :=
  match nth_error ls i with Some l => Ok l | None => Err IndexError end.
(** _ReadSelFile, Hawc2io.py:82-165: the branch of line 141 on (a first line containing 'bhawc' is not
    modelled: None); the scale factors of a binary file are not read here. *)
Definition ReadSel (text : str) : option (res sel) :=
  let ls := readlines [] text in
  match ls with
  | [] => Some (Err IndexError)
  | l0 :: _ =>
      if contains (lower l0) (S_ "bhawc") then None
      else Some (
        l8 <- nth_line ls 8 ;;
        let temp := split_ws l8 in
        t0 <- nth_line temp 0 ;; nsc <- int_ t0 ;;
        t1 <- nth_line temp 1 ;; nch <- int_ t1 ;;
        t2 <- nth_line temp 2 ;;
        _ <- (if zero_text t2 then Err ZeroDivisionError else Ok tt) ;;
        t3 <- nth_line temp 3 ;;
        cl <- map_res (fun i => nth_line ls (i + 12)) (seq 0 (Z.to_nat nch)) ;;
        Ok (mk_sel nsc nch t2 (str_eqb (lower t3) (S_ "binary"))
              (map (fun l => strip (slice 12 43 l)) cl)
              (map (fun l => strip (slice 43 54 l)) cl)
              (map (fun l => strip (slice_m1 54 l)) cl)))
  end.
