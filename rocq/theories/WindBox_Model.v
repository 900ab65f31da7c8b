(** Model of the parts of weio/turbsim_file.py and weio/mannbox_file.py that locate points, average, scale and convert boxes of wind.
    SIMPLIFICATIONS: numbers are exact rationals; an array is a function of its indices with its sizes; the square root is given
    ([root]); a value that is not finite is None; warnings and printed messages are not modelled. *)
From Verif Require Import Py FS Bytes Float Registry_Model MannBox_Model TurbSim_Model.
From Coq Require Import QArith Qround Qminmax Qabs.
Local Open Scope nat_scope.

(** The keys of a TurbSimFile that are used here; [w_zRef] and [w_uRef] are None when they are missing or None; the tower has its own
    number of steps *)
Record wind := mk_wind {
  w_nt : nat; w_ny : nat; w_nz : nat; w_u : arr4;
  w_y : list Q; w_z : list Q; w_t : list Q; w_dt : option Q;
  w_zRef : option Q; w_uRef : option Q; w_ID : option Z;
  w_twr : option (nat * nat * arr3) }.
(** A box of one component: nt x ny x nz *)
Record box := mk_box { x_nt : nat; x_ny : nat; x_nz : nat; x_f : nat -> nat -> nat -> Q }.

(** ** Points *)
(** np.argmin: the first index of the smallest value *)
Fixpoint argmin_from (best : Q) (ib i : nat) (l : list Q) : nat :=
  match l with
  | [] => ib
  | a :: l' => if Qle_bool best a then argmin_from best ib (S i) l' else argmin_from a i (S i) l'
  end.
Definition argmin (l : list Q) : res nat := match l with [] => Err ValueError | a :: l' => Ok (argmin_from a 0 1 l') end.
(** np.argmin(np.abs(l - x)) *)
Definition nearest (l : list Q) (x : Q) : res nat := argmin (map (fun a => Qabs (a - x)) l).
(** closestPoint (turbsim_file.py:236-239) *)
Definition closest (o : wind) (y z : Q) : res (nat * nat) := iy <- nearest (w_y o) y ;; iz <- nearest (w_z o) z ;; Ok (iy, iz).
(** (l[0]+l[-1])/2 *)
Definition middle (l : list Q) : res Q := match l with [] => Err IndexError | a :: _ => Ok ((a + last l 0) / 2)%Q end.
(** iMid (turbsim_file.py:231-234) *)
Definition i_mid (o : wind) : res (nat * nat) :=
  my <- middle (w_y o) ;; iy <- nearest (w_y o) my ;; mz <- middle (w_z o) ;; iz <- nearest (w_z o) mz ;; Ok (iy, iz).
(** self['u'][k,:,iy,iz] *)
Definition series (o : wind) (k iy iz : nat) : res (list Q) :=
  if (iy <? w_ny o) && (iz <? w_nz o) then Ok (line_t (w_nt o) (w_u o) k iy iz) else Err IndexError.
(** np.mean of a series: the mean of nothing is not a number, which is not modelled *)
Definition mean_res (l : list Q) : res Q := match l with [] => Err Unmodelled | _ => Ok (mean l) end.
(** valuesAt (turbsim_file.py:188-197); [nearest_] tells whether the method is 'nearest' *)
Definition values_at (o : wind) (y z : Q) (nearest_ : bool) : res (list Q * list Q * list Q) :=
  if nearest_ then
    '(iy, iz) <- closest o y z ;; u <- series o 0 iy iz ;; v <- series o 1 iy iz ;; w <- series o 2 iy iz ;; Ok (u, v, w)
  else Err NotImplementedError.
(** hubValues (turbsim_file.py:204-221) *)
Definition hub_values (o : wind) (zHub : option Q) : res (Q * Q * bool) :=
  '(z, b) <- match zHub, w_zRef o with
             | Some z, _ => Ok (z, true)
             | None, Some z => Ok (z, true)
             | None, None => m <- middle (w_z o) ;; iz <- nearest (w_z o) m ;; Ok (nth iz (w_z o) 0%Q, false)
             end ;;
  u <- match w_uRef o with
       | Some u => Ok u
       | None => iz <- nearest (w_z o) z ;; m <- middle (w_y o) ;; iy <- nearest (w_y o) m ;; s <- series o 0 iy iz ;; mean_res s
       end ;;
  Ok (z, u, b).
(** midValues (turbsim_file.py:223-228) *)
Definition mid_values (o : wind) : res (Q * Q) :=
  '(iy, iz) <- i_mid o ;; s <- series o 0 iy iz ;; m <- mean_res s ;; Ok (nth iz (w_z o) 0%Q, m).

(** ** Probes (turbsim_file.py:748-766) *)
(** '{:.0f}': to the nearest integer, ties to even *)
Definition fmt0 (q : Q) : str :=
  (if Qle_bool 0 q then [] else S_ "-") ++ str_of_Z (round_ne (Z.abs (Qnum q)) (Zpos (Qden q))).
Definition probe_names (y z : Q) : list str :=
  map (fun c => S_ c ++ S_ "_y" ++ fmt0 y ++ S_ "_z" ++ fmt0 z ++ S_ "_[m/s]") ["u"; "v"; "w"]%string.
(** The columns, each with its name; np.column_stack needs as many times as steps *)
Fixpoint probes (o : wind) (acc : list (str * list Q)) (ps : list (Q * Q)) : res (list (str * list Q)) :=
  match ps with
  | [] => Ok acc
  | (y, z) :: ps' =>
      '(iy, iz) <- closest o y z ;;
      u <- series o 0 iy iz ;; v <- series o 1 iy iz ;; w <- series o 2 iy iz ;;
      if List.length (w_t o) =? w_nt o then probes o (acc ++ combine (probe_names (nth iy (w_y o) 0%Q) (nth iz (w_z o) 0%Q)) [u; v; w]) ps'
      else Err ValueError
  end.
Definition pairs (ys zs : list Q) : list (Q * Q) := flat_map (fun y => map (fun z => (y, z)) zs) ys.
(** np.savetxt(probefile, Data, header=..., delimiter=','): the lines of the file; [fmt] is '%.18e' *)
Definition write_probes (fmt : Q -> str) (o : wind) (ys zs : list Q) : res (list str) :=
  cols <- probes o [(S_ "Time_[s]", w_t o)] (pairs ys zs) ;;
  Ok ((S_ "# " ++ join (S_ ",") (map fst cols))
      :: map (fun it => join (S_ ",") (map (fun c => fmt (nth it (snd c) 0%Q)) cols)) (seq 0 (List.length (w_t o)))).

(** ** Statistics *)
Section Stat.
Variable root : Q -> Q.
Local Open Scope Q_scope.
Definition variance (l : list Q) : Q := mean (map (fun x => (x - mean l) * (x - mean l)) l).
Definition std (l : list Q) : Q := root (variance l).

(** scale (turbsim_file.py:473-506): the new field, None when it is not finite *)
Inductive reference := RMid | RPoint (y : Q) (z : option Q) | ROther.
Definition the_point (o : wind) (r : reference) : res (nat * nat) :=
  match r with
  | RMid => i_mid o
  | RPoint y (Some z) => closest o y z
  | RPoint _ None => Err TypeError
  | ROther => Err NotImplementedError
  end.
Definition set_comp (c : nat) (f : nat -> nat -> nat -> Q) (u : arr4) : arr4 := fun k it iy iz => if (k =? c)%nat then f it iy iz else u k it iy iz.
Definition scale (o : wind) (new_mean new_std : option Q) (c : nat) (r : reference) : res (option arr4) :=
  if negb (c <? 3)%nat then Err IndexError else
  let plane iy iz := mean (line_t (w_nt o) (w_u o) c iy iz) in
  '(iy, iz) <- the_point o r ;;
  s <- series o c iy iz ;; old_mean <- mean_res s ;;
  let old_std := std s in
  match new_std with
  | Some sd => if Qeq_bool old_std 0 then Ok None
               else Ok (Some (set_comp c (fun it iy iz => (w_u o c it iy iz - plane iy iz) * (sd / old_std) + plane iy iz
                                                          + match new_mean with Some m => - old_mean + m | None => 0 end) (w_u o)))
  | None => Ok (Some (set_comp c (fun it iy iz => (w_u o c it iy iz - plane iy iz) + plane iy iz
                                                  + match new_mean with Some m => - old_mean + m | None => 0 end) (w_u o)))
  end.

(** checkPeriodic (turbsim_file.py:532-541): a deviation of zero makes a quotient that is not finite, and the comparison false *)
Definition points (ny nz : nat) : list (nat * nat) := flat_map (fun iy => map (fun iz => (iy, iz)) (seq 0 nz)) (seq 0 ny).
Definition qlt (a b : Q) : bool := negb (Qle_bool b a).
Definition check_periodic (o : wind) (sigmaTol aTol : Q) : res bool :=
  if (w_nt o =? 0)%nat then Err IndexError else
  let ps := points (w_ny o) (w_nz o) in
  let sig p := std (line_t (w_nt o) (w_u o) 0 (fst p) (snd p)) in
  let dif p := Qabs (w_u o 0%nat 0%nat (fst p) (snd p) - w_u o 0%nat (w_nt o - 1)%nat (fst p) (snd p)) in
  match ps with
  | [] => Err ValueError
  | _ =>
      if existsb (fun p => Qeq_bool (sig p) 0) ps then Ok false
      else m <- maximum (map (fun p => dif p / sig p) ps) ;; Ok (qlt m sigmaTol && qlt (mean (map dif ps)) aTol)
  end.

(** vertProfile (turbsim_file.py:330-345): means and deviations, by component and height *)
Definition line_yz (o : wind) (f : nat -> nat -> Q) (iz : nat) : list Q := map (fun iy => f iy iz) (seq 0 (w_ny o)).
Definition profile_full (o : wind) (k iz : nat) : Q * Q :=
  (mean (line_yz o (fun iy iz => mean (line_t (w_nt o) (w_u o) k iy iz)) iz),
   std (line_yz o (fun iy iz => std (line_t (w_nt o) (w_u o) k iy iz)) iz)).
Definition profile_mid (o : wind) (iy : nat) (k iz : nat) : Q * Q :=
  (mean (line_t (w_nt o) (w_u o) k iy iz), std (line_t (w_nt o) (w_u o) k iy iz)).

(** A table: named columns; None is a value that is not finite *)
Definition table := list (str * list (option Q)).
Definition finite (l : list Q) : list (option Q) := map Some l.
Definition percent (m s : Q) : option Q := if Qeq_bool m 0 then None else Some (s / m * 100).
(** The first four tables of TurbSimFile.toDataFrame (turbsim_file.py:579-618) *)
Definition ts_line (o : wind) (iy iz : nat) : table :=
  [(S_ "t_[s]", finite (w_t o)); (S_ "u_[m/s]", finite (line_t (w_nt o) (w_u o) 0 iy iz));
   (S_ "v_[m/s]", finite (line_t (w_nt o) (w_u o) 1 iy iz)); (S_ "w_[m/s]", finite (line_t (w_nt o) (w_u o) 2 iy iz))].
Definition ts_tables (o : wind) : res (list (str * table)) :=
  '(iy, iz) <- i_mid o ;;
  if negb ((iy <? w_ny o) && (iz <? w_nz o))%nat then Err IndexError
  else if negb ((List.length (w_z o) =? w_nz o) && (List.length (w_t o) =? w_nt o))%nat then Err ValueError
  else if (w_nt o =? 0)%nat then Err Unmodelled
  else
    let col f := map (fun iz => Some (f iz)) (seq 0 (w_nz o)) in
    Ok [ (S_ "VertProfile",
          [(S_ "z_[m]", finite (w_z o));
           (S_ "u_[m/s]", col (fun iz => fst (profile_full o 0 iz))); (S_ "v_[m/s]", col (fun iz => fst (profile_full o 1 iz)));
           (S_ "w_[m/s]", col (fun iz => fst (profile_full o 2 iz)));
           (S_ "sigma_u_[m/s]", col (fun iz => snd (profile_full o 0 iz))); (S_ "sigma_v_[m/s]", col (fun iz => snd (profile_full o 1 iz)));
           (S_ "sigma_w_[m/s]", col (fun iz => snd (profile_full o 2 iz)));
           (S_ "TI_[%]", map (fun iz => percent (fst (profile_full o 0 iz)) (snd (profile_full o 0 iz))) (seq 0 (w_nz o)))]);
         (S_ "ZMidLine", ts_line o iy iz); (S_ "ZMidYStartLine", ts_line o 0 iz); (S_ "ZMidYEndLine", ts_line o (w_ny o - 1) iz) ].
End Stat.

(** ** MannBoxFile *)
Record mann := mk_mann { m_box : box; m_dy : Q; m_dz : Q; m_y0 : option Q; m_z0 : Q; m_zMid : option Q }.
(** np.arange(a, b, s): a step of zero is not modelled *)
Definition np_arange (a b s : Q) : res (list Q) :=
  if Qeq_bool s 0 then Err Unmodelled else Ok (map (fun i => a + inject_Z (Z.of_nat i) * s)%Q (seq 0 (Z.to_nat (Qceiling ((b - a) / s))))).
Definition qn (n : nat) : Q := inject_Z (Z.of_nat n).
(** z, y and t (mannbox_file.py:181-206) *)
Definition mann_z (o : mann) : res (list Q) :=
  z <- np_arange (m_z0 o) (m_z0 o + (qn (x_nz (m_box o)) - 1 + (1 # 10)) * m_dz o) (m_dz o) ;;
  match m_zMid o with None => Ok z | Some m => Ok (map (fun a => a + (m - mean z))%Q z) end.
Definition mann_y (o : mann) : res (list Q) :=
  let w := ((qn (x_ny (m_box o)) - 1 + (1 # 10)) * m_dy o)%Q in
  match m_y0 o with
  | Some y0 => np_arange y0 (y0 + w) (m_dy o)
  | None => y <- np_arange 0 w (m_dy o) ;; Ok (map (fun a => a - mean y)%Q y)
  end.
Definition mann_t (o : mann) (dx U : Q) : res (list Q) :=
  if Qeq_bool U 0 then Err ZeroDivisionError
  else np_arange 0 (dx / U * (qn (x_nt (m_box o)) - (1 # 2))) (dx / U).
(** closestPoint and valuesAt (mannbox_file.py:211-223) *)
Definition mann_closest (o : mann) (y z : Q) : res (nat * nat) :=
  ys <- mann_y o ;; iy <- nearest ys y ;; zs <- mann_z o ;; iz <- nearest zs z ;; Ok (iy, iz).
Definition line_x (b : box) (iy iz : nat) : list Q := map (fun it => x_f b it iy iz) (seq 0 (x_nt b)).
Definition mann_values (o : mann) (y z : Q) (nearest_ : bool) : res (list Q) :=
  if nearest_ then '(iy, iz) <- mann_closest o y z ;; Ok (line_x (m_box o) iy iz) else Err NotImplementedError.
(** np.linspace(0, 1, n) *)
Definition linspace (n : nat) : list Q := match n with 1 => [0%Q] | _ => map (fun i => qn i / qn (n - 1))%Q (seq 0 n) end.
Definition mann_line (b : box) (iy iz : nat) : table :=
  [(S_ "t/T_[-]", finite (linspace (x_nt b))); (S_ "vel_[m/s]", finite (line_x b iy iz))].
(** toDataFrame (mannbox_file.py:225-272) *)
Definition mann_tables (root : Q -> Q) (o : mann) : res (list (str * table)) :=
  let b := m_box o in
  ys <- mann_y o ;; zs <- mann_z o ;;
  let iy := x_ny b / 2 in let iz := x_nz b / 2 in
  if negb ((iy <? x_ny b) && (iz <? x_nz b)) then Err IndexError
  else if x_nt b =? 0 then Err Unmodelled
  else
    let m i := mean (line_x b iy i) in let s i := std root (line_x b iy i) in let col f := map (fun i => Some (f i)) (seq 0 (x_nz b)) in
    Ok [ (S_ "VertProfile", [(S_ "z_[m]", finite zs); (S_ "vel_[m/s]", col m); (S_ "sigma_[m/s]", col s);
                             (S_ "TI_[%]", map (fun i => percent (m i) (s i)) (seq 0 (x_nz b)))]);
         (S_ "ZMidLine", mann_line b iy iz); (S_ "ZMidYEndLine", mann_line b (x_ny b - 1) iz); (S_ "ZMidYStartLine", mann_line b 0 iz) ].

(** ** Conversions *)
(** MannBoxFile.fromTurbSim (mannbox_file.py:309-323): the field *)
Definition from_turbsim (o : wind) (icomp : nat) (removeConstant : option Q) (removeAllMean : bool) : box :=
  mk_box (w_nt o) (w_ny o) (w_nz o)
    (fun it iy iz =>
       if icomp =? 0 then
         if removeAllMean then (w_u o icomp it iy iz - mean (line_t (w_nt o) (w_u o) icomp iy iz))%Q
         else match removeConstant with Some c => (w_u o icomp it iy iz - c)%Q | None => w_u o icomp it iy iz end
       else w_u o icomp it iy iz).
(** MannBoxFile.write (mannbox_file.py:152-163) of numbers: one plane at a time, y flipped, in single precision *)
Definition plane_bytes (b : box) (it : nat) : res bytes :=
  concat_res (flat_map (fun iy => map (fun iz => pack_f32 (x_f b it (x_ny b - 1 - iy) iz)) (seq 0 (x_nz b))) (seq 0 (x_ny b))).
Definition write_box (f : fs) (fn : str) (b : box) : fs * res unit :=
  match fn with [] => (f, Err PlainException) | _ => write_file f fn (map (plane_bytes b) (seq 0 (x_nt b))) end.
(** toMannBox (turbsim_file.py:707-732); [root] is os.path.splitext of the name of the file *)
Definition then_ (x : fs * res unit) (k : fs -> fs * res unit) : fs * res unit := match snd x with Ok _ => k (fst x) | Err e => (fst x, Err e) end.
Definition to_mann (f : fs) (filename : str) (base : option str) (o : wind) (removeUConstant : option Q) (removeAllUMean : bool) : fs * res unit :=
  let base := match base with Some b => b | None => firstn (List.length filename - List.length (splitext_ext filename)) filename end in
  let name c := mann_name base (N.of_nat (w_nt o)) (N.of_nat (w_ny o)) (N.of_nat (w_nz o)) c in
  then_ (write_box f (name "u"%char) (from_turbsim o 0 removeUConstant removeAllUMean)) (fun f =>
  then_ (write_box f (name "v"%char) (from_turbsim o 1 None false)) (fun f =>
  write_box f (name "w"%char) (from_turbsim o 2 None false))).
(** numpy: self['u'][k,:,:,:] = b, where an axis of size one is repeated *)
Definition axis (n m : nat) : bool := (m =? n) || (m =? 1).
Definition ix (m i : nat) : nat := if m =? 1 then 0 else i.
Definition assign (nt ny nz k : nat) (b : box) (u : arr4) : option arr4 :=
  if axis nt (x_nt b) && axis ny (x_ny b) && axis nz (x_nz b)
  then Some (set_comp k (fun it iy iz => x_f b (ix (x_nt b) it) (ix (x_ny b) iy) (ix (x_nz b) iz)) u) else None.
Definition with_u (o : wind) (nt ny nz : nat) (u : arr4) : wind :=
  mk_wind nt ny nz u (w_y o) (w_z o) (w_t o) (w_dt o) (w_zRef o) (w_uRef o) (w_ID o) (w_twr o).
(** fromMannBox (turbsim_file.py:663-705): the object afterwards, and what is raised *)
Definition from_mann (o : wind) (u v w : box) (dx U : Q) (y z : list Q) (addU : option Q) : wind * res unit :=
  let ny := x_ny u in let nz := x_nz u in
  match (if Qeq_bool U 0 then Err ZeroDivisionError else np_arange 0 (dx / U * (qn (x_nt u) - (1 # 2))) (dx / U)) with
  | Err e => (o, Err e)
  | Ok t =>
      let nt := List.length t in
      match y with
      | [] => (o, Err IndexError)
      | y0 :: _ =>
          if negb (Qle_bool y0 (last y 0%Q)) then (o, Err PlainException)
          else
            let z0 : arr4 := fun _ _ _ _ => 0%Q in
            match assign nt ny nz 0 u z0 with
            | None => (with_u o nt ny nz z0, Err ValueError)
            | Some u1 =>
                match assign nt ny nz 1 v u1 with
                | None => (with_u o nt ny nz u1, Err ValueError)
                | Some u2 =>
                    match assign nt ny nz 2 w u2 with
                    | None => (with_u o nt ny nz u2, Err ValueError)
                    | Some u3 =>
                        let u4 := match addU with None => u3 | Some a => set_comp 0 (fun it iy iz => (u3 0%nat it iy iz + a)%Q) u3 end in
                        let o1 := mk_wind nt ny nz u4 y z t (Some (dx / U)%Q) None None (Some 7%Z) (w_twr o) in
                        match hub_values o1 None with
                        | Err e => (o1, Err e)
                        | Ok (zh, uh, _) => (mk_wind nt ny nz u4 y z t (Some (dx / U)%Q) (Some zh) (Some uh) (Some 7%Z) (w_twr o), Ok tt)
                        end
                    end
                end
            end
      end
  end.
