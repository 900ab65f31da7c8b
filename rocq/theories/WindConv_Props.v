(** Property theorems C124 (grids and tables of Mann boxes) and C125 (conversions between the two kinds of box). *)
From Verif Require Import Py PyFacts ListFacts FS Bytes Float Registry_Model Registry_Proofs MannBox_Model MannBox_Proofs TurbSim_Model TurbSim_Proofs.
From Verif Require Import WindBox_Model WindBox_Spec WindBox_Proofs WindBox_Props WindStat_Props.
From Coq Require Import QArith Qround Qminmax Qabs Lqa ZifyNat ZifyBool.
Local Open Scope nat_scope.

(** ** C124: coordinates *)
Lemma ceil_n n (c q : Q) : (q == inject_Z (Z.of_nat n) - c)%Q -> (0 <= c)%Q -> (c < 1)%Q -> Z.to_nat (Qceiling q) = n.
Proof.
  intros E A B. rewrite (Qceiling_comp _ _ E).
  assert (L : (Z.of_nat n <= Qceiling (inject_Z (Z.of_nat n) - c))%Z).
  { pose proof (Qle_ceiling (inject_Z (Z.of_nat n) - c)) as X.
    assert (Y : (inject_Z (Z.of_nat n) - 1 < inject_Z (Qceiling (inject_Z (Z.of_nat n) - c)))%Q) by lra.
    change 1%Q with (inject_Z 1) in Y. unfold Qminus in Y. rewrite <- inject_Z_opp, <- inject_Z_plus in Y. rewrite <- Zlt_Qlt in Y. unfold Qminus. lia. }
  assert (U : (Qceiling (inject_Z (Z.of_nat n) - c) <= Z.of_nat n)%Z).
  { assert (X : (Qceiling (inject_Z (Z.of_nat n) - c) <= Qceiling (inject_Z (Z.of_nat n)))%Z) by (apply Qceiling_resp_le; lra).
    rewrite Qceiling_Z in X. exact X. }
  lia.
Qed.
Lemma arange_ok a b s n c : ~ (s == 0)%Q -> (b - a == (inject_Z (Z.of_nat n) - c) * s)%Q -> (0 <= c)%Q -> (c < 1)%Q ->
  np_arange a b s = Ok (map (fun i => a + inject_Z (Z.of_nat i) * s)%Q (seq 0 n)).
Proof.
  intros S E A B. unfold np_arange. destruct (Qeq_bool s 0) eqn:C; [apply Qeq_bool_iff in C; contradiction|].
  rewrite (ceil_n n c); [reflexivity| |exact A|exact B]. rewrite E. field. exact S.
Qed.
Lemma sum_id n : (sum_to n (fun i => inject_Z (Z.of_nat i)) == inject_Z (Z.of_nat n) * (inject_Z (Z.of_nat n) - 1) / 2)%Q.
Proof. induction n as [|n IH]; [reflexivity|]. cbn [sum_to]. rewrite IH. rewrite Nat2Z.inj_succ. unfold Z.succ. rewrite inject_Z_plus. field. Qed.
Lemma avg_arange n a s : 0 < n -> (avg n (fun i => a + inject_Z (Z.of_nat i) * s) == a + (inject_Z (Z.of_nat n) - 1) / 2 * s)%Q.
Proof.
  intro H. rewrite (avg_ext n _ (fun i => s * inject_Z (Z.of_nat i) + a)%Q) by (intros; ring).
  rewrite (avg_lin n (fun i => inject_Z (Z.of_nat i)) s a H). unfold avg. rewrite sum_id. field. apply qn_nz; exact H.
Qed.
Lemma mean_arange n a s : 0 < n -> (mean (map (fun i => a + inject_Z (Z.of_nat i) * s)%Q (seq 0 n)) == a + (inject_Z (Z.of_nat n) - 1) / 2 * s)%Q.
Proof. intro H. rewrite mean_seq. apply avg_arange; exact H. Qed.
(** The heights: from [z0] upwards, or centred on [zMid] *)
Theorem C124_z : forall o, ~ (m_dz o == 0)%Q ->
  exists z, mann_z o = Ok z /\ List.length z = x_nz (m_box o) /\
    forall i, i < x_nz (m_box o) ->
      (nth i z 0 == match m_zMid o with
                    | None => m_z0 o + inject_Z (Z.of_nat i) * m_dz o
                    | Some m => m + (inject_Z (Z.of_nat i) - (inject_Z (Z.of_nat (x_nz (m_box o))) - 1) / 2) * m_dz o
                    end)%Q.
Proof.
  intros o H. unfold mann_z. rewrite (arange_ok _ _ _ (x_nz (m_box o)) (9 # 10) H); [|unfold qn; ring|discriminate|reflexivity]. cbn [bind].
  destruct (m_zMid o) as [m|]; eexists; (split; [reflexivity|]); rewrite ?map_length, seq_length; (split; [reflexivity|]); intros i Hi.
  - rewrite map_map. rewrite nth_map_seq by exact Hi. rewrite mean_arange by lia. ring.
  - rewrite nth_map_seq by exact Hi. reflexivity.
Qed.
Print Assumptions C124_z.
(** The lateral positions: from [y0], or centred on zero *)
Theorem C124_y : forall o, ~ (m_dy o == 0)%Q ->
  exists y, mann_y o = Ok y /\ List.length y = x_ny (m_box o) /\
    forall i, i < x_ny (m_box o) ->
      (nth i y 0 == match m_y0 o with
                    | Some y0 => y0 + inject_Z (Z.of_nat i) * m_dy o
                    | None => (inject_Z (Z.of_nat i) - (inject_Z (Z.of_nat (x_ny (m_box o))) - 1) / 2) * m_dy o
                    end)%Q.
Proof.
  intros o H. unfold mann_y. destruct (m_y0 o) as [y0|].
  - rewrite (arange_ok _ _ _ (x_ny (m_box o)) (9 # 10) H); [|unfold qn; ring|discriminate|reflexivity].
    eexists; (split; [reflexivity|]); rewrite ?map_length, seq_length; (split; [reflexivity|]); intros i Hi. rewrite nth_map_seq by exact Hi. reflexivity.
  - rewrite (arange_ok _ _ _ (x_ny (m_box o)) (9 # 10) H); [|unfold qn; ring|discriminate|reflexivity]. cbn [bind].
    eexists; (split; [reflexivity|]); rewrite ?map_length, seq_length; (split; [reflexivity|]); intros i Hi.
    rewrite map_map. rewrite nth_map_seq by exact Hi. rewrite mean_arange by lia. ring.
Qed.
Print Assumptions C124_y.
(** The times for a spacing [dx] and a speed [U] *)
Theorem C124_t : forall o dx U, ~ (dx == 0)%Q ->
  (~ (U == 0)%Q -> exists t, mann_t o dx U = Ok t /\ List.length t = x_nt (m_box o) /\ forall i, i < x_nt (m_box o) -> (nth i t 0 == inject_Z (Z.of_nat i) * (dx / U))%Q) /\
  ((U == 0)%Q -> mann_t o dx U = Err ZeroDivisionError).
Proof.
  intros o dx U H. unfold mann_t. split.
  - intro HU. destruct (Qeq_bool U 0) eqn:C; [apply Qeq_bool_iff in C; contradiction|].
    assert (D : ~ (dx / U == 0)%Q). { intro X. apply H. setoid_replace dx with (dx / U * U)%Q by (field; exact HU). rewrite X. ring. }
    rewrite (arange_ok _ _ _ (x_nt (m_box o)) (1 # 2) D); [|unfold qn; ring|discriminate|reflexivity].
    eexists. split; [reflexivity|]. rewrite map_length, seq_length. split; [reflexivity|]. intros i Hi. rewrite nth_map_seq by exact Hi. ring.
  - intro HU. apply Qeq_bool_iff in HU. rewrite HU. reflexivity.
Qed.
Print Assumptions C124_t.
(** valuesAt: the series of the nearest point of that grid *)
Theorem C124_values : forall o y z ys zs, mann_y o = Ok ys -> mann_z o = Ok zs -> ys <> [] -> zs <> [] ->
  exists iy iz, Nearest ys y iy /\ Nearest zs z iz /\
    mann_values o y z true = Ok (map (fun it => x_f (m_box o) it iy iz) (seq 0 (x_nt (m_box o)))) /\ mann_values o y z false = Err NotImplementedError.
Proof.
  intros o y z ys zs Ey Ez Ny Nz. destruct (nearest_total ys y Ny) as (iy & Hy). destruct (nearest_total zs z Nz) as (iz & Hz).
  exists iy, iz. split; [apply nearest_iff; exact Hy|]. split; [apply nearest_iff; exact Hz|]. split; [|reflexivity].
  unfold mann_values, mann_closest. rewrite Ey. cbn [bind]. rewrite Hy. cbn [bind]. rewrite Ez. cbn [bind]. rewrite Hz. reflexivity.
Qed.
Print Assumptions C124_values.
(** The tables: the profile at the middle of the width, and three series at the middle height against a time from 0 to 1 *)
Section Root.
Variable root : Q -> Q.
Hypothesis root_eq : forall a b, (a == b)%Q -> (root a == root b)%Q.
Theorem C124_tables : forall o, ~ (m_dy o == 0)%Q -> ~ (m_dz o == 0)%Q -> 0 < x_nt (m_box o) -> 0 < x_ny (m_box o) -> 0 < x_nz (m_box o) ->
  let b := m_box o in
  let series iz := fun it => x_f b it (x_ny b / 2) iz in
  exists zs profile T,
    mann_z o = Ok zs /\ List.length T = x_nt b /\
    (forall i, i < x_nt b -> 1 < x_nt b -> exists t, nth_error T i = Some (Some t) /\ (t == inject_Z (Z.of_nat i) / inject_Z (Z.of_nat (x_nt b - 1)))%Q) /\
    (x_nt b = 1 -> T = [Some 0%Q]) /\
    let line iy := [(S_ "t/T_[-]", T); (S_ "vel_[m/s]", map (fun it => Some (x_f b it iy (x_nz b / 2))) (seq 0 (x_nt b)))] in
    mann_tables root o = Ok [ (S_ "VertProfile", profile); (S_ "ZMidLine", line (x_ny b / 2)); (S_ "ZMidYEndLine", line (x_ny b - 1)); (S_ "ZMidYStartLine", line 0) ] /\
    same_table profile
      [ (S_ "z_[m]", map Some zs); (S_ "vel_[m/s]", by_height (x_nz b) (fun iz => Some (avg (x_nt b) (series iz))));
        (S_ "sigma_[m/s]", by_height (x_nz b) (fun iz => Some (root (var (x_nt b) (series iz)))));
        (S_ "TI_[%]", by_height (x_nz b) (fun iz => ti (avg (x_nt b) (series iz)) (root (var (x_nt b) (series iz))))) ].
Proof.
  intros o Hy Hz P1 P2 P3 b series. change (m_box o) with b in P1, P2, P3. destruct (C124_y o Hy) as (ys & Ey & Ly & _). destruct (C124_z o Hz) as (zs & Ez & Lz & _).
  exists zs. eexists. exists (finite (linspace (x_nt b))). split; [exact Ez|].
  assert (LL : linspace (x_nt b) = if x_nt b =? 1 then [0%Q] else map (fun i => qn i / qn (x_nt b - 1))%Q (seq 0 (x_nt b))).
  { unfold linspace. destruct (x_nt b) as [|[|n]]; reflexivity. }
  split. { unfold finite. rewrite map_length, LL. destruct (x_nt b =? 1) eqn:C; [apply Nat.eqb_eq in C; rewrite C; reflexivity|rewrite map_length, seq_length; reflexivity]. }
  split. { intros i Hi H1. exists (qn i / qn (x_nt b - 1))%Q. split; [|reflexivity]. unfold finite. rewrite LL. replace (x_nt b =? 1) with false by lia.
    rewrite map_map, nth_error_map, (nth_error_nth' (seq 0 (x_nt b)) 0) by (rewrite seq_length; exact Hi). rewrite seq_nth by exact Hi. reflexivity. }
  split. { intro H1. unfold finite. rewrite LL, H1. reflexivity. }
  cbn zeta. split.
  - unfold mann_tables. rewrite Ey. cbn [bind]. rewrite Ez. cbn [bind]. fold b.
    assert (By : x_ny b / 2 < x_ny b) by (apply Nat.div_lt; lia). assert (Bz : x_nz b / 2 < x_nz b) by (apply Nat.div_lt; lia).
    apply Nat.ltb_lt in By. apply Nat.ltb_lt in Bz. rewrite By, Bz. cbn [andb negb]. replace (x_nt b =? 0) with false by lia.
    unfold mann_line, line_x, finite. rewrite !map_map. reflexivity.
  - repeat (apply Forall2_cons; [split; [reflexivity|]|]); [..|apply Forall2_nil]; cbn [snd].
    + apply same_refl.
    + apply by_height_same. intros i Hi. cbn. unfold line_x. apply mean_seq.
    + apply by_height_same. intros i Hi. cbn. unfold line_x. apply (std_seq root root_eq).
    + apply by_height_same. intros i Hi. apply ti_same; unfold line_x; [apply mean_seq|apply (std_seq root root_eq)].
Qed.
End Root.
Print Assumptions C124_tables.

(** ** C125: conversions *)
(** fromTurbSim: the component, of which the average in time or a constant is taken when it is the first *)
Theorem C125_from_turbsim : forall o k removeConstant removeAllMean,
  let b := from_turbsim o k removeConstant removeAllMean in
  x_nt b = w_nt o /\ x_ny b = w_ny o /\ x_nz b = w_nz o /\
  (k <> 0 -> forall it iy iz, x_f b it iy iz = w_u o k it iy iz) /\
  (k = 0 -> forall it iy iz,
     (x_f b it iy iz == w_u o 0%nat it iy iz - (if removeAllMean then avg (w_nt o) (fun i => w_u o 0%nat i iy iz)
                                            else match removeConstant with Some c => c | None => 0 end))%Q) /\
  (k = 0 -> removeAllMean = true -> 0 < w_nt o -> forall iy iz, (avg (w_nt o) (fun it => x_f b it iy iz) == 0)%Q).
Proof.
  intros o k rc rm b. split; [reflexivity|]. split; [reflexivity|]. split; [reflexivity|].
  assert (E : k = 0 -> forall it iy iz,
     (x_f b it iy iz == w_u o 0%nat it iy iz - (if rm then avg (w_nt o) (fun i => w_u o 0%nat i iy iz)
                                            else match rc with Some c => c | None => 0 end))%Q).
  { intros -> it iy iz. cbn. destruct rm; [rewrite mean_line; reflexivity|]. destruct rc as [c|]; [reflexivity|ring]. }
  split; [|split; [exact E|]].
  - intros H it iy iz. cbn. replace (k =? 0) with false by lia. reflexivity.
  - intros Hk Hr Hn iy iz. rewrite (avg_ext _ _ _ (fun i _ => E Hk i iy iz)). rewrite Hr.
    rewrite (avg_ext _ _ (fun i => 1 * w_u o 0%nat i iy iz + - avg (w_nt o) (fun j => w_u o 0%nat j iy iz))%Q) by (intros; ring).
    rewrite (avg_lin (w_nt o) (fun i => w_u o 0%nat i iy iz)) by exact Hn. ring.
Qed.
Print Assumptions C125_from_turbsim.

Definition word32 (q : Q) : list N := match encode binary32 q with Some b => le 4 b | None => [] end.
Definition box_words (b : box) : field :=
  map (fun it => map (fun iy => map (fun iz => word32 (x_f b it iy iz)) (seq 0 (x_nz b))) (seq 0 (x_ny b))) (seq 0 (x_nt b)).
Lemma rev_seq_map {A} (g : nat -> A) n : rev (map g (seq 0 n)) = map (fun i => g (n - 1 - i)) (seq 0 n).
Proof.
  induction n as [|n IH]; [reflexivity|]. rewrite seq_S at 1. rewrite map_app, rev_app_distr, IH. cbn [map rev app Nat.add seq]. f_equal; [f_equal; lia|].
  rewrite <- seq_shift, map_map. apply map_ext_in. intros i Hi. apply in_seq in Hi. f_equal. lia.
Qed.
Lemma concat_concat_map {A} (l : list (list (list A))) : concat (map (@concat A) l) = concat (concat l).
Proof. induction l as [|a l IH]; [reflexivity|]. cbn. rewrite concat_app, IH. reflexivity. Qed.
Section Write.
Variable b : box.
Hypothesis fits : forall it iy iz, it < x_nt b -> iy < x_ny b -> iz < x_nz b -> (Qabs (x_f b it iy iz) < Qpower (2 # 1) 127)%Q.
Lemma pack_word it iy iz : it < x_nt b -> iy < x_ny b -> iz < x_nz b -> pack_f32 (x_f b it iy iz) = Ok (word32 (x_f b it iy iz)).
Proof. intros A B C. destruct (encode_some binary32 _ good32 (fits it iy iz A B C)) as (w & E). unfold pack_f32, word32. rewrite E. reflexivity. Qed.
Lemma word_decode it iy iz : it < x_nt b -> iy < x_ny b -> iz < x_nz b -> List.length (word32 (x_f b it iy iz)) = 4 /\
  exists v, decode binary32 (unle (word32 (x_f b it iy iz))) = Some v /\ (v == rnd binary32 (x_f b it iy iz))%Q.
Proof.
  intros A B C. destruct (encode_some binary32 _ good32 (fits it iy iz A B C)) as (w & E). unfold word32. rewrite E. split; [apply le_length|].
  rewrite unle_le. destruct (encode_range _ _ _ good32 E) as (R1 & R2). rewrite Z.mod_small; [apply decode_encode; [apply good32|exact E]|].
  split; [exact R1|]. exact R2.
Qed.
Lemma plane_ok it : it < x_nt b -> plane_bytes b it = Ok (concat (map (@concat N) (rev (map (fun iy => map (fun iz => word32 (x_f b it iy iz)) (seq 0 (x_nz b))) (seq 0 (x_ny b)))))).
Proof.
  intro H. unfold plane_bytes. rewrite rev_seq_map, concat_concat_map.
  rewrite <- concat_res_ok. f_equal. rewrite <- flat_map_concat_map.
  assert (G : forall l, (forall i, In i l -> i < x_ny b) ->
     flat_map (fun iy => map (fun iz => pack_f32 (x_f b it (x_ny b - 1 - iy) iz)) (seq 0 (x_nz b))) l
     = map Ok (flat_map (fun i => map (fun iz => word32 (x_f b it (x_ny b - 1 - i) iz)) (seq 0 (x_nz b))) l)).
  { induction l as [|i l IH]; intro HI; [reflexivity|]. cbn [flat_map]. rewrite map_app, IH by (intros j Hj; apply HI; right; exact Hj). f_equal.
    rewrite map_map. apply map_ext_in. intros iz Hz. apply in_seq in Hz. specialize (HI i (or_introl eq_refl)). apply pack_word; lia. }
  apply G. intros i Hi. apply in_seq in Hi. lia.
Qed.
Lemma box_words_shaped : shaped (x_nt b) (x_ny b) (x_nz b) (box_words b).
Proof.
  unfold box_words. split; [rewrite map_length, seq_length; reflexivity|].
  apply Forall_forall. intros p Hp. apply in_map_iff in Hp. destruct Hp as (it & <- & Hit). apply in_seq in Hit. split; [rewrite map_length, seq_length; reflexivity|].
  apply Forall_forall. intros r Hr. apply in_map_iff in Hr. destruct Hr as (iy & <- & Hiy). apply in_seq in Hiy. split; [rewrite map_length, seq_length; reflexivity|].
  apply Forall_forall. intros w Hw. apply in_map_iff in Hw. destruct Hw as (iz & <- & Hiz). apply in_seq in Hiz. apply word_decode; lia.
Qed.
Lemma write_box_ok f fn : fn <> [] -> f fn <> Dir ->
  exists f', write_box f fn b = (f', Ok tt) /\ f' fn = Reg (write_field (box_words b)) /\ forall q, q <> fn -> f' q = f q.
Proof.
  intros Hn Hd. unfold write_box. destruct fn as [|c fn]; [easy|].
  assert (E : map (plane_bytes b) (seq 0 (x_nt b)) = map Ok (map (fun it => concat (map (@concat N) (rev (map (fun iy => map (fun iz => word32 (x_f b it iy iz)) (seq 0 (x_nz b))) (seq 0 (x_ny b)))))) (seq 0 (x_nt b)))).
  { rewrite map_map. apply map_ext_in. intros it Hit. apply in_seq in Hit. apply plane_ok. lia. }
  rewrite E. destruct (write_file_ok f (c :: fn) (map (fun it => concat (map (@concat N) (rev (map (fun iy => map (fun iz => word32 (x_f b it iy iz)) (seq 0 (x_nz b))) (seq 0 (x_ny b)))))) (seq 0 (x_nt b))) Hd) as (f' & W1 & W2 & W3).
  exists f'. split; [exact W1|]. split; [|exact W3]. rewrite W2. unfold write_field, box_words. rewrite map_map. reflexivity.
Qed.
End Write.
(** The file [fn] holds the box [b] in single precision: a MannBoxFile reads it with the sizes of the name *)
Definition Holds (f : fs) (fn : str) (nt ny nz : nat) (val : nat -> nat -> nat -> Q) : Prop :=
  exists x, mann_read f fn None = Ok x /\ List.length x = nt /\
    forall it iy iz, it < nt -> iy < ny -> iz < nz ->
      exists p r w v, nth_error x it = Some p /\ List.length p = ny /\ nth_error p iy = Some r /\ List.length r = nz /\ nth_error r iz = Some w /\
        decode binary32 (unle w) = Some v /\ (v == rnd binary32 (val it iy iz))%Q.
Lemma holds_box f base b c : c <> slash -> c <> dot -> 0 < x_nt b -> 0 < x_ny b -> 0 < x_nz b ->
  (forall it iy iz, it < x_nt b -> iy < x_ny b -> iz < x_nz b -> (Qabs (x_f b it iy iz) < Qpower (2 # 1) 127)%Q) ->
  f (mann_name base (N.of_nat (x_nt b)) (N.of_nat (x_ny b)) (N.of_nat (x_nz b)) c) = Reg (write_field (box_words b)) ->
  Holds f (mann_name base (N.of_nat (x_nt b)) (N.of_nat (x_ny b)) (N.of_nat (x_nz b)) c) (x_nt b) (x_ny b) (x_nz b) (x_f b).
Proof.
  intros C1 C2 P1 P2 P3 HF E. exists (box_words b). pose proof (box_words_shaped b HF) as HS.
  split; [|split; [apply (proj1 HS)|]].
  - destruct (mann_named_round_trip (fun _ => Missing) base (N.of_nat (x_nt b)) (N.of_nat (x_ny b)) (N.of_nat (x_nz b)) c (box_words b) C1 C2) as (f2 & W & R); try lia; try discriminate.
    { rewrite !Nat2N.id. exact HS. }
    rewrite <- R. set (fn := mann_name base (N.of_nat (x_nt b)) (N.of_nat (x_ny b)) (N.of_nat (x_nz b)) c) in *.
    assert (Hn : fn <> []). { subst fn. unfold mann_name. intro H. apply app_eq_nil in H. destruct H as [_ H]. discriminate. }
    assert (E2 : f2 fn = Reg (write_field (box_words b))).
    { destruct (mann_write_spec (fun _ => Missing) fn (box_words b) Hn) as (f3 & W3 & R3 & _); [discriminate|]. rewrite W in W3. injection W3 as <-. exact R3. }
    unfold mann_read. rewrite E, E2. reflexivity.
  - intros it iy iz A B C. destruct (word_decode b HF it iy iz A B C) as (_ & v & D1 & D2).
    unfold box_words. do 3 eexists. exists v.
    rewrite nth_error_map, (nth_error_nth' (seq 0 (x_nt b)) 0) by (rewrite seq_length; exact A). rewrite seq_nth by exact A. cbn [option_map Nat.add].
    split; [reflexivity|]. rewrite map_length, seq_length. split; [reflexivity|].
    rewrite nth_error_map, (nth_error_nth' (seq 0 (x_ny b)) 0) by (rewrite seq_length; exact B). rewrite seq_nth by exact B. cbn [option_map Nat.add].
    split; [reflexivity|]. rewrite map_length, seq_length. split; [reflexivity|].
    rewrite nth_error_map, (nth_error_nth' (seq 0 (x_nz b)) 0) by (rewrite seq_length; exact C). rewrite seq_nth by exact C. cbn [option_map Nat.add].
    split; [reflexivity|]. split; assumption.
Qed.
Lemma holds_ext f fn nt ny nz val val' : (forall it iy iz, (val it iy iz == val' it iy iz)%Q) -> Holds f fn nt ny nz val -> Holds f fn nt ny nz val'.
Proof.
  intros H (x & X1 & X2 & X3). exists x. split; [exact X1|]. split; [exact X2|]. intros it iy iz A B C.
  destruct (X3 it iy iz A B C) as (p & r & w & v & Y1 & Y2 & Y3 & Y4 & Y5 & Y6 & Y7). exists p, r, w, v. do 6 (split; [assumption|]).
  rewrite Y7. rewrite (rnd_comp binary32 _ _ ltac:(reflexivity) (H it iy iz)). reflexivity.
Qed.
Lemma mann_name_inj base a b c x y : mann_name base a b c x = mann_name base a b c y -> x = y.
Proof. unfold mann_name. intro H. apply app_inv_head in H. do 6 (apply app_inv_head in H). injection H as H. exact H. Qed.
(** toMannBox: three files, with the three components; the constant or the averages are taken from the first only; nothing else is written *)
Theorem C125_to_mann : forall (f : fs) (fn base : str) (o : wind) (removeUConstant : option Q) (removeAllUMean : bool),
  0 < w_nt o -> 0 < w_ny o -> 0 < w_nz o ->
  let name c := base ++ S_ "_" ++ str_of_N (N.of_nat (w_nt o)) ++ S_ "x" ++ str_of_N (N.of_nat (w_ny o)) ++ S_ "x" ++ str_of_N (N.of_nat (w_nz o)) ++ S_ "." ++ S_ c in
  let taken iy iz := if removeAllUMean then avg (w_nt o) (fun i => w_u o 0 i iy iz) else match removeUConstant with Some c => c | None => 0%Q end in
  f (name "u"%string) <> Dir -> f (name "v"%string) <> Dir -> f (name "w"%string) <> Dir ->
  (forall it iy iz, it < w_nt o -> iy < w_ny o -> iz < w_nz o ->
     (Qabs (w_u o 0%nat it iy iz - taken iy iz) < Qpower (2 # 1) 127)%Q /\ (Qabs (w_u o 1%nat it iy iz) < Qpower (2 # 1) 127)%Q /\ (Qabs (w_u o 2%nat it iy iz) < Qpower (2 # 1) 127)%Q) ->
  exists f', to_mann f fn (Some base) o removeUConstant removeAllUMean = (f', Ok tt) /\
    Holds f' (name "u"%string) (w_nt o) (w_ny o) (w_nz o) (fun it iy iz => w_u o 0%nat it iy iz - taken iy iz)%Q /\
    Holds f' (name "v"%string) (w_nt o) (w_ny o) (w_nz o) (w_u o 1) /\
    Holds f' (name "w"%string) (w_nt o) (w_ny o) (w_nz o) (w_u o 2) /\
    forall q, q <> name "u"%string -> q <> name "v"%string -> q <> name "w"%string -> f' q = f q.
Proof.
  intros f fn base o rc rm P1 P2 P3 name taken Du Dv Dw HF.
  set (N0 := fun c => mann_name base (N.of_nat (w_nt o)) (N.of_nat (w_ny o)) (N.of_nat (w_nz o)) c).
  change (name "u"%string) with (N0 "u"%char) in *. change (name "v"%string) with (N0 "v"%char) in *. change (name "w"%string) with (N0 "w"%char) in *.
  assert (Hn : forall c, N0 c <> []). { intros c H. unfold N0, mann_name in H. apply app_eq_nil in H. destruct H as [_ H]. discriminate. }
  assert (NE : forall a b, a <> b -> N0 a <> N0 b) by (intros a b H X; apply H; exact (mann_name_inj _ _ _ _ _ _ X)).
  destruct (C125_from_turbsim o 0 rc rm) as (_ & _ & _ & _ & EU & _). specialize (EU eq_refl). fold taken in EU.
  set (bu := from_turbsim o 0 rc rm) in *. set (bv := from_turbsim o 1 None false). set (bw := from_turbsim o 2 None false).
  assert (Fu : forall it iy iz, it < x_nt bu -> iy < x_ny bu -> iz < x_nz bu -> (Qabs (x_f bu it iy iz) < Qpower (2 # 1) 127)%Q).
  { intros it iy iz A B C. rewrite (Qabs_wd _ _ (EU it iy iz)). apply HF; assumption. }
  assert (Fv : forall it iy iz, it < x_nt bv -> iy < x_ny bv -> iz < x_nz bv -> (Qabs (x_f bv it iy iz) < Qpower (2 # 1) 127)%Q) by (intros it iy iz A B C; apply (HF it iy iz A B C)).
  assert (Fw : forall it iy iz, it < x_nt bw -> iy < x_ny bw -> iz < x_nz bw -> (Qabs (x_f bw it iy iz) < Qpower (2 # 1) 127)%Q) by (intros it iy iz A B C; apply (HF it iy iz A B C)).
  destruct (write_box_ok bu Fu f (N0 "u"%char) (Hn _) Du) as (f1 & W1 & R1 & O1).
  destruct (write_box_ok bv Fv f1 (N0 "v"%char) (Hn _)) as (f2 & W2 & R2 & O2). { rewrite O1; [exact Dv|]. apply NE; discriminate. }
  destruct (write_box_ok bw Fw f2 (N0 "w"%char) (Hn _)) as (f3 & W3 & R3 & O3). { rewrite O2, O1; [exact Dw| |]; apply NE; discriminate. }
  exists f3. split.
  - unfold to_mann. cbn zeta. fold N0. fold bu. fold bv. fold bw. change (mann_name base _ _ _ "u"%char) with (N0 "u"%char).
    unfold then_. rewrite W1. cbn [snd fst]. change (mann_name base _ _ _ "v"%char) with (N0 "v"%char). rewrite W2. cbn [snd fst]. exact W3.
  - split; [|split; [|split]].
    + apply holds_ext with (val := x_f bu); [exact EU|]. apply (holds_box f3 base bu "u"%char); try discriminate; try assumption. rewrite O3, O2; [exact R1| |]; apply NE; discriminate.
    + apply (holds_box f3 base bv "v"%char); try discriminate; try assumption. rewrite O3; [exact R2|]. apply NE; discriminate.
    + apply (holds_box f3 base bw "w"%char); try discriminate; try assumption.
    + intros q A B C. rewrite O3, O2, O1 by assumption. reflexivity.
Qed.
Print Assumptions C125_to_mann.
(** Without a base the name of the file is used, without its extension *)
Theorem C125_default_base : forall f dir name ext o rc rm, ~ In slash name -> ~ In slash ext -> ~ In dot ext ->
  existsb (fun c => negb (chr_eqb c dot)) name = true ->
  to_mann f (dir ++ slash :: name ++ dot :: ext) None o rc rm = to_mann f (dir ++ slash :: name ++ dot :: ext) (Some (dir ++ slash :: name)) o rc rm.
Proof.
  intros f dir name ext o rc rm H1 H2 H3 H4. unfold to_mann.
  assert (E : splitext_ext (dir ++ slash :: name ++ dot :: ext) = dot :: ext).
  { unfold splitext_ext, basename. rewrite rsplit1_app. 2:{ intro X. apply in_app_or in X. destruct X as [X|[X|X]]; [exact (H1 X)|discriminate X|exact (H2 X)]. }
    rewrite rsplit1_app by exact H3. destruct (forallb (fun c => chr_eqb c dot) name) eqn:C; [|reflexivity]. exfalso.
    apply existsb_exists in H4. destruct H4 as (c & I1 & I2). rewrite forallb_forall in C. rewrite (C c I1) in I2. discriminate I2. }
  rewrite E. replace (firstn _ (dir ++ slash :: name ++ dot :: ext)) with (dir ++ slash :: name); [reflexivity|].
  replace (dir ++ slash :: name ++ dot :: ext) with ((dir ++ slash :: name) ++ dot :: ext) by (rewrite <- app_assoc; reflexivity).
  rewrite app_length. rewrite Nat.add_sub. rewrite firstn_app, Nat.sub_diag, firstn_all. cbn. rewrite app_nil_r. reflexivity.
Qed.
Print Assumptions C125_default_base.
(** fromMannBox *)
(** How an array of one component is copied into another: each axis has the same size, or the size one and is then repeated *)
Definition Fits (nt ny nz : nat) (b : box) : Prop :=
  (x_nt b = nt \/ x_nt b = 1) /\ (x_ny b = ny \/ x_ny b = 1) /\ (x_nz b = nz \/ x_nz b = 1).
Definition repeated (b : box) (it iy iz : nat) : Q :=
  x_f b (match x_nt b with 1 => 0 | _ => it end) (match x_ny b with 1 => 0 | _ => iy end) (match x_nz b with 1 => 0 | _ => iz end).
Lemma ix_one m i : ix m i = match m with 1 => 0 | _ => i end.
Proof. unfold ix. destruct m as [|[|m]]; reflexivity. Qed.
Lemma axis_iff n m : axis n m = true <-> m = n \/ m = 1.
Proof. unfold axis. lia. Qed.
Lemma assign_some nt ny nz k b u : Fits nt ny nz b -> exists u', assign nt ny nz k b u = Some u' /\
  forall j it iy iz, u' j it iy iz = if j =? k then repeated b it iy iz else u j it iy iz.
Proof.
  intros (A & B & C). unfold assign. apply axis_iff in A, B, C. rewrite A, B, C. cbn [andb]. eexists. split; [reflexivity|].
  intros j it iy iz. unfold set_comp, repeated. rewrite !ix_one. reflexivity.
Qed.
Lemma assign_none nt ny nz k b u : ~ Fits nt ny nz b -> assign nt ny nz k b u = None.
Proof.
  intro H. unfold assign. destruct (axis nt (x_nt b)) eqn:A; [|reflexivity]. destruct (axis ny (x_ny b)) eqn:B; [|reflexivity]. destruct (axis nz (x_nz b)) eqn:C; [|reflexivity].
  exfalso. apply H. repeat split; apply axis_iff; assumption.
Qed.
Lemma times_ok nt dx U : ~ (dx == 0)%Q -> ~ (U == 0)%Q -> exists t,
  (if Qeq_bool U 0 then Err ZeroDivisionError else np_arange 0 (dx / U * (qn nt - (1 # 2))) (dx / U)) = Ok t /\
  List.length t = nt /\ forall i, i < nt -> (nth i t 0 == inject_Z (Z.of_nat i) * (dx / U))%Q.
Proof. intros A B. exact (proj1 (C124_t (mk_mann (mk_box nt 0 0 (fun _ _ _ => 0%Q)) 0 0 None 0 None) dx U A) B). Qed.
Lemma last_nth {A} (l : list A) d : last l d = nth (List.length l - 1) l d.
Proof. induction l as [|a [|b l] IH]; [reflexivity|reflexivity|]. change (last (a :: b :: l) d) with (last (b :: l) d). rewrite IH. cbn [List.length]. replace (S (S (List.length l)) - 1) with (S (S (List.length l) - 1)) by lia. reflexivity. Qed.
Lemma from_mann_ok o u v w dx U y z addU : ~ (dx == 0)%Q -> ~ (U == 0)%Q ->
  0 < x_nt u -> 0 < x_ny u -> 0 < x_nz u -> List.length y = x_ny u -> List.length z = x_nz u -> (nth 0 y 0 <= nth (x_ny u - 1) y 0)%Q ->
  Fits (x_nt u) (x_ny u) (x_nz u) v -> Fits (x_nt u) (x_ny u) (x_nz u) w ->
  exists o' d zr ur iy iz i, from_mann o u v w dx U y z addU = (o', Ok tt) /\
    w_nt o' = x_nt u /\ w_ny o' = x_ny u /\ w_nz o' = x_nz u /\ w_y o' = y /\ w_z o' = z /\
    List.length (w_t o') = x_nt u /\ (forall i, i < x_nt u -> (nth i (w_t o') 0 == inject_Z (Z.of_nat i) * (dx / U))%Q) /\
    w_dt o' = Some d /\ (d == dx / U)%Q /\ w_ID o' = Some 7%Z /\ w_twr o' = w_twr o /\
    (forall it iy iz, it < x_nt u -> iy < x_ny u -> iz < x_nz u ->
       (w_u o' 0%nat it iy iz == x_f u it iy iz + match addU with Some a => a | None => 0 end)%Q /\
       w_u o' 1 it iy iz = repeated v it iy iz /\ w_u o' 2 it iy iz = repeated w it iy iz) /\
    w_zRef o' = Some zr /\ w_uRef o' = Some ur /\
    Nearest z ((nth 0 z 0 + nth (x_nz u - 1) z 0) / 2)%Q i /\ zr = nth i z 0%Q /\
    Nearest y ((nth 0 y 0 + nth (x_ny u - 1) y 0) / 2)%Q iy /\ Nearest z zr iz /\
    (ur == avg (x_nt u) (fun it => w_u o' 0%nat it iy iz))%Q.
Proof.
  intros Hx HU P1 P2 P3 Ly Lz Hy Fv Fw. destruct (times_ok (x_nt u) dx U Hx HU) as (t & Et & Lt & Vt).
  unfold from_mann. cbn zeta. rewrite Et. rewrite Lt.
  destruct y as [|y0 ys] eqn:EY; [cbn in Ly; lia|]. rewrite <- EY in *. rewrite last_nth, Ly. replace y0 with (nth 0 y 0%Q) by (rewrite EY; reflexivity).
  rewrite (proj2 (Qle_bool_iff _ _) Hy). cbn [negb].
  assert (Fu : Fits (x_nt u) (x_ny u) (x_nz u) u) by (repeat split; left; reflexivity).
  destruct (assign_some (x_nt u) (x_ny u) (x_nz u) 0 u (fun _ _ _ _ => 0%Q) Fu) as (u1 & E1 & V1). rewrite E1.
  destruct (assign_some (x_nt u) (x_ny u) (x_nz u) 1 v u1 Fv) as (u2 & E2 & V2). rewrite E2.
  destruct (assign_some (x_nt u) (x_ny u) (x_nz u) 2 w u2 Fw) as (u3 & E3 & V3). rewrite E3.
  match goal with |- context [hub_values ?o1 None] => set (oo := o1); assert (HS : shaped_wind oo) by (unfold oo; repeat split; cbn; assumption); destruct (C122_hub oo None HS eq_refl) as (iy & iz & zr & ur & b & HV & Hb & Ny & Nz & Au) end.
  cbn [w_zRef oo] in Hb. destruct Hb as (_ & i & Ni & Zi). rewrite HV.
  eexists. exists (dx / U)%Q, zr, ur, iy, iz, i. split; [reflexivity|]. cbn -[Qmult Qplus Qdiv].
  do 5 (split; [reflexivity|]). split; [exact Lt|]. split; [exact Vt|]. split; [reflexivity|]. split; [reflexivity|]. split; [reflexivity|]. split; [reflexivity|].
  split; [|split; [reflexivity|split; [reflexivity|]]].
  - intros it jy jz A B C.
    assert (RU : repeated u it jy jz = x_f u it jy jz).
    { unfold repeated. f_equal; [destruct (x_nt u) as [|[|]]; lia|destruct (x_ny u) as [|[|]]; lia|destruct (x_nz u) as [|[|]]; lia]. }
    assert (W : u3 0 it jy jz = x_f u it jy jz /\ u3 1 it jy jz = repeated v it jy jz /\ u3 2 it jy jz = repeated w it jy jz).
    { rewrite !V3, !V2, !V1. cbn [Nat.eqb]. rewrite RU. auto. }
    destruct W as (W0 & W1 & W2). destruct addU as [a|]; unfold set_comp; cbn [Nat.eqb]; rewrite W0, W1, W2; split; try (split; reflexivity); ring.
  - unfold oo in Ni, Zi, Ny, Nz, Au. cbn [w_y w_z w_ny w_nz w_nt w_u] in Ni, Zi, Ny, Nz, Au. split; [exact Ni|]. split; [exact Zi|]. split; [exact Ny|]. split; [exact Nz|exact Au].
Qed.
(** Three boxes of the same sizes: every key of the object *)
Theorem C125_from_mann : forall o u v w dx U y z addU, ~ (dx == 0)%Q -> ~ (U == 0)%Q ->
  0 < x_nt u -> 0 < x_ny u -> 0 < x_nz u -> List.length y = x_ny u -> List.length z = x_nz u -> (nth 0 y 0 <= nth (x_ny u - 1) y 0)%Q ->
  x_nt v = x_nt u -> x_ny v = x_ny u -> x_nz v = x_nz u -> x_nt w = x_nt u -> x_ny w = x_ny u -> x_nz w = x_nz u ->
  exists o' d zr ur iy iz i, from_mann o u v w dx U y z addU = (o', Ok tt) /\
    w_nt o' = x_nt u /\ w_ny o' = x_ny u /\ w_nz o' = x_nz u /\ w_y o' = y /\ w_z o' = z /\
    List.length (w_t o') = x_nt u /\ (forall i, i < x_nt u -> (nth i (w_t o') 0 == inject_Z (Z.of_nat i) * (dx / U))%Q) /\
    w_dt o' = Some d /\ (d == dx / U)%Q /\ w_ID o' = Some 7%Z /\
    (forall it iy iz, it < x_nt u -> iy < x_ny u -> iz < x_nz u ->
       (w_u o' 0%nat it iy iz == x_f u it iy iz + match addU with Some a => a | None => 0 end)%Q /\
       w_u o' 1 it iy iz = x_f v it iy iz /\ w_u o' 2 it iy iz = x_f w it iy iz) /\
    w_zRef o' = Some zr /\ w_uRef o' = Some ur /\
    Nearest z ((nth 0 z 0 + nth (x_nz u - 1) z 0) / 2)%Q i /\ zr = nth i z 0%Q /\
    Nearest y ((nth 0 y 0 + nth (x_ny u - 1) y 0) / 2)%Q iy /\ Nearest z zr iz /\
    (ur == avg (x_nt u) (fun it => w_u o' 0%nat it iy iz))%Q.
Proof.
  intros o u v w dx U y z addU Hx HU P1 P2 P3 Ly Lz Hy V1 V2 V3 W1 W2 W3.
  destruct (from_mann_ok o u v w dx U y z addU Hx HU P1 P2 P3 Ly Lz Hy) as (o' & d & zr & ur & iy & iz & i & A0 & A1 & A2 & A3 & A4 & A5 & A6 & A7 & A8 & A9 & A10 & _ & B & R).
  { repeat split; left; assumption. } { repeat split; left; assumption. }
  exists o', d, zr, ur, iy, iz, i. do 11 (split; [assumption|]). split; [|exact R].
  intros it jy jz K1 K2 K3. destruct (B it jy jz K1 K2 K3) as (B0 & B1 & B2).
  assert (RU : forall b, x_nt b = x_nt u -> x_ny b = x_ny u -> x_nz b = x_nz u -> repeated b it jy jz = x_f b it jy jz).
  { intros b E1 E2 E3. unfold repeated. rewrite E1, E2, E3. f_equal; [destruct (x_nt u) as [|[|]]; lia|destruct (x_ny u) as [|[|]]; lia|destruct (x_nz u) as [|[|]]; lia]. }
  split; [exact B0|]. rewrite B1, B2, !RU by assumption. auto.
Qed.
Print Assumptions C125_from_mann.
(** What is refused: a speed of zero and positions from + to -, before anything changes; boxes of other sizes, with part of the fields already replaced *)
Theorem C125_from_mann_refused : forall o u v w dx U y z addU,
  ((U == 0)%Q -> from_mann o u v w dx U y z addU = (o, Err ZeroDivisionError)) /\
  (~ (dx == 0)%Q -> ~ (U == 0)%Q -> y <> [] -> (nth (List.length y - 1) y 0 < nth 0 y 0)%Q -> from_mann o u v w dx U y z addU = (o, Err PlainException)) /\
  (~ (dx == 0)%Q -> ~ (U == 0)%Q -> y <> [] -> (nth 0 y 0 <= nth (List.length y - 1) y 0)%Q ->
     ~ (Fits (x_nt u) (x_ny u) (x_nz u) v /\ Fits (x_nt u) (x_ny u) (x_nz u) w) ->
     exists o', from_mann o u v w dx U y z addU = (o', Err ValueError) /\
       w_y o' = w_y o /\ w_z o' = w_z o /\ w_t o' = w_t o /\ w_dt o' = w_dt o /\ w_zRef o' = w_zRef o /\ w_uRef o' = w_uRef o /\ w_ID o' = w_ID o /\ w_twr o' = w_twr o /\
       w_nt o' = x_nt u /\ w_ny o' = x_ny u /\ w_nz o' = x_nz u /\
       forall it iy iz, it < x_nt u -> iy < x_ny u -> iz < x_nz u -> w_u o' 0 it iy iz = x_f u it iy iz).
Proof.
  intros o u v w dx U y z addU. split; [|split].
  - intro H. unfold from_mann. apply Qeq_bool_iff in H. rewrite H. reflexivity.
  - intros Hx HU Hy L. destruct (times_ok (x_nt u) dx U Hx HU) as (t & Et & Lt & Vt). unfold from_mann. cbn zeta. rewrite Et.
    destruct y as [|y0 ys] eqn:EY; [contradiction|]. rewrite <- EY in *. rewrite last_nth. replace y0 with (nth 0 y 0%Q) by (rewrite EY; reflexivity).
    destruct (Qle_bool (nth 0 y 0%Q) (nth (List.length y - 1) y 0%Q)) eqn:C; [|reflexivity]. apply Qle_bool_iff in C. lra.
  - intros Hx HU Hy L F. destruct (times_ok (x_nt u) dx U Hx HU) as (t & Et & Lt & Vt). unfold from_mann. cbn zeta. rewrite Et, Lt.
    destruct y as [|y0 ys] eqn:EY; [contradiction|]. rewrite <- EY in *. rewrite last_nth. replace y0 with (nth 0 y 0%Q) by (rewrite EY; reflexivity).
    rewrite (proj2 (Qle_bool_iff _ _) L). cbn [negb].
    assert (Fu : Fits (x_nt u) (x_ny u) (x_nz u) u) by (repeat split; left; reflexivity).
    assert (RU : forall it jy jz, it < x_nt u -> jy < x_ny u -> jz < x_nz u -> repeated u it jy jz = x_f u it jy jz).
    { intros it jy jz A B C. unfold repeated. f_equal; [destruct (x_nt u) as [|[|]]; lia|destruct (x_ny u) as [|[|]]; lia|destruct (x_nz u) as [|[|]]; lia]. }
    destruct (assign_some (x_nt u) (x_ny u) (x_nz u) 0 u (fun _ _ _ _ => 0%Q) Fu) as (u1 & E1 & V1). rewrite E1.
    assert (D : forall n m, {m = n \/ m = 1} + {~ (m = n \/ m = 1)}). { intros n m. destruct (axis n m) eqn:A; [left; apply axis_iff; exact A|right; intro X; apply axis_iff in X; congruence]. }
    assert (DF : forall b, Fits (x_nt u) (x_ny u) (x_nz u) b \/ ~ Fits (x_nt u) (x_ny u) (x_nz u) b).
    { intro b. unfold Fits. destruct (D (x_nt u) (x_nt b)), (D (x_ny u) (x_ny b)), (D (x_nz u) (x_nz b)); tauto. }
    destruct (DF v) as [Fv|Fv].
    + destruct (assign_some (x_nt u) (x_ny u) (x_nz u) 1 v u1 Fv) as (u2 & E2 & V2). rewrite E2.
      rewrite assign_none by tauto. eexists. split; [reflexivity|]. cbn. do 11 (split; [reflexivity|]). intros. rewrite V2, V1. cbn [Nat.eqb]. apply RU; assumption.
    + rewrite assign_none by exact Fv. eexists. split; [reflexivity|]. cbn. do 11 (split; [reflexivity|]). intros. rewrite V1. cbn [Nat.eqb]. apply RU; assumption.
Qed.
Print Assumptions C125_from_mann_refused.
(** The tower of the object is kept, whatever the number of steps of the new boxes; boxes with an axis of size one are repeated along it *)
Theorem C125_tower_refuted : forall o u v w dx U y z addU, ~ (dx == 0)%Q -> ~ (U == 0)%Q ->
  0 < x_nt u -> 0 < x_ny u -> 0 < x_nz u -> List.length y = x_ny u -> List.length z = x_nz u -> (nth 0 y 0 <= nth (x_ny u - 1) y 0)%Q ->
  Fits (x_nt u) (x_ny u) (x_nz u) v -> Fits (x_nt u) (x_ny u) (x_nz u) w ->
  exists o', from_mann o u v w dx U y z addU = (o', Ok tt) /\ w_nt o' = x_nt u /\ w_twr o' = w_twr o /\
    forall it iy iz, it < x_nt u -> iy < x_ny u -> iz < x_nz u ->
      (x_nt v = 1 -> x_ny v = x_ny u -> x_nz v = x_nz u -> w_u o' 1 it iy iz = x_f v 0 iy iz) /\
      (x_nt w = x_nt u -> x_ny w = 1 -> x_nz w = 1 -> w_u o' 2 it iy iz = x_f w it 0 0).
Proof.
  intros o u v w dx U y z addU Hx HU P1 P2 P3 Ly Lz Hy Fv Fw.
  destruct (from_mann_ok o u v w dx U y z addU Hx HU P1 P2 P3 Ly Lz Hy Fv Fw) as (o' & d & zr & ur & iy & iz & i & A0 & A1 & A2 & A3 & A4 & A5 & A6 & A7 & A8 & A9 & A10 & A11 & B & R).
  exists o'. split; [exact A0|]. split; [exact A1|]. split; [exact A11|]. intros it jy jz K1 K2 K3. destruct (B it jy jz K1 K2 K3) as (_ & B1 & B2). rewrite B1, B2. unfold repeated.
  split; intros E1 E2 E3; rewrite E1, E2, E3; f_equal; try (destruct (x_nt u) as [|[|]]; lia); try (destruct (x_ny u) as [|[|]]; lia); destruct (x_nz u) as [|[|]]; lia.
Qed.
Print Assumptions C125_tower_refuted.
(** There and back: boxes with [a] added, written with [a] taken away, are the boxes in single precision *)
Theorem C125_roundtrip : forall (f : fs) (base : str) (o : wind) (u v w : box) (dx U a : Q) (y z : list Q), ~ (dx == 0)%Q -> ~ (U == 0)%Q ->
  0 < x_nt u -> 0 < x_ny u -> 0 < x_nz u -> List.length y = x_ny u -> List.length z = x_nz u -> (nth 0 y 0 <= nth (x_ny u - 1) y 0)%Q ->
  x_nt v = x_nt u -> x_ny v = x_ny u -> x_nz v = x_nz u -> x_nt w = x_nt u -> x_ny w = x_ny u -> x_nz w = x_nz u ->
  (forall it iy iz, it < x_nt u -> iy < x_ny u -> iz < x_nz u ->
     (Qabs (x_f u it iy iz) < Qpower (2 # 1) 127)%Q /\ (Qabs (x_f v it iy iz) < Qpower (2 # 1) 127)%Q /\ (Qabs (x_f w it iy iz) < Qpower (2 # 1) 127)%Q) ->
  let name c := base ++ S_ "_" ++ str_of_N (N.of_nat (x_nt u)) ++ S_ "x" ++ str_of_N (N.of_nat (x_ny u)) ++ S_ "x" ++ str_of_N (N.of_nat (x_nz u)) ++ S_ "." ++ S_ c in
  f (name "u"%string) <> Dir -> f (name "v"%string) <> Dir -> f (name "w"%string) <> Dir ->
  exists o' f', from_mann o u v w dx U y z (Some a) = (o', Ok tt) /\ (forall fn, to_mann f fn (Some base) o' (Some a) false = (f', Ok tt)) /\
    Holds f' (name "u"%string) (x_nt u) (x_ny u) (x_nz u) (x_f u) /\
    Holds f' (name "v"%string) (x_nt u) (x_ny u) (x_nz u) (x_f v) /\
    Holds f' (name "w"%string) (x_nt u) (x_ny u) (x_nz u) (x_f w).
Proof.
  intros f base o u v w dx U a y z Hx HU P1 P2 P3 Ly Lz Hy V1 V2 V3 W1 W2 W3 HF name Du Dv Dw.
  destruct (C125_from_mann o u v w dx U y z (Some a) Hx HU P1 P2 P3 Ly Lz Hy V1 V2 V3 W1 W2 W3) as (o' & d & zr & ur & iy & iz & i & A0 & A1 & A2 & A3 & _ & _ & _ & _ & _ & _ & _ & B & _).
  exists o'.
  assert (HF' : forall it iy iz, it < w_nt o' -> iy < w_ny o' -> iz < w_nz o' ->
     (Qabs (w_u o' 0%nat it iy iz - a) < Qpower (2 # 1) 127)%Q /\ (Qabs (w_u o' 1%nat it iy iz) < Qpower (2 # 1) 127)%Q /\ (Qabs (w_u o' 2%nat it iy iz) < Qpower (2 # 1) 127)%Q).
  { intros it jy jz. rewrite A1, A2, A3. intros K1 K2 K3. destruct (B it jy jz K1 K2 K3) as (B0 & B1 & B2). rewrite B1, B2.
    assert (E : (w_u o' 0%nat it jy jz - a == x_f u it jy jz)%Q) by (rewrite B0; ring). rewrite (Qabs_wd _ _ E). apply HF; assumption. }
  assert (Q1 : 0 < w_nt o') by lia. assert (Q2 : 0 < w_ny o') by lia. assert (Q3 : 0 < w_nz o') by lia.
  pose proof (C125_to_mann f [] base o' (Some a) false Q1 Q2 Q3) as T. cbn zeta in T. rewrite A1, A2, A3 in T, HF'. destruct (T Du Dv Dw HF') as (f' & T0 & T2 & T3 & T4 & _).
  exists f'. split; [exact A0|]. split; [intro fn; exact T0|]. unfold Holds in *. 
  split; [|split].
  - destruct T2 as (x & X1 & X2 & X3). exists x. split; [exact X1|]. split; [exact X2|]. intros it jy jz K1 K2 K3.
    destruct (X3 it jy jz K1 K2 K3) as (p & r & w' & v' & Y1 & Y2 & Y3 & Y4 & Y5 & Y6 & Y7). exists p, r, w', v'. do 6 (split; [assumption|]). rewrite Y7. rewrite (rnd_comp binary32 _ (x_f u it jy jz)); [reflexivity|reflexivity|].
    destruct (B it jy jz K1 K2 K3) as (B0 & _). rewrite B0. ring.
  - destruct T3 as (x & X1 & X2 & X3). exists x. split; [exact X1|]. split; [exact X2|]. intros it jy jz K1 K2 K3.
    destruct (B it jy jz K1 K2 K3) as (_ & B1 & _). rewrite <- B1. apply X3; assumption.
  - destruct T4 as (x & X1 & X2 & X3). exists x. split; [exact X1|]. split; [exact X2|]. intros it jy jz K1 K2 K3.
    destruct (B it jy jz K1 K2 K3) as (_ & _ & B2). rewrite <- B2. apply X3; assumption.
Qed.
Print Assumptions C125_roundtrip.
