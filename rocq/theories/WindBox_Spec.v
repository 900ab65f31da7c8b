(** What the theorems on boxes of wind say: the nearest point of a grid, averages and variances, and texts of rounded numbers. *)
From Verif Require Import Py.
From Coq Require Import QArith Qabs.
Local Open Scope nat_scope.

(** [i] is the index of the point of the grid [l] nearest to [x]; of several, the first *)
Definition Nearest (l : list Q) (x : Q) (i : nat) : Prop :=
  i < List.length l /\
  (forall j, j < List.length l -> (Qabs (nth i l 0 - x) <= Qabs (nth j l 0 - x))%Q) /\
  (forall j, j < i -> (Qabs (nth i l 0 - x) < Qabs (nth j l 0 - x))%Q).

(** f 0 + ... + f (n-1), its average, and the average of the squared deviations *)
Fixpoint sum_to (n : nat) (f : nat -> Q) : Q := match n with 0 => 0%Q | S k => (sum_to k f + f k)%Q end.
Definition avg (n : nat) (f : nat -> Q) : Q := (sum_to n f / inject_Z (Z.of_nat n))%Q.
Definition var (n : nat) (f : nat -> Q) : Q := avg n (fun i => (f i - avg n f) * (f i - avg n f))%Q.

(** [n] is the integer nearest to [q]; between two, the even one *)
Definition Rounded (q : Q) (n : Z) : Prop :=
  (Qabs (q - inject_Z n) <= 1 # 2)%Q /\ (Qabs (q - inject_Z n) == 1 # 2 -> Z.even n = true)%Q.
(** The text of [q] without decimals *)
Definition Text0 (q : Q) (s : str) : Prop :=
  exists n, Rounded (Qabs q) n /\ (0 <= n)%Z /\ ((0 <= q)%Q -> s = str_of_Z n) /\ ((q < 0)%Q -> s = "-"%char :: str_of_Z n).
