(** Model of weio/mannbox_file.py (read, write, dimension inference) and of the file naming of
    weio/turbsim_file.py:toMannBox. *)
From Verif Require Import Py FS Registry_Model.

(** ** List helpers (numpy reshape of a flat buffer in C order) *)

(** The first [k] consecutive pieces of size [n]. *)
Fixpoint chunks {A} (k n : nat) (l : list A) : list (list A) :=
  match k with
  | O => []
  | S k' => firstn n l :: chunks k' n (skipn n l)
  end.
(** [a.reshape((k, n))]: ValueError unless the size is [k*n]. *)
Definition reshape {A} (k n : nat) (l : list A) : res (list (list A)) :=
  if Nat.eqb (List.length l) (k * n) then Ok (chunks k n l) else Err ValueError.

(** A float32 is kept as its 4 bytes.  SIMPLIFICATION: np.float32 -> python float -> struct 'f' (write) is
    taken to be the identity on those bytes; this holds for every float32 except signalling NaNs. *)
Notation word := (list N).
(** [np.frombuffer(buf, dtype=np.float32)]: ValueError if the size is not a multiple of 4. *)
Definition frombuffer (b : bytes) : res (list word) :=
  if Nat.eqb (List.length b mod 4) 0 then Ok (chunks (List.length b / 4) 4 b) else Err ValueError.

Definition field := list (list (list word)).   (* [ix][iy][iz] *)

(** mannbox_file.py:123-129: one x-plane per read; the y axis is flipped. *)
Fixpoint read_planes (nx ny nz : nat) (b : bytes) : res field :=
  match nx with
  | O => Ok []
  | S nx' =>
      buf <- frombuffer (firstn (4 * ny * nz) b) ;;
      plane <- reshape ny nz buf ;;
      rest <- read_planes nx' ny nz (skipn (4 * ny * nz) b) ;;
      Ok (rev plane :: rest)
  end.
Definition read_buffered := read_planes.

(** mannbox_file.py:131-138.  [np.fromfile] drops trailing bytes that do not make a word; the Fortran-order
    reshape to (nz,ny,nx), transposed, puts the word of index iz + nz*(iy + ny*ix) at [ix][iy][iz]; then
    the y axis is flipped. *)
Definition read_nonbuffered (nx ny nz : nat) (b : bytes) : res field :=
  let data := chunks (List.length b / 4) 4 b in
  if Nat.eqb (List.length data) (nx * ny * nz) then
    Ok (map (fun ix => rev (map (fun iy => map (fun iz => nth (iz + nz * (iy + ny * ix)) data []) (seq 0 nz))
                                (seq 0 ny)))
            (seq 0 nx))
  else Err AssertionError.

(** mannbox_file.py:158-163 *)
Definition write_field (f : field) : bytes :=
  concat (map (fun plane => concat (map (@concat N) (rev plane))) f).

(** ** Dimensions from the file name: mannbox_file.py:111-120 *)

(** [os.path.splitext(b)[0]] for a base name. *)
Definition splitext_root (b : str) : str :=
  match rsplit1 dot b with
  | Some (r, _) => if forallb (fun c => chr_eqb c dot) r then b else r
  | None => b
  end.
(** [re.findall(r'\d+', s)]: maximal runs of digits. *)
Definition findall_digits (s : str) : list str := filter nonempty (split_on (fun c => negb (is_digit c)) s).
Definition infer_dims (filename : str) : res (N * N * N) :=
  let ds := findall_digits (splitext_root (basename filename)) in
  match rev ds with
  | dz :: dy :: dx :: _ =>
      match N_of_str dx, N_of_str dy, N_of_str dz with
      | Some a, Some b, Some c => Ok (a, b, c)
      | _, _, _ => Err ValueError           (* unreachable: runs of digits *)
      end
  | _ => Err BrokenFormatError
  end.

(** mannbox_file.py:89-140 with no explicit N, on an object already given a name. *)
Definition mann_read (f : fs) (filename : str) (N_ : option (nat * nat * nat)) : res field :=
  match filename with
  | [] => Err PlainException
  | _ =>
    match f filename with
    | Missing | Dir => Err OSError2
    | Reg [] => Err EmptyFileError
    | Reg b =>
        '(nx, ny, nz) <- match N_ with
                         | Some d => Ok d
                         | None => '(a, b, c) <- infer_dims filename ;; Ok (N.to_nat a, N.to_nat b, N.to_nat c)
                         end ;;
        read_buffered nx ny nz b
    end
  end.

(** mannbox_file.py:152-163: [shape] unpacking needs a 3d array, which [field] is by construction. *)
Definition mann_write (f : fs) (filename : str) (x : field) : fs * res unit :=
  match filename with
  | [] => (f, Err PlainException)
  | _ => match fs_open_w f filename with
         | Ok f1 => (fs_append f1 filename (write_field x), Ok tt)
         | Err e => (f, Err e)
         end
  end.

(** The name used by TurbSimFile.toMannBox: turbsim_file.py:720-732, with extension [c] in u, v, w. *)
Definition mann_name (base : str) (nx ny nz : N) (c : ascii) : str :=
  base ++ S_ "_" ++ str_of_N nx ++ S_ "x" ++ str_of_N ny ++ S_ "x" ++ str_of_N nz ++ [dot; c].
