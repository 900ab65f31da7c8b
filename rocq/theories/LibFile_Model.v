(** Model of the files that are read and written by other libraries: ParquetFile (weio/parquet_file.py) and NetCDFFile
    (weio/netcdf_file.py).  The libraries are parameters: [parse] is pd.read_parquet or xr.open_dataset of the bytes of a file,
    [render] to_parquet or to_netcdf.
    SIMPLIFICATIONS: a library that fails while writing has not touched the file; open_dataset reads the file at once (xarray reads values when they are
    asked for); xarray and pyarrow are installed; of keyword arguments only their presence is kept. *)
From Verif Require Import Py FS File_Model HTC_Model.
Local Open Scope nat_scope.

Section Lib.
  Variable D : Type.
  Variable parse : bytes -> res D.
  Variable render : D -> res bytes.
  (** _read, parquet_file.py:22-24 and netcdf_file.py:29-35: no keyword arguments are accepted *)
  Definition lib_read (f : fs) (name : str) (keywords : bool) (d : option D) : option D * res unit :=
    if keywords then (d, Err TypeError)
    else match f name with
         | Reg b => match parse b with Ok x => (Some x, Ok tt) | Err e => (d, Err e) end
         | _ => (d, Err OSError2)
         end.
  (** _write, parquet_file.py:26-28 and netcdf_file.py:37-38; [None]: the attribute data does not exist *)
  Definition lib_write (f : fs) (name : str) (d : option D) : fs * option D * res unit :=
    match d with
    | None => (f, d, Err AttributeError)
    | Some x =>
        match render x with
        | Err e => (f, d, Err e)
        | Ok b => match f name with Dir => (f, d, Err OSError2) | _ => (fs_put f name b, d, Ok tt) end
        end
    end.
  Notation obj := (file_obj (option D)).
  (** read and write of the class File, file.py:27-45 *)
  Definition read (f : fs) (o : obj) (filename : option str) (keywords : bool) : obj * res unit := File_read (option D) bool lib_read f o filename keywords.
  Definition write (f : fs) (o : obj) (filename : option str) : fs * obj * res unit := File_write (option D) lib_write f o filename.
  (** ParquetFile.__init__, parquet_file.py:16-19 *)
  Definition parquet_init (f : fs) (filename : option str) (keywords : bool) : res obj :=
    let o := FileObj filename None in
    if truthy filename then let (o', r) := read f o None keywords in match r with Ok _ => Ok o' | Err e => Err e end
    else Ok o.
  (** NetCDFFile has the constructor of File, file.py:21-25. *)
  Definition netcdf_init (f : fs) (filename : option str) (keywords : bool) : res obj := File_init (option D) bool lib_read f None filename keywords.
  (** ParquetFile.toDataFrame, parquet_file.py:30-33 *)
  Definition parquet_frame (o : obj) : res D := match o_data o with Some d => Ok d | None => Err AttributeError end.
  (** ParquetFile.toString, parquet_file.py:36-39 *)
  Definition parquet_string (to_string : D -> str) (o : obj) : res str := match o_data o with Some d => Ok (to_string d) | None => Err AttributeError end.
  (** NetCDFFile._toDataFrame, netcdf_file.py:40-50.  [variables]: the keys of the data set with shapes and values *)
  Fixpoint tables_from {V} (dfs : list (str * V)) (vars : list (str * (list nat * V))) : list (str * V) :=
    match vars with
    | [] => dfs
    | (k, (shape, v)) :: vars' =>
        if List.length shape =? 2 then tables_from (dset dfs k v) vars'
        else if List.length shape =? 1 then tables_from (dset dfs k v) vars'
        else tables_from dfs vars'
    end.
  Definition netcdf_frames {V} (variables : D -> list (str * (list nat * V))) (o : obj) : res (list (str * V)) :=
    match o_data o with Some d => Ok (tables_from [] (variables d)) | None => Err AttributeError end.
End Lib.
