(** Model of /repo/karabo_data/writer.py and of DataCollection.write,
    write_virtual and get_virtual_dataset (reader.py 1154-1227). *)
From Verif Require Import Base PyStr M_Files M_Machinery M_Reader.
Set Implicit Arguments.
Local Open Scope string_scope.
Local Open Scope list_scope.

(** ** numpy helpers *)
(** [np.cumsum] (no overflow modelled). *)
Fixpoint cumsum_from (acc : Z) (l : list Z) : list Z :=
  match l with [] => [] | x :: r => (acc + x)%Z :: cumsum_from (acc + x) r end.
Definition np_cumsum (l : list Z) : list Z := cumsum_from 0 l.

(** [np.diff] of an array of uint64: differences modulo 2^64. *)
Fixpoint np_diff_u64 (l : list Z) : list Z :=
  match l with
  | x :: ((y :: _) as r) => u64 (y - x) :: np_diff_u64 r
  | _ => []
  end.

(** writer.py 34-35, 56-57: [firsts = zeros_like(counts);
    firsts[1:] = cumsum(counts)[:-1]]. *)
Definition make_firsts (counts : list Z) : list Z :=
  match counts with
  | [] => []
  | _ => 0%Z :: removelast (np_cumsum counts)
  end.

(** [np.count_nonzero(t == data_tids)]. *)
Definition count_tid (data_tids : list Z) (t : Z) : Z :=
  Z.of_nat (List.length (filter (fun x => (t =? x)%Z) data_tids)).

(** writer.py 51-59: [_generate_index].  The train IDs are uint64 arrays. *)
Definition generate_index (tids data_tids : list Z) : res (list Z * list Z) :=
  if negb (forallb (fun x => 0 <=? x)%Z (np_diff_u64 data_tids)) then Err EAssertionError else
  let counts := map (count_tid data_tids) tids in
  Ok (make_firsts counts, counts).

(** writer.py 25-37: the index of a control source.
    [len(np.unique(a)) == len(a)] is the test for duplicates. *)
Definition control_index (tids data_tids : list Z) : res (list Z * list Z) :=
  if negb (Nat.eqb (List.length (zsort_set data_tids)) (List.length data_tids)) then Err EAssertionError else
  let counts := map (fun b : bool => if b then 1%Z else 0%Z) (np_isin tids data_tids) in
  Ok (make_firsts counts, counts).

Section Writer.
Context {V : Type}.
Notation dcoll := (dcoll V).
Notation dataset := (dataset V).
Notation larray := (larray V).
Notation chunk := (chunk V).

(** writer.py 12-16: the attributes of a FileWriter and the datasets in its
    HDF5 file.  [ws_sources] is the set [data_sources]. *)
Record wstate := mk_ws {
  ws_data : list (string * dataset);
  ws_index : list (string * (list Z * list Z));
  ws_sources : list string
}.
Definition ws0 : wstate := mk_ws [] [] [].

(** HDF5 refuses to create a dataset at a path which exists, as a dataset or
    as a group, or below a dataset. *)
Definition path_clash (p q : string) : bool :=
  String.eqb p q || starts_with (p ++ "/")%string q || starts_with (q ++ "/")%string p.

(** [self.file[path] = a.values] / [create_virtual_dataset(path, layout)]. *)
Definition put_data (path : string) (a : larray) (ws : wstate) : res wstate :=
  if existsb (fun p => path_clash path (fst p)) (ws_data ws) then Err ERuntimeError
  else Ok (mk_ws (ws_data ws ++ [(path, mk_ds (la_dtype a) (la_item a) (la_rows a))]) (ws_index ws) (ws_sources ws)).

(** [if name not in self.indexes: self.indexes[name] = ...;
    self.data_sources.add(entry)], writer.py 30-37, 47-49. *)
Definition put_index (name entry : string) (ix : res (list Z * list Z)) (ws : wstate) : res wstate :=
  if str_in name (dict_keys (ws_index ws)) then Ok ws
  else let* v := ix in
       Ok (mk_ws (ws_data ws) (dict_set name v (ws_index ws)) (set_add entry (ws_sources ws))).

(** writer.py 18-23, 39-43 and 158-178: add one dataset, given the array which
    [get_array] or [_assemble_data] returned (None: no data).
    [index_path = source + '/' + group]; a trailing slash (empty group) is
    ignored by HDF5, see [ix_path]. *)
Definition add_dataset (d : dcoll) (is_ctrl : bool) (source key : string) (o : option larray) (ws : wstate)
  : res wstate :=
  match o with
  | None => Ok ws
  | Some a =>
      if is_ctrl then
        let* ws := put_data (ds_path "CONTROL" source key) a ws in
        put_index source ("CONTROL/" ++ source)%string (control_index (dc_tids d) (la_labels a)) ws
      else
        let* ws := put_data (ds_path "INSTRUMENT" source key) a ws in
        let name := ix_path source (key_group key) in
        put_index name ("INSTRUMENT/" ++ name)%string (generate_index (dc_tids d) (la_labels a)) ws
  end.

(** What FileWriter reads for a field: writer.py 19-20 and 40; control data
    must have as many rows as there are trains. *)
Definition read_real (d : dcoll) (is_ctrl : bool) (source key : string) : res (option larray) :=
  let* a := get_array d source key in
  if is_ctrl && negb (Nat.eqb (List.length (la_rows a)) (List.length (dc_tids d))) then Err EAssertionError
  else Ok (Some a).

(** writer.py 126-156: [VirtualFileWriter._assemble_data].  A chunk whose slice
    goes beyond its dataset, or whose rows have another shape than the first
    one's, makes the creation of the virtual dataset fail.  (Rows of another
    dtype would be converted by HDF5 when they are read; not modelled.) *)
Definition virtual_part (source key : string) (item : list Z) (c : chunk) : res (list Z * list V) :=
  let* ds := ch_dataset source key c in
  let n := zsum (ch_counts c) in
  let rows := ds_slice ds (ch_first c) (ch_first c + n) in
  if (Z.of_nat (List.length rows) =? n)%Z && zlist_eqb (ds_item ds) item
  then Ok (np_repeat (ch_tids c) (ch_counts c), rows)
  else Err ERuntimeError.
Definition read_virtual (d : dcoll) (is_ctrl : bool) (source key : string) : res (option larray) :=
  let* l := find_data_chunks d source key in
  match sort_key (@chunk_key V) (filter (fun c => existsb (fun n => 0 <? n)%Z (ch_counts c)) l) with
  | [] => Ok None
  | (c0 :: _) as cs =>
      let* ds0 := ch_dataset source key c0 in
      let* parts := mapM (virtual_part source key (ds_item ds0)) cs in
      Ok (Some (mk_la (ds_dtype ds0) (ds_item ds0) (flat_map fst parts) (flat_map snd parts)))
  end.

(** writer.py 99-105: the loops over sources and keys. *)
Definition write_sources (read : dcoll -> bool -> string -> string -> res (option larray))
  (d : dcoll) (is_ctrl : bool) (sources : list string) (ws : wstate) : res wstate :=
  foldM (fun ws s =>
      let* ks := keys_for_source d s in
      foldM (fun ws k => let* o := read d is_ctrl s k in add_dataset d is_ctrl s k o ws) ws ks) ws sources.

(** writer.py 61-88: train IDs, indexes and metadata in the file.  The list of
    sources is sorted; format version 0.5 (no dataFormatVersion).  METADATA/root
    and METADATA/deviceId are not read by the package and left out. *)
Definition ws_file (name : string) (d : dcoll) (ws : wstate) : h5file V :=
  mk_h5 name (Some (dc_tids d)) None (Some (isort String.leb (ws_sources ws))) None
    (map (fun p => (fst p, mk_ix (fst (snd p)) (IxCount (snd (snd p))))) (ws_index ws)) (ws_data ws).

(** writer.py 95-109. *)
Definition write_with (read : dcoll -> bool -> string -> string -> res (option larray))
  (name : string) (d : dcoll) : res (h5file V) :=
  let* ws := write_sources read d true (dc_ctrl d) ws0 in
  let* ws := write_sources read d false (dc_inst d) ws in
  Ok (ws_file name d ws).

(** reader.py 1154-1164: [write]. *)
Definition write (name : string) (d : dcoll) : res (h5file V) := write_with read_real name d.
(** reader.py 1166-1183: [write_virtual]. *)
Definition write_virtual (name : string) (d : dcoll) : res (h5file V) := write_with read_virtual name d.

(** reader.py 1185-1227: [get_virtual_dataset]; [f[None]] is a TypeError. *)
Definition get_virtual_dataset (d : dcoll) (source key : string) : res dataset :=
  let* _ := check_field d source key in
  let c := str_in source (dc_ctrl d) in
  let* o := read_virtual d c source key in
  let* ws := add_dataset d c source key o ws0 in
  match o with
  | None => Err ETypeError
  | Some a => Ok (mk_ds (la_dtype a) (la_item a) (la_rows a))
  end.

(** Opening one file: reader.py 1300-1330 (H5File). *)
Definition open_one (f : h5file V) : res dcoll :=
  let* fa := fa_open f in mk_collection [fa] None None.

End Writer.
Arguments wstate V : clear implicits.
