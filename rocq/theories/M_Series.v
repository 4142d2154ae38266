(** Model of get_data_counts, get_series, get_dataframe and get_dask_array,
    /repo/karabo_data/reader.py lines 482-618 and 716-765. *)
From Verif Require Import Base PyStr M_Files M_Machinery M_Reader M_Glob M_Select.
Set Implicit Arguments.
Local Open Scope string_scope.
Local Open Scope list_scope.

(** pandas [Index.is_unique]. *)
Fixpoint z_unique (l : list Z) : bool :=
  match l with
  | [] => true
  | x :: r => negb (z_in x r) && z_unique r
  end.

(** [sorted(seq_series, key=lambda s: s.index[0])], reader.py 507, 572: the
    first label of every part is needed, so an empty part raises IndexError.
    [head] gives the train ID of the first label. *)
Definition sort_parts {A} (head : A -> Z) (parts : list (list A)) : res (list (list A)) :=
  if existsb (fun p => match p with [] => true | _ => false end) parts then Err EIndexError
  else Ok (sort_key (fun p => match p with [] => 0%Z | x :: _ => head x end) parts).

(** [pd.concat(l)]: ValueError without parts. *)
Definition pd_concat {A} (l : list (list A)) : res (list A) :=
  match l with [] => Err EValueError | _ => Ok (List.concat l) end.

Section Series.
Context {V : Type}.
Notation faccess := (faccess V).
Notation dcoll := (dcoll V).
Notation dataset := (dataset V).
Notation chunk := (chunk V).

(** ** get_data_counts *)

(** reader.py 500-505: the part of one file.  For a control source the code
    evaluates [np.ones(f.train_ids)], an array of {e shape} [f.train_ids]; a
    Series of it with the train IDs as index exists only if the shape is one
    dimension whose length is the number of trains, i.e. the single train ID 1.
    (Without any train it is an empty Series.)  For other train IDs an
    exception is raised, of a class which depends on their values: Exception,
    ValueError or MemoryError; here EException. *)
Definition counts_part (d : dcoll) (source key : string) (f : faccess) : res (list (Z * Z)) :=
  if str_in source (dc_ctrl d) then
    match fa_tids f with
    | [] => Ok []
    | [1%Z] => Ok [(1%Z, 1%Z)]
    | _ => Err EException
    end
  else
    let* ix := fa_get_index f source (key_group key) in
    let counts := snd ix in
    if Nat.eqb (List.length counts) (List.length (fa_tids f))
    then Ok (combine (fa_tids f) counts) else Err EValueError.

(** reader.py 482-510.  [ser.index.intersection(self.train_ids)] keeps the
    labels in their order in [ser]; repeated IDs in [self.train_ids] are not
    repeated here. *)
Definition get_data_counts (d : dcoll) (source key : string) : res (list (Z * Z)) :=
  let* _ := check_field d source key in
  let* parts := mapM (counts_part d source key) (source_files (dc_files d) source) in
  let* parts := sort_parts fst parts in
  let* ser := pd_concat parts in
  Ok (filter (fun p => z_in (fst p) (dc_tids d)) ser).

(** ** get_series *)
(** [first v] is the entry of a row which is an array of one element
    ([data[:, 0]]), and [pulse v] the number in a row of the pulseId dataset. *)
Context (first : V -> V) (pulse : V -> Z).

(** One row of a series: train ID, pulse ID if there is such a level, value. *)
Definition srow : Type := (Z * option Z * V)%type.
Definition srow_tid (r : srow) : Z := fst (fst r).
Definition srow_pulse (r : srow) : option Z := snd (fst r).
Definition srow_val (r : srow) : V := snd r.

(** [pd.Series(data, index=index)]: one-dimensional data ([item] is the shape
    after the first dimension), as many values as labels. *)
Definition pd_series (item : list Z) (labels : list (Z * option Z)) (data : list V) : res (list srow) :=
  match item with
  | [] => if Nat.eqb (List.length labels) (List.length data)
          then Ok (combine labels data) else Err EValueError
  | _ => Err EException
  end.

Definition train_labels (tids : list Z) : list (Z * option Z) := List.map (fun t => (t, None)) tids.
Definition pulse_labels (tids pulses : list Z) : list (Z * option Z) :=
  List.map (fun p => (fst p, Some (snd p))) (combine tids pulses).

(** reader.py 540-546. *)
Definition series_ctrl (source key : string) (f : faccess) : res (list srow) :=
  let* ds := fa_dataset f (ds_path "CONTROL" source key) in
  let data := firstn (List.length (fa_tids f)) (ds_rows ds) in
  pd_series (ds_item ds) (train_labels (fa_tids f)) data.

(** reader.py 548-568. *)
Definition series_inst (source key : string) (f : faccess) : res (list srow) :=
  let group := key_group key in
  let* ix := fa_get_index f source group in
  let trainids := expand_trainids (snd ix) (fa_tids f) in
  let* ds := fa_dataset f (ds_path "INSTRUMENT" source key) in
  let n := List.length trainids in
  if z_unique trainids
  then pd_series (ds_item ds) (train_labels trainids) (firstn n (ds_rows ds))
  else
    let* pds := fa_dataset f ("INSTRUMENT/" ++ source ++ "/" ++ group ++ "/pulseId")%string in
    match ds_item pds with
    | [_] =>
        let pulses := List.map pulse (firstn n (ds_rows pds)) in
        if negb (Nat.eqb (List.length pulses) n) then Err EValueError else
        match ds_item ds with
        | [] => Err EIndexError
        | m :: rest =>
            if negb (m =? 1)%Z then Err EAssertionError else
            pd_series rest (pulse_labels trainids pulses) (firstn n (List.map first (ds_rows ds)))
        end
    | _ => Err EValueError
    end.

(** reader.py 572: the sort compares first labels; a train ID is not comparable
    with a (train ID, pulse ID) pair (ValueError). *)
Definition has_pulse (p : list srow) : bool :=
  match p with r :: _ => match srow_pulse r with Some _ => true | None => false end | [] => false end.
Definition mixed (parts : list (list srow)) : bool :=
  existsb has_pulse parts && negb (forallb has_pulse parts).

(** reader.py 512-582.  (Between pulse labelled parts the sort would also look
    at the pulse ID if train IDs were equal: two files of a source never have
    the same train ID.)  [ser.loc[train_ids]] keeps the order of [ser]. *)
Definition get_series (d : dcoll) (source key : string) : res (list srow) :=
  let* _ := check_field d source key in
  let* parts :=
    (if str_in source (dc_ctrl d) then mapM (series_ctrl source key) (source_files (dc_files d) source)
     else if str_in source (dc_inst d) then mapM (series_inst source key) (source_files (dc_files d) source)
     else Err EException) in
  let* sorted := sort_parts srow_tid parts in
  if mixed parts then Err EValueError else
  let* ser := pd_concat sorted in
  Ok (filter (fun r => z_in (srow_tid r) (dc_tids d)) ser).

(** ** get_dask_array *)

(** numpy signed 64 bit arithmetic. *)
Definition i64 (z : Z) : Z := ((z + 2 ^ 63) mod 2 ^ 64 - 2 ^ 63)%Z.
(** [np.product(chunk_shape) * itemsize], in signed 64 bit. *)
Definition nbytes (n : Z) (item : list Z) (itemsize : Z) : Z :=
  i64 (fold_left (fun p m => i64 (p * m)) item n * itemsize).

(** reader.py 757-759: the loop over [chunk_dim0]; [fuel] bounds the number of
    rounds, running out is ERuntimeError (never reached, see L_Series). *)
Definition dask_limit : Z := (2 * 1024 ^ 3)%Z.
Fixpoint dask_block (fuel : nat) (item : list Z) (itemsize n : Z) : res Z :=
  if ((dask_limit <? nbytes n item itemsize) && (1 <? n))%Z then
    match fuel with
    | O => Err ERuntimeError
    | S fuel => dask_block fuel item itemsize (n / 2)
    end
  else Ok n.
Definition dask_fuel (n : Z) : nat := S (Z.to_nat (Z.log2 n)).

(** reader.py 744-763: one chunk.  [itemsize ds] is the size of the dtype.
    [da.from_array(dataset, chunks=...)] divides the length of the dataset by the
    block length, which raises ZeroDivisionError (here ERuntimeError) for a
    chunk without rows of a dataset with rows; then [[chunk.slice]] is clipped
    to the dataset. *)
Definition dask_chunk (itemsize : string -> Z) (source key : string) (c : chunk)
  : res (list Z * string * list V) :=
  let* ds := ch_dataset source key c in
  let n := zsum (ch_counts c) in
  let* b := dask_block (dask_fuel n) (ds_item ds) (itemsize (ds_dtype ds)) n in
  if ((b =? 0) && negb (Z.of_nat (List.length (ds_rows ds)) =? 0))%Z then Err ERuntimeError else
  Ok (ds_item ds, ds_dtype ds, ds_slice ds (ch_first c) (ch_first c + n)).

(** reader.py 716-765.  [da.concatenate] needs at least one array and the same
    shape of rows; dtypes are promoted (the rows are unchanged here). *)
Definition get_dask_array (itemsize : string -> Z) (d : dcoll) (source key : string) : res (list V) :=
  let* chunks := sorted_chunks d source key in
  let* parts := mapM (dask_chunk itemsize source key) chunks in
  match parts with
  | [] => Err EValueError
  | p :: r =>
      if forallb (fun q => zlist_eqb (fst (fst p)) (fst (fst q))) r
      then Ok (flat_map snd parts) else Err EValueError
  end.

(** ** get_dataframe *)

(** reader.py 534-536: the name of the series of a field. *)
Definition series_name (source key : string) : string :=
  let name := (source ++ "/" ++ key)%string in
  let n := String.length name in
  if ends_with ".value" name then substring 0 (n - 6) name else name.

(** reader.py 584-618 without [fields]: the columns which
    [pd.concat(series, axis=1)] puts side by side, in order. *)
Definition dataframe_fields (d : dcoll) (timestamps : bool) : res (list (string * string)) :=
  let* l := mapM (fun s =>
      let* ks := keys_for_source d s in
      Ok (List.map (pair s) (filter (fun k => timestamps || negb (ends_with ".timestamp" k)) ks)))
    (dc_sources d) in
  Ok (List.concat l).
Definition dataframe_all (d : dcoll) (timestamps : bool) : res (list (string * list srow)) :=
  let* fields := dataframe_fields d timestamps in
  let* cols := mapM (fun f => let* s := get_series d (fst f) (snd f) in
                              Ok (series_name (fst f) (snd f), s)) fields in
  match cols with [] => Err EValueError | _ => Ok cols end.
(** reader.py 584-618.  The columns before pandas aligns their rows; [pd.concat] of an empty list raises ValueError. *)
Definition get_dataframe (d : dcoll) (fields : option sel_arg) (timestamps : bool) : res (list (string * list srow)) :=
  match fields with
  | Some a => let* d' := select d a in dataframe_all d' timestamps
  | None => dataframe_all d timestamps
  end.
End Series.
