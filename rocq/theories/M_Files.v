(** Model of one data file and of [FileAccess].
    /repo/karabo_data/reader.py lines 67-212, /repo/docs/data_format.rst. *)
From Verif Require Import Base PyStr.
Set Implicit Arguments.
Local Open Scope string_scope.
Local Open Scope list_scope.

(** ** HDF5 file contents *)
Section Files.
Context {V : Type}.   (* one entry (row) of a dataset: scalar or array, opaque *)

(** A dataset: dtype, shape[1:] and its rows along the first dimension.
    (docs/data_format.rst 'INSTRUMENT', 'CONTROL'.) *)
Record dataset := mk_ds { ds_dtype : string; ds_item : list Z; ds_rows : list V }.

(** An INDEX/{deviceId} group: 'first' plus either 'count' or the old
    'last' and 'status' datasets (docs/data_format.rst 'INDEX';
    reader.py 179-184). *)
Inductive ix_rest :=
| IxCount (counts : list Z)
| IxLastStatus (lasts status : list Z).
Record ix_group := mk_ix { ix_first : list Z; ix_more : ix_rest }.

(** The contents of a file.  Paths have no leading slash: an index entry is
    keyed by the path below INDEX/, a dataset by its full path.
    [h5_trainid]/[h5_sources*] are [None] if the dataset is absent. *)
Record h5file := mk_h5 {
  h5_name : string;
  h5_trainid : option (list Z);          (* INDEX/trainId *)
  h5_version : option string;            (* METADATA/dataFormatVersion[0] *)
  h5_sources05 : option (list string);   (* METADATA/dataSourceId *)
  h5_sources10 : option (list string);   (* METADATA/dataSources/dataSourceId *)
  h5_index : list (string * ix_group);
  h5_data : list (string * dataset)
}.

(** ** FileAccess *)

(** reader.py 78-94: the attributes of a [FileAccess].  [fa_ctrl], [fa_inst]
    are frozensets. *)
Record faccess := mk_fa {
  fa_file : h5file;
  fa_tids : list Z;
  fa_ctrl : list string;
  fa_inst : list string
}.

(** reader.py 107-118: [format_version]. *)
Definition format_version (f : h5file) : string :=
  match h5_version f with Some v => v | None => "0.5" end.

(** reader.py 129-143: one iteration of the loop over data sources. *)
Definition add_data_source (acc : list string * list string) (source : string)
  : res (list string * list string) :=
  let '(ctrl, inst) := acc in
  if String.eqb source "" then Ok acc else
  let '(category, _, h5_source) := py_partition slash source in
  if String.eqb category "INSTRUMENT" then
    let '(device, _, chan_grp) := py_partition colon h5_source in
    let '(chan, _, _) := py_partition slash chan_grp in
    Ok (ctrl, set_add (device ++ ":" ++ chan)%string inst)
  else if String.eqb category "CONTROL" then
    Ok (set_add h5_source ctrl, inst)
  else Err EValueError.

(** reader.py 120-145: [_read_data_sources]. *)
Definition read_data_sources (f : h5file) : res (list string * list string) :=
  let ids := if String.eqb (format_version f) "0.5" then h5_sources05 f else h5_sources10 f in
  match ids with
  | None => Err EKeyError
  | Some l => foldM add_data_source ([], []) l
  end.

(** reader.py 86-87: the non-zero train IDs. *)
Definition nonzero_tids (l : list Z) : list Z := filter (fun t => negb (t =? 0)%Z) l.

(** reader.py 78-94 without cache information. *)
Definition fa_open (f : h5file) : res faccess :=
  match h5_trainid f with
  | None => Err EKeyError
  | Some raw =>
      let* p := read_data_sources f in
      let '(ctrl, inst) := p in
      Ok (mk_fa f (nonzero_tids raw) ctrl inst)
  end.

(** reader.py 78-94 with [_cache_info]: the cached values are believed. *)
Definition fa_from_cache (f : h5file) (tids : list Z) (ctrl inst : list string) : faccess :=
  mk_fa f tids ctrl inst.

(** reader.py 147-151: equality of FileAccess is equality of file names. *)
Definition fa_eqb (a b : faccess) : bool :=
  String.eqb (h5_name (fa_file a)) (h5_name (fa_file b)).

(** reader.py 157-158. *)
Definition fa_sources (fa : faccess) : list string := set_union (fa_ctrl fa) (fa_inst fa).

(** '/INDEX/{}/{}'.format(source, group), reader.py 178.  With group '' the
    path ends in a slash, which HDF5 ignores. *)
Definition ix_path (source group : string) : string :=
  if String.eqb group "" then source else (source ++ "/" ++ group)%string.

(** Elementwise numpy operation on arrays of equal length (ValueError
    otherwise; broadcasting of length-1 arrays is not modelled). *)
Definition zip3 (f : Z -> Z -> Z -> Z) (a b c : list Z) : res (list Z) :=
  if (Nat.eqb (List.length a) (List.length b)) && (Nat.eqb (List.length b) (List.length c))
  then Ok (List.map (fun p => f (fst (fst p)) (snd (fst p)) (snd p)) (combine (combine a b) c))
  else Err EValueError.

(** reader.py 172-185: [_read_index].  The old format computes
    uint64 (last - first + 1) * status with wrap-around. *)
Definition fa_get_index (fa : faccess) (source group : string) : res (list Z * list Z) :=
  let n := List.length (fa_tids fa) in
  match dict_get (ix_path source group) (h5_index (fa_file fa)) with
  | None => Err EKeyError
  | Some g =>
      let firsts := firstn n (ix_first g) in
      match ix_more g with
      | IxCount c => Ok (firsts, firstn n c)
      | IxLastStatus l s =>
          let* counts := zip3 (fun last first st => u64 (u64 (u64 (last - first) + 1) * st))
                              (firstn n l) firsts (firstn n s) in
          Ok (firsts, counts)
      end
  end.

(** reader.py 187-212: [get_keys].  [visititems] on the group
    '/CONTROL/source' or '/INSTRUMENT/source' visits every dataset whose path
    lies below the group, giving the path relative to the group.  A source which is listed but has no group in the
    file has no keys here; the code raises KeyError. *)
Definition keys_below (group : string) (f : h5file) : list string :=
  fold_left (fun acc p =>
      match strip_prefix (group ++ "/")%string (fst p) with
      | Some rel => set_add (py_replace slash dot rel) acc
      | None => acc
      end) (h5_data f) [].

Definition fa_get_keys (fa : faccess) (source : string) : res (list string) :=
  if str_in source (fa_ctrl fa) then Ok (keys_below ("CONTROL/" ++ source)%string (fa_file fa))
  else if str_in source (fa_inst fa) then Ok (keys_below ("INSTRUMENT/" ++ source)%string (fa_file fa))
  else Err ESourceNameError.

(** '/{}/{}/{}'.format(section, source, key.replace('.', '/')),
    reader.py 434, 452, 1253; read_machinery.py 114-116. *)
Definition ds_path (section source key : string) : string :=
  (section ++ "/" ++ source ++ "/" ++ py_replace dot slash key)%string.

Definition fa_dataset (fa : faccess) (path : string) : res dataset :=
  match dict_get path (h5_data (fa_file fa)) with
  | Some d => Ok d
  | None => Err EKeyError
  end.

(** key.partition('.')[0], reader.py 344, 446, 503, 551, 1007. *)
Definition key_group (key : string) : string := fst (fst (py_partition dot key)).

(** ** The caches of FileAccess (reader.py 91-94, 160-170, 187-212) as explicit
    state: the index cache is keyed by (source, group), the keys cache by source. *)
Record fa_cache := mk_cache {
  c_index : list (string * string * (list Z * list Z));
  c_keys : list (string * list string)
}.
Definition fa_cache0 := mk_cache [] [].

Fixpoint cache_ix_get (s g : string) (c : list (string * string * (list Z * list Z)))
  : option (list Z * list Z) :=
  match c with
  | [] => None
  | (s', g', v) :: r => if String.eqb s s' && String.eqb g g' then Some v else cache_ix_get s g r
  end.

Definition get_index_c (fa : faccess) (c : fa_cache) (s g : string)
  : res (list Z * list Z) * fa_cache :=
  match cache_ix_get s g (c_index c) with
  | Some v => (Ok v, c)
  | None =>
      match fa_get_index fa s g with
      | Ok v => (Ok v, mk_cache ((s, g, v) :: c_index c) (c_keys c))
      | Err e => (Err e, c)
      end
  end.

Definition get_keys_c (fa : faccess) (c : fa_cache) (s : string) : res (list string) * fa_cache :=
  match dict_get s (c_keys c) with
  | Some v => (Ok v, c)
  | None =>
      match fa_get_keys fa s with
      | Ok v => (Ok v, mk_cache (c_index c) ((s, v) :: c_keys c))
      | Err e => (Err e, c)
      end
  end.

(** A history of calls on one FileAccess object. *)
Inductive fa_call := CallIndex (s g : string) | CallKeys (s : string).
Inductive fa_reply := RIndex (r : res (list Z * list Z)) | RKeys (r : res (list string)).

Definition fa_step (fa : faccess) (c : fa_cache) (x : fa_call) : fa_reply * fa_cache :=
  match x with
  | CallIndex s g => let '(r, c') := get_index_c fa c s g in (RIndex r, c')
  | CallKeys s => let '(r, c') := get_keys_c fa c s in (RKeys r, c')
  end.
Fixpoint fa_run (fa : faccess) (c : fa_cache) (xs : list fa_call) : list fa_reply :=
  match xs with
  | [] => []
  | x :: r => let '(y, c') := fa_step fa c x in y :: fa_run fa c' r
  end.

End Files.
Arguments dataset V : clear implicits.
Arguments h5file V : clear implicits.
Arguments faccess V : clear implicits.
