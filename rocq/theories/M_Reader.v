(** Model of [DataCollection] and [TrainIterator],
    /repo/karabo_data/reader.py lines 215-1297. *)
From Verif Require Import Base PyStr M_Files M_Machinery.
Set Implicit Arguments.
Local Open Scope string_scope.
Local Open Scope list_scope.

Section Reader.
Context {V : Type}.
Notation faccess := (faccess V).
Notation dataset := (dataset V).

(** The attributes of a DataCollection that affect its behaviour
    (reader.py 224-254).  [_source_index] is computed on demand by
    [source_files]. *)
Record dcoll := mk_dc {
  dc_files : list faccess;
  dc_sel : selection;
  dc_ctrl : list string;
  dc_inst : list string;
  dc_tids : list Z
}.

(** reader.py 295-297. *)
Definition dc_sources (d : dcoll) : list string := set_union (dc_ctrl d) (dc_inst d).

(** [_source_index[source]], reader.py 239-244: the files holding the source,
    in file order (whether or not the source is selected). *)
Definition source_files (files : list faccess) (source : string) : list faccess :=
  filter (fun f => str_in source (fa_sources f)) files.

(** ** Constructor *)

(** reader.py 230-234: the default selection, all sources with all keys. *)
Definition default_selection (files : list faccess) : selection :=
  fold_left (fun acc f =>
      fold_left (fun acc s => dict_set s None acc) (fa_inst f)
        (fold_left (fun acc s => dict_set s None acc) (fa_ctrl f) acc)) files [].

(** All sources of the files: the keys of [_source_index], reader.py 240-244. *)
Definition index_sources (files : list faccess) : list string :=
  fold_left (fun acc f => set_union acc (fa_sources f)) files [].

(** reader.py 984-989: [np.intersect1d(got_tids, file.train_ids).size > 0],
    then [np.union1d]. *)
Fixpoint tids_conflict (got : list Z) (files : list faccess) : bool :=
  match files with
  | [] => false
  | f :: r => if existsb (fun t => z_in t got) (fa_tids f) then true
              else tids_conflict (got ++ fa_tids f) r
  end.

(** reader.py 979-995. *)
Definition check_source_conflicts (files : list faccess) : res unit :=
  if existsb (fun s => tids_conflict [] (source_files files s)) (index_sources files)
  then Err EValueError else Ok tt.

(** reader.py 224-254. *)
Definition mk_collection (files : list faccess) (sel : option selection) (tids : option (list Z))
  : res dcoll :=
  let sel := match sel with Some s => s | None => default_selection files end in
  let ctrl := fold_left (fun acc f => set_union acc (set_inter (fa_ctrl f) (dict_keys sel))) files [] in
  let inst := fold_left (fun acc f => set_union acc (set_inter (fa_inst f) (dict_keys sel))) files [] in
  let* _ := check_source_conflicts files in
  let tids := match tids with
              | Some t => t
              | None => zsort_set (flat_map (@fa_tids V) files)
              end in
  Ok (mk_dc files sel ctrl inst tids).

(** reader.py 256-272: [from_paths] on the results of trying to open each
    path ([fa_open] or an exception from h5py / reading); unusable files are
    skipped. *)
Definition usable (l : list (res faccess)) : list faccess :=
  flat_map (fun r => match r with Ok f => [f] | Err _ => [] end) l.
Definition from_paths (l : list (res faccess)) : res dcoll :=
  match usable l with
  | [] => Err EException
  | fs => mk_collection fs None None
  end.

(** ** Keys *)

(** reader.py 309-327.  If no file holds the source the method returns None;
    every caller then iterates over it or tests membership, which raises
    TypeError, so this is what the model returns. *)
Definition keys_for_source (d : dcoll) (source : string) : res (list string) :=
  match dict_get source (dc_sel d) with
  | None => Err EKeyError
  | Some (Some ks) => Ok ks
  | Some None =>
      match source_files (dc_files d) source with
      | [] => Err ETypeError
      | f :: _ => fa_get_keys f source
      end
  end.

(** reader.py 303-307. *)
Definition check_field (d : dcoll) (source key : string) : res unit :=
  if negb (str_in source (dc_sources d)) then Err ESourceNameError else
  let* ks := keys_for_source d source in
  if str_in key ks then Ok tt else Err EPropertyNameError.

(** ** Finding data by train *)

(** reader.py 1037: positions of [tid] in a file. *)
Definition tid_positions (f : faccess) (tid : Z) : list nat :=
  nonzero (List.map (fun t => (t =? tid)%Z) (fa_tids f)).

(** reader.py 1035-1041: [_find_data]. *)
Fixpoint find_in_files (files : list faccess) (tid : Z) : option (faccess * nat) :=
  match files with
  | [] => None
  | f :: r => match tid_positions f tid with
              | p :: _ => Some (f, p)
              | [] => find_in_files r tid
              end
  end.
Definition find_data (d : dcoll) (source : string) (tid : Z) : option (faccess * nat) :=
  find_in_files (source_files (dc_files d) source) tid.

(** Value stored for a key of a train: a single entry, or a stack of
    entries with a leading dimension (reader.py 453-456). *)
Inductive tval := One (v : V) | Many (l : list V).
(** The dict for one source; the 'metadata' item is [(sd_source, sd_tid)]. *)
Record src_data := mk_sd { sd_source : string; sd_tid : Z; sd_keys : list (string * tval) }.

(** h5py [ds[pos]] with an unsigned position: ValueError out of range. *)
Definition ds_at (ds : dataset) (pos : Z) : res V :=
  match nth_error (ds_rows ds) (Z.to_nat pos) with
  | Some v => Ok v
  | None => Err EValueError
  end.
(** h5py [ds[a : b]] is clipped to the dataset. *)
Definition ds_slice (ds : dataset) (a b : Z) : list V := zslice (ds_rows ds) a b.

(** reader.py 433-435: one control key of a train. *)
Definition ctrl_key (f : faccess) (pos : nat) (source key : string) : res tval :=
  let* ds := fa_dataset f (ds_path "CONTROL" source key) in
  let* v := ds_at ds (Z.of_nat pos) in
  Ok (One v).

(** reader.py 445-456: one instrument key of a train; None if skipped. *)
Definition inst_key (f : faccess) (pos : nat) (source key : string) : res (option tval) :=
  let* ix := fa_get_index f source (key_group key) in
  let* first := nth_res (fst ix) pos in
  let* count := nth_res (snd ix) pos in
  if (count =? 0)%Z then Ok None else
  let* ds := fa_dataset f (ds_path "INSTRUMENT" source key) in
  if (count =? 1)%Z then let* v := ds_at ds first in Ok (Some (One v))
  else Ok (Some (Many (ds_slice ds first (first + count)))).

Definition opt_list {A} (o : option A) : list A := match o with Some a => [a] | None => [] end.

(** Run [f] on each key; keys for which it returns None get no entry. *)
Fixpoint collect_keys (f : string -> res (option tval)) (ks : list string)
  : res (list (string * tval)) :=
  match ks with
  | [] => Ok []
  | k :: r =>
      let* o := f k in
      let* rest := collect_keys f r in
      Ok (match o with Some v => (k, v) :: rest | None => rest end)
  end.

(** reader.py 425-435: the entry for one control source. *)
Definition ctrl_source_data (d : dcoll) (tid : Z) (source : string) : res src_data :=
  match find_data d source tid with
  | None => Ok (mk_sd source tid [])
  | Some (f, pos) =>
      let* ks := keys_for_source d source in
      let* kv := collect_keys (fun k => let* v := ctrl_key f pos source k in Ok (Some v)) ks in
      Ok (mk_sd source tid kv)
  end.

(** reader.py 437-456: the entry for one instrument source. *)
Definition inst_source_data (d : dcoll) (tid : Z) (source : string) : res src_data :=
  match find_data d source tid with
  | None => Ok (mk_sd source tid [])
  | Some (f, pos) =>
      let* ks := keys_for_source d source in
      let* kv := collect_keys (inst_key f pos source) ks in
      Ok (mk_sd source tid kv)
  end.

(** reader.py 393-458: [train_from_id] (devices=None; with devices it is
    [select] followed by this).  The result dict maps sources to data. *)
Definition train_from_id (d : dcoll) (tid : Z) : res (Z * list (string * src_data)) :=
  if negb (z_in tid (dc_tids d)) then Err ETrainIDError else
  let* c := mapM (ctrl_source_data d tid) (dc_ctrl d) in
  let* i := mapM (inst_source_data d tid) (dc_inst d) in
  Ok (tid, fold_left (fun acc sd => dict_set (sd_source sd) sd acc) (c ++ i) []).

(** reader.py 460-480. *)
Definition train_from_index (d : dcoll) (i : Z) : res (Z * list (string * src_data)) :=
  let* tid := py_index (dc_tids d) i in
  train_from_id d tid.

(** ** Missing data, reader.py 332-350 *)
Fixpoint anyM {A} (f : A -> res bool) (l : list A) : res bool :=
  match l with
  | [] => Ok false
  | x :: r => let* b := f x in if b then Ok true else anyM f r
  end.

Definition inst_missing (d : dcoll) (tid : Z) (source : string) : res bool :=
  match find_data d source tid with
  | None => Ok true
  | Some (f, pos) =>
      let* ks := keys_for_source d source in
      let groups := fold_left (fun acc k => set_add (key_group k) acc) ks [] in
      anyM (fun g => let* ix := fa_get_index f source g in
                     let* c := nth_res (snd ix) pos in
                     Ok (c =? 0)%Z) groups
  end.

Definition check_data_missing (d : dcoll) (tid : Z) : res bool :=
  if existsb (fun s => match find_data d s tid with None => true | Some _ => false end) (dc_ctrl d)
  then Ok true
  else anyM (inst_missing d tid) (dc_inst d).

(** ** TrainIterator, reader.py 1230-1297 *)

(** [_datasets_cache]: {(source, key): (file, dataset)}. *)
Definition it_cache := list (string * string * (faccess * dataset)).

Fixpoint it_lookup (s k : string) (c : it_cache) : option (faccess * dataset) :=
  match c with
  | [] => None
  | (s', k', v) :: r => if String.eqb s s' && String.eqb k k' then Some v else it_lookup s k r
  end.

(** reader.py 1241-1260.  Returns the file, position and dataset, and the new
    cache.  (A newer binding shadows the older one.) *)
Definition it_find (d : dcoll) (c : it_cache) (source key : string) (tid : Z)
  : res (option (faccess * nat * dataset)) * it_cache :=
  let fallback :=
    let section := if str_in source (dc_ctrl d) then "CONTROL" else "INSTRUMENT" in
    match find_data d source tid with
    | None => (Ok None, c)
    | Some (f, pos) =>
        match fa_dataset f (ds_path section source key) with
        | Ok ds => (Ok (Some (f, pos, ds)), (source, key, (f, ds)) :: c)
        | Err e => (Err e, c)
        end
    end in
  match it_lookup source key c with
  | Some (f, ds) =>
      match tid_positions f tid with
      | p :: _ => (Ok (Some (f, p, ds)), c)
      | [] => fallback
      end
  | None => fallback
  end.

(** reader.py 1268-1272 / 1278-1288: value of one key, given what was found. *)
Definition it_ctrl_val (o : option (faccess * nat * dataset)) : res (option tval) :=
  match o with
  | None => Ok None
  | Some (_, pos, ds) => let* v := ds_at ds (Z.of_nat pos) in Ok (Some (One v))
  end.
Definition it_inst_val (source key : string) (o : option (faccess * nat * dataset))
  : res (option tval) :=
  match o with
  | None => Ok None
  | Some (f, pos, ds) =>
      let* ix := fa_get_index f source (key_group key) in
      let* first := nth_res (fst ix) pos in
      let* count := nth_res (snd ix) pos in
      if (count =? 1)%Z then let* v := ds_at ds first in Ok (Some (One v))
      else Ok (Some (Many (ds_slice ds first (first + count))))
  end.

(** The loop over the keys of a source, threading the cache. *)
Fixpoint it_keys (d : dcoll) (tid : Z) (source : string)
         (val : string -> option (faccess * nat * dataset) -> res (option tval))
         (ks : list string) (c : it_cache) : res (list (string * tval)) * it_cache :=
  match ks with
  | [] => (Ok [], c)
  | k :: r =>
      let '(o, c1) := it_find d c source k tid in
      match bind o (val k) with
      | Err e => (Err e, c1)
      | Ok ov =>
          let '(rest, c2) := it_keys d tid source val r c1 in
          (let* rest := rest in
           Ok (match ov with Some v => (k, v) :: rest | None => rest end), c2)
      end
  end.

Definition it_source (d : dcoll) (tid : Z) (is_ctrl : bool) (source : string) (c : it_cache)
  : res src_data * it_cache :=
  match keys_for_source d source with
  | Err e => (Err e, c)
  | Ok ks =>
      let '(kv, c') := it_keys d tid source
                         (if is_ctrl then fun _ => it_ctrl_val else it_inst_val source) ks c in
      (let* kv := kv in Ok (mk_sd source tid kv), c')
  end.

Fixpoint it_sources (d : dcoll) (tid : Z) (is_ctrl : bool) (ss : list string) (c : it_cache)
  : res (list src_data) * it_cache :=
  match ss with
  | [] => (Ok [], c)
  | s :: r =>
      let '(o, c1) := it_source d tid is_ctrl s c in
      match o with
      | Err e => (Err e, c1)
      | Ok sd =>
          let '(rest, c2) := it_sources d tid is_ctrl r c1 in
          (let* rest := rest in Ok (sd :: rest), c2)
      end
  end.

(** reader.py 1262-1290. *)
Definition assemble_data (d : dcoll) (tid : Z) (c : it_cache)
  : res (list (string * src_data)) * it_cache :=
  let '(rc, c1) := it_sources d tid true (dc_ctrl d) c in
  match rc with
  | Err e => (Err e, c1)
  | Ok lc =>
      let '(ri, c2) := it_sources d tid false (dc_inst d) c1 in
      (let* li := ri in
       Ok (fold_left (fun acc sd => dict_set (sd_source sd) sd acc) (lc ++ li) []), c2)
  end.

(** reader.py 1292-1297: the items yielded; an exception ends the iteration. *)
Fixpoint it_loop (d : dcoll) (require_all : bool) (tids : list Z) (c : it_cache)
  : list (res (Z * list (string * src_data))) :=
  match tids with
  | [] => []
  | t :: r =>
      match (if require_all then check_data_missing d t else Ok false) with
      | Err e => [Err e]
      | Ok true => it_loop d require_all r c
      | Ok false =>
          let '(o, c') := assemble_data d t c in
          match o with
          | Err e => [Err e]
          | Ok x => Ok (t, x) :: it_loop d require_all r c'
          end
      end
  end.
Definition trains (d : dcoll) (require_all : bool) : list (res (Z * list (string * src_data))) :=
  it_loop d require_all (dc_tids d) [].

(** ** Chunks and arrays *)

(** read_machinery.py 90-116: DataChunk. *)
Record chunk := mk_chunk {
  ch_file : faccess; ch_first : Z; ch_tids : list Z; ch_counts : list Z }.

(** read_machinery.py 105-116: [DataChunk.dataset]. *)
Definition ch_dataset (source key : string) (c : chunk) : res dataset :=
  if str_in source (fa_inst (ch_file c)) then fa_dataset (ch_file c) (ds_path "INSTRUMENT" source key)
  else if str_in source (fa_ctrl (ch_file c)) then fa_dataset (ch_file c) (ds_path "CONTROL" source key)
  else Err ESourceNameError.

(** numpy basic slice [l[a:b]] of an array by positions. *)
Definition nslice {A} (l : list A) (a b : nat) : list A := firstn (b - a) (skipn a l).

(** reader.py 1011-1033: chunks of one file. *)
Definition file_chunks (sel_tids : list Z) (source group : string) (f : faccess) : res (list chunk) :=
  let* ix := fa_get_index f source group in
  let '(firsts, counts) := ix in
  let selected := np_isin (fa_tids f) sel_tids in
  let* regions := contiguous_regions selected in
  match regions with
  | [] => Ok [mk_chunk f 0 [] []]
  | _ => mapM (fun ft =>
            let '(from, to) := ft in
            let* first := nth_res firsts from in
            Ok (mk_chunk f first (nslice (fa_tids f) from to) (nslice counts from to))) regions
  end.

(** reader.py 1001-1033: [_find_data_chunks]. *)
Definition find_data_chunks (d : dcoll) (source key : string) : res (list chunk) :=
  let group := if str_in source (dc_inst d) then key_group key else "" in
  let* l := mapM (file_chunks (dc_tids d) source group) (source_files (dc_files d) source) in
  Ok (List.concat l).

(** reader.py 661-664, 738-741: chunks in order of their first train ID. *)
Definition chunk_key (c : chunk) : Z := match ch_tids c with t :: _ => t | [] => 0%Z end.
Definition sorted_chunks (d : dcoll) (source key : string) : res (list chunk) :=
  let* l := find_data_chunks d source key in Ok (sort_key chunk_key l).

(** reader.py 997-999: [_expand_trainids]. *)
Definition expand_trainids (counts tids : list Z) : list Z :=
  let n := Nat.min (List.length counts) (List.length tids) in
  np_repeat (firstn n tids) (firstn n counts).

(** Labelled array: dtype, shape[1:], trainId labels and rows. *)
Record larray := mk_la {
  la_dtype : string; la_item : list Z; la_labels : list Z; la_rows : list V }.

Definition zlist_eqb (a b : list Z) : bool := if list_eq_dec Z.eq_dec a b then true else false.

(** reader.py 669-683, 686, 690: all chunks must agree on shape and dtype; no
    chunk at all makes [shapes.pop()] raise KeyError. *)
Definition common_type (l : list dataset) : res (string * list Z) :=
  match l with
  | [] => Err EKeyError
  | x :: r =>
      if negb (forallb (fun y => zlist_eqb (ds_item x) (ds_item y)) r) then Err EException
      else if negb (forallb (fun y => String.eqb (ds_dtype x) (ds_dtype y)) r) then Err EException
      else Ok (ds_dtype x, ds_item x)
  end.

(** reader.py 693-702: labels and rows of one chunk.  h5py's [read_direct] broadcasts: if the slice,
    which may reach beyond the dataset, gives a single row, this row is put in all places; any other
    wrong number of rows makes it fail. *)
Definition read_chunk (source key : string) (c : chunk) : res (list Z * list V) :=
  let n := zsum (ch_counts c) in
  if (n =? 0)%Z then Ok ([], []) else
  let* ds := ch_dataset source key c in
  let rows := ds_slice ds (ch_first c) (ch_first c + n) in
  let labels := expand_trainids (ch_counts c) (ch_tids c) in
  if (Z.of_nat (List.length rows) =? n)%Z then Ok (labels, rows)
  else match rows with
       | [r] => Ok (labels, repeat r (Z.to_nat n))
       | _ => Err ETypeError
       end.

(** reader.py 620-714: [get_array] with the default roi.  The labels are
    attached only if there is at least one row; here an empty list stands for
    both cases.  A different number of labels and rows is refused by xarray
    (ValueError). *)
Definition get_array (d : dcoll) (source key : string) : res larray :=
  let* _ := check_field d source key in
  let* chunks := sorted_chunks d source key in
  let* dss := mapM (ch_dataset source key) chunks in
  let* ty := common_type dss in
  let* parts := mapM (read_chunk source key) chunks in
  let labels := flat_map fst parts in
  let rows := flat_map snd parts in
  if Nat.eqb (List.length labels) (List.length rows)
  then Ok (mk_la (fst ty) (snd ty) labels rows)
  else Err EValueError.

End Reader.
Arguments dcoll V : clear implicits.
Arguments src_data V : clear implicits.
Arguments tval V : clear implicits.
Arguments chunk V : clear implicits.
Arguments larray V : clear implicits.
Arguments it_cache V : clear implicits.
