(** Model of the multi-module detector interface, /repo/karabo_data/components.py. *)
From Verif Require Import Base PyStr M_Files M_Machinery M_Reader M_Glob M_Select M_Series M_Stacking.
Set Implicit Arguments.
Local Open Scope string_scope.
Local Open Scope list_scope.

(** components.py 14. *)
Definition MAX_PULSES : Z := 2700.

(** ** Pulse selections *)
(** The value given to by_id[...] or by_index[...]: a slice of integers or None, a slice with anything else, an
    integer, or a list (or array) of integers. *)
Inductive pulse_val :=
| PvSlice (start stop step : option Z)
| PvSliceOther
| PvInt (z : Z)
| PvList (l : list Z).
Inductive pulse_arg := PulsesById (v : pulse_val) | PulsesByIndex (v : pulse_val) | PulsesOther.

(** The normalised selection: [ps_by_id] distinguishes by_id from by_index. *)
Inductive psel_val := PSlice (start stop step : Z) | PList (l : list Z).
Record psel := mk_psel { ps_by_id : bool; ps_val : psel_val }.

(** components.py 47-70.  Lists and integers are converted to uint64, so negative numbers wrap around and the check
    for negative values in lines 71-75 never fires (numpy before 2; newer versions raise OverflowError). *)
Definition check_pulse_val (v : pulse_val) : res psel_val :=
  match v with
  | PvSlice start stop step =>
      let start := match start with Some z => z | None => 0%Z end in
      let stop := match stop with Some z => z | None => MAX_PULSES end in
      let step := match step with Some z => z | None => 1%Z end in
      if (step <? 1)%Z then Err EValueError
      else if ((start <? 0) || (stop <? 0))%Z then Err ENotImplementedError
      else Ok (PSlice start stop step)
  | PvSliceOther => Err ETypeError
  | PvInt z => Ok (PList [u64 z])
  | PvList l => Ok (PList (List.map u64 l))
  end.
(** components.py 43-77: [_check_pulse_selection]. *)
Definition check_pulse_selection (a : pulse_arg) : res psel :=
  match a with
  | PulsesById v => let* p := check_pulse_val v in Ok (mk_psel true p)
  | PulsesByIndex v => let* p := check_pulse_val v in Ok (mk_psel false p)
  | PulsesOther => Err ETypeError
  end.

(** components.py 191, 209: [pulses.value == slice(0, MAX_PULSES, 1)]. *)
Definition is_all (v : psel_val) : bool :=
  match v with PSlice a b s => ((a =? 0) && (b =? MAX_PULSES) && (s =? 1))%Z | PList _ => false end.
(** components.py 195-198, 213-216: the numbers asked for. *)
Definition desired (v : psel_val) : list Z :=
  match v with PSlice a b s => py_range a b s | PList l => l end.

(** The positions of rows to keep: a slice or an array. *)
Inductive positions := PosSlice (start stop step : Z) | PosList (l : list Z).

(** components.py 184-200: [_select_pulse_ids]. *)
Definition select_pulse_ids (v : psel_val) (data_pulse_ids : list Z) : positions :=
  if is_all v then PosSlice 0 (Z.of_nat (List.length data_pulse_ids)) 1
  else PosList (List.map Z.of_nat (nonzero (np_isin data_pulse_ids (desired v)))).
(** components.py 202-223: [_select_pulse_indices].  The code computes in uint64; adding the start of the chunk again
    (line 277), and using the number as an index (lines 262-263) undo a wrap-around, so integers are used here. *)
Definition select_pulse_indices (v : psel_val) (firsts counts : list Z) : positions :=
  if is_all v then PosSlice 0 (zsum counts) 1
  else PosList (flat_map (fun fc => List.map (Z.add (fst fc)) (filter (fun i => i <? snd fc)%Z (desired v)))
                         (combine firsts counts)).

(** numpy [l[positions]]. *)
Definition take_positions {A} (l : list A) (p : positions) : res (list A) :=
  match p with
  | PosSlice a b s => py_slice l (mk_slice (Some a) (Some b) (Some s))
  | PosList ix => mapM (py_index l) ix
  end.

(** h5py [ds[list]]: TypeError unless the list is increasing, ValueError if a position is outside. *)
Fixpoint increasing (l : list Z) : bool :=
  match l with
  | x :: ((y :: _) as r) => (x <? y)%Z && increasing r
  | _ => true
  end.
Definition h5_rows {A} (rows : list A) (ix : list Z) : res (list A) :=
  if negb (increasing ix) then Err ETypeError
  else mapM (fun i => if (0 <=? i)%Z then
                        match nth_error rows (Z.to_nat i) with Some v => Ok v | None => Err EValueError end
                      else Err EValueError) ix.

(** components.py 122-124: runs of consecutive train IDs; [np.split] of an empty array is one empty part. *)
Fixpoint split_chunks (l : list Z) : list (list Z) :=
  match l with
  | [] => [[]]
  | t :: r =>
      match r with
      | [] => [[t]]
      | t' :: _ =>
          match split_chunks r with
          | c :: cs => if (t' - t =? 1)%Z then (t :: c) :: cs else [t] :: c :: cs
          | [] => [[t]]
          end
      end
  end.

Fixpoint pairs_unique (l : list (Z * Z)) : bool :=
  match l with
  | [] => true
  | x :: r => negb (existsb (fun y => ((fst y =? fst x) && (snd y =? snd x))%Z) r) && pairs_unique r
  end.

(** ** Source names (ASCII names without line breaks) *)
(** components.py 146, 149: [re.escape(name) + r'/DET/(\d+)CH'] matched at the start of a source name. *)
Definition module_of (name source : string) : option Z :=
  match strip_prefix name source with Some r => match_module r | None => None end.

(** components.py 541, 562, 583: [(?P<detname>(.+)_TAG(.* ))/DET/(\d+)CH] matched at the start of a source name; group 1.
    Both repetitions are greedy, so it is the longest prefix, in front of a place where /DET/(\d+)CH matches, which
    has [tag] (such as _AGIPD1M) somewhere after its first character. *)
Fixpoint contains (tag s : string) : bool :=
  starts_with tag s || match s with EmptyString => false | String _ r => contains tag r end.
Definition detname_ok (tag p : string) : bool :=
  match p with EmptyString => false | String _ r => contains tag r end.
Fixpoint detname_upto (tag source : string) (n : nat) : option string :=
  let p := substring 0 n source in
  let r := substring n (String.length source - n) source in
  if detname_ok tag p && (match match_module r with Some _ => true | None => false end) then Some p
  else match n with O => None | S n => detname_upto tag source n end.
Definition match_detname (tag source : string) : option string :=
  detname_upto tag source (String.length source).

Section Comp.
Context {V : Type}.
Notation faccess := (faccess V).
Notation dcoll := (dcoll V).
Notation dataset := (dataset V).
(** [first v] is the entry of a row which is an array of one element ([data[:, 0]]); [pulse v] the number in a row of
    the pulseId dataset.  [h5_empty] says whether h5py can select an empty list of rows
    (https://github.com/h5py/h5py/issues/1169, components.py 278-280). *)
Context (first : V -> V) (pulse : V -> Z) (h5_empty : bool).

(** A labelled array with train and pulse axes: the shape of a frame, and the frames present with train ID and pulse
    ID, in the order they were read.  (unstack gives a grid of trains and pulses, both sorted, with NaN where there is
    no frame; the grid is determined by the frames.) *)
Record arr := mk_arr { ar_item : list Z; ar_frames : list (Z * Z * V) }.

(** components.py 17-40: [_guess_axes].  [item] is data.shape[1:]. *)
Definition guess_axes (item : list Z) (data : list V) (labels : list (Z * Z)) : res arr :=
  let '(item, data) := match item with
                       | 1%Z :: r => (r, List.map first data)
                       | _ => (item, data)
                       end in
  match item with
  | [] | [_; _] | [_; _; _] =>
      if negb (Nat.eqb (List.length labels) (List.length data)) then Err EValueError
      else if negb (pairs_unique labels) then Err EValueError
      else Ok (mk_arr item (combine labels data))
  | _ => Err EValueError
  end.

(** components.py 248-256, 423-428: rows [a, b) of the pulseId dataset, with a spurious dimension removed; with more
    dimensions building the MultiIndex fails (ValueError). *)
Definition read_pulse_ids (f : faccess) (source group : string) (a b : Z) : res (list Z) :=
  let* pds := fa_dataset f ("INSTRUMENT/" ++ source ++ "/" ++ group ++ "/pulseId")%string in
  match ds_item pds with
  | [] | [1%Z] => Ok (List.map pulse (ds_slice pds a b))
  | _ => Err EValueError
  end.

(** np.repeat(np.arange(a, b + 1), counts): the lengths must agree, except that a single count is used for all. *)
Definition repeat_range (a b : Z) (counts : list Z) : res (list Z) :=
  let ts := py_range a (b + 1) 1 in
  if Nat.eqb (List.length ts) (List.length counts) then Ok (np_repeat ts counts)
  else match counts with
       | [c] => Ok (np_repeat ts (repeat c (List.length ts)))
       | _ => Err EValueError
       end.

(** components.py 265-282: labels and data at the positions chosen. [start] is the first row of the chunk. *)
Definition data_at (ds : dataset) (start : Z) (p : positions) (empty_ok : bool) : res (list V) :=
  match p with
  | PosSlice a b s => py_slice (ds_rows ds) (mk_slice (Some (start + a)%Z) (Some (start + b)%Z) (Some s))
  | PosList l =>
      match l with
      | [] => if empty_ok then Ok [] else Err EValueError
      | _ => h5_rows (ds_rows ds) (List.map (Z.add start) l)
      end
  end.
(** pd.MultiIndex.from_arrays. *)
Definition multi_index (tids pids : list Z) : res (list (Z * Z)) :=
  if Nat.eqb (List.length tids) (List.length pids) then Ok (combine tids pids) else Err EValueError.

(** components.py 232-285: one chunk of trains in one file; None if there is no overlap. *)
Definition chunk_part (f : faccess) (source key : string) (ps : psel) (firsts counts : list Z)
           (chunk_tids : list Z) : res (option arr) :=
  let* c0 := py_index chunk_tids 0 in
  let* c1 := py_index chunk_tids (-1) in
  let* f0 := py_index (fa_tids f) 0 in
  let* f1 := py_index (fa_tids f) (-1) in
  if ((c1 <? f0) || (f1 <? c0))%Z then Ok None else
  let first_tid := Z.max c0 f0 in
  let last_tid := Z.min c1 f1 in
  let* fi := nth_res (tid_positions f first_tid) 0 in
  let* li := nth_res (tid_positions f last_tid) 0 in
  let chunk_firsts := nslice firsts fi (li + 1) in
  let chunk_counts := nslice counts fi (li + 1) in
  let* start := py_index chunk_firsts 0 in
  let* lf := py_index chunk_firsts (-1) in
  let* lc := py_index chunk_counts (-1) in
  let stop := (lf + lc)%Z in
  let* trainids := repeat_range first_tid last_tid chunk_counts in
  let* pulse_id := read_pulse_ids f source (key_group key) start stop in
  let pos := if ps_by_id ps then select_pulse_ids (ps_val ps) pulse_id
             else select_pulse_indices (ps_val ps) (List.map (fun x => (x - start)%Z) chunk_firsts) chunk_counts in
  let* tids := take_positions trainids pos in
  let* pids := take_positions pulse_id pos in
  let* labels := multi_index tids pids in
  let* ds := fa_dataset f (ds_path "INSTRUMENT" source key) in
  let* data := data_at ds start pos true in
  let* a := guess_axes (ds_item ds) data labels in
  Ok (Some a).

(** ** The detector object *)
(** components.py 89-124; [mx_modules] is [source_to_modno], the data counts are the trains with enough modules. *)
Record mpx := mk_mpx {
  mx_name : string;
  mx_data : dcoll;
  mx_modules : list (string * Z);
  mx_fpt : Z
}.
Definition mx_train_ids (m : mpx) : list Z := dc_tids (mx_data m).
Definition mx_chunks (m : mpx) : list (list Z) := split_chunks (mx_train_ids m).

(** components.py 225-287: the arrays of the files and chunks, in order. *)
Definition file_parts (m : mpx) (source key : string) (ps : psel) (f : faccess) : res (list arr) :=
  let* ix := fa_get_index f source (key_group key) in
  let* l := mapM (chunk_part f source key ps (fst ix) (snd ix)) (mx_chunks m) in
  Ok (flat_map (fun o => match o with Some a => [a] | None => [] end) l).

Definition frame_train (x : Z * Z * V) : Z := fst (fst x).
(** coords['train'][0]: unstack sorts the train IDs. *)
Definition first_train (a : arr) : Z :=
  match List.map frame_train (ar_frames a) with [] => 0%Z | t :: r => fold_left Z.min r t end.
Definition arr_nonempty (a : arr) : bool :=
  negb (Nat.eqb (List.length (ar_frames a)) 0) && negb (z_in 0 (ar_item a)).

(** components.py 289-303.  xarray.concat along train: the other dimensions must have the same sizes (ValueError;
    arrays with different numbers of dimensions are not modelled separately); pulses are aligned (outer join). *)
Definition concat_trains (l : list arr) : res arr :=
  match filter arr_nonempty l with
  | [] => match l with a :: _ => Ok a | [] => Err EException end
  | a :: r =>
      if forallb (fun b => zlist_eqb (ar_item a) (ar_item b)) r
      then Ok (mk_arr (ar_item a) (flat_map ar_frames (sort_key first_train (a :: r))))
      else Err EValueError
  end.
(** components.py 225-303: [_get_module_pulse_data]. *)
Definition get_module_pulse_data (m : mpx) (source key : string) (ps : psel) : res arr :=
  let* l := mapM (file_parts m source key ps) (source_files (dc_files (mx_data m)) source) in
  concat_trains (List.concat l).

(** components.py 322: sorted(modno_to_source.items()). *)
Definition sorted_modules (m : mpx) : list (string * Z) := sort_key snd (mx_modules m).

(** The array of all modules: by pulse, or by train.  (The outer join of xarray.concat along module is a grid
    determined by the arrays of the modules.) *)
Inductive det_array := ByPulse (l : list (Z * arr)) | ByTrain (l : list (Z * larray V)).
Definition same_items {A} (item : A -> list Z) (l : list A) : bool :=
  match l with [] => true | a :: r => forallb (fun b => zlist_eqb (item a) (item b)) r end.

(** components.py 305-331: [get_array]. *)
Definition det_get_array (m : mpx) (key : string) (pulses : pulse_arg) : res det_array :=
  let* ps := check_pulse_selection pulses in
  if starts_with "image." key then
    let* l := mapM (fun sm => let* a := get_module_pulse_data m (fst sm) key ps in Ok (snd sm, a)) (sorted_modules m) in
    if same_items (fun p => ar_item (snd p)) l then Ok (ByPulse l) else Err EValueError
  else
    let* l := mapM (fun sm => let* a := get_array (mx_data m) (fst sm) key in Ok (snd sm, a)) (sorted_modules m) in
    if same_items (fun p => la_item (snd p)) l then Ok (ByTrain l) else Err EValueError.

(** *** Creating the detector object *)
(** components.py 126-142: [_find_detector_name]. *)
Definition find_detector_name (tag : string) (d : dcoll) : res string :=
  match fold_left (fun acc s => match match_detname tag s with Some n => set_add n acc | None => acc end)
                  (dc_inst d) [] with
  | [] => Err ESourceNameError
  | [n] => Ok n
  | _ => Err EValueError
  end.
(** components.py 144-160: [_identify_sources]. *)
Definition identify_sources (d : dcoll) (name : string) (modules : option (list Z)) : res (list (string * Z)) :=
  let l := flat_map (fun s => match module_of name s with Some n => [(s, n)] | None => [] end) (dc_inst d) in
  let l := match modules with
           | Some ms => filter (fun p => z_in (snd p) ms) l
           | None => l
           end in
  match l with [] => Err ESourceNameError | _ => Ok l end.

(** components.py 100-105: the table of counts: for each train of at least one module, the counts of the modules, 0 if
    missing.  A series with repeated train IDs cannot be aligned (ValueError). *)
Definition ser_count (t : Z) (ser : list (Z * Z)) : Z :=
  match find (fun p => (fst p =? t)%Z) ser with Some p => snd p | None => 0%Z end.
Definition count_table (sers : list (list (Z * Z))) : res (list (Z * list Z)) :=
  if forallb (fun s => z_unique (List.map fst s)) sers
  then Ok (List.map (fun t => (t, List.map (ser_count t) sers)) (zsort_set (flat_map (List.map fst) sers)))
  else Err EValueError.

(** components.py 107-115. *)
Definition frames_per_train (table : list (Z * list Z)) : res Z :=
  match zdedup (filter (fun c => negb (c =? 0)%Z) (flat_map snd table)) with
  | [c] => Ok c
  | _ => Err EValueError
  end.
(** components.py 162-173: [_select_trains]. *)
Definition trains_with_modules (table : list (Z * list Z)) (min_modules : Z) : list Z :=
  List.map fst (filter (fun r => (min_modules <=? Z.of_nat (List.length (filter (fun c => (0 <? c)%Z) (snd r))))%Z) table).
Definition mx_select_trains (d : dcoll) (table : list (Z * list Z)) (min_modules : Z) : res dcoll :=
  match trains_with_modules table min_modules with
  | [] => Err EValueError
  | l => select_trains d (ByIdList l)
  end.

(** components.py 89-124: the constructor. *)
Definition mpx_open (tag : string) (d : dcoll) (name : option string) (modules : option (list Z)) (min_modules : Z)
  : res mpx :=
  let* name := match name with Some n => Ok n | None => find_detector_name tag d end in
  let* srcs := identify_sources d name modules in
  let* data := select d (SelGlobs (List.map (fun p => (fst p, "*")) srcs)) in
  let* sers := mapM (fun p => get_data_counts data (fst p) "image.data") srcs in
  let* table := count_table sers in
  let* fpt := frames_per_train table in
  let* data := mx_select_trains data table min_modules in
  if z_unique (List.map snd srcs) then Ok (mk_mpx name data srcs fpt) else Err EAssertionError.

(** ** MPxDetectorTrainIterator *)
(** components.py 381-399: [_find_data], with the cache of datasets. *)
Definition mpx_find (d : dcoll) (c : it_cache V) (source key : string) (tid : Z)
  : res (option (faccess * nat * dataset)) * it_cache V :=
  let fallback :=
    match find_data d source tid with
    | None => (Ok None, c)
    | Some (f, pos) =>
        match fa_dataset f (ds_path "INSTRUMENT" source key) with
        | Ok ds => (Ok (Some (f, pos, ds)), (source, key, (f, ds)) :: c)
        | Err e => (Err e, c)
        end
    end in
  match it_lookup source key c with
  | Some (f, ds) =>
      match tid_positions f tid with
      | p :: _ => (Ok (Some (f, p, ds)), c)
      | [] => fallback
      end
  | None => fallback
  end.

(** components.py 452-473: positions of the first ID >= start, >= stop. *)
Definition first_ge (x : Z) (l : list Z) : Z :=
  match nonzero (List.map (fun p => (x <=? p)%Z) l) with
  | i :: _ => Z.of_nat i
  | [] => Z.of_nat (List.length l)
  end.
Definition it_select_pulse_ids (v : psel_val) (pulse_ids : list Z) : positions :=
  match v with
  | PSlice a b 1%Z => PosSlice (first_ge a pulse_ids) (first_ge b pulse_ids) 1
  | _ => PosList (List.map Z.of_nat (nonzero (np_isin pulse_ids (desired v))))
  end.
(** components.py 475-485. *)
Definition it_select_pulse_indices (v : psel_val) (count : Z) : positions :=
  match v with
  | PSlice a b s => PosSlice a (Z.min b count) s
  | PList l => PosList (filter (fun i => i <? count)%Z l)
  end.

(** components.py 414-450: [_get_pulse_data]. *)
Definition it_pulse_val (ps : psel) (source key : string) (tid : Z) (o : option (faccess * nat * dataset))
  : res (option arr) :=
  match o with
  | None => Ok None
  | Some (f, pos, ds) =>
      let* ix := fa_get_index f source (key_group key) in
      let* fst_row := nth_res (fst ix) pos in
      let* count := nth_res (snd ix) pos in
      let* pulse_ids := read_pulse_ids f source (key_group key) fst_row (fst_row + count) in
      let p := if ps_by_id ps then it_select_pulse_ids (ps_val ps) pulse_ids
               else it_select_pulse_indices (ps_val ps) count in
      let* pids := take_positions pulse_ids p in
      let labels := List.map (pair tid) pids in
      let* data := data_at ds fst_row p h5_empty in
      let* a := guess_axes (ds_item ds) data labels in
      Ok (Some a)
  end.
(** components.py 401-412: [_get_slow_data], with the shape of a row. *)
Inductive det_val := DPulses (a : arr) | DSlow (item : list Z) (v : tval V).
Definition it_slow_val (source key : string) (o : option (faccess * nat * dataset)) : res (option det_val) :=
  let* v := it_inst_val source key o in
  Ok (match v, o with Some v, Some (_, _, ds) => Some (DSlow (ds_item ds) v) | _, _ => None end).

(** One key of one module (components.py 492-502). *)
Definition it_key (d : dcoll) (ps : psel) (tid : Z) (c : it_cache V) (source key : string)
  : res (option det_val) * it_cache V :=
  let '(o, c1) := mpx_find d c source key tid in
  (let* o := o in
   if starts_with "image." key
   then let* a := it_pulse_val ps source key tid o in Ok (match a with Some a => Some (DPulses a) | None => None end)
   else it_slow_val source key o, c1).

(** components.py 487-508: the loops over modules and keys; the entries found, in order. *)
Fixpoint it_entries (d : dcoll) (ps : psel) (tid : Z) (todo : list (Z * string * string)) (c : it_cache V)
  : res (list (string * (Z * det_val))) * it_cache V :=
  match todo with
  | [] => (Ok [], c)
  | (modno, source, key) :: r =>
      let '(o, c1) := it_key d ps tid c source key in
      match o with
      | Err e => (Err e, c1)
      | Ok ov =>
          let '(rest, c2) := it_entries d ps tid r c1 in
          (let* rest := rest in
           Ok (match ov with Some v => (key, (modno, v)) :: rest | None => rest end), c2)
      end
  end.
(** The modules and their keys.  (The code asks for the keys of a module when it gets there; a failure to find the keys
    is raised here before reading anything.) *)
Definition module_keys (m : mpx) : res (list (Z * string * string)) :=
  let* l := mapM (fun sm => let* ks := keys_for_source (mx_data m) (fst sm) in
                            Ok (List.map (fun k => (snd sm, fst sm, k)) ks)) (sorted_modules m) in
  Ok (List.concat l).

(** components.py 504-508: grouping by key. *)
Definition group_add {B} (k : string) (x : B) (g : list (string * list B)) : list (string * list B) :=
  dict_set k (match dict_get k g with Some l => l ++ [x] | None => [x] end) g.
Definition group_keys {B} (l : list (string * B)) : list (string * list B) :=
  fold_left (fun g p => group_add (fst p) (snd p) g) l [].
(** components.py 510-514: xarray.concat needs the same shapes. *)
Definition det_shape (x : Z * det_val) : list Z :=
  match snd x with
  | DPulses a => ar_item a
  | DSlow item (One _) => item
  | DSlow item (Many l) => Z.of_nat (List.length l) :: item
  end.
Definition mpx_assemble (m : mpx) (ps : psel) (tid : Z) (c : it_cache V)
  : res (list (string * list (Z * det_val))) * it_cache V :=
  match module_keys m with
  | Err e => (Err e, c)
  | Ok todo =>
      let '(o, c1) := it_entries (mx_data m) ps tid todo c in
      (let* l := o in
       let g := group_keys l in
       if forallb (fun p => same_items det_shape (snd p)) g then Ok g else Err EValueError, c1)
  end.

(** components.py 516-521: the items yielded; an exception ends the iteration. *)
Fixpoint mpx_loop (m : mpx) (ps : psel) (require_all : bool) (tids : list Z) (c : it_cache V)
  : list (res (Z * list (string * list (Z * det_val)))) :=
  match tids with
  | [] => []
  | t :: r =>
      match (if require_all then check_data_missing (mx_data m) t else Ok false) with
      | Err e => [Err e]
      | Ok true => mpx_loop m ps require_all r c
      | Ok false =>
          let '(o, c') := mpx_assemble m ps t c in
          match o with
          | Err e => [Err e]
          | Ok x => Ok (t, x) :: mpx_loop m ps require_all r c'
          end
      end
  end.
(** components.py 333-351: [trains]; require_all is always true. *)
Definition det_trains (m : mpx) (pulses : pulse_arg) : res (list (res (Z * list (string * list (Z * det_val))))) :=
  let* ps := check_pulse_selection pulses in
  Ok (mpx_loop m ps true (mx_train_ids m) []).
End Comp.
Arguments mpx V : clear implicits.
Arguments arr V : clear implicits.
Arguments det_val V : clear implicits.
Arguments det_array V : clear implicits.
