(** Model of the open file handles of FileAccess objects (reader.py 76, 96-105, 279-293), of the dataset objects which
    TrainIterator keeps (reader.py 1230-1297) and which dask arrays hold (reader.py 716-765), and of reading through them.

    Every FileAccess object is known by its file name: one object per file (the collections considered come from one
    opening of each file, by selecting and joining).  h5py: File.close() makes the dataset objects opened through that
    handle unusable (ValueError), and only these; a file which was removed can still be read through an open handle, but
    not be opened again (OSError).  Otherwise files do not change. *)
From Verif Require Import Base PyStr M_Files M_Machinery M_Reader M_Series.
Set Implicit Arguments.
Local Open Scope string_scope.
Local Open Scope list_scope.

Section Handles.
Context {V : Type}.
Notation dataset := (dataset V).
Notation faccess := (faccess V).
Notation dcoll := (dcoll V).
Notation src_data := (src_data V).
Notation tval := (tval V).

(** Open handles by file name; handles are numbered in the order of opening and never reused.  [h_there]: the file can
    be opened.  [h_caches]: the index and keys caches of the objects (reader.py 91-94). *)
Record hst := mk_hst { h_open : string -> option nat; h_next : nat; h_there : string -> bool; h_caches : string -> fa_cache }.
Definition fname (f : faccess) : string := h5_name (fa_file f).
Definition upd {A} (m : string -> A) (n : string) (a : A) : string -> A := fun x => if String.eqb x n then a else m x.

Definition hm (A : Type) := hst -> res A * hst.
Definition hret {A} (r : res A) : hm A := fun st => (r, st).
Definition hbind {A B} (m : hm A) (k : A -> hm B) : hm B :=
  fun st => match m st with (Ok a, st') => k a st' | (Err e, st') => (Err e, st') end.

(** reader.py 96-100: the [file] property. *)
Definition file_h (f : faccess) : hm nat := fun st =>
  match h_open st (fname f) with
  | Some h => (Ok h, st)
  | None =>
      if h_there st (fname f)
      then (Ok (h_next st), mk_hst (upd (h_open st) (fname f) (Some (h_next st))) (S (h_next st)) (h_there st) (h_caches st))
      else (Err EOSError, st)
  end.
(** reader.py 102-105. *)
Definition close_h (f : faccess) (st : hst) : hst := mk_hst (upd (h_open st) (fname f) None) (h_next st) (h_there st) (h_caches st).

(** A dataset object: the file and handle through which it was opened, and what it stands for. *)
Record dsobj := mk_dso { do_name : string; do_handle : nat; do_ds : dataset }.
(** [f.file[path]]. *)
Definition dataset_h (f : faccess) (path : string) : hm dsobj :=
  hbind (file_h f) (fun h => hret (let* ds := fa_dataset f path in Ok (mk_dso (fname f) h ds))).
(** Using a dataset object: it must belong to an open handle. *)
Definition valid_obj (st : hst) (o : dsobj) : bool := match h_open st (do_name o) with Some h => Nat.eqb h (do_handle o) | None => false end.
Definition use_h {A} (o : dsobj) (g : dataset -> res A) : hm A :=
  fun st => if valid_obj st o then (g (do_ds o), st) else (Err EValueError, st).

(** reader.py 160-212, through the handle. *)
Definition get_index_h (f : faccess) (s g : string) : hm (list Z * list Z) := fun st =>
  match cache_ix_get s g (c_index (h_caches st (fname f))) with
  | Some v => (Ok v, st)
  | None =>
      hbind (file_h f) (fun _ st1 =>
        let '(r, c) := get_index_c f (h_caches st1 (fname f)) s g in
        (r, mk_hst (h_open st1) (h_next st1) (h_there st1) (upd (h_caches st1) (fname f) c))) st
  end.
Definition get_keys_h (f : faccess) (s : string) : hm (list string) := fun st =>
  match dict_get s (c_keys (h_caches st (fname f))) with
  | Some v => (Ok v, st)
  | None =>
      if negb (str_in s (fa_ctrl f)) && negb (str_in s (fa_inst f)) then (Err ESourceNameError, st) else
      hbind (file_h f) (fun _ st1 =>
        let '(r, c) := get_keys_c f (h_caches st1 (fname f)) s in
        (r, mk_hst (h_open st1) (h_next st1) (h_there st1) (upd (h_caches st1) (fname f) c))) st
  end.

(** The functions of M_Reader, reading through handles: same lines of reader.py. *)
Fixpoint mapH {A B} (f : A -> hm B) (l : list A) : hm (list B) :=
  match l with [] => hret (Ok []) | x :: r => hbind (f x) (fun y => hbind (mapH f r) (fun ys => hret (Ok (y :: ys)))) end.
Definition keys_for_source_h (d : dcoll) (source : string) : hm (list string) :=
  match dict_get source (dc_sel d) with
  | None => hret (Err EKeyError)
  | Some (Some ks) => hret (Ok ks)
  | Some None => match source_files (dc_files d) source with [] => hret (Err ETypeError) | f :: _ => get_keys_h f source end
  end.
Definition check_field_h (d : dcoll) (source key : string) : hm unit :=
  if negb (str_in source (dc_sources d)) then hret (Err ESourceNameError) else
  hbind (keys_for_source_h d source) (fun ks => hret (if str_in key ks then Ok tt else Err EPropertyNameError)).

(** reader.py 433-435, 445-456. *)
Definition ctrl_key_h (f : faccess) (pos : nat) (source key : string) : hm (option tval) :=
  hbind (dataset_h f (ds_path "CONTROL" source key)) (fun o =>
    use_h o (fun ds => let* v := ds_at ds (Z.of_nat pos) in Ok (Some (One v)))).
Definition inst_key_h (f : faccess) (pos : nat) (source key : string) : hm (option tval) :=
  hbind (get_index_h f source (key_group key)) (fun ix =>
  hbind (hret (let* first := nth_res (fst ix) pos in let* count := nth_res (snd ix) pos in Ok (first, count))) (fun fc =>
  if (snd fc =? 0)%Z then hret (Ok None) else
  hbind (dataset_h f (ds_path "INSTRUMENT" source key)) (fun o =>
    use_h o (fun ds => if (snd fc =? 1)%Z then let* v := ds_at ds (fst fc) in Ok (Some (One v))
                       else Ok (Some (Many (ds_slice ds (fst fc) (fst fc + snd fc)))))))).
Fixpoint collect_h (f : string -> hm (option tval)) (ks : list string) : hm (list (string * tval)) :=
  match ks with
  | [] => hret (Ok [])
  | k :: r => hbind (f k) (fun o => hbind (collect_h f r) (fun rest => hret (Ok (match o with Some v => (k, v) :: rest | None => rest end))))
  end.
(** reader.py 425-456. *)
Definition source_data_h (one : faccess -> nat -> string -> string -> hm (option tval)) (d : dcoll) (tid : Z) (source : string) : hm src_data :=
  match find_data d source tid with
  | None => hret (Ok (mk_sd source tid []))
  | Some (f, pos) =>
      hbind (keys_for_source_h d source) (fun ks => hbind (collect_h (one f pos source) ks) (fun kv => hret (Ok (mk_sd source tid kv))))
  end.
(** reader.py 393-458. *)
Definition train_from_id_h (d : dcoll) (tid : Z) : hm (Z * list (string * src_data)) :=
  if negb (z_in tid (dc_tids d)) then hret (Err ETrainIDError) else
  hbind (mapH (source_data_h ctrl_key_h d tid) (dc_ctrl d)) (fun c =>
  hbind (mapH (source_data_h inst_key_h d tid) (dc_inst d)) (fun i =>
  hret (Ok (tid, fold_left (fun acc sd => dict_set (sd_source sd) sd acc) (c ++ i) [])))).

(** read_machinery.py 105-116: the dataset of a chunk is opened anew each time. *)
Definition ch_dataset_h (source key : string) (c : chunk V) : hm dsobj :=
  if str_in source (fa_inst (ch_file c)) then dataset_h (ch_file c) (ds_path "INSTRUMENT" source key)
  else if str_in source (fa_ctrl (ch_file c)) then dataset_h (ch_file c) (ds_path "CONTROL" source key)
  else hret (Err ESourceNameError).
(** reader.py 1011-1033. *)
Definition file_chunks_h (sel_tids : list Z) (source group : string) (f : faccess) : hm (list (chunk V)) :=
  hbind (get_index_h f source group) (fun ix => hret (
    let '(firsts, counts) := ix in
    let* regions := contiguous_regions (np_isin (fa_tids f) sel_tids) in
    match regions with
    | [] => Ok [mk_chunk f 0 [] []]
    | _ => mapM (fun ft => let '(from, to) := ft in let* first := nth_res firsts from in
                           Ok (mk_chunk f first (nslice (fa_tids f) from to) (nslice counts from to))) regions
    end)).
Definition sorted_chunks_h (d : dcoll) (source key : string) : hm (list (chunk V)) :=
  let group := if str_in source (dc_inst d) then key_group key else "" in
  hbind (mapH (file_chunks_h (dc_tids d) source group) (source_files (dc_files d) source)) (fun l =>
  hret (Ok (sort_key (@chunk_key V) (List.concat l)))).
(** reader.py 693-702. *)
Definition read_chunk_h (source key : string) (c : chunk V) : hm (list Z * list V) :=
  let n := zsum (ch_counts c) in
  if (n =? 0)%Z then hret (Ok ([], [])) else
  hbind (ch_dataset_h source key c) (fun o => use_h o (fun ds =>
    let rows := ds_slice ds (ch_first c) (ch_first c + n) in
    let labels := expand_trainids (ch_counts c) (ch_tids c) in
    if (Z.of_nat (List.length rows) =? n)%Z then Ok (labels, rows)
    else match rows with [r] => Ok (labels, repeat r (Z.to_nat n)) | _ => Err ETypeError end)).
(** reader.py 620-714. *)
Definition get_array_h (d : dcoll) (source key : string) : hm (larray V) :=
  hbind (check_field_h d source key) (fun _ =>
  hbind (sorted_chunks_h d source key) (fun chunks =>
  hbind (mapH (fun c => hbind (ch_dataset_h source key c) (fun o => use_h o (fun ds => Ok ds))) chunks) (fun dss =>
  hbind (hret (common_type dss)) (fun ty =>
  hbind (mapH (read_chunk_h source key) chunks) (fun parts =>
  hret (let labels := flat_map fst parts in
        let rows := flat_map snd parts in
        if Nat.eqb (List.length labels) (List.length rows) then Ok (mk_la (fst ty) (snd ty) labels rows) else Err EValueError)))))).

(** ** Lazy arrays: what get_dask_array returns holds dataset objects; computing it reads them. *)
Record lazy_part := mk_lp { lp_obj : dsobj; lp_first : Z; lp_rows : Z }.
Definition dask_chunk_h (itemsize : string -> Z) (source key : string) (c : chunk V) : hm lazy_part :=
  hbind (ch_dataset_h source key c) (fun o => use_h o (fun ds =>
    let n := zsum (ch_counts c) in
    let* b := dask_block (dask_fuel n) (ds_item ds) (itemsize (ds_dtype ds)) n in
    if ((b =? 0) && negb (Z.of_nat (List.length (ds_rows ds)) =? 0))%Z then Err ERuntimeError else
    Ok (mk_lp o (ch_first c) n))).
Definition get_dask_h (itemsize : string -> Z) (d : dcoll) (source key : string) : hm (list lazy_part) :=
  hbind (sorted_chunks_h d source key) (fun chunks =>
  hbind (mapH (dask_chunk_h itemsize source key) chunks) (fun parts =>
  hret (match parts with
        | [] => Err EValueError
        | p :: r => if forallb (fun q => zlist_eqb (ds_item (do_ds (lp_obj p))) (ds_item (do_ds (lp_obj q)))) r then Ok parts else Err EValueError
        end))).
Definition compute_h (parts : list lazy_part) : hm (list V) :=
  hbind (mapH (fun p => use_h (lp_obj p) (fun ds => Ok (ds_slice ds (lp_first p) (lp_first p + lp_rows p)))) parts) (fun l => hret (Ok (List.concat l))).

(** ** TrainIterator (reader.py 1230-1297) with the dataset objects it keeps. *)
Definition hcache := list (string * string * (faccess * dsobj)).
Definition im (A : Type) := hcache -> hst -> res A * hcache * hst.
Definition iret {A} (r : res A) : im A := fun c st => (r, c, st).
Definition ibind {A B} (m : im A) (k : A -> im B) : im B :=
  fun c st => match m c st with (Ok a, c', st') => k a c' st' | (Err e, c', st') => (Err e, c', st') end.
Definition ilift {A} (m : hm A) : im A := fun c st => let '(r, st') := m st in (r, c, st').
Fixpoint hlookup (s k : string) (c : hcache) : option (faccess * dsobj) :=
  match c with
  | [] => None
  | (s', k', v) :: r => if String.eqb s s' && String.eqb k k' then Some v else hlookup s k r
  end.
Definition it_find_h (d : dcoll) (source key : string) (tid : Z) : im (option (faccess * nat * dsobj)) := fun c st =>
  let fallback :=
    let section := if str_in source (dc_ctrl d) then "CONTROL" else "INSTRUMENT" in
    match find_data d source tid with
    | None => (Ok None, c, st)
    | Some (f, pos) =>
        match dataset_h f (ds_path section source key) st with
        | (Ok o, st') => (Ok (Some (f, pos, o)), (source, key, (f, o)) :: c, st')
        | (Err e, st') => (Err e, c, st')
        end
    end in
  match hlookup source key c with
  | Some (f, o) => match tid_positions f tid with p :: _ => (Ok (Some (f, p, o)), c, st) | [] => fallback end
  | None => fallback
  end.
Definition it_val_h (is_ctrl : bool) (source key : string) (x : option (faccess * nat * dsobj)) : hm (option tval) :=
  match x with
  | None => hret (Ok None)
  | Some (f, pos, o) =>
      if is_ctrl then use_h o (fun ds => let* v := ds_at ds (Z.of_nat pos) in Ok (Some (One v)))
      else
        hbind (get_index_h f source (key_group key)) (fun ix =>
        hbind (hret (let* first := nth_res (fst ix) pos in let* count := nth_res (snd ix) pos in Ok (first, count))) (fun fc =>
        use_h o (fun ds => if (snd fc =? 1)%Z then let* v := ds_at ds (fst fc) in Ok (Some (One v))
                           else Ok (Some (Many (ds_slice ds (fst fc) (fst fc + snd fc)))))))
  end.
Fixpoint it_keys_h (d : dcoll) (tid : Z) (is_ctrl : bool) (source : string) (ks : list string) : im (list (string * tval)) :=
  match ks with
  | [] => iret (Ok [])
  | k :: r =>
      ibind (it_find_h d source k tid) (fun x =>
      ibind (ilift (it_val_h is_ctrl source k x)) (fun ov =>
      ibind (it_keys_h d tid is_ctrl source r) (fun rest =>
      iret (Ok (match ov with Some v => (k, v) :: rest | None => rest end)))))
  end.
Definition it_source_h (d : dcoll) (tid : Z) (is_ctrl : bool) (source : string) : im src_data :=
  ibind (ilift (keys_for_source_h d source)) (fun ks =>
  ibind (it_keys_h d tid is_ctrl source ks) (fun kv => iret (Ok (mk_sd source tid kv)))).
Fixpoint it_sources_h (d : dcoll) (tid : Z) (is_ctrl : bool) (ss : list string) : im (list src_data) :=
  match ss with
  | [] => iret (Ok [])
  | s :: r => ibind (it_source_h d tid is_ctrl s) (fun sd => ibind (it_sources_h d tid is_ctrl r) (fun rest => iret (Ok (sd :: rest))))
  end.
Definition assemble_h (d : dcoll) (tid : Z) : im (list (string * src_data)) :=
  ibind (it_sources_h d tid true (dc_ctrl d)) (fun lc =>
  ibind (it_sources_h d tid false (dc_inst d)) (fun li =>
  iret (Ok (fold_left (fun acc sd => dict_set (sd_source sd) sd acc) (lc ++ li) [])))).

(** reader.py 329-350. *)
Fixpoint anyH {A} (f : A -> hm bool) (l : list A) : hm bool :=
  match l with [] => hret (Ok false) | x :: r => hbind (f x) (fun b => if b then hret (Ok true) else anyH f r) end.
Definition inst_missing_h (d : dcoll) (tid : Z) (source : string) : hm bool :=
  match find_data d source tid with
  | None => hret (Ok true)
  | Some (f, pos) =>
      hbind (keys_for_source_h d source) (fun ks =>
        anyH (fun g => hbind (get_index_h f source g) (fun ix => hret (let* c := nth_res (snd ix) pos in Ok (c =? 0)%Z)))
             (fold_left (fun acc k => set_add (key_group k) acc) ks []))
  end.
Definition check_data_missing_h (d : dcoll) (tid : Z) : hm bool :=
  if existsb (fun s => match find_data d s tid with None => true | Some _ => false end) (dc_ctrl d) then hret (Ok true)
  else anyH (inst_missing_h d tid) (dc_inst d).

(** A generator: the trains still to come and the dataset objects it keeps. *)
Record iter := mk_it { it_data : dcoll; it_all : bool; it_left : list Z; it_objs : hcache }.
(** reader.py 1292-1297: next().  None: StopIteration; an exception ends the generator. *)
Fixpoint it_next (d : dcoll) (ra : bool) (tids : list Z) (c : hcache) (st : hst)
  : option (res (Z * list (string * src_data))) * (list Z * hcache) * hst :=
  match tids with
  | [] => (None, ([], c), st)
  | t :: r =>
      match (if ra then check_data_missing_h d t st else (Ok false, st)) with
      | (Err e, st1) => (Some (Err e), ([], c), st1)
      | (Ok true, st1) => it_next d ra r c st1
      | (Ok false, st1) =>
          match assemble_h d t c st1 with
          | (Err e, c', st2) => (Some (Err e), ([], c'), st2)
          | (Ok x, c', st2) => (Some (Ok (t, x)), (r, c'), st2)
          end
      end
  end.

(** ** Histories *)
Inductive event :=
| EvTrain (d : dcoll) (t : Z)                 (* d.train_from_id(t) *)
| EvArray (d : dcoll) (s k : string)          (* d.get_array(s, k) *)
| EvIter (d : dcoll) (ra : bool)              (* a new iterator over d.trains(require_all=ra) *)
| EvNext (i : nat)                            (* next() on the i-th iterator *)
| EvLazy (d : dcoll) (s k : string)           (* a new dask array d.get_dask_array(s, k) *)
| EvCompute (i : nat)                         (* .compute() on the i-th one *)
| EvEnter (d : dcoll) (ctx : bool)            (* with d: ...  [ctx]: ctx_closes *)
| EvExit (d : dcoll) (ctx : bool)
| EvRemove (name : string).                   (* the file is removed from the disk *)
Inductive reply :=
| RTrain (r : res (Z * list (string * src_data)))
| RArray (r : res (larray V))
| RItem (r : option (res (Z * list (string * src_data))))
| RMade (r : res unit)
| RRows (r : res (list V)).
Record world := mk_w { w_h : hst; w_iters : list iter; w_lazy : list (list lazy_part) }.
Fixpoint set_nth {A} (l : list A) (i : nat) (a : A) : list A :=
  match l, i with [], _ => [] | _ :: r, O => a :: r | x :: r, S i => x :: set_nth r i a end.

Definition wstep (itemsize : string -> Z) (w : world) (e : event) : reply * world :=
  let st := w_h w in
  let upd_h st' := mk_w st' (w_iters w) (w_lazy w) in
  match e with
  | EvTrain d t => let '(r, st') := train_from_id_h d t st in (RTrain r, upd_h st')
  | EvArray d s k => let '(r, st') := get_array_h d s k st in (RArray r, upd_h st')
  | EvIter d ra => (RMade (Ok tt), mk_w st (w_iters w ++ [mk_it d ra (dc_tids d) []]) (w_lazy w))
  | EvNext i =>
      match nth_error (w_iters w) i with
      | None => (RMade (Err EIndexError), w)   (* there is no such iterator *)
      | Some it =>
          let '(r, (tids, c), st') := it_next (it_data it) (it_all it) (it_left it) (it_objs it) st in
          (RItem r, mk_w st' (set_nth (w_iters w) i (mk_it (it_data it) (it_all it) tids c)) (w_lazy w))
      end
  | EvLazy d s k =>
      let '(r, st') := get_dask_h itemsize d s k st in
      match r with
      | Ok parts => (RMade (Ok tt), mk_w st' (w_iters w) (w_lazy w ++ [parts]))
      | Err e => (RMade (Err e), upd_h st')
      end
  | EvCompute i =>
      match nth_error (w_lazy w) i with
      | None => (RMade (Err EIndexError), w)   (* there is no such array *)
      | Some parts => let '(r, st') := compute_h parts st in (RRows r, upd_h st')
      end
  | EvEnter d ctx => (RMade (if ctx then Ok tt else Err EException), w)
  | EvExit d ctx => (RMade (Ok tt), upd_h (if ctx then fold_left (fun s f => close_h f s) (dc_files d) st else st))
  | EvRemove n => (RMade (Ok tt), upd_h (mk_hst (h_open st) (h_next st) (upd (h_there st) n false) (h_caches st)))
  end.
(** What happened so far, oldest first, and the state. *)
Fixpoint wrun (itemsize : string -> Z) (w : world) (es : list event) : list (event * reply) * world :=
  match es with
  | [] => ([], w)
  | e :: r => let '(y, w1) := wstep itemsize w e in let '(l, w2) := wrun itemsize w1 r in ((e, y) :: l, w2)
  end.
(** Nothing read yet; some files may be open already (FileAccess reads the train IDs unless they are known). *)
Definition fresh_world (opened there : string -> bool) (numbers : string -> nat) (next : nat) : world :=
  mk_w (mk_hst (fun n => if opened n then Some (numbers n) else None) next there (fun _ => fa_cache0)) [] [].
End Handles.
Arguments event V : clear implicits.
Arguments reply V : clear implicits.
Arguments world V : clear implicits.
Arguments iter V : clear implicits.
