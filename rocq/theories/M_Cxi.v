(** Model of karabo_data/write_cxi.py: VirtualCXIWriter. *)
From Verif Require Import Base PyStr M_Files M_Machinery M_Reader M_Components.
Set Implicit Arguments.
Local Open Scope string_scope.
Local Open Scope list_scope.

(** str() of a non-negative integer, [astype(str)] of an array of uint64, write_cxi.py 168-169. *)
Definition digit_char (z : Z) : ascii := ascii_of_nat (48 + Z.to_nat z).
Fixpoint digits_of (fuel : nat) (z : Z) (acc : string) : string :=
  match fuel with
  | O => acc
  | S fuel => if (z <? 10)%Z then String (digit_char z) acc
              else digits_of fuel (z / 10) (String (digit_char (z mod 10)) acc)
  end.
Definition str_of_int (z : Z) : string := digits_of (S (Z.to_nat (Z.log2 z))) z "".

(** write_cxi.py 54. *)
Definition NO_PULSE_ID : Z := 9999.
(** components.py 85. *)
Definition n_modules : Z := 16.

(** ** _map_chunk, write_cxi.py 79-117 *)
(** The loop, lines 91-117.  [per_frame] is [train_ids_perframe], [pos_of_tid] the dictionary [train_id_to_ix];
    [put tgt_start src_start n] does the assignment of [n] rows of the source dataset starting at [src_start] to the
    target at [tgt_start].  Each round maps at least one row; [fuel] bounds the number of rounds (ERuntimeError if it
    were too small, which never happens, see L_Cxi). *)
Fixpoint map_rows {T} (per_frame : list Z) (pos_of_tid : Z -> option Z) (put : Z -> Z -> nat -> T -> res T)
         (fuel : nat) (src_start : Z) (tids : list Z) (tgt : T) : res T :=
  match tids with
  | [] => Ok tgt
  | t0 :: _ =>
      match fuel with
      | O => Err ERuntimeError
      | S fuel =>
          match pos_of_tid t0 with
          | None => Err EKeyError
          | Some start =>
              let target_tids := zslice per_frame start (start + Z.of_nat (List.length tids)) in
              if negb (Nat.eqb (List.length target_tids) (List.length tids)) then Err EAssertionError
              else if negb (hd 0%Z target_tids =? t0)%Z then Err EAssertionError
              else
                let n_match := match nonzero (map (fun p => negb (fst p =? snd p)%Z) (combine tids target_tids)) with
                               | i :: _ => i
                               | [] => List.length tids
                               end in
                let* tgt := put start src_start n_match tgt in
                map_rows per_frame pos_of_tid put fuel (src_start + Z.of_nat n_match) (skipn n_match tids) tgt
          end
      end
  end.

(** dict(zip(train_ids, positions)), line 42: the last of several equal keys counts. *)
Definition tid_position (train_ids : list Z) (fpt t : Z) : option Z :=
  match find (fun p => (fst p =? t)%Z) (rev (combine train_ids (map (fun i => Z.of_nat i * fpt)%Z (seq 0 (List.length train_ids))))) with
  | Some p => Some (snd p)
  | None => None
  end.

Section Cxi.
Context {V : Type}.
Notation faccess := (faccess V).
Notation dataset := (dataset V).
Notation chunk := (chunk V).
Notation mpx := (mpx V).
(** [pulse v]: the (first) number in a row of the pulseId dataset. *)
Context (pulse : V -> Z).

(** write_cxi.py 32-42. *)
Definition cxi_nframes (m : mpx) : Z := (Z.of_nat (List.length (mx_train_ids m)) * mx_fpt m)%Z.
Definition ids_per_frame (m : mpx) : list Z :=
  flat_map (fun t => repeat t (Z.to_nat (mx_fpt m))) (mx_train_ids m).
Definition map_chunk {T} (m : mpx) (put : Z -> Z -> nat -> T -> res T) (c : chunk) (tgt : T) : res T :=
  let tids := np_repeat (ch_tids c) (ch_counts c) in
  map_rows (ids_per_frame m) (tid_position (mx_train_ids m) (mx_fpt m)) put (List.length tids) (ch_first c) tids tgt.

(** ** Pulse IDs *)
(** The array [pulse_ids]: frame and module number to pulse ID. *)
Definition ptable := nat -> Z -> Z.
(** target[start : start+n, modno] = rows.  A single row is broadcast; otherwise the lengths must agree. *)
Definition put_pulses (modno : Z) (rows : list Z) (start src_start : Z) (n : nat) (tgt : ptable) : res ptable :=
  let matched := zslice rows src_start (src_start + Z.of_nat n) in
  if (n_modules <=? modno)%Z then Err EIndexError
  else
    let* vals := match matched with
                 | [x] => Ok (repeat x n)
                 | _ => if Nat.eqb (List.length matched) n then Ok matched else Err EValueError
                 end in
    Ok (fun i c => if ((c =? modno) && (start <=? Z.of_nat i) && (Z.of_nat i <? start + Z.of_nat n))%Z
                   then nth (i - Z.to_nat start) vals 0%Z else tgt i c).
(** write_cxi.py 59-65: the pulse IDs in the dataset of a chunk; a second dimension is dropped ([:, 0]), with more
    dimensions or nothing in it there is an error. *)
Definition chunk_pulses (source : string) (c : chunk) : res (list Z) :=
  let* ds := ch_dataset source "image.pulseId" c in
  match ds_item ds with
  | [] => Ok (map (fun v => u64 (pulse v)) (ds_rows ds))
  | [n] => if (n <=? 0)%Z then Err EIndexError else Ok (map (fun v => u64 (pulse v)) (ds_rows ds))
  | _ => Err EValueError
  end.
Definition module_pulses (m : mpx) (tgt : ptable) (sm : string * Z) : res ptable :=
  let* chunks := find_data_chunks (mx_data m) (fst sm) "image.pulseId" in
  foldM (fun tgt c => let* rows := chunk_pulses (fst sm) c in map_chunk m (put_pulses (snd sm) rows) c tgt) tgt chunks.
(** write_cxi.py 67-73: the checks, for the pulse IDs of one frame in all modules. *)
Definition row_min (r : list Z) : Z := fold_right Z.min (hd 0%Z r) r.
Definition row_max (r : list Z) : Z := fold_right Z.max 0%Z r.
Definition pulse_rows (m : mpx) (t : ptable) : list (list Z) :=
  map (fun i => map (fun c => t i (Z.of_nat c)) (seq 0 (Z.to_nat n_modules))) (seq 0 (Z.to_nat (cxi_nframes m))).
(** write_cxi.py 52-77: [collect_pulse_ids]. *)
Definition collect_pulse_ids (m : mpx) : res (list Z) :=
  let* t := foldM (module_pulses m) (fun _ _ => NO_PULSE_ID) (mx_modules m) in
  let rows := pulse_rows m t in
  let mins := map row_min rows in
  if existsb (Z.eqb NO_PULSE_ID) mins then Err EException
  else
    let rows := map (map (fun p => if (p =? NO_PULSE_ID)%Z then 0%Z else p)) rows in
    if existsb (fun p => negb (row_min (fst p) =? row_max (snd p))%Z) (combine (pulse_rows m t) rows)
    then Err EException
    else Ok mins.

(** ** Virtual datasets *)
(** A virtual dataset: element type, shape of an entry, and the entry at frame and module number, None where the fill
    value is.  (Its first dimensions are [cxi_nframes] and [n_modules].) *)
Record layout := mk_layout { ly_dtype : string; ly_item : list Z; ly_at : nat -> Z -> option V }.
Definition z_prod (l : list Z) : Z := fold_right Z.mul 1%Z l.
(** layout[start : start+n, modno] = source[src_start : src_start+n].  The part of the source is clipped to its extent;
    HDF5 refuses a mapping between different numbers of elements (when the dataset is created; here at once). *)
Definition put_layout (modno : Z) (ds : dataset) (start src_start : Z) (n : nat) (tgt : layout) : res layout :=
  let matched := zslice (ds_rows ds) src_start (src_start + Z.of_nat n) in
  if (n_modules <=? modno)%Z then Err EValueError
  else if negb (Nat.eqb (List.length matched) n && (z_prod (ds_item ds) =? z_prod (ly_item tgt))%Z) then Err ERuntimeError
  else Ok (mk_layout (ly_dtype tgt) (ly_item tgt)
             (fun i c => if ((c =? modno) && (start <=? Z.of_nat i) && (Z.of_nat i <? start + Z.of_nat n))%Z
                         then nth_error matched (i - Z.to_nat start) else ly_at tgt i c)).
Definition empty_layout (dtype : string) (item : list Z) : layout := mk_layout dtype item (fun _ _ => None).
(** write_cxi.py 151-158: one virtual dataset. *)
Definition module_layout (m : mpx) (key : string) (tgt : layout) (sm : string * Z) : res layout :=
  let* chunks := find_data_chunks (mx_data m) (fst sm) key in
  foldM (fun tgt c => let* ds := ch_dataset (fst sm) key c in map_chunk m (put_layout (snd sm) ds) c tgt) tgt chunks.
Definition fill_layout (m : mpx) (p : string * layout) : res (string * layout) :=
  let* l := foldM (module_layout m ("image." ++ fst p)) (snd p) (mx_modules m) in Ok (fst p, l).

(** write_cxi.py 119-149: which virtual datasets, from the first file of the first module; [shape] is the shape of a
    module for corrected data.  ('gain' in image_grp: whether there is such a dataset.) *)
Definition cxi_layouts (m : mpx) (shape : list Z) : res (list (string * layout)) :=
  match mx_modules m with
  | [] => Err EException                                          (* next() of an empty iterator *)
  | (src, _) :: _ =>
      match source_files (dc_files (mx_data m)) src with
      | [] => Err EIndexError
      | f :: _ =>
          let ds name := fa_dataset f (ds_path "INSTRUMENT" src ("image." ++ name)) in
          let* data := ds "data" in
          let* l := match ds "gain" with
                    | Ok gain =>
                        Ok (("data", empty_layout (ds_dtype data) shape) :: ("gain", empty_layout (ds_dtype gain) shape) ::
                            match ds "mask" with Ok mask => [("mask", empty_layout (ds_dtype mask) shape)] | Err _ => [] end)
                    | Err _ => Ok [("data", empty_layout (ds_dtype data) (ds_item data))]
                    end in
          let* cell := ds "cellId" in
          Ok (l ++ [("cellId", empty_layout (ds_dtype cell) [])])
      end
  end.
(** write_cxi.py 119-164: [collect_data]. *)
Definition collect_data (m : mpx) (shape : list Z) : res (list (string * layout)) :=
  let* ls := cxi_layouts m shape in mapM (fill_layout m) ls.

(** ** The file, write_cxi.py 166-225 *)
Record cxi := mk_cxi {
  cx_experiment_id : list string;              (* entry_1/experiment_identifier *)
  cx_pulse_id : list Z;                        (* entry_1/pulseId *)
  cx_train_id : list Z;                        (* entry_1/trainId *)
  cx_module_id : list Z;                       (* detector_1/module_identifier *)
  cx_data_gain : option (list string);         (* entry_1/data_gain, for data with an extra axis *)
  cx_layouts_of : list (string * layout)       (* data, gain, mask in detector_1, cellId in entry_1 *)
}.
(** write_cxi.py 191-200: the labels of the extra axis of five-dimensional data ([d[:] = ['data']] broadcasts). *)
Definition data_gain (item : list Z) : res (option (list string)) :=
  match item with
  | [_; _] => Ok None
  | ndg :: _ => Ok (Some (if (ndg =? 2)%Z then ["data"; "gain"] else repeat "data" (Z.to_nat ndg)))
  | [] => Err EIndexError
  end.
Definition write_virtual_cxi (m : mpx) (shape : list Z) : res cxi :=
  let* pulses := collect_pulse_ids m in
  let tids := ids_per_frame m in
  let ids := map (fun p => (str_of_int (fst p) ++ ":" ++ str_of_int (snd p))%string) (combine tids pulses) in
  let* ls := collect_data m shape in
  let* dg := match dict_get "data" ls with Some l => data_gain (ly_item l) | None => Err EKeyError end in
  Ok (mk_cxi ids pulses tids (zsort (map snd (mx_modules m))) dg ls).
End Cxi.
Arguments layout V : clear implicits.
Arguments cxi V : clear implicits.
