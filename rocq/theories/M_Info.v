(** detector_info, train_info and info (karabo_data/reader.py 299-301, 1043-1150). *)

From Verif Require Import Base PyStr M_Files M_Machinery M_Reader M_FilesMap M_Stacking M_Components.
Set Implicit Arguments.
Local Open Scope string_scope.
Local Open Scope list_scope.

(** read_machinery.py 18, reader.py 1055: groups of [(.+)/DET/(\d+)CH] matched at the start of a source name: the
    longest non-empty prefix in front of a place where /DET/(\d+)CH matches (that is [match_detname] with an
    empty tag), and the digits. *)
Definition det_groups (source : string) : option (string * string) :=
  match match_detname "" source with
  | None => None
  | Some name =>
      match strip_prefix name source with
      | Some r => match strip_prefix "/DET/" r with Some r' => Some (name, fst (take_digits r')) | None => None end
      | None => None
      end
  end.
Definition is_detector (source : string) : bool := match det_groups source with Some _ => true | None => false end.

(** Comparison of Python tuples of two strings. *)
Definition pair_leb (a b : string * string) : bool :=
  if String.eqb (fst a) (fst b) then String.leb (snd a) (snd b) else String.leb (fst a) (fst b).
(** sorted(set(l)) of strings. *)
Definition str_sort_set (l : list string) : list string := str_sort (fold_left (fun acc s => set_add s acc) l []).

Section Info.
Context {V : Type}.
Notation faccess := (faccess V).
Notation dcoll := (dcoll V).
(** [pop] of a set of numbers: which element is arbitrary. *)
Variable pop : list Z -> Z.

(** The dictionary returned, and whether the warning is given. *)
Record dinfo := mk_dinfo { di_dims : list Z; di_frames : Z; di_total : Z; di_warned : bool }.

(** The last two elements of a sequence, [l[-2:]]. *)
Definition last_two (l : list Z) : list Z := skipn (List.length l - 2) l.

(** reader.py 1095-1125.  An unknown source has no files (IndexError of [0]). *)
Definition detector_info (d : dcoll) (source : string) : res dinfo :=
  match isort (fun a b => String.leb (h5_name (fa_file a)) (h5_name (fa_file b))) (source_files (dc_files d) source) with
  | [] => Err EIndexError
  | file0 :: _ =>
      let* ix := fa_get_index file0 source "image" in
      let counts := filter (fun c => negb (c =? 0)%Z) (zdedup (snd ix)) in
      let fpt := match counts with [] => 0%Z | _ => pop counts end in
      let* ds := fa_dataset file0 ("INSTRUMENT/" ++ source ++ "/image/data")%string in
      Ok (mk_dinfo (last_two (Z.of_nat (List.length (ds_rows ds)) :: ds_item ds)) fpt
            (fpt * Z.of_nat (List.length (dc_tids d))) (1 <? List.length counts)%nat)
  end.

(** reader.py 1127-1150: the instrument and control sources which are listed. *)
Definition train_info (d : dcoll) (tid : Z) : res (list string * list string) :=
  if negb (z_in tid (dc_tids d)) then Err EValueError else
  let files := filter (fun f => z_in tid (fa_tids f)) (dc_files d) in
  Ok (str_sort_set (flat_map (@fa_inst V) files), str_sort_set (flat_map (@fa_ctrl V) files)).

(** What info() prints: number of trains, duration in tenths of a second, first and last train ID; number and names
    of the detectors, the example module (name, number, source) with its [detector_info]; the other instrument
    sources; the control sources.  The text around it is in M_InfoText. *)
Record rinfo := mk_rinfo { in_trains : nat; in_span : Z; in_first : Z; in_last : Z; in_modules : nat; in_names : list string;
  in_example : option (string * string * string * dinfo); in_inst : list string; in_ctrl : list string }.

(** reader.py 299-301. *)
Definition detector_sources (d : dcoll) : list string := filter is_detector (dc_inst d).

(** reader.py 1053-1056: {(name, modno): source}; a later source replaces an earlier one with the same key. *)
Fixpoint modules_set (k : string * string) (s : string) (l : list ((string * string) * string)) :=
  match l with
  | [] => [(k, s)]
  | (k', s') :: r => if (String.eqb (fst k) (fst k') && String.eqb (snd k) (snd k'))%bool then (k, s) :: r else (k', s') :: modules_set k s r
  end.
Definition detector_modules (srcs : list string) : list ((string * string) * string) :=
  fold_left (fun acc s => match det_groups s with Some k => modules_set k s acc | None => acc end) srcs [].

(** reader.py 1050-1051: the span in tenths of a second.  Train IDs are unsigned 64 bit numpy integers ([np_ids]), for which the
    difference wraps around, or Python integers (after select_trains with by_id and a list).  A timedelta has at most
    999999999 days. *)
Definition train_span (np_ids : bool) (first last : Z) : Z := if np_ids then ((last - first) mod 2 ^ 64)%Z else (last - first)%Z.
Definition span_days (span : Z) : Z := (span / 864000)%Z.
(** reader.py 1043-1093. *)
Definition run_info (np_ids : bool) (d : dcoll) : res rinfo :=
  let* first := py_index (dc_tids d) 0 in
  let* last := py_index (dc_tids d) (-1) in
  let span := train_span np_ids first last in
  if (999999999 <? Z.abs (span_days span))%Z then Err EOverflowError else
  let mods := detector_modules (detector_sources d) in
  let names := str_sort_set (map (fun m => fst (fst m)) mods) in
  let* example := match isort (fun a b => pair_leb (fst a) (fst b)) mods with
                  | [] => Ok None
                  | (k, s) :: _ => let* di := detector_info d s in Ok (Some (fst k, snd k, s, di))
                  end in
  Ok (mk_rinfo (List.length (dc_tids d)) span first last (List.length (detector_sources d)) names example
        (str_sort (filter (fun s => negb (str_in s (detector_sources d))) (dc_inst d))) (str_sort (dc_ctrl d))).
End Info.
