(** Specification vocabulary for multi-module detectors. *)
From Verif Require Import Base M_Files M_Reader M_Select M_Components S_Reader S_Coll S_Avail S_Series S_Stacking.
Set Implicit Arguments.
Local Open Scope string_scope.
Local Open Scope list_scope.

(** ** What a pulse selection asks for *)
(** The number [z] (a pulse ID or a pulse index) is asked for by the value given to by_id / by_index. *)
Definition asked (v : pulse_val) (z : Z) : Prop :=
  match v with
  | PvSlice start stop step =>
      let a := match start with Some x => x | None => 0%Z end in
      let k := match step with Some x => x | None => 1%Z end in
      (exists n, 0 <= n /\ z = a + n * k)%Z /\ match stop with Some b => (z < b)%Z | None => True end
  | PvSliceOther => False
  | PvInt x => z = x
  | PvList l => In z l
  end.
(** The pulse at position [i] in its train, with pulse ID [p], is chosen. *)
Definition chosen (a : pulse_arg) (i : nat) (p : Z) : Prop :=
  match a with
  | PulsesById v => asked v p
  | PulsesByIndex v => asked v (Z.of_nat i)
  | PulsesOther => False
  end.

(** Selections with a defined meaning: slices with a positive step and no negative bound, numbers which fit in an
    unsigned 64 bit integer. *)
Definition usable_val (v : pulse_val) : Prop :=
  match v with
  | PvSlice start stop step =>
      (match step with Some k => 1 <= k | None => True end)%Z /\
      (match start with Some a => 0 <= a | None => True end)%Z /\
      (match stop with Some b => 0 <= b | None => True end)%Z
  | PvSliceOther => False
  | PvInt x => u64_range x
  | PvList l => Forall u64_range l
  end.
Definition usable_sel (a : pulse_arg) : Prop :=
  match a with PulsesById v => usable_val v | PulsesByIndex v => usable_val v | PulsesOther => False end.

(** [frames] are the chosen frames of a train, in the order of the file: [pulses] are the pulse IDs of the train and
    [rows] its data. *)
Definition chosen_frames {V} (a : pulse_arg) (t : Z) (pulses : list Z) (rows : list V) (frames : list (Z * Z * V)) : Prop :=
  exists ix : list nat,
    StronglySorted lt ix /\
    (forall i, In i ix <-> exists p, nth_error pulses i = Some p /\ chosen a i p) /\
    Forall2 (fun i fr => exists p v, nth_error pulses i = Some p /\ nth_error rows i = Some v /\ fr = (t, p, v)) ix frames.

Section S.
Context {V : Type}.
Notation faccess := (faccess V).
Notation dcoll := (dcoll V).
Context (first : V -> V) (pulse : V -> Z).

(** Frames with train label [t]. *)
Definition frames_at (t : Z) (a : arr V) : list (Z * Z * V) :=
  filter (fun x => (fst (fst x) =? t)%Z) (ar_frames a).

(** A dimension of length 1 in front of the others is removed. *)
Definition frame_of (ds : dataset V) (v : V) : V := match ds_item ds with 1%Z :: _ => first v | _ => v end.
Definition frame_shape (ds : dataset V) : list Z := match ds_item ds with 1%Z :: r => r | l => l end.
(** Shapes of frames understood: one value, two dimensions, or gain stage and two dimensions. *)
Definition known_shape (s : list Z) : Prop := List.length s = 0%nat \/ List.length s = 2%nat \/ List.length s = 3%nat.

(** The frames of train [t] in a file: pulse IDs and data, as given by the index entry of the train. *)
Definition train_frames (f : faccess) (s k : string) (t : Z) (pulses : list Z) (rows : list V) : Prop :=
  exists prows drows ds,
    file_rows (fa_file f) false s (pulse_key k) t prows /\ pulses = map pulse prows /\
    file_rows (fa_file f) false s k t drows /\
    dict_get (data_key false s k) (h5_data (fa_file f)) = Some ds /\ rows = map (frame_of ds) drows.

(** Files of a detector module: train IDs increase, index entries are well formed, pulse IDs and data are there for
    all the rows of the index; pulse IDs are one number, frames are not empty. *)
Definition module_file (f : faccess) (s k : string) : Prop :=
  tids_ok (fa_file f) /\ StronglySorted Z.lt (fa_tids f) /\
  exists g ds pds,
    dict_get (index_key false s k) (h5_index (fa_file f)) = Some g /\ index_ok g (List.length (fa_tids f)) /\
    dict_get (data_key false s k) (h5_data (fa_file f)) = Some ds /\ ~ In 0%Z (ds_item ds) /\
    dict_get (data_key false s (pulse_key k)) (h5_data (fa_file f)) = Some pds /\
    (ds_item pds = [] \/ ds_item pds = [1%Z]) /\
    forall p a c, (p < List.length (fa_tids f))%nat ->
      nth_error (ix_first g) p = Some a -> entry_count g p = Some c ->
      (a + c <= Z.of_nat (List.length (ds_rows ds)) /\ a + c <= Z.of_nat (List.length (ds_rows pds)))%Z.
Definition module_files (d : dcoll) (s k : string) : Prop :=
  forall f, In f (dc_files d) -> In s (fa_sources f) -> module_file f s k.

(** The machine limit of 2700 pulses in a train: pulse IDs below it, at most so many frames. *)
Definition pulses_limited (d : dcoll) (s k : string) : Prop :=
  forall f t pulses rows, holds d f s t -> train_frames f s k t pulses rows ->
    Forall (fun p => 0 <= p < MAX_PULSES)%Z pulses /\ (Z.of_nat (List.length pulses) <= MAX_PULSES)%Z.

(** ** Making the detector object *)
(** Source [s] is module [n] of the detector [name]: its name starts with name/DET/nCH. *)
Definition module_source (name s : string) (n : Z) : Prop :=
  exists ds b, s = (name ++ "/DET/" ++ ds ++ "CH" ++ b)%string /\ ds <> "" /\ all_digits ds /\ n = decimal ds.
(** [p] is the name of the detector of type [tag] in the source name [s]: everything in front of (the last) /DET/nCH, with
    [tag] somewhere after the first character. *)
Definition det_prefix (tag s p : string) : Prop :=
  (exists n, module_source p s n) /\ exists c x y, p = String c (x ++ tag ++ y).
Definition det_name (tag s p : string) : Prop :=
  det_prefix tag s p /\ forall p', det_prefix tag s p' -> (String.length p' <= String.length p)%nat.
(** The sources taken for the detector: fast data sources which are modules, of the numbers wanted if given. *)
Definition is_module_of (d : dcoll) (name : string) (modules : option (list Z)) (s : string) (n : Z) : Prop :=
  In s (dc_inst d) /\ module_source name s n /\ match modules with None => True | Some l => In n l end.
(** Source [s] has [c] frames in train [t]. *)
Definition frames_in (d : dcoll) (s : string) (t c : Z) : Prop :=
  exists f, holds d f s t /\ file_count (fa_file f) false s "image.data" t c.
(** Names which mean themselves as patterns. *)
Definition plain_name (s : string) : Prop := forall c, In c (list_ascii_of_string s) -> c <> "*"%char /\ c <> "?"%char /\ c <> "["%char.
(** The data of the modules can be counted. *)
Definition countable (d : dcoll) (name : string) (modules : option (list Z)) : Prop :=
  forall s n, is_module_of d name modules s n ->
    plain_name s /\ stored_key d s "image.data" /\
    forall f, In f (dc_files d) -> In s (fa_sources f) -> fa_tids f <> [] /\
      exists g, dict_get (index_key false s "image.data") (h5_index (fa_file f)) = Some g /\ index_readable g (List.length (fa_tids f)).
(** Some train has [c] frames of some module, and this number is the same for all modules and trains which have frames. *)
Definition frames_uniform (d : dcoll) (name : string) (modules : option (list Z)) (c : Z) : Prop :=
  (0 < c)%Z /\ (exists s n t, is_module_of d name modules s n /\ In t (dc_tids d) /\ frames_in d s t c) /\
  forall s n t c', is_module_of d name modules s n -> In t (dc_tids d) -> frames_in d s t c' -> c' = 0%Z \/ c' = c.
(** Train [t] has frames of at least [min] modules. *)
Definition detector_train (d : dcoll) (name : string) (modules : option (list Z)) (min t : Z) : Prop :=
  In t (dc_tids d) /\ (exists s n c, is_module_of d name modules s n /\ frames_in d s t c) /\
  exists l, NoDup l /\ (min <= Z.of_nat (List.length l))%Z /\
    forall s, In s l -> (exists n, is_module_of d name modules s n) /\ exists c, frames_in d s t c /\ (0 < c)%Z.

(** No detector train is missing between the first and the last train of a file of the module. *)
Definition no_gaps (tids : list Z) (d : dcoll) (s : string) : Prop :=
  forall f t a b, In f (dc_files d) -> In s (fa_sources f) -> In t tids ->
    In a (fa_tids f) -> In b (fa_tids f) -> (a <= t <= b)%Z -> In t (fa_tids f).
End S.

(** by_id with a slice of step 1. *)
Definition id_step_one (a : pulse_arg) : Prop :=
  match a with PulsesById (PvSlice _ _ None) | PulsesById (PvSlice _ _ (Some 1%Z)) => True | _ => False end.
(** Lists of indexes in increasing order; slices always are. *)
Definition index_sorted (a : pulse_arg) : Prop :=
  match a with PulsesByIndex (PvList l) => StronglySorted Z.lt l | _ => True end.

Section T.
Context {V : Type}.
Notation faccess := (faccess V).
Notation dcoll := (dcoll V).
Context (first : V -> V) (pulse : V -> Z).
(** The detector [m] was made from the run [d]. *)
Definition detector_of (tag : string) (d : dcoll) (nm : option string) (modules : option (list Z)) (min : Z) (m : mpx V) : Prop :=
  reachable d /\ distinct_kinds d /\ good_files d /\ countable d (mx_name m) modules /\
  mpx_open tag d nm modules min = Ok m.
(** The files of all modules are well formed for the key [k]. *)
Definition good_modules (d : dcoll) (m : mpx V) (modules : option (list Z)) (k : string) : Prop :=
  forall s n, is_module_of d (mx_name m) modules s n -> module_files d s k /\ pulses_limited first pulse d s k.
(** The value for module [n] under the key [k] of what is yielded for a train. *)
Definition yielded (g : list (string * list (Z * det_val V))) (k : string) (n : Z) (v : det_val V) : Prop :=
  exists l, dict_get k g = Some l /\ In (n, v) l.
End T.
