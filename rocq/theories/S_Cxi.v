(** Specification vocabulary for virtual CXI files. *)
From Verif Require Import Base M_Files M_Reader M_Components M_Cxi S_Reader S_Coll S_Components.
Set Implicit Arguments.
Local Open Scope string_scope.
Local Open Scope list_scope.

Section S.
Context {V : Type}.
Notation dcoll := (dcoll V).
Context (pulse : V -> Z).

(** Row [i] of train [t] of source [s], key [k], holds [v]. *)
Definition frame_value (d : dcoll) (s k : string) (t : Z) (i : nat) (v : V) : Prop :=
  exists f rows, holds d f s t /\ file_rows (fa_file f) false s k t rows /\ nth_error rows i = Some v.
(** Frame [i] of train [t] of source [s] has the pulse ID [p]. *)
Definition frame_pulse (d : dcoll) (s : string) (t : Z) (i : nat) (p : Z) : Prop :=
  exists v, frame_value d s "image.pulseId" t i v /\ p = pulse v.
(** Pulse IDs which are not mistaken for the mark of a missing frame. *)
Definition small_pulses (d : dcoll) (s : string) : Prop :=
  forall t i p, frame_pulse d s t i p -> (0 <= p < NO_PULSE_ID)%Z.
(** All the entries of a field have [e] elements. *)
Definition entry_size (d : dcoll) (s k : string) (e : Z) : Prop :=
  forall f ds, In f (dc_files d) -> In s (fa_sources f) -> dict_get (data_key false s k) (h5_data (fa_file f)) = Some ds -> z_prod (ds_item ds) = e.
End S.

Section T.
Context {V : Type}.
Notation dcoll := (dcoll V).
Context (pulse : V -> Z).
(** All modules having frame [i] of train [t] agree that its pulse ID is [p], and there is such a module. *)
Definition agreed_pulse (d : dcoll) (name : string) (modules : option (list Z)) (t : Z) (i : nat) (p : Z) : Prop :=
  (exists s n, is_module_of d name modules s n /\ frame_pulse pulse d s t i p) /\
  forall s n q, is_module_of d name modules s n -> frame_pulse pulse d s t i q -> q = p.
(** All files of all modules have the image dataset [nm], or none has it. *)
Definition image_dataset (d : dcoll) (name : string) (modules : option (list Z)) (nm : string) (present : bool) : Prop :=
  forall s n f, is_module_of d name modules s n -> In f (dc_files d) -> In s (fa_sources f) ->
    ((exists ds, dict_get (data_key false s ("image." ++ nm)) (h5_data (fa_file f)) = Some ds) <-> present = true).
(** The pulse IDs can be written: module numbers are below 16, pulse IDs are there and
    below 9999. *)
Definition cxi_ready (d : dcoll) (m : mpx V) (modules : option (list Z)) : Prop :=
  forall s n, is_module_of d (mx_name m) modules s n ->
    (n < n_modules)%Z /\ module_files d s "image.pulseId" /\ small_pulses pulse d s.
End T.
