(** Specification vocabulary for counts and series. *)
From Verif Require Import Base M_Files M_Reader M_Series S_Reader S_Coll.
Set Implicit Arguments.
Local Open Scope string_scope.
Local Open Scope list_scope.

Section S.
Context {V : Type}.
Notation dcoll := (dcoll V).

(** The number of rows the index of a file assigns to train [t]. *)
Definition file_count (f : h5file V) (is_ctrl : bool) (source key : string) (t c : Z) : Prop :=
  exists raw p g,
    h5_trainid f = Some raw /\
    nth_error raw p = Some t /\ (forall q, q < p -> nth_error raw q <> Some t)%nat /\
    dict_get (index_key is_ctrl source key) (h5_index f) = Some g /\
    entry_count g p = Some c.

(** The index entries of a field start at row 0 in every file. *)
Definition index_from_zero (d : dcoll) (s k : string) : Prop :=
  forall f g a, In f (dc_files d) -> In s (fa_sources f) -> fa_tids f <> [] ->
    dict_get (index_key (str_in s (dc_ctrl d)) s k) (h5_index (fa_file f)) = Some g ->
    nth_error (ix_first g) 0 = Some a -> a = 0%Z.

(** The rows of a series labelled with train [t]: values and pulse IDs. *)
Definition series_values (t : Z) (ser : list (Z * option Z * V)) : list V :=
  map snd (filter (fun r => (fst (fst r) =? t)%Z) ser).
Definition series_pulses (t : Z) (ser : list (Z * option Z * V)) : list (option Z) :=
  map (fun r => snd (fst r)) (filter (fun r => (fst (fst r) =? t)%Z) ser).

(** The pulse IDs which go with a key: dataset pulseId of the same group. *)
Definition pulse_key (k : string) : string := (before_dot k ++ ".pulseId")%string.

(** A train with more than one row. *)
Definition multi_rows (f : faccess V) (s k : string) : Prop :=
  exists t c, In t (fa_tids f) /\ file_count (fa_file f) false s k t c /\ (1 < c)%Z.

(** When get_series can work: in every file of the source there is at least one
    row, and the data is either one value per train, or one value (in an array of
    one element) per pulse, with a pulseId dataset next to it. *)
Definition has_rows (d : dcoll) (s k : string) : Prop :=
  forall f, In f (dc_files d) -> In s (fa_sources f) ->
    exists t c, In t (fa_tids f) /\ file_count (fa_file f) (str_in s (dc_ctrl d)) s k t c /\ (0 < c)%Z.
Definition one_value_per_train (d : dcoll) (s k : string) : Prop :=
  forall f ds, In f (dc_files d) -> In s (fa_sources f) ->
    dict_get (data_key (str_in s (dc_ctrl d)) s k) (h5_data (fa_file f)) = Some ds ->
    ds_item ds = [] /\ ~ (In s (dc_inst d) /\ multi_rows f s k).
Definition one_value_per_pulse (d : dcoll) (s k : string) : Prop :=
  In s (dc_inst d) /\
  forall f ds g, In f (dc_files d) -> In s (fa_sources f) ->
    dict_get (data_key false s k) (h5_data (fa_file f)) = Some ds ->
    dict_get (index_key false s k) (h5_index (fa_file f)) = Some g ->
    ds_item ds = [1%Z] /\ multi_rows f s k /\
    exists pds m, dict_get (data_key false s (pulse_key k)) (h5_data (fa_file f)) = Some pds /\
      ds_item pds = [m] /\
      forall p a c, (p < List.length (fa_tids f))%nat ->
        nth_error (ix_first g) p = Some a -> entry_count g p = Some c ->
        (a + c <= Z.of_nat (List.length (ds_rows pds)))%Z.
End S.
