(** Specification vocabulary for validation: what a usable file is, in terms of
    its contents (docs/data_format.rst, docs/validation.rst). *)
From Verif Require Import Base M_Files S_Reader.
Set Implicit Arguments.
Local Open Scope string_scope.
Local Open Scope list_scope.

(** Strictly increasing train IDs, then zeros only as padding. *)
Definition padded_increasing (raw : list Z) : Prop :=
  exists tids pad, raw = tids ++ repeat 0%Z pad /\ StronglySorted Z.lt tids /\ Forall (fun t => 0 < t)%Z tids.

(** An index group fits [n] trains and a dataset of [nrows] rows: every train has an
    entry, the first starts at row 0, each one starts where the previous one
    ends, and none goes beyond the end of the dataset. *)
Definition usable_index (g : ix_group) (n : nat) (nrows : nat) : Prop :=
  (forall p, (p < n)%nat -> exists a c,
     nth_error (ix_first g) p = Some a /\ entry_count g p = Some c /\
     (0 <= a)%Z /\ (0 <= c)%Z /\ (a + c <= Z.of_nat nrows)%Z) /\
  (forall a, (0 < n)%nat -> nth_error (ix_first g) 0 = Some a -> a = 0%Z) /\
  (forall p a c b, (S p < n)%nat ->
     nth_error (ix_first g) p = Some a -> entry_count g p = Some c ->
     nth_error (ix_first g) (S p) = Some b -> b = (a + c)%Z).

(** What the type of the index datasets grants (unsigned 64 bit numbers, a status of 0
    or 1 in the old format), and counts and sizes below astronomical ones: no
    count of 2^63 rows or more, no dataset of 2^53 rows or more. *)
Definition index_typed (g : ix_group) : Prop :=
  Forall u64_range (ix_first g) /\
  match ix_more g with
  | IxCount c => Forall u64_range c
  | IxLastStatus l s => Forall u64_range l /\ Forall (fun x => x = 0 \/ x = 1)%Z s
  end.
Definition counts_sane (g : ix_group) : Prop :=
  forall p c, entry_count g p = Some c -> (0 <= c < 2 ^ 63)%Z.
Definition file_typed {V} (f : h5file V) : Prop :=
  (forall raw, h5_trainid f = Some raw -> Forall u64_range raw) /\
  (forall s g, dict_get s (h5_index f) = Some g -> index_typed g) /\
  (forall s ds, dict_get s (h5_data f) = Some ds -> (Z.of_nat (List.length (ds_rows ds)) < 2 ^ 53)%Z).
Definition file_sane {V} (f : h5file V) : Prop :=
  file_typed f /\ (forall s g, dict_get s (h5_index f) = Some g -> counts_sane g).

(** A usable file: train IDs in order, and for each instrument source and each of the
    keys listed for it, the index of the key's group fits the key's dataset. *)
Definition usable_file {V} (fa : faccess V) : Prop :=
  (exists raw, h5_trainid (fa_file fa) = Some raw /\ padded_increasing raw) /\
  forall s ks k, In s (fa_inst fa) -> fa_get_keys fa s = Ok ks -> In k ks ->
    exists g ds, dict_get (index_key false s k) (h5_index (fa_file fa)) = Some g /\
                 dict_get (data_key false s k) (h5_data (fa_file fa)) = Some ds /\
                 usable_index g (List.length (fa_tids fa)) (List.length (ds_rows ds)).

From Verif Require Import M_Reader S_Coll S_Avail.
Section R.
Context {V : Type}.
Notation dcoll := (dcoll V).

(** Every file of the source has the key, with the same type of data. *)
Definition field_everywhere (d : dcoll) (s k : string) : Prop :=
  (forall f, In f (dc_files d) -> In s (fa_sources f) -> exists ks, fa_get_keys f s = Ok ks /\ In k ks) /\
  exists dtype item, forall f ds, In f (dc_files d) -> In s (fa_sources f) ->
    dict_get (data_key false s k) (h5_data (fa_file f)) = Some ds -> ds_dtype ds = dtype /\ ds_item ds = item.

(** The control data is good: one entry per train for every selected field. *)
Definition good_control (d : dcoll) : Prop :=
  forall s, In s (dc_ctrl d) -> good_ctrl d s /\
    forall k ks, keys_for_source d s = Ok ks -> In k ks -> readable_index d s k /\ good_data d s k.
End R.
