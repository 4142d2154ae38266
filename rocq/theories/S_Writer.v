(** Specification vocabulary for written files. *)
From Verif Require Import Base M_Files M_Reader S_Reader S_Coll S_Avail S_Open.
Set Implicit Arguments.
Local Open Scope string_scope.
Local Open Scope list_scope.

Section W.
Context {V : Type}.
Notation dcoll := (dcoll V).

(** Names which the file format can hold without confusion: keys have dots
    where dataset paths have slashes; different sources do not share an entry of
    the index; and no source name continues another one after a slash. *)
Definition plain_names (d : dcoll) : Prop :=
  (forall s k, available d s k -> ~ has_char "/" k) /\
  (forall s k s' k', available d s k -> available d s' k' ->
     index_key (is_control d s) s k = index_key (is_control d s') s' k' -> s = s').
Definition no_nesting (d : dcoll) : Prop :=
  forall s s' r, In s (dc_sources d) -> In s' (dc_sources d) -> s' <> (s ++ "/" ++ r)%string.

(** The data is in the order of the trains, for every field. *)
Definition in_order (d : dcoll) : Prop :=
  StronglySorted Z.lt (dc_tids d) /\ forall s, In s (dc_sources d) -> sequence_files d s.

(** An index is valid for [tids] and [n] rows: an entry per train, the first one
    starting at row 0, each starting where the previous one ends, the last one
    ending at row [n]. *)
Definition valid_index (ntrains : nat) (nrows : nat) (g : ix_group) : Prop :=
  exists counts, ix_more g = IxCount counts /\
    List.length (ix_first g) = ntrains /\ List.length counts = ntrains /\
    (forall a, nth_error (ix_first g) 0 = Some a -> a = 0%Z) /\
    (forall p a c b, nth_error (ix_first g) p = Some a -> nth_error counts p = Some c ->
       nth_error (ix_first g) (S p) = Some b -> b = (a + c)%Z) /\
    Forall (fun c => 0 <= c)%Z counts /\
    (forall a c, nth_error (ix_first g) (ntrains - 1) = Some a -> nth_error counts (ntrains - 1) = Some c ->
       (a + c)%Z = Z.of_nat nrows).
End W.

Section W2.
Context {V : Type}.
Notation dcoll := (dcoll V).

(** What HDF5 files and Python sets grant: the keys of a source are different,
    and a dataset is not also a group with datasets in it. *)
Definition separate_keys (d : dcoll) : Prop :=
  (forall s ks, keys_for_source d s = Ok ks -> NoDup ks) /\
  (forall s k k' r, available d s k -> available d s k' -> k' <> (k ++ "." ++ r)%string).

(** Every control source with a selected key has data for every train. *)
Definition control_complete (d : dcoll) : Prop :=
  forall s k t, is_control d s = true -> available d s k -> In t (dc_tids d) -> exists f, holds d f s t.
End W2.

Section W3.
Context {V : Type}.
Notation dcoll := (dcoll V).
(** Collections for which a written file is promised to hold the same data. *)
Definition orderly (d : dcoll) : Prop :=
  good_collection d /\ (forall s k, available d s k -> good_index d s k) /\
  plain_names d /\ no_nesting d /\ in_order d /\ dc_tids d <> [] /\ Forall (fun t => 0 < t)%Z (dc_tids d).
End W3.
