(** Specification vocabulary for collections: what good input files are, and
    what data a user should get, in terms of the contents of the files. *)
From Verif Require Import Base M_Files M_Reader S_Reader.
Set Implicit Arguments.
Local Open Scope string_scope.
Local Open Scope list_scope.

Section C.
Context {V : Type}.
Notation faccess := (faccess V).
Notation dcoll := (dcoll V).

(** The same name is not both a control and an instrument source. *)
Definition distinct_kinds (d : dcoll) : Prop :=
  forall f f' s, In f (dc_files d) -> In f' (dc_files d) -> In s (fa_ctrl f) -> ~ In s (fa_inst f').

(** Every file has different train IDs, with zeros only as padding at the end. *)
Definition good_files (d : dcoll) : Prop := Forall (fun f => tids_ok (fa_file f)) (dc_files d).

(** A list of rows holds all the rows an index speaks of, for [n] trains. *)
Definition holds_rows (g : ix_group) (n : nat) (rows : list V) : Prop :=
  forall p a c, (p < n)%nat -> nth_error (ix_first g) p = Some a -> entry_count g p = Some c ->
    (a + c <= Z.of_nat (List.length rows))%Z.

(** In every file of the source, the index entry of the field is well formed, and does not point
    beyond the data. *)
Definition good_index (d : dcoll) (s k : string) : Prop :=
  forall f, In f (dc_files d) -> In s (fa_sources f) ->
    exists g, dict_get (index_key (str_in s (dc_ctrl d)) s k) (h5_index (fa_file f)) = Some g /\
              index_ok g (List.length (fa_tids f)) /\
              forall ds, dict_get (data_key (str_in s (dc_ctrl d)) s k) (h5_data (fa_file f)) = Some ds ->
                holds_rows g (List.length (fa_tids f)) (ds_rows ds).

(** The same, without asking that the rows of a train follow those of the
    train before. *)
Definition readable_index (d : dcoll) (s k : string) : Prop :=
  forall f, In f (dc_files d) -> In s (fa_sources f) ->
    exists g, dict_get (index_key (str_in s (dc_ctrl d)) s k) (h5_index (fa_file f)) = Some g /\
              index_readable g (List.length (fa_tids f)).

(** In every file of the source the field is a dataset of the same type, which
    holds all the rows the index speaks of. *)
Definition good_data (d : dcoll) (s k : string) : Prop :=
  exists dtype item, forall f, In f (dc_files d) -> In s (fa_sources f) ->
    exists ds g, dict_get (data_key (str_in s (dc_ctrl d)) s k) (h5_data (fa_file f)) = Some ds /\
      ds_dtype ds = dtype /\ ds_item ds = item /\
      dict_get (index_key (str_in s (dc_ctrl d)) s k) (h5_index (fa_file f)) = Some g /\
      holds_rows g (List.length (fa_tids f)) (ds_rows ds).

(** docs/data_format.rst, 'CONTROL': slow data has one entry per train. *)
Definition ctrl_index (g : ix_group) (n : nat) : Prop :=
  forall p, (p < n)%nat -> nth_error (ix_first g) p = Some (Z.of_nat p) /\ entry_count g p = Some 1%Z.
Definition good_ctrl (d : dcoll) (s : string) : Prop :=
  forall f g, In f (dc_files d) -> In s (fa_ctrl f) ->
    dict_get s (h5_index (fa_file f)) = Some g -> ctrl_index g (List.length (fa_tids f)).

(** All the selected fields of a collection are good. *)
Definition good_collection (d : dcoll) : Prop :=
  distinct_kinds d /\ good_files d /\
  (forall s, In s (dc_ctrl d) -> good_ctrl d s) /\
  (forall s k ks, In s (dc_sources d) -> keys_for_source d s = Ok ks -> In k ks ->
                  readable_index d s k /\ good_data d s k).

(** The file which holds train [t] of a source. *)
Definition holds (d : dcoll) (f : faccess) (s : string) (t : Z) : Prop :=
  In f (dc_files d) /\ In s (fa_sources f) /\ In t (fa_tids f).

(** How the rows of a train are presented by train_from_id: one row alone, or
    the rows together; no entry if there is no row. *)
Definition value_of (rows : list V) : option (tval V) :=
  match rows with
  | [] => None
  | [v] => Some (One v)
  | _ => Some (Many rows)
  end.
(** The same for trains(), which gives an empty array if there is no row. *)
Definition value_it (rows : list V) : option (tval V) :=
  match rows with
  | [v] => Some (One v)
  | _ => Some (Many rows)
  end.

(** A train is complete if all selected data is present. *)
Definition complete (d : dcoll) (t : Z) : Prop :=
  (forall s, In s (dc_ctrl d) -> exists f, holds d f s t) /\
  (forall s, In s (dc_inst d) -> exists f, holds d f s t /\
     forall ks k, keys_for_source d s = Ok ks -> In k ks ->
       exists rows, file_rows (fa_file f) false s k t rows /\ rows <> []).

(** What a user should see for a source in a train, with [val] saying how rows
    are presented. *)
Definition source_view (val : list V -> option (tval V)) (d : dcoll) (t : Z) (s : string) (sd : src_data V) : Prop :=
  sd_source sd = s /\ sd_tid sd = t /\
  forall ks, keys_for_source d s = Ok ks ->
    (forall k, ~ In k ks -> dict_get k (sd_keys sd) = None) /\
    (forall k, In k ks -> (forall f, ~ holds d f s t) -> dict_get k (sd_keys sd) = None) /\
    (forall k f, In k ks -> holds d f s t ->
       exists rows, file_rows (fa_file f) (str_in s (dc_ctrl d)) s k t rows /\
                    dict_get k (sd_keys sd) = val rows).

(** The whole dictionary for a train: exactly the sources of the collection. *)
Definition train_view (val : list V -> option (tval V)) (d : dcoll) (t : Z)
  (r : list (string * src_data V)) : Prop :=
  (forall s, In s (dict_keys r) <-> In s (dc_sources d)) /\
  (forall s, In s (dc_sources d) -> exists sd, dict_get s r = Some sd /\ source_view val d t s sd).

(** The list of trains yielded. *)
Definition yields (d : dcoll) (items : list (res (Z * list (string * src_data V)))) (tids : list Z) : Prop :=
  Forall2 (fun o t => exists r, o = Ok (t, r) /\ train_view value_it d t r) items tids.


(** The value stored for a source and key in the dictionary of a train. *)
Definition item (r : list (string * src_data V)) (s k : string) : option (tval V) :=
  match dict_get s r with
  | Some sd => dict_get k (sd_keys sd)
  | None => None
  end.

(** Sequence files: train IDs increase inside each file of the source, and any
    two of the files cover separate ranges of trains. *)
Definition seqfiles_apart (f1 f2 : faccess) : Prop :=
  (forall t1 t2, In t1 (fa_tids f1) -> In t2 (fa_tids f2) -> t1 < t2)%Z \/
  (forall t1 t2, In t1 (fa_tids f1) -> In t2 (fa_tids f2) -> t2 < t1)%Z.
Definition sequence_files (d : dcoll) (s : string) : Prop :=
  (forall f, In f (dc_files d) -> In s (fa_sources f) -> StronglySorted Z.lt (fa_tids f)) /\
  ForallOrdPairs (fun f1 f2 => In s (fa_sources f1) -> In s (fa_sources f2) -> seqfiles_apart f1 f2)
                 (dc_files d).

End C.
