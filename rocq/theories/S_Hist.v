(** Specification vocabulary: histories of selections, unions. *)
From Verif Require Import Base M_Files M_Machinery M_Reader M_Glob M_Select S_Coll S_Avail.
Set Implicit Arguments.
Local Open Scope string_scope.
Local Open Scope list_scope.

Section H.
Context {V : Type}.
Notation faccess := (faccess V).
Notation dcoll := (dcoll V).

(** [d'] is obtained from [d] by any number of selections. *)
Inductive derived (d : dcoll) : dcoll -> Prop :=
| derived_refl : derived d d
| derived_select : forall d1 a d2, derived d d1 -> select d1 a = Ok d2 -> derived d d2
| derived_deselect : forall d1 a d2, derived d d1 -> deselect d1 a = Ok d2 -> derived d d2
| derived_trains : forall d1 tr d2, derived d d1 -> select_trains d1 tr = Ok d2 -> derived d d2.

(** The same, where select is only used with patterns and never with the key pattern "*". *)
Inductive derived_narrow (d : dcoll) : dcoll -> Prop :=
| narrow_refl : derived_narrow d d
| narrow_select : forall d1 L d2, derived_narrow d d1 -> (forall p, In p L -> snd p <> "*") ->
    select d1 (SelGlobs L) = Ok d2 -> derived_narrow d d2
| narrow_deselect : forall d1 a d2, derived_narrow d d1 -> deselect d1 a = Ok d2 -> derived_narrow d d2
| narrow_trains : forall d1 tr d2, derived_narrow d d1 -> select_trains d1 tr = Ok d2 -> derived_narrow d d2.

(** The files of a source all have the same keys. *)
Definition uniform_keys (files : list faccess) : Prop :=
  forall f f' s ks ks', In f files -> In f' files -> In s (fa_sources f) -> In s (fa_sources f') ->
    fa_get_keys f s = Ok ks -> fa_get_keys f' s = Ok ks' -> forall k, In k ks <-> In k ks'.

(** Every source selected is held by a file of the collection (this can be lost by
    select_trains, which drops files without a selected train). *)
Definition settled (d : dcoll) : Prop :=
  forall s, In s (dict_keys (dc_sel d)) -> In s (dc_sources d).

(** Files with the same name are the same file. *)
Definition consistent_names (files : list faccess) : Prop :=
  forall f f', In f files -> In f' files -> h5_name (fa_file f) = h5_name (fa_file f') -> f = f'.

(** Two collections a user cannot tell apart. *)
Definition same_content (d1 d2 : dcoll) : Prop :=
  dc_tids d1 = dc_tids d2 /\
  (forall s, In s (dc_sources d1) <-> In s (dc_sources d2)) /\
  (forall s k, available d1 s k <-> available d2 s k) /\
  (forall f s t, holds d1 f s t <-> holds d2 f s t).
End H.
