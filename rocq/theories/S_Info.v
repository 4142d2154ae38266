(** Specification vocabulary for detector_info, train_info and info. *)
From Verif Require Import Base M_Files M_Reader S_Reader S_Coll S_Series S_Stacking S_Components.
Set Implicit Arguments.
Local Open Scope string_scope.
Local Open Scope list_scope.

(** Order of names; Python compares strings by code points. *)
Definition name_le (a b : string) : Prop := String.leb a b = true.
Definition name_lt (a b : string) : Prop := name_le a b /\ a <> b.

Section I.
Context {V : Type}.
Notation faccess := (faccess V).
Notation dcoll := (dcoll V).

(** A file of the source, and none of them has a smaller name. *)
Definition first_file (d : dcoll) (s : string) (f : faccess) : Prop :=
  In f (dc_files d) /\ In s (fa_sources f) /\
  forall f', In f' (dc_files d) -> In s (fa_sources f') -> name_le (h5_name (fa_file f)) (h5_name (fa_file f')).

(** File [f] has [c] frames of source [s] for some train. *)
Definition frames_of (f : faccess) (s : string) (c : Z) : Prop :=
  exists t, In t (fa_tids f) /\ file_count (fa_file f) false s "image.data" t c.

(** The source is a detector module: <name>/DET/<digits>CH..., with the longest such name. *)
Definition module_named (s name digits : string) : Prop :=
  det_name "" s name /\ digits <> "" /\ all_digits digits /\
  exists rest, s = (name ++ "/DET/" ++ digits ++ "CH" ++ rest)%string.

(** Order of modules: by name, then by the digits as text. *)
Definition module_le (a b : string * string) : Prop :=
  name_lt (fst a) (fst b) \/ (fst a = fst b /\ name_le (snd a) (snd b)).
End I.
