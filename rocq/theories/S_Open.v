(** Specification vocabulary: opening a file (docs/data_format.rst, 'METADATA'). *)
From Verif Require Import Base M_Files.
Set Implicit Arguments.
Local Open Scope string_scope.
Local Open Scope list_scope.

Fixpoint has_char (c : ascii) (s : string) : Prop :=
  match s with EmptyString => False | String a r => a = c \/ has_char c r end.

(** [s] is cut at its first [c] into [before] and [after]; without [c],
    everything is before. *)
Definition cut (c : ascii) (s before after : string) : Prop :=
  ~ has_char c before /\ (s = (before ++ String c after)%string \/ (s = before /\ after = "")).

(** The metadata lists entries CONTROL/{source} and
    INSTRUMENT/{device}:{channel}/{group}; empty entries are padding. *)
Definition category (e cat : string) : Prop := exists rest, cut "/" e cat rest.
Definition names_control (e s : string) : Prop := cut "/" e "CONTROL" s.
Definition names_instrument (e s : string) : Prop :=
  exists rest device chan_grp chan grp,
    cut "/" e "INSTRUMENT" rest /\ cut ":" rest device chan_grp /\ cut "/" chan_grp chan grp /\
    s = (device ++ ":" ++ chan)%string.
Definition good_entry (e : string) : Prop := e = "" \/ category e "CONTROL" \/ category e "INSTRUMENT".

Section O.
Context {V : Type}.
(** Where the list is depends on the format version. *)
Definition metadata_list (f : h5file V) : option (list string) :=
  match h5_version f with
  | None => h5_sources05 f
  | Some v => if String.eqb v "0.5" then h5_sources05 f else h5_sources10 f
  end.
End O.
