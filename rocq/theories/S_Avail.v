(** Specification vocabulary: which sources and keys a collection offers. *)
From Verif Require Import Base M_Files M_Machinery M_Reader S_Glob S_Coll.
Set Implicit Arguments.
Local Open Scope string_scope.
Local Open Scope list_scope.

Section A.
Context {V : Type}.
Notation faccess := (faccess V).
Notation dcoll := (dcoll V).

(** Key [k] of source [s] can be read: [s] is among all_sources and [k] among
    keys_for_source(s) (both public). *)
Definition available (d : dcoll) (s k : string) : Prop :=
  In s (dc_sources d) /\ exists ks, keys_for_source d s = Ok ks /\ In k ks.

(** The first file of the collection with source [s]. *)
Definition first_file (d : dcoll) (s : string) (f : faccess) : Prop :=
  exists a b, dc_files d = a ++ f :: b /\ In s (fa_sources f) /\ forall g, In g a -> ~ In s (fa_sources g).
(** [k] is one of the keys found for [s] in the (first) file. *)
Definition stored_key (d : dcoll) (s k : string) : Prop :=
  exists f ks, first_file d s f /\ fa_get_keys f s = Ok ks /\ In k ks.
(** No key was selected (with a dictionary) which is not in the files. *)
Definition real_keys (d : dcoll) : Prop := forall s k, available d s k -> stored_key d s k.

Definition is_control (d : dcoll) (s : string) : bool := str_in s (dc_ctrl d).

(** A pair of glob patterns hits a key of a source / hits a source. *)
Definition hits (d : dcoll) (p : string * string) (s k : string) : Prop :=
  glob (fst p) s /\ key_glob (is_control d s) (snd p) k.
Definition hits_source (d : dcoll) (p : string * string) (s : string) : Prop :=
  In s (dc_sources d) /\ glob (fst p) s /\ (snd p = "*" \/ exists k, available d s k /\ hits d p s k).
(** Both patterns are accepted. *)
Definition valid_pair (p : string * string) : Prop := valid_pattern (fst p) /\ valid_pattern (snd p).

(** Two of the files both hold some source and some train. *)
Definition conflicting (files : list faccess) : Prop :=
  exists a f1 b f2 c s t, files = a ++ f1 :: b ++ f2 :: c /\
    In s (fa_sources f1) /\ In s (fa_sources f2) /\ In t (fa_tids f1) /\ In t (fa_tids f2).
End A.
