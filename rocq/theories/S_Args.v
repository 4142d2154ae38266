(** Specification for the arguments devices and train_range. *)
From Verif Require Import Base M_Files M_Machinery M_Reader M_Glob M_Select S_Coll S_Glob S_Avail.
Set Implicit Arguments.

Section A.
Context {V : Type}.
Notation dcoll := (dcoll V).

(** A key of a source is asked for: it is in the collection, and some pair of patterns matches it, if
    patterns are given. *)
Definition asked (d : dcoll) (devices : option (list (string * string))) (s k : string) : Prop :=
  available d s k /\ match devices with None => True | Some L => exists p, In p L /\ hits d p s k end.
(** A source is asked for: it is in the collection and, if patterns are given, one of its keys is, or the key
    pattern is just "*". *)
Definition asked_source (d : dcoll) (devices : option (list (string * string))) (s : string) : Prop :=
  In s (dc_sources d) /\ match devices with None => True | Some L => exists p, In p L /\ hits_source d p s end.

(** The patterns can be used: they are well-formed and each finds something. *)
Definition usable (d : dcoll) (devices : option (list (string * string))) : Prop :=
  match devices with
  | None => True
  | Some L => Forall valid_pair L /\ forall p, In p L -> exists s, hits_source d p s
  end.

(** Where the key pattern is just "*", the keys of the source have not been selected before.  (Such a pair brings back
    all keys of the source.) *)
Definition keeps_keys (d : dcoll) (devices : option (list (string * string))) : Prop :=
  match devices with
  | None => True
  | Some L => forall p s k, In p L -> snd p = "*"%string -> glob (fst p) s -> In s (dc_sources d) -> (stored_key d s k <-> available d s k)
  end.

(** The data of a train, restricted to what is asked for: [same] compares the values. *)
Definition restricted (same : option (tval V) -> option (tval V) -> Prop) (d : dcoll) (devices : option (list (string * string)))
  (whole part : list (string * src_data V)) : Prop :=
  (forall s k, asked d devices s k -> same (item whole s k) (item part s k)) /\
  (forall s k, ~ asked d devices s k -> item part s k = None) /\
  (forall s, In s (dict_keys part) -> asked_source d devices s).

(** trains() gives an empty array where train_from_id gives nothing. *)
Definition same_or_empty (a b : option (tval V)) : Prop := b = a \/ (a = None /\ b = Some (Many [])).
End A.
