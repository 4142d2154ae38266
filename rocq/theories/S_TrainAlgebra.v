(** Arguments which select and deselect are meant to be used with. *)
From Verif Require Import Base M_Select S_Avail.

(** Pairs of patterns which both can be used, or a dictionary (no source twice) of
    non-empty sets of keys. *)
Definition proper (a : sel_arg) : Prop :=
  match a with
  | SelGlobs L => Forall valid_pair L
  | SelDict l => (forall s ks, In (s, ks) l -> ks <> []) /\ NoDup (map fst l)
  | SelOther => False
  end.
