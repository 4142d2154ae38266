(** Specification vocabulary for selecting trains, sources and keys. *)
From Verif Require Import Base M_Machinery.
Set Implicit Arguments.
Local Open Scope Z_scope.

(** ** Python slices, from the Python library reference ("Sequence Types",
    notes 3-5): negative positions are relative to the end; the slice from i to j
    with step k has the items at x = i + m*k, m >= 0, before j; a start beyond an
    end is taken at that end. *)
Definition the_step (s : pyslice) : Z := match sl_step s with None => 1 | Some k => k end.
Definition from_end (n v : Z) : Z := if v <? 0 then v + n else v.
Definition slice_from (n : Z) (s : pyslice) : Z :=
  if 0 <? the_step s
  then match sl_start s with None => 0 | Some v => Z.max 0 (from_end n v) end
  else match sl_start s with None => n - 1 | Some v => Z.min (n - 1) (from_end n v) end.
Definition before_stop (n : Z) (s : pyslice) (x : Z) : Prop :=
  match sl_stop s with
  | None => True
  | Some v => if 0 <? the_step s then x < from_end n v else from_end n v < x
  end.
Definition in_slice (n : Z) (s : pyslice) (x : Z) : Prop :=
  0 <= x < n /\ before_stop n s x /\ exists m, 0 <= m /\ x = slice_from n s + m * the_step s.

(** [r] is the slice of [l]. *)
Definition is_slice {A} (l : list A) (s : pyslice) (r : list A) : Prop :=
  exists ps,
    (forall x, In x ps <-> in_slice (Z.of_nat (List.length l)) s x) /\
    StronglySorted (fun x y => if 0 <? the_step s then x < y else y < x) ps /\
    Forall2 (fun p a => nth_error l (Z.to_nat p) = Some a) ps r.

(** ** Ranges of train IDs *)
(** [a <= t < b], with missing bounds unlimited. *)
Definition in_range (a b : option Z) (t : Z) : bool :=
  (match a with None => true | Some x => x <=? t end) && (match b with None => true | Some x => t <? x end).
(** [t] is missing from the run, but the run has trains before and after it. *)
Definition inside_gap (l : list Z) (t : Z) : Prop :=
  ~ In t l /\ (exists x, In x l /\ x < t) /\ (exists x, In x l /\ t < x).
(** Bounds the code handles: not a Python int inside a gap (see C10_gap_refuted). *)
Definition usable_bound (l : list Z) (b : option user_tid) : Prop :=
  match b with Some (PyInt t) => ~ inside_gap l t | _ => True end.
(** Start after the last train, or stop before the first. *)
Definition outside (l : list Z) (a b : option Z) : Prop :=
  (exists t, a = Some t /\ forall x, In x l -> x < t) \/ (exists t, b = Some t /\ forall x, In x l -> t < x).
