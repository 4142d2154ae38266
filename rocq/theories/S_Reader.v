(** Specification vocabulary for reading data, written from
    /repo/docs/data_format.rst and /repo/docs/reading_files.rst.
    It only uses the types of the file model (M_Files) and list operations. *)
From Verif Require Import Base M_Files.
Set Implicit Arguments.
Local Open Scope string_scope.
Local Open Scope list_scope.

(** ** Regions of a selection mask *)
(** [rs] is the list of maximal regions [a, b) of consecutive selected
    positions of [mask]: they cover exactly the selected positions, are not
    empty, and between two of them there is at least one position not selected. *)
Definition maximal_regions (mask : list bool) (rs : list (nat * nat)) : Prop :=
  (forall i, nth_error mask i = Some true <-> exists a b, In (a, b) rs /\ a <= i < b)%nat
  /\ Forall (fun r => fst r < snd r)%nat rs
  /\ StronglySorted (fun r1 r2 => snd r1 < fst r2)%nat rs.

(** ** Which rows of a file belong to a train *)
(** In a key, dots separate what are slashes in the path of the dataset. *)
Fixpoint dots_to_slashes (k : string) : string :=
  match k with
  | EmptyString => EmptyString
  | String c r => String (if Ascii.eqb c "."%char then "/"%char else c) (dots_to_slashes r)
  end.
(** The group of a key: what precedes the first dot. *)
Fixpoint before_dot (k : string) : string :=
  match k with
  | EmptyString => EmptyString
  | String c r => if Ascii.eqb c "."%char then EmptyString else String c (before_dot r)
  end.

(** Control sources have one index entry, instrument sources one per group;
    [kind] is true for a control source. *)
Definition index_key (is_ctrl : bool) (source key : string) : string :=
  if is_ctrl then source
  else if String.eqb (before_dot key) "" then source
  else (source ++ "/" ++ before_dot key)%string.
Definition data_key (is_ctrl : bool) (source key : string) : string :=
  ((if is_ctrl then "CONTROL" else "INSTRUMENT") ++ "/" ++ source ++ "/" ++ dots_to_slashes key)%string.

Section Spec.
Context {V : Type}.

(** How many rows an index entry gives to the train at position [p]. *)
Definition entry_count (g : ix_group) (p : nat) : option Z :=
  match ix_more g with
  | IxCount c => nth_error c p
  | IxLastStatus l s =>
      match nth_error l p, nth_error (ix_first g) p, nth_error s p with
      | Some last, Some first, Some st => Some (if (st =? 0)%Z then 0%Z else (last - first + 1)%Z)
      | _, _, _ => None
      end
  end.

(** docs/data_format.rst, 'INDEX':
      train_index = trainIds.index(train_id)
      first = device_firsts[train_index]
      count = device_counts[train_index]
      train_data = data[first : first+count] *)
Definition file_rows (f : h5file V) (is_ctrl : bool) (source key : string) (t : Z) (rows : list V)
  : Prop :=
  exists raw p g first count ds,
    h5_trainid f = Some raw /\
    nth_error raw p = Some t /\ (forall q, q < p -> nth_error raw q <> Some t)%nat /\
    dict_get (index_key is_ctrl source key) (h5_index f) = Some g /\
    nth_error (ix_first g) p = Some first /\
    entry_count g p = Some count /\
    dict_get (data_key is_ctrl source key) (h5_data f) = Some ds /\
    rows = firstn (Z.to_nat count) (skipn (Z.to_nat first) (ds_rows ds)).

(** The rows carrying label [t] in a labelled array. *)
Definition rows_labelled (t : Z) (labels : list Z) (rows : list V) : list V :=
  map snd (filter (fun p => (fst p =? t)%Z) (combine labels rows)).

(** ** Validity of files *)
(** Train IDs: different non-zero numbers, then zeros as padding. *)
Definition tids_ok (f : h5file V) : Prop :=
  exists tids pad, h5_trainid f = Some (tids ++ repeat 0%Z pad) /\
    NoDup tids /\ Forall (fun t => 0 < t)%Z tids.

(** An index entry for [n] trains is readable if every train has a first row
    and a count.  Values are unsigned 64 bit; in the old format status is 0 or 1.
    It is ok if also each train's rows follow those of the previous train. *)
Definition u64_range (z : Z) : Prop := (0 <= z < 2 ^ 64)%Z.
Definition ix_wellformed (g : ix_group) : Prop :=
  match ix_more g with
  | IxCount c => True
  | IxLastStatus l s => Forall u64_range (ix_first g) /\ Forall u64_range l /\
                        Forall (fun x => x = 0 \/ x = 1)%Z s
  end.
Definition index_readable (g : ix_group) (n : nat) : Prop :=
  ix_wellformed g /\
  (forall p, (p < n)%nat -> exists a c,
      nth_error (ix_first g) p = Some a /\ entry_count g p = Some c /\
      (0 <= a)%Z /\ u64_range c).
Definition index_ok (g : ix_group) (n : nat) : Prop :=
  index_readable g n /\
  (forall p a c b, (S p < n)%nat ->
      nth_error (ix_first g) p = Some a -> entry_count g p = Some c ->
      nth_error (ix_first g) (S p) = Some b -> b = (a + c)%Z).

End Spec.
