(** Base layer of the model: Python exceptions as values, Python lists and
    slices, and the few numpy primitives the modelled code uses.
    Nothing here is specific to karabo_data; each definition names the Python /
    numpy operation it stands for. *)
From Coq Require Export List ZArith Lia Bool String Ascii.
From Coq Require Export Permutation Sorted.
Export ListNotations.
Set Implicit Arguments.

(** Python exception classes raised by the modelled code.
    karabo_data/exceptions.py defines SourceNameError, PropertyNameError and
    TrainIDError (all subclasses of KeyError). [EException] is a plain
    [Exception]. *)
Inductive exn :=
| EValueError | ETypeError | EIndexError | EKeyError | EAssertionError
| EAttributeError | EException | ESourceNameError | EPropertyNameError
| ETrainIDError | ENotImplementedError | EPermissionError | EOSError
| EFileNotFoundError | EJSONDecodeError | EMemoryError | ERuntimeError | EOverflowError.

(** Result of a Python call: a value, or a raised exception. *)
Inductive res (A : Type) :=
| Ok (a : A)
| Err (e : exn).
Arguments Ok {A} a.
Arguments Err {A} e.

Definition bind {A B} (x : res A) (f : A -> res B) : res B :=
  match x with Ok a => f a | Err e => Err e end.

Notation "'let*' x ':=' e 'in' k" := (bind e (fun x => k))
  (at level 200, x pattern, e at level 100, k at level 200, right associativity).

(** A loop [for x in l: ...] whose body may raise and yields one value. *)
Fixpoint mapM {A B} (f : A -> res B) (l : list A) : res (list B) :=
  match l with
  | [] => Ok []
  | x :: r => let* y := f x in let* ys := mapM f r in Ok (y :: ys)
  end.

(** A loop threading a state that may raise. *)
Fixpoint foldM {A S} (f : S -> A -> res S) (s : S) (l : list A) : res S :=
  match l with
  | [] => Ok s
  | x :: r => let* s' := f s x in foldM f s' r
  end.

Definition is_ok {A} (r : res A) : bool := match r with Ok _ => true | _ => false end.

(** ** Python lists *)

(** Python [l[i]]: negative indexes count from the end, IndexError outside. *)
Definition py_index {A} (l : list A) (i : Z) : res A :=
  let n := Z.of_nat (List.length l) in
  let j := if (i <? 0)%Z then (i + n)%Z else i in
  if ((0 <=? j) && (j <? n))%Z then
    match nth_error l (Z.to_nat j) with Some a => Ok a | None => Err EIndexError end
  else Err EIndexError.

(** [for x in l] at a known position, IndexError if too short. *)
Definition nth_res {A} (l : list A) (i : nat) : res A :=
  match nth_error l i with Some a => Ok a | None => Err EIndexError end.

(** CPython [slice(start, stop, step).indices(n)] (PySlice_AdjustIndices). *)
Record pyslice := mk_slice { sl_start : option Z; sl_stop : option Z; sl_step : option Z }.

Definition slice_clip (v n lower upper : Z) : Z :=
  if (v <? 0)%Z then Z.max (v + n) lower else Z.min v upper.

Definition slice_indices (s : pyslice) (n : Z) : res (Z * Z * Z) :=
  let step := match sl_step s with None => 1%Z | Some k => k end in
  if (step =? 0)%Z then Err EValueError else
  let neg := (step <? 0)%Z in
  let lower := if neg then (-1)%Z else 0%Z in
  let upper := if neg then (n - 1)%Z else n in
  let start := match sl_start s with
               | None => if neg then upper else lower
               | Some v => slice_clip v n lower upper end in
  let stop := match sl_stop s with
              | None => if neg then lower else upper
              | Some v => slice_clip v n lower upper end in
  Ok (start, stop, step).

(** Python [range(start, stop, step)] as a list. *)
Definition range_len (start stop step : Z) : Z :=
  if (0 <? step)%Z then
    (if start <? stop then (stop - start + step - 1) / step else 0)%Z
  else
    (if stop <? start then (start - stop - step - 1) / (- step) else 0)%Z.

Definition py_range (start stop step : Z) : list Z :=
  List.map (fun k => (start + Z.of_nat k * step)%Z)
           (List.seq 0 (Z.to_nat (range_len start stop step))).

(** Elements of [l] at the given (in range) positions. *)
Fixpoint pick {A} (l : list A) (ixs : list Z) : list A :=
  match ixs with
  | [] => []
  | i :: r => match nth_error l (Z.to_nat i) with
              | Some a => a :: pick l r
              | None => pick l r
              end
  end.

(** Python [l[start:stop:step]]. *)
Definition py_slice {A} (l : list A) (s : pyslice) : res (list A) :=
  let* p := slice_indices s (Z.of_nat (List.length l)) in
  let '(start, stop, step) := p in
  Ok (pick l (py_range start stop step)).

(** [l[a:b]] for non-negative [a], [b] (numpy/h5py unsigned positions). *)
Definition zslice {A} (l : list A) (a b : Z) : list A :=
  firstn (Z.to_nat (b - a)) (skipn (Z.to_nat a) l).

(** ** Sets and dictionaries with string keys
    A Python set is a list without duplicates (iteration order is insertion
    order; theorems only speak about membership).  A dict is an association
    list in insertion order. *)
Definition str_in (s : string) (l : list string) : bool := existsb (String.eqb s) l.
Definition z_in (z : Z) (l : list Z) : bool := existsb (Z.eqb z) l.

Definition set_add (s : string) (l : list string) : list string :=
  if str_in s l then l else l ++ [s].
Definition set_union (a b : list string) : list string := fold_left (fun acc s => set_add s acc) b a.
Definition set_inter (a b : list string) : list string := filter (fun s => str_in s b) a.
Definition set_minus (a b : list string) : list string := filter (fun s => negb (str_in s b)) a.

Fixpoint dict_get {B} (k : string) (d : list (string * B)) : option B :=
  match d with
  | [] => None
  | (k', v) :: r => if String.eqb k k' then Some v else dict_get k r
  end.
Fixpoint dict_set {B} (k : string) (v : B) (d : list (string * B)) : list (string * B) :=
  match d with
  | [] => [(k, v)]
  | (k', v') :: r => if String.eqb k k' then (k, v) :: r else (k', v') :: dict_set k v r
  end.
Definition dict_keys {B} (d : list (string * B)) : list string := List.map fst d.

(** ** Sorting: Python [sorted] is stable. *)
Section Sort.
  Context {A : Type} (leb : A -> A -> bool).
  Fixpoint insert_sorted (x : A) (l : list A) : list A :=
    match l with
    | [] => [x]
    | y :: r => if leb x y then x :: y :: r else y :: insert_sorted x r
    end.
  Definition isort (l : list A) : list A := fold_right insert_sorted [] l.
End Sort.

(** Python [sorted(l, key=key)] for an integer key. *)
Definition sort_key {A} (key : A -> Z) (l : list A) : list A :=
  isort (fun a b => key a <=? key b)%Z l.
Definition zsort (l : list Z) : list Z := sort_key (fun z => z) l.

(** Python [set(l)] on integers: first occurrences. *)
Fixpoint zdedup (l : list Z) : list Z :=
  match l with
  | [] => []
  | x :: r => x :: filter (fun y => negb (y =? x)%Z) (zdedup r)
  end.
(** Python [sorted(set(l))]. *)
Definition zsort_set (l : list Z) : list Z := zsort (zdedup l).

(** ** numpy *)
(** [np.sum] over unsigned integers (no overflow modelled). *)
Definition zsum (l : list Z) : Z := fold_right Z.add 0%Z l.

(** [np.repeat(vals, counts)] for arrays of the same length. *)
Definition np_repeat {A} (vals : list A) (counts : list Z) : list A :=
  flat_map (fun p => repeat (fst p) (Z.to_nat (snd p))) (combine vals counts).

(** [np.isin(a, b)]. *)
Definition np_isin (a b : list Z) : list bool := List.map (fun x => z_in x b) a.

(** [arr.nonzero()[0]] of a boolean array. *)
Fixpoint nonzero_from (i : nat) (l : list bool) : list nat :=
  match l with
  | [] => []
  | b :: r => if b then i :: nonzero_from (S i) r else nonzero_from (S i) r
  end.
Definition nonzero (l : list bool) : list nat := nonzero_from 0 l.

(** Wrap-around to unsigned 64 bit. *)
Definition u64 (z : Z) : Z := (z mod 2 ^ 64)%Z.
