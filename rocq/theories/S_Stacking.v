(** Specification vocabulary for stacking detector modules. *)
From Verif Require Import Base PyStr M_Nd M_Stacking.
Set Implicit Arguments.
Local Open Scope string_scope.
Local Open Scope list_scope.

(** The index tuples of an array of given shape. *)
Definition in_range (shape idx : list nat) : Prop := Forall2 (fun i n => (i < n)%nat) idx shape.
(** Two arrays are the same. *)
Definition nd_same {V} (a b : nd V) : Prop :=
  nd_dtype a = nd_dtype b /\ nd_shape a = nd_shape b /\
  forall idx, in_range (nd_shape a) idx -> nd_at a idx = nd_at b idx.

(** ** Numbers in names *)
Fixpoint all_digits (s : string) : Prop :=
  match s with EmptyString => True | String c r => is_digit c = true /\ all_digits r end.
(** The value of a decimal numeral. *)
Fixpoint decimal (s : string) : Z :=
  match s with EmptyString => 0 | String c r => digit_val c * 10 ^ Z.of_nat (String.length r) + decimal r end.
(** The name contains /DET/nCH. *)
Definition names_module (dev : string) (n : Z) : Prop :=
  exists a ds b, dev = (a ++ "/DET/" ++ ds ++ "CH" ++ b)%string /\ ds <> "" /\ all_digits ds /\ n = decimal ds.
(** The number of the first /DET/nCH in the name. *)
Definition module_number (dev : string) (n : Z) : Prop :=
  exists a ds b, dev = (a ++ "/DET/" ++ ds ++ "CH" ++ b)%string /\ ds <> "" /\ all_digits ds /\ n = decimal ds /\
    forall a' ds' b', dev = (a' ++ "/DET/" ++ ds' ++ "CH" ++ b')%string -> ds' <> "" -> all_digits ds' -> (String.length a <= String.length a')%nat.
(** The groups of digits of a name. *)
Definition no_digit_first (s : string) : Prop := match s with EmptyString => True | String c _ => is_digit c = false end.
Inductive digit_groups : string -> list Z -> Prop :=
| dg_end : digit_groups "" []
| dg_skip : forall c s l, is_digit c = false -> digit_groups s l -> digit_groups (String c s) l
| dg_group : forall ds s l, ds <> "" -> all_digits ds -> no_digit_first s -> digit_groups s l ->
    digit_groups (ds ++ s)%string (decimal ds :: l).
(** Order of lists of numbers: the first difference decides. *)
Definition lex_le (a b : list Z) : Prop :=
  (exists t, b = a ++ t) \/ (exists p x y a' b', a = p ++ x :: a' /\ b = p ++ y :: b' /\ (x < y)%Z).

Section S.
Context {V : Type}.
Notation nd := (nd V).
Notation train_data := (@train_data V).
(** The arrays under [key], and the last one of module [m]. *)
Definition arrays_of (train : train_data) (key : string) : list nd :=
  flat_map (fun d => match dict_get key (snd d) with Some a => [a] | None => [] end) train.
Definition is_module (train : train_data) (key : string) (m : Z) (a : nd) : Prop :=
  exists before dev keys after, train = before ++ (dev, keys) :: after /\ find_module dev = Some m /\ dict_get key keys = Some a /\
    forall d ks, In (d, ks) after -> find_module d = Some m -> dict_get key ks = None.
(** Without rows, but otherwise of this shape. *)
Definition empty_of (shape s : list nat) : Prop := shape <> [] /\ s = 0%nat :: tl shape.
(** Position of the new axis in an array of [ndim] dimensions: negative numbers count from the end (and are also accepted a
    second time round, which numpy would refuse). *)
Definition stack_axis (ndim : nat) (axis : Z) (k : nat) : Prop :=
  (k < ndim)%nat /\ (axis = Z.of_nat k \/ axis + Z.of_nat ndim = Z.of_nat k \/ axis + 2 * Z.of_nat ndim = Z.of_nat k)%Z.
(** Can be stacked: all sources are detector modules; all arrays have type [dt], and shape [shape] or no rows; some module
    has that shape, and all those which do have a number below [modules]; and the axis exists. *)
Definition stackable (train : train_data) (key : string) (axis modules : Z) (shape : list nat) (dt : string) (k : nat) : Prop :=
  (forall dev keys, In (dev, keys) train -> exists m, find_module dev = Some m) /\
  (forall a, In a (arrays_of train key) -> nd_dtype a = dt /\ (nd_shape a = shape \/ empty_of shape (nd_shape a))) /\
  (exists m a, is_module train key m a /\ nd_shape a = shape) /\
  (forall m a, is_module train key m a -> nd_shape a = shape -> (m < modules)%Z) /\
  stack_axis (S (List.length shape)) axis k.
(** What is in place of module [m]. *)
Definition shown (cast : string -> V -> V) (train : train_data) (key : string) (shape : list nat) (dt : string) (fill : V) (m : Z) (idx : list nat) (x : V) : Prop :=
  (exists a, is_module train key m a /\ nd_shape a = shape /\ x = nd_at a idx) \/
  ((forall a, is_module train key m a -> nd_shape a <> shape) /\ x = cast dt fill).

(** ** The lazy view *)
(** A view of modules of one shape and type, numbered from 0. *)
Definition good_view (v : sview) : Prop :=
  (0 <= sv_axis v <= Z.of_nat (List.length (sv_mod_shape v)))%Z /\
  NoDup (map fst (sv_data v)) /\ sv_data v <> [] /\
  forall m (a : nd), In (m, a) (sv_data v) -> (0 <= m < sv_n v)%Z /\ nd_shape a = sv_mod_shape v /\ nd_dtype a = sv_dtype v.
(** The index expression has at most one Ellipsis, no more indexes than dimensions, and selects one module (counting from the
    end at most once round) or all modules. *)
Definition for_view (v : sview (V := V)) (ixs : list npix) : Prop :=
  exists full i, np_expand (sv_ndim v) ixs = Ok full /\ nth_error full (Z.to_nat (sv_axis v)) = Some i /\
    (i = full_slice \/ exists z, i = IInt z /\ (- sv_n v <= z)%Z).
(** Two axes following the module axis are kept (sliced, not indexed by integers). *)
Fixpoint kept (ixs : list npix) : nat :=
  match ixs with [] => 0 | ISlice _ :: r => S (kept r) | _ :: r => kept r end.
Definition keeps_two (v : sview (V := V)) (ixs : list npix) : Prop :=
  forall full, np_expand (sv_ndim v) ixs = Ok full -> kept (skipn (S (Z.to_nat (sv_axis v))) full) = 2%nat.
End S.

(** ** stack_data *)
(** In the order of the numbers in the names. *)
Definition by_numbers (a b : string) : Prop := forall la lb, digit_groups a la -> digit_groups b lb -> lex_le la lb.
(** The sources to be stacked, in that order, with their arrays. *)
Definition to_stack {V} (train : @train_data V) (key : string) (xcept : list string) (devs : list string) (arrays : list (nd V)) : Prop :=
  NoDup devs /\ StronglySorted by_numbers devs /\
  (forall d, In d devs <-> In d (map fst train) /\ ~ In d xcept) /\
  Forall2 (fun d a => exists keys, In (d, keys) train /\ dict_get key keys = Some a) devs arrays.
