(** Python [str] operations used by the modelled code, on Coq strings
    (ASCII/byte strings; the names handled by the code are ASCII). *)
From Verif Require Import Base.
Set Implicit Arguments.
Local Open Scope string_scope.
Local Open Scope list_scope.

(** [s.partition(c)] for a one-character separator: (before, sep, after);
    when the separator is absent, (s, '', ''). *)
Fixpoint py_partition (c : ascii) (s : string) : string * string * string :=
  match s with
  | EmptyString => ("", "", "")
  | String a r =>
      if Ascii.eqb a c then ("", String c "", r)
      else let '(x, y, z) := py_partition c r in (String a x, y, z)
  end.

(** [s.replace(c, d)] for one-character strings. *)
Fixpoint py_replace (c d : ascii) (s : string) : string :=
  match s with
  | EmptyString => ""
  | String a r => String (if Ascii.eqb a c then d else a) (py_replace c d r)
  end.

(** [c in s] for a one-character string. *)
Fixpoint char_in (c : ascii) (s : string) : bool :=
  match s with
  | EmptyString => false
  | String a r => Ascii.eqb a c || char_in c r
  end.

(** [s.startswith(p)] *)
Fixpoint starts_with (p s : string) : bool :=
  match p, s with
  | EmptyString, _ => true
  | String a p', String b s' => Ascii.eqb a b && starts_with p' s'
  | _, _ => false
  end.

(** The remainder of [s] after prefix [p], if [s] starts with [p]. *)
Fixpoint strip_prefix (p s : string) : option string :=
  match p, s with
  | EmptyString, _ => Some s
  | String a p', String b s' => if Ascii.eqb a b then strip_prefix p' s' else None
  | _, EmptyString => None
  end.

(** [s.endswith(p)] *)
Fixpoint ends_with (p s : string) : bool :=
  String.eqb p s ||
  match s with
  | EmptyString => false
  | String _ r => ends_with p r
  end.

(** [s.rjust(n, c)] *)
Fixpoint str_repeat (c : ascii) (n : nat) : string :=
  match n with O => "" | S m => String c (str_repeat c m) end.
Definition py_rjust (s : string) (n : nat) (c : ascii) : string :=
  (str_repeat c (n - String.length s) ++ s)%string.

(** [s.split(c)] for a one-character separator. *)
Fixpoint py_split (c : ascii) (s : string) : list string :=
  match s with
  | EmptyString => [""]
  | String a r =>
      if Ascii.eqb a c then "" :: py_split c r
      else match py_split c r with
           | [] => [String a ""]
           | w :: ws => String a w :: ws
           end
  end.

Definition slash : ascii := "/"%char.
Definition dot : ascii := "."%char.
Definition colon : ascii := ":"%char.
