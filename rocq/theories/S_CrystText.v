(** Specification: reading the text of a CrystFEL geometry file, by the rules of the format: a line is "key = value"; what
    follows a semicolon is a comment; blanks around keys and values do not count; other lines are ignored. *)

From Coq Require Import QArith.
From Verif Require Import Base PyStr M_Stacking S_Stacking S_Open M_Crystfel.

Local Open Scope string_scope.
Local Open Scope Z_scope.
Local Open Scope list_scope.

Definition newline_char : ascii := ascii_of_nat 10.
Definition blank (c : ascii) : bool := Ascii.eqb c " " || Ascii.eqb c (ascii_of_nat 9).
Fixpoint lstrip (s : string) : string := match s with "" => "" | String c r => if blank c then lstrip r else s end.
Fixpoint rstrip (s : string) : string :=
  match s with
  | "" => ""
  | String c r => match rstrip r with "" => if blank c then "" else String c "" | t => String c t end
  end.
Definition strip (s : string) : string := rstrip (lstrip s).

(** The key and the text of the value in a line. *)
Definition line_entry (s : string) : list (string * string) :=
  match py_partition "=" (fst (fst (py_partition ";" s))) with
  | (_, "", _) => []
  | (k, _, v) => [(strip k, strip v)]
  end.
Definition text_entries (text : string) : list (string * string) := flat_map line_entry (py_split newline_char text).

(** Integers and numbers; [read_num] is float(). *)
Fixpoint digitsb (s : string) : bool := match s with "" => true | String c r => is_digit c && digitsb r end.
Definition read_nat (s : string) : option Z := if negb (String.eqb s "") && digitsb s then Some (decimal s) else None.
Definition read_int (s : string) : option Z :=
  match s with String "-" r => option_map Z.opp (read_nat r) | _ => read_nat s end.
Section Read.
Variable read_num : string -> option Q.
Definition read_signed (s : string) : option Q := match s with String "+" r => read_num r | _ => read_num s end.
(** "+1.0x": the number before the name of the axis. *)
Fixpoint drop_last (c : ascii) (s : string) : option string :=
  match s with
  | "" => None
  | String a "" => if Ascii.eqb a c then Some "" else None
  | String a r => option_map (String a) (drop_last c r)
  end.
Definition read_part (c : ascii) (s : string) : option Q := match drop_last c s with Some t => read_signed t | None => None end.
Definition read_vec (s : string) : option cfval :=
  match py_split " " s with
  | [x; y] => match read_part "x" x, read_part "y" y with Some a, Some b => Some (CVec a b None) | _, _ => None end
  | [x; y; z] => match read_part "x" x, read_part "y" y, read_part "z" z with Some a, Some b, Some c => Some (CVec a b (Some c)) | _, _, _ => None end
  | _ => None
  end.
(** What kind of value a key has depends on its last part, as in p3a0/min_fs. *)
Definition last_part (key : string) : string := match py_partition "/" key with (k, "", _) => k | (_, _, f) => f end.
Definition read_value (key text : string) : option cfval :=
  let f := last_part key in
  if str_in f ["min_fs"; "min_ss"; "max_fs"; "max_ss"] then option_map CInt (read_int text)
  else if str_in f ["res"; "photon_energy"; "clen"; "adu_per_eV"; "corner_x"; "corner_y"; "coffset"] then option_map CNum (read_num text)
  else if str_in f ["fs"; "ss"] then read_vec text
  else if starts_with "dim" f then Some (match read_int text with Some z => CInt z | None => CText text end)
  else Some (CText text).
Fixpoint read_entries (l : list (string * string)) : option cffile :=
  match l with
  | [] => Some []
  | (k, t) :: r => match read_value k t, read_entries r with Some v, Some f => Some ((k, v) :: f) | _, _ => None end
  end.
Definition read_text (text : string) : option cffile := read_entries (text_entries text).
End Read.

(** The same values, numbers being equal. *)
Definition same_value (v w : cfval) : Prop :=
  match v, w with
  | CText s, CText t => s = t
  | CInt a, CInt b => a = b
  | CNum p, CNum q => (p == q)%Q
  | CVec x y z, CVec x' y' z' => (x == x')%Q /\ (y == y')%Q /\ match z, z' with None, None => True | Some a, Some b => (a == b)%Q | _, _ => False end
  | _, _ => False
  end.
Definition same_lines (f f' : cffile) : Prop := Forall2 (fun a b => fst a = fst b /\ same_value (snd a) (snd b)) f f'.

(** A text as one word: nothing in it ends a line, a key or a value. *)
Definition word (s : string) : Prop := forall c, has_char c s -> blank c = false /\ c <> newline_char /\ c <> ";"%char /\ c <> "="%char.
(** The number can be read back from its text. *)
Definition good_number (num_text : Q -> string) (read_num : string -> option Q) (q : Q) : Prop :=
  word (num_text q) /\ (forall r, num_text q <> String "+" r) /\ exists q', read_num (num_text q) = Some q' /\ (q' == q)%Q.
Definition numbers (v : cfval) : list Q :=
  match v with CNum q => [q] | CVec x y None => [x; y] | CVec x y (Some z) => [x; y; z] | _ => [] end.
(** A path is on one line, has no semicolon, and no blanks at its ends. *)
Definition good_path (p : string) : Prop := ~ has_char ";" p /\ ~ has_char newline_char p /\ lstrip p = p /\ rstrip p = p.
