(** What glob patterns mean (docs of Python's fnmatch, /repo/docs/reading_files.rst):
    a relation directly between the characters of a pattern and of a name. *)
From Verif Require Import Base.
Local Open Scope char_scope.
Local Open Scope list_scope.

(** [c] is in the set written [body]: single characters and ranges lo-hi. *)
Definition starts_range (l : list ascii) : Prop := exists hi r, l = "-" :: hi :: r.
Inductive in_set (c : ascii) : list ascii -> Prop :=
| set_range : forall lo hi r, (nat_of_ascii lo <= nat_of_ascii c <= nat_of_ascii hi)%nat ->
    in_set c (lo :: "-" :: hi :: r)
| set_range_next : forall lo hi r, in_set c r -> in_set c (lo :: "-" :: hi :: r)
| set_char : forall r, ~ starts_range r -> in_set c (c :: r)
| set_char_next : forall x r, ~ starts_range r -> in_set c r -> in_set c (x :: r).

(** After an opening bracket, [l] is: an optional '!', a non-empty body where only
    the first character may be ']', a closing ']', and the rest of the pattern. *)
Definition bracket (l : list ascii) (neg : bool) (body rest : list ascii) : Prop :=
  l = (if neg then ["!"] else []) ++ body ++ "]" :: rest /\
  body <> [] /\ ~ In "]" (tl body) /\ (neg = false -> hd_error body <> Some "!").

Inductive matches : list ascii -> list ascii -> Prop :=
| m_end : matches [] []
| m_star : forall p s1 s2, matches p s2 -> matches ("*" :: p) (s1 ++ s2)
| m_any : forall p c s, matches p s -> matches ("?" :: p) (c :: s)
| m_set : forall l neg body rest c s, bracket l neg body rest ->
    (if neg then ~ in_set c body else in_set c body) ->
    matches rest s -> matches ("[" :: l) (c :: s)
| m_char : forall c p s, c <> "*" -> c <> "?" ->
    (c = "[" -> forall neg body rest, ~ bracket p neg body rest) ->
    matches p s -> matches (c :: p) (c :: s).

(** Patterns which are accepted: no set has a range lo-hi with lo after hi. *)
Inductive good_set : list ascii -> Prop :=
| gs_end : good_set []
| gs_range : forall lo hi r, (nat_of_ascii lo <= nat_of_ascii hi)%nat -> good_set r -> good_set (lo :: "-" :: hi :: r)
| gs_char : forall x r, ~ starts_range r -> good_set r -> good_set (x :: r).
Inductive accepted : list ascii -> Prop :=
| a_end : accepted []
| a_set : forall l neg body rest, bracket l neg body rest -> good_set body -> accepted rest -> accepted ("[" :: l)
| a_char : forall c p, (c = "[" -> forall neg body rest, ~ bracket p neg body rest) -> accepted p -> accepted (c :: p).

(** On strings. *)
Definition valid_pattern (pattern : string) : Prop := accepted (list_ascii_of_string pattern).
Definition glob (pattern name : string) : Prop :=
  matches (list_ascii_of_string pattern) (list_ascii_of_string name).

(** Keys of control sources: '.value' may be left out of the pattern. *)
Definition ends (suffix s : string) : Prop := exists p, s = (p ++ suffix)%string.
Definition key_glob (is_ctrl : bool) (pattern key : string) : Prop :=
  glob pattern key \/
  (is_ctrl = true /\ ~ ends ".value" pattern /\ ~ ends "*" pattern /\
   exists k, key = (k ++ ".value")%string /\ glob pattern k).
