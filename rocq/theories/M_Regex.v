(** A backtracking matcher for the regular expressions of Python's re module, of
    the forms used in run_files_map.py. *)
From Verif Require Import Base PyStr.
Set Implicit Arguments.
Local Open Scope string_scope.
Local Open Scope list_scope.

Inductive re :=
| RLit (s : string)            (* characters which stand for themselves *)
| RPlus (p : ascii -> bool)    (* one or more characters of a class, as many as possible *)
| ROpt (r : re)                (* r?: with r if possible *)
| RAlt (a b : re)              (* a|b: a if possible *)
| RSeq (a b : re)
| RGroup (r : re)              (* a group, without groups in it *)
| REnd.                        (* $: at the end, or before a newline at the end *)

Definition newline : ascii := ascii_of_nat 10.

(** The first [n] characters. *)
Fixpoint take_s (n : nat) (s : string) : string :=
  match n, s with S n', String c r => String c (take_s n' r) | _, _ => "" end.
(** What was consumed, if [rest] is left of [s]. *)
Definition consumed (s rest : string) : string := take_s (String.length s - String.length rest) s.

(** Matching in continuation style: [k] is what remains to be matched, it is tried after
    every way of matching [r], in the order in which the re module tries them.  [caps] are the groups so far. *)
Section Match.
Notation cont := (string -> list string -> option (list string)).
Fixpoint m_star (p : ascii -> bool) (s : string) (caps : list string) (k : cont) : option (list string) :=
  match s with
  | String c r => if p c then match m_star p r caps k with Some x => Some x | None => k s caps end else k s caps
  | EmptyString => k s caps
  end.
Fixpoint m_re (r : re) (s : string) (caps : list string) (k : cont) {struct r} : option (list string) :=
  match r with
  | RLit l => match strip_prefix l s with Some rest => k rest caps | None => None end
  | RPlus p => match s with String c t => if p c then m_star p t caps k else None | EmptyString => None end
  | ROpt a => match m_re a s caps k with Some x => Some x | None => k s caps end
  | RAlt a b => match m_re a s caps k with Some x => Some x | None => m_re b s caps k end
  | RSeq a b => m_re a s caps (fun rest caps' => m_re b rest caps' k)
  | RGroup a => m_re a s caps (fun rest caps' => k rest (caps' ++ [consumed s rest]))
  | REnd => match s with
            | EmptyString => k s caps
            | String c EmptyString => if Ascii.eqb c newline then k s caps else None
            | _ => None
            end
  end.
(** re.match(r, s), as the groups of the match. *)
Definition re_match (r : re) (s : string) : option (list string) := m_re r s [] (fun _ caps => Some caps).
End Match.
