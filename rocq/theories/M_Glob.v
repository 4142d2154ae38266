(** Model of the glob patterns used by [DataCollection._select_glob]
    (/repo/karabo_data/reader.py 811-820): Python's [fnmatch.translate] followed
    by [re.compile(...).match].  [fnmatch] is a library: this models its
    documented grammar (CPython 3.5-3.8 Lib/fnmatch.py) on ASCII strings. *)
From Verif Require Import Base PyStr.
Set Implicit Arguments.
Local Open Scope string_scope.
Local Open Scope list_scope.

Definition chars (s : string) : list ascii := list_ascii_of_string s.

(** Elements of a translated pattern.  A class holds inclusive ranges. *)
Inductive gtok :=
| GChar (c : ascii)
| GAny
| GStar
| GClass (neg : bool) (items : list (ascii * ascii)).

(** fnmatch.translate, the '[' branch: the text up to the closing ']' (which
    may not be the first character, nor follow an initial '!') and the rest. *)
Fixpoint until_bracket (l : list ascii) : option (list ascii * list ascii) :=
  match l with
  | [] => None
  | c :: r => if Ascii.eqb c "]" then Some ([], r)
              else match until_bracket r with
                   | Some (a, b) => Some (c :: a, b)
                   | None => None
                   end
  end.
Definition class_body (l : list ascii) : option (list ascii * list ascii) :=
  match l with
  | c :: r => if Ascii.eqb c "]"
              then match until_bracket r with Some (a, b) => Some (c :: a, b) | None => None end
              else until_bracket l
  | [] => None
  end.
Definition class_split (l : list ascii) : option (bool * list ascii * list ascii) :=
  match l with
  | c :: r => if Ascii.eqb c "!"
              then match class_body r with Some (a, b) => Some (true, a, b) | None => None end
              else match class_body l with Some (a, b) => Some (false, a, b) | None => None end
  | [] => None
  end.

(** The regular expression set: ranges [lo-hi] and single characters.  A range
    with lo > hi is refused by [re.compile] (re.error). *)
Fixpoint class_items (l : list ascii) : res (list (ascii * ascii)) :=
  match l with
  | [] => Ok []
  | c :: ((d :: e :: r) as t) =>
      if Ascii.eqb d "-" then
        if (nat_of_ascii c <=? nat_of_ascii e)%nat
        then let* q := class_items r in Ok ((c, e) :: q)
        else Err EException
      else let* q := class_items t in Ok ((c, c) :: q)
  | c :: r => let* q := class_items r in Ok ((c, c) :: q)
  end.

Fixpoint glob_parse (fuel : nat) (l : list ascii) : res (list gtok) :=
  match fuel with
  | O => Err ERuntimeError
  | S fuel =>
    match l with
    | [] => Ok []
    | c :: r =>
        if Ascii.eqb c "*" then let* q := glob_parse fuel r in Ok (GStar :: q)
        else if Ascii.eqb c "?" then let* q := glob_parse fuel r in Ok (GAny :: q)
        else if Ascii.eqb c "[" then
          match class_split r with
          | Some (neg, body, rest) =>
              let* items := class_items body in
              let* q := glob_parse fuel rest in
              Ok (GClass neg items :: q)
          | None => let* q := glob_parse fuel r in Ok (GChar c :: q)
          end
        else let* q := glob_parse fuel r in Ok (GChar c :: q)
    end
  end.
Definition glob_compile (p : string) : res (list gtok) :=
  let l := chars p in glob_parse (S (List.length l)) l.

Definition in_range (c : ascii) (p : ascii * ascii) : bool :=
  (nat_of_ascii (fst p) <=? nat_of_ascii c)%nat && (nat_of_ascii c <=? nat_of_ascii (snd p))%nat.
Definition tok_match (t : gtok) (c : ascii) : bool :=
  match t with
  | GChar x => Ascii.eqb x c
  | GAny => true
  | GStar => false
  | GClass neg items => xorb neg (existsb (in_range c) items)
  end.

(** re.match of the translated pattern, anchored at the end by \Z. *)
Fixpoint gmatch (ts : list gtok) : list ascii -> bool :=
  match ts with
  | [] => fun s => match s with [] => true | _ => false end
  | GStar :: r => fix go s := gmatch r s || match s with [] => false | _ :: s' => go s' end
  | t :: r => fun s => match s with [] => false | c :: s' => tok_match t c && gmatch r s' end
  end.
Definition glob_match (ts : list gtok) (s : string) : bool := gmatch ts (chars s).

(** reader.py 814-820: the pattern for keys of control sources, which allows an
    optional '.value' at the end unless the glob already ends in '.value' or '*'. *)
Fixpoint strip_suffix (suf s : string) : option string :=
  if String.eqb suf s then Some ""
  else match s with
       | EmptyString => None
       | String c r => match strip_suffix suf r with Some p => Some (String c p) | None => None end
       end.
Definition ctrl_key_match (key_glob : string) (ts : list gtok) (s : string) : bool :=
  if ends_with ".value" key_glob || ends_with "*" key_glob then glob_match ts s
  else glob_match ts s ||
       match strip_suffix ".value" s with Some p => glob_match ts p | None => false end.
