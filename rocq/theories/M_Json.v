(** Model of the JSON text of the cached map of a run: json.dump(..., indent=2) and json.load of the
    Python standard library, as used by run_files_map.py 25 and 87, and the translation between
    maps and JSON values (run_files_map.py 95-102 and 155-162).
    A text is a list of code points. *)
From Verif Require Import Base PyStr M_Cxi M_Repr M_FilesMap.
Set Implicit Arguments.
Local Open Scope string_scope.
Local Open Scope Z_scope.
Local Open Scope list_scope.

Definition text := list Z.
Definition ch (c : ascii) : Z := Z.of_nat (nat_of_ascii c).
Fixpoint codes (s : string) : text :=
  match s with EmptyString => [] | String c r => ch c :: codes r end.

(** What json.load returns.  A float is kept as the characters float() is applied to. *)
Inductive json :=
| JNull
| JBool (b : bool)
| JInt (z : Z)
| JFloat (t : text)
| JStr (s : text)
| JList (l : list json)
| JDict (l : list (text * json)).

(** * json.dump with indent=2 *)

(** json.encoder.py_encode_basestring_ascii: characters outside printable ASCII are escaped. *)
Definition hexd (n : Z) : Z := if n <? 10 then 48 + n else 87 + n.
Definition u4 (n : Z) : text :=
  [92; 117; hexd (n / 4096 mod 16); hexd (n / 256 mod 16); hexd (n / 16 mod 16); hexd (n mod 16)].
Definition esc_char (c : Z) : text :=
  if c =? 34 then [92; 34]
  else if c =? 92 then [92; 92]
  else if c =? 10 then [92; 110]
  else if c =? 13 then [92; 114]
  else if c =? 9 then [92; 116]
  else if c =? 12 then [92; 102]
  else if c =? 8 then [92; 98]
  else if (32 <=? c) && (c <=? 126) then [c]
  else if c <? 65536 then u4 c
  else u4 (55296 + (c - 65536) / 1024) ++ u4 (56320 + (c - 65536) mod 1024).
Definition dump_str (s : text) : text := 34 :: flat_map esc_char s ++ [34].

(** A new line and the indentation of a level. *)
Definition newline (lvl : nat) : text := 10 :: repeat 32 (2 * lvl).
Fixpoint sep_join (sep : text) (l : list text) : text :=
  match l with
  | [] => []
  | [x] => x
  | x :: r => x ++ sep ++ sep_join sep r
  end.

(** json.encoder._make_iterencode: the pieces it yields, joined.  Values and members are one per line; the
    separators are a comma and colon-space. *)
Fixpoint dump (lvl : nat) (v : json) : text :=
  match v with
  | JNull => codes "null"
  | JBool true => codes "true"
  | JBool false => codes "false"
  | JInt z => codes (int_repr z)
  | JFloat t => t
  | JStr s => dump_str s
  | JList [] => codes "[]"
  | JList l => 91 :: newline (S lvl) ++ sep_join (44 :: newline (S lvl)) (map (dump (S lvl)) l) ++ newline lvl ++ [93]
  | JDict [] => codes "{}"
  | JDict l => 123 :: newline (S lvl) ++
      sep_join (44 :: newline (S lvl)) (map (fun p => dump_str (fst p) ++ codes ": " ++ dump (S lvl) (snd p)) l) ++ newline lvl ++ [125]
  end.

(** * json.load *)

(** json.decoder.WHITESPACE *)
Definition is_ws (c : Z) : bool := (c =? 32) || (c =? 9) || (c =? 10) || (c =? 13).
Fixpoint skip_ws (s : text) : text :=
  match s with c :: r => if is_ws c then skip_ws r else s | [] => [] end.

Definition is_dig (c : Z) : bool := (48 <=? c) && (c <=? 57).
Fixpoint take_digits (s : text) : text * text :=
  match s with
  | c :: r => if is_dig c then let '(d, r') := take_digits r in (c :: d, r') else ([], s)
  | [] => ([], [])
  end.
Definition dec_value (ds : text) : Z := fold_left (fun a c => 10 * a + (c - 48)) ds 0.

(** Modules/_json.c, scanstring_unicode: the characters of a string after its first quote, up to the
    closing quote; None for an error.  Control characters are refused (strict), and an escaped high
    surrogate followed by an escaped low one is one character. *)
Definition hex_val (c : Z) : option Z :=
  if is_dig c then Some (c - 48)
  else if (97 <=? c) && (c <=? 102) then Some (c - 87)
  else if (65 <=? c) && (c <=? 70) then Some (c - 55)
  else None.
Definition hex4 (a b c d : Z) : option Z :=
  match hex_val a, hex_val b, hex_val c, hex_val d with
  | Some a, Some b, Some c, Some d => Some (((a * 16 + b) * 16 + c) * 16 + d)
  | _, _, _, _ => None
  end.
Definition is_high (u : Z) : bool := (55296 <=? u) && (u <=? 56319).
Definition is_low (u : Z) : bool := (56320 <=? u) && (u <=? 57343).
Definition join_pair (u u2 : Z) : Z := 65536 + (u - 55296) * 1024 + (u2 - 56320).
Definition simple_escape (e : Z) : option Z :=
  if (e =? 34) || (e =? 92) || (e =? 47) then Some e
  else if e =? 98 then Some 8
  else if e =? 102 then Some 12
  else if e =? 110 then Some 10
  else if e =? 114 then Some 13
  else if e =? 116 then Some 9
  else None.
Definition put (c : Z) (o : option (text * text)) : option (text * text) :=
  match o with Some (t, r) => Some (c :: t, r) | None => None end.
Fixpoint scan_str (s : text) : option (text * text) :=
  match s with
  | [] => None
  | c :: r =>
      if c =? 34 then Some ([], r)
      else if c =? 92 then
        match r with
        | [] => None
        | e :: r1 =>
            if e =? 117 then
              match r1 with
              | a :: b :: c' :: d :: r2 =>
                  match hex4 a b c' d with
                  | None => None
                  | Some u =>
                      match r2 with
                      | x :: y :: a2 :: b2 :: c2 :: d2 :: r3 =>
                          match (if is_high u && (x =? 92) && (y =? 117) then hex4 a2 b2 c2 d2 else None) with
                          | Some u2 => if is_low u2 then put (join_pair u u2) (scan_str r3) else put u (scan_str r2)
                          | None => put u (scan_str r2)
                          end
                      | _ => put u (scan_str r2)
                      end
                  end
              | _ => None
              end
            else match simple_escape e with Some x => put x (scan_str r1) | None => None end
        end
      else if c <? 32 then None
      else put c (scan_str r)
  end.

(** json.scanner.NUMBER_RE: (-?(?:0|[1-9]\d* ))(\.\d+)?([eE][-+]?\d+)? *)
Definition int_part (s : text) : option (text * text) :=
  match s with
  | [] => None
  | c :: r => if c =? 48 then Some ([48], r) else if is_dig c then Some (take_digits s) else None
  end.
Definition frac_part (s : text) : text * text :=
  match s with
  | c :: r => if c =? 46 then match take_digits r with ([], _) => ([], s) | (ds, r') => (46 :: ds, r') end else ([], s)
  | [] => ([], s)
  end.
Definition exp_sign (r : text) : text * text :=
  match r with x :: r' => if (x =? 43) || (x =? 45) then ([x], r') else ([], r) | [] => ([], r) end.
Definition exp_part (s : text) : text * text :=
  match s with
  | c :: r =>
      if (c =? 101) || (c =? 69) then
        let '(sg, r1) := exp_sign r in
        match take_digits r1 with ([], _) => ([], s) | (ds, r') => (c :: sg ++ ds, r') end
      else ([], s)
  | [] => ([], s)
  end.
Definition sign_part (s : text) : text * text :=
  match s with c :: r => if c =? 45 then ([45], r) else ([], s) | [] => ([], s) end.
Definition scan_number (s : text) : option (json * text) :=
  let '(sg, s1) := sign_part s in
  match int_part s1 with
  | None => None
  | Some (ip, s2) =>
      let '(f, s3) := frac_part s2 in
      let '(x, s4) := exp_part s3 in
      match f, x with
      | [], [] => Some (JInt (match sg with [] => dec_value ip | _ => - dec_value ip end), s2)
      | _, _ => Some (JFloat (sg ++ ip ++ f ++ x), s4)
      end
  end.

Fixpoint strip (k s : text) : option text :=
  match k with
  | [] => Some s
  | a :: k' => match s with c :: r => if c =? a then strip k' r else None | [] => None end
  end.
(** Dictionaries: a later member with the same key replaces the value. *)
Fixpoint text_eqb (a b : text) : bool :=
  match a, b with
  | [], [] => true
  | x :: a', y :: b' => (x =? y) && text_eqb a' b'
  | _, _ => false
  end.
Fixpoint tset {A} (k : text) (v : A) (l : list (text * A)) : list (text * A) :=
  match l with
  | [] => [(k, v)]
  | (k', v') :: r => if text_eqb k k' then (k', v) :: r else (k', v') :: tset k v r
  end.
Fixpoint tget {A} (k : text) (l : list (text * A)) : option A :=
  match l with [] => None | (k', v) :: r => if text_eqb k k' then Some v else tget k r end.

Definition bad {A} : res A := Err EJSONDecodeError.
Definition keyword (k : string) (v : json) (r : text) : res (json * text) :=
  match strip (codes k) r with Some r' => Ok (v, r') | None => bad end.

(** Modules/_json.c, scan_once_unicode, _parse_array_unicode and _parse_object_unicode.  When a keyword does not
    match, CPython goes on to match a number, which cannot succeed there except after a minus
    sign.  The model is recursive on [fuel]; running out of it gives RuntimeError, which never
    happens with the fuel of [loads].  (CPython raises RecursionError for texts nested about a
    thousand levels deep, and since 3.11 ValueError for integers with more than 4300 digits:
    not modelled.) *)
Fixpoint value (fuel : nat) (s : text) : res (json * text) :=
  match fuel with
  | O => Err ERuntimeError
  | S n =>
      match s with
      | [] => bad
      | c :: r =>
          if c =? 34 then match scan_str r with Some (t, r') => Ok (JStr t, r') | None => bad end
          else if c =? 91 then
            match skip_ws r with
            | [] => bad
            | x :: r' => if x =? 93 then Ok (JList [], r') else elements n [] (x :: r')
            end
          else if c =? 123 then
            match skip_ws r with
            | [] => bad
            | x :: r' => if x =? 125 then Ok (JDict [], r') else members n [] (x :: r')
            end
          else if c =? ch "n" then keyword "ull" JNull r
          else if c =? ch "t" then keyword "rue" (JBool true) r
          else if c =? ch "f" then keyword "alse" (JBool false) r
          else if c =? ch "N" then keyword "aN" (JFloat (codes "NaN")) r
          else if c =? ch "I" then keyword "nfinity" (JFloat (codes "Infinity")) r
          else match (if c =? 45 then strip (codes "Infinity") r else None) with
               | Some r' => Ok (JFloat (codes "-Infinity"), r')
               | None => match scan_number s with Some p => Ok p | None => bad end
               end
      end
  end
with elements (fuel : nat) (acc : list json) (s : text) : res (json * text) :=
  match fuel with
  | O => Err ERuntimeError
  | S n =>
      let* p := value n s in
      match skip_ws (snd p) with
      | [] => bad
      | x :: r => if x =? 93 then Ok (JList (acc ++ [fst p]), r)
                  else if x =? 44 then elements n (acc ++ [fst p]) (skip_ws r)
                  else bad
      end
  end
with members (fuel : nat) (acc : list (text * json)) (s : text) : res (json * text) :=
  match fuel with
  | O => Err ERuntimeError
  | S n =>
      match s with
      | [] => bad
      | q :: r =>
          if q =? 34 then
            match scan_str r with
            | None => bad
            | Some (k, r1) =>
                match skip_ws r1 with
                | [] => bad
                | x :: r2 =>
                    if x =? 58 then
                      let* p := value n (skip_ws r2) in
                      match skip_ws (snd p) with
                      | [] => bad
                      | y :: r3 => if y =? 125 then Ok (JDict (tset k (fst p) acc), r3)
                                   else if y =? 44 then members n (tset k (fst p) acc) (skip_ws r3)
                                   else bad
                      end
                    else bad
                end
            end
          else bad
      end
  end.

(** json.decoder.JSONDecoder.decode *)
Definition loads (s : text) : res json :=
  let* p := value (2 * List.length s + 2) (skip_ws s) in
  match skip_ws (snd p) with [] => Ok (fst p) | _ => bad end.

(** * The cached map *)
Section Map.
(** repr of a modification time, and float() of a text. *)
Context (frepr : Z -> text) (fparse : text -> Z).

(** run_files_map.py 155-162 *)
Definition json_of_entry (e : fentry) : json :=
  JDict [(codes "filename", JStr (codes (fe_name e)));
         (codes "mtime", JFloat (frepr (fst (fe_stat e))));
         (codes "size", JInt (snd (fe_stat e)));
         (codes "train_ids", JList (map JInt (fi_tids (fe_info e))));
         (codes "control_sources", JList (map (fun s => JStr (codes s)) (fi_ctrl (fe_info e))));
         (codes "instrument_sources", JList (map (fun s => JStr (codes s)) (fi_inst (fe_info e))))].
(** run_files_map.py 166-170: the text which is written. *)
Definition map_text (l : list fentry) : text := dump 0 (JList (map json_of_entry l)).

(** Strings of the model of maps have code points below 256. *)
Fixpoint uncodes (t : text) : option string :=
  match t with
  | [] => Some ""
  | c :: r => if (0 <=? c) && (c <? 256) then
                match uncodes r with Some s => Some (String (ascii_of_nat (Z.to_nat c)) s) | None => None end
              else None
  end.
Definition as_int (v : json) : option Z := match v with JInt z => Some z | _ => None end.
Definition as_str (v : json) : option string := match v with JStr t => uncodes t | _ => None end.
Fixpoint all_some {A B} (f : A -> option B) (l : list A) : option (list B) :=
  match l with
  | [] => Some []
  | x :: r => match f x, all_some f r with Some y, Some ys => Some (y :: ys) | _, _ => None end
  end.
Definition as_list {A} (f : json -> option A) (v : json) : option (list A) :=
  match v with JList l => all_some f l | _ => None end.
(** What run_files_map.py 95-102 and 111-125 get out of one element. *)
Definition entry_of_json (v : json) : option fentry :=
  match v with
  | JDict d =>
      match tget (codes "filename") d, tget (codes "mtime") d, tget (codes "size") d,
            tget (codes "train_ids") d, tget (codes "control_sources") d, tget (codes "instrument_sources") d with
      | Some n, Some (JFloat m), Some z, Some t, Some c, Some i =>
          match as_str n, as_int z, as_list as_int t, as_list as_str c, as_list as_str i with
          | Some n, Some z, Some t, Some c, Some i => Some (mk_entry n (fparse m, z) (mk_info t c i))
          | _, _, _, _, _ => None
          end
      | _, _, _, _, _, _ => None
      end
  | _ => None
  end.
(** The state of a candidate path with these contents.  An empty list, dict or string has no elements to go
    through; a number or constant cannot be iterated; for lists with an element of another form, TypeError stands
    for the exceptions of lines 96-102 and 119-122. *)
Definition cache_of_text (t : text) : cache_file :=
  match loads t with
  | Err _ => CGarbage
  | Ok (JList l) => match all_some entry_of_json l with Some es => CMap es | None => COther ETypeError end
  | Ok (JDict []) => CMap []
  | Ok (JStr []) => CMap []
  | Ok _ => COther ETypeError
  end.
End Map.
