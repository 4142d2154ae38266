(** The text printed by lsxfel (karabo_data/lsxfel.py 14-97, 119-173): the lines of M_Lsxfel as printed on a terminal with
    UTF-8 encoding. *)

From Verif Require Import Base PyStr M_Files M_Reader M_Cxi M_OpenRun M_Repr M_Crystfel M_Info M_InfoText M_Lsxfel.
Set Implicit Arguments.
Local Open Scope string_scope.
Local Open Scope list_scope.

(** repr of a str: the quotes are single ones, unless there are single and no double quotes inside; the quote and the backslash get a
    backslash, control characters an escape.  (Simplified: characters outside ASCII are left as they are; Python also escapes those
    which cannot be printed.) *)
Definition hex_digit (n : nat) : ascii := ascii_of_nat (if (n <? 10)%nat then 48 + n else 87 + n).
Fixpoint repr_body (q : ascii) (s : string) : string :=
  match s with
  | "" => ""
  | String c r =>
      let n := nat_of_ascii c in
      ((if Ascii.eqb c q || Ascii.eqb c "\" then String "\" (String c "")
        else if (n =? 10)%nat then "\n" else if (n =? 13)%nat then "\r" else if (n =? 9)%nat then "\t"
        else if (n <? 32)%nat || (n =? 127)%nat then ("\x" ++ String (hex_digit (n / 16)) (String (hex_digit (n mod 16)) ""))%string
        else String c "") ++ repr_body q r)%string
  end.
Definition single_quote : ascii := "'".
Definition double_quote : ascii := ascii_of_nat 34.
Definition str_repr (s : string) : string :=
  let q := if char_in single_quote s && negb (char_in double_quote s) then double_quote else single_quote in
  String q (repr_body q s ++ String q "")%string.

(** str of the description: a str, or a tuple of two. *)
Definition descr_str (d : descr) : string :=
  match d with
  | DText s => s
  | DPair s t => ("(" ++ str_repr s ++ ", " ++ str_repr t ++ ")")%string
  end.

(** The multiplication sign in lsxfel.py 27, in UTF-8. *)
Definition times_sign : string := String (ascii_of_nat 195) (String (ascii_of_nat 151) "").
(** The format {:>w} of a number. *)
Definition right_aligned (w n : nat) : string := py_rjust (nat_repr n) w " ".

(** lsxfel.py 34, 39 *)
Definition dev_line (s : string) : string := ("  -  " ++ s)%string.

(** lsxfel.py 63, 119, 126, 134, 139, 142, 156, 163, 169, 172 *)
Definition note_str (n : note) : string :=
  match n with
  | NotFound => ": File/folder not found"
  | BadFile => ": Unrecognised file"
  | BadDir => ": Unrecognised directory"
  | ProposalData => ": Proposal data directory"
  | Proposal => ": Proposal directory"
  | RunDir => ": Run directory"
  end.
(** lsxfel.py 64, 120, 127, 157: an empty line follows. *)
Definition note_blank (n : note) : list string :=
  match n with ProposalData | Proposal | RunDir => [""] | _ => [] end.

(** The printed text of each line of M_Lsxfel; the arguments of print are separated by spaces. *)
Definition line_text (l : line) : string :=
  match l with
  | LName name d => print_lines [(name ++ " : " ++ descr_str d)%string]                                (* 18, 46 *)
  | LTrains n => print_lines [(nat_repr n ++ " trains")%string; ""]                                    (* 21-22 *)
  | LPixels a b => print_lines [(int_repr a ++ " " ++ times_sign ++ " " ++ int_repr b ++ " pixels")%string]   (* 27 *)
  | LFrames p t => print_lines [(int_repr p ++ " frames per train, " ++ int_repr t ++ " total")%string]   (* 28-30 *)
  | LInst s => print_lines ((nat_repr (List.length s) ++ " instrument sources")%string :: map dev_line s ++ [""])   (* 32-35 *)
  | LCtrl s => print_lines ((nat_repr (List.length s) ++ " control sources")%string :: map dev_line s ++ [""])   (* 37-40 *)
  | LSumDet n p t =>
      print_lines [("  " ++ nat_repr n ++ " trains, " ++ int_repr p ++ " frames/train, " ++ int_repr t ++ " total frames")%string]   (* 54-56 *)
  | LRun indent name n d k =>                                                                          (* 96-98 *)
      print_lines [(indent ++ name ++ " : Run of " ++ right_aligned 4 n ++ " trains, with " ++ right_aligned 3 d ++
                    " detector files and " ++ right_aligned 3 k ++ " others")%string]
  | LInfo i => info_text i                                                                             (* 67 *)
  | LNote name n => print_lines ((name ++ " " ++ note_str n)%string :: note_blank n)
  | LRaw name => print_lines [(name ++ "/raw/")%string]                                                (* 128 *)
  end.
Definition output (o : list line) : string := fold_right (fun l r => (line_text l ++ r)%string) "" o.
