(** Specification vocabulary: the text printed by lsxfel. *)
From Verif Require Import Base M_Files M_Reader M_Info S_Open S_Stacking S_OpenRun S_Repr M_InfoText S_InfoText M_Lsxfel.
Set Implicit Arguments.
Local Open Scope string_scope.
Local Open Scope list_scope.

(** [s] is the numeral of [n] with spaces in front, so that it has at least [w] characters, and no more than needed. *)
Definition aligned (w : nat) (n : nat) (s : string) : Prop :=
  exists pad x, s = (pad ++ x)%string /\ int_expr (Z.of_nat n) x /\ (forall c, has_char c pad -> c = " "%char) /\
    (w <= String.length s)%nat /\ (pad <> "" -> String.length s = w).

Definition counted (n : nat) (s : string) : Prop := int_expr (Z.of_nat n) s.
Definition listed (s t : string) : Prop := t = ("  -  " ++ s)%string.

Definition note_words (n : note) (w : string) : Prop :=
  w = match n with
      | NotFound => "File/folder not found" | BadFile => "Unrecognised file" | BadDir => "Unrecognised directory"
      | ProposalData => "Proposal data directory" | Proposal => "Proposal directory" | RunDir => "Run directory"
      end.
(** A directory with data is a heading: an empty line follows. *)
Definition heading (n : note) : Prop := n = ProposalData \/ n = Proposal \/ n = RunDir.

(** The multiplication sign in UTF-8. *)
Definition times : string := String "195" (String "151" "").

(** A text in quotes, as Python shows it within a tuple; only for texts without quotes, backslashes and control characters. *)
Definition ordinary (c : ascii) : Prop := (32 <= nat_of_ascii c)%nat /\ nat_of_ascii c <> 127%nat /\ c <> "\"%char /\ c <> "'"%char.
Definition quoted (s t : string) : Prop := (forall c, has_char c s -> ordinary c) /\ t = ("'" ++ s ++ "'")%string.

(** The printed lines which tell the values of one line of output. *)
Inductive tells : line -> list string -> Prop :=
| t_name name s : tells (LName name (DText s)) [(name ++ " : " ++ s)%string]
| t_pair name s t a b : quoted s a -> quoted t b -> tells (LName name (DPair s t)) [(name ++ " : (" ++ a ++ ", " ++ b ++ ")")%string]
| t_trains n x : counted n x -> tells (LTrains n) [(x ++ " trains")%string; ""]
| t_pixels a b x y : int_expr a x -> int_expr b y -> tells (LPixels a b) [(x ++ " " ++ times ++ " " ++ y ++ " pixels")%string]
| t_frames p t x y : int_expr p x -> int_expr t y -> tells (LFrames p t) [(x ++ " frames per train, " ++ y ++ " total")%string]
| t_inst l x ls : counted (List.length l) x -> Forall2 listed l ls -> tells (LInst l) ([(x ++ " instrument sources")%string] ++ ls ++ [""])
| t_ctrl l x ls : counted (List.length l) x -> Forall2 listed l ls -> tells (LCtrl l) ([(x ++ " control sources")%string] ++ ls ++ [""])
| t_sum n p t x y z : counted n x -> int_expr p y -> int_expr t z ->
    tells (LSumDet n p t) [("  " ++ x ++ " trains, " ++ y ++ " frames/train, " ++ z ++ " total frames")%string]
| t_run indent name n d k x y z : aligned 4 n x -> aligned 3 d y -> aligned 3 k z ->
    tells (LRun indent name n d k)
      [(indent ++ name ++ " : Run of " ++ x ++ " trains, with " ++ y ++ " detector files and " ++ z ++ " others")%string]
| t_info i ls : print_lines ls = info_text i -> tells (LInfo i) ls
| t_note name n w : note_words n w -> ~ heading n -> tells (LNote name n) [(name ++ " : " ++ w)%string]
| t_heading name n w : note_words n w -> heading n -> tells (LNote name n) [(name ++ " : " ++ w)%string; ""]
| t_raw name : tells (LRaw name) [(name ++ "/raw/")%string].

(** Names without line breaks; file names also without colons, and no quotes or control characters. *)
Definition plain_line (l : line) : Prop :=
  match l with
  | LName n _ => forall c, has_char c n -> ordinary c /\ c <> ":"%char
  | LInst s | LCtrl s => forall x, In x s -> one_line x
  | LRun _ n _ _ _ | LNote n _ | LRaw n => one_line n
  | LInfo i => plain_names i
  | _ => True
  end.

(** Two lines with the same values; the indent and the name of a run are seen together. *)
Definition same_line (a b : line) : Prop :=
  match a, b with
  | LInfo i, LInfo j => same_shown i j
  | LRun indent name n d k, LRun indent' name' n' d' k' =>
      (indent ++ name)%string = (indent' ++ name')%string /\ n = n' /\ d = d' /\ k = k'
  | _, _ => a = b
  end.
