(** The text printed by info (karabo_data/reader.py 1043-1093). *)

From Verif Require Import Base PyStr M_Files M_Reader M_Cxi M_OpenRun M_Repr M_Crystfel M_Info.
Set Implicit Arguments.
Local Open Scope string_scope.
Local Open Scope list_scope.

(** reader.py 1051: str() of a datetime.timedelta; the argument is in tenths of a second.  (Code: a float of seconds, rounded to
    microseconds; exact for spans below 2^33 seconds, later the last digits may differ.)  "%02d" and "%06d" pad with zeros. *)
Definition timedelta_str (span : Z) : string :=
  let days := (span / 864000)%Z in
  let secs := (span mod 864000 / 10)%Z in
  let micro := (span mod 10 * 100000)%Z in
  let day := if (days =? 0)%Z then "" else (int_repr days ++ " day" ++ (if (Z.abs days =? 1)%Z then "" else "s") ++ ", ")%string in
  let frac := if (micro =? 0)%Z then "" else ("." ++ py_rjust (str_of_int micro) 6 "0")%string in
  (day ++ int_repr (secs / 3600) ++ ":" ++ py_rjust (str_of_int (secs / 60 mod 60)) 2 "0" ++ ":" ++ py_rjust (str_of_int (secs mod 60)) 2 "0" ++ frac)%string.

(** Each print ends a line. *)
Definition newline : string := String (ascii_of_nat 10) "".
Definition print_lines (l : list string) : string := fold_right (fun a r => (a ++ newline ++ r)%string) "" l.
Definition nat_repr (n : nat) : string := int_repr (Z.of_nat n).

(** reader.py 1075-1084: the lines on the first module. *)
Definition example_lines (e : option (string * string * string * dinfo)) : list string :=
  match e with
  | None => []
  | Some (name, digits, source, di) =>
      [("  e.g. module " ++ name ++ " " ++ digits ++ " : " ++ py_join " x " (map int_repr (di_dims di)) ++ " pixels")%string;
       ("  " ++ source)%string;
       ("  " ++ int_repr (di_frames di) ++ " frames per train, up to " ++ int_repr (di_total di) ++ " frames total")%string]
  end.
Definition source_line (s : string) : string := ("  - " ++ s)%string.

(** reader.py 1062-1093. *)
Definition info_text (i : rinfo) : string :=
  print_lines
    ([("# of trains:    " ++ nat_repr (in_trains i))%string;
      ("Duration:       " ++ timedelta_str (in_span i))%string;
      ("First train ID: " ++ int_repr (in_first i))%string;
      ("Last train ID:  " ++ int_repr (in_last i))%string;
      "";
      (nat_repr (in_modules i) ++ " detector modules (" ++ py_join "," (in_names i) ++ ")")%string] ++
     example_lines (in_example i) ++
     [""; (nat_repr (List.length (in_inst i)) ++ " instrument sources (excluding detectors):")%string] ++
     map source_line (in_inst i) ++
     [""; (nat_repr (List.length (in_ctrl i)) ++ " control sources:")%string] ++
     map source_line (in_ctrl i) ++ [""]).
