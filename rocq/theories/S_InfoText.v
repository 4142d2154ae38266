(** Specification vocabulary: the text printed by info. *)
From Verif Require Import Base M_Files M_Reader M_Info S_Open S_Stacking S_OpenRun S_Repr.
Set Implicit Arguments.
Local Open Scope string_scope.
Local Open Scope list_scope.

(** The text of a duration of [us] microseconds, as Python's documentation of timedelta has it: [D day[s], ][H]H:MM:SS[.UUUUUU],
    where D is negative for negative durations. *)
Definition duration_text (txt : string) (us : Z) : Prop :=
  exists d h m s u day hh mm ss frac,
    (0 <= h < 24 /\ 0 <= m < 60 /\ 0 <= s < 60 /\ 0 <= u < 1000000)%Z /\
    us = ((((d * 24 + h) * 60 + m) * 60 + s) * 1000000 + u)%Z /\
    txt = (day ++ hh ++ ":" ++ mm ++ ":" ++ ss ++ frac)%string /\
    ((d = 0%Z /\ day = "") \/
     (d <> 0%Z /\ exists n, int_expr d n /\ day = (n ++ " day" ++ (if (Z.abs d =? 1)%Z then "" else "s") ++ ", ")%string)) /\
    numeral hh h /\ (numeral mm m /\ String.length mm = 2%nat) /\ (numeral ss s /\ String.length ss = 2%nat) /\
    ((u = 0%Z /\ frac = "") \/ (u <> 0%Z /\ exists f, frac = ("." ++ f)%string /\ numeral f u /\ String.length f = 6%nat)).

Definition one_line (s : string) : Prop := ~ has_char (ascii_of_nat 10) s.
(** Names without line breaks, and detector names without commas. *)
Definition plain_names (i : rinfo) : Prop :=
  (forall s, In s (in_inst i) \/ In s (in_ctrl i) \/ In s (in_names i) -> one_line s) /\
  (forall s, In s (in_names i) -> ~ has_char "," s) /\
  match in_example i with Some (name, digits, s, _) => one_line s | None => True end.

(** The same values are shown: all but the warning given on the way. *)
Definition same_shown (i j : rinfo) : Prop :=
  in_trains i = in_trains j /\ in_span i = in_span j /\ in_first i = in_first j /\ in_last i = in_last j /\
  in_modules i = in_modules j /\ in_names i = in_names j /\ in_inst i = in_inst j /\ in_ctrl i = in_ctrl j /\
  match in_example i, in_example j with
  | None, None => True
  | Some (n, g, s, di), Some (n', g', s', di') =>
      n = n' /\ g = g' /\ s = s' /\ di_dims di = di_dims di' /\ di_frames di = di_frames di' /\ di_total di = di_total di'
  | _, _ => False
  end.
