(** Reading CSV text, and paths in an HDF5 file. *)
From Verif Require Import Base M_H5Index.
Local Open Scope string_scope.
Local Open Scope list_scope.

(** A reader of comma separated values: records end with CR, LF or CR LF; a field may stand in quotes, in which case
    everything up to the next single quote belongs to it and two quotes stand for one.  [f], [row], [rows]: the current
    field, the fields of the record before it, the records before it. *)
Inductive cstate := StartRecord | AfterCR | StartField | InField | InQuotes | AfterQuote.
Fixpoint csv_go (st : cstate) (f : string) (row : list string) (rows : list (list string)) (s : string) : list (list string) :=
  match s with
  | EmptyString => match st with StartRecord | AfterCR => rows | _ => rows ++ [row ++ [f]] end
  | String c r =>
      let newline := (Ascii.eqb c "013" || Ascii.eqb c "010")%bool in
      let end_record := csv_go (if Ascii.eqb c "013" then AfterCR else StartRecord) "" [] (rows ++ [row ++ [f]]) r in
      let end_field := csv_go StartField "" (row ++ [f]) rows r in
      let unquoted := if Ascii.eqb c "," then end_field else if newline then end_record else csv_go InField (f ++ String c "") row rows r in
      let start_field := if Ascii.eqb c """" then csv_go InQuotes f row rows r else unquoted in
      match st with
      | InQuotes => csv_go (if Ascii.eqb c """" then AfterQuote else InQuotes) (if Ascii.eqb c """" then f else f ++ String c "")%string row rows r
      | AfterQuote => if Ascii.eqb c """" then csv_go InQuotes (f ++ """")%string row rows r else unquoted
      | InField => unquoted
      | StartField => start_field
      | StartRecord => if newline then csv_go (if Ascii.eqb c "013" then AfterCR else StartRecord) "" [] (rows ++ [[]]) r else start_field
      | AfterCR => if Ascii.eqb c "010" then csv_go StartRecord "" [] rows r
                   else if newline then csv_go AfterCR "" [] (rows ++ [[]]) r else start_field
      end
  end.
Definition csv_read (s : string) : list (list string) := csv_go StartRecord "" [] [] s.

(** A path, with slashes between the names, from the root through hard links. *)
Inductive leads (g : h5graph) : string -> nat -> Prop :=
| leads_first ms n c : nth_error g 0 = Some (OGroup ms) -> In (n, Hard c) ms -> leads g n c
| leads_next p o ms n c : leads g p o -> nth_error g o = Some (OGroup ms) -> In (n, Hard c) ms -> leads g (p ++ "/" ++ n)%string c.
(** What holds for every HDF5 file: links lead to objects, the names in a group differ, are not empty and have no slash. *)
Definition well_formed (g : h5graph) : Prop :=
  forall o ms, nth_error g o = Some (OGroup ms) ->
    NoDup (map fst ms) /\ (forall n l, In (n, l) ms -> n <> "" /\ ~ In "/"%char (list_ascii_of_string n)) /\
    (forall n c, In (n, Hard c) ms -> (c < List.length g)%nat).
