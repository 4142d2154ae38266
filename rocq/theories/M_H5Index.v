(** Model of the listing of the datasets of an HDF5 file as CSV (h5index.py) and of csv.writer as used there. *)
From Verif Require Import Base PyStr M_Cxi M_Crystfel M_Repr.
Set Implicit Arguments.
Local Open Scope string_scope.
Local Open Scope list_scope.

(** An HDF5 file: its objects, by number; object 0 is the root group.  Members of a group are hard links to objects, or
    soft or external links, of which only the name matters here.  The shape of a dataset is None for a null dataspace. *)
Inductive link := Hard (o : nat) | Soft.
Inductive object := OGroup (members : list (string * link)) | ODataset (shape : option (list Z)) (dtype : string) | OType.
Definition h5graph := list object.

(** h5py visititems (H5Ovisit): every object which can be reached from the root through hard links, in pre-order, each only
    once, with the path by which it was met first; the root itself is left out.  [prefix] is the path of the group [o] with
    a slash, [seen] the objects met so far.  The order of the members of a group is that of the list. *)
Fixpoint visit (fuel : nat) (g : h5graph) (prefix : string) (o : nat) (seen : list nat) : res (list (string * nat) * list nat) :=
  match fuel with
  | O => Err ERuntimeError
  | S fuel =>
      match nth_error g o with
      | Some (OGroup ms) =>
          foldM (fun acc m =>
            match snd m with
            | Soft => Ok acc
            | Hard c =>
                if existsb (Nat.eqb c) (snd acc) then Ok acc else
                let p := (prefix ++ fst m)%string in
                let* r := visit fuel g (p ++ "/") c (c :: snd acc) in
                Ok (fst acc ++ (p, c) :: fst r, snd r)
            end) ([], seen) ms
      | _ => Ok ([], seen)
      end
  end.
Definition visititems (g : h5graph) : res (list (string * nat)) := let* r := visit (S (List.length g)) g "" 0 [0%nat] in Ok (fst r).

(** str() of a tuple of integers, and of None as csv.writer writes it. *)
Definition shape_text (s : option (list Z)) : string :=
  match s with
  | None => ""
  | Some [] => "()"
  | Some [n] => ("(" ++ int_repr n ++ ",)")%string
  | Some l => ("(" ++ py_join ", " (map int_repr l) ++ ")")%string
  end.

(** csv.writer, dialect excel (Modules/_csv.c, join_append_data): a field with a comma, a quote or a character of the line
    terminator is put in quotes, and quotes in it are doubled. *)
Definition quote : ascii := Ascii.ascii_of_nat 34.
Definition comma : ascii := ",".
Definition cr : ascii := Ascii.ascii_of_nat 13.
Definition lf : ascii := Ascii.ascii_of_nat 10.
Definition special (c : ascii) : bool := Ascii.eqb c comma || Ascii.eqb c quote || Ascii.eqb c cr || Ascii.eqb c lf.
Fixpoint any_char (f : ascii -> bool) (s : string) : bool := match s with EmptyString => false | String c r => f c || any_char f r end.
Fixpoint double_quotes (s : string) : string :=
  match s with EmptyString => "" | String c r => if Ascii.eqb c quote then String quote (String quote (double_quotes r)) else String c (double_quotes r) end.
Definition csv_field (s : string) : string :=
  if any_char special s then String quote (double_quotes s ++ String quote "")%string else s.
(** A row of several fields (a single empty field would be written in quotes). *)
Definition csv_row (fields : list string) : string := (py_join "," (map csv_field fields) ++ String cr (String lf ""))%string.

(** h5index.py 6-23.  Rows are sorted by path; no two are equal in it, so that the other columns do not matter. *)
Definition hdf5_datasets (g : h5graph) : res string :=
  let* l := visititems g in
  let all_datasets := flat_map (fun po => match nth_error g (snd po) with
                                          | Some (ODataset sh dt) => [(fst po, (sh, dt))]
                                          | _ => [] end) l in
  let rows := isort (fun a b => String.leb (fst a) (fst b)) all_datasets in
  Ok (String.concat "" (csv_row ["path"; "shape"; "dtype"] :: map (fun r => csv_row [fst r; shape_text (fst (snd r)); snd (snd r)]) rows)).
