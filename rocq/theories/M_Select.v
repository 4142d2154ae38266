(** Model of selecting and combining data, /repo/karabo_data/reader.py 767-977. *)
From Verif Require Import Base PyStr M_Files M_Machinery M_Reader M_Glob.
Set Implicit Arguments.
Local Open Scope string_scope.
Local Open Scope list_scope.

Section Select.
Context {V : Type}.
Notation faccess := (faccess V).
Notation dcoll := (dcoll V).

(** reader.py 824-833: the keys of one source matched by a pattern pair; None
    if the source is not matched. *)
Definition glob_source (d : dcoll) (sre kre : list gtok) (key_glob : string) (source : string)
  : res (option (string * option (list string))) :=
  if negb (glob_match sre source) then Ok None
  else if String.eqb key_glob "*" then Ok (Some (source, None))
  else
    let r := if str_in source (dc_ctrl d) then ctrl_key_match key_glob kre else glob_match kre in
    let* ks := keys_for_source d source in
    match filter r ks with
    | [] => Ok None
    | keys => Ok (Some (source, Some keys))
    end.

(** reader.py 811-838: [_select_glob]. *)
Definition select_glob (d : dcoll) (source_glob key_glob : string) : res selection :=
  let* sre := glob_compile source_glob in
  let* kre := glob_compile key_glob in
  let* l := mapM (glob_source d sre kre key_glob) (dc_sources d) in
  match flat_map (fun o => match o with Some x => [x] | None => [] end) l with
  | [] => Err EValueError
  | matched => Ok matched
  end.

(** The forms accepted by select and deselect (reader.py 840-886); a pair of
    globs is the one-element list form.  Anything else is [SelOther]. *)
Inductive sel_arg :=
| SelDict (l : list (string * list string))
| SelGlobs (l : list (string * string))
| SelOther.

(** reader.py 789-809: [_expand_selection].  In the dict form an empty set of
    keys calls [set.update(None)], a TypeError.  For other types line 807
    creates an exception without raising it, so the selection is empty. *)
Definition expand_selection (d : dcoll) (a : sel_arg) : res selection :=
  match a with
  | SelDict l =>
      foldM (fun acc p =>
          if negb (str_in (fst p) (dc_sources d)) then Err ESourceNameError
          else match snd p with
               | [] => Err ETypeError
               | ks => Ok (dict_set (fst p) (Some (fold_left (fun a k => set_add k a) ks [])) acc)
               end) [] l
  | SelGlobs l =>
      let* sels := mapM (fun p => select_glob d (fst p) (snd p)) l in
      Ok (union_selections sels)
  | SelOther => Ok []
  end.

(** reader.py 888-889, 922-923: the files holding at least one selected source. *)
Definition files_with (sel : selection) (files : list faccess) : list faccess :=
  filter (fun f => existsb (fun s => str_in s (dict_keys sel)) (fa_sources f)) files.

(** reader.py 840-891: [select]. *)
Definition select (d : dcoll) (a : sel_arg) : res dcoll :=
  let* sel := expand_selection d a in
  mk_collection (files_with sel (dc_files d)) (Some sel) (Some (dc_tids d)).

(** reader.py 907-920: subtract a deselection. *)
Definition subtract_one (d : dcoll) (desel : selection) (p : string * option (list string))
  : res (list (string * option (list string))) :=
  match dict_get (fst p) desel with
  | None => Ok [p]
  | Some None => Ok []
  | Some (Some dk) =>
      let* ks := match snd p with Some ks => Ok ks | None => keys_for_source d (fst p) end in
      Ok [(fst p, Some (set_minus ks dk))]
  end.

(** reader.py 893-925: [deselect]. *)
Definition deselect (d : dcoll) (a : sel_arg) : res dcoll :=
  let* desel := expand_selection d a in
  let* l := mapM (subtract_one d desel) (dc_sel d) in
  let sel := List.concat l in
  mk_collection (files_with sel (dc_files d)) (Some sel) (Some (dc_tids d)).

(** The argument of select_trains (reader.py 951-972). *)
Inductive train_range :=
| ById (start stop : option user_tid) (step : option Z)
| ByIndex (s : pyslice)
| ByIdList (l : list Z)
| ByIndexList (l : list Z)
| TrOther.

(** reader.py 951-972: the new list of train IDs. *)
Definition new_train_ids (tids : list Z) (tr : train_range) : res (list Z) :=
  match tr with
  | ById start stop step =>
      let* a := tid_to_slice_ix start tids false in
      let* b := tid_to_slice_ix stop tids true in
      py_slice tids (mk_slice a b step)
  | ByIndex s => py_slice tids s
  | ByIdList l =>
      match zsort_set (filter (fun t => z_in t l) tids) with
      | [] => Err EValueError
      | r => Ok r
      end
  | ByIndexList l => let* r := mapM (py_index tids) l in Ok (zsort r)
  | TrOther => Err ETypeError
  end.

(** reader.py 974-977: files sharing at least one train with the new list. *)
Definition files_overlap (tids : list Z) (files : list faccess) : list faccess :=
  filter (fun f => existsb (fun t => z_in t tids) (fa_tids f)) files.

(** reader.py 927-977: [select_trains]. *)
Definition select_trains (d : dcoll) (tr : train_range) : res dcoll :=
  let* tids := new_train_ids (dc_tids d) tr in
  mk_collection (files_overlap tids (dc_files d)) (Some (dc_sel d)) (Some tids).

(** reader.py 776-785: a Python set of FileAccess objects keeps the first of
    several equal (same file name) objects. *)
Fixpoint dedup_files (seen : list string) (l : list faccess) : list faccess :=
  match l with
  | [] => []
  | f :: r => let n := h5_name (fa_file f) in
              if str_in n seen then dedup_files seen r else f :: dedup_files (n :: seen) r
  end.

(** reader.py 767-787: [union].  The iteration order of the set of files is
    arbitrary, so union is a relation: [r] is a possible result. *)
Definition union_files (ds : list dcoll) : list faccess := dedup_files [] (flat_map (@dc_files V) ds).
Definition union_tids (ds : list dcoll) : list Z := zsort_set (flat_map (@dc_tids V) ds).
Definition union_in_order (files : list faccess) (ds : list dcoll) : res dcoll :=
  mk_collection files (Some (union_selections (map (@dc_sel V) ds))) (Some (union_tids ds)).
Definition is_union (ds : list dcoll) (r : res dcoll) : Prop :=
  exists files, Permutation (union_files ds) files /\ r = union_in_order files ds.

(** ** Histories of the public API *)
(** Opening files, then any sequence of select, deselect, select_trains and
    union of collections obtained earlier. *)
Inductive reachable : dcoll -> Prop :=
| reach_open : forall files d,
    Forall (fun f => fa_open (fa_file f) = Ok f) files ->
    mk_collection files None None = Ok d -> reachable d
| reach_select : forall d a d', reachable d -> select d a = Ok d' -> reachable d'
| reach_deselect : forall d a d', reachable d -> deselect d a = Ok d' -> reachable d'
| reach_trains : forall d tr d', reachable d -> select_trains d tr = Ok d' -> reachable d'
| reach_union : forall d ds d', reachable d -> (forall x, In x ds -> reachable x) ->
    is_union (d :: ds) (Ok d') -> reachable d'.

End Select.
