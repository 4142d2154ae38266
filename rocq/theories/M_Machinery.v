(** Model of /repo/karabo_data/read_machinery.py. *)
From Verif Require Import Base PyStr.
Set Implicit Arguments.

(** ** contiguous_regions, read_machinery.py 122-145 *)

(** [np.diff] of a boolean array: element-wise "not equal". *)
Fixpoint diff_bool (l : list bool) : list bool :=
  match l with
  | a :: ((b :: _) as r) => xorb a b :: diff_bool r
  | _ => []
  end.

(** [idx.shape = (-1, 2)]: ValueError for an odd number of elements. *)
Fixpoint pairs_of (l : list nat) : res (list (nat * nat)) :=
  match l with
  | [] => Ok []
  | a :: b :: r => let* ps := pairs_of r in Ok ((a, b) :: ps)
  | [_] => Err EValueError
  end.

Definition contiguous_regions (condition : list bool) : res (list (nat * nat)) :=
  (* lines 128-133 *)
  let idx := List.map S (nonzero (diff_bool condition)) in
  (* line 135: condition[0] raises IndexError on an empty array *)
  match condition with
  | [] => Err EIndexError
  | c0 :: _ =>
      let idx := if c0 then 0%nat :: idx else idx in
      (* lines 139-141 *)
      let idx := if last condition false then idx ++ [List.length condition] else idx in
      pairs_of idx
  end.

(** ** _tid_to_slice_ix, read_machinery.py 58-87 *)

(** A train ID given by the user: a Python int or a numpy integer.  They only
    differ in [train_ids > tid] (line 87): [train_ids] is a list, and
    [list > int] raises TypeError, while [list > np.uint64] is evaluated by
    numpy element by element. *)
Inductive user_tid := PyInt (z : Z) | NpInt (z : Z).
Definition tid_val (t : user_tid) : Z := match t with PyInt z => z | NpInt z => z end.

(** [train_ids.index(tid)] *)
Fixpoint list_index_from (i : nat) (x : Z) (l : list Z) : option nat :=
  match l with
  | [] => None
  | y :: r => if (x =? y)%Z then Some i else list_index_from (S i) x r
  end.
Definition list_index (x : Z) (l : list Z) : option nat := list_index_from 0 x l.

Definition tid_to_slice_ix (tid : option user_tid) (train_ids : list Z) (stop : bool)
  : res (option Z) :=
  match tid with
  | None => Ok None                                        (* 64-65 *)
  | Some ut =>
      let t := tid_val ut in
      match list_index t train_ids with                    (* 67-70 *)
      | Some i => Ok (Some (Z.of_nat i))
      | None =>
          match train_ids with
          | [] => Err EIndexError                          (* train_ids[0] *)
          | t0 :: _ =>
              if (t <? t0)%Z then                          (* 72-77 *)
                (if stop then Err EValueError else Ok None)
              else if (last train_ids 0 <? t)%Z then       (* 78-83 *)
                (if stop then Ok None else Err EValueError)
              else
                match ut with                              (* 84-87 *)
                | PyInt _ => Err ETypeError
                | NpInt _ =>
                    match nonzero (List.map (fun x => (t <? x)%Z) train_ids) with
                    | i :: _ => Ok (Some (Z.of_nat i))
                    | [] => Err EIndexError
                    end
                end
          end
      end
  end.

(** ** union_selections, read_machinery.py 148-164 *)

(** A selection maps a source to a set of keys, or to None for all keys. *)
Definition selection := list (string * option (list string)).

(** Lines 154-158: collect the key groups of each source in order. *)
Fixpoint seln_append (source : string) (keys : option (list string))
         (multi : list (string * list (option (list string))))
  : list (string * list (option (list string))) :=
  match multi with
  | [] => [(source, [keys])]
  | (s, gs) :: r =>
      if String.eqb source s then (s, gs ++ [keys]) :: r
      else (s, gs) :: seln_append source keys r
  end.

(** Lines 161-163: None absorbs, otherwise the union of the key sets. *)
Fixpoint merge_keygroups (gs : list (option (list string))) : option (list string) :=
  match gs with
  | [] => Some []
  | None :: _ => None
  | Some ks :: r => match merge_keygroups r with
                    | None => None
                    | Some ks' => Some (set_union ks ks')
                    end
  end.

Definition union_selections (sels : list selection) : selection :=
  let multi := fold_left (fun acc seln =>
                 fold_left (fun acc p => seln_append (fst p) (snd p) acc) seln acc) sels [] in
  List.map (fun p => (fst p, merge_keygroups (snd p))) multi.
