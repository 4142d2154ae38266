(** Model of karabo_data/validation.py. *)
From Verif Require Import Base PyStr M_Files M_Machinery M_Reader.
Set Implicit Arguments.
Local Open Scope string_scope.
Local Open Scope list_scope.

(** ** numpy arithmetic used by the checks *)

(** An elementwise binary operation on one-dimensional arrays: equal lengths, or
    one of them of length 1 (broadcasting); ValueError otherwise. *)
Definition np_bin {A B C} (f : A -> B -> C) (a : list A) (b : list B) : res (list C) :=
  if Nat.eqb (List.length a) (List.length b) then Ok (map (fun p => f (fst p) (snd p)) (combine a b))
  else match a, b with
       | [x], _ => Ok (map (f x) b)
       | _, [y] => Ok (map (fun x => f x y) a)
       | _, _ => Err EValueError
       end.

(** [astype(np.int64)] of an unsigned 64 bit number. *)
Definition to_i64 (z : Z) : Z := (if z <? 2 ^ 63 then z else z - 2 ^ 64)%Z.

(** Conversion of an integer to float64: round to nearest, ties to even, 53 bits.
    The result is an integer. *)
Definition to_f64 (z : Z) : Z :=
  (let a := Z.abs z in
   if a <=? 2 ^ 53 then z else
   let e := Z.log2 a - 52 in
   let q := a / 2 ^ e in
   let r := a mod 2 ^ e in
   let h := 2 ^ (e - 1) in
   let q' := if r <? h then q else if h <? r then q + 1 else if Z.even q then q else q + 1 in
   Z.sgn z * (q' * 2 ^ e))%Z.

(** validation.py 126: [firsts[1:].astype(np.int64) - (firsts + counts)[:-1]].
    numpy subtracts uint64 from int64 in float64.  Only the sign of the result is
    used, and the sign of a floating point difference is the sign of the exact
    difference, which is what is computed here. *)
Definition gap_f64 (next end_ : Z) : Z := (to_f64 (to_i64 next) - to_f64 end_)%Z.

Section Validation.
Context {V : Type}.
Notation h5file := (h5file V).
Notation faccess := (faccess V).

(** The problems recorded, by message; all carry the file name
    (validation.py 45-46).  "Index first / count are not 1D" cannot occur here:
    index datasets are one-dimensional in the file model. *)
Inductive problem_kind :=
| PZeroesBefore                                             (* 56-58 *)
| PNotIncreasing (pos : nat) (a b : Z)                      (* 67-72 *)
| POutside (dataset : string) (max_end dim0 : Z)            (* 82-89 *)
| PDifferentNumber (index : string) (nfirst ncount : nat)   (* 103-108 *)
| PWrongNumber (index : string) (nindex ntrains : nat)      (* 110-115 *)
| PNotAtZero (index : string)                               (* 121-122 *)
| PGaps (index : string) (n pos : nat) (first count next : Z)      (* 126-131 *)
| POverlaps (index : string) (n pos : nat) (first count next : Z). (* 133-138 *)
Record problem := mk_problem { pr_file : string; pr_kind : problem_kind }.

(** validation.py 48-71: [check_trainids]. *)
Definition z_index (z : Z) (l : list Z) : nat := List.hd 0%nat (nonzero (map (fun x => Z.eqb x z) l)).
Definition check_trainids (fa : faccess) : res (list problem_kind) :=
  match h5_trainid (fa_file fa) with
  | None => Err EKeyError
  | Some tids =>
      let zero_problem :=
        if existsb (Z.eqb 0) tids
        then if forallb (Z.eqb 0) (skipn (z_index 0 tids) tids) then [] else [PZeroesBefore]
        else [] in
      let nonzero_t := if existsb (Z.eqb 0) tids then filter (fun t => negb (t =? 0)%Z) tids else tids in
      let incr_problem :=
        if (1 <? List.length nonzero_t)%nat then
          match nonzero (map (fun p => (snd p <=? fst p)%Z) (combine nonzero_t (skipn 1 nonzero_t))) with
          | [] => []
          | pos :: _ => [PNotIncreasing pos (nth pos nonzero_t 0%Z) (nth (S pos) nonzero_t 0%Z)]
          end
        else [] in
      Ok (zero_problem ++ incr_problem)
  end.

(** Maximum of a non-empty array. *)
Definition np_max (l : list Z) : Z := fold_right Z.max 0%Z l.

(** validation.py 77-89: the check of one key ([key.split('.', 1)[0]] is the part
    before the first dot). *)
Definition check_key (fa : faccess) (src key : string) : res (list problem_kind) :=
  let path := ds_path "INSTRUMENT" src key in
  let* p := fa_get_index fa src (key_group key) in
  let '(first, count) := p in
  let* ds := fa_dataset fa path in
  let dim0 := Z.of_nat (List.length (ds_rows ds)) in
  let* ends := np_bin (fun a c => u64 (a + c)) first count in
  Ok (if existsb (fun e => (dim0 <? e)%Z) ends then [POutside path (np_max ends) dim0] else []).

(** validation.py 120-142: [check_index_contiguous].  The array elements in the
    messages are read with IndexError if out of range. *)
Definition check_index_contiguous (index : string) (firsts counts : list Z) : res (list problem_kind) :=
  let* f0 := nth_res firsts 0 in
  let start := if (f0 =? 0)%Z then [] else [PNotAtZero index] in
  let* ends := np_bin (fun a c => u64 (a + c)) firsts counts in
  let* gaps := np_bin gap_f64 (skipn 1 firsts) (removelast ends) in
  let report (mk : string -> nat -> nat -> Z -> Z -> Z -> problem_kind) (ixs : list nat) :=
    match ixs with
    | [] => Ok []
    | pos :: _ =>
        let* f := nth_res firsts pos in
        let* c := nth_res counts pos in
        let* n := nth_res firsts (S pos) in
        Ok [mk index (List.length ixs) pos f c n]
    end in
  let* p1 := report PGaps (nonzero (map (fun g => (0 <? g)%Z) gaps)) in
  let* p2 := report POverlaps (nonzero (map (fun g => (g <? 0)%Z) gaps)) in
  Ok (start ++ p1 ++ p2).

(** validation.py 91-117: the checks of one index group. *)
Definition check_group (fa : faccess) (src group : string) : res (list problem_kind) :=
  let index := ("INDEX/" ++ ix_path src group)%string in
  let* p := fa_get_index fa src group in
  let '(first, count) := p in
  let nf := List.length first in
  let nc := List.length count in
  let nt := List.length (fa_tids fa) in
  let different := if Nat.eqb nf nc then [] else [PDifferentNumber index nf nc] in
  let wrong := if Nat.eqb nf nt then [] else [PWrongNumber index nf nt] in
  let* contig := check_index_contiguous index first count in
  Ok (different ++ wrong ++ contig).

(** validation.py 74-117: [check_indices] for one source.  [src_groups] is a set:
    the order in which the groups are visited is that of their first occurrence
    here, any order in Python. *)
Definition check_source (fa : faccess) (src : string) : res (list problem_kind) :=
  let* keys := fa_get_keys fa src in
  let* p1 := mapM (check_key fa src) keys in
  let groups := fold_left (fun acc k => set_add (key_group k) acc) keys [] in
  let* p2 := mapM (check_group fa src) groups in
  Ok (List.concat p1 ++ List.concat p2).

(** validation.py 39-43: [FileValidator.run_checks]. *)
Definition file_checks (fa : faccess) : res (list problem) :=
  let* p1 := mapM (check_source fa) (fa_inst fa) in
  let* p2 := check_trainids fa in
  Ok (map (mk_problem (h5_name (fa_file fa))) (List.concat p1 ++ p2)).


(** ** RunValidator *)
Inductive run_problem :=
| RNotOpened (path : string) (e : exn)      (* 171-172 *)
| RNoUsableFiles                            (* 174-177 *)
| RFileProblem (p : problem)                (* 179-182 *)
| RCacheWrong (path : string).              (* 184-199 *)

(** What [RunFilesMap.get] returns for a file: None, or train IDs, control sources
    and instrument sources. *)
Definition map_entry := option (list Z * list string * list string).
Definition same_set (a b : list string) : bool :=
  forallb (fun s => str_in s b) a && forallb (fun s => str_in s a) b.

(** validation.py 188-203: [check_files_map] for one file; subscripting None raises TypeError. *)
Definition check_map_entry (cache : string -> map_entry) (fa : faccess) : res (list run_problem) :=
  match cache (h5_name (fa_file fa)) with
  | None => Err ETypeError
  | Some (tids, ctrl, inst) =>
      Ok (if negb (same_set ctrl (fa_ctrl fa)) || negb (same_set inst (fa_inst fa)) || negb (zlist_eqb tids (fa_tids fa))
          then [RCacheWrong (h5_name (fa_file fa))] else [])
  end.

(** validation.py 145-203: constructing the RunValidator from the *.h5 files of the directory (in the
    order given by glob), each opened or not, and [run_checks].  The DataCollection
    constructor raises if two files hold the same train of a source. *)
Definition run_checks (paths : list (string * res faccess)) (cache : string -> map_entry) : res (list run_problem) :=
  let files := usable (map snd paths) in
  let* _ := mk_collection files None None in
  let excluded := flat_map (fun p => match snd p with Err e => [RNotOpened (fst p) e] | Ok _ => [] end) paths in
  let none := match files with [] => [RNoUsableFiles] | _ => [] end in
  let* p1 := mapM (fun f => let* l := file_checks f in Ok (map RFileProblem l)) files in
  let* p2 := mapM (check_map_entry cache) files in
  Ok (excluded ++ none ++ List.concat p1 ++ List.concat p2).
End Validation.
