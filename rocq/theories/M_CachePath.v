(** Model of RunFilesMap.map_paths_for_run (run_files_map.py 54-74): where the cache of a run can be. *)
From Verif Require Import Base PyStr M_Regex M_Stacking M_OpenRun.
Set Implicit Arguments.
Local Open Scope string_scope.
Local Open Scope list_scope.

(** run_files_map.py 10 *)
Definition SCRATCH_ROOT_DIR : string := "/gpfs/exfel/exp/".

(** The class . (any character except a newline). *)
Definition any_char (c : ascii) : bool := negb (Ascii.eqb c newline).
(** The class \w, for ASCII names (letters of other alphabets are not modelled). *)
Definition word_char (c : ascii) : bool :=
  let n := nat_of_ascii c in
  is_digit c || ((65 <=? n) && (n <=? 90))%nat || ((97 <=? n) && (n <=? 122))%nat || (n =? 95)%nat.

(** run_files_map.py 59-61: .+/(raw|proc)/(\w+)/(\w+)/(p\d+)/(r\d+)/?$ *)
Definition run_re : re :=
  RSeq (RPlus any_char) (RSeq (RLit "/") (RSeq (RGroup (RAlt (RLit "raw") (RLit "proc")))
  (RSeq (RLit "/") (RSeq (RGroup (RPlus word_char)) (RSeq (RLit "/") (RSeq (RGroup (RPlus word_char))
  (RSeq (RLit "/") (RSeq (RGroup (RSeq (RLit "p") (RPlus is_digit)))
  (RSeq (RLit "/") (RSeq (RGroup (RSeq (RLit "r") (RPlus is_digit)))
  (RSeq (ROpt (RLit "/")) REnd))))))))))).

(** osp.join of several paths. *)
Definition path_joins (a : string) (l : list string) : string := fold_left path_join l a.

(** run_files_map.py 54-74; [realpath] is os.path.realpath(directory), [isdir] is osp.isdir. *)
Definition map_paths_for_run (isdir : string -> bool) (directory realpath : string) : list string :=
  let paths := [path_join directory "karabo_data_map.json"] in
  match re_match run_re realpath with
  | Some [raw_proc; instr; cycle; prop; run_nr] =>
      let fname := (raw_proc ++ "_" ++ run_nr ++ ".json")%string in
      let prop_scratch := path_joins SCRATCH_ROOT_DIR [instr; cycle; prop; "scratch"] in
      if isdir prop_scratch then paths ++ [path_joins prop_scratch [".karabo_data_maps"; fname]] else paths
  | _ => paths
  end.
