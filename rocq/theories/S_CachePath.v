(** Specification vocabulary for the places of the cache. *)
From Verif Require Import Base S_Open M_Stacking.
Local Open Scope string_scope.

(** A letter, a digit or an underscore. *)
Definition word_letter (c : ascii) : Prop :=
  let n := nat_of_ascii c in (48 <= n <= 57)%nat \/ (65 <= n <= 90)%nat \/ (97 <= n <= 122)%nat \/ n = 95%nat.
Fixpoint every (P : ascii -> Prop) (s : string) : Prop :=
  match s with "" => True | String c r => P c /\ every P r end.
Definition a_word (s : string) : Prop := s <> "" /\ every word_letter s.
(** A letter and a number. *)
Definition numbered (c : ascii) (s : string) : Prop :=
  exists n, s = String c n /\ n <> "" /\ every (fun c => 48 <= nat_of_ascii c <= 57)%nat n.

(** The names below the root of the storage which tell a run. *)
Record run_id := mk_run_id { ri_kind : string; ri_instrument : string; ri_cycle : string; ri_proposal : string; ri_run : string }.
Definition run_id_ok (r : run_id) : Prop :=
  (ri_kind r = "raw" \/ ri_kind r = "proc") /\ a_word (ri_instrument r) /\ a_word (ri_cycle r) /\
  numbered "p" (ri_proposal r) /\ numbered "r" (ri_run r).
Definition run_names (r : run_id) : string :=
  "/" ++ ri_kind r ++ "/" ++ ri_instrument r ++ "/" ++ ri_cycle r ++ "/" ++ ri_proposal r ++ "/" ++ ri_run r.
(** A directory (its real path) is that of a run, below some root. *)
Definition is_run (path : string) (root : string) (r : run_id) : Prop :=
  path = root ++ run_names r /\ root <> "" /\ run_id_ok r.

Definition scratch (r : run_id) : string :=
  "/gpfs/exfel/exp/" ++ ri_instrument r ++ "/" ++ ri_cycle r ++ "/" ++ ri_proposal r ++ "/scratch".
Definition scratch_map (r : run_id) : string :=
  scratch r ++ "/.karabo_data_maps/" ++ ri_kind r ++ "_" ++ ri_run r ++ ".json".

(** A real path: no slash at the end.  No newline in it. *)
Definition real_path (p : string) : Prop := (forall q, p <> q ++ "/") /\ ~ has_char (ascii_of_nat 10) p.
