(** Words for histories of reading, leaving 'with' blocks and removing files. *)
From Verif Require Import Base M_Files M_Reader M_Series M_Handles.
Set Implicit Arguments.
Local Open Scope list_scope.

Section S.
Context {V : Type}.
(** The files in play: one object per file. *)
Definition one_each (U : list (faccess V)) : Prop := forall f g, In f U -> In g U -> fname f = fname g -> f = g.
Definition event_data (e : event V) : list (dcoll V) :=
  match e with
  | EvTrain d _ | EvArray d _ _ | EvIter d _ | EvLazy d _ _ | EvEnter d _ | EvExit d _ => [d]
  | EvNext _ | EvCompute _ | EvRemove _ => []
  end.
Definition within (U : list (faccess V)) (es : list (event V)) : Prop :=
  forall e d, In e es -> In d (event_data e) -> incl (dc_files d) U.

(** A file of the collection was removed; a 'with' block for a collection with a file of this one was left. *)
Definition lost (es : list (event V)) (d : dcoll V) : Prop := exists f, In f (dc_files d) /\ In (EvRemove (fname f)) es.
Definition closed_meanwhile (es : list (event V)) (d : dcoll V) : Prop :=
  exists f d', In f (dc_files d) /\ In f (dc_files d') /\ In (EvExit d' true) es.

(** The iterators and lazy arrays in the order in which they were made. *)
Definition iters_made (es : list (event V)) : list (dcoll V * bool) :=
  flat_map (fun e => match e with EvIter d ra => [(d, ra)] | _ => [] end) es.
Definition lazies_made (log : list (event V * reply V)) : list (dcoll V * string * string) :=
  flat_map (fun p => match p with (EvLazy d s k, RMade (Ok _)) => [(d, s, k)] | _ => [] end) log.
(** What the calls of next() on an iterator have given so far (None: StopIteration). *)
Definition items (i : nat) (log : list (event V * reply V)) : list (option (res (Z * list (string * src_data V)))) :=
  flat_map (fun p => match p with (EvNext j, RItem r) => if Nat.eqb j i then [r] else [] | _ => [] end) log.
End S.
