(** C10, continued: slices of train IDs with a step. *)
From Verif Require Import Base PyStr M_Files M_Machinery M_Reader M_Glob M_Select S_Reader S_Coll S_Select
  L_Base L_Machinery L_Reader L_GetArray L_Select L_SelTrains L_SelStep L_Check Ex_Files P_SelTrains.
Local Open Scope string_scope.
Local Open Scope list_scope.
Local Open Scope Z_scope.

(** by_id[a:b:s], s > 0: every s-th of the trains with a <= id < b, beginning with the first of them.
    Bounds beyond the run and a step of zero raise ValueError. *)
Theorem C10_step : forall (V : Type) (d : dcoll V) a b k, reachable d ->
  StronglySorted Z.lt (dc_tids d) -> dc_tids d <> [] ->
  usable_bound (dc_tids d) a -> usable_bound (dc_tids d) b ->
  let ta := option_map tid_val a in let tb := option_map tid_val b in
  (outside (dc_tids d) ta tb -> select_trains d (ById a b k) = Err EValueError) /\
  (k = Some 0 -> select_trains d (ById a b k) = Err EValueError) /\
  (forall s, k = Some s -> 0 < s -> ~ outside (dc_tids d) ta tb -> exists d', select_trains d (ById a b k) = Ok d' /\
     is_slice (filter (in_range ta tb) (dc_tids d)) (mk_slice None None (Some s)) (dc_tids d')).
Proof.
  intros V d a b k R HS Hne Ha Hb ta tb. destruct (@by_id_step (dc_tids d) a b k HS Hne Ha Hb) as (H0 & H1 & H2). split; [|split].
  - intros H. apply select_trains_err. exact (H0 H).
  - intros H. apply select_trains_err. exact (H1 H).
  - intros s E Hs H. destruct (H2 s E Hs H) as (r & Er & Ir).
    destruct (@select_trains_ok V d (ById a b k) r R Er) as (d' & Hd & Ht & _). exists d'. rewrite Ht. auto.
Qed.
Print Assumptions C10_step.

(** b < t <= a *)
Definition down_range (a b : option Z) (t : Z) : bool :=
  (match b with None => true | Some x => x <? t end) && (match a with None => true | Some x => t <=? x end).
(** by_id[a:b:s], s < 0, with trains a and b of the run: from train a backwards, every |s|-th train, stopping before b. *)
Theorem C10_backwards : forall (V : Type) (d : dcoll V) a b s, reachable d ->
  StronglySorted Z.lt (dc_tids d) -> dc_tids d <> [] -> s < 0 ->
  (forall t, a = Some t -> In (tid_val t) (dc_tids d)) -> (forall t, b = Some t -> In (tid_val t) (dc_tids d)) ->
  exists d', select_trains d (ById a b (Some s)) = Ok d' /\
    is_slice (filter (down_range (option_map tid_val a) (option_map tid_val b)) (dc_tids d)) (mk_slice None None (Some s)) (dc_tids d').
Proof.
  intros V d a b s R HS Hne Hs Ha Hb. destruct (@by_id_back (dc_tids d) a b s HS Hne Hs Ha Hb) as (r & Er & Ir).
  destruct (@select_trains_ok V d (ById a b (Some s)) r R Er) as (d' & Hd & Ht & _). exists d'. rewrite Ht. split; [exact Hd|].
  erewrite filter_ext; [exact Ir|]. intros t. unfold down_range, in_range. destruct a as [x|], b as [y|]; cbn [option_map]; try reflexivity;
    repeat match goal with |- context [?u <? ?v] => destruct (Z.ltb_spec u v) | |- context [?u <=? ?v] => destruct (Z.leb_spec u v) end; try reflexivity; lia.
Qed.
Print Assumptions C10_backwards.

(** In a collection without trains a bound raises IndexError. *)
Theorem C10_no_trains : forall (V : Type) (d : dcoll V) a b k, dc_tids d = [] -> (a <> None \/ b <> None) ->
  select_trains d (ById a b k) = Err EIndexError.
Proof. intros V d a b k E H. apply select_trains_err. rewrite E. now apply by_id_empty. Qed.
Print Assumptions C10_no_trains.

(** A start inside a gap given as a Python int fails with every step. *)
Theorem C10_gap_step : forall (V : Type) (d : dcoll V) t b k, StronglySorted Z.lt (dc_tids d) ->
  inside_gap (dc_tids d) t -> select_trains d (ById (Some (PyInt t)) b k) = Err ETypeError.
Proof. intros V d t b k HS Hg. apply select_trains_err. now apply by_id_gap_any. Qed.
Print Assumptions C10_gap_step.

(** With a negative step, a start before the run is taken at the wrong end: the whole run is selected,
    although no train is at or before the start. *)
Theorem C10_backwards_refuted : exists (d d' : dcoll Z) a, reachable d /\ StronglySorted Z.lt (dc_tids d) /\
  (forall t, In t (dc_tids d) -> a < t) /\ select_trains d (ById (Some (PyInt a)) None (Some (-1))) = Ok d' /\ dc_tids d' = rev (dc_tids d) /\ dc_tids d' <> [].
Proof.
  destruct (select_trains run (ById (Some (PyInt 5)) None (Some (-1)))) as [d'|] eqn:E; [|exfalso; revert E; vm_compute; discriminate].
  exists run, d', 5. split; [exact run_reachable|]. vm_compute in E. injection E as <-. cbn [dc_tids].
  change (dc_tids run) with [10; 11; 12; 13; 14].
  split; [repeat constructor; lia|]. split; [intros t H; simpl in H; lia|].
  split; [vm_compute; reflexivity|]. split; [reflexivity|discriminate].
Qed.
Print Assumptions C10_backwards_refuted.

Example C10_step_example : (exists d', select_trains run (ById (Some (PyInt 11)) (Some (PyInt 99)) (Some 3)) = Ok d' /\ dc_tids d' = [11; 14]) /\
  (exists d', select_trains run (ById (Some (PyInt 14)) (Some (PyInt 11)) (Some (-2))) = Ok d' /\ dc_tids d' = [14; 12]) /\
  select_trains run (ById None None (Some 0)) = Err EValueError /\
  In 14 (dc_tids run) /\ In 11 (dc_tids run).
Proof.
  split; [eexists; split; reflexivity|]. split; [eexists; split; reflexivity|]. split; [reflexivity|].
  change (dc_tids run) with [10; 11; 12; 13; 14]. cbn; tauto.
Qed.
Example C10_no_trains_example : exists d, select_trains run (ByIndex (mk_slice (Some 7) None None)) = Ok d /\ dc_tids d = [] /\
  select_trains d (ById (Some (PyInt 11)) None None) = Err EIndexError.
Proof. eexists. split; [reflexivity|]. split; reflexivity. Qed.
