(** Property theorems C09-C11: selecting trains. *)
From Verif Require Import Base PyStr M_Files M_Machinery M_Reader M_Glob M_Select S_Reader S_Coll S_Select
  L_Base L_Machinery L_Reader L_GetArray L_Select L_SelTrains L_Check Ex_Files.
Local Open Scope string_scope.
Local Open Scope list_scope.
Local Open Scope Z_scope.

(** ** C09 *)
Theorem C09_by_index_slice : forall (V : Type) (d : dcoll V) s, reachable d ->
  (the_step s = 0 -> select_trains d (ByIndex s) = Err EValueError) /\
  (the_step s <> 0 -> exists d', select_trains d (ByIndex s) = Ok d' /\ is_slice (dc_tids d) s (dc_tids d')).
Proof.
  intros V d s R. destruct (py_slice_spec (dc_tids d) s) as [H0 H1]. split.
  - intros H. apply select_trains_err. exact (H0 H).
  - intros H. destruct (H1 H) as (r & E & Hr).
    destruct (@select_trains_ok V d (ByIndex s) r R E) as (d' & Hd & Ht & _). exists d'. rewrite Ht. auto.
Qed.
Print Assumptions C09_by_index_slice.
(** A slice of a list is unique: the previous theorem determines the trains. *)
Theorem C09_slice_unique : forall A (l : list A) s r1 r2, is_slice l s r1 -> is_slice l s r2 -> r1 = r2.
Proof. exact @is_slice_unique. Qed.
Print Assumptions C09_slice_unique.
Theorem C09_by_index_list : forall (V : Type) (d : dcoll V) ixs, reachable d ->
  let n := Z.of_nat (List.length (dc_tids d)) in
  ((exists i, In i ixs /\ ~ (- n <= i < n)) -> select_trains d (ByIndexList ixs) = Err EIndexError) /\
  ((forall i, In i ixs -> - n <= i < n) ->
     exists ts d', select_trains d (ByIndexList ixs) = Ok d' /\
       Forall2 (fun i t => nth_error (dc_tids d) (Z.to_nat (if i <? 0 then i + n else i)) = Some t) ixs ts /\
       Permutation ts (dc_tids d') /\ StronglySorted Z.le (dc_tids d')).
Proof.
  intros V d ixs R n. destruct (by_index_list (dc_tids d) ixs) as [H0 H1]. split.
  - intros H. apply select_trains_err. exact (H0 H).
  - intros H. destruct (H1 H) as (ts & r & HF & E & HP & HS).
    destruct (@select_trains_ok V d (ByIndexList ixs) r R E) as (d' & Hd & Ht & _). exists ts, d'. rewrite Ht. auto.
Qed.
Print Assumptions C09_by_index_list.
Theorem C09_duplicates_refuted : exists (d : dcoll Z) ixs d', reachable d /\ NoDup (dc_tids d) /\
  select_trains d (ByIndexList ixs) = Ok d' /\ ~ NoDup (dc_tids d').
Proof.
  destruct (select_trains run (ByIndexList [1; 0; -4])) as [d'|] eqn:E; [|exfalso; revert E; vm_compute; discriminate].
  exists run, [1; 0; -4], d'. split; [exact run_reachable|]. split; [vm_compute; repeat constructor; simpl; intuition discriminate|].
  split; [exact E|]. vm_compute in E. injection E as <-. cbn. intros H. apply NoDup_cons_iff in H as [_ H]. apply NoDup_cons_iff in H as [H _]. apply H. now left.
Qed.
Print Assumptions C09_duplicates_refuted.
Example C09_example : reachable run /\ dc_tids run = [10; 11; 12; 13; 14] /\
  (let s := mk_slice (Some (-1)) (Some 0) (Some (-2)) in
   the_step s <> 0 /\ exists d', select_trains run (ByIndex s) = Ok d' /\ dc_tids d' = [14; 12]) /\
  (exists d', select_trains run (ByIndexList [-1; 0; 2]) = Ok d' /\ dc_tids d' = [10; 12; 14]) /\
  select_trains run (ByIndexList [0; 5]) = Err EIndexError.
Proof.
  split; [exact run_reachable|]. split; [reflexivity|]. split; [split; [discriminate|eexists; split; reflexivity]|].
  split; [eexists; split; reflexivity|reflexivity].
Qed.

(** ** C10 *)
Theorem C10_by_id_slice : forall (V : Type) (d : dcoll V) a b, reachable d ->
  StronglySorted Z.lt (dc_tids d) -> dc_tids d <> [] ->
  usable_bound (dc_tids d) a -> usable_bound (dc_tids d) b ->
  let ta := option_map tid_val a in let tb := option_map tid_val b in
  (outside (dc_tids d) ta tb -> select_trains d (ById a b None) = Err EValueError) /\
  (~ outside (dc_tids d) ta tb -> exists d', select_trains d (ById a b None) = Ok d' /\
     dc_tids d' = filter (in_range ta tb) (dc_tids d)).
Proof.
  intros V d a b R HS Hne Ha Hb ta tb. destruct (@by_id_slice (dc_tids d) a b HS Hne Ha Hb) as [H0 H1]. split.
  - intros H. apply select_trains_err. exact (H0 H).
  - intros H. destruct (@select_trains_ok V d (ById a b None) _ R (H1 H)) as (d' & Hd & Ht & _). eauto.
Qed.
Print Assumptions C10_by_id_slice.
(** Every bound inside a gap given as a Python int fails with TypeError. *)
Theorem C10_gap_start : forall (V : Type) (d : dcoll V) t b, StronglySorted Z.lt (dc_tids d) ->
  inside_gap (dc_tids d) t -> select_trains d (ById (Some (PyInt t)) b None) = Err ETypeError.
Proof. intros V d t b HS Hg. apply select_trains_err. now apply by_id_gap_error. Qed.
Print Assumptions C10_gap_start.
Theorem C10_gap_stop : forall (V : Type) (d : dcoll V) t a, StronglySorted Z.lt (dc_tids d) ->
  inside_gap (dc_tids d) t -> (a = None \/ exists ut, a = Some ut /\ In (tid_val ut) (dc_tids d)) ->
  select_trains d (ById a (Some (PyInt t)) None) = Err ETypeError.
Proof. intros V d t a HS Hg Ha. apply select_trains_err. now apply by_id_gap_error_stop. Qed.
Print Assumptions C10_gap_stop.
(** The documented behaviour (trains with a <= id < b) fails on a run with a gap. *)
Theorem C10_gap_refuted : exists (d : dcoll Z) a b t, reachable d /\ StronglySorted Z.lt (dc_tids d) /\
  In t (dc_tids d) /\ a <= t < b /\ select_trains d (ById (Some (PyInt a)) (Some (PyInt b)) None) = Err ETypeError.
Proof.
  destruct (open_files [file3]) as [d|] eqn:E; [|exfalso; revert E; vm_compute; discriminate].
  pose proof (open_files_reachable _ E) as R. vm_compute in E. injection E as <-.
  eexists; exists 12, 14, 13. split; [exact R|]. split; [|split; [right; left; reflexivity|split; [lia|reflexivity]]].
  cbn [dc_tids]. repeat constructor; lia.
Qed.
Print Assumptions C10_gap_refuted.
Example C10_example : reachable run /\ StronglySorted Z.lt (dc_tids run) /\
  usable_bound (dc_tids run) (Some (PyInt 11)) /\ usable_bound (dc_tids run) (Some (PyInt 99)) /\
  ~ outside (dc_tids run) (Some 11) (Some 99) /\
  filter (in_range (Some 11) (Some 99)) (dc_tids run) = [11; 12; 13; 14].
Proof.
  split; [exact run_reachable|]. change (dc_tids run) with [10; 11; 12; 13; 14].
  split; [repeat constructor; lia|]. split; [|split; [|split; [|reflexivity]]].
  - intros [H _]. apply H. simpl; auto.
  - intros (_ & _ & x & Hx & Hlt). simpl in Hx. lia.
  - intros [(t & E & H)|(t & E & H)]; injection E as <-; specialize (H 11); simpl in H; lia.
Qed.

(** ** C11 *)
Theorem C11_by_id_list : forall (V : Type) (d : dcoll V) ids, reachable d ->
  ((forall t, In t (dc_tids d) -> ~ In t ids) -> select_trains d (ByIdList ids) = Err EValueError) /\
  ((exists t, In t (dc_tids d) /\ In t ids) -> exists d', select_trains d (ByIdList ids) = Ok d' /\
     StronglySorted Z.lt (dc_tids d') /\ forall t, In t (dc_tids d') <-> In t (dc_tids d) /\ In t ids).
Proof.
  intros V d ids R. destruct (by_id_list (dc_tids d) ids) as [H0 H1]. split.
  - intros H. apply select_trains_err. exact (H0 H).
  - intros H. destruct (H1 H) as (r & E & Hs & Hm).
    destruct (@select_trains_ok V d (ByIdList ids) r R E) as (d' & Hd & Ht & _). exists d'. rewrite Ht. auto.
Qed.
Print Assumptions C11_by_id_list.
Example C11_example : reachable run /\ (exists t, In t (dc_tids run) /\ In t [99; 13; 11; 11]) /\
  exists d', select_trains run (ByIdList [99; 13; 11; 11]) = Ok d' /\ dc_tids d' = [11; 13].
Proof.
  split; [exact run_reachable|]. split; [exists 13; vm_compute; tauto|]. eexists; split; reflexivity.
Qed.
