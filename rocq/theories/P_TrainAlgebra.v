(** C87: selections of trains can be split, joined, nested and exchanged with
    selections of data. *)
From Verif Require Import Base PyStr M_Files M_Machinery M_Reader M_Glob M_Select S_Reader S_Coll S_Glob S_Select S_Avail S_Hist S_TrainAlgebra
  L_Base L_Check L_Select L_Hist L_Glob L_TrainAlgebra Ex_Files P_Select.
Local Open Scope string_scope.
Local Open Scope list_scope.

(** ** C87 *)
(** Parts of a collection made by select_trains can be joined again with union: there is
    never a conflict, the result has the trains of the parts, in order and each once, and it
    is the same as selecting these trains at once. *)
Theorem C87_join : forall (V : Type) (d : dcoll V) ds r, reachable d -> ds <> [] ->
  (forall p, In p ds -> exists tr, select_trains d tr = Ok p) ->
  consistent_names (dc_files d) -> uniform_keys (dc_files d) -> is_union ds r ->
  exists d', r = Ok d' /\ StronglySorted Z.lt (dc_tids d') /\ (forall t, In t (dc_tids d') <-> exists p, In p ds /\ In t (dc_tids p)) /\
    (dc_tids d' <> [] -> exists d'', select_trains d (ByIdList (dc_tids d')) = Ok d'' /\ same_content d' d'').
Proof. exact @split_union. Qed.
Print Assumptions C87_join.

(** If the parts have all trains between them, their union is the whole collection. *)
Theorem C87_whole : forall (V : Type) (d : dcoll V) ds r, reachable d -> ds <> [] ->
  (forall p, In p ds -> exists tr, select_trains d tr = Ok p) ->
  consistent_names (dc_files d) -> uniform_keys (dc_files d) -> StronglySorted Z.lt (dc_tids d) -> dc_tids d <> [] ->
  (forall f, In f (dc_files d) -> exists t, In t (fa_tids f) /\ In t (dc_tids d)) ->
  (forall t, In t (dc_tids d) -> exists p, In p ds /\ In t (dc_tids p)) -> is_union ds r ->
  exists d', r = Ok d' /\ same_content d' d.
Proof. exact @split_all. Qed.
Print Assumptions C87_whole.

(** Selecting trains from selected trains is selecting them from the collection. *)
Theorem C87_twice : forall (V : Type) (d : dcoll V) tr1 d1 tr2 d2, reachable d ->
  select_trains d tr1 = Ok d1 -> select_trains d1 tr2 = Ok d2 ->
  dc_tids d2 <> [] -> StronglySorted Z.lt (dc_tids d2) -> select_trains d (ByIdList (dc_tids d2)) = Ok d2.
Proof. exact @trains_twice. Qed.
Print Assumptions C87_twice.

(** If trains and then data can be selected, data and then trains can be selected, with the
    same result; and likewise for deselect. *)
Theorem C87_order : forall (V : Type) (d : dcoll V) tr dt a dta, reachable d -> distinct_kinds d -> uniform_keys (dc_files d) -> proper a ->
  select_trains d tr = Ok dt -> select dt a = Ok dta ->
  exists da dat, select d a = Ok da /\ select_trains da tr = Ok dat /\ same_content dat dta.
Proof. intros V d tr dt a dta R D U P Ht Ha. exact (order_select R D U Ht P Ha). Qed.
Print Assumptions C87_order.
Theorem C87_order_deselect : forall (V : Type) (d : dcoll V) tr dt a dta, reachable d -> distinct_kinds d -> uniform_keys (dc_files d) -> proper a ->
  select_trains d tr = Ok dt -> deselect dt a = Ok dta ->
  exists da dat, deselect d a = Ok da /\ select_trains da tr = Ok dat /\ same_content dat dta.
Proof. intros V d tr dt a dta R D U P Ht Ha. exact (order_deselect R D U Ht P Ha). Qed.
Print Assumptions C87_order_deselect.

(** The other way round this is not so: selecting the trains drops files, and the sources
    which are only in these files can no longer be selected (ValueError), while selecting
    the data first succeeds. *)
Theorem C87_order_refuted : exists (d : dcoll Z) tr dt a da dat, reachable d /\ good_collection d /\ uniform_keys (dc_files d) /\ proper a /\
  select d a = Ok da /\ select_trains da tr = Ok dat /\ select_trains d tr = Ok dt /\ select dt a = Err EValueError.
Proof.
  exists run, (ByIdList [14%Z]), (force no_coll (select_trains run (ByIdList [14%Z]))), (SelGlobs [("CAM*", "*")]), run_cam,
    (force no_coll (select_trains run_cam (ByIdList [14%Z]))).
  split; [exact run_reachable|]. split; [exact run_good|]. split; [apply uniformb_ok; vm_compute; reflexivity|].
  split; [repeat (apply Forall_cons || apply Forall_nil || split); apply valid_patternb_ok; reflexivity|].
  repeat split; vm_compute; reflexivity.
Qed.
Print Assumptions C87_order_refuted.

(** The run of Ex_Files in three parts, in another order and overlapping; one of them has only
    the camera file left next to the first file. *)
Definition part (l : list Z) : dcoll Z := force no_coll (select_trains run (ByIdList l)).
Example C87_example : reachable run /\ good_collection run /\ consistent_names (dc_files run) /\ uniform_keys (dc_files run) /\
  StronglySorted Z.lt (dc_tids run) /\
  (forall f, In f (dc_files run) -> exists t, In t (fa_tids f) /\ In t (dc_tids run)) /\
  (forall p, In p [part [13; 14]; part [10]; part [11; 12; 13]]%Z -> exists tr, select_trains run tr = Ok p) /\
  (forall t, In t (dc_tids run) -> exists p, In p [part [13; 14]; part [10]; part [11; 12; 13]]%Z /\ In t (dc_tids p)) /\
  (exists d', is_union [part [13; 14]; part [10]; part [11; 12; 13]]%Z (Ok d') /\ dc_tids d' = [10; 11; 12; 13; 14]%Z /\
     content d' = content run) /\
  select_trains (part [11; 12; 13]%Z) (ByIndex (mk_slice None (Some 2%Z) None)) = Ok (part [11; 12]%Z) /\
  proper (SelGlobs [("CAM*", "*")]) /\ proper (SelDict [("XGM", ["beam.pos"])]) /\
  (exists dta, select (part [13; 14]%Z) (SelGlobs [("CAM*", "*")]) = Ok dta /\ content dta = [("CAM:daq", ["data.pix"])]) /\
  (exists dta, deselect (part [13; 14]%Z) (SelDict [("XGM", ["beam.pos"])]) = Ok dta).
Proof.
  split; [exact run_reachable|]. split; [exact run_good|]. split.
  { intros f f' Hf Hf' E. vm_compute in Hf, Hf'.
    repeat (destruct Hf as [<-|Hf]; [repeat (destruct Hf' as [<-|Hf']; [first [reflexivity|exfalso; vm_compute in E; discriminate]|]); destruct Hf'|]); destruct Hf. }
  split; [apply uniformb_ok; vm_compute; reflexivity|].
  split; [change (dc_tids run) with [10; 11; 12; 13; 14]%Z; repeat (constructor; try lia)|].
  split.
  { intros f Hf. change (dc_tids run) with [10; 11; 12; 13; 14]%Z. vm_compute in Hf.
    destruct Hf as [<-|[<-|[<-|[]]]]; [exists 10%Z|exists 13%Z|exists 11%Z]; cbn; tauto. }
  split.
  { intros p [<-|[<-|[<-|[]]]]; [exists (ByIdList [13; 14]%Z)|exists (ByIdList [10]%Z)|exists (ByIdList [11; 12; 13]%Z)]; vm_compute; reflexivity. }
  split.
  { intros t Ht. change (In t [10; 11; 12; 13; 14]%Z) in Ht. destruct Ht as [<-|[<-|[<-|[<-|[<-|[]]]]]];
      [exists (part [10]%Z)|exists (part [11;12;13]%Z)|exists (part [11;12;13]%Z)|exists (part [11;12;13]%Z)|exists (part [13;14]%Z)]; (split; [cbn; tauto|vm_compute; tauto]). }
  split.
  { destruct (union_in_order (union_files [part [13; 14]; part [10]; part [11; 12; 13]]%Z) [part [13; 14]; part [10]; part [11; 12; 13]]%Z) as [d'|] eqn:E;
      [|exfalso; revert E; vm_compute; discriminate].
    exists d'. split; [exists (union_files [part [13; 14]; part [10]; part [11; 12; 13]]%Z); split; [apply Permutation_refl|symmetry; exact E]|].
    vm_compute in E. injection E as <-. split; vm_compute; reflexivity. }
  split; [vm_compute; reflexivity|].
  split; [repeat (apply Forall_cons || apply Forall_nil || split); apply valid_patternb_ok; reflexivity|].
  split; [split; [intros s ks [H|[]]; injection H as _ <-; discriminate|repeat constructor; intros []]|].
  split; eexists; [split|]; vm_compute; reflexivity.
Qed.
