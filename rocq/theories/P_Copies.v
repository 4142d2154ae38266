(** C85: written files pass validation, and can be copied again any number of times. *)
From Verif Require Import Base PyStr M_Files M_Machinery M_Reader M_Glob M_Select M_Writer M_Validation S_Reader S_Coll S_Avail S_Open S_Writer S_Validation
  L_Base L_Select L_Array2 L_Trains L_Check L_Check2 L_Writer L_Writer2 L_Writer3 L_Writer4 L_Writer5 L_Writer6 L_Copies Ex_Files P_Reader P_Writer.
Local Open Scope string_scope.
Local Open Scope list_scope.

(** ** C85 *)
(** What write() and write_virtual() produce opens, and the validator has
    nothing to say about it. *)
Theorem C85_valid : forall (V : Type) (d : dcoll V) name f, reachable d -> orderly d ->
  write name d = Ok f \/ write_virtual name d = Ok f ->
  Forall u64_range (dc_tids d) -> (forall p ds, dict_get p (h5_data f) = Some ds -> (Z.of_nat (List.length (ds_rows ds)) < 2 ^ 53)%Z) ->
  (forall s k, available d s k -> exists a, get_array d s k = Ok a) ->
  exists fa, fa_open f = Ok fa /\ usable_file fa /\ file_checks fa = Ok [].
Proof.
  intros V d name f Hr Ho [Hf|Hf] Hu Hs Ha.
  - apply (@written_valid V (@read_real V) d name f Hr Ho); [|exact Hf|exact Hu|exact Hs].
    intros c s k a _ H. destruct (read_real_ok H) as (a' & E & G & _). injection E as ->. exact G.
  - apply (@written_valid V (@read_virtual V) d name f Hr Ho); [|exact Hf|exact Hu|exact Hs].
    intros c s k a Sf H. assert (Hk : distinct_kinds d) by apply Ho. apply selected_available in Sf as [A _]; auto.
    destruct (Ha s k A) as [a' Ga]. rewrite (virtual_same c Hr Hk (proj1 (proj2 Ho) s k A) Ga) in H. destruct (la_rows a'); [discriminate|]. congruence.
Qed.
Print Assumptions C85_valid.

(** Collections obtained by writing a file and opening it, again and again. *)
Inductive copied {V : Type} (d : dcoll V) : dcoll V -> Prop :=
| copied_none : copied d d
| copied_again d1 d2 name f : copied d d1 -> write name d1 = Ok f -> open_one f = Ok d2 -> copied d d2.

Lemma copied_keeps : forall (V : Type) (d d' : dcoll V), reachable d -> orderly d -> copied d d' ->
  reachable d' /\ orderly d' /\ (separate_keys d -> separate_keys d') /\
  dc_tids d' = dc_tids d /\ (forall s k, available d' s k <-> available d s k) /\
  (forall s k, available d s k -> is_control d' s = is_control d s /\ get_array d' s k = get_array d s k) /\
  (forall t r, In t (dc_tids d) -> train_from_id d t = Ok (t, r) ->
     exists r', train_from_id d' t = Ok (t, r') /\ forall s k, item r' s k = item r s k).
Proof.
  intros V d d' Hr Ho H. induction H as [|d1 d2 name f H (R & O & S & T & A & G & I) Hf Hd].
  - do 3 (split; [auto|]). split; [reflexivity|]. split; [tauto|]. split; [auto|]. intros t r _ E. exists r. auto.
  - destruct (copy_orderly R O Hf Hd) as (R' & O' & _ & S' & _).
    destruct (@C24_write_then_open V d1 name f R O Hf) as (d2' & E & T' & A' & G' & I'). rewrite Hd in E. injection E as <-.
    split; [exact R'|]. split; [exact O'|]. split; [auto|]. split; [congruence|]. split; [|split].
    + intros s k. rewrite A'. apply A.
    + intros s k Av. destruct (G s k Av) as [G1 G2]. destruct (G' s k) as [G3 G4]; [now apply A|]. split; congruence.
    + intros t r Ht Et. destruct (I t r Ht Et) as (r1 & E1 & I1). destruct (I' t r1) as (r2 & E2 & I2); [congruence|exact E1|].
      exists r2. split; [exact E2|]. intros s k. now rewrite I2.
Qed.

(** However many times: the same trains, the same sources and keys, the same
    arrays, and the same data in every train. *)
Theorem C85_generations : forall (V : Type) (d d' : dcoll V), reachable d -> orderly d -> copied d d' ->
  dc_tids d' = dc_tids d /\ (forall s k, available d' s k <-> available d s k) /\
  (forall s k, available d s k -> is_control d' s = is_control d s /\ get_array d' s k = get_array d s k) /\
  (forall t r, In t (dc_tids d) -> train_from_id d t = Ok (t, r) ->
     exists r', train_from_id d' t = Ok (t, r') /\ forall s k, item r' s k = item r s k).
Proof. intros V d d' Hr Ho H. apply (@copied_keeps V d d' Hr Ho H). Qed.
Print Assumptions C85_generations.

(** Once a first copy could be written, every further one can. *)
Theorem C85_again : forall (V : Type) (d d1 d' : dcoll V) name f, reachable d -> orderly d -> separate_keys d ->
  write name d = Ok f -> open_one f = Ok d1 -> copied d1 d' ->
  forall name', exists f' d2, write name' d' = Ok f' /\ open_one f' = Ok d2.
Proof.
  intros V d d1 d' name f Hr Ho Hs Hf Hd H name'.
  assert (X : reachable d' /\ orderly d' /\ separate_keys d' /\ control_complete d' /\ (forall s k, available d' s k -> exists a, get_array d' s k = Ok a)).
  { induction H as [|d2 d3 n2 f2 H (R & O & S & _) Hf2 Hd2].
    - destruct (copy_orderly Hr Ho Hf Hd) as (A & B & C & D & E). auto 6.
    - destruct (copy_orderly R O Hf2 Hd2) as (A & B & C & D & E). auto 6. }
  destruct X as (R & O & S & C & G). destruct (proj1 (proj1 (@C24_write_succeeds V d' name' R O S G)) C) as [f' Ef].
  destruct (@C24_write_then_open V d' name' f' R O Ef) as (d2 & E2 & _). eauto.
Qed.
Print Assumptions C85_again.

Definition copy1 : dcoll Z := force no_coll (let* f := write "a.h5" run in open_one f).
Definition copy2 : dcoll Z := force no_coll (let* f := write "b.h5" copy1 in open_one f).
Example C85_example : reachable run /\ orderly run /\ separate_keys run /\ Forall u64_range (dc_tids run) /\
  (forall s k, available run s k -> exists a, get_array run s k = Ok a) /\
  (exists f, write "a.h5" run = Ok f /\ open_one f = Ok copy1 /\
     (forall p ds, dict_get p (h5_data f) = Some ds -> (Z.of_nat (List.length (ds_rows ds)) < 2 ^ 53)%Z)) /\
  (exists f, write_virtual "a.h5" run = Ok f) /\ copied run copy2 /\
  get_array copy2 "DET:out" "image.data" = Ok (mk_la "f4" [] [10;10;12;12;12;13;14;14]%Z [1;2;3;4;5;6;7;8]%Z).
Proof.
  split; [exact run_reachable|]. split; [apply orderlyb_ok; reflexivity|]. split; [apply separate_keysb_ok; reflexivity|].
  split; [apply Forall_forall; intros t Ht; assert (E : dc_tids run = [10;11;12;13;14]%Z) by (vm_compute; reflexivity); rewrite E in Ht; unfold u64_range; simpl in Ht; lia|]. split; [apply readableb_ok; reflexivity|].
  split. { eexists. split; [vm_compute; reflexivity|]. split; [vm_compute; reflexivity|]. intros p ds H. cbn [h5_data dict_get] in H.
    repeat match type of H with (if ?b then _ else _) = _ => destruct b; [injection H as <-; vm_compute; reflexivity|] end. discriminate. }
  split; [eexists; vm_compute; reflexivity|]. split; [|vm_compute; reflexivity].
  eapply (@copied_again Z run copy1 copy2 "b.h5"); [eapply (@copied_again Z run run copy1 "a.h5"); [constructor| |]| |]; vm_compute; reflexivity.
Qed.
