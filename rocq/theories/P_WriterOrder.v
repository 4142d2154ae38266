(** C26, continued: what write() does with data which is not in the order of the trains. *)
From Verif Require Import Base PyStr M_Files M_Machinery M_Reader M_Select M_Writer S_Reader S_Coll S_Avail S_Open S_Writer
  L_Base L_Select L_Array2 L_Trains L_Check L_Check2 L_Writer L_Writer2 L_Writer3 L_Writer4 L_Writer5 L_Writer6 L_Writer7 Ex_Files P_Reader P_Writer.
Local Open Scope string_scope.
Local Open Scope list_scope.

(** The conditions of C24 without the one on the order of the data: write() does not fail for it, and the new file
    has the rows in the same order as before, with the labels sorted. *)
Definition any_order {V : Type} (d : dcoll V) : Prop :=
  good_collection d /\ (forall s k, available d s k -> good_index d s k) /\
  plain_names d /\ no_nesting d /\ StronglySorted Z.lt (dc_tids d) /\ dc_tids d <> [].

Theorem C26_never_detected : forall (V : Type) (d : dcoll V) name, reachable d -> any_order d -> separate_keys d -> control_complete d ->
  (forall s k, available d s k -> exists a, get_array d s k = Ok a) ->
  exists f d', write name d = Ok f /\ open_one f = Ok d' /\
    forall s k a, available d s k -> get_array d s k = Ok a -> exists a', get_array d' s k = Ok a' /\
      la_rows a' = la_rows a /\ Permutation (la_labels a') (la_labels a) /\ StronglySorted Z.le (la_labels a') /\
      (~ StronglySorted Z.le (la_labels a) -> exists t, In t (dc_tids d) /\
         exists i, nth_error (la_labels a) i = Some t /\ nth_error (la_labels a') i <> Some t).
Proof.
  intros V d name Hr (Hg & Hgi & Hp & Hn & Hs & Hne) Hsk Hcc Ha.
  destruct (write_outcome name Hr Hg Hp Hn Hsk (StronglySorted_NoDup_lt Hs) Hgi Ha) as (W1 & _). destruct (W1 Hcc) as [f Hf].
  destruct (@reopen_reordered V d name f Hr (proj1 Hg) Hp Hs (proj1 (proj2 Hg)) Hgi Hne Hf) as (d' & Ed & Et & R).
  exists f, d'. split; [exact Hf|]. split; [exact Ed|]. intros s k a Av Ga. destruct (R s k a Av Ga) as (_ & labels & G & P & S).
  eexists. split; [exact G|]. split; [reflexivity|]. split; [exact P|]. split; [exact S|]. cbn [la_labels]. intros Hns.
  assert (X : forall (l l' : list Z), List.length l' = List.length l -> l' <> l -> exists i t, nth_error l i = Some t /\ nth_error l' i <> Some t).
  { clear. induction l as [|x l IH]; intros [|y l'] E N; try discriminate; [congruence|]. destruct (Z.eq_dec y x) as [->|D].
    - destruct (IH l') as (i & t & H1 & H2); [cbn in E; lia|congruence|]. exists (Datatypes.S i), t. auto.
    - exists 0%nat, x. cbn. split; [reflexivity|congruence]. }
  destruct (X (la_labels a) labels) as (i & t & H1 & H2); [now apply Permutation_length|intros ->; contradiction|].
  exists t. split; [|exists i; auto]. apply (L_Writer3.labels_in_tids Hr (proj1 Hg) (proj1 (proj2 Hg)) (Hgi s k Av) Ga). eapply nth_error_In; exact H1.
Qed.
Print Assumptions C26_never_detected.

Example C26_example : reachable inter_run /\ any_order inter_run /\ separate_keys inter_run /\ control_complete inter_run /\
  (forall s k, available inter_run s k -> exists a, get_array inter_run s k = Ok a) /\
  exists a, get_array inter_run "CAM:daq" "data.pix" = Ok a /\ ~ StronglySorted Z.le (la_labels a).
Proof.
  split; [apply (@open_files_reachable [inter3; inter4]); reflexivity|].
  split.
  { split; [apply good_collectionb_ok; reflexivity|]. split; [apply good_indexesb_ok; reflexivity|].
    split; [apply plain_namesb_ok; reflexivity|]. split; [|split; [|discriminate]].
    - apply no_nestingb_ok; reflexivity.
    - vm_compute. repeat constructor. }
  split; [apply separate_keysb_ok; reflexivity|]. split; [apply control_completeb_ok; reflexivity|]. split; [apply readableb_ok; reflexivity|].
  eexists. split; [vm_compute; reflexivity|]. intros H. cbn [la_labels] in H. inversion H as [|? ? H1 _]. inversion H1 as [|? ? _ K]. inversion K. lia.
Qed.
