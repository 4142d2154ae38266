(** Which fields can be read, and of what type arrays are. *)
From Verif Require Import Base PyStr M_Files M_Machinery M_Reader M_Glob M_Select S_Reader S_Coll S_Avail
  L_Base L_Machinery L_Reader L_GetArray L_Select L_Array2.
Set Implicit Arguments.
Unset Strict Implicit.
Local Open Scope string_scope.
Local Open Scope list_scope.

Section F.
Context {V : Type}.
Notation dcoll := (dcoll V).

Lemma check_field_iff : forall (d : dcoll) s k, check_field d s k = Ok tt <-> available d s k.
Proof.
  intros d s k. unfold check_field, available. destruct (str_in s (dc_sources d)) eqn:E; cbn [negb].
  - apply str_in_iff in E. destruct (keys_for_source d s) as [ks|e] eqn:K; cbn [bind].
    + destruct (str_in k ks) eqn:E2.
      * apply str_in_iff in E2. split; [intros _; split; [assumption|]; exists ks; auto|reflexivity].
      * split; [discriminate|]. intros (_ & ks' & [= <-] & H). apply str_in_iff in H. congruence.
    + split; [discriminate|]. intros (_ & ks' & H & _). discriminate.
  - split; [discriminate|]. intros [H _]. apply str_in_iff in H. congruence.
Qed.
Lemma check_field_source_err : forall (d : dcoll) s k, ~ In s (dc_sources d) -> check_field d s k = Err ESourceNameError.
Proof.
  intros d s k H. unfold check_field. destruct (str_in s (dc_sources d)) eqn:E; [|reflexivity]. apply str_in_iff in E. contradiction.
Qed.
Lemma check_field_key_err : forall (d : dcoll) s k ks, In s (dc_sources d) -> keys_for_source d s = Ok ks -> ~ In k ks ->
  check_field d s k = Err EPropertyNameError.
Proof.
  intros d s k ks Hs Hk Hn. unfold check_field. apply str_in_iff in Hs. rewrite Hs. cbn [negb]. rewrite Hk. cbn [bind].
  destruct (str_in k ks) eqn:E; [|reflexivity]. apply str_in_iff in E. contradiction.
Qed.

(** Every file of the source gives at least one chunk. *)
Lemma mapM_length0 : forall A B (f : A -> res B) l r, mapM f l = Ok r -> List.length r = List.length l.
Proof.
  intros A B f l. induction l as [|x l IH]; intros r H; cbn [mapM] in H; [now injection H as <-|].
  destruct (f x); [|discriminate]. cbn [bind] in H. destruct (mapM f l) as [r'|]; [|discriminate]. cbn [bind] in H. injection H as <-. cbn. f_equal. now apply IH.
Qed.
Lemma file_chunks_some : forall sel s g (f : faccess V) cs, file_chunks sel s g f = Ok cs -> exists c, In c cs /\ ch_file c = f.
Proof.
  intros sel s g f cs H. unfold file_chunks in H. destruct (fa_get_index f s g) as [[firsts counts]|]; [|discriminate]. cbn [bind] in H.
  destruct (contiguous_regions _) as [rs|]; [|discriminate]. cbn [bind] in H. destruct rs as [|[a b] rs].
  - injection H as <-. eexists. split; [now left|reflexivity].
  - cbn [mapM] in H. destruct (nth_res firsts a) as [first|]; [|discriminate]. cbn [bind] in H.
    destruct (mapM _ rs) as [r|]; [|discriminate]. cbn [bind] in H. injection H as <-. eexists. split; [now left|reflexivity].
Qed.
Lemma mapM_each : forall A B (f : A -> res B) l r x, mapM f l = Ok r -> In x l -> exists y, f x = Ok y /\ In y r.
Proof.
  intros A B f l. induction l as [|x0 l IH]; intros r x H Hx; [destruct Hx|]. cbn [mapM] in H.
  destruct (f x0) as [y|] eqn:E; [|discriminate]. cbn [bind] in H. destruct (mapM f l) as [r'|] eqn:E2; [|discriminate]. cbn [bind] in H. injection H as <-.
  destruct Hx as [<-|Hx]; [exists y; split; [assumption|now left]|]. destruct (IH r' x eq_refl Hx) as (z & Hz & Hin). exists z. split; [assumption|now right].
Qed.
Lemma common_type_all : forall (l : list (dataset V)) dt it, common_type l = Ok (dt, it) -> forall x, In x l -> ds_dtype x = dt /\ ds_item x = it.
Proof.
  intros [|x r] dt it H; [discriminate|]. unfold common_type in H. destruct (forallb (fun y => zlist_eqb _ _) r) eqn:E1 in H; [|discriminate]. cbn [negb] in H.
  destruct (forallb _ r) eqn:E2 in H; [|discriminate]. cbn [negb] in H. injection H as <- <-. rewrite forallb_forall in E1, E2.
  intros y [<-|Hy]; [auto|]. specialize (E1 y Hy). specialize (E2 y Hy). apply String.eqb_eq in E2. unfold zlist_eqb in E1. destruct (list_eq_dec _ _ _); [|discriminate]. auto.
Qed.
Theorem get_array_type : forall (d : dcoll) s k a f, reachable d -> distinct_kinds d -> get_array d s k = Ok a -> In f (dc_files d) -> In s (fa_sources f) ->
  exists ds, dict_get (data_key (str_in s (dc_ctrl d)) s k) (h5_data (fa_file f)) = Some ds /\ ds_dtype ds = la_dtype a /\ ds_item ds = la_item a.
Proof.
  intros d s k a f R K H Hf Hs. unfold get_array in H. destruct (check_field d s k) as [[]|] eqn:C; [|discriminate]. cbn [bind] in H.
  unfold sorted_chunks in H. destruct (find_data_chunks d s k) as [cs|] eqn:E1; [|discriminate]. cbn [bind] in H.
  destruct (mapM (ch_dataset s k) _) as [dss|] eqn:E2; [|discriminate]. cbn [bind] in H.
  destruct (common_type dss) as [[dt it]|] eqn:E3; [|discriminate]. cbn [bind fst snd] in H.
  destruct (mapM (read_chunk s k) _) as [parts|] eqn:E4; [|discriminate]. cbn [bind] in H. destruct (Nat.eqb _ _); [|discriminate]. injection H as <-. cbn [la_dtype la_item].
  assert (Hc : exists c, In c cs /\ ch_file c = f).
  { unfold find_data_chunks in E1. destruct (mapM _ _) as [l|] eqn:E in E1; [|discriminate]. cbn [bind] in E1. injection E1 as <-.
    destruct (mapM_each (x := f) E) as (y & Hy & Hin); [unfold source_files; apply filter_In; split; [assumption|now apply str_in_iff]|].
    destruct (file_chunks_some Hy) as (c & Hc & Ec). exists c. split; [|assumption]. apply in_concat. exists y. auto. }
  destruct Hc as (c & Hc & <-). destruct (mapM_each (x := c) E2) as (ds & Hds & Hin).
  { eapply Permutation_in; [apply sort_key_perm|assumption]. }
  destruct (common_type_all E3 Hin) as [T1 T2]. exists ds. split; [|auto].
  apply check_field_iff in C as [C _].
  rewrite ch_dataset_file in Hds. destruct (reachable_inv R) as [Hb _]. exact (@file_ds_path V d s k (ch_file c) ds Hb K C Hf Hs Hds).
Qed.
End F.
