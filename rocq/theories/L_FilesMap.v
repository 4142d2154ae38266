(** Lemmas: saving the cached map atomically. *)
From Verif Require Import Base PyStr M_FilesMap S_FilesMap L_Base.
Set Implicit Arguments.
Unset Strict Implicit.
Local Open Scope string_scope.
Local Open Scope list_scope.

Lemma upd_same : forall A (f : nat -> A) i a, upd f i a i = a.
Proof. intros. unfold upd. now rewrite Nat.eqb_refl. Qed.
Lemma upd_other : forall A (f : nat -> A) i j a, j <> i -> upd f i a j = f j.
Proof. intros A f i j a H. unfold upd. destruct (Nat.eqb_spec j i); [contradiction|reflexivity]. Qed.
Lemma supd_same : forall A (f : string -> A) i a, supd f i a i = a.
Proof. intros. unfold supd. now rewrite String.eqb_refl. Qed.
Lemma supd_other : forall A (f : string -> A) i j a, j <> i -> supd f i a j = f j.
Proof. intros A f i j a H. unfold supd. destruct (String.eqb_spec j i); [contradiction|reflexivity]. Qed.

Section D.
Context {B : Type}.
Notation system := (system B).
Notation proc := (proc B).
Variable target : string.
Variable s0 : system.
Hypothesis start : fresh_start s0.

(** The temporary file a process owns, with what it still has to write. *)
Definition owns (p : proc) (tmp : string) (ino : nat) (rest : list B) (all : list B) : Prop :=
  (exists ps, p = WWrite tmp ino ps all /\ rest = List.concat ps) \/ (p = WReplace tmp ino all /\ rest = []).
Definition holds_tmp (p : proc) (tmp : string) : Prop :=
  (exists ino rest all, owns p tmp ino rest all) \/ exists all, p = WUnlink tmp all.
Definition wants (p : proc) : option (list B) :=
  match p with
  | WStart ps => Some (List.concat ps)
  | WWrite _ _ _ a | WUnlink _ a | WReplace _ _ a | WDone a | WFailed a => Some a
  | _ => None
  end.

(** An inode which nobody will write to any more, with its meaning. *)
Definition settled_ino (s : system) (ino : nat) : Prop :=
  (ino < fs_next (sy_fs s))%nat /\
  (forall i tmp rest all, ~ owns (sy_procs s i) tmp ino rest all) /\
  ((fs_names (sy_fs s0) target = Some ino /\ fs_data (sy_fs s) ino = fs_data (sy_fs s0) ino) \/
   (exists i all, saver s0 i all /\ finished s i all /\ fs_data (sy_fs s) ino = all)).
Definition settled_data (s : system) (d : list B) : Prop :=
  contents (sy_fs s0) target = Some d \/ exists i all, saver s0 i all /\ finished s i all /\ d = all.

Record inv (s : system) : Prop := {
  i_next : (fs_next (sy_fs s0) <= fs_next (sy_fs s))%nat;
  i_names : forall n i, fs_names (sy_fs s) n = Some i -> (i < fs_next (sy_fs s))%nat;
  i_old : forall i, (i < fs_next (sy_fs s0))%nat -> fs_data (sy_fs s) i = fs_data (sy_fs s0) i;
  i_own : forall i tmp ino rest all, owns (sy_procs s i) tmp ino rest all ->
     fs_names (sy_fs s) tmp = Some ino /\ (fs_next (sy_fs s0) <= ino < fs_next (sy_fs s))%nat /\
     fs_data (sy_fs s) ino ++ rest = all;
  i_tmp : forall i tmp, holds_tmp (sy_procs s i) tmp -> tmp <> target /\ fs_names (sy_fs s0) tmp = None /\
     fs_names (sy_fs s) tmp <> None /\ forall j, j <> i -> ~ holds_tmp (sy_procs s j) tmp;
  i_ino : forall i j t1 t2 ino r1 r2 a1 a2, owns (sy_procs s i) t1 ino r1 a1 -> owns (sy_procs s j) t2 ino r2 a2 -> i = j;
  i_wants : forall i a, wants (sy_procs s i) = Some a -> saver s0 i a;
  i_target : match fs_names (sy_fs s) target with
             | Some ino => settled_ino s ino
             | None => fs_names (sy_fs s0) target = None
             end;
  i_read : forall i ino got, sy_procs s i = RRead ino got -> settled_ino s ino /\ exists rest, fs_data (sy_fs s) ino = got ++ rest;
  i_done : forall i got, sy_procs s i = RDone got -> settled_data s got;
  i_absent : forall i, sy_procs s i = RAbsent -> fs_names (sy_fs s0) target = None;
  i_keep : forall n, n <> target -> fs_names (sy_fs s0) n <> None -> fs_names (sy_fs s) n = fs_names (sy_fs s0) n
}.

Lemma owns_inv : forall p tmp ino rest all, owns p tmp ino rest all -> holds_tmp p tmp /\ wants p = Some all.
Proof.
  intros p tmp ino rest all H. split; [left; eauto|]. destruct H as [(ps & -> & _)|[-> _]]; reflexivity.
Qed.

Lemma inv_init : inv s0.
Proof.
  destruct start as [H1 H2].
  assert (NO : forall i tmp ino rest all, ~ owns (sy_procs s0 i) tmp ino rest all).
  { intros i tmp ino rest all [(ps & E & _)|[E _]]; destruct (H2 i) as [X|(q & X)]; congruence. }
  constructor; [lia|exact H1|reflexivity| | | | | | | | |reflexivity].
  - intros i tmp ino rest all H. exfalso. eapply NO; eassumption.
  - intros i tmp H. exfalso. destruct H as [(ino & rest & all & H)|(all & E)]; [eapply NO; eassumption|destruct (H2 i) as [X|(q & X)]; congruence].
  - intros i j t1 t2 ino r1 r2 a1 a2 H. exfalso. eapply NO; eassumption.
  - intros i a H. destruct (H2 i) as [X|(q & X)]; rewrite X in H; [discriminate|]. injection H as <-. exists q. auto.
  - destruct (fs_names (sy_fs s0) target) as [ino|] eqn:E; [|reflexivity]. split; [eauto|]. split; [intros; apply NO|]. left. auto.
  - intros i ino got H. exfalso. destruct (H2 i) as [X|(q & X)]; congruence.
  - intros i got H. exfalso. destruct (H2 i) as [X|(q & X)]; congruence.
  - intros i H. exfalso. destruct (H2 i) as [X|(q & X)]; congruence.
Qed.

(** A settled inode stays settled when process [i] does something else. *)
Lemma settled_step : forall s i fs' p' ino,
  inv s -> settled_ino s ino -> (fs_next (sy_fs s) <= fs_next fs')%nat ->
  fs_data fs' ino = fs_data (sy_fs s) ino ->
  (forall all, sy_procs s i <> WDone all) ->
  (forall tmp rest all, ~ owns p' tmp ino rest all) ->
  settled_ino (mk_sys fs' (upd (sy_procs s) i p')) ino.
Proof.
  intros s i fs' p' ino I (A & N & M) Hn Hd Hnd Hp. split; [simpl; lia|]. split.
  - intros j tmp rest all. simpl. destruct (Nat.eq_dec j i) as [->|Hj]; [rewrite upd_same; apply Hp|rewrite upd_other by assumption; apply N].
  - simpl. rewrite Hd. destruct M as [M|(j & all & M1 & M2 & M3)]; [now left|right]. exists j, all.
    split; [assumption|]. split; [|assumption]. unfold finished in *. simpl. rewrite upd_other; [assumption|]. intros ->. exact (Hnd _ M2).
Qed.
Lemma settled_data_step : forall s i fs' p' d,
  settled_data s d -> (forall all, sy_procs s i <> WDone all) -> settled_data (mk_sys fs' (upd (sy_procs s) i p')) d.
Proof.
  intros s i fs' p' d [H|(j & all & H1 & H2 & H3)] Hnd; [now left|right]. exists j, all. split; [assumption|]. split; [|assumption].
  unfold finished in *. simpl. rewrite upd_other; [assumption|]. intros ->. exact (Hnd _ H2).
Qed.

(** Steps which change no file, and after which the process owns nothing new. *)
Lemma inv_quiet : forall s i p', inv s ->
  (forall all, sy_procs s i <> WDone all) ->
  (forall tmp ino rest all, owns p' tmp ino rest all -> owns (sy_procs s i) tmp ino rest all) ->
  (forall tmp, holds_tmp p' tmp -> holds_tmp (sy_procs s i) tmp) ->
  (forall a, wants p' = Some a -> wants (sy_procs s i) = Some a) ->
  (forall ino got, p' = RRead ino got -> settled_ino s ino /\ exists rest, fs_data (sy_fs s) ino = got ++ rest) ->
  (forall got, p' = RDone got -> settled_data s got) ->
  (p' = RAbsent -> fs_names (sy_fs s0) target = None) ->
  inv (mk_sys (sy_fs s) (upd (sy_procs s) i p')).
Proof.
  intros s i p' I Hnd Ho Ht Hw Hr Hd Ha.
  assert (OW : forall j tmp ino rest all, owns (upd (sy_procs s) i p' j) tmp ino rest all -> owns (sy_procs s j) tmp ino rest all).
  { intros j tmp ino rest all H. destruct (Nat.eq_dec j i) as [->|Hj]; [rewrite upd_same in H; auto|rewrite upd_other in H; auto]. }
  assert (HT : forall j tmp, holds_tmp (upd (sy_procs s) i p' j) tmp -> holds_tmp (sy_procs s j) tmp).
  { intros j tmp H. destruct (Nat.eq_dec j i) as [->|Hj]; [rewrite upd_same in H; auto|rewrite upd_other in H; auto]. }
  assert (SE : forall ino, settled_ino s ino -> settled_ino (mk_sys (sy_fs s) (upd (sy_procs s) i p')) ino).
  { intros ino H. apply settled_step; auto. intros tmp rest all K. apply Ho in K. destruct H as (_ & N & _). exact (N _ _ _ _ K). }
  destruct I. constructor; cbn [sy_fs sy_procs].
  - assumption.
  - assumption.
  - assumption.
  - intros j tmp ino rest all H. apply OW in H. eauto.
  - intros j tmp H. apply HT in H. destruct (i_tmp0 j tmp H) as (X1 & X2 & X4 & X3). split; [assumption|]. split; [assumption|]. split; [assumption|].
    intros k Hk K. apply HT in K. exact (X3 k Hk K).
  - intros j k t1 t2 ino r1 r2 a1 a2 H1 H2. apply OW in H1. apply OW in H2. eauto.
  - intros j a H. destruct (Nat.eq_dec j i) as [->|Hj]; [rewrite upd_same in H; eauto|rewrite upd_other in H; eauto].
  - destruct (fs_names (sy_fs s) target); auto.
  - intros j ino got H. destruct (Nat.eq_dec j i) as [->|Hj].
    + rewrite upd_same in H. destruct (Hr _ _ H) as [X1 X2]. split; [auto|assumption].
    + rewrite upd_other in H by assumption. destruct (i_read0 _ _ _ H) as [X1 X2]. split; [auto|assumption].
  - intros j got H. destruct (Nat.eq_dec j i) as [->|Hj].
    + rewrite upd_same in H. apply settled_data_step; auto.
    + rewrite upd_other in H by assumption. apply settled_data_step; eauto.
  - intros j H. destruct (Nat.eq_dec j i) as [->|Hj]; [rewrite upd_same in H; auto|rewrite upd_other in H; eauto].
  - assumption.
Qed.

Lemma settled_contents : forall s ino, settled_ino s ino -> settled_data s (fs_data (sy_fs s) ino).
Proof.
  intros s ino (_ & _ & [[H1 H2]|(i & all & H1 & H2 & H3)]).
  - left. unfold contents. rewrite H1, H2. reflexivity.
  - right. eauto.
Qed.


(** Steps which change files. *)
Lemma inv_loud : forall s i fs' p', inv s ->
  (forall all, sy_procs s i <> WDone all) ->
  (forall ino got, sy_procs s i <> RRead ino got) -> (forall ino got, p' <> RRead ino got) ->
  (forall got, p' <> RDone got) -> p' <> RAbsent ->
  (forall a, wants p' = Some a -> wants (sy_procs s i) = Some a) ->
  (fs_next (sy_fs s) <= fs_next fs')%nat ->
  (* names *)
  (forall n j, fs_names fs' n = Some j -> (j < fs_next fs')%nat) ->
  (forall n, n <> target -> fs_names (sy_fs s0) n <> None -> fs_names fs' n = fs_names (sy_fs s) n) ->
  (forall j tmp, j <> i -> holds_tmp (sy_procs s j) tmp -> fs_names fs' tmp = fs_names (sy_fs s) tmp) ->
  (* data: changed only in new inodes and inodes owned by the process *)
  (forall ino, (ino < fs_next (sy_fs s))%nat -> (forall tmp rest all, ~ owns (sy_procs s i) tmp ino rest all) -> fs_data fs' ino = fs_data (sy_fs s) ino) ->
  (* what the process owns *)
  (forall tmp ino rest all, owns p' tmp ino rest all ->
     fs_names fs' tmp = Some ino /\ (ino < fs_next fs')%nat /\ fs_data fs' ino ++ rest = all /\
     ((exists t r a, owns (sy_procs s i) t ino r a) \/ (fs_next (sy_fs s) <= ino)%nat)) ->
  (forall tmp, holds_tmp p' tmp -> fs_names fs' tmp <> None /\
     (holds_tmp (sy_procs s i) tmp \/ (fs_names (sy_fs s) tmp = None /\ tmp <> target))) ->
  (* the target *)
  (fs_names fs' target = fs_names (sy_fs s) target \/
   exists ino, fs_names fs' target = Some ino /\ settled_ino (mk_sys fs' (upd (sy_procs s) i p')) ino) ->
  inv (mk_sys fs' (upd (sy_procs s) i p')).
Proof.
  intros s i fs' p' I Hnd Hnr Hnr' Hnd' Hna' Hw Hnx Hnm Hkeep Hoth Hdat Hown Htmp Htar.
  assert (SE : forall ino, settled_ino s ino -> settled_ino (mk_sys fs' (upd (sy_procs s) i p')) ino).
  { intros ino Hs. assert (Hs' := Hs). destruct Hs as (A & N & M). apply settled_step; try assumption.
    - apply Hdat; [assumption|]. intros. apply N.
    - intros tmp rest all K. destruct (Hown _ _ _ _ K) as (_ & _ & _ & [(t & r & a & X)|X]); [exact (N _ _ _ _ X)|lia]. }
  destruct I. constructor; cbn [sy_fs sy_procs].
  - lia.
  - assumption.
  - intros j Hj. rewrite Hdat; [auto|lia|]. intros t r a Ho. destruct (i_own0 _ _ _ _ _ Ho) as (_ & X & _). lia.
  - intros j t ino r a Ho. destruct (Nat.eq_dec j i) as [->|Hj].
    + rewrite upd_same in Ho. destruct (Hown _ _ _ _ Ho) as (X1 & X2 & X3 & X4). split; [assumption|]. split; [|assumption].
      split; [|assumption]. destruct X4 as [(t' & r' & a' & X)|X]; [|lia]. destruct (i_own0 _ _ _ _ _ X) as (_ & Y & _). lia.
    + rewrite upd_other in Ho by assumption. destruct (i_own0 _ _ _ _ _ Ho) as (X1 & X2 & X3). split; [|split].
      * rewrite Hoth with (j := j); [assumption|assumption|]. apply owns_inv in Ho. tauto.
      * lia.
      * rewrite Hdat; [assumption|lia|]. intros t' r' a' Ho'. apply Hj. eapply i_ino0; eassumption.
  - intros j t Ht. destruct (Nat.eq_dec j i) as [->|Hj].
    + rewrite upd_same in Ht. destruct (Htmp _ Ht) as [X1 [X2|[X2 X3]]].
      * destruct (i_tmp0 _ _ X2) as (Y1 & Y2 & Y3 & Y4). split; [assumption|]. split; [assumption|]. split; [assumption|].
        intros k Hk. rewrite upd_other by assumption. auto.
      * split; [assumption|]. split.
        { destruct (fs_names (sy_fs s0) t) eqn:E0; [|reflexivity]. assert (fs_names (sy_fs s) t = fs_names (sy_fs s0) t) by (apply i_keep0; congruence). congruence. }
        split; [assumption|]. intros k Hk. rewrite upd_other by assumption. intros K. destruct (i_tmp0 _ _ K) as (_ & _ & Y & _). contradiction.
    + rewrite upd_other in Ht by assumption. destruct (i_tmp0 _ _ Ht) as (Y1 & Y2 & Y3 & Y4). split; [assumption|]. split; [assumption|].
      split; [rewrite Hoth with (j := j); assumption|]. intros k Hk. destruct (Nat.eq_dec k i) as [->|Hki].
      * rewrite upd_same. intros K. destruct (Htmp _ K) as [X1 [X2|[X2 X3]]]; [exact (Y4 i Hk X2)|contradiction].
      * rewrite upd_other by assumption. auto.
  - assert (ONE : forall j t1 t2 ino r1 r2 a1 a2, j <> i -> owns (sy_procs s j) t1 ino r1 a1 -> owns p' t2 ino r2 a2 -> False).
    { intros j t1 t2 ino r1 r2 a1 a2 Hj Ho Ho'. destruct (Hown _ _ _ _ Ho') as (_ & _ & _ & [(t & r & a & X)|X]).
      - apply Hj. eapply i_ino0; eassumption.
      - destruct (i_own0 _ _ _ _ _ Ho) as (_ & Y & _). lia. }
    intros j k t1 t2 ino r1 r2 a1 a2 H1 H2. destruct (Nat.eq_dec j i) as [->|Hj], (Nat.eq_dec k i) as [->|Hk]; [reflexivity| | |].
    + rewrite upd_same in H1. rewrite upd_other in H2 by assumption. exfalso. eapply ONE; eassumption.
    + rewrite upd_same in H2. rewrite upd_other in H1 by assumption. exfalso. eapply ONE; eassumption.
    + rewrite upd_other in H1, H2 by assumption. eauto.
  - intros j a H. destruct (Nat.eq_dec j i) as [->|Hj]; [rewrite upd_same in H; eauto|rewrite upd_other in H; eauto].
  - destruct Htar as [E|(ino & E & X)]; rewrite E; [|assumption]. destruct (fs_names (sy_fs s) target); auto.
  - intros j ino got H. destruct (Nat.eq_dec j i) as [->|Hj]; [rewrite upd_same in H; exfalso; eapply Hnr'; eassumption|].
    rewrite upd_other in H by assumption. destruct (i_read0 _ _ _ H) as [X1 X2]. split; [auto|].
    rewrite Hdat; [assumption|destruct X1; assumption|]. intros. destruct X1 as (_ & N & _). apply N.
  - intros j got H. destruct (Nat.eq_dec j i) as [->|Hj]; [rewrite upd_same in H; exfalso; eapply Hnd'; eassumption|].
    rewrite upd_other in H by assumption. apply settled_data_step; eauto.
  - intros j H. destruct (Nat.eq_dec j i) as [->|Hj]; [rewrite upd_same in H; contradiction|rewrite upd_other in H; eauto].
  - intros n Hn H0. rewrite Hkeep by assumption. auto.
Qed.

Ltac dead := intros; congruence.
Lemma inv_step : forall s s', inv s -> sstep target s s' -> inv s'.
Proof.
  intros s s' I H. destruct H as [s i fs' p' H].
  remember (sy_fs s) as fs eqn:Efs. remember (sy_procs s i) as p eqn:Ep. symmetry in Ep.
  destruct H; subst fs.
  - (* mkstemp *)
    apply inv_loud; try rewrite Ep; cbn [fs_names fs_data fs_next]; try dead; try assumption.
    + auto.
    + lia.
    + intros n j Hn. destruct (string_dec n tmp) as [->|Hne].
      * rewrite supd_same in Hn. injection Hn as <-. lia.
      * rewrite supd_other in Hn by assumption. apply (i_names I) in Hn. lia.
    + intros n Hn H1. rewrite supd_other; [reflexivity|]. intros ->. rewrite <- (i_keep I Hn H1) in H1. contradiction.
    + intros j t Hj Ht. rewrite supd_other; [reflexivity|]. intros ->. destruct (i_tmp I Ht) as (_ & _ & X & _). contradiction.
    + intros ino Hi _. rewrite upd_other; [reflexivity|lia].
    + intros t ino r a [(q & E & ->)|[E _]]; [|discriminate]. injection E as <- <- <- <-. rewrite supd_same, upd_same.
      split; [reflexivity|]. split; [lia|]. split; [reflexivity|right; lia].
    + intros t Ht. assert (t = tmp).
      { destruct Ht as [(ino & r & a & [(q & E & _)|[E _]])|(a & E)]; [|discriminate|discriminate]. now injection E. }
      subst t. rewrite supd_same. split; [discriminate|]. right. auto.
    + left. rewrite supd_other; [reflexivity|congruence].
  - (* mkstemp fails *)
    apply inv_quiet; try rewrite Ep; try dead; try assumption.
    + intros t ino r a [(q & E & _)|[E _]]; discriminate.
    + intros t [(ino & r & a & [(q & E & _)|[E _]])|(a & E)]; discriminate.
    + auto.
  - (* write *)
    assert (Ow : owns (sy_procs s i) tmp ino (p ++ List.concat rest) all) by (rewrite Ep; left; exists (p :: rest); auto).
    destruct (i_own I Ow) as (O1 & O2 & O3).
    apply inv_loud; cbn [fs_names fs_data fs_next]; try (rewrite Ep; dead); try dead; try assumption.
    + rewrite Ep. auto.
    + lia.
    + exact (i_names I).
    + intros n Hn K. rewrite upd_other; [reflexivity|]. intros ->. eapply K; eassumption.
    + intros t j r a [(q & E & ->)|[E _]]; [|discriminate]. injection E as <- <- <- <-. rewrite upd_same, <- app_assoc.
      split; [assumption|]. split; [lia|]. split; [assumption|]. left. eauto.
    + intros t Ht. assert (t = tmp).
      { destruct Ht as [(j & r & a & [(q & E & _)|[E _]])|(a & E)]; [|discriminate|discriminate]. now injection E. }
      subst t. split; [congruence|]. left. apply owns_inv in Ow. tauto.
    + left. reflexivity.
  - (* write fails *)
    apply inv_quiet; try rewrite Ep; try dead; try assumption.
    + intros t j r a [(q & E & _)|[E _]]; discriminate.
    + intros t [(j & r & a & [(q & E & _)|[E _]])|(a & E)]; try discriminate. injection E as <- _.
      left. exists ino, (List.concat rest), all. left. eauto.
    + auto.
  - (* unlink *)
    assert (Ht : holds_tmp (sy_procs s i) tmp) by (rewrite Ep; right; eauto).
    destruct (i_tmp I Ht) as (T1 & T2 & T3 & T4).
    apply inv_loud; cbn [fs_names fs_data fs_next]; try (rewrite Ep; dead); try dead; try assumption.
    + rewrite Ep. auto.
    + lia.
    + intros n j Hn. unfold supd in Hn. destruct (String.eqb n tmp); [discriminate|]. eapply i_names; eassumption.
    + intros n Hn K. rewrite supd_other; [reflexivity|]. intros ->. contradiction.
    + intros j t Hj K. rewrite supd_other; [reflexivity|]. intros ->. exact (T4 j Hj K).
    + intros t j r a [(q & E & _)|[E _]]; discriminate.
    + intros t [(j & r & a & [(q & E & _)|[E _]])|(a & E)]; discriminate.
    + left. rewrite supd_other; [reflexivity|congruence].
  - (* unlink fails *)
    apply inv_quiet; try rewrite Ep; try dead; try assumption.
    + intros t ino r a [(q & E & _)|[E _]]; discriminate.
    + intros t [(ino & r & a & [(q & E & _)|[E _]])|(a & E)]; discriminate.
    + auto.
  - (* close *)
    apply inv_quiet; try rewrite Ep; try dead; try assumption.
    + intros t j r a [(q & E & _)|[E ->]]; [discriminate|]. injection E as <- <- <-. left. exists []. auto.
    + intros t [(j & r & a & [(q & E & _)|[E _]])|(a & E)]; try discriminate. injection E as <- <- <-.
      left. exists ino, [], all. left. exists []. auto.
    + auto.
  - (* replace *)
    assert (Ow : owns (sy_procs s i) tmp ino [] all) by (rewrite Ep; right; auto).
    destruct (i_own I Ow) as (O1 & O2 & O3). rewrite app_nil_r in O3.
    assert (Ht : holds_tmp (sy_procs s i) tmp) by (apply owns_inv in Ow; tauto).
    destruct (i_tmp I Ht) as (T1 & T2 & T3 & T4).
    apply inv_loud; cbn [fs_names fs_data fs_next]; try (rewrite Ep; dead); try dead; try assumption.
    + rewrite Ep. auto.
    + lia.
    + intros n j Hn. unfold rename_in, supd in Hn. destruct (String.eqb n tmp); [discriminate|]. destruct (String.eqb n target); eapply i_names; eassumption.
    + intros n Hn K. unfold rename_in. rewrite supd_other by (intros ->; contradiction). rewrite supd_other by assumption. reflexivity.
    + intros j t Hj K. unfold rename_in. destruct (i_tmp I K) as (K1 & _). rewrite supd_other by (intros ->; exact (T4 j Hj K)).
      rewrite supd_other by assumption. reflexivity.
    + intros t j r a [(q & E & _)|[E _]]; discriminate.
    + intros t [(j & r & a & [(q & E & _)|[E _]])|(a & E)]; discriminate.
    + right. exists ino. unfold rename_in. rewrite supd_other by congruence. rewrite supd_same. split; [assumption|].
      split; [simpl; lia|]. split.
      * intros j t r a K. simpl in K. destruct (Nat.eq_dec j i) as [->|Hj].
        { rewrite upd_same in K. destruct K as [(q & E & _)|[E _]]; discriminate. }
        rewrite upd_other in K by assumption. apply Hj. exact (i_ino I K Ow).
      * right. exists i, all. split; [apply (i_wants I); rewrite Ep; reflexivity|]. split; [unfold finished; simpl; apply upd_same|]. exact O3.
  - (* replace fails *)
    apply inv_quiet; try rewrite Ep; try dead; try assumption.
    + intros t j r a [(q & E & _)|[E _]]; discriminate.
    + intros t [(j & r & a & [(q & E & _)|[E _]])|(a & E)]; discriminate.
    + auto.
  - (* open *)
    apply inv_quiet; try rewrite Ep; try dead; try assumption.
    + intros t j r a [(q & E & _)|[E _]]; discriminate.
    + intros t [(j & r & a & [(q & E & _)|[E _]])|(a & E)]; discriminate.
    + intros a E; discriminate E.
    + intros j got E. injection E as <- <-. split; [|eexists; reflexivity]. assert (X := i_target I). now rewrite H in X.
  - (* no such file *)
    apply inv_quiet; try rewrite Ep; try dead; try assumption.
    + intros t j r a [(q & E & _)|[E _]]; discriminate.
    + intros t [(j & r & a & [(q & E & _)|[E _]])|(a & E)]; discriminate.
    + intros a E; discriminate E.
    + intros _. assert (X := i_target I). now rewrite H in X.
  - (* read *)
    apply inv_quiet; try rewrite Ep; try dead; try assumption.
    + intros t j r a [(q & E & _)|[E _]]; discriminate.
    + intros t [(j & r & a & [(q & E & _)|[E _]])|(a & E)]; discriminate.
    + intros a E; discriminate E.
    + intros j g E. injection E as <- <-. destruct (i_read I Ep) as [X1 (rest & X2)]. split; [assumption|].
      rewrite X2. exists (skipn n rest). rewrite skipn_app, skipn_all, Nat.sub_diag. simpl. rewrite <- app_assoc, firstn_skipn. reflexivity.
  - (* end of file *)
    apply inv_quiet; try rewrite Ep; try dead; try assumption.
    + intros t j r a [(q & E & _)|[E _]]; discriminate.
    + intros t [(j & r & a & [(q & E & _)|[E _]])|(a & E)]; discriminate.
    + intros a E; discriminate E.
    + intros g E. injection E as <-. destruct (i_read I Ep) as [X1 (rest & X2)]. rewrite X2 in H. rewrite app_length in H.
      assert (rest = []) by (destruct rest; [reflexivity|simpl in H; lia]). subst rest. rewrite app_nil_r in X2.
      rewrite <- X2. apply settled_contents. assumption.
Qed.

Lemma inv_steps : forall s, ssteps target s0 s -> inv s.
Proof. intros s H. induction H; [apply inv_init|eapply inv_step; eassumption]. Qed.

Lemma dump_safe : forall s, ssteps target s0 s ->
  (contents (sy_fs s) target = contents (sy_fs s0) target \/
   exists i all, saver s0 i all /\ finished s i all /\ contents (sy_fs s) target = Some all) /\
  (forall j got, sy_procs s j = RDone got ->
     contents (sy_fs s0) target = Some got \/ exists i, saver s0 i got /\ finished s i got) /\
  (forall j, sy_procs s j = RAbsent -> contents (sy_fs s0) target = None) /\
  (forall n, n <> target -> contents (sy_fs s0) n <> None -> contents (sy_fs s) n = contents (sy_fs s0) n).
Proof.
  intros s H. apply inv_steps in H. split; [|split; [|split]].
  - assert (X := i_target H). unfold contents at 1 3. destruct (fs_names (sy_fs s) target) as [ino|].
    + apply settled_contents in X. destruct X as [X|(i & all & X1 & X2 & X3)]; [left; congruence|right]. exists i, all. rewrite X3. auto.
    + left. unfold contents. now rewrite X.
  - intros j got E. destruct (i_done H E) as [X|(i & all & X1 & X2 & ->)]; [now left|right; eauto].
  - intros j E. unfold contents. now rewrite (i_absent H E).
  - intros n Hn K. unfold contents in *. destruct (fs_names (sy_fs s0) n) as [ino|] eqn:E; [|contradiction].
    rewrite (i_keep H) by congruence. rewrite E. f_equal. apply (i_old H). destruct start as [X _]. eapply X; eassumption.
Qed.

(** The target changes only when a process finishes saving, and then to all that it wrote. *)
Lemma dump_step : forall s s', ssteps target s0 s -> sstep target s s' ->
  (contents (sy_fs s') target = contents (sy_fs s) target /\ (forall i all, finished s' i all -> finished s i all)) \/
  (exists i all, ~ finished s i all /\ finished s' i all /\ saver s0 i all /\ contents (sy_fs s') target = Some all).
Proof.
  intros s s' H St. apply inv_steps in H. rename H into I. destruct St as [s i fs' p' H].
  assert (K1 : forall p', (forall all, p' <> WDone all) -> forall j all, finished (mk_sys fs' (upd (sy_procs s) i p')) j all -> finished s j all).
  { intros q Hq j all F. unfold finished in *. simpl in F. destruct (Nat.eq_dec j i) as [->|Hj]; [rewrite upd_same in F; subst; exfalso; eapply Hq; reflexivity|].
    now rewrite upd_other in F. }
  remember (sy_fs s) as fs eqn:Efs. remember (sy_procs s i) as p eqn:Ep. symmetry in Ep.
  destruct H; subst fs; cbn [sy_fs];
    try (left; split; [reflexivity|]; apply K1; intros all0; discriminate).
  - left. split; [|apply K1; intros all0; discriminate]. unfold contents; cbn [fs_names fs_data]. rewrite supd_other by congruence.
    destruct (fs_names (sy_fs s) target) as [ino|] eqn:E; [|reflexivity]. f_equal. apply upd_other. apply (i_names I) in E. lia.
  - left. split; [|apply K1; intros all0; discriminate]. unfold contents; cbn [fs_names fs_data].
    assert (X := i_target I). destruct (fs_names (sy_fs s) target) as [ino'|] eqn:E; [|reflexivity]. f_equal. apply upd_other.
    intros ->. destruct X as (_ & N & _). apply (N i tmp (List.concat (p :: rest)) all). rewrite Ep. left. eauto.
  - left. split; [|apply K1; intros all0; discriminate]. unfold contents; cbn [fs_names fs_data].
    assert (Ht : holds_tmp (sy_procs s i) tmp) by (rewrite Ep; right; eauto). destruct (i_tmp I Ht) as (T1 & _).
    rewrite supd_other by congruence. reflexivity.
  - right. assert (Ow : owns (sy_procs s i) tmp ino [] all) by (rewrite Ep; right; auto).
    destruct (i_own I Ow) as (O1 & O2 & O3). rewrite app_nil_r in O3.
    assert (Ht : holds_tmp (sy_procs s i) tmp) by (apply owns_inv in Ow; tauto). destruct (i_tmp I Ht) as (T1 & _).
    exists i, all. split; [unfold finished; rewrite Ep; discriminate|]. split; [unfold finished; simpl; apply upd_same|].
    split; [apply (i_wants I); rewrite Ep; reflexivity|].
    unfold contents; cbn [fs_names fs_data]. unfold rename_in. rewrite supd_other by congruence. rewrite supd_same, O1. now rewrite O3.
Qed.
(** Once a process has finished, the target contains what some finished process wrote. *)
Lemma dump_finished : forall s, ssteps target s0 s -> (exists i all, finished s i all) ->
  exists i all, saver s0 i all /\ finished s i all /\ contents (sy_fs s) target = Some all.
Proof.
  intros s H. induction H as [|s s' H IH St]; intros (i & all & F).
  - destruct start as [_ X]. unfold finished in F. destruct (X i) as [E|(q & E)]; congruence.
  - destruct (dump_step H St) as [[E K]|(j & a & _ & F' & Sv & E)]; [|eauto].
    destruct IH as (j & a & Sv & F' & C); [eauto|]. exists j, a. split; [assumption|]. split; [|congruence].
    clear - F' St. destruct St as [s k fs' p' P]. unfold finished in *. simpl. destruct (Nat.eq_dec j k) as [->|Hj]; [|now rewrite upd_other].
    rewrite F' in P. inversion P.
Qed.
(** A single process saves: until it finishes, nothing is changed. *)
Lemma dump_alone : forall s i all, ssteps target s0 s -> saver s0 i all ->
  (forall j a, saver s0 j a -> j = i) ->
  (finished s i all -> contents (sy_fs s) target = Some all) /\
  (~ finished s i all -> contents (sy_fs s) target = contents (sy_fs s0) target).
Proof.
  intros s i all H Sv One. split.
  - intros F. destruct (dump_finished H) as (j & a & Sv' & F' & C); [eauto|]. assert (j = i) by eauto. subst j.
    unfold finished in *. congruence.
  - intros NF. destruct (dump_safe H) as ([C|(j & a & Sv' & F' & C)] & _); [assumption|]. exfalso. assert (j = i) by eauto. subst j.
    apply NF. destruct Sv as (p1 & E1 & ->), Sv' as (p2 & E2 & ->). assert (p1 = p2) by congruence. now subst.
Qed.
End D.
