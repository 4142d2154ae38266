(** Proofs about M_Machinery. *)
From Verif Require Import Base L_Base M_Machinery S_Reader.
Set Implicit Arguments.

(** ** contiguous_regions *)
Fixpoint edges (prev : bool) (i : nat) (l : list bool) : list nat :=
  match l with
  | [] => if prev then [i] else []
  | b :: r => (if xorb prev b then [i] else []) ++ edges b (S i) r
  end.

Lemma nonzero_from_shift : forall l i, map S (nonzero_from i l) = nonzero_from (S i) l.
Proof.
  induction l as [|b l IH]; intros i; simpl; [reflexivity|].
  destruct b; simpl; now rewrite IH.
Qed.

Lemma edges_diff : forall l b i,
  edges b (S i) l = nonzero_from (S i) (diff_bool (b :: l)) ++
                    (if last (b :: l) false then [i + S (List.length l)]%nat else []).
Proof.
  induction l as [|c l IH]; intros b i.
  - simpl. replace (i + 1)%nat with (S i) by lia. destruct b; reflexivity.
  - change (edges b (S i) (c :: l)) with ((if xorb b c then [S i] else []) ++ edges c (S (S i)) l).
    rewrite IH.
    change (diff_bool (b :: c :: l)) with (xorb b c :: diff_bool (c :: l)).
    change (last (b :: c :: l) false) with (last (c :: l) false).
    replace (i + S (List.length (c :: l)))%nat with (S i + S (List.length l))%nat by (simpl; lia).
    rewrite app_assoc. f_equal.
    cbn [nonzero_from]. destruct (xorb b c); reflexivity.
Qed.

Lemma contiguous_regions_edges : forall c l,
  contiguous_regions (c :: l) = pairs_of (edges false 0 (c :: l)).
Proof.
  intros c l. unfold contiguous_regions, nonzero.
  rewrite nonzero_from_shift.
  assert (E : edges false 0 (c :: l) = (if c then [0%nat] else []) ++ edges c 1 l)
    by (destruct c; reflexivity).
  rewrite E, edges_diff. f_equal.
  destruct c; destruct (last _ false); simpl; rewrite ?app_nil_r; reflexivity.
Qed.

Lemma pairs_edges : forall l i,
  (exists ps, pairs_of (edges false i l) = Ok ps /\
     (forall j, (exists a b, In (a, b) ps /\ a <= j < b) <-> (i <= j /\ nth_error l (j - i) = Some true)) /\
     Forall (fun r => fst r < snd r) ps /\
     StronglySorted (fun r1 r2 => snd r1 < fst r2) ps /\
     Forall (fun r => i <= fst r) ps)%nat /\
  (forall a, a < i -> exists ps, pairs_of (a :: edges true i l) = Ok ps /\
     (forall j, (exists x b, In (x, b) ps /\ x <= j < b) <->
                (a <= j < i \/ (i <= j /\ nth_error l (j - i) = Some true))) /\
     Forall (fun r => fst r < snd r) ps /\
     StronglySorted (fun r1 r2 => snd r1 < fst r2) ps /\
     Forall (fun r => a <= fst r) ps)%nat.
Proof.
  Local Ltac five := split; [|split; [intros j; split; intros H|split; [|split]]].
  induction l as [|b l IH]; intros i; split.
  - exists []. simpl. five; try (constructor; fail).
    + destruct H as (? & ? & [] & _).
    + destruct H as [_ H]. destruct (j - i)%nat; discriminate.
  - intros a Ha. exists [(a, i)]. simpl. five; try (repeat constructor; simpl; lia).
    + destruct H as (x & y & [E|[]] & H). injection E as <- <-. lia.
    + destruct H as [H|[_ H]]; [exists a, i; auto|]. destruct (j - i)%nat; discriminate.
  - destruct (IH (S i)) as [IHf IHt]. destruct b.
    + destruct (IHt i (Nat.lt_succ_diag_r i)) as (ps & E & C & N & S' & L).
      exists ps. cbn [edges xorb app]. five; auto.
      * apply C in H. destruct H as [H|[H1 H2]].
        -- replace j with i by lia. rewrite Nat.sub_diag. auto.
        -- split; [lia|]. replace (j - i)%nat with (S (j - S i)) by lia. exact H2.
      * destruct H as [H1 H2]. apply C. destruct (Nat.eq_dec j i); [left; lia|right].
        split; [lia|]. replace (j - i)%nat with (S (j - S i)) in H2 by lia. exact H2.
    + destruct IHf as (ps & E & C & N & S' & L).
      exists ps. cbn [edges xorb app]. five; auto.
      * apply C in H. destruct H as [H1 H2]. split; [lia|].
        replace (j - i)%nat with (S (j - S i)) by lia. exact H2.
      * destruct H as [H1 H2]. apply C. destruct (Nat.eq_dec j i) as [->|].
        -- rewrite Nat.sub_diag in H2. discriminate.
        -- split; [lia|]. replace (j - i)%nat with (S (j - S i)) in H2 by lia. exact H2.
      * eapply Forall_impl; [|exact L]. simpl; lia.
  - intros a Ha. destruct (IH (S i)) as [IHf IHt]. destruct b.
    + destruct (IHt a) as (ps & E & C & N & S' & L); [lia|].
      exists ps. cbn [edges xorb app]. five; auto.
      * apply C in H. destruct H as [H|[H1 H2]].
        -- destruct (Nat.eq_dec j i) as [->|]; [right|left; lia]. rewrite Nat.sub_diag. auto.
        -- right. split; [lia|]. replace (j - i)%nat with (S (j - S i)) by lia. exact H2.
      * apply C. destruct H as [H|[H1 H2]]; [left; lia|].
        destruct (Nat.eq_dec j i); [left; lia|right]. split; [lia|].
        replace (j - i)%nat with (S (j - S i)) in H2 by lia. exact H2.
    + destruct IHf as (ps & E & C & N & S' & L).
      exists ((a, i) :: ps). cbn [edges xorb app].
      assert (Ep : pairs_of (a :: i :: edges false (S i) l) = Ok ((a, i) :: ps))
        by (cbn [pairs_of]; rewrite E; reflexivity).
      five; auto.
      * destruct H as (x & y & [Exy|Hin] & H).
        -- injection Exy as <- <-. left; lia.
        -- right. assert (Hc : exists a b, In (a, b) ps /\ (a <= j < b)%nat) by eauto.
           apply C in Hc. destruct Hc as [H1 H2]. split; [lia|].
           replace (j - i)%nat with (S (j - S i)) by lia. exact H2.
      * destruct H as [H|[H1 H2]]; [exists a, i; simpl; auto|].
        destruct (Nat.eq_dec j i) as [->|].
        -- rewrite Nat.sub_diag in H2. discriminate.
        -- replace (j - i)%nat with (S (j - S i)) in H2 by lia.
           destruct (proj2 (C j)) as (x & y & Hin & Hxy); [split; [lia|exact H2]|].
           exists x, y; simpl; auto.
      * constructor; [assumption|]. eapply Forall_impl; [|exact L]. simpl; lia.
      * constructor; [simpl; lia|]. eapply Forall_impl; [|exact L]. simpl; lia.
Qed.

Lemma contiguous_regions_correct : forall mask,
  mask <> [] -> exists rs, contiguous_regions mask = Ok rs /\ maximal_regions mask rs.
Proof.
  intros [|c l] H; [congruence|]. rewrite contiguous_regions_edges.
  destruct (pairs_edges (c :: l) 0) as [(ps & E & C & N & S' & L) _].
  exists ps. split; [exact E|]. split; [|split; assumption].
  intros i. rewrite C. rewrite Nat.sub_0_r. intuition lia.
Qed.

Lemma contiguous_regions_empty : contiguous_regions [] = Err EIndexError.
Proof. reflexivity. Qed.

(** The specification determines the regions. *)
Lemma maximal_regions_unique : forall mask r1 r2,
  maximal_regions mask r1 -> maximal_regions mask r2 -> r1 = r2.
Proof.
  assert (G : forall r1 r2,
    (forall i, (exists a b, In (a, b) r1 /\ a <= i < b) <-> (exists a b, In (a, b) r2 /\ a <= i < b))%nat ->
    Forall (fun r => fst r < snd r)%nat r1 -> Forall (fun r => fst r < snd r)%nat r2 ->
    StronglySorted (fun r1 r2 => snd r1 < fst r2)%nat r1 ->
    StronglySorted (fun r1 r2 => snd r1 < fst r2)%nat r2 -> r1 = r2).
  { induction r1 as [|[a b] r1 IH]; intros [|[c d] r2] E N1 N2 S1 S2.
    - reflexivity.
    - exfalso. inversion N2; subst; simpl in *.
      destruct (proj2 (E c)) as (? & ? & [] & _). exists c, d; split; [now left|lia].
    - exfalso. inversion N1; subst; simpl in *.
      destruct (proj1 (E a)) as (? & ? & [] & _). exists a, b; split; [now left|lia].
    - inversion N1 as [|? ? Na N1']; inversion N2 as [|? ? Nc N2']; subst; simpl in *.
      inversion S1 as [|? ? S1' F1]; inversion S2 as [|? ? S2' F2]; subst.
      rewrite Forall_forall in F1, F2.
      assert (Hin1 : forall x y, In (x, y) r1 -> (b < x)%nat) by (intros x y H; apply (F1 _ H)).
      assert (Hin2 : forall x y, In (x, y) r2 -> (d < x)%nat) by (intros x y H; apply (F2 _ H)).
      assert (Hac : a = c).
      { destruct (proj1 (E a)) as (x & y & [Exy|Hx] & H); [exists a, b; split; [now left|lia]| |].
        - injection Exy as <- <-.
          destruct (proj2 (E c)) as (x & y & [Exy|Hx] & H'); [exists c, d; split; [now left|lia]| |].
          + injection Exy as <- <-. lia.
          + specialize (Hin1 _ _ Hx). lia.
        - specialize (Hin2 _ _ Hx).
          destruct (proj2 (E c)) as (x' & y' & [Exy|Hx'] & H'); [exists c, d; split; [now left|lia]| |].
          + injection Exy as <- <-. lia.
          + specialize (Hin1 _ _ Hx'). lia. }
      subst c.
      assert (Hbd : b = d).
      { destruct (Nat.lt_trichotomy b d) as [L|[L|L]]; [|assumption|].
        - destruct (proj2 (E b)) as (x & y & [Exy|Hx] & H); [exists a, d; split; [now left|lia]| |].
          + injection Exy as <- <-. lia.
          + specialize (Hin1 _ _ Hx). lia.
        - destruct (proj1 (E d)) as (x & y & [Exy|Hx] & H); [exists a, b; split; [now left|lia]| |].
          + injection Exy as <- <-. lia.
          + specialize (Hin2 _ _ Hx). lia. }
      subst d. f_equal. apply IH; auto.
      intros i; split; intros (x & y & Hx & H).
      + specialize (Hin1 _ _ Hx).
        destruct (proj1 (E i)) as (x' & y' & [Exy|Hx'] & H'); [exists x, y; split; [now right|lia]| |eauto].
        injection Exy as <- <-. lia.
      + specialize (Hin2 _ _ Hx).
        destruct (proj2 (E i)) as (x' & y' & [Exy|Hx'] & H'); [exists x, y; split; [now right|lia]| |eauto].
        injection Exy as <- <-. lia. }
  intros mask r1 r2 (C1 & N1 & S1) (C2 & N2 & S2). apply G; auto.
  intros i. now rewrite <- C1, <- C2.
Qed.
