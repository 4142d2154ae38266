(** Invariants of the streaming server. *)
From Verif Require Import Base M_Stream S_Stream.
Set Implicit Arguments.
Unset Strict Implicit.
Local Open Scope list_scope.

(** ** Lists *)
Lemma set_nth_split {A} (l1 : list A) x y l2 : set_nth (List.length l1) y (l1 ++ x :: l2) = l1 ++ y :: l2.
Proof. induction l1 as [|a l1 IH]; cbn; [reflexivity|]. now rewrite IH. Qed.
Lemma del_nth_split {A} (l1 : list A) x l2 : del_nth (List.length l1) (l1 ++ x :: l2) = l1 ++ l2.
Proof. induction l1 as [|a l1 IH]; cbn; [reflexivity|]. now rewrite IH. Qed.
Lemma sublist_refl {A} (l : list A) : sublist l l.
Proof. induction l; [constructor|apply sl_keep; assumption]. Qed.
Lemma sublist_nil {A} (l : list A) : sublist [] l.
Proof. induction l; constructor; assumption. Qed.
Lemma sublist_app {A} (a b c d : list A) : sublist a b -> sublist c d -> sublist (a ++ c) (b ++ d).
Proof. intros H. induction H; intros Hc; cbn [app]; [assumption|apply sl_skip; auto|apply sl_keep; auto]. Qed.
Lemma sublist_trans {A} (a b c : list A) : sublist a b -> sublist b c -> sublist a c.
Proof.
  intros H1 H2. revert a H1. induction H2 as [|x b c _ IH|x b c _ IH]; intros a H1.
  - assumption.
  - apply sl_skip; auto.
  - inversion H1; subst; [apply sl_skip; auto|apply sl_keep; auto].
Qed.
Lemma sublist_app_l {A} (a b : list A) : sublist a (a ++ b).
Proof. rewrite <- (app_nil_r a) at 1. apply sublist_app; [apply sublist_refl|apply sublist_nil]. Qed.
Lemma sublist_times c l l' : sublist l l' -> times c l <= times c l'.
Proof. unfold times. induction 1 as [|x l l' _ IH|x l l' _ IH]; cbn [filter]; [lia| |]; destruct (c =? x)%nat; cbn [List.length]; lia. Qed.
Lemma times_app c l l' : times c (l ++ l') = times c l + times c l'.
Proof. unfold times. now rewrite filter_app, app_length. Qed.
Lemma times_perm c l l' : Permutation l l' -> times c l = times c l'.
Proof. unfold times. induction 1 as [|x l l' _ IH|x y l|a b d _ IH1 _ IH2]; cbn [filter]; [reflexivity| | |lia].
  - destruct (c =? x)%nat; cbn [List.length]; lia.
  - destruct (c =? y)%nat, (c =? x)%nat; cbn [List.length]; lia. Qed.

Section Stream.
Variable M : Type.
Variable no_parts : M -> bool.
Notation state := (state M).
Notation thread := (thread M).
Notation do_step := (do_step no_parts).
Notation steps := (steps no_parts).

(** ** Invariants *)
(** The message a thread has taken from the buffer; the client it has to answer. *)
Definition hand (t : thread) : list M := match th_at t with TSend _ m => [m] | _ => [] end.
Definition pend (t : thread) : list client_id := match th_at t with TGet c | TSend c _ => [c] | _ => [] end.
Definition parts (m : M) : bool := negb (no_parts m).

Record inv (maxlen : Z) (prog : list (action M)) (s : state) : Prop := mk_inv {
  inv_fed : feeds prog = st_fed s ++ feeds (st_prog s);
  inv_sent : filter parts (st_fed s) = List.map snd (st_sent s) ++ filter parts (flat_map hand (st_threads s) ++ st_buffer s);
  inv_bound : List.length (filter (@is_bound M) (st_threads s)) <= 1;
  inv_max : (0 < maxlen)%Z -> (Z.of_nat (List.length (st_buffer s)) <= maxlen)%Z;
  inv_taken : sublist (List.map fst (st_sent s) ++ flat_map pend (st_threads s)) (st_taken s);
  inv_asked : exists lost, Permutation (st_asked s) (st_taken s ++ List.map fst (st_inbox s) ++ lost);
  inv_out : sublist (st_delivered s ++ st_outbox s) (st_sent s);
  inv_join : forall k, st_join s = Some k -> st_iface s = Some k;
  inv_iface : forall k, st_iface s = Some k -> exists t, nth_error (st_threads s) k = Some t
}.

Lemma unbound_hand t : is_bound t = false -> hand t = [] /\ pend t = [].
Proof. unfold is_bound, hand, pend. destruct (th_at t) as [| | | | |e []|]; try discriminate; auto. Qed.
Lemma unbound_all l : List.length (filter (@is_bound M) l) = 0 -> flat_map hand l = [] /\ flat_map pend l = [].
Proof.
  induction l as [|t l IH]; [auto|]. cbn [filter flat_map]. destruct (is_bound t) eqn:E; [discriminate|]. intros H.
  destruct (unbound_hand E) as [-> ->]. cbn [app]. auto.
Qed.

(** The thread which moves, among the others. *)
Lemma thread_cases (l : list thread) k t : nth_error l k = Some t ->
  exists l1 l2, l = l1 ++ t :: l2 /\ (forall x, set_nth k x l = l1 ++ x :: l2) /\ k = List.length l1.
Proof.
  intros H. apply nth_error_split in H as (l1 & l2 & -> & <-). exists l1, l2. split; [reflexivity|]. split; [|reflexivity].
  intros x. apply set_nth_split.
Qed.

Definition others_quiet (l1 l2 : list thread) : Prop :=
  flat_map hand l1 = [] /\ flat_map hand l2 = [] /\ flat_map pend l1 = [] /\ flat_map pend l2 = [].

Lemma bound_alone l1 t l2 : List.length (filter (@is_bound M) (l1 ++ t :: l2)) <= 1 -> is_bound t = true ->
  others_quiet l1 l2 /\ List.length (filter (@is_bound M) l1) = 0 /\ List.length (filter (@is_bound M) l2) = 0.
Proof.
  rewrite filter_app. cbn [filter]. intros H Ht. rewrite Ht in H. rewrite app_length in H. cbn [List.length] in H.
  assert (H1 : List.length (filter (@is_bound M) l1) = 0) by lia. assert (H2 : List.length (filter (@is_bound M) l2) = 0) by lia.
  destruct (unbound_all H1), (unbound_all H2). repeat split; assumption.
Qed.

Lemma bound_count l1 t t' l2 : (is_bound t' = true -> is_bound t = true) ->
  List.length (filter (@is_bound M) (l1 ++ t :: l2)) <= 1 -> List.length (filter (@is_bound M) (l1 ++ t' :: l2)) <= 1.
Proof.
  intros Hi. rewrite !filter_app, !app_length. cbn [filter]. destruct (is_bound t'), (is_bound t); cbn [List.length]; try lia.
Qed.

(** Moves which take or leave nothing in hand. *)
Lemma flat_swap {B} (f : thread -> list B) l1 t t' l2 : f t' = f t -> flat_map f (l1 ++ t' :: l2) = flat_map f (l1 ++ t :: l2).
Proof. intros H. rewrite !flat_map_app. cbn [flat_map]. now rewrite H. Qed.

Lemma nth_set_some (l : list thread) k x j t : nth_error l j = Some t -> exists t', nth_error (set_nth k x l) j = Some t'.
Proof.
  revert k j. induction l as [|a l IH]; intros k j H; [destruct j; discriminate|].
  destruct k, j; cbn [set_nth nth_error] in *; eauto.
Qed.

Lemma at_thread_iface (s : state) k p j t : nth_error (st_threads s) j = Some t ->
  exists t', nth_error (st_threads (at_thread s k p)) j = Some t'.
Proof. intros H. unfold at_thread, with_threads. cbn [st_threads]. destruct (nth_error (st_threads s) k); [eapply nth_set_some; eassumption|eauto]. Qed.

Lemma user_inv maxlen prog s s' : inv maxlen prog s -> user_step maxlen s = Some s' -> inv maxlen prog s'.
Proof.
  intros I H. unfold user_step in H. destruct (st_join s) as [k|] eqn:Ej.
  - destruct (nth_error (st_threads s) k) as [t|] eqn:Et; [|discriminate]. destruct (is_done t); [|discriminate]. injection H as <-.
    destruct I. constructor; cbn; try assumption; intros; discriminate.
  - destruct (st_prog s) as [|[|m|] r] eqn:Ep; [discriminate| | |].
    + injection H as <-. destruct I as [I1 I2 I3 I4 I5 I6 I7 I8 I9]. rewrite Ep in I1. constructor; cbn in *; try assumption.
      * rewrite flat_map_app. cbn [flat_map hand th_at app]. rewrite app_nil_r. assumption.
      * rewrite filter_app. cbn [filter is_bound th_at]. rewrite app_nil_r. assumption.
      * rewrite flat_map_app. cbn [flat_map pend th_at app]. rewrite app_nil_r. assumption.
      * rewrite Ej. intros k Hk. discriminate.
      * intros k Hk. injection Hk as <-. exists (mk_th TBegin false). rewrite nth_error_app2 by lia. now rewrite Nat.sub_diag.
    + destruct (full maxlen (st_buffer s)) eqn:Ef; [discriminate|]. injection H as <-. destruct I as [I1 I2 I3 I4 I5 I6 I7 I8 I9]. rewrite Ep in I1.
      constructor; cbn in *; try assumption.
      * rewrite I1. rewrite <- app_assoc. reflexivity.
      * rewrite filter_app, I2, <- app_assoc, <- filter_app. rewrite <- app_assoc. reflexivity.
      * intros Hm. rewrite app_length. cbn [List.length]. unfold full in Ef. apply andb_false_iff in Ef as [Ef|Ef].
        -- apply Z.ltb_ge in Ef. lia.
        -- apply Z.leb_gt in Ef. lia.
    + destruct (st_iface s) as [k|] eqn:Ei.
      * destruct (inv_iface I Ei) as [t Et]. rewrite Et in H. injection H as <-.
        destruct I as [I1 I2 I3 I4 I5 I6 I7 I8 I9]. rewrite Ep in I1.
        destruct (thread_cases Et) as (l1 & l2 & El & Es & _).
        assert (Eh : forall x, hand (mk_th (th_at t) x) = hand t) by reflexivity.
        assert (Epd : forall x, pend (mk_th (th_at t) x) = pend t) by reflexivity.
        constructor; cbn in *; try assumption.
        -- rewrite Es. rewrite (@flat_swap _ hand l1 t _ l2) by reflexivity. rewrite <- El. assumption.
        -- rewrite Es. apply bound_count with (t := t); [exact (fun x => x)|]. rewrite <- El. assumption.
        -- rewrite Es. rewrite (@flat_swap _ pend l1 t _ l2) by reflexivity. rewrite <- El. assumption.
        -- intros j Hj. injection Hj as <-. reflexivity.
        -- intros j Hj. injection Hj as <-. eapply nth_set_some; eassumption.
      * injection H as <-. destruct I as [I1 I2 I3 I4 I5 I6 I7 I8 I9]. rewrite Ep in I1. constructor; cbn in *; try assumption.
Qed.

Lemma at_thread_threads (s : state) k t p l1 l2 : nth_error (st_threads s) k = Some t ->
  (forall x, set_nth k x (st_threads s) = l1 ++ x :: l2) ->
  st_threads (at_thread s k p) = l1 ++ mk_th p (th_stop t) :: l2.
Proof. intros Ht Hs. unfold at_thread, with_threads. cbn [st_threads]. rewrite Ht. apply Hs. Qed.

Lemma thread_inv maxlen prog s k s' : inv maxlen prog s -> thread_step no_parts s k = Some s' -> inv maxlen prog s'.
Proof.
  intros I H. unfold thread_step in H. destruct (nth_error (st_threads s) k) as [t|] eqn:Et; [|discriminate].
  destruct (thread_cases Et) as (l1 & l2 & El & Es & _).
  assert (Ebase : forall (s0 : state), st_threads s0 = st_threads s -> forall p, st_threads (at_thread s0 k p) = l1 ++ mk_th p (th_stop t) :: l2).
  { intros s0 E0 p. apply at_thread_threads; [congruence|]. intros x. rewrite E0. apply Es. }
  destruct I as [I1 I2 I3 I4 I5 I6 I7 I8 I9].
  destruct (th_at t) as [| | |c|c m|err bound|err] eqn:Ea; try discriminate.
  - (* bind *)
    injection H as <-.
    set (p := if existsb (@is_bound M) (st_threads s) then TClose true false else TLoop).
    assert (Hp : hand (mk_th p (th_stop t)) = hand t /\ pend (mk_th p (th_stop t)) = pend t).
    { unfold hand, pend. rewrite Ea. unfold p. destruct (existsb (@is_bound M) (st_threads s)); split; reflexivity. }
    destruct Hp as [Hp1 Hp2].
    constructor; try assumption.
    + change (st_buffer (at_thread s k p)) with (st_buffer s). change (st_fed (at_thread s k p)) with (st_fed s).
      change (st_sent (at_thread s k p)) with (st_sent s).
      rewrite Ebase by reflexivity. rewrite (flat_swap l1 l2 Hp1), <- El. assumption.
    + rewrite Ebase by reflexivity. unfold p. destruct (existsb (@is_bound M) (st_threads s)) eqn:Eb.
      * apply bound_count with (t := t); [discriminate|]. now rewrite <- El.
      * assert (Hz : forall l, existsb (@is_bound M) l = false -> filter (@is_bound M) l = []).
        { induction l as [|x l IH]; [reflexivity|]. cbn [existsb filter]. intros Hx. apply orb_false_iff in Hx as [-> Hx]. auto. }
        rewrite El, existsb_app in Eb. cbn [existsb] in Eb. apply orb_false_iff in Eb as [Eb1 Eb2]. apply orb_false_iff in Eb2 as [_ Eb2].
        rewrite filter_app, app_length. cbn [filter]. rewrite (Hz _ Eb1), (Hz _ Eb2). cbn. lia.
    + change (st_taken (at_thread s k p)) with (st_taken s). change (st_sent (at_thread s k p)) with (st_sent s).
      rewrite Ebase by reflexivity. rewrite (flat_swap l1 l2 Hp2), <- El. assumption.
    + intros j Hj. change (st_iface s = Some j) in Hj. destruct (I9 j Hj) as [t' Ht']. eapply at_thread_iface; eassumption.
  - (* stop test *)
    injection H as <-. set (p := if th_stop t then TClose false true else TRecv).
    assert (Hp : hand (mk_th p (th_stop t)) = hand t /\ pend (mk_th p (th_stop t)) = pend t).
    { unfold hand, pend. rewrite Ea. unfold p. destruct (th_stop t); split; reflexivity. }
    destruct Hp as [Hp1 Hp2].
    constructor; try assumption.
    + change (st_buffer (at_thread s k p)) with (st_buffer s). change (st_fed (at_thread s k p)) with (st_fed s).
      change (st_sent (at_thread s k p)) with (st_sent s).
      rewrite Ebase by reflexivity. rewrite (flat_swap l1 l2 Hp1), <- El. assumption.
    + rewrite Ebase by reflexivity. apply bound_count with (t := t); [|now rewrite <- El]. intros _. unfold is_bound. now rewrite Ea.
    + change (st_taken (at_thread s k p)) with (st_taken s). change (st_sent (at_thread s k p)) with (st_sent s).
      rewrite Ebase by reflexivity. rewrite (flat_swap l1 l2 Hp2), <- El. assumption.
    + intros j Hj. change (st_iface s = Some j) in Hj. destruct (I9 j Hj) as [t' Ht']. eapply at_thread_iface; eassumption.
  - (* get *)
    destruct (st_buffer s) as [|m b] eqn:Eb; [discriminate|]. injection H as <-.
    set (s0 := with_buffer s b (st_fed s)). set (p := TSend c m).
    assert (Hbt : is_bound t = true) by (unfold is_bound; now rewrite Ea).
    rewrite El in I3. destruct (bound_alone I3 Hbt) as ((Q1 & Q2 & Q3 & Q4) & _).
    assert (Hh : hand t = []) by (unfold hand; now rewrite Ea). assert (Hpd : pend t = [c]) by (unfold pend; now rewrite Ea).
    constructor; try assumption.
    + change (st_buffer (at_thread s0 k p)) with b. change (st_fed (at_thread s0 k p)) with (st_fed s).
      change (st_sent (at_thread s0 k p)) with (st_sent s).
      rewrite Ebase by reflexivity. rewrite I2, El, !flat_map_app. cbn [flat_map]. rewrite Q1, Q2, Hh. reflexivity.
    + rewrite Ebase by reflexivity. apply bound_count with (t := t); [|assumption]. now rewrite Hbt.
    + change (st_buffer (at_thread s0 k p)) with b. intros Hm. specialize (I4 Hm). cbn [List.length] in I4. lia.
    + change (st_taken (at_thread s0 k p)) with (st_taken s). change (st_sent (at_thread s0 k p)) with (st_sent s).
      rewrite Ebase by reflexivity. rewrite El, flat_map_app in I5. rewrite flat_map_app. cbn [flat_map] in *. rewrite Hpd in I5. exact I5.
    + intros j Hj. change (st_iface s = Some j) in Hj. destruct (I9 j Hj) as [t' Ht'].
      apply (@at_thread_iface s0 k p j t'). exact Ht'.
  - (* send *)
    assert (Hbt : is_bound t = true) by (unfold is_bound; now rewrite Ea).
    rewrite El in I3. destruct (bound_alone I3 Hbt) as ((Q1 & Q2 & Q3 & Q4) & _).
    assert (Hh : hand t = [m]) by (unfold hand; now rewrite Ea). assert (Hpd : pend t = [c]) by (unfold pend; now rewrite Ea).
    destruct (no_parts m) eqn:En; injection H as <-.
    + constructor; try assumption.
      * change (st_buffer (at_thread s k (TClose true true))) with (st_buffer s). change (st_fed (at_thread s k (TClose true true))) with (st_fed s).
        change (st_sent (at_thread s k (TClose true true))) with (st_sent s).
        rewrite Ebase by reflexivity. rewrite I2, El, !flat_map_app. cbn [flat_map]. rewrite Q1, Q2, Hh. cbn [app hand th_at filter].
        replace (parts m) with false by (unfold parts; now rewrite En). reflexivity.
      * rewrite Ebase by reflexivity. apply bound_count with (t := t); [|assumption]. now rewrite Hbt.
      * change (st_taken (at_thread s k (TClose true true))) with (st_taken s). change (st_sent (at_thread s k (TClose true true))) with (st_sent s).
        rewrite Ebase by reflexivity. rewrite flat_map_app. cbn [flat_map]. rewrite Q3, Q4. cbn [app pend th_at].
        rewrite El, flat_map_app in I5. cbn [flat_map] in I5. rewrite Q3, Q4 in I5. eapply sublist_trans; [|exact I5]. rewrite !app_nil_r. apply sublist_app_l.
      * intros j Hj. change (st_iface s = Some j) in Hj. destruct (I9 j Hj) as [t' Ht']. eapply at_thread_iface; eassumption.
    + set (s0 := with_outbox s (st_outbox s ++ [(c, m)]) (st_sent s ++ [(c, m)]) (st_delivered s)).
      constructor; try assumption.
      * change (st_buffer (at_thread s0 k TLoop)) with (st_buffer s). change (st_fed (at_thread s0 k TLoop)) with (st_fed s).
        change (st_sent (at_thread s0 k TLoop)) with (st_sent s ++ [(c, m)]).
        rewrite Ebase by reflexivity. rewrite I2, El, !flat_map_app, map_app, <- app_assoc. cbn [flat_map]. rewrite Q1, Q2, Hh.
        cbn [app hand th_at filter List.map snd]. replace (parts m) with true by (unfold parts; now rewrite En). now rewrite <- app_assoc.
      * rewrite Ebase by reflexivity. apply bound_count with (t := t); [|assumption]. now rewrite Hbt.
      * change (st_taken (at_thread s0 k TLoop)) with (st_taken s). change (st_sent (at_thread s0 k TLoop)) with (st_sent s ++ [(c, m)]).
        rewrite Ebase by reflexivity. rewrite flat_map_app, map_app. cbn [flat_map]. rewrite Q3, Q4. cbn [app pend th_at List.map fst]. rewrite !app_nil_r.
        rewrite El, flat_map_app in I5. cbn [flat_map] in I5. rewrite Q3, Q4, Hpd in I5. exact I5.
      * change (sublist (st_delivered s ++ (st_outbox s ++ [(c, m)])) (st_sent s ++ [(c, m)])). rewrite app_assoc.
        apply sublist_app; [assumption|apply sublist_refl].
      * intros j Hj. change (st_iface s = Some j) in Hj. destruct (I9 j Hj) as [t' Ht']. apply (@at_thread_iface s0 k TLoop j t'). exact Ht'.
  - (* close *)
    injection H as <-.
    set (s0 := if bound then with_outbox s [] (st_sent s) (st_delivered s) else s). set (p := @TDone M err).
    assert (Es0 : st_threads s0 = st_threads s /\ st_buffer s0 = st_buffer s /\ st_fed s0 = st_fed s /\ st_sent s0 = st_sent s /\ st_taken s0 = st_taken s
                  /\ st_iface s0 = st_iface s /\ st_prog s0 = st_prog s /\ st_asked s0 = st_asked s /\ st_inbox s0 = st_inbox s /\ st_join s0 = st_join s
                  /\ st_delivered s0 = st_delivered s).
    { unfold s0. destruct bound; repeat split; reflexivity. }
    destruct Es0 as (F1 & F2 & F3 & F4 & F5 & F6 & F7 & F8 & F9 & F10 & F11).
    assert (Hh : hand t = []) by (unfold hand; now rewrite Ea). assert (Hpd : pend t = []) by (unfold pend; now rewrite Ea).
    constructor.
    + change (feeds prog = st_fed s0 ++ feeds (st_prog s0)). now rewrite F3, F7.
    + change (st_buffer (at_thread s0 k p)) with (st_buffer s0). change (st_fed (at_thread s0 k p)) with (st_fed s0).
      change (st_sent (at_thread s0 k p)) with (st_sent s0). rewrite F2, F3, F4, Ebase by exact F1.
      rewrite (@flat_swap _ hand l1 t _ l2) by now rewrite Hh. now rewrite <- El.
    + rewrite Ebase by exact F1. apply bound_count with (t := t); [discriminate|]. now rewrite <- El.
    + change ((0 < maxlen)%Z -> (Z.of_nat (List.length (st_buffer s0)) <= maxlen)%Z). now rewrite F2.
    + change (st_taken (at_thread s0 k p)) with (st_taken s0). change (st_sent (at_thread s0 k p)) with (st_sent s0).
      rewrite F4, F5, Ebase by exact F1. rewrite (@flat_swap _ pend l1 t _ l2) by now rewrite Hpd. now rewrite <- El.
    + change (exists lost, Permutation (st_asked s0) (st_taken s0 ++ List.map fst (st_inbox s0) ++ lost)). now rewrite F5, F8, F9.
    + change (sublist (st_delivered s0 ++ st_outbox s0) (st_sent s0)). rewrite F4, F11. unfold s0. destruct bound; [|assumption].
      cbn [with_outbox st_outbox]. eapply sublist_trans; [|exact I7]. rewrite app_nil_r. apply sublist_app_l.
    + change (forall j, st_join s0 = Some j -> st_iface s0 = Some j). now rewrite F6, F10.
    + intros j Hj. change (st_iface s0 = Some j) in Hj. rewrite F6 in Hj. destruct (I9 j Hj) as [t' Ht']. apply (@at_thread_iface s0 k p j t'). now rewrite F1.
Qed.

Lemma recv_inv maxlen prog s k i s' : inv maxlen prog s -> recv_step s k i = Some s' -> inv maxlen prog s'.
Proof.
  intros I H. unfold recv_step in H. destruct (nth_error (st_threads s) k) as [t|] eqn:Et; [|discriminate].
  destruct (nth_error (st_inbox s) i) as [[c r]|] eqn:Ei; [|discriminate].
  destruct (th_at t) as [| | |c0|c0 m|err bound|err] eqn:Ea; try discriminate. injection H as <-.
  set (s0 := with_inbox s (del_nth i (st_inbox s)) (st_asked s) (st_taken s ++ [c])).
  set (p := if String.eqb r "next" then TGet c else TClose true true).
  destruct (thread_cases Et) as (l1 & l2 & El & Es & _).
  assert (Eb : st_threads (at_thread s0 k p) = l1 ++ mk_th p (th_stop t) :: l2) by (apply at_thread_threads; assumption).
  apply nth_error_split in Ei as (b1 & b2 & Ein & <-).
  destruct I as [I1 I2 I3 I4 I5 I6 I7 I8 I9].
  assert (Hbt : is_bound t = true) by (unfold is_bound; now rewrite Ea).
  assert (Hh : hand t = []) by (unfold hand; now rewrite Ea). assert (Hpd : pend t = []) by (unfold pend; now rewrite Ea).
  rewrite El in I3. destruct (bound_alone I3 Hbt) as ((Q1 & Q2 & Q3 & Q4) & _).
  constructor; try assumption.
  - change (st_buffer (at_thread s0 k p)) with (st_buffer s). change (st_fed (at_thread s0 k p)) with (st_fed s).
    change (st_sent (at_thread s0 k p)) with (st_sent s). rewrite Eb.
    rewrite (@flat_swap _ hand l1 t _ l2) by (rewrite Hh; unfold p, hand; cbn [th_at]; destruct (String.eqb r "next"); reflexivity). now rewrite <- El.
  - rewrite Eb. apply bound_count with (t := t); [|assumption]. now rewrite Hbt.
  - change (st_taken (at_thread s0 k p)) with (st_taken s ++ [c]). change (st_sent (at_thread s0 k p)) with (st_sent s). rewrite Eb.
    rewrite flat_map_app. cbn [flat_map]. rewrite Q3, Q4. rewrite El, flat_map_app in I5. cbn [flat_map] in I5. rewrite Q3, Q4, Hpd in I5.
    cbn [app] in *. rewrite !app_nil_r in *. apply sublist_app; [assumption|]. unfold p, pend. cbn [th_at].
    destruct (String.eqb r "next"); [apply sublist_refl|apply sublist_nil].
  - change (exists lost, Permutation (st_asked s) ((st_taken s ++ [c]) ++ List.map fst (del_nth (List.length b1) (st_inbox s)) ++ lost)).
    destruct I6 as [lost HP]. exists lost. rewrite Ein in HP |- *. rewrite del_nth_split. etransitivity; [exact HP|]. rewrite <- app_assoc.
    apply Permutation_app_head. rewrite !map_app. cbn [List.map fst app]. rewrite <- !app_assoc. cbn [app]. symmetry. apply Permutation_middle.
  - intros j Hj. change (st_iface s = Some j) in Hj. destruct (I9 j Hj) as [t' Ht']. apply (@at_thread_iface s0 k p j t'). exact Ht'.
Qed.

Lemma step_inv maxlen prog s e s' : inv maxlen prog s -> do_step maxlen s e = Some s' -> inv maxlen prog s'.
Proof.
  intros I H. destruct e as [|k|k i|k| |c r|i]; cbn [M_Stream.do_step] in H.
  - eapply user_inv; eassumption.
  - eapply thread_inv; eassumption.
  - eapply recv_inv; eassumption.
  - destruct (nth_error (st_threads s) k) as [t|] eqn:Et; [|discriminate]. destruct (th_at t) eqn:Ea; try discriminate. injection H as <-.
    destruct (thread_cases Et) as (l1 & l2 & El & Es & _).
    assert (Eb : st_threads (at_thread s k (TClose true false)) = l1 ++ mk_th (TClose true false) (th_stop t) :: l2) by (apply at_thread_threads; assumption).
    assert (Hh : hand t = []) by (unfold hand; now rewrite Ea). assert (Hpd : pend t = []) by (unfold pend; now rewrite Ea).
    destruct I as [I1 I2 I3 I4 I5 I6 I7 I8 I9]. constructor; try assumption.
    + change (st_buffer (at_thread s k (TClose true false))) with (st_buffer s). change (st_fed (at_thread s k (TClose true false))) with (st_fed s).
      change (st_sent (at_thread s k (TClose true false))) with (st_sent s). rewrite Eb.
      rewrite (@flat_swap _ hand l1 t _ l2) by now rewrite Hh. now rewrite <- El.
    + rewrite Eb. apply bound_count with (t := t); [discriminate|]. now rewrite <- El.
    + change (st_taken (at_thread s k (TClose true false))) with (st_taken s). change (st_sent (at_thread s k (TClose true false))) with (st_sent s).
      rewrite Eb. rewrite (@flat_swap _ pend l1 t _ l2) by now rewrite Hpd. now rewrite <- El.
    + intros j Hj. change (st_iface s = Some j) in Hj. destruct (I9 j Hj) as [t' Ht']. eapply at_thread_iface; eassumption.
  - destruct (st_outbox s) as [|x o] eqn:Eo; [discriminate|]. injection H as <-. destruct I as [I1 I2 I3 I4 I5 I6 I7 I8 I9]. rewrite Eo in I7.
    constructor; cbn; try assumption. rewrite <- app_assoc. exact I7.
  - injection H as <-. destruct I as [I1 I2 I3 I4 I5 I6 I7 I8 I9]. constructor; cbn; try assumption.
    destruct I6 as [lost HP]. exists lost. rewrite map_app. cbn [List.map fst]. rewrite <- app_assoc. etransitivity; [apply Permutation_app_tail; exact HP|].
    rewrite <- !app_assoc. apply Permutation_app_head, Permutation_app_head. apply Permutation_app_comm.
  - destruct (nth_error (st_inbox s) i) as [[c r]|] eqn:Ei; [|discriminate]. injection H as <-. apply nth_error_split in Ei as (b1 & b2 & Ein & <-).
    destruct I as [I1 I2 I3 I4 I5 I6 I7 I8 I9]. constructor; cbn; try assumption.
    destruct I6 as [lost HP]. exists (c :: lost). rewrite Ein in HP |- *. rewrite del_nth_split. etransitivity; [exact HP|].
    apply Permutation_app_head. rewrite !map_app. cbn [List.map fst]. rewrite <- !app_assoc. apply Permutation_app_head. cbn [app]. apply Permutation_middle.
Qed.

Lemma init_inv maxlen prog : inv maxlen prog (init prog).
Proof.
  constructor; cbn; try reflexivity; try lia; try discriminate; try constructor.
  exists []. constructor.
Qed.

Lemma steps_inv maxlen prog l : forall s s', inv maxlen prog s -> steps maxlen s l = Some s' -> inv maxlen prog s'.
Proof.
  induction l as [|e l IH]; intros s s' I H; cbn [M_Stream.steps] in H; [injection H as <-; assumption|].
  destruct (do_step maxlen s e) as [s1|] eqn:E; [|discriminate]. eapply IH; [|exact H]. eapply step_inv; eassumption.
Qed.

Theorem run_inv maxlen prog l s : steps maxlen (init prog) l = Some s -> inv maxlen prog s.
Proof. apply steps_inv, init_inv. Qed.
End Stream.
