(** Progress and shutdown of the streaming server. *)
From Verif Require Import Base M_Stream S_Stream L_Stream1.
Set Implicit Arguments.
Unset Strict Implicit.
Local Open Scope list_scope.

Section Stream.
Variable M : Type.
Variable no_parts : M -> bool.
Notation state := (state M).
Notation thread := (thread M).
Notation do_step := (do_step no_parts).
Notation steps := (steps no_parts).
Notation hand := (@hand M).
Notation pend := (@pend M).

(** ** Every run without new requests ends *)
Definition rank (t : thread) : nat :=
  match th_at t with TBegin => 7 | TLoop => 6 | TRecv => 5 | TGet _ => 15 | TSend _ _ => 10 | TClose _ _ => 2 | TDone _ => 0 end.
Definition weight (a : action M) : nat := match a with AStart => 8 | AFeed _ => 1 | AStop => 2 end.
Definition ranks (l : list thread) : nat := fold_right (fun t n => rank t + n) 0 l.
Definition progw (l : list (action M)) : nat := fold_right (fun a n => weight a + n) 0 l.
Definition joinw (j : option nat) : nat := match j with Some _ => 1 | None => 0 end.
Definition measure (s : state) : nat :=
  progw (st_prog s) + joinw (st_join s)
  + ranks (st_threads s) + 20 * List.length (st_inbox s) + List.length (st_outbox s).

Ltac fields := cbn [st_prog st_join st_threads st_iface st_buffer st_inbox st_outbox st_fed st_asked st_taken st_sent st_delivered
  with_prog with_join with_threads with_iface with_buffer with_inbox with_outbox].

Lemma ranks_app l1 l2 : ranks (l1 ++ l2) = ranks l1 + ranks l2.
Proof. unfold ranks. induction l1 as [|t l1 IH]; cbn [app fold_right]; [reflexivity|]. rewrite IH. lia. Qed.
Lemma at_thread_ranks (s : state) k t p : nth_error (st_threads s) k = Some t ->
  ranks (st_threads (at_thread s k p)) + rank t = ranks (st_threads s) + rank (mk_th p (th_stop t)).
Proof.
  intros Et. destruct (thread_cases Et) as (l1 & l2 & El & Es & _).
  rewrite (@at_thread_threads M s k t p l1 l2 Et Es), El, !ranks_app. unfold ranks; cbn [fold_right]. lia.
Qed.

Lemma own_decreases maxlen s e s' : own_step e = true -> do_step maxlen s e = Some s' -> measure s' < measure s.
Proof.
  intros Ho H. destruct e as [|k|k i|k| |c r|i]; try discriminate; cbn [M_Stream.do_step] in H.
  - unfold user_step in H. destruct (st_join s) as [k|] eqn:Ej.
    + destruct (nth_error (st_threads s) k) as [t|]; [|discriminate]. destruct (is_done t); [|discriminate]. injection H as <-.
      unfold measure. rewrite Ej. fields. cbn [joinw]. lia.
    + destruct (st_prog s) as [|[|m|] r] eqn:Ep; [discriminate| | |].
      * injection H as <-. unfold measure. rewrite Ep. fields. rewrite ranks_app, Ej. cbn [joinw progw fold_right weight]. fold (progw r). change (ranks [mk_th TBegin false]) with 7. lia.
      * destruct (full maxlen (st_buffer s)); [discriminate|]. injection H as <-. unfold measure. rewrite Ep. fields. cbn [joinw progw fold_right weight]. fold (progw r). lia.
      * destruct (st_iface s) as [k|]; injection H as <-; unfold measure; rewrite Ep, Ej; fields; cbn [joinw progw fold_right weight]; fold (progw r); [|rewrite Ej; cbn [joinw]; lia].
        destruct (nth_error (st_threads s) k) as [t|] eqn:Et; [|lia].
        destruct (thread_cases Et) as (l1 & l2 & El & Es & _). rewrite Es, El, !ranks_app. unfold ranks; cbn [fold_right].
        change (rank (mk_th (th_at t) true)) with (rank t). lia.
  - unfold thread_step in H. destruct (nth_error (st_threads s) k) as [t|] eqn:Et; [|discriminate].
    destruct (th_at t) as [| | |c|c m|err bound|err] eqn:Ea; try discriminate.
    + injection H as <-. set (p := if existsb (@is_bound M) (st_threads s) then TClose true false else TLoop).
      assert (R := at_thread_ranks p Et). unfold measure. change (st_prog (at_thread s k p)) with (st_prog s).
      change (st_join (at_thread s k p)) with (st_join s). change (st_inbox (at_thread s k p)) with (st_inbox s).
      change (st_outbox (at_thread s k p)) with (st_outbox s).
      assert (rank t = 7) by (unfold rank; now rewrite Ea).
      assert (rank (mk_th p (th_stop t)) <= 6) by (unfold rank, p; cbn [th_at]; destruct (existsb _ _); lia). lia.
    + injection H as <-. set (p := if th_stop t then TClose false true else TRecv).
      assert (R := at_thread_ranks p Et). unfold measure. change (st_prog (at_thread s k p)) with (st_prog s).
      change (st_join (at_thread s k p)) with (st_join s). change (st_inbox (at_thread s k p)) with (st_inbox s).
      change (st_outbox (at_thread s k p)) with (st_outbox s).
      assert (rank t = 6) by (unfold rank; now rewrite Ea).
      assert (rank (mk_th p (th_stop t)) <= 5) by (unfold rank, p; cbn [th_at]; destruct (th_stop t); lia). lia.
    + destruct (st_buffer s) as [|m b]; [discriminate|]. injection H as <-. set (s0 := with_buffer s b (st_fed s)).
      assert (R := @at_thread_ranks s0 k t (TSend c m) Et). unfold measure.
      change (st_prog (at_thread s0 k (TSend c m))) with (st_prog s). change (st_join (at_thread s0 k (TSend c m))) with (st_join s).
      change (st_inbox (at_thread s0 k (TSend c m))) with (st_inbox s). change (st_outbox (at_thread s0 k (TSend c m))) with (st_outbox s).
      assert (rank t = 15) by (unfold rank; now rewrite Ea). change (rank (mk_th (TSend c m) (th_stop t))) with 10 in R.
      change (st_threads s0) with (st_threads s) in R. lia.
    + destruct (no_parts m); injection H as <-.
      * assert (R := at_thread_ranks (TClose true true) Et). unfold measure.
        change (st_prog (at_thread s k (TClose true true))) with (st_prog s). change (st_join (at_thread s k (TClose true true))) with (st_join s).
        change (st_inbox (at_thread s k (TClose true true))) with (st_inbox s). change (st_outbox (at_thread s k (TClose true true))) with (st_outbox s).
        assert (rank t = 10) by (unfold rank; now rewrite Ea). change (rank (mk_th (TClose true true) (th_stop t))) with 2 in R. lia.
      * set (s0 := with_outbox s (st_outbox s ++ [(c, m)]) (st_sent s ++ [(c, m)]) (st_delivered s)).
        assert (R := @at_thread_ranks s0 k t TLoop Et). unfold measure.
        change (st_prog (at_thread s0 k TLoop)) with (st_prog s). change (st_join (at_thread s0 k TLoop)) with (st_join s).
        change (st_inbox (at_thread s0 k TLoop)) with (st_inbox s). change (st_outbox (at_thread s0 k TLoop)) with (st_outbox s ++ [(c, m)]).
        assert (rank t = 10) by (unfold rank; now rewrite Ea). change (rank (mk_th TLoop (th_stop t))) with 6 in R.
        change (st_threads s0) with (st_threads s) in R. rewrite app_length. cbn [List.length]. lia.
    + injection H as <-. set (s0 := if bound then with_outbox s [] (st_sent s) (st_delivered s) else s).
      assert (E0 : st_threads s0 = st_threads s) by (unfold s0; destruct bound; reflexivity).
      assert (E1 : st_prog s0 = st_prog s) by (unfold s0; destruct bound; reflexivity).
      assert (E2 : st_join s0 = st_join s) by (unfold s0; destruct bound; reflexivity).
      assert (E3 : st_inbox s0 = st_inbox s) by (unfold s0; destruct bound; reflexivity).
      assert (E4 : List.length (st_outbox s0) <= List.length (st_outbox s)) by (unfold s0; destruct bound; cbn; lia).
      assert (Et0 : nth_error (st_threads s0) k = Some t) by now rewrite E0.
      assert (R := @at_thread_ranks s0 k t (TDone err) Et0). unfold measure.
      change (st_prog (at_thread s0 k (TDone err))) with (st_prog s0). change (st_join (at_thread s0 k (TDone err))) with (st_join s0).
      change (st_inbox (at_thread s0 k (TDone err))) with (st_inbox s0). change (st_outbox (at_thread s0 k (TDone err))) with (st_outbox s0).
      assert (rank t = 2) by (unfold rank; now rewrite Ea). change (rank (mk_th (TDone err) (th_stop t))) with 0 in R. rewrite E1, E2, E3. rewrite E0 in R. lia.
  - unfold recv_step in H. destruct (nth_error (st_threads s) k) as [t|] eqn:Et; [|discriminate].
    destruct (nth_error (st_inbox s) i) as [[c r]|] eqn:Ei; [|discriminate].
    destruct (th_at t) eqn:Ea; try discriminate. injection H as <-.
    set (s0 := with_inbox s (del_nth i (st_inbox s)) (st_asked s) (st_taken s ++ [c])).
    set (p := if String.eqb r "next" then TGet c else TClose true true).
    assert (R := @at_thread_ranks s0 k t p Et). unfold measure.
    change (st_prog (at_thread s0 k p)) with (st_prog s). change (st_join (at_thread s0 k p)) with (st_join s).
    change (st_inbox (at_thread s0 k p)) with (del_nth i (st_inbox s)). change (st_outbox (at_thread s0 k p)) with (st_outbox s).
    apply nth_error_split in Ei as (b1 & b2 & Ein & <-). rewrite Ein, del_nth_split, !app_length. cbn [List.length].
    assert (rank t = 5) by (unfold rank; now rewrite Ea).
    assert (rank (mk_th p (th_stop t)) <= 15) by (unfold rank, p; cbn [th_at]; destruct (String.eqb r "next"); lia).
    change (st_threads s0) with (st_threads s) in R. lia.
  - destruct (st_outbox s) as [|x o] eqn:Eo; [discriminate|]. injection H as <-. unfold measure. rewrite Eo. fields. cbn [List.length]. lia.
Qed.

Theorem runs_end maxlen s l s' : forallb own_step l = true -> steps maxlen s l = Some s' -> List.length l <= measure s.
Proof.
  revert s. induction l as [|e l IH]; intros s Ho H; cbn [List.length]; [lia|].
  cbn [forallb] in Ho. apply andb_true_iff in Ho as [He Hl]. cbn [M_Stream.steps] in H.
  destruct (do_step maxlen s e) as [s1|] eqn:E; [|discriminate]. assert (D := own_decreases He E). specialize (IH _ Hl H). lia.
Qed.

(** ** Started once, never stopped *)
Record serving (ms : list M) (s : state) : Prop := mk_serving {
  sv_join : st_join s = None;
  sv_state : (st_prog s = AStart :: List.map (@AFeed M) ms /\ st_threads s = [] /\ st_buffer s = [] /\ st_sent s = [] /\ st_taken s = []) \/
    exists rest t, st_prog s = List.map (@AFeed M) rest /\ st_threads s = [t] /\ th_stop t = false /\
      (match th_at t with TClose _ _ | TDone _ => False | _ => True end) /\
      ms = List.map snd (st_sent s) ++ hand t ++ st_buffer s ++ rest /\
      st_taken s = List.map fst (st_sent s) ++ pend t;
  sv_next : forall c r, In (c, r) (st_inbox s) -> r = "next"%string;
  sv_asked : List.length (st_asked s) = List.length (st_taken s) + List.length (st_inbox s);
  sv_out : st_sent s = st_delivered s ++ st_outbox s
}.

Lemma at_one (s : state) t p : st_threads s = [t] -> st_threads (at_thread s 0 p) = [mk_th p (th_stop t)].
Proof. intros E. unfold at_thread, with_threads. cbn [st_threads]. rewrite E. reflexivity. Qed.

Lemma one_nth (l : list thread) t k x : l = [t] -> nth_error l k = Some x -> k = 0 /\ x = t.
Proof. intros -> H. destruct k as [|k]; cbn in H; [injection H as <-; auto|]. destruct k; discriminate. Qed.

Lemma serving_step maxlen ms s e s' : (forall m, In m ms -> no_parts m = false) -> serving ms s -> friendly e = true ->
  do_step maxlen s e = Some s' -> serving ms s'.
Proof.
  intros Hms [J S N A O] Hf H. destruct e as [|k|k i|k| |c r|i]; try discriminate; cbn [M_Stream.do_step] in H.
  - unfold user_step in H. rewrite J in H.
    destruct S as [(Sp & St & Sb & Ss & Sk)|(rest & t & Sp & St & Sf & Sa & Sm & Sk)].
    + rewrite Sp in H. injection H as <-. constructor; cbn; try assumption. right. exists ms, (mk_th TBegin false).
      rewrite St, Ss, Sb. cbn. repeat split; auto.
    + rewrite Sp in H. destruct rest as [|m rest]; cbn [List.map] in H; [discriminate|].
      destruct (full maxlen (st_buffer s)); [discriminate|]. injection H as <-. constructor; cbn; try assumption. right. exists rest, t.
      repeat split; try assumption. rewrite <- !app_assoc. cbn [app]. rewrite Sm. reflexivity.
  - unfold thread_step in H. destruct (nth_error (st_threads s) k) as [x|] eqn:Et; [|discriminate].
    destruct S as [(Sp & St & Sb & Ss & Sk)|(rest & t & Sp & St & Sf & Sa & Sm & Sk)].
    { rewrite St in Et. destruct k; discriminate. }
    destruct (one_nth St Et) as [-> ->].
    destruct (th_at t) as [| | |c|c m|err bound|err] eqn:Ea; try contradiction; try discriminate.
    + injection H as <-. rewrite St. cbn [existsb]. unfold is_bound at 1. rewrite Ea. cbn [orb].
      constructor; try assumption. right. exists rest, (mk_th TLoop (th_stop t)). split; [exact Sp|]. split; [now apply at_one|].
      split; [assumption|]. split; [exact I|]. unfold L_Stream1.hand, L_Stream1.pend in *. rewrite Ea in Sm, Sk. auto.
    + rewrite Sf in H. injection H as <-.
      constructor; try assumption. right. exists rest, (mk_th TRecv (th_stop t)). split; [exact Sp|]. split; [now apply at_one|].
      split; [assumption|]. split; [exact I|]. unfold L_Stream1.hand, L_Stream1.pend in *. rewrite Ea in Sm, Sk. auto.
    + destruct (st_buffer s) as [|m b] eqn:Eb; [discriminate|]. injection H as <-.
      constructor; try assumption. right. exists rest, (mk_th (TSend c m) (th_stop t)). split; [exact Sp|]. split; [now apply at_one|].
      split; [assumption|]. split; [exact I|]. unfold L_Stream1.hand, L_Stream1.pend in *. rewrite Ea in Sm, Sk. split; [exact Sm|exact Sk].
    + assert (Hm : no_parts m = false).
      { apply Hms. rewrite Sm. unfold L_Stream1.hand. rewrite Ea. apply in_or_app. right. now left. }
      rewrite Hm in H. injection H as <-.
      set (s0 := with_outbox s (st_outbox s ++ [(c, m)]) (st_sent s ++ [(c, m)]) (st_delivered s)).
      constructor; try assumption.
      * right. exists rest, (mk_th TLoop (th_stop t)). split; [exact Sp|]. split; [now apply at_one|].
        split; [assumption|]. split; [exact I|]. unfold L_Stream1.hand, L_Stream1.pend in *. rewrite Ea in Sm, Sk. cbn [th_at].
        change (st_sent (at_thread s0 0 TLoop)) with (st_sent s ++ [(c, m)]). change (st_buffer (at_thread s0 0 TLoop)) with (st_buffer s).
        change (st_taken (at_thread s0 0 TLoop)) with (st_taken s). rewrite !map_app, <- !app_assoc. cbn [List.map fst snd app].
        split; [exact Sm|]. exact Sk.
      * change (st_sent s ++ [(c, m)] = st_delivered s ++ st_outbox s ++ [(c, m)]). rewrite O. now rewrite app_assoc.
  - unfold recv_step in H. destruct (nth_error (st_threads s) k) as [x|] eqn:Et; [|discriminate].
    destruct S as [(Sp & St & Sb & Ss & Sk)|(rest & t & Sp & St & Sf & Sa & Sm & Sk)].
    { rewrite St in Et. destruct k; discriminate. }
    destruct (one_nth St Et) as [-> ->].
    destruct (nth_error (st_inbox s) i) as [[c r]|] eqn:Ei; [|discriminate]. destruct (th_at t) eqn:Ea; try discriminate. injection H as <-.
    assert (Er : r = "next"%string) by (apply (N c); eapply nth_error_In; eassumption). subst r.
    change (String.eqb "next" "next") with true. cbv iota.
    set (s0 := with_inbox s (del_nth i (st_inbox s)) (st_asked s) (st_taken s ++ [c])).
    apply nth_error_split in Ei as (b1 & b2 & Ein & <-).
    constructor; try assumption.
    + right. exists rest, (mk_th (TGet c) (th_stop t)). split; [exact Sp|]. split; [now apply at_one|]. split; [assumption|]. split; [exact I|].
      unfold L_Stream1.hand, L_Stream1.pend in *. rewrite Ea in Sm, Sk. cbn [th_at].
      change (st_sent (at_thread s0 0 (TGet c))) with (st_sent s). change (st_buffer (at_thread s0 0 (TGet c))) with (st_buffer s).
      change (st_taken (at_thread s0 0 (TGet c))) with (st_taken s ++ [c]). split; [exact Sm|]. rewrite Sk, app_nil_r. reflexivity.
    + intros c' r' Hin. change (In (c', r') (del_nth (List.length b1) (st_inbox s))) in Hin. rewrite Ein, del_nth_split in Hin. apply (N c').
      rewrite Ein. apply in_app_or in Hin. apply in_or_app. destruct Hin; [now left|right; now right].
    + change (List.length (st_asked s) = List.length (st_taken s ++ [c]) + List.length (del_nth (List.length b1) (st_inbox s))).
      rewrite A, Ein, del_nth_split, !app_length. cbn [List.length]. lia.
  - destruct (st_outbox s) as [|x o] eqn:Eo; [discriminate|]. injection H as <-. constructor; cbn; try assumption.
    rewrite O, <- app_assoc. reflexivity.
  - cbn [friendly] in Hf. apply String.eqb_eq in Hf. subst r. injection H as <-. constructor; cbn; try assumption.
    + intros c' r' Hin. apply in_app_or in Hin as [Hin|[Hin|[]]]; [now apply (N c')|]. now injection Hin.
    + rewrite !app_length. cbn [List.length]. lia.
Qed.

Lemma serving_init ms : serving ms (init (AStart :: List.map (@AFeed M) ms)).
Proof. constructor; cbn; try reflexivity; [left; repeat split|intros c r []]. Qed.

Lemma serving_steps maxlen ms l : (forall m, In m ms -> no_parts m = false) -> forall s s', serving ms s -> forallb friendly l = true ->
  steps maxlen s l = Some s' -> serving ms s'.
Proof.
  intros Hms. induction l as [|e l IH]; intros s s' S Hf H; cbn [M_Stream.steps] in H; [injection H as <-; assumption|].
  cbn [forallb] in Hf. apply andb_true_iff in Hf as [He Hl].
  destruct (do_step maxlen s e) as [s1|] eqn:E; [|discriminate]. eapply IH; [|exact Hl|exact H]. eapply serving_step; eassumption.
Qed.

Theorem serving_quiet maxlen ms l s : (forall m, In m ms -> no_parts m = false) ->
  forallb friendly l = true -> steps maxlen (init (AStart :: List.map (@AFeed M) ms)) l = Some s -> quiet no_parts maxlen s ->
  List.map snd (st_delivered s) = firstn (List.length (st_asked s)) ms /\ st_sent s = st_delivered s.
Proof.
  intros Hms Hf H Q. assert (S := serving_steps Hms (serving_init ms) Hf H). destruct S as [J S N A O].
  assert (Eo : st_outbox s = []).
  { specialize (Q ETransmit eq_refl). cbn [M_Stream.do_step] in Q. destruct (st_outbox s); [reflexivity|discriminate]. }
  rewrite Eo, app_nil_r in O. split; [|assumption]. rewrite <- O.
  destruct S as [(Sp & St & Sb & Ss & Sk)|(rest & t & Sp & St & Sf & Sa & Sm & Sk)].
  { exfalso. specialize (Q EUser eq_refl). cbn [M_Stream.do_step] in Q. unfold user_step in Q. rewrite J, Sp in Q. discriminate. }
  assert (Qt := Q (EThread 0) eq_refl). cbn [M_Stream.do_step] in Qt. unfold thread_step in Qt. rewrite St in Qt. cbn [nth_error] in Qt.
  assert (Qu := Q EUser eq_refl). cbn [M_Stream.do_step] in Qu. unfold user_step in Qu. rewrite J, Sp in Qu.
  destruct (th_at t) as [| | |c|c m|err bound|err] eqn:Ea; try contradiction; try discriminate.
  - (* waiting for a request: all were answered *)
    assert (Ei : st_inbox s = []).
    { destruct (st_inbox s) as [|[c r] b] eqn:Ei; [reflexivity|]. exfalso. specialize (Q (ERecv 0 0) eq_refl).
      cbn [M_Stream.do_step] in Q. unfold recv_step in Q. rewrite St, Ei in Q. cbn [nth_error] in Q. rewrite Ea in Q. discriminate. }
    unfold L_Stream1.hand, L_Stream1.pend in *. rewrite Ea in Sm, Sk. rewrite app_nil_r in Sk. rewrite Ei in A. cbn [List.length] in A.
    rewrite A, Sk, Nat.add_0_r, map_length, Sm. rewrite <- (map_length snd (st_sent s)). rewrite firstn_app, Nat.sub_diag, firstn_all. cbn [firstn].
    now rewrite app_nil_r.
  - (* waiting for a train: all were sent *)
    unfold L_Stream1.hand, L_Stream1.pend in *. rewrite Ea in Sm, Sk. destruct (st_buffer s) as [|m b] eqn:Eb; [|discriminate].
    destruct rest as [|m rest]; [|exfalso; cbn [List.map] in Qu].
    + cbn [app] in Sm. rewrite app_nil_r in Sm. rewrite A, Sk, app_length, map_length, Sm. rewrite firstn_all2; [reflexivity|]. rewrite map_length. lia.
    + unfold full in Qu. cbn [List.length] in Qu. change (Z.of_nat 0) with 0%Z in Qu. destruct (0 <? maxlen)%Z eqn:E1; [|discriminate].
      destruct (maxlen <=? 0)%Z eqn:E2; [|discriminate]. apply Z.ltb_lt in E1. apply Z.leb_le in E2. lia.
  - destruct (no_parts m); discriminate.
Qed.
End Stream.
