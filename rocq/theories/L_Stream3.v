(** Shutdown of the streaming server; serve_files. *)
From Verif Require Import Base M_Stream S_Stream L_Stream1 L_Stream2.
Set Implicit Arguments.
Unset Strict Implicit.
Local Open Scope list_scope.

Section Stream.
Variable M : Type.
Variable no_parts : M -> bool.
Notation state := (state M).
Notation thread := (thread M).
Notation do_step := (do_step no_parts).
Notation steps := (steps no_parts).
Notation hand := (@hand M).
Notation pend := (@pend M).

Lemma steps_app maxlen l1 : forall s l2, steps maxlen s (l1 ++ l2) =
  match steps maxlen s l1 with Some s1 => steps maxlen s1 l2 | None => None end.
Proof.
  induction l1 as [|e l1 IH]; intros s l2; cbn [app M_Stream.steps]; [reflexivity|]. destruct (do_step maxlen s e); [apply IH|reflexivity].
Qed.

(** ** Order *)
Theorem in_order maxlen prog l s : steps maxlen (init prog) l = Some s ->
  prefix (List.map snd (st_sent s)) (filter (fun m => negb (no_parts m)) (st_fed s)) /\ prefix (st_fed s) (feeds prog) /\
  ((0 < maxlen)%Z -> (Z.of_nat (List.length (st_buffer s)) <= maxlen)%Z) /\ sublist (st_delivered s) (st_sent s).
Proof.
  intros H. destruct (run_inv H) as [F S B X T A O J I]. repeat split.
  - eexists. exact S.
  - eexists. exact F.
  - exact X.
  - eapply sublist_trans; [|exact O]. apply sublist_app_l.
Qed.

Theorem replies maxlen prog l s c : steps maxlen (init prog) l = Some s ->
  times c (List.map fst (st_delivered s)) <= times c (List.map fst (st_sent s)) /\ times c (List.map fst (st_sent s)) <= times c (st_asked s).
Proof.
  intros H. destruct (run_inv H) as [F S B X T [lost A] O J I]. split.
  - apply sublist_times. clear - O. assert (Q : sublist (st_delivered s) (st_sent s)) by (eapply sublist_trans; [apply sublist_app_l|exact O]).
    clear O. induction Q as [|x q q' Q IH|x q q' Q IH]; cbn [List.map]; [apply sl_nil|apply sl_skip; exact IH|apply sl_keep; exact IH].
  - rewrite (times_perm c A), times_app. assert (Q := sublist_times c T). rewrite times_app in Q. lia.
Qed.

(** ** A server which is no more *)
Definition no_start (p : list (action M)) : bool := forallb (fun a => match a with AStart => false | _ => true end) p.
Lemma no_start_tl a p : no_start (a :: p) = true -> no_start p = true.
Proof. cbn. now rewrite andb_true_iff. Qed.

Lemma dead_thread maxlen s e s' : forallb (@is_done M) (st_threads s) = true -> no_start (st_prog s) = true ->
  do_step maxlen s e = Some s' ->
  forallb (@is_done M) (st_threads s') = true /\ no_start (st_prog s') = true /\ st_sent s' = st_sent s /\
  (st_outbox s = [] -> st_outbox s' = [] /\ st_delivered s' = st_delivered s).
Proof.
  intros D N H.
  assert (T : forall k t, nth_error (st_threads s) k = Some t -> is_done t = true).
  { intros k t Ht. rewrite forallb_forall in D. apply D. eapply nth_error_In; eassumption. }
  destruct e as [|k|k i|k| |c r|i]; cbn [M_Stream.do_step] in H.
  - unfold user_step in H. destruct (st_join s) as [k|].
    + destruct (nth_error (st_threads s) k) as [t|]; [|discriminate]. destruct (is_done t); [|discriminate]. injection H as <-. cbn. auto.
    + destruct (st_prog s) as [|[|m|] r] eqn:Ep; [discriminate|discriminate| |]; apply no_start_tl in N.
      * destruct (full maxlen (st_buffer s)); [discriminate|]. injection H as <-. cbn. auto.
      * destruct (st_iface s) as [k|]; injection H as <-; cbn; repeat split; auto.
        destruct (nth_error (st_threads s) k) as [t|] eqn:Et; [|assumption].
        destruct (thread_cases Et) as (l1 & l2 & El & Es & _). rewrite Es. rewrite El in D. rewrite forallb_app in D |- *. cbn [forallb] in *.
        exact D.
  - unfold thread_step in H. destruct (nth_error (st_threads s) k) as [t|] eqn:Et; [|discriminate]. specialize (T _ _ Et).
    unfold is_done in T. destruct (th_at t); discriminate.
  - unfold recv_step in H. destruct (nth_error (st_threads s) k) as [t|] eqn:Et; [|discriminate]. specialize (T _ _ Et).
    unfold is_done in T. destruct (nth_error (st_inbox s) i) as [[c r]|]; [|discriminate]. destruct (th_at t); discriminate.
  - destruct (nth_error (st_threads s) k) as [t|] eqn:Et; [|discriminate]. specialize (T _ _ Et).
    unfold is_done in T. destruct (th_at t); discriminate.
  - destruct (st_outbox s) as [|x o]; [discriminate|]. injection H as <-. cbn. repeat split; auto; discriminate.
  - injection H as <-. cbn. auto.
  - destruct (nth_error (st_inbox s) i) as [x|]; [|discriminate]. injection H as <-. cbn. auto.
Qed.

Theorem dead_server maxlen l : forall s s', forallb (@is_done M) (st_threads s) = true -> no_start (st_prog s) = true ->
  steps maxlen s l = Some s' -> st_sent s' = st_sent s /\ (st_outbox s = [] -> st_delivered s' = st_delivered s).
Proof.
  induction l as [|e l IH]; intros s s' D N H; cbn [M_Stream.steps] in H; [injection H as <-; auto|].
  destruct (do_step maxlen s e) as [s1|] eqn:E; [|discriminate]. destruct (dead_thread D N E) as (D1 & N1 & S1 & O1).
  destruct (IH _ _ D1 N1 H) as [S2 O2]. split; [congruence|]. intros Ho. destruct (O1 Ho) as [Ho1 Hd]. rewrite (O2 Ho1). exact Hd.
Qed.

(** ** Started, fed and stopped once *)
Inductive phase (ms : list M) (s : state) : Prop :=
| ph_begin : st_prog s = AStart :: List.map (@AFeed M) ms ++ [AStop] -> st_threads s = [] -> st_join s = None -> st_outbox s = [] -> phase ms s
| ph_feed rest t : st_prog s = List.map (@AFeed M) rest ++ [AStop] -> st_threads s = [t] -> st_join s = None -> st_iface s = Some 0 ->
    (is_bound t = false -> st_outbox s = []) -> phase ms s
| ph_wait t : st_prog s = [] -> st_threads s = [t] -> st_join s = Some 0 -> th_stop t = true -> (is_bound t = false -> st_outbox s = []) -> phase ms s
| ph_end t : st_prog s = [] -> st_threads s = [t] -> st_join s = None -> is_done t = true -> st_outbox s = [] -> phase ms s.

Lemma phase_thread ms s s' t t' : st_threads s = [t] -> st_threads s' = [t'] -> st_prog s' = st_prog s -> st_join s' = st_join s ->
  st_iface s' = st_iface s -> th_stop t' = th_stop t -> is_done t = false -> (is_bound t' = false -> st_outbox s' = []) ->
  phase ms s -> phase ms s'.
Proof.
  intros E1 E2 P J F St D B [P0 T0 J0 O0|rest t0 P0 T0 J0 F0 B0|t0 P0 T0 J0 S0 B0|t0 P0 T0 J0 D0 O0].
  - rewrite E1 in T0. discriminate.
  - eapply ph_feed with (rest := rest) (t := t'); first [exact B | congruence].
  - rewrite E1 in T0. injection T0 as <-. eapply ph_wait with (t := t'); first [exact B | congruence].
  - rewrite E1 in T0. injection T0 as <-. congruence.
Qed.

Ltac one T := unfold at_thread, with_threads; cbn [st_threads with_buffer with_outbox with_inbox]; rewrite T; reflexivity.
Lemma phase_step maxlen ms s e s' : phase ms s -> do_step maxlen s e = Some s' -> phase ms s'.
Proof.
  intros P H.
  assert (TT : forall k t, nth_error (st_threads s) k = Some t -> k = 0 /\ st_threads s = [t] /\ (is_bound t = false -> st_outbox s = [])).
  { intros k t Ht. destruct P as [P0 T0 J0 O0|rest t0 P0 T0 J0 F0 B0|t0 P0 T0 J0 S0 B0|t0 P0 T0 J0 D0 O0].
    - rewrite T0 in Ht. destruct k; discriminate.
    - destruct (one_nth T0 Ht) as [-> ->]. auto.
    - destruct (one_nth T0 Ht) as [-> ->]. auto.
    - destruct (one_nth T0 Ht) as [-> ->]. auto. }
  destruct e as [|k|k i|k| |c r|i]; cbn [M_Stream.do_step] in H.
  - unfold user_step in H. destruct P as [P0 T0 J0 O0|rest t0 P0 T0 J0 F0 B0|t0 P0 T0 J0 S0 B0|t0 P0 T0 J0 D0 O0]; rewrite J0 in H.
    + rewrite P0 in H. injection H as <-. eapply ph_feed with (rest := ms) (t := mk_th TBegin false); cbn; rewrite ?T0; auto.
    + rewrite P0 in H. destruct rest as [|m rest]; cbn [List.map app] in H.
      * rewrite F0, T0 in H. cbn [nth_error set_nth] in H. injection H as <-. apply ph_wait with (t := mk_th (th_at t0) true); cbn; auto.
      * destruct (full maxlen (st_buffer s)); [discriminate|]. injection H as <-. apply ph_feed with (rest := rest) (t := t0); cbn; auto.
    + rewrite T0 in H. cbn [nth_error] in H. destruct (is_done t0) eqn:Ed; [|discriminate]. injection H as <-.
      apply ph_end with (t := t0); cbn; auto. apply B0. unfold is_done in Ed. unfold is_bound. destruct (th_at t0); congruence.
    + rewrite P0 in H. discriminate.
  - unfold thread_step in H. destruct (nth_error (st_threads s) k) as [t|] eqn:Et; [|discriminate]. destruct (TT _ _ Et) as (-> & T1 & B1).
    assert (Go : forall p, is_done t = false -> (is_bound (mk_th p (th_stop t)) = false -> is_bound t = false) ->
              phase ms (at_thread s 0 p)).
    { intros p Hd Hb. eapply (@phase_thread ms s _ t (mk_th p (th_stop t)) T1); [now apply at_one|reflexivity|reflexivity|reflexivity|reflexivity|assumption| |exact P]. intros Q. now apply B1, Hb. }
    destruct (th_at t) as [| | |c|c m|err bound|err] eqn:Ea; try discriminate.
    + injection H as <-. apply Go; unfold is_done, is_bound; rewrite Ea; reflexivity.
    + injection H as <-. apply Go; unfold is_done, is_bound; rewrite Ea; [reflexivity|]. cbn [th_at]. destruct (th_stop t); discriminate.
    + destruct (st_buffer s) as [|m b]; [discriminate|]. injection H as <-.
      eapply (phase_thread T1); [one T1|reflexivity|reflexivity|reflexivity|reflexivity|unfold is_done; now rewrite Ea|discriminate|exact P].
    + destruct (no_parts m); injection H as <-.
      * apply Go; unfold is_done, is_bound; rewrite Ea; [reflexivity|discriminate].
      * eapply (phase_thread T1); [one T1|reflexivity|reflexivity|reflexivity|reflexivity|unfold is_done; now rewrite Ea|discriminate|exact P].
    + injection H as <-. destruct bound.
      * eapply (phase_thread T1); [one T1|reflexivity|reflexivity|reflexivity|reflexivity|unfold is_done; now rewrite Ea| |exact P]. reflexivity.
      * apply Go; unfold is_done, is_bound; rewrite Ea; reflexivity.
  - unfold recv_step in H. destruct (nth_error (st_threads s) k) as [t|] eqn:Et; [|discriminate]. destruct (TT _ _ Et) as (-> & T1 & B1).
    destruct (nth_error (st_inbox s) i) as [[c r]|]; [|discriminate]. destruct (th_at t) eqn:Ea; try discriminate. injection H as <-.
    eapply (phase_thread T1); [one T1|reflexivity|reflexivity|reflexivity|reflexivity|unfold is_done; now rewrite Ea| |exact P].
    unfold is_bound. cbn [th_at]. destruct (String.eqb r "next"); discriminate.
  - destruct (nth_error (st_threads s) k) as [t|] eqn:Et; [|discriminate]. destruct (TT _ _ Et) as (-> & T1 & B1).
    destruct (th_at t) eqn:Ea; try discriminate. injection H as <-.
    eapply (phase_thread T1); [one T1|reflexivity|reflexivity|reflexivity|reflexivity|unfold is_done; now rewrite Ea| |exact P].
    intros _. apply B1. unfold is_bound. now rewrite Ea.
  - destruct (st_outbox s) as [|x o] eqn:Eo; [discriminate|]. injection H as <-.
    destruct P as [P0 T0 J0 O0|rest t0 P0 T0 J0 F0 B0|t0 P0 T0 J0 S0 B0|t0 P0 T0 J0 D0 O0]; try congruence.
    + apply ph_feed with (rest := rest) (t := t0); cbn; auto. intros Q. specialize (B0 Q). congruence.
    + apply ph_wait with (t := t0); cbn; auto. intros Q. specialize (B0 Q). congruence.
  - injection H as <-. destruct P as [P0 T0 J0 O0|rest t0 P0 T0 J0 F0 B0|t0 P0 T0 J0 S0 B0|t0 P0 T0 J0 D0 O0];
      [apply ph_begin|apply ph_feed with (rest := rest) (t := t0)|apply ph_wait with (t := t0)|apply ph_end with (t := t0)]; cbn; auto.
  - destruct (nth_error (st_inbox s) i) as [x|]; [|discriminate].
    injection H as <-. destruct P as [P0 T0 J0 O0|rest t0 P0 T0 J0 F0 B0|t0 P0 T0 J0 S0 B0|t0 P0 T0 J0 D0 O0];
      [apply ph_begin|apply ph_feed with (rest := rest) (t := t0)|apply ph_wait with (t := t0)|apply ph_end with (t := t0)]; cbn; auto.
Qed.

Lemma phase_steps maxlen ms l : forall s s', phase ms s -> steps maxlen s l = Some s' -> phase ms s'.
Proof.
  induction l as [|e l IH]; intros s s' P H; cbn [M_Stream.steps] in H; [injection H as <-; assumption|].
  destruct (do_step maxlen s e) as [s1|] eqn:E; [|discriminate]. eapply IH; [|exact H]. eapply phase_step; eassumption.
Qed.

Lemma feeds_once (ms : list M) : feeds (served_once ms) = ms.
Proof.
  unfold served_once, feeds. cbn [flat_map app]. rewrite flat_map_app. cbn. rewrite app_nil_r.
  induction ms as [|m ms IH]; [reflexivity|]. cbn. now rewrite IH.
Qed.

Lemma finished_phase maxlen (ms : list M) l s : steps maxlen (init (served_once ms)) l = Some s -> finished s ->
  exists t, st_threads s = [t] /\ is_done t = true /\ st_outbox s = [].
Proof.
  intros H [Fp Fj]. assert (P : phase ms s) by (eapply phase_steps; [|exact H]; apply ph_begin; reflexivity).
  destruct P as [P0 T0 J0 O0|rest t0 P0 T0 J0 F0 B0|t0 P0 T0 J0 S0 B0|t0 P0 T0 J0 D0 O0]; try congruence.
  - rewrite Fp in P0. destruct rest; discriminate.
  - eauto.
Qed.

Theorem unsent_after_stop maxlen ms l s : (forall m, In m ms -> no_parts m = false) ->
  steps maxlen (init (served_once ms)) l = Some s -> finished s ->
  exists lost, ms = List.map snd (st_sent s) ++ lost /\ ((0 < maxlen)%Z -> (Z.of_nat (List.length lost) <= maxlen)%Z).
Proof.
  intros Hm H F. destruct (finished_phase H F) as (t & Et & Ed & _). destruct (run_inv H) as [Fd S B X T A O J I].
  rewrite feeds_once in Fd. destruct F as [Fp Fj]. rewrite Fp in Fd. cbn [feeds flat_map] in Fd. rewrite app_nil_r in Fd.
  rewrite Et in S. cbn [flat_map] in S. destruct (@unbound_hand M t) as [Eh _]; [unfold is_done in Ed; unfold is_bound; destruct (th_at t); congruence|].
  rewrite Eh in S. cbn [app] in S.
  assert (Q : filter (parts no_parts) (st_fed s) = st_fed s).
  { rewrite <- Fd. clear - Hm. induction ms as [|m ms IH]; [reflexivity|]. cbn [filter]. unfold parts at 1. rewrite Hm by now left. cbn [negb].
    rewrite IH; [reflexivity|]. intros x Hx. apply Hm. now right. }
  rewrite Q, <- Fd in S. exists (filter (parts no_parts) (st_buffer s)). split; [exact S|]. intros Hp. specialize (X Hp).
  assert (List.length (filter (parts no_parts) (st_buffer s)) <= List.length (st_buffer s)) by (clear; induction (st_buffer s); cbn; [lia|destruct (parts no_parts a); cbn; lia]).
  lia.
Qed.

Theorem nothing_after_stop maxlen ms l s l' s' : steps maxlen (init (served_once ms)) l = Some s -> finished s ->
  steps maxlen s l' = Some s' -> st_sent s' = st_sent s /\ st_delivered s' = st_delivered s /\
  existsb (@is_bound M) (st_threads s') = false.
Proof.
  intros H F H'. destruct (finished_phase H F) as (t & Et & Ed & Eo).
  assert (D : forallb (@is_done M) (st_threads s) = true) by (rewrite Et; cbn; now rewrite Ed).
  assert (N : no_start (st_prog s) = true) by (destruct F as [-> _]; reflexivity).
  destruct (dead_server D N H') as [S O]. split; [exact S|]. split; [now apply O|].
  assert (F' : finished s').
  { clear - D N F H'. revert s s' D N F H'. induction l' as [|e l' IH]; intros s s' D N F H; cbn [M_Stream.steps] in H; [injection H as <-; assumption|].
    destruct (do_step maxlen s e) as [s1|] eqn:E; [|discriminate]. destruct (dead_thread D N E) as (D1 & N1 & _).
    eapply IH; [exact D1|exact N1| |exact H]. destruct F as [Fp Fj].
    destruct e as [|k|k i|k| |c r|i]; cbn [M_Stream.do_step] in E.
    - unfold user_step in E. rewrite Fj, Fp in E. discriminate.
    - unfold thread_step in E. destruct (nth_error (st_threads s) k) as [t|] eqn:Et; [|discriminate].
      rewrite forallb_forall in D. specialize (D _ (nth_error_In _ _ Et)). unfold is_done in D. destruct (th_at t); discriminate.
    - unfold recv_step in E. destruct (nth_error (st_threads s) k) as [t|] eqn:Et; [|discriminate].
      rewrite forallb_forall in D. specialize (D _ (nth_error_In _ _ Et)). unfold is_done in D.
      destruct (nth_error (st_inbox s) i) as [[c r]|]; [|discriminate]. destruct (th_at t); discriminate.
    - destruct (nth_error (st_threads s) k) as [t|] eqn:Et; [|discriminate].
      rewrite forallb_forall in D. specialize (D _ (nth_error_In _ _ Et)). unfold is_done in D. destruct (th_at t); discriminate.
    - destruct (st_outbox s); [discriminate|]. injection E as <-. now split.
    - injection E as <-. now split.
    - destruct (nth_error (st_inbox s) i); [|discriminate]. injection E as <-. now split. }
  assert (H2 : steps maxlen (init (served_once ms)) (l ++ l') = Some s') by (rewrite steps_app, H; exact H').
  destruct (finished_phase H2 F') as (t' & Et' & Ed' & _). rewrite Et'. cbn [existsb]. unfold is_done in Ed'. unfold is_bound.
  destruct (th_at t'); try discriminate; reflexivity.
Qed.

(** ** Blocked *)
Record blocked (s : state) : Prop := mk_blocked {
  bl_join : st_join s = Some 0;
  bl_prog : st_prog s = [];
  bl_threads : exists t c, st_threads s = [t] /\ th_at t = TGet c;
  bl_buffer : st_buffer s = []
}.

Lemma blocked_step maxlen s e s' : blocked s -> do_step maxlen s e = Some s' -> blocked s'.
Proof.
  intros [J P (t & c & T & Ta) B] H. destruct e as [|k|k i|k| |c' r|i]; cbn [M_Stream.do_step] in H.
  - unfold user_step in H. rewrite J, T in H. cbn [nth_error] in H. unfold is_done in H. rewrite Ta in H. discriminate.
  - unfold thread_step in H. destruct (nth_error (st_threads s) k) as [x|] eqn:Et; [|discriminate]. destruct (one_nth T Et) as [-> ->].
    rewrite Ta, B in H. discriminate.
  - unfold recv_step in H. destruct (nth_error (st_threads s) k) as [x|] eqn:Et; [|discriminate]. destruct (one_nth T Et) as [-> ->].
    destruct (nth_error (st_inbox s) i) as [[c' r]|]; [|discriminate]. rewrite Ta in H. discriminate.
  - destruct (nth_error (st_threads s) k) as [x|] eqn:Et; [|discriminate]. destruct (one_nth T Et) as [-> ->]. rewrite Ta in H. discriminate.
  - destruct (st_outbox s); [discriminate|]. injection H as <-. constructor; cbn; eauto.
  - injection H as <-. constructor; cbn; eauto.
  - destruct (nth_error (st_inbox s) i); [|discriminate]. injection H as <-. constructor; cbn; eauto.
Qed.
Theorem blocked_steps maxlen l : forall s s', blocked s -> steps maxlen s l = Some s' -> blocked s'.
Proof.
  induction l as [|e l IH]; intros s s' P H; cbn [M_Stream.steps] in H; [injection H as <-; assumption|].
  destruct (do_step maxlen s e) as [s1|] eqn:E; [|discriminate]. eapply IH; [|exact H]. eapply blocked_step; eassumption.
Qed.

(** ** All is lost when the thread is slow *)
Lemma feed_all maxlen : forall ms s, st_join s = None -> st_prog s = List.map (@AFeed M) ms ++ [AStop] ->
  ((0 < maxlen)%Z -> (Z.of_nat (List.length (st_buffer s) + List.length ms) <= maxlen)%Z) ->
  exists s', steps maxlen s (repeat EUser (List.length ms)) = Some s' /\ st_prog s' = [AStop] /\ st_join s' = None /\
    st_threads s' = st_threads s /\ st_iface s' = st_iface s /\ st_sent s' = st_sent s /\ st_buffer s' = st_buffer s ++ ms /\ st_fed s' = st_fed s ++ ms.
Proof.
  induction ms as [|m ms IH]; intros s J P F.
  - exists s. cbn. rewrite !app_nil_r. auto 10.
  - cbn [List.length repeat M_Stream.steps M_Stream.do_step]. unfold user_step. rewrite J, P. cbn [List.map app].
    assert (E : full maxlen (st_buffer s) = false).
    { unfold full. destruct (0 <? maxlen)%Z eqn:E1; [|reflexivity]. apply Z.ltb_lt in E1. specialize (F E1). cbn [List.length] in F.
      cbn [andb]. apply Z.leb_gt. lia. }
    rewrite E. set (s0 := with_buffer _ _ _). destruct (IH s0) as (s' & H1 & H2 & H3 & H4 & H5 & H6 & H7 & H8); [exact J|reflexivity| |].
    + intros Hp. specialize (F Hp). cbn [s0 st_buffer with_buffer]. rewrite app_length. cbn [List.length] in *. lia.
    + exists s'. split; [exact H1|]. split; [exact H2|]. split; [exact H3|]. split; [exact H4|]. split; [exact H5|]. split; [exact H6|].
      cbn [s0 st_buffer with_buffer st_fed with_prog] in H7, H8. rewrite <- app_assoc in H7, H8. auto.
Qed.

Theorem all_lost maxlen ms : ((0 < maxlen)%Z -> (Z.of_nat (List.length ms) <= maxlen)%Z) ->
  exists l s, steps maxlen (init (served_once ms)) l = Some s /\ finished s /\ st_fed s = ms /\ st_sent s = [].
Proof.
  intros F. set (s1 := mk_st (List.map (@AFeed M) ms ++ [AStop]) None [mk_th TBegin false] (Some 0) [] [] [] [] [] [] [] []).
  destruct (@feed_all maxlen ms s1) as (s2 & H1 & H2 & H3 & H4 & H5 & H6 & H7 & H8); [reflexivity|reflexivity|exact F|].
  exists (EUser :: repeat EUser (List.length ms) ++ [EUser; EThread 0; EThread 0; EThread 0; EUser]). 
  destruct s2 as [p j th ifc b ib ob fd ak tk sn dl]. cbn in H2, H3, H4, H5, H6, H7, H8. subst.
  eexists. split.
  { cbn [M_Stream.steps M_Stream.do_step]. change (user_step maxlen (init (served_once ms))) with (Some s1). cbv iota.
    rewrite steps_app, H1. reflexivity. }
  split; [split; reflexivity|]. split; reflexivity.
Qed.

(** ** serve_files *)
Lemma serve_feeds_spec D (ser : D -> res M) (empty : D -> bool) items :
  exists k, Forall2 (fun it m => exists t d, it = Ok (t, d) /\ ser d = Ok m)
    (filter (fun it => match it with Ok (_, d) => negb (empty d) | Err _ => true end) (firstn k items)) (feeds (fst (serve_feeds ser empty items))).
Proof.
  induction items as [|[[t d]|e] items IH]; cbn [serve_feeds].
  - exists 0. constructor.
  - destruct (empty d) eqn:Ee.
    + destruct IH as [k IH]. exists (S k). cbn [firstn filter]. rewrite Ee. exact IH.
    + destruct (ser d) as [m|e] eqn:Es.
      * destruct IH as [k IH]. exists (S k). cbn [firstn filter fst feeds flat_map app]. rewrite Ee. cbn [negb]. constructor; [eauto|exact IH].
      * exists 0. constructor.
  - exists 0. constructor.
Qed.

Lemma feeds_app (p q : list (action M)) : feeds (p ++ q) = feeds p ++ feeds q.
Proof. apply flat_map_app. Qed.

Lemma filter_firstn A (f : A -> bool) l : forall n, exists k, firstn n (filter f l) = filter f (firstn k l).
Proof.
  induction l as [|x l IH]; intros n; [exists 0; now destruct n|]. cbn [filter]. destruct (f x) eqn:E.
  - destruct n as [|n]; [exists 0; reflexivity|]. destruct (IH n) as [k Ek]. exists (S k). cbn. now rewrite E, Ek.
  - destruct (IH n) as [k Ek]. exists (S k). cbn. now rewrite E.
Qed.

Theorem serve_files_order D (ser : D -> res M) (empty : D -> bool) items maxlen l s :
  (forall d m, ser d = Ok m -> empty d = false -> no_parts m = false) ->
  steps maxlen (init (serve_program ser empty items)) l = Some s ->
  exists k, Forall2 (fun it m => exists t d, it = Ok (t, d) /\ ser d = Ok m)
    (filter (fun it => match it with Ok (_, d) => negb (empty d) | Err _ => true end) (firstn k items)) (List.map snd (st_sent s)).
Proof.
  intros Hp H. destruct (in_order H) as ([r1 P1] & [r2 P2] & _).
  destruct (serve_feeds_spec ser empty items) as [k K].
  assert (Ef : feeds (serve_program ser empty items) = feeds (fst (serve_feeds ser empty items))).
  { unfold serve_program. cbn [feeds flat_map app]. change (flat_map _ ?l) with (feeds l). rewrite feeds_app.
    destruct (snd (serve_feeds ser empty items)); cbn; apply app_nil_r. }
  rewrite Ef in P2. rewrite P2 in K.
  assert (Q : filter (fun m => negb (no_parts m)) (st_fed s) = st_fed s).
  { apply Forall2_app_inv_r in K as (l1 & l2 & K1 & _ & El). clear - K1 El Hp.
    assert (In1 : forall it, In it l1 -> match it with Ok (_, d) => empty d = false | Err _ => True end).
    { intros it Hi. assert (Hf : In it (l1 ++ l2)) by (apply in_or_app; now left). rewrite <- El in Hf. apply filter_In in Hf as [_ Hf].
      destruct it as [[t d]|]; [|exact I]. now apply negb_true_iff. }
    clear El. induction K1 as [|it m l1 lm (t & d & -> & Es) K1 IH]; [reflexivity|]. cbn [filter].
    rewrite (Hp d m Es); [|apply (In1 (Ok (t, d))); now left]. cbn [negb]. rewrite IH; [reflexivity|]. intros it Hi. apply In1. now right. }
  rewrite Q in P1. rewrite P1, <- app_assoc in K. apply Forall2_app_inv_r in K as (l1 & l2 & K1 & _ & El).
  destruct (filter_firstn (fun it => match it with Ok (_, d) => negb (empty d) | Err _ => true end) (firstn k items) (List.length l1)) as [j Ej].
  rewrite El, firstn_app, Nat.sub_diag, firstn_all in Ej. cbn [firstn] in Ej. rewrite app_nil_r in Ej.
  exists (Nat.min j k). rewrite firstn_firstn in Ej. rewrite <- Ej. exact K1.
Qed.
End Stream.
