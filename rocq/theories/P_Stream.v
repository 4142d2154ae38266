(** Streaming: order of the replies and shutdown (C45, C46). *)
From Verif Require Import Base M_Files M_Machinery M_Reader M_Glob M_Select S_Reader S_Coll S_Avail L_Trains M_Stream S_Stream L_Stream1 L_Stream2 L_Stream3 Ex_Files P_Reader.
Set Implicit Arguments.
Local Open Scope list_scope.

(** A message is a number here; 0 stands for one without parts. *)
Definition zero (m : nat) : bool := Nat.eqb m 0.

(** ** C45: order *)
(** In every state of every run of every program: what was sent is the beginning of what was fed, in the same order, nothing
    twice, and nothing is left out but messages without parts; what was fed is the beginning of what the program feeds; the buffer
    keeps its limit; the clients receive some of what was sent, in the same order. *)
Theorem C45_order : forall (M : Type) (no_parts : M -> bool) maxlen prog l s, steps no_parts maxlen (init prog) l = Some s ->
  prefix (List.map snd (st_sent s)) (filter (fun m => negb (no_parts m)) (st_fed s)) /\ prefix (st_fed s) (feeds prog) /\
  ((0 < maxlen)%Z -> (Z.of_nat (List.length (st_buffer s)) <= maxlen)%Z) /\ sublist (st_delivered s) (st_sent s).
Proof. exact in_order. Qed.
Print Assumptions C45_order.

(** A client gets no more replies than it asked for. *)
Theorem C45_replies : forall (M : Type) (no_parts : M -> bool) maxlen prog l s c, steps no_parts maxlen (init prog) l = Some s ->
  times c (List.map fst (st_delivered s)) <= times c (List.map fst (st_sent s)) /\
  times c (List.map fst (st_sent s)) <= times c (st_asked s).
Proof. exact replies. Qed.
Print Assumptions C45_replies.

(** Without new requests the server comes to rest. *)
Theorem C45_settles : forall (M : Type) (no_parts : M -> bool) maxlen (s : state M), exists n, forall l s',
  forallb own_step l = true -> steps no_parts maxlen s l = Some s' -> List.length l <= n.
Proof. intros M no_parts maxlen s. exists (measure s). intros l s'. apply runs_end. Qed.
Print Assumptions C45_settles.

(** And then each request has been answered with the next train, as long as there were trains: [n] requests, whoever made them,
    have brought the first [n] trains. *)
Theorem C45_answers : forall (M : Type) (no_parts : M -> bool) maxlen ms l s, (forall m, In m ms -> no_parts m = false) ->
  forallb friendly l = true -> steps no_parts maxlen (init (AStart :: List.map (@AFeed M) ms)) l = Some s -> quiet no_parts maxlen s ->
  List.map snd (st_delivered s) = firstn (List.length (st_asked s)) ms /\ st_sent s = st_delivered s.
Proof. exact serving_quiet. Qed.
Print Assumptions C45_answers.

(** Two clients; a buffer for one train; the program has to wait for the first reply. *)
Definition ex_run : list event :=
  [EUser; EThread 0; EThread 0; EUser; ERequest 7 "next"; ERequest 8 "next"; ERecv 0 1; EThread 0; EUser; EThread 0; ETransmit;
   EThread 0; ERecv 0 0; EThread 0; EThread 0; EThread 0; ETransmit; EUser].
Example C45_example : exists s, steps zero 1 (init (AStart :: List.map (@AFeed nat) [1; 2; 3])) ex_run = Some s /\
  forallb friendly ex_run = true /\ quiet zero 1 s /\ st_delivered s = [(8, 1); (7, 2)] /\ st_buffer s = [3].
Proof.
  eexists. split; [vm_compute; reflexivity|]. split; [reflexivity|]. split; [|split; reflexivity].
  intros [|[|k]|[|k] [|i]|k| |c r|i] Ho; try discriminate; try reflexivity; cbn; unfold thread_step, recv_step; cbn; now destruct k.
Qed.

(** A message without parts (feed({}) in protocol 2.2) is never sent and ends the server: nothing fed after it is. *)
Theorem C45_empty_refuted : exists ms l s, steps zero 0 (init (AStart :: List.map (@AFeed nat) ms)) l = Some s /\
  forallb friendly l = true /\ st_fed s = ms /\ ms = [0; 1] /\ forall l' s', steps zero 0 s l' = Some s' -> st_sent s' = [].
Proof.
  exists [0; 1], [EUser; EThread 0; EThread 0; EUser; EUser; ERequest 7 "next"; ERecv 0 0; EThread 0; EThread 0; EThread 0]. eexists.
  split; [vm_compute; reflexivity|]. split; [reflexivity|]. split; [reflexivity|]. split; [reflexivity|].
  intros l' s' H. apply dead_server in H; [exact (proj1 H)|reflexivity|reflexivity].
Qed.
Print Assumptions C45_empty_refuted.

(** A request which is not "next" ends the server too; feed() will block when the buffer is full. *)
Theorem C45_request_refuted : exists ms l s, steps zero 1 (init (AStart :: List.map (@AFeed nat) ms)) l = Some s /\ ms = [1; 2; 3] /\
  (forall l' s', steps zero 1 s l' = Some s' -> st_sent s' = [] /\ st_prog s' <> []).
Proof.
  exists [1; 2; 3], [EUser; EThread 0; EThread 0; EUser; ERequest 7 "hello"; ERecv 0 0; EThread 0]. eexists.
  split; [vm_compute; reflexivity|]. split; [reflexivity|].
  match goal with |- forall l' s', steps _ _ ?x _ = _ -> _ => set (s := x) end.
  assert (I : forall l' s0 s', st_threads s0 = [mk_th (TDone true) false] -> st_buffer s0 = [1] -> st_join s0 = None ->
            st_prog s0 = [AFeed 2; AFeed 3] -> st_sent s0 = [] -> steps zero 1 s0 l' = Some s' -> st_sent s' = [] /\ st_prog s' <> []).
  { induction l' as [|e l' IH]; intros s0 s' T B J P S H; cbn [steps] in H.
    - injection H as <-. rewrite P. split; [exact S|discriminate].
    - destruct (do_step zero 1 s0 e) as [s1|] eqn:E; [|discriminate].
      destruct e as [|k|k i|k| |c r|i]; cbn [do_step] in E.
      + unfold user_step in E. rewrite J, P, B in E. discriminate.
      + unfold thread_step in E. rewrite T in E. destruct k as [|[|k]]; discriminate.
      + unfold recv_step in E. rewrite T in E. destruct k as [|[|k]]; cbn in E; [|discriminate|discriminate].
        destruct (nth_error (st_inbox s0) i) as [[c r]|]; discriminate.
      + rewrite T in E. destruct k as [|[|k]]; discriminate.
      + destruct (st_outbox s0); [discriminate|]. injection E as <-. refine (IH _ _ _ _ _ _ _ H); assumption.
      + injection E as <-. refine (IH _ _ _ _ _ _ _ H); assumption.
      + destruct (nth_error (st_inbox s0) i); [|discriminate]. injection E as <-. refine (IH _ _ _ _ _ _ _ H); assumption. }
  intros l' s' H. apply (I l' s s'); try reflexivity. exact H.
Qed.
Print Assumptions C45_request_refuted.

(** serve_files: what is sent are the first trains of the data, in the order of their IDs, with all their data, leaving out
    those without data.  [ser] is the serialisation, any function. *)
Theorem C45_serve_files : forall (V M : Type) (ser : list (string * src_data V) -> res M) (no_parts : M -> bool) (d : dcoll V) maxlen l s,
  reachable d -> good_collection d ->
  let no_data := fun r : list (string * src_data V) => match r with [] => true | _ => false end in
  (forall r m, ser r = Ok m -> no_data r = false -> no_parts m = false) ->
  steps no_parts maxlen (init (serve_program ser no_data (trains d false))) l = Some s ->
  exists k rs, Forall2 (train_view value_it d) (firstn k (dc_tids d)) rs /\
    Forall2 (fun r m => ser r = Ok m) (filter (fun r => negb (no_data r)) rs) (List.map snd (st_sent s)).
Proof.
  intros V M ser no_parts d maxlen l s Hr Hg no_data Hp H. destruct (serve_files_order Hp H) as [k K].
  assert (T := C05_trains_all V d Hr Hg). revert K. generalize (List.map snd (st_sent s)) as sent. clear H. revert k.
  induction T as [|o t items tids (r & -> & Hv) T IH]; intros k sent K.
  - exists 0, []. rewrite firstn_nil in K. cbn in K. inversion K. split; constructor.
  - destruct k as [|k]; cbn [firstn filter] in K.
    + inversion K. exists 0, []. split; constructor.
    + destruct (no_data r) eqn:En; cbn [negb] in K.
      * destruct (IH k sent K) as (j & rs & H1 & H2). exists (S j), (r :: rs). cbn [firstn filter]. rewrite En. split; [now constructor|exact H2].
      * inversion K as [|? m ? sent' (t' & r' & E & Es) K']; subst. injection E as <- <-.
        destruct (IH k sent' K') as (j & rs & H1 & H2). exists (S j), (r :: rs). cbn [firstn filter]. rewrite En. cbn [negb].
        split; constructor; assumption.
Qed.
Print Assumptions C45_serve_files.
(** If every train can be serialised, the program is: start, feed all the trains with data in order, stop. *)
Theorem C45_serve_program : forall (V M : Type) (ser : list (string * src_data V) -> res M) (d : dcoll V),
  reachable d -> good_collection d ->
  let no_data := fun r : list (string * src_data V) => match r with [] => true | _ => false end in
  (forall t r, In t (dc_tids d) -> train_view value_it d t r -> exists m, ser r = Ok m) ->
  exists rs ms, serve_program ser no_data (trains d false) = served_once ms /\ Forall2 (train_view value_it d) (dc_tids d) rs /\
    Forall2 (fun r m => ser r = Ok m) (filter (fun r => negb (no_data r)) rs) ms.
Proof.
  intros V M ser d Hr Hg no_data Hs. assert (T := C05_trains_all V d Hr Hg).
  assert (K : exists rs ms, serve_feeds ser no_data (trains d false) = (List.map (@AFeed M) ms, true) /\
    Forall2 (train_view value_it d) (dc_tids d) rs /\ Forall2 (fun r m => ser r = Ok m) (filter (fun r => negb (no_data r)) rs) ms).
  { induction T as [|o t items tids (r & -> & Hv) T IH]; [exists [], []; repeat split; constructor|].
    destruct IH as (rs & ms & E & H1 & H2); [intros t' r' Hin; apply Hs; now right|].
    destruct (Hs t r (or_introl eq_refl) Hv) as [m Em]. cbn [serve_feeds]. destruct (no_data r) eqn:En.
    - exists (r :: rs), ms. cbn [filter]. rewrite En. split; [exact E|]. split; [now constructor|exact H2].
    - exists (r :: rs), (m :: ms). cbn [filter]. rewrite En. cbn [negb]. rewrite Em, E. split; [reflexivity|]. split; constructor; assumption. }
  destruct K as (rs & ms & E & H1 & H2). exists rs, ms. split; [|auto]. unfold serve_program. rewrite E. reflexivity.
Qed.
Print Assumptions C45_serve_program.
(** The run of Ex_Files: the message of a train is the number of its sources. *)
Definition ex_ser (r : list (string * src_data Z)) : res nat := Ok (List.length r).
Example C45_serve_example : reachable run /\ good_collection run /\
  (forall r m, ex_ser r = Ok m -> match r with [] => true | _ => false end = false -> zero m = false) /\
  exists s, steps zero 0 (init (serve_program ex_ser (fun r => match r with [] => true | _ => false end) (trains run false)))
    [EUser; EThread 0; EThread 0; EUser; EUser; ERequest 7 "next"; ERecv 0 0; EThread 0; EThread 0; EThread 0; ERequest 7 "next"; ERecv 0 0;
     EThread 0; EThread 0] = Some s /\ List.length (st_sent s) = 2.
Proof.
  split; [exact run_reachable|]. split; [exact run_good|]. split.
  - intros [|x r] m H E; [discriminate|]. injection H as <-. reflexivity.
  - eexists. split; [vm_compute; reflexivity|]. reflexivity.
Qed.

(** ** C46: shutdown *)
(** Once stop() has returned, all but the trains still in the buffer were sent: the first ones, and at most [maxlen] are lost. *)
Theorem C46_unsent : forall (M : Type) (no_parts : M -> bool) maxlen ms l s, (forall m, In m ms -> no_parts m = false) ->
  steps no_parts maxlen (init (served_once ms)) l = Some s -> finished s ->
  exists lost, ms = List.map snd (st_sent s) ++ lost /\ ((0 < maxlen)%Z -> (Z.of_nat (List.length lost) <= maxlen)%Z).
Proof. exact unsent_after_stop. Qed.
Print Assumptions C46_unsent.

(** And nothing is sent or delivered any more; the port is free. *)
Theorem C46_stopped : forall (M : Type) (no_parts : M -> bool) maxlen ms l s l' s',
  steps no_parts maxlen (init (served_once ms)) l = Some s -> finished s -> steps no_parts maxlen s l' = Some s' ->
  st_sent s' = st_sent s /\ st_delivered s' = st_delivered s /\ port_free s'.
Proof. exact nothing_after_stop. Qed.
Print Assumptions C46_stopped.

Definition ex_stop : list event :=
  [EUser; EThread 0; EThread 0; EUser; EUser; ERequest 7 "next"; ERecv 0 0; EUser; EThread 0; EThread 0; ETransmit; EThread 0; EThread 0; EUser].
Example C46_example : exists s, steps zero 2 (init (served_once [1; 2])) ex_stop = Some s /\ finished s /\ st_delivered s = [(7, 1)] /\ st_fed s = [1; 2].
Proof. eexists. split; [vm_compute; reflexivity|]. split; [split; reflexivity|]. split; reflexivity. Qed.

(** Whatever was fed, as long as it fits in the buffer, a run of the program can end with nothing sent. *)
Theorem C46_lost_refuted : forall (M : Type) (no_parts : M -> bool) maxlen ms, ((0 < maxlen)%Z -> (Z.of_nat (List.length ms) <= maxlen)%Z) ->
  exists l s, steps no_parts maxlen (init (served_once ms)) l = Some s /\ finished s /\ st_fed s = ms /\ st_sent s = [].
Proof. exact all_lost. Qed.
Print Assumptions C46_lost_refuted.

(** A reply handed to ZeroMQ can be lost by stop(): all was sent, the last train did not arrive. *)
Theorem C46_last_reply_refuted : exists l s, steps zero 0 (init (served_once [1; 2])) l = Some s /\ finished s /\
  forallb friendly l = true /\ st_sent s = [(7, 1); (7, 2)] /\ st_delivered s = [(7, 1)].
Proof.
  exists [EUser; EThread 0; EThread 0; EUser; EUser; ERequest 7 "next"; ERecv 0 0; EThread 0; EThread 0; ETransmit;
    EThread 0; ERequest 7 "next"; ERecv 0 0; EUser; EThread 0; EThread 0; EThread 0; EThread 0; EUser].
  eexists. split; [vm_compute; reflexivity|]. split; [split; reflexivity|]. repeat split.
Qed.
Print Assumptions C46_last_reply_refuted.

(** stop() waits for another request, although every train was delivered; *)
Theorem C46_waits_refuted : exists l s, steps zero 0 (init (served_once [1])) l = Some s /\ forallb friendly l = true /\
  st_delivered s = [(7, 1)] /\ ~ finished s /\ quiet zero 0 s.
Proof.
  exists [EUser; EThread 0; EThread 0; EUser; ERequest 7 "next"; ERecv 0 0; EThread 0; EThread 0; ETransmit; EThread 0; EUser].
  eexists. split; [vm_compute; reflexivity|]. split; [reflexivity|]. split; [reflexivity|]. split; [intros [_ H]; discriminate|].
  intros [|[|k]|[|k] [|i]|k| |c r|i] Ho; try discriminate; try reflexivity; cbn; unfold thread_step, recv_step; cbn; now destruct k.
Qed.
Print Assumptions C46_waits_refuted.

(** and if the client then asks for the next train, stop() never returns, whatever happens. *)
Theorem C46_blocks_refuted : exists l s, steps zero 0 (init (served_once [1])) l = Some s /\ forallb friendly l = true /\
  st_delivered s = [(7, 1)] /\ forall l' s', steps zero 0 s l' = Some s' -> ~ finished s'.
Proof.
  exists [EUser; EThread 0; EThread 0; EUser; ERequest 7 "next"; ERecv 0 0; EThread 0; EThread 0; ETransmit; EThread 0; EUser;
    ERequest 7 "next"; ERecv 0 0].
  eexists. split; [vm_compute; reflexivity|]. split; [reflexivity|]. split; [reflexivity|]. intros l' s' H [_ F].
  apply blocked_steps in H; [destruct H as [J _ _ _]; congruence|]. constructor; try reflexivity. eexists _, _. split; reflexivity.
Qed.
Print Assumptions C46_blocks_refuted.
