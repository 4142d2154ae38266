(** Opening files. *)
From Verif Require Import Base PyStr M_Files M_Machinery M_Reader M_Select S_Reader S_Coll S_Avail S_Open
  L_Base L_Machinery L_Reader L_GetArray L_Select L_Hist.
Set Implicit Arguments.
Unset Strict Implicit.
Local Open Scope string_scope.
Local Open Scope list_scope.

Lemma partition_cut : forall c s a m b, py_partition c s = (a, m, b) -> cut c s a b.
Proof.
  intros c. induction s as [|x s IH]; intros a m b H; simpl in H.
  - injection H as <- <- <-. split; [simpl; tauto|now right].
  - destruct (Ascii.eqb_spec x c) as [->|N].
    + injection H as <- <- <-. split; [simpl; tauto|now left].
    + destruct (py_partition c s) as [[a' m'] b'] eqn:E. injection H as <- <- <-.
      destruct (IH _ _ _ eq_refl) as [H1 H2]. split; [simpl; intuition|].
      destruct H2 as [->|[-> ->]]; [now left|right; auto].
Qed.
Lemma cut_fun : forall c s a b a' b', cut c s a b -> cut c s a' b' -> a = a' /\ b = b'.
Proof.
  intros c. induction s as [|x s IH]; intros a b a' b' [H1 H2] [H3 H4].
  - destruct H2 as [H2|[H2 ->]], H4 as [H4|[H4 ->]]; try (destruct a; discriminate); try (destruct a'; discriminate). subst. auto.
  - destruct a as [|y a], a' as [|y' a'].
    + destruct H2 as [H2|[H2 _]]; [|discriminate]. destruct H4 as [H4|[H4 _]]; [|discriminate].
      split; [reflexivity|]. simpl in H2, H4. congruence.
    + exfalso. destruct H2 as [H2|[H2 _]]; [|discriminate]. simpl in H2. injection H2 as -> ->. simpl in H3. apply H3.
      left. destruct H4 as [H4|[H4 _]]; injection H4 as H4 _; now symmetry.
    + exfalso. destruct H4 as [H4|[H4 _]]; [|discriminate]. simpl in H4. injection H4 as -> ->. simpl in H1. apply H1.
      left. destruct H2 as [H2|[H2 _]]; injection H2 as H2 _; now symmetry.
    + simpl in H1, H3.
      assert (X : x = y /\ (s = (a ++ String c b)%string \/ (s = a /\ b = ""))).
      { destruct H2 as [H2|[H2 ->]]; injection H2 as -> ->; auto. }
      assert (X' : x = y' /\ (s = (a' ++ String c b')%string \/ (s = a' /\ b' = ""))).
      { destruct H4 as [H4|[H4 ->]]; injection H4 as -> ->; auto. }
      destruct X as [-> X]. destruct X' as [-> X'].
      destruct (IH a b a' b') as [-> ->]; [split; [tauto|exact X]|split; [tauto|exact X']|auto].
Qed.

Lemma add_source_spec : forall e ctrl inst,
  (~ good_entry e -> add_data_source (ctrl, inst) e = Err EValueError) /\
  (good_entry e -> exists ctrl' inst', add_data_source (ctrl, inst) e = Ok (ctrl', inst') /\
     (forall s, In s ctrl' <-> In s ctrl \/ (e <> "" /\ names_control e s)) /\
     (forall s, In s inst' <-> In s inst \/ (e <> "" /\ names_instrument e s))).
Proof.
  intros e ctrl inst. unfold add_data_source. destruct (String.eqb_spec e "") as [->|Hne].
  - split; [intros H; exfalso; apply H; now left|]. intros _. exists ctrl, inst. split; [reflexivity|].
    split; intros s; split; auto; intros [H|[[] _]]; auto.
  - destruct (py_partition slash e) as [[cat m] h5] eqn:E. apply partition_cut in E.
    destruct (py_partition colon h5) as [[dev m2] cg] eqn:E2. apply partition_cut in E2.
    destruct (py_partition slash cg) as [[chan m3] grp] eqn:E3. apply partition_cut in E3.
    destruct (String.eqb_spec cat "INSTRUMENT") as [->|N1]; [|destruct (String.eqb_spec cat "CONTROL") as [->|N2]].
    + split; [intros H; exfalso; apply H; right; right; eexists; exact E|]. intros _. do 2 eexists. split; [reflexivity|].
      split; intros s.
      * split; [auto|]. intros [H|[_ H]]; [assumption|]. destruct (cut_fun E H). discriminate.
      * rewrite set_add_In. split.
        -- intros [->|H]; [right; split; [assumption|]; exists h5, dev, cg, chan, grp; auto|now left].
        -- intros [H|[_ (r & dv & c & ch & g & H1 & H2 & H3 & ->)]]; [now right|]. left.
           destruct (cut_fun E H1) as [_ <-]. destruct (cut_fun E2 H2) as [<- <-]. destruct (cut_fun E3 H3) as [<- _]. reflexivity.
    + split; [intros H; exfalso; apply H; right; left; eexists; exact E|]. intros _. do 2 eexists. split; [reflexivity|].
      split; intros s.
      * rewrite set_add_In. split.
        -- intros [->|H]; [right; split; [assumption|exact E]|now left].
        -- intros [H|[_ H]]; [now right|left]. destruct (cut_fun E H) as [_ ->]. reflexivity.
      * split; [auto|]. intros [H|[_ (r & dv & c & ch & g & H1 & _)]]; [assumption|]. destruct (cut_fun E H1). discriminate.
    + split; [reflexivity|]. intros [H|[[r H]|[r H]]]; [contradiction| |]; destruct (cut_fun E H); contradiction.
Qed.

Lemma add_sources_spec : forall l ctrl inst,
  ((exists e, In e l /\ ~ good_entry e) -> foldM add_data_source (ctrl, inst) l = Err EValueError) /\
  ((forall e, In e l -> good_entry e) -> exists ctrl' inst', foldM add_data_source (ctrl, inst) l = Ok (ctrl', inst') /\
     (forall s, In s ctrl' <-> In s ctrl \/ exists e, In e l /\ e <> "" /\ names_control e s) /\
     (forall s, In s inst' <-> In s inst \/ exists e, In e l /\ e <> "" /\ names_instrument e s)).
Proof.
  induction l as [|e l IH]; intros ctrl inst; cbn [foldM].
  - split; [intros (e & [] & _)|]. intros _. exists ctrl, inst. split; [reflexivity|].
    split; intros s; split; auto; intros [H|(e & [] & _)]; auto.
  - destruct (add_source_spec e ctrl inst) as [A1 A2].
    assert (D : good_entry e \/ ~ good_entry e).
    { destruct (string_dec e "") as [->|Hne]; [left; now left|]. destruct (py_partition slash e) as [[cat m] h5] eqn:E. apply partition_cut in E.
      destruct (string_dec cat "CONTROL") as [->|N1]; [left; right; left; eexists; exact E|].
      destruct (string_dec cat "INSTRUMENT") as [->|N2]; [left; right; right; eexists; exact E|].
      right. intros [H|[[r H]|[r H]]]; [contradiction| |]; destruct (cut_fun E H); contradiction. }
    destruct D as [D|D].
    + destruct (A2 D) as (c' & i' & E & Hc & Hi). rewrite E. cbn [bind]. destruct (IH c' i') as [I1 I2]. split.
      * intros (x & [<-|Hx] & Hb); [contradiction|]. apply I1. eauto.
      * intros H. destruct I2 as (c2 & i2 & E2 & Hc2 & Hi2); [intros x Hx; apply H; now right|]. exists c2, i2. split; [assumption|]. split; intros s.
        -- rewrite Hc2, Hc. split; [intros [[X|[X Y]]|(x & Hx & X)]; [now left|right; exists e; split; [now left|auto]|right; exists x; split; [now right|auto]]|].
           intros [X|(x & [<-|Hx] & X)]; [auto|auto|right; eauto].
        -- rewrite Hi2, Hi. split; [intros [[X|[X Y]]|(x & Hx & X)]; [now left|right; exists e; split; [now left|auto]|right; exists x; split; [now right|auto]]|].
           intros [X|(x & [<-|Hx] & X)]; [auto|auto|right; eauto].
    + rewrite (A1 D). cbn [bind]. split; [reflexivity|]. intros H. exfalso. apply D. apply H. now left.
Qed.

Section O.
Context {V : Type}.
Notation faccess := (faccess V).

Lemma metadata_list_ok : forall (f : h5file V), read_data_sources f =
  match metadata_list f with None => Err EKeyError | Some l => foldM add_data_source ([], []) l end.
Proof.
  intros f. unfold read_data_sources, metadata_list, format_version. destruct (h5_version f); reflexivity.
Qed.

Theorem open_spec : forall (f : h5file V),
  (h5_trainid f = None -> fa_open f = Err EKeyError) /\
  (forall raw, h5_trainid f = Some raw ->
    (metadata_list f = None -> fa_open f = Err EKeyError) /\
    (forall l, metadata_list f = Some l ->
      ((exists e, In e l /\ ~ good_entry e) -> fa_open f = Err EValueError) /\
      ((forall e, In e l -> good_entry e) -> exists fa, fa_open f = Ok fa /\ fa_file fa = f /\
         fa_tids fa = filter (fun t => negb (t =? 0)%Z) raw /\
         (forall s, In s (fa_ctrl fa) <-> exists e, In e l /\ e <> "" /\ names_control e s) /\
         (forall s, In s (fa_inst fa) <-> exists e, In e l /\ e <> "" /\ names_instrument e s)))).
Proof.
  intros f. unfold fa_open. split; [intros ->; reflexivity|]. intros raw ->. rewrite metadata_list_ok. split; [intros ->; reflexivity|].
  intros l ->. destruct (add_sources_spec l [] []) as [A1 A2]. split.
  - intros H. now rewrite (A1 H).
  - intros H. destruct (A2 H) as (c & i & -> & Hc & Hi). eexists. split; [reflexivity|]. cbn [fa_file fa_tids fa_ctrl fa_inst].
    split; [reflexivity|]. split; [reflexivity|]. split; intros s.
    + rewrite Hc. split; [intros [[]|X]; exact X|auto].
    + rewrite Hi. split; [intros [[]|X]; exact X|auto].
Qed.

(** Positions of the train IDs and of the index entries. *)
Lemma filter_all : forall A (p : A -> bool) l, Forall (fun x => p x = true) l -> filter p l = l.
Proof. intros A p l H. induction H as [|x l Hx Hl IH]; [reflexivity|]. simpl. now rewrite Hx, IH. Qed.
Lemma filter_zero : forall n, filter (fun t => negb (t =? 0)%Z) (repeat 0%Z n) = [].
Proof. induction n as [|n IH]; [reflexivity|exact IH]. Qed.
Theorem open_positions : forall (f : h5file V) fa raw, fa_open f = Ok fa -> h5_trainid f = Some raw ->
  (exists tids pad, raw = tids ++ repeat 0%Z pad /\ Forall (fun t => t <> 0)%Z tids) ->
  forall p t, nth_error (fa_tids fa) p = Some t <-> (nth_error raw p = Some t /\ t <> 0%Z).
Proof.
  intros f fa raw H Hraw (tids & pad & E & HF) p t. unfold fa_open in H. rewrite Hraw in H. apply bind_ok in H as ([c i] & _ & H).
  injection H as <-. cbn [fa_tids]. unfold nonzero_tids. rewrite E, filter_app, filter_zero, app_nil_r, filter_all.
  - split.
    + intros Hn. split; [|rewrite Forall_forall in HF; apply HF; eapply nth_error_In; exact Hn].
      rewrite nth_error_app1; [assumption|]. eapply nth_error_Some_lt; exact Hn.
    + intros [Hn Ht]. destruct (Nat.lt_ge_cases p (List.length tids)) as [Hlt|Hge].
      * now rewrite nth_error_app1 in Hn.
      * rewrite nth_error_app2 in Hn by assumption. apply nth_error_In in Hn. apply repeat_spec in Hn. contradiction.
  - eapply Forall_impl; [|exact HF]. intros x Hx. simpl in Hx. destruct (Z.eqb_spec x 0); [contradiction|reflexivity].
Qed.
(** ... and with a zero followed by another train ID the positions never agree. *)
Theorem open_positions_wrong : forall (f : h5file V) fa raw p q t, fa_open f = Ok fa -> h5_trainid f = Some raw ->
  NoDup (filter (fun t => negb (t =? 0)%Z) raw) ->
  nth_error raw p = Some 0%Z -> (p < q)%nat -> nth_error raw q = Some t -> t <> 0%Z ->
  forall q', nth_error (fa_tids fa) q' = Some t -> (q' < q)%nat.
Proof.
  intros f fa raw p q t H Hraw ND Hp Hpq Hq Ht q' Hq'. unfold fa_open in H. rewrite Hraw in H. apply bind_ok in H as ([c i] & _ & H).
  injection H as <-. cbn [fa_tids] in Hq'. unfold nonzero_tids in Hq'. clear -ND Hp Hpq Hq Ht Hq'.
  set (nz := fun t => negb (t =? 0)%Z) in *. revert p q q' ND Hp Hpq Hq Hq'.
  assert (G : forall raw q q', NoDup (filter nz raw) -> nth_error raw q = Some t -> nth_error (filter nz raw) q' = Some t -> (q' <= q)%nat).
  { clear raw. induction raw as [|x raw IH]; intros q q' ND Hq Hq'; [destruct q; discriminate|]. simpl in ND, Hq'. destruct (nz x) eqn:E.
    - destruct q' as [|q']; [lia|]. destruct q as [|q].
      + exfalso. injection Hq as ->. apply NoDup_cons_iff in ND as [ND _]. apply ND. simpl in Hq'. eapply nth_error_In; exact Hq'.
      + simpl in *. apply NoDup_cons_iff in ND as [_ ND]. apply le_n_S. eapply IH; eassumption.
    - destruct q as [|q].
      + exfalso. injection Hq as ->. unfold nz in E. destruct (Z.eqb_spec t 0); [contradiction|discriminate].
      + simpl in Hq. pose proof (IH q q' ND Hq Hq'). lia. }
  induction raw as [|x raw IH]; intros p q q' ND Hp Hpq Hq Hq'; [destruct q; discriminate|].
  destruct q as [|q]; [lia|]. simpl in Hq. destruct p as [|p].
  - injection Hp as ->. simpl in ND, Hq'. pose proof (G raw q q' ND Hq Hq'). lia.
  - simpl in Hp, ND, Hq'. destruct (nz x) eqn:E.
    + destruct q' as [|q']; [lia|]. simpl in Hq'. apply NoDup_cons_iff in ND as [_ ND]. apply (proj1 (Nat.succ_lt_mono q' q)). eapply IH; try eassumption. lia.
    + pose proof (IH p q q' ND Hp ltac:(lia) Hq Hq'). lia.
Qed.

(** Old format indexes. *)
Theorem old_index : forall (fa : faccess) s g firsts lasts status,
  dict_get (ix_path s g) (h5_index (fa_file fa)) = Some (mk_ix firsts (IxLastStatus lasts status)) ->
  let n := List.length (fa_tids fa) in
  (n <= List.length firsts)%nat -> (n <= List.length lasts)%nat -> (n <= List.length status)%nat ->
  exists counts, fa_get_index fa s g = Ok (firstn n firsts, counts) /\ List.length counts = n /\
    forall p a b st, (p < n)%nat -> nth_error firsts p = Some a -> nth_error lasts p = Some b -> nth_error status p = Some st ->
      u64_range a -> u64_range b ->
      (st = 0%Z -> nth_error counts p = Some 0%Z) /\
      (st = 1%Z -> (a <= b + 1)%Z -> (b - a + 1 < 2 ^ 64)%Z -> nth_error counts p = Some (b - a + 1)%Z).
Proof.
  intros fa s g firsts lasts status Hd n H1 H2 H3. unfold fa_get_index. rewrite Hd. cbn [ix_first ix_more]. fold n.
  destruct (@zip3_ok (fun last first st => u64 (u64 (u64 (last - first) + 1) * st)) (firstn n lasts) (firstn n firsts) (firstn n status))
    as (l & E & Hl & Hn); [rewrite !firstn_length; lia|rewrite !firstn_length; lia|].
  rewrite E. cbn [bind]. exists l. split; [reflexivity|]. split; [rewrite Hl, firstn_length; lia|].
  intros p a b st Hp Ha Hb Hst Ua Ub.
  assert (X : nth_error l p = Some (u64 (u64 (u64 (b - a) + 1) * st))).
  { apply Hn; rewrite nth_error_firstn; destruct (Nat.ltb_spec p n); try assumption; lia. }
  rewrite X. unfold u64, u64_range in *. split.
  - intros ->. f_equal. rewrite Z.mul_0_r. reflexivity.
  - intros -> Hab Hlt. f_equal. rewrite Z.mul_1_r, Zmod_mod, Zplus_mod_idemp_l. apply Z.mod_small. lia.
Qed.

(** from_paths *)
Theorem from_paths_spec : forall (l : list (res faccess)),
  let good := flat_map (fun r => match r with Ok f => [f] | Err _ => [] end) l in
  ((forall f, ~ In (Ok f) l) -> from_paths l = Err EException) /\
  ((exists f, In (Ok f) l) -> conflicting good -> from_paths l = Err EValueError) /\
  ((exists f, In (Ok f) l) -> ~ conflicting good -> exists d, from_paths l = Ok d /\ dc_files d = good /\
     (forall t, In t (dc_tids d) <-> exists f, In (Ok f) l /\ In t (fa_tids f)) /\ StronglySorted Z.lt (dc_tids d)).
Proof.
  intros l good.
  assert (Hin : forall f, In f good <-> In (Ok f) l).
  { intros f. unfold good. rewrite in_flat_map. split.
    - intros ([g|e] & H1 & H2); [destruct H2 as [->|[]]; assumption|destruct H2].
    - intros H. exists (Ok f). split; [assumption|now left]. }
  assert (E : from_paths l = match good with [] => Err EException | _ => mk_collection good None None end).
  { unfold from_paths. change (usable l) with good. destruct good; reflexivity. }
  rewrite E. split; [|split].
  - intros H. destruct good as [|f fs]; [reflexivity|]. exfalso. apply (H f). apply Hin. now left.
  - intros (f & Hf) Hc. destruct (conflict_spec good None None) as [C1 _]. destruct good; [apply Hin in Hf as []|]. now apply C1.
  - intros (f & Hf) Hc. destruct (conflict_spec good None None) as [_ C2]. destruct (C2 Hc) as (d & Hd). exists d.
    split; [destruct good; [apply Hin in Hf as []|exact Hd]|].
    apply mk_collection_inv in Hd as (F & _ & _ & T & _). split; [assumption|]. rewrite T. split; [|apply zsort_set_sorted].
    intros t. rewrite zsort_set_In, in_flat_map. split; intros (g & H1 & H2); exists g; (split; [now apply Hin|assumption]).
Qed.

(** The caches of FileAccess are invisible. *)
Definition cache_ok (fa : faccess) (c : fa_cache) : Prop :=
  (forall s g v, cache_ix_get s g (c_index c) = Some v -> fa_get_index fa s g = Ok v) /\
  (forall s v, dict_get s (c_keys c) = Some v -> fa_get_keys fa s = Ok v).
Definition uncached (fa : faccess) (x : fa_call) : fa_reply :=
  match x with CallIndex s g => RIndex (fa_get_index fa s g) | CallKeys s => RKeys (fa_get_keys fa s) end.
Theorem fa_cache_invisible : forall (fa : faccess) calls, fa_run fa fa_cache0 calls = map (uncached fa) calls.
Proof.
  intros fa calls.
  assert (G : forall calls c, cache_ok fa c -> fa_run fa c calls = map (uncached fa) calls);
    [|apply G; split; intros; discriminate].
  clear calls. induction calls as [|x calls IH]; intros c [H1 H2]; [reflexivity|]. cbn [fa_run map].
  destruct x as [s g|s]; cbn [fa_step uncached].
  - unfold get_index_c. destruct (cache_ix_get s g (c_index c)) as [v|] eqn:E.
    + rewrite (H1 _ _ _ E). rewrite IH; [reflexivity|split; assumption].
    + destruct (fa_get_index fa s g) as [v|e] eqn:E2; rewrite IH; try reflexivity; split; try assumption.
      intros s' g' v'. cbn [c_index cache_ix_get]. destruct (String.eqb_spec s' s) as [->|]; [destruct (String.eqb_spec g' g) as [->|]|]; cbn [andb].
      * intros X; injection X as <-. assumption.
      * apply H1.
      * apply H1.
  - unfold get_keys_c. destruct (dict_get s (c_keys c)) as [v|] eqn:E.
    + rewrite (H2 _ _ E). rewrite IH; [reflexivity|split; assumption].
    + destruct (fa_get_keys fa s) as [v|e] eqn:E2; rewrite IH; try reflexivity; split; try assumption.
      intros s' v'. cbn [c_keys dict_get]. destruct (String.eqb_spec s' s) as [->|]; [intros X; injection X as <-; assumption|apply H2].
Qed.
End O.

(** Names. *)
Lemma has_char_app : forall c a b, has_char c (a ++ b)%string <-> has_char c a \/ has_char c b.
Proof. intros c a b. induction a as [|x a IH]; simpl; [tauto|]. rewrite IH. tauto. Qed.
Lemma append_assoc_s : forall a b c, ((a ++ b) ++ c)%string = (a ++ (b ++ c))%string.
Proof. induction a as [|x a IH]; intros; simpl; [reflexivity|]. now rewrite IH. Qed.
Definition instrument_name (s : string) : Prop :=
  exists device chan, s = (device ++ ":" ++ chan)%string /\ ~ has_char ":" device /\ ~ has_char "/" chan.
Theorem control_roundtrip : forall s s', names_control ("CONTROL/" ++ s) s' <-> s' = s.
Proof.
  intros s s'. assert (H : names_control ("CONTROL/" ++ s) s).
  { split; [simpl; intuition discriminate|]. now left. }
  split; [|now intros ->]. intros H'. destruct (cut_fun H H') as [_ E]. now symmetry.
Qed.
Theorem instrument_roundtrip : forall s g s', instrument_name s ->
  (names_instrument ("INSTRUMENT/" ++ s ++ "/" ++ g) s' <-> s' = s).
Proof.
  intros s g s' (dev & chan & -> & Hd & Hc).
  assert (C1 : cut "/" ("INSTRUMENT/" ++ (dev ++ ":" ++ chan) ++ "/" ++ g) "INSTRUMENT" ((dev ++ ":" ++ chan) ++ "/" ++ g)).
  { split; [simpl; intuition discriminate|]. now left. }
  assert (C2 : cut ":" ((dev ++ ":" ++ chan) ++ "/" ++ g) dev (chan ++ "/" ++ g)).
  { split; [assumption|]. left. now rewrite append_assoc_s. }
  assert (C3 : cut "/" (chan ++ "/" ++ g) chan g).
  { split; [assumption|]. now left. }
  split.
  - intros (r & d2 & cg & c2 & g2 & H1 & H2 & H3 & ->). destruct (cut_fun C1 H1) as [_ <-]. destruct (cut_fun C2 H2) as [<- <-].
    destruct (cut_fun C3 H3) as [<- _]. reflexivity.
  - intros ->. do 5 eexists. split; [exact C1|]. split; [exact C2|]. split; [exact C3|reflexivity].
Qed.
Lemma names_instrument_name : forall e s, names_instrument e s -> instrument_name s.
Proof.
  intros e s (r & d & cg & c & g & H1 & [H2 _] & [H3 _] & ->). exists d, c. auto.
Qed.

Lemma replace_back : forall s, ~ has_char "." s -> py_replace dot slash (py_replace slash dot s) = s.
Proof.
  induction s as [|c s IH]; [reflexivity|]. simpl. intros H.
  unfold slash, dot in *. destruct (Ascii.eqb_spec c "/"%char) as [->|N].
  - simpl. rewrite IH by tauto. reflexivity.
  - destruct (Ascii.eqb_spec c "."%char) as [->|N2]; [exfalso; tauto|]. rewrite IH by tauto. reflexivity.
Qed.
Lemma strip_prefix_some : forall p s r, strip_prefix p s = Some r <-> s = (p ++ r)%string.
Proof.
  induction p as [|a p IH]; intros s r; simpl.
  - destruct s; split; congruence.
  - destruct s as [|b s]; [split; discriminate|]. destruct (Ascii.eqb_spec a b) as [->|N].
    + rewrite IH. split; [now intros ->|]. intros H; now injection H.
    + split; [discriminate|]. intros H. injection H as H _. congruence.
Qed.
Section K.
Context {V : Type}.
Lemma keys_below_spec : forall group (f : h5file V) k, In k (keys_below group f) <->
  exists rel ds, In ((group ++ "/" ++ rel)%string, ds) (h5_data f) /\ k = py_replace slash dot rel.
Proof.
  intros group f k. unfold keys_below.
  assert (G : forall l acc, In k (fold_left (fun acc (p : string * dataset V) =>
      match strip_prefix (group ++ "/")%string (fst p) with
      | Some rel => set_add (py_replace slash dot rel) acc | None => acc end) l acc) <->
      In k acc \/ exists rel ds, In ((group ++ "/" ++ rel)%string, ds) l /\ k = py_replace slash dot rel).
  { induction l as [|[p ds] l IH]; intros acc; cbn [fold_left fst].
    - split; [auto|]. intros [H|(r & ds & [] & _)]; exact H.
    - rewrite IH. destruct (strip_prefix (group ++ "/") p) as [rel|] eqn:E.
      + apply strip_prefix_some in E. rewrite append_assoc_s in E. rewrite set_add_In. split.
        * intros [[->|H]|(r & d & H & ->)]; [right; exists rel, ds; split; [left; now rewrite E|reflexivity]|now left|right; exists r, d; split; [now right|reflexivity]].
        * intros [H|(r & d & [H|H] & ->)]; [auto| |right; eauto]. left. left. injection H as H _. rewrite E in H.
          assert (H2 : strip_prefix (group ++ "/") (group ++ "/" ++ rel) = Some r).
          { apply strip_prefix_some. rewrite append_assoc_s. cbn [append] in *. congruence. }
          rewrite (proj2 (strip_prefix_some (group ++ "/") (group ++ "/" ++ rel) rel)) in H2 by (now rewrite append_assoc_s).
          injection H2 as ->. reflexivity.
      + split.
        * intros [H|(r & d & H & ->)]; [now left|right; exists r, d; split; [now right|reflexivity]].
        * intros [H|(r & d & [H|H] & ->)]; [auto| |right; eauto]. exfalso.
          assert (H2 : strip_prefix (group ++ "/") p = Some r).
          { apply strip_prefix_some. rewrite append_assoc_s. cbn [append] in *. congruence. }
          congruence. }
  rewrite G. split; [intros [[]|H]; exact H|auto].
Qed.

(** Every key found can be read back, if the dataset names have no dots. *)
Theorem keys_readable : forall (fa : faccess V) s ks k, fa_get_keys fa s = Ok ks -> In k ks ->
  (forall section rel ds, In ((section ++ "/" ++ s ++ "/" ++ rel)%string, ds) (h5_data (fa_file fa)) -> ~ has_char "." rel) ->
  exists ds, fa_dataset fa (ds_path (if str_in s (fa_ctrl fa) then "CONTROL" else "INSTRUMENT") s k) = Ok ds.
Proof.
  intros fa s ks k H Hk Hdot. unfold fa_get_keys in H.
  assert (X : In k (keys_below ((if str_in s (fa_ctrl fa) then "CONTROL" else "INSTRUMENT") ++ "/" ++ s) (fa_file fa))).
  { destruct (str_in s (fa_ctrl fa)); [injection H as <-; assumption|]. destruct (str_in s (fa_inst fa)); [injection H as <-; assumption|discriminate]. }
  apply keys_below_spec in X as (rel & ds & Hin & ->). rewrite append_assoc_s in Hin. cbn [append] in Hin.
  assert (Hd := Hdot (if str_in s (fa_ctrl fa) then "CONTROL" else "INSTRUMENT") rel ds). 
  assert (E : ((if str_in s (fa_ctrl fa) then "CONTROL" else "INSTRUMENT") ++ String "/" (s ++ "/" ++ rel))%string =
              ds_path (if str_in s (fa_ctrl fa) then "CONTROL" else "INSTRUMENT") s (py_replace slash dot rel)).
  { unfold ds_path. rewrite replace_back; [reflexivity|]. apply Hd. exact Hin. }
  cbn [append] in E. rewrite E in Hin.
  unfold fa_dataset. destruct (dict_get (ds_path (if str_in s (fa_ctrl fa) then "CONTROL" else "INSTRUMENT") s (py_replace slash dot rel)) (h5_data (fa_file fa))) as [d|] eqn:Eg; [eauto|].
  exfalso. apply dict_get_none in Eg. apply Eg. unfold dict_keys. apply in_map_iff. now exists (ds_path (if str_in s (fa_ctrl fa) then "CONTROL" else "INSTRUMENT") s (py_replace slash dot rel), ds).
Qed.
End K.
