(** Proofs about open file handles. *)
From Verif Require Import Base PyStr M_Files M_Machinery M_Reader M_Series M_Handles S_Handles L_Base L_GetArray.
Set Implicit Arguments.
Unset Strict Implicit.
Local Open Scope string_scope.
Local Open Scope list_scope.

Section H.
Context {V : Type}.
Notation dataset := (dataset V).
Notation faccess := (faccess V).
Notation dcoll := (dcoll V).
Notation src_data := (src_data V).
Notation tval := (tval V).
Variable U : list faccess.
Hypothesis HU : one_each U.

Definition good (st : hst) : Prop := forall f, In f U ->
  (forall s g v, cache_ix_get s g (c_index (h_caches st (fname f))) = Some v -> fa_get_index f s g = Ok v) /\
  (forall s v, dict_get s (c_keys (h_caches st (fname f))) = Some v -> fa_get_keys f s = Ok v).
Definition grows (st st' : hst) : Prop := (h_next st <= h_next st')%nat /\ forall n h, h_open st' n = Some h -> h_open st n = Some h \/ (h_next st <= h < h_next st')%nat.
Definition mono (st st' : hst) : Prop := ((forall n h, h_open st n = Some h -> h_open st' n = Some h) /\ grows st st') /\ h_there st' = h_there st.
Definition unav (fs : list faccess) (st : hst) : Prop := exists f, In f fs /\ h_open st (fname f) = None /\ h_there st (fname f) = false.

Lemma grows_refl st : grows st st. Proof. split; auto. Qed.
Lemma mono_refl st : mono st st. Proof. split; [split; [auto|apply grows_refl]|auto]. Qed.
Lemma mono_caches st c : mono st (mk_hst (h_open st) (h_next st) (h_there st) c).
Proof. split; [split; [auto|split; auto]|auto]. Qed.
Lemma mono_trans a b c : mono a b -> mono b c -> mono a c.
Proof.
  intros [[A1 [A3 A4]] A2] [[B1 [B3 B4]] B2]. split; [split; [auto|]|congruence]. split; [lia|]. intros n h H. destruct (B4 n h H) as [H1|H1]; [|right; lia].
  destruct (A4 n h H1) as [H2|H2]; [now left|right; lia].
Qed.
Lemma unav_mono fs st st' : mono st st' -> unav fs st' -> unav fs st.
Proof.
  intros [[M1 _] M2] (f & Hf & H1 & H2). exists f. split; [exact Hf|]. rewrite M2 in H2. split; [|exact H2].
  destruct (h_open st (fname f)) eqn:E; [|reflexivity]. apply M1 in E. congruence.
Qed.
Lemma unav_incl fs fs' st : incl fs fs' -> unav fs st -> unav fs' st.
Proof. intros I (f & Hf & H). exists f. auto. Qed.
Lemma valid_mono st st' (o : @dsobj V) : mono st st' -> valid_obj st o = true -> valid_obj st' o = true.
Proof. intros [[M _] _]. unfold valid_obj. destruct (h_open st (do_name o)) eqn:E; [|discriminate]. rewrite (M _ _ E). auto. Qed.

(** A reading through handles, the value it should have, and when it can be otherwise. *)
Definition simR {A B} (R : hst -> A -> B -> Prop) (fs : list faccess) (m : hm A) (r : res B) : Prop :=
  forall st, good st -> let '(r', st') := m st in good st' /\ mono st st' /\
    (match r', r with Ok a, Ok b => R st' a b | Err e, Err e' => e = e' | _, _ => False end \/ (r' = Err EOSError /\ unav fs st)).
Definition sim {A} := @simR A A (fun _ => eq).
Definition stable {A B} (R : hst -> A -> B -> Prop) := forall st st' a b, mono st st' -> R st a b -> R st' a b.
Lemma simR_ret A B (R : hst -> A -> B -> Prop) fs r r' : (forall st, match r, r' with Ok a, Ok b => R st a b | Err e, Err e' => e = e' | _, _ => False end) -> simR R fs (hret r) r'.
Proof. intros H st G. cbn. split; [exact G|]. split; [apply mono_refl|]. left. apply H. Qed.
Lemma sim_ret A fs (r : res A) : sim fs (hret r) r.
Proof. apply simR_ret. intros _. destruct r; reflexivity. Qed.
Lemma simR_bind A B C D (R : hst -> A -> B -> Prop) (Q : hst -> C -> D -> Prop) fs m r k k' : simR R fs m r ->
  (forall a b st, R st a b -> r = Ok b -> good st -> let '(r', st') := k a st in good st' /\ mono st st' /\
     (match r', k' b with Ok a, Ok b => Q st' a b | Err e, Err e' => e = e' | _, _ => False end \/ (r' = Err EOSError /\ unav fs st))) ->
  simR Q fs (hbind m k) (bind r k').
Proof.
  intros H K st G. specialize (H st G). unfold hbind. destruct (m st) as [r1 st1]. destruct H as (G1 & M1 & H).
  destruct r1 as [a|e].
  - destruct H as [H|[H _]]; [|discriminate]. destruct r as [b|]; [|contradiction]. specialize (K a b st1 H eq_refl G1). destruct (k a st1) as [r2 st2]. cbn [bind].
    destruct K as (G2 & M2 & K). split; [exact G2|]. split; [exact (mono_trans M1 M2)|]. destruct K as [K|[K1 K2]]; [left; exact K|right]. split; [exact K1|]. exact (unav_mono M1 K2).
  - split; [exact G1|]. split; [exact M1|]. destruct H as [H|[H1 H2]]; [|injection H1 as ->; right; split; [reflexivity|exact H2]]. destruct r; [contradiction|]. left. exact H.
Qed.
Lemma sim_bind A B (Q : Type) (R : hst -> B -> Q -> Prop) fs (m : hm A) r (k : A -> hm B) (k' : A -> res Q) : sim fs m r -> (forall a, r = Ok a -> simR R fs (k a) (k' a)) -> simR R fs (hbind m k) (bind r k').
Proof. intros H K. apply (simR_bind H). intros a b st -> E G. exact (K b E st G). Qed.
Lemma simR_weaken A B (R : hst -> A -> B -> Prop) fs fs' m r : incl fs fs' -> simR R fs m r -> simR R fs' m r.
Proof.
  intros I H st G. specialize (H st G). destruct (m st) as [r' st']. destruct H as (G1 & M & H). split; [exact G1|]. split; [exact M|].
  destruct H as [H|[H1 H2]]; [left; exact H|right]. split; [exact H1|]. exact (unav_incl I H2).
Qed.
Lemma simR_map A B C (R : hst -> B -> C -> Prop) fs (f : A -> hm B) (g : A -> res C) l : stable R -> (forall x, In x l -> simR R fs (f x) (g x)) ->
  simR (fun st => Forall2 (R st)) fs (mapH f l) (mapM g l).
Proof.
  intros SR. induction l as [|x l IH]; intros H.
  - apply simR_ret. intros st. constructor.
  - cbn [mapH mapM]. apply (simR_bind (H x (or_introl eq_refl))). intros a b st Rab Eb G.
    assert (IH' := IH (fun y Hy => H y (or_intror Hy))). unfold hbind. specialize (IH' st G). destruct (mapH f l st) as [r1 st1]. destruct IH' as (G1 & M1 & I).
    destruct r1 as [ys|e].
    + destruct I as [I|[I _]]; [|discriminate]. destruct (mapM g l) as [zs|]; [|contradiction]. cbn [bind hret]. split; [exact G1|]. split; [exact M1|]. left. constructor; [exact (SR _ _ _ _ M1 Rab)|exact I].
    + split; [exact G1|]. split; [exact M1|]. destruct I as [I|[I1 I2]]; [|injection I1 as ->; right; split; [reflexivity|exact I2]]. destruct (mapM g l); [contradiction|]. left. exact I.
Qed.
Lemma sim_map A B fs (f : A -> hm B) g l : (forall x, In x l -> sim fs (f x) (g x)) -> sim fs (mapH f l) (mapM g l).
Proof.
  intros H. assert (X := @simR_map A B B (fun _ => eq) fs f g l (fun st st' a b _ E => E) H). intros st G. specialize (X st G). destruct (mapH f l st) as [r st']. destruct X as (G' & M & X).
  split; [exact G'|]. split; [exact M|]. destruct X as [X|X]; [left|right; exact X]. destruct r, (mapM g l); try contradiction; [|exact X]. clear - X. induction X; [reflexivity|congruence].
Qed.

(** ** Files, datasets, caches *)
Lemma file_ok f st : good st -> let '(r, st') := file_h f st in good st' /\ mono st st' /\ h_caches st' = h_caches st /\
  match r with Ok h => h_open st' (fname f) = Some h | Err e => e = EOSError /\ unav [f] st end.
Proof.
  intros G. unfold file_h. destruct (h_open st (fname f)) as [h|] eqn:E; [split; [exact G|]; split; [apply mono_refl|]; auto|].
  destruct (h_there st (fname f)) eqn:T.
  - split; [exact G|]. split; [|split; [reflexivity|]].
    + split; [split|reflexivity]; cbn.
      * intros n h H. unfold upd. destruct (String.eqb_spec n (fname f)) as [->|]; [congruence|exact H].
      * split; cbn; [lia|]. intros n h H. unfold upd in H. destruct (String.eqb_spec n (fname f)) as [->|]; [injection H as <-; right; lia|now left].
    + cbn. unfold upd. rewrite String.eqb_refl. reflexivity.
  - split; [exact G|]. split; [apply mono_refl|]. split; [reflexivity|]. split; [reflexivity|]. exists f. cbn. auto.
Qed.
Definition obj_is (fs : list faccess) (st : hst) (o : dsobj) (ds : dataset) : Prop :=
  valid_obj st o = true /\ do_ds o = ds /\ exists f, In f fs /\ do_name o = fname f.
Lemma obj_stable fs : stable (obj_is fs).
Proof. intros st st' o ds M (H1 & H2). split; [exact (valid_mono M H1)|exact H2]. Qed.
Lemma dataset_ok fs f path : In f fs -> simR (obj_is fs) fs (dataset_h f path) (fa_dataset f path).
Proof.
  intros Hf st G. unfold dataset_h, hbind. assert (F := @file_ok f st G). destruct (file_h f st) as [r st1]. destruct F as (G1 & M1 & _ & F). destruct r as [h|e].
  - cbn. split; [exact G1|]. split; [exact M1|]. left. destruct (fa_dataset f path) as [ds|]; cbn; [|reflexivity]. split; [|split; [reflexivity|exists f; auto]].
    unfold valid_obj. cbn. rewrite F. apply Nat.eqb_refl.
  - destruct F as [-> F]. split; [exact G1|]. split; [exact M1|]. right. split; [reflexivity|]. apply (@unav_incl [f]); [|exact F]. intros x [<-|[]]. exact Hf.
Qed.
Lemma use_ok A fs fs' st (o : dsobj) ds (g : dataset -> res A) : obj_is fs' st o ds -> good st -> let '(r', st') := use_h o g st in good st' /\ mono st st' /\
  (match r', g ds with Ok a, Ok b => a = b | Err e, Err e' => e = e' | _, _ => False end \/ (r' = Err EOSError /\ unav fs st)).
Proof. intros (H1 & <- & _) G. unfold use_h. rewrite H1. split; [exact G|]. split; [apply mono_refl|]. left. destruct (g (do_ds o)); reflexivity. Qed.
Lemma sim_use A fs f path (g : dataset -> res A) : In f fs -> sim fs (hbind (dataset_h f path) (fun o => use_h o g)) (let* ds := fa_dataset f path in g ds).
Proof. intros Hf. apply (simR_bind (@dataset_ok fs f path Hf)). intros o ds st H _ G. exact (@use_ok A fs fs st o ds g H G). Qed.

Lemma index_ok fs f s g : In f U -> In f fs -> sim fs (get_index_h f s g) (fa_get_index f s g).
Proof.
  intros HfU Hf st G. unfold get_index_h. destruct (cache_ix_get s g (c_index (h_caches st (fname f)))) as [v|] eqn:E.
  - split; [exact G|]. split; [apply mono_refl|]. left. rewrite (proj1 (G f HfU) s g v E). reflexivity.
  - unfold hbind. assert (F := @file_ok f st G). destruct (file_h f st) as [r st1]. destruct F as (G1 & M1 & C1 & F). destruct r as [h|e].
    2:{ destruct F as [-> F]. split; [exact G1|]. split; [exact M1|]. right. split; [reflexivity|]. apply (@unav_incl [f]); [|exact F]. intros x [<-|[]]. exact Hf. }
    unfold get_index_c. rewrite C1, E. destruct (fa_get_index f s g) as [v|e] eqn:Ev.
    + split; [|split; [exact (mono_trans M1 (mono_caches _ _))|left; reflexivity]].
      intros f' Hf'. cbn. unfold upd. destruct (String.eqb_spec (fname f') (fname f)) as [En|].
      * assert (f' = f) by (apply HU; assumption). subst f'. cbn. split; [|exact (proj2 (G f HfU))]. intros s' g' v'.
        destruct (String.eqb_spec s' s) as [->|]; [destruct (String.eqb_spec g' g) as [->|]|]; cbn; try (intros X; exact (proj1 (G f HfU) _ _ _ X)). intros X; injection X as <-. exact Ev.
      * exact (G f' Hf').
    + split; [|split; [exact (mono_trans M1 (mono_caches _ _))|left; reflexivity]].
      intros f' Hf'. cbn. unfold upd. destruct (String.eqb_spec (fname f') (fname f)) as [En|]; [|exact (G f' Hf')].
      assert (f' = f) by (apply HU; assumption). subst f'. exact (G f HfU).
Qed.
Lemma keys_ok fs f s : In f U -> In f fs -> sim fs (get_keys_h f s) (fa_get_keys f s).
Proof.
  intros HfU Hf st G. unfold get_keys_h. destruct (dict_get s (c_keys (h_caches st (fname f)))) as [v|] eqn:E.
  - split; [exact G|]. split; [apply mono_refl|]. left. rewrite (proj2 (G f HfU) s v E). reflexivity.
  - destruct (negb (str_in s (fa_ctrl f)) && negb (str_in s (fa_inst f))) eqn:B.
    { split; [exact G|]. split; [apply mono_refl|]. left. unfold fa_get_keys. apply andb_true_iff in B as [B1 B2]. apply negb_true_iff in B1, B2. rewrite B1, B2. reflexivity. }
    unfold hbind. assert (F := @file_ok f st G). destruct (file_h f st) as [r st1]. destruct F as (G1 & M1 & C1 & F). destruct r as [h|e].
    2:{ destruct F as [-> F]. split; [exact G1|]. split; [exact M1|]. right. split; [reflexivity|]. apply (@unav_incl [f]); [|exact F]. intros x [<-|[]]. exact Hf. }
    unfold get_keys_c. rewrite C1, E. destruct (fa_get_keys f s) as [v|e] eqn:Ev.
    + split; [|split; [exact (mono_trans M1 (mono_caches _ _))|left; reflexivity]].
      intros f' Hf'. cbn. unfold upd. destruct (String.eqb_spec (fname f') (fname f)) as [En|].
      * assert (f' = f) by (apply HU; assumption). subst f'. cbn. split; [exact (proj1 (G f HfU))|]. intros s' v'.
        destruct (String.eqb_spec s' s) as [->|]; cbn; [|intros X; exact (proj2 (G f HfU) _ _ X)]. intros X; injection X as <-. exact Ev.
      * exact (G f' Hf').
    + split; [|split; [exact (mono_trans M1 (mono_caches _ _))|left; reflexivity]].
      intros f' Hf'. cbn. unfold upd. destruct (String.eqb_spec (fname f') (fname f)) as [En|]; [|exact (G f' Hf')].
      assert (f' = f) by (apply HU; assumption). subst f'. exact (G f HfU).
Qed.

(** ** Reading a collection *)
Section D.
Variable d : dcoll.
Hypothesis HD : incl (dc_files d) U.
Let fs := dc_files d.

Lemma source_in s f : In f (source_files (dc_files d) s) -> In f U /\ In f fs.
Proof. intros H. apply source_files_In in H. destruct H as [H _]. split; [exact (HD H)|exact H]. Qed.
Lemma found_in s t f p : find_data d s t = Some (f, p) -> In f U /\ In f fs.
Proof.
  unfold find_data. intros H. apply (source_in (s:=s)). revert H. generalize (source_files (dc_files d) s). induction l as [|x l IH]; cbn; [discriminate|].
  destruct (tid_positions x t) as [|q ?]; [intros H; right; exact (IH H)|]. intros H. injection H as <- _. now left.
Qed.
Lemma keys_source_ok s : sim fs (keys_for_source_h d s) (keys_for_source d s).
Proof.
  unfold keys_for_source_h, keys_for_source. destruct (dict_get s (dc_sel d)) as [[ks|]|]; try apply sim_ret.
  assert (X := source_in (s:=s)). destruct (source_files (dc_files d) s) as [|f l]; [apply sim_ret|]. destruct (X f (or_introl eq_refl)). now apply keys_ok.
Qed.
Lemma check_field_ok s k : sim fs (check_field_h d s k) (check_field d s k).
Proof.
  unfold check_field_h, check_field. destruct (negb _); [apply sim_ret|]. apply (sim_bind (keys_source_ok s)). intros ks _. apply sim_ret.
Qed.
Lemma collect_ok (f : string -> hm (option tval)) g ks : (forall k, In k ks -> sim fs (f k) (g k)) -> sim fs (collect_h f ks) (collect_keys g ks).
Proof.
  induction ks as [|k ks IH]; intros H; [apply sim_ret|]. cbn [collect_h collect_keys]. apply (sim_bind (H k (or_introl eq_refl))). intros o _.
  apply (sim_bind (IH (fun x Hx => H x (or_intror Hx)))). intros rest _. apply sim_ret.
Qed.
Lemma ctrl_key_ok f p s k : In f fs -> sim fs (ctrl_key_h f p s k) (let* v := ctrl_key f p s k in Ok (Some v)).
Proof.
  intros Hf. unfold ctrl_key_h, ctrl_key. assert (X := @sim_use _ fs f (ds_path "CONTROL" s k) (fun ds : dataset => let* v := ds_at ds (Z.of_nat p) in Ok (Some (One v))) Hf).
  intros st G. specialize (X st G). destruct (hbind _ _ st) as [r st']. destruct X as (G' & M & X). split; [exact G'|]. split; [exact M|]. destruct X as [X|X]; [left|right; exact X].
  destruct (fa_dataset f (ds_path "CONTROL" s k)) as [ds|]; cbn [bind] in *; [|exact X]. destruct (ds_at ds (Z.of_nat p)); cbn [bind] in *; exact X.
Qed.
Lemma inst_key_ok f p s k : In f U -> In f fs -> sim fs (inst_key_h f p s k) (inst_key f p s k).
Proof.
  intros HfU Hf. unfold inst_key_h, inst_key. apply (sim_bind (index_ok s (key_group k) HfU Hf)). intros ix _.
  assert (E : forall B (h : Z * Z -> res B), bind (let* first := nth_res (fst ix) p in let* count := nth_res (snd ix) p in Ok (first, count)) h =
     (let* first := nth_res (fst ix) p in let* count := nth_res (snd ix) p in h (first, count))).
  { intros B h. destruct (nth_res (fst ix) p); cbn [bind]; [|reflexivity]. destruct (nth_res (snd ix) p); reflexivity. }
  assert (E2 := E (option tval) (fun fc => if (snd fc =? 0)%Z then Ok None else let* ds := fa_dataset f (ds_path "INSTRUMENT" s k) in
     if (snd fc =? 1)%Z then let* v := ds_at ds (fst fc) in Ok (Some (One v)) else Ok (Some (Many (ds_slice ds (fst fc) (fst fc + snd fc)))))). cbn [fst snd] in E2. rewrite <- E2.
  apply sim_bind; [apply sim_ret|]. intros fc _. destruct (snd fc =? 0)%Z; [apply sim_ret|]. apply sim_use. exact Hf.
Qed.
Theorem train_ok t : sim fs (train_from_id_h d t) (train_from_id d t).
Proof.
  unfold train_from_id_h, train_from_id. destruct (negb _); [apply sim_ret|].
  apply sim_bind.
  { apply sim_map. intros s _. unfold source_data_h, ctrl_source_data. destruct (find_data d s t) as [[f p]|] eqn:E; [|apply sim_ret]. destruct (found_in E).
    apply (sim_bind (keys_source_ok s)). intros ks _. apply sim_bind; [|intros kv _; apply sim_ret]. apply collect_ok. intros k _. now apply ctrl_key_ok. }
  intros c _. apply sim_bind; [|intros i _; apply sim_ret].
  apply sim_map. intros s _. unfold source_data_h, inst_source_data. destruct (find_data d s t) as [[f p]|] eqn:E; [|apply sim_ret]. destruct (found_in E).
  apply (sim_bind (keys_source_ok s)). intros ks _. apply sim_bind; [|intros kv _; apply sim_ret]. apply collect_ok. intros k _. now apply inst_key_ok.
Qed.

(** ** Arrays *)
Lemma chunks_ok s k : sim fs (sorted_chunks_h d s k) (sorted_chunks d s k).
Proof.
  unfold sorted_chunks_h, sorted_chunks, find_data_chunks. set (g := if str_in s (dc_inst d) then key_group k else "").
  assert (E : (let* l := (let* l := mapM (file_chunks (dc_tids d) s g) (source_files (dc_files d) s) in Ok (List.concat l)) in Ok (sort_key (@chunk_key V) l)) =
    (let* l := mapM (file_chunks (dc_tids d) s g) (source_files (dc_files d) s) in Ok (sort_key (@chunk_key V) (List.concat l)))) by (destruct (mapM _ _); reflexivity).
  rewrite E. apply sim_bind; [|intros l _; apply sim_ret]. apply sim_map. intros f Hf. destruct (source_in Hf) as [H1 H2].
  unfold file_chunks_h, file_chunks. apply (sim_bind (index_ok s g H1 H2)). intros [firsts counts] _. apply sim_ret.
Qed.
Lemma file_chunks_file l s g (f : faccess) c : file_chunks l s g f = Ok c -> forall x, In x c -> ch_file x = f.
Proof.
  unfold file_chunks. intros H x Hx. apply bind_ok in H as ([firsts counts] & _ & H). apply bind_ok in H as (rg & _ & H). destruct rg as [|r0 rg].
  - injection H as <-. destruct Hx as [<-|[]]. reflexivity.
  - apply mapM_ok_iff in H. revert x Hx. induction H as [|[a b] y l1 l2 H _ IH]; intros x Hx; [destruct Hx|]. destruct Hx as [<-|Hx]; [|exact (IH x Hx)].
    apply bind_ok in H as (fst0 & _ & H). injection H as <-. reflexivity.
Qed.
Lemma chunk_file s k chunks c : sorted_chunks d s k = Ok chunks -> In c chunks -> In (ch_file c) fs.
Proof.
  unfold sorted_chunks, find_data_chunks. intros H Hc. apply bind_ok in H as (l & H & E). injection E as <-. apply bind_ok in H as (ll & H & E). injection E as <-.
  apply (Permutation_in _ (Permutation_sym (sort_key_perm (@chunk_key V) (List.concat ll)))) in Hc. apply in_concat in Hc as (x & Hx & Hc).
  apply mapM_ok_iff in H. assert (X : forall f, In f (source_files (dc_files d) s) -> In f fs) by (intros f Hf; exact (proj2 (source_in Hf))). clear - H X Hx Hc.
  induction H as [|f y l1 l2 H _ IH]; [destruct Hx|]. destruct Hx as [->|Hx].
  - rewrite (file_chunks_file H Hc). apply X. now left.
  - apply IH; [exact Hx|]. intros f' Hf'. apply X. now right.
Qed.
Lemma ch_obj s k (c : chunk V) : In (ch_file c) fs -> simR (obj_is fs) fs (ch_dataset_h s k c) (ch_dataset s k c).
Proof.
  intros Hc. unfold ch_dataset_h, ch_dataset. destruct (str_in s (fa_inst (ch_file c))); [now apply dataset_ok|]. destruct (str_in s (fa_ctrl (ch_file c))); [now apply dataset_ok|].
  apply simR_ret. reflexivity.
Qed.
Lemma ch_use A s k (c : chunk V) (g : dataset -> res A) : In (ch_file c) fs -> sim fs (hbind (ch_dataset_h s k c) (fun o => use_h o g)) (let* ds := ch_dataset s k c in g ds).
Proof. intros Hc. apply (simR_bind (ch_obj s k Hc)). intros o ds st H _ G. exact (@use_ok A fs fs st o ds g H G). Qed.
Theorem array_ok s k : sim fs (get_array_h d s k) (get_array d s k).
Proof.
  unfold get_array_h, get_array. apply (sim_bind (check_field_ok s k)). intros _ _. apply (sim_bind (chunks_ok s k)). intros chunks E.
  apply sim_bind.
  { apply sim_map. intros c Hc. assert (X := @ch_use dataset s k c (fun ds => Ok ds) (chunk_file E Hc)). intros st G. specialize (X st G). destruct (hbind _ _ st) as [r st'].
    destruct X as (G' & M & X). split; [exact G'|]. split; [exact M|]. destruct (ch_dataset s k c); exact X. }
  intros dss _. apply sim_bind; [apply sim_ret|]. intros ty _. apply sim_bind; [|intros parts _; apply sim_ret].
  apply sim_map. intros c Hc. unfold read_chunk_h, read_chunk. destruct (zsum (ch_counts c) =? 0)%Z; [apply sim_ret|]. apply ch_use. exact (chunk_file E Hc).
Qed.

(** ** Lazy arrays *)
Definition lazy_is (st : hst) (p : lazy_part) (q : list Z * string * list V) : Prop :=
  (exists ds, obj_is fs st (lp_obj p) ds) /\ fst (fst q) = ds_item (do_ds (lp_obj p)) /\
  snd q = ds_slice (do_ds (lp_obj p)) (lp_first p) (lp_first p + lp_rows p).
Theorem dask_ok isz s k : simR (fun st parts rows => (forall p, In p parts -> exists q, lazy_is st p q) /\
    List.concat (map (fun p => ds_slice (do_ds (lp_obj p)) (lp_first p) (lp_first p + lp_rows p)) parts) = rows) fs
  (get_dask_h isz d s k) (get_dask_array isz d s k).
Proof.
  unfold get_dask_h, get_dask_array. apply (sim_bind (chunks_ok s k)). intros chunks E.
  assert (X : simR (fun st => Forall2 (lazy_is st)) fs (mapH (dask_chunk_h isz s k) chunks) (mapM (dask_chunk isz s k) chunks)).
  { apply simR_map.
    - intros st st' p q M ((ds & H1) & H2). split; [|exact H2]. exists ds. exact (obj_stable M H1).
    - intros c Hc. unfold dask_chunk_h, dask_chunk. apply (simR_bind (ch_obj s k (chunk_file E Hc))). intros o ds st Ho _ G. unfold use_h. destruct Ho as (H1 & <- & H3). rewrite H1.
      split; [exact G|]. split; [apply mono_refl|]. left. destruct (dask_block _ _ _ _) as [b|]; cbn [bind]; [|reflexivity].
      destruct ((b =? 0) && _)%Z; [reflexivity|]. split; [exists (do_ds o); split; [exact H1|split; [reflexivity|exact H3]]|]. split; reflexivity. }
  apply (simR_bind X). intros parts qs st F _ G. cbn. split; [exact G|]. split; [apply mono_refl|]. left.
  destruct F as [|p q ps qs Hp F]; [reflexivity|].
  assert (EQ : forallb (fun q0 => zlist_eqb (ds_item (do_ds (lp_obj p))) (ds_item (do_ds (lp_obj q0)))) ps = forallb (fun q0 => zlist_eqb (fst (fst q)) (fst (fst q0))) qs).
  { destruct Hp as (_ & -> & _). clear - F. induction F as [|a b l1 l2 H _ IH]; [reflexivity|]. cbn [forallb]. rewrite IH. destruct H as (_ & -> & _). reflexivity. }
  rewrite EQ. destruct (forallb _ qs); [|reflexivity]. split.
  - intros x [<-|Hx]; [eauto|]. clear - F Hx. induction F as [|a b l1 l2 H _ IH]; [destruct Hx|]. destruct Hx as [<-|Hx]; [eauto|auto].
  - assert (F' := Forall2_cons _ _ Hp F). clear - F'. induction F' as [|a b l1 l2 H _ IH]; [reflexivity|]. cbn [map List.concat flat_map]. rewrite IH. f_equal. destruct H as (_ & _ & ->). reflexivity.
Qed.
End D.
End H.
