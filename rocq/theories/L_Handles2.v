(** Iterators and histories. *)
From Verif Require Import Base PyStr M_Files M_Machinery M_Reader M_Series M_Handles S_Handles L_Base L_GetArray L_Handles.
Set Implicit Arguments.
Unset Strict Implicit.
Local Open Scope string_scope.
Local Open Scope list_scope.

Section I.
Context {V : Type}.
Notation dataset := (dataset V).
Notation faccess := (faccess V).
Notation dcoll := (dcoll V).
Notation src_data := (src_data V).
Notation tval := (tval V).
Notation hcache := (@hcache V).
Variable U : list faccess.
Hypothesis HU : one_each U.
Variable d : dcoll.
Hypothesis HD : incl (dc_files d) U.
Let fs := dc_files d.

Definition erase (c : hcache) : it_cache V := map (fun e => (fst e, (fst (snd e), do_ds (snd (snd e))))) c.
Definition okc (c : hcache) : Prop := forall e, In e c -> In (fst (snd e)) fs /\ do_name (snd (snd e)) = fname (fst (snd e)).
Definition stale (c : hcache) (st : hst) : Prop := exists e, In e c /\ valid_obj st (snd (snd e)) = false.
Lemma stale_mono c st st' : mono st st' -> stale c st' -> stale c st.
Proof.
  intros M (e & He & H). exists e. split; [exact He|]. destruct (valid_obj st (snd (snd e))) eqn:E; [|reflexivity]. rewrite (valid_mono M E) in H. discriminate.
Qed.
Lemma hlookup_erase s k c : it_lookup s k (erase c) = match hlookup s k c with Some (f, o) => Some (f, do_ds o) | None => None end.
Proof.
  induction c as [|[[s' k'] [f o]] c IH]; [reflexivity|]. cbn [erase map it_lookup hlookup fst snd]. destruct (String.eqb s s' && String.eqb k k'); [reflexivity|exact IH].
Qed.
Lemma hlookup_In s k (c : hcache) f o : hlookup s k c = Some (f, o) -> In (s, k, (f, o)) c.
Proof.
  induction c as [|[[s' k'] [f' o']] c IH]; [discriminate|]. cbn [hlookup]. destruct (String.eqb_spec s s') as [->|]; [destruct (String.eqb_spec k k') as [->|]|]; cbn [andb].
  - intros H. injection H as -> ->. now left.
  - intros H. right. auto.
  - intros H. right. auto.
Qed.

Definition simI {A} (m : im A) (p : it_cache V -> res A * it_cache V) : Prop :=
  forall c st, good U st -> okc c -> let '(r', c', st') := m c st in
    good U st' /\ mono st st' /\ okc c' /\ (stale c' st' -> stale c st) /\
    ((r' = fst (p (erase c)) /\ erase c' = snd (p (erase c))) \/ (r' = Err EOSError /\ unav fs st) \/ (r' = Err EValueError /\ stale c st)).
Definition pret {A} (r : res A) : it_cache V -> res A * it_cache V := fun c => (r, c).
Definition pbind {A B} (p : it_cache V -> res A * it_cache V) (k : A -> it_cache V -> res B * it_cache V) : it_cache V -> res B * it_cache V :=
  fun c => match p c with (Ok a, c') => k a c' | (Err e, c') => (Err e, c') end.
Lemma simI_ret A (r : res A) : simI (iret r) (pret r).
Proof. intros c st G K. cbn. split; [exact G|]. split; [apply mono_refl|]. auto. Qed.
Lemma simI_bind A B (m : im A) p (k : A -> im B) q : simI m p -> (forall a, simI (k a) (q a)) -> simI (ibind m k) (pbind p q).
Proof.
  intros H K c st G C. specialize (H c st G C). unfold ibind, pbind. destruct (m c st) as [[r1 c1] st1]. destruct H as (G1 & M1 & C1 & S1 & H).
  destruct r1 as [a|e].
  - destruct H as [[H1 H2]|[[H _]|[H _]]]; [|discriminate|discriminate]. destruct (p (erase c)) as [r0 c0]. cbn [fst snd] in H1, H2. subst r0 c0.
    specialize (K a c1 st1 G1 C1). destruct (k a c1 st1) as [[r2 c2] st2]. destruct K as (G2 & M2 & C2 & S2 & K).
    split; [exact G2|]. split; [exact (mono_trans M1 M2)|]. split; [exact C2|]. split; [auto|].
    destruct K as [K|[[K1 K2]|[K1 K2]]]; [left; exact K|right; left|right; right]; (split; [exact K1|]); [exact (unav_mono M1 K2)|auto].
  - split; [exact G1|]. split; [exact M1|]. split; [exact C1|]. split; [exact S1|]. destruct H as [[H1 H2]|[[H1 H2]|[H1 H2]]].
    + left. destruct (p (erase c)) as [r0 c0]. cbn [fst snd] in H1, H2. subst r0 c0. auto.
    + right; left. injection H1 as ->. auto.
    + right; right. injection H1 as ->. auto.
Qed.
Lemma simI_lift A (m : hm A) r : sim U fs m r -> simI (ilift m) (pret r).
Proof.
  intros H c st G C. specialize (H st G). unfold ilift, pret. destruct (m st) as [r' st']. destruct H as (G' & M & H). split; [exact G'|]. split; [exact M|]. split; [exact C|].
  split; [exact (stale_mono M)|]. destruct H as [H|H]; [left|right; left; exact H]. split; [|reflexivity]. destruct r', r; try contradiction; cbn; congruence.
Qed.
Lemma simI_eq A (m : im A) p p' : (forall c, p c = p' c) -> simI m p -> simI m p'.
Proof. intros E H c st G C. specialize (H c st G C). destruct (m c st) as [[r c'] st']. rewrite <- E. exact H. Qed.

(** Finding and reading one key. *)
Lemma dataset_name (f : faccess) path st o st' : dataset_h f path st = (Ok o, st') -> do_name o = fname f.
Proof.
  unfold dataset_h, hbind, hret. destruct (file_h f st) as [[h|] st1]; [|discriminate]. destruct (fa_dataset f path); cbn; intros H; [|discriminate]. injection H as <- _. reflexivity.
Qed.
Definition val_p (is_ctrl : bool) (s k : string) (x : option (faccess * nat * dataset)) : res (option tval) :=
  if is_ctrl then it_ctrl_val x else it_inst_val s k x.
Definition obj_in (c : hcache) (x : option (faccess * nat * dsobj)) : Prop :=
  match x with None => True | Some (f, p, o) => In f fs /\ exists s k, In (s, k, (f, o)) c end.
Definition erase_x (x : option (faccess * nat * dsobj)) : option (faccess * nat * dataset) := match x with None => None | Some (f, p, o) => Some (f, p, do_ds o) end.
Lemma find_ok s k t c st : good U st -> okc c -> let '(r', c', st') := it_find_h d s k t c st in
  good U st' /\ mono st st' /\ okc c' /\ (stale c' st' -> stale c st) /\
  ((match r', fst (it_find d (erase c) s k t) with Ok x, Ok y => erase_x x = y /\ obj_in c' x | Err e, Err e' => e = e' | _, _ => False end /\ erase c' = snd (it_find d (erase c) s k t)) \/
   (r' = Err EOSError /\ unav fs st)).
Proof.
  intros G C. unfold it_find_h, it_find. rewrite hlookup_erase.
  set (sec := if str_in s (dc_ctrl d) then "CONTROL" else "INSTRUMENT").
  assert (FB : let '(r', c', st') := (match find_data d s t with
      | None => (Ok None, c, st)
      | Some (f, pos) => match dataset_h f (ds_path sec s k) st with (Ok o, st') => (Ok (Some (f, pos, o)), (s, k, (f, o)) :: c, st') | (Err e, st') => (Err e, c, st') end end
      : res (option (faccess * nat * dsobj)) * hcache * hst) in
    good U st' /\ mono st st' /\ okc c' /\ (stale c' st' -> stale c st) /\
    ((match r', fst (match find_data d s t with None => (Ok None, erase c) | Some (f, pos) =>
         match fa_dataset f (ds_path sec s k) with Ok ds => (Ok (Some (f, pos, ds)), (s, k, (f, ds)) :: erase c) | Err e => (Err e, erase c) end end)
        with Ok x, Ok y => erase_x x = y /\ obj_in c' x | Err e, Err e' => e = e' | _, _ => False end /\
      erase c' = snd (match find_data d s t with None => (Ok None, erase c) | Some (f, pos) =>
         match fa_dataset f (ds_path sec s k) with Ok ds => (Ok (Some (f, pos, ds)), (s, k, (f, ds)) :: erase c) | Err e => (Err e, erase c) end end)) \/
     (r' = Err EOSError /\ unav fs st))).
  { destruct (find_data d s t) as [[f pos]|] eqn:E.
    - destruct (found_in HD E) as [HfU Hf]. assert (X := @dataset_ok V U fs f (ds_path sec s k) Hf st G). assert (Y := @dataset_name f (ds_path sec s k) st).
      destruct (dataset_h f (ds_path sec s k) st) as [[o|e] st1]; destruct X as (G1 & M1 & X).
      + destruct X as [X|[X _]]; [|discriminate]. destruct (fa_dataset f (ds_path sec s k)) as [ds|]; [|contradiction]. destruct X as (X1 & X2 & f' & X3 & X4).
        split; [exact G1|]. split; [exact M1|]. split.
        * intros e [<-|He]; [|exact (C e He)]. cbn. split; [exact Hf|]. exact (Y _ _ eq_refl).
        * split.
          -- intros (e & [<-|He] & H); [cbn in H; congruence|]. apply (stale_mono M1). exists e. auto.
          -- left. cbn [fst snd erase map]. rewrite X2. split; [|reflexivity]. split; [cbn; now rewrite X2|]. split; [exact Hf|]. exists s, k. now left.
      + split; [exact G1|]. split; [exact M1|]. split; [exact C|]. split; [exact (stale_mono M1)|]. destruct X as [X|[X1 X2]].
        * left. destruct (fa_dataset f (ds_path sec s k)); [contradiction|]. cbn. auto.
        * right. injection X1 as ->. auto.
    - split; [exact G|]. split; [apply mono_refl|]. split; [exact C|]. split; [auto|]. left. cbn. auto. }
  destruct (hlookup s k c) as [[f o]|] eqn:E; [|exact FB].
  destruct (tid_positions f t) as [|p ps]; [exact FB|]. split; [exact G|]. split; [apply mono_refl|]. split; [exact C|]. split; [auto|]. left. cbn [fst snd]. split; [|reflexivity].
  split; [reflexivity|]. assert (H := hlookup_In E). split; [exact (proj1 (C _ H))|]. eauto.
Qed.
Lemma valid_cached c st f o s k : okc c -> In (s, k, (f, o)) c -> {valid_obj st o = true} + {stale c st}.
Proof. intros C H. destruct (valid_obj st o) eqn:E; [now left|right]. exists (s, k, (f, o)). auto. Qed.
Lemma val_ok ic s k x c st : good U st -> okc c -> obj_in c x -> let '(r', st') := it_val_h ic s k x st in
  good U st' /\ mono st st' /\ (r' = val_p ic s k (erase_x x) \/ (r' = Err EOSError /\ unav fs st) \/ (r' = Err EValueError /\ stale c st)).
Proof.
  intros G C X. destruct x as [[[f p] o]|]; [|destruct ic; cbn; (split; [exact G|]); (split; [apply mono_refl|auto])].
  destruct X as (Hf & s0 & k0 & Hin). unfold it_val_h. destruct ic.
  - unfold use_h. destruct (@valid_cached c st f o s0 k0 C Hin) as [E|E].
    + rewrite E. split; [exact G|]. split; [apply mono_refl|]. left. reflexivity.
    + destruct (valid_obj st o); (split; [exact G|]); (split; [apply mono_refl|]); [left; reflexivity|right; right; auto].
  - unfold hbind. assert (I := @index_ok V U HU fs f s (key_group k) (HD Hf) Hf st G). destruct (get_index_h f s (key_group k) st) as [[ix|e] st1]; destruct I as (G1 & M1 & I).
    + destruct I as [I|[I _]]; [|discriminate]. cbn [val_p erase_x it_inst_val]. destruct (fa_get_index f s (key_group k)) as [ix'|]; [|contradiction]. subst ix'. cbn [bind hret].
      destruct (nth_res (fst ix) p) as [a|]; cbn [bind]; [|split; [exact G1|]; split; [exact M1|]; left; reflexivity].
      destruct (nth_res (snd ix) p) as [n|]; cbn [bind]; [|split; [exact G1|]; split; [exact M1|]; left; reflexivity]. cbn [fst snd]. unfold use_h.
      destruct (@valid_cached c st1 f o s0 k0 C Hin) as [E|E].
      * rewrite E. split; [exact G1|]. split; [exact M1|]. left. reflexivity.
      * destruct (valid_obj st1 o); (split; [exact G1|]); (split; [exact M1|]); [left; reflexivity|right; right]. split; [reflexivity|]. exact (stale_mono M1 E).
    + split; [exact G1|]. split; [exact M1|]. destruct I as [I|[I1 I2]].
      * left. cbn [val_p erase_x it_inst_val]. destruct (fa_get_index f s (key_group k)); [contradiction|]. subst e. reflexivity.
      * right; left. injection I1 as ->. auto.
Qed.
Lemma key_ok ic s k t : simI (ibind (it_find_h d s k t) (fun x => ilift (it_val_h ic s k x))) (fun c => let '(o, c1) := it_find d c s k t in (bind o (val_p ic s k), c1)).
Proof.
  intros c st G C. assert (F := @find_ok s k t c st G C). unfold ibind. destruct (it_find_h d s k t c st) as [[r1 c1] st1]. destruct F as (G1 & M1 & C1 & S1 & F).
  destruct (it_find d (erase c) s k t) as [o cp]. cbn [fst snd] in F. destruct r1 as [x|e].
  - destruct F as [[F1 F2]|[F _]]; [|discriminate]. destruct o as [y|]; [|contradiction]. destruct F1 as [<- F3]. unfold ilift.
    assert (W := @val_ok ic s k x c1 st1 G1 C1 F3). destruct (it_val_h ic s k x st1) as [r2 st2]. destruct W as (G2 & M2 & W).
    split; [exact G2|]. split; [exact (mono_trans M1 M2)|]. split; [exact C1|]. split; [intros H; apply S1; exact (stale_mono M2 H)|]. cbn [fst snd bind].
    destruct W as [W|[[W1 W2]|[W1 W2]]]; [left; auto|right; left|right; right]; (split; [exact W1|]); [exact (unav_mono M1 W2)|auto].
  - split; [exact G1|]. split; [exact M1|]. split; [exact C1|]. split; [exact S1|]. destruct F as [[F1 F2]|[F1 F2]].
    + left. destruct o as [|e']; [contradiction|]. subst e'. cbn. auto.
    + right; left. injection F1 as ->. auto.
Qed.
Lemma keys_it_ok ic s t ks : simI (it_keys_h d t ic s ks) (it_keys d t s (fun k => val_p ic s k) ks).
Proof.
  induction ks as [|k ks IH]; [apply simI_ret|]. cbn [it_keys_h].
  assert (X : simI (ibind (ibind (it_find_h d s k t) (fun x => ilift (it_val_h ic s k x))) (fun ov => ibind (it_keys_h d t ic s ks) (fun rest => iret (Ok (match ov with Some v => (k, v) :: rest | None => rest end)))))
    (it_keys d t s (fun k => val_p ic s k) (k :: ks))).
  { eapply simI_eq; [|apply simI_bind; [apply key_ok|intros ov; apply simI_bind; [exact IH|intros rest; apply simI_ret]]].
    intros c. unfold pbind, pret. cbn [it_keys]. destruct (it_find d c s k t) as [o c1]. destruct (bind o (val_p ic s k)) as [ov|]; [|reflexivity].
    destruct (it_keys d t s _ ks c1) as [[rest|] c2]; reflexivity. }
  intros c st G C. specialize (X c st G C). unfold ibind in *. destruct (it_find_h d s k t c st) as [[[x|e] c1] st1]; exact X.
Qed.
Lemma source_it_ok ic s t : simI (it_source_h d t ic s) (it_source d t ic s).
Proof.
  unfold it_source_h. eapply simI_eq; [|apply simI_bind; [apply simI_lift; exact (keys_source_ok HU HD s)|intros ks; apply simI_bind; [apply keys_it_ok|intros kv; apply simI_ret]]].
  intros c. unfold pbind, pret, it_source. destruct (keys_for_source d s) as [ks|]; [|reflexivity]. unfold val_p.
  destruct ic; [change (fun k : string => it_ctrl_val (V:=V)) with (fun _ : string => it_ctrl_val (V:=V))|change (fun k => it_inst_val (V:=V) s k) with (it_inst_val (V:=V) s)];
    destruct (it_keys d t s _ ks c) as [[kv|] c2]; reflexivity.
Qed.
Lemma sources_it_ok ic t ss : simI (it_sources_h d t ic ss) (it_sources d t ic ss).
Proof.
  induction ss as [|s ss IH]; [apply simI_ret|]. cbn [it_sources_h]. eapply simI_eq; [|apply simI_bind; [apply source_it_ok|intros sd; apply simI_bind; [exact IH|intros rest; apply simI_ret]]].
  intros c. unfold pbind, pret. cbn [it_sources]. destruct (it_source d t ic s c) as [[sd|] c1]; [|reflexivity]. destruct (it_sources d t ic ss c1) as [[rest|] c2]; reflexivity.
Qed.
Lemma assemble_ok t : simI (assemble_h d t) (assemble_data d t).
Proof.
  unfold assemble_h. eapply simI_eq; [|apply simI_bind; [apply sources_it_ok|intros lc; apply simI_bind; [apply sources_it_ok|intros li; apply simI_ret]]].
  intros c. unfold pbind, pret, assemble_data. destruct (it_sources d t true (dc_ctrl d) c) as [[lc|] c1]; [|reflexivity]. destruct (it_sources d t false (dc_inst d) c1) as [[li|] c2]; reflexivity.
Qed.
Lemma any_ok A (f : A -> hm bool) g l : (forall x, In x l -> sim U fs (f x) (g x)) -> sim U fs (anyH f l) (anyM g l).
Proof.
  induction l as [|x l IH]; intros H; [apply sim_ret|]. cbn [anyH anyM]. apply (sim_bind (H x (or_introl eq_refl))). intros b _. destruct b; [apply sim_ret|].
  apply IH. intros y Hy. apply H. now right.
Qed.
Lemma missing_ok t : sim U fs (check_data_missing_h d t) (check_data_missing d t).
Proof.
  unfold check_data_missing_h, check_data_missing. destruct (existsb _ _); [apply sim_ret|]. apply any_ok. intros s _. unfold inst_missing_h, inst_missing.
  destruct (find_data d s t) as [[f p]|] eqn:E; [|apply sim_ret]. destruct (found_in HD E). apply (sim_bind (keys_source_ok HU HD s)). intros ks _. apply any_ok. intros g _.
  apply (sim_bind (index_ok HU s g H H0)). intros ix _. apply sim_ret.
Qed.
Lemma next_ok ra tids : forall c st, good U st -> okc c -> let '(r, (tids', c'), st') := it_next d ra tids c st in
  good U st' /\ mono st st' /\ okc c' /\ (stale c' st' -> stale c st) /\
  (match it_loop d ra tids (erase c) with [] => r = None /\ tids' = [] | x :: rest => r = Some x /\ it_loop d ra tids' (erase c') = rest end \/
   (tids' = [] /\ ((r = Some (Err EOSError) /\ unav fs st) \/ (r = Some (Err EValueError) /\ stale c st)))).
Proof.
  induction tids as [|t tids IH]; intros c st G C; [cbn; split; [exact G|]; split; [apply mono_refl|]; auto|]. cbn [it_next it_loop].
  assert (K : let '(r', st') := (if ra then check_data_missing_h d t st else (Ok false, st)) in good U st' /\ mono st st' /\
     (r' = (if ra then check_data_missing d t else Ok false) \/ (r' = Err EOSError /\ unav fs st))).
  { destruct ra; [|split; [exact G|]; split; [apply mono_refl|auto]]. assert (M := @missing_ok t st G). destruct (check_data_missing_h d t st) as [r st1]. destruct M as (G1 & M1 & M).
    split; [exact G1|]. split; [exact M1|]. destruct M as [M|M]; [left|right; exact M]. destruct r, (check_data_missing d t); try contradiction; congruence. }
  destruct (if ra then check_data_missing_h d t st else (Ok false, st)) as [r1 st1]. destruct K as (G1 & M1 & K).
  destruct K as [->|[-> K]].
  2:{ split; [exact G1|]. split; [exact M1|]. split; [exact C|]. split; [exact (stale_mono M1)|]. right. auto. }
  destruct (if ra then check_data_missing d t else Ok false) as [[|]|e].
  - specialize (IH c st1 G1 C). destruct (it_next d ra tids c st1) as [[r [tids' c']] st2]. destruct IH as (G2 & M2 & C2 & S2 & IH).
    split; [exact G2|]. split; [exact (mono_trans M1 M2)|]. split; [exact C2|]. split; [intros H; exact (stale_mono M1 (S2 H))|].
    destruct IH as [IH|[I1 [[I2 I3]|[I2 I3]]]]; [left; exact IH|right; split; [exact I1|]; left; split; [exact I2|exact (unav_mono M1 I3)]|right; split; [exact I1|]; right; split; [exact I2|exact (stale_mono M1 I3)]].
  - assert (A := @assemble_ok t c st1 G1 C). destruct (assemble_h d t c st1) as [[r2 c2] st2]. destruct A as (G2 & M2 & C2 & S2 & A).
    assert (S' : stale c2 st2 -> stale c st) by (intros H; exact (stale_mono M1 (S2 H))). assert (M' := mono_trans M1 M2).
    destruct r2 as [x|e].
    + split; [exact G2|]. split; [exact M'|]. split; [exact C2|]. split; [exact S'|]. destruct A as [[A1 A2]|[[A _]|[A _]]]; [|discriminate|discriminate]. left.
      destruct (assemble_data d t (erase c)) as [r0 c0]. cbn [fst snd] in A1, A2. subst r0 c0. auto.
    + split; [exact G2|]. split; [exact M'|]. split; [exact C2|]. split; [exact S'|]. destruct A as [[A1 A2]|[[A1 A2]|[A1 A2]]].
      * left. destruct (assemble_data d t (erase c)) as [r0 c0]. cbn [fst snd] in A1, A2. subst r0 c0. auto.
      * right. injection A1 as ->. split; [reflexivity|]. left. split; [reflexivity|exact (unav_mono M1 A2)].
      * right. injection A1 as ->. split; [reflexivity|]. right. split; [reflexivity|exact (stale_mono M1 A2)].
  - split; [exact G1|]. split; [exact M1|]. split; [exact C|]. split; [exact (stale_mono M1)|]. left. auto.
Qed.
End I.
