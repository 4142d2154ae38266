(** What the writer puts in the file. *)
From Verif Require Import Base PyStr M_Files M_Machinery M_Reader M_Select M_Writer S_Reader S_Coll S_Avail S_Open S_Writer
  L_Base L_Machinery L_Reader L_GetArray L_Select L_Array2 L_Trains L_Hist L_Union L_Open L_Writer.
Set Implicit Arguments.
Unset Strict Implicit.
Local Open Scope string_scope.
Local Open Scope list_scope.

Lemma foldM_app : forall A S (f : S -> A -> res S) l1 l2 s, foldM f s (l1 ++ l2) = let* s' := foldM f s l1 in foldM f s' l2.
Proof. intros A S f. induction l1 as [|x l IH]; intros l2 s; simpl; [reflexivity|]. destruct (f s x); simpl; auto. Qed.
Lemma foldM_map : forall A B S (f : S -> B -> res S) (g : A -> B) l s, foldM f s (map g l) = foldM (fun s x => f s (g x)) s l.
Proof. intros A B S f g. induction l as [|x l IH]; intros s; simpl; [reflexivity|]. destruct (f s (g x)); simpl; auto. Qed.
Lemma foldM_ext : forall A S (f g : S -> A -> res S) l s, (forall s x, f s x = g s x) -> foldM f s l = foldM g s l.
Proof. intros A S f g l. induction l as [|x l IH]; intros s H; simpl; [reflexivity|]. rewrite H. destruct (g s x); simpl; auto. Qed.

Section W.
Context {V : Type}.
Notation faccess := (faccess V).
Notation dcoll := (dcoll V).
Notation larray := (larray V).
Notation wstate := (wstate V).
Notation reader := (dcoll -> bool -> string -> string -> res (option larray)).

Definition field := (bool * string * string)%type.
Definition add_field (read : reader) (d : dcoll) (ws : wstate) (x : field) : res wstate :=
  let '(c, s, k) := x in let* o := read d c s k in add_dataset d c s k o ws.

Lemma write_sources_fields : forall (read : reader) d c ss ws ws',
  write_sources read d c ss ws = Ok ws' ->
  exists l, foldM (add_field read d) ws l = Ok ws' /\
    forall c' s k, In (c', s, k) l <-> c' = c /\ In s ss /\ exists ks, keys_for_source d s = Ok ks /\ In k ks.
Proof.
  intros read d c. induction ss as [|s ss IH]; intros ws ws' H; unfold write_sources in H; cbn [foldM] in H.
  - exists []. split; [exact H|]. intros c' s k. split; [intros []|intros (_ & [] & _)].
  - apply bind_ok in H as (ws1 & H1 & H2). apply bind_ok in H1 as (ks & Hks & H1).
    destruct (IH ws1 ws' H2) as (l & El & Hl). exists (map (fun k => (c, s, k)) ks ++ l). split.
    + rewrite foldM_app, foldM_map. rewrite (@foldM_ext _ _ _ (fun ws k => let* o := read d c s k in add_dataset d c s k o ws)) by reflexivity.
      rewrite H1. exact El.
    + intros c' s' k. rewrite in_app_iff, in_map_iff, Hl. split.
      * intros [(k' & E & Hk)|(-> & H & Hk)]; [injection E as <- <- <-|].
        -- split; [reflexivity|]. split; [now left|]. eauto.
        -- split; [reflexivity|]. split; [now right|assumption].
      * intros (-> & [<-|Hs] & ks' & E & Hk); [left|right; eauto 6]. rewrite Hks in E. injection E as <-. eauto.
Qed.

(** The fields written: every selected field. *)
Definition selected_field (d : dcoll) (x : field) : Prop :=
  let '(c, s, k) := x in
  (if c : bool then In s (dc_ctrl d) else In s (dc_inst d)) /\ exists ks, keys_for_source d s = Ok ks /\ In k ks.

Lemma write_fields : forall (read : reader) name d f, write_with read name d = Ok f ->
  exists l ws, foldM (add_field read d) ws0 l = Ok ws /\ f = ws_file name d ws /\
    forall x, In x l <-> selected_field d x.
Proof.
  intros read name d f H. unfold write_with in H. apply bind_ok in H as (ws1 & H1 & H). apply bind_ok in H as (ws2 & H2 & H).
  injection H as <-. destruct (write_sources_fields H1) as (l1 & E1 & M1). destruct (write_sources_fields H2) as (l2 & E2 & M2).
  exists (l1 ++ l2), ws2. split; [rewrite foldM_app, E1; exact E2|]. split; [reflexivity|].
  intros [[c s] k]. rewrite in_app_iff, M1, M2. unfold selected_field. destruct c; intuition discriminate.
Qed.

Definition ds_of (a : larray) : dataset V := mk_ds (la_dtype a) (la_item a) (la_rows a).
Definition ix_name (x : field) : string := let '(c, s, k) := x in index_key c s k.
Definition ds_name (x : field) : string := let '(c, s, k) := x in data_key c s k.
Definition ix_entry (x : field) : string :=
  let '(c, s, k) := x in ((if c : bool then "CONTROL/" else "INSTRUMENT/") ++ index_key c s k)%string.
Definition ix_made (d : dcoll) (x : field) (a : larray) : res (list Z * list Z) :=
  if fst (fst x) then control_index (dc_tids d) (la_labels a) else generate_index (dc_tids d) (la_labels a).

(** Invariant of the loop: [done] are the fields written so far. *)
Definition winv (d : dcoll) (done : list (field * larray)) (ws : wstate) : Prop :=
  ws_data ws = map (fun p => (ds_name (fst p), ds_of (snd p))) done /\
  ForallOrdPairs (fun p q => path_clash (fst q) (fst p) = false) (ws_data ws) /\
  NoDup (dict_keys (ws_index ws)) /\
  (forall name v, dict_get name (ws_index ws) = Some v ->
     exists p, In p done /\ ix_name (fst p) = name /\ ix_made d (fst p) (snd p) = Ok v) /\
  (forall p, In p done -> exists q, In q done /\ ix_name (fst q) = ix_name (fst p) /\
     In (ix_name (fst p)) (dict_keys (ws_index ws)) /\ In (ix_entry (fst q)) (ws_sources ws)) /\
  (forall e, In e (ws_sources ws) -> exists p, In p done /\ e = ix_entry (fst p)).

Lemma add_dataset_unfold : forall d c s k (a : larray) ws,
  add_dataset d c s k (Some a) ws =
  let* ws := put_data (data_key c s k) a ws in
  put_index (index_key c s k) (ix_entry (c, s, k)) (ix_made d (c, s, k) a) ws.
Proof.
  intros d c s k a ws. unfold add_dataset, ix_entry, ix_made. destruct c; cbn [fst].
  - rewrite ds_path_ctrl. reflexivity.
  - rewrite ds_path_inst, ix_path_inst. reflexivity.
Qed.

Lemma FOP_snoc : forall A (R : A -> A -> Prop) l x, ForallOrdPairs R l -> Forall (fun y => R y x) l -> ForallOrdPairs R (l ++ [x]).
Proof.
  intros A R l x H Hx. apply FOP_app; [assumption|constructor; constructor|].
  intros y z Hy [<-|[]]. rewrite Forall_forall in Hx. auto.
Qed.

Lemma winv_step : forall d done ws c s k (a : larray) ws', winv d done ws ->
  add_dataset d c s k (Some a) ws = Ok ws' -> winv d (done ++ [((c, s, k), a)]) ws'.
Proof.
  intros d done ws c s k a ws' (I1 & I2 & I3 & I4 & I5 & I6) H. rewrite add_dataset_unfold in H.
  change (index_key c s k) with (ix_name (c, s, k)) in H. change (data_key c s k) with (ds_name (c, s, k)) in H.
  set (x := (c, s, k)) in *. clearbody x. apply bind_ok in H as (ws1 & H1 & H2). unfold put_data in H1.
  destruct (existsb _ (ws_data ws)) eqn:Ec; [discriminate|]. injection H1 as <-.
  unfold put_index in H2. cbn [ws_index ws_data ws_sources] in H2.
  assert (D1 : ws_data ws ++ [(ds_name x, mk_ds (la_dtype a) (la_item a) (la_rows a))] =
               map (fun p => (ds_name (fst p), ds_of (snd p))) (done ++ [(x, a)])).
  { rewrite map_app, I1. reflexivity. }
  assert (D2 : ForallOrdPairs (fun p q => path_clash (fst q) (fst p) = false)
                 (ws_data ws ++ [(ds_name x, mk_ds (la_dtype a) (la_item a) (la_rows a))])).
  { apply FOP_snoc; [assumption|]. apply Forall_forall. intros p Hp. cbn [fst].
    destruct (path_clash (ds_name x) (fst p)) eqn:E; [|reflexivity]. exfalso.
    assert (T : existsb (fun p => path_clash (ds_name x) (fst p)) (ws_data ws) = true) by (apply existsb_exists; eauto). congruence. }
  destruct (str_in (ix_name x) (dict_keys (ws_index ws))) eqn:En.
  - injection H2 as <-. unfold winv. cbn [ws_index ws_data ws_sources].
    split; [exact D1|]. split; [exact D2|]. split; [exact I3|]. split; [|split].
    + intros name v Hg. destruct (I4 _ _ Hg) as (p & Hp & Hr). exists p. split; [apply in_or_app; now left|exact Hr].
    + intros p Hp. apply in_app_or in Hp as [Hp|[<-|[]]].
      * destruct (I5 p Hp) as (q & Hq & Hr). exists q. split; [apply in_or_app; now left|exact Hr].
      * cbn [fst]. apply str_in_iff in En. destruct (proj2 (dict_get_keys _ _) En) as [v Hv].
        destruct (I4 _ _ Hv) as (p & Hp & E & _). destruct (I5 p Hp) as (q & Hq & Eq & _ & Hqs).
        exists q. split; [apply in_or_app; now left|]. split; [congruence|]. split; assumption.
    + intros e He. destruct (I6 e He) as (p & Hp & ->). exists p. split; [apply in_or_app; now left|reflexivity].
  - apply bind_ok in H2 as (v & Hv & H2). injection H2 as <-. unfold winv. cbn [ws_index ws_data ws_sources].
    apply str_in_false in En.
    split; [exact D1|]. split; [exact D2|]. split; [now apply L_Sel2.dict_set_nodup|]. split; [|split].
    + intros name w Hg. rewrite dict_get_set in Hg. destruct (String.eqb_spec name (ix_name x)) as [->|Hne].
      * injection Hg as <-. exists (x, a). split; [apply in_or_app; right; now left|]. auto.
      * destruct (I4 _ _ Hg) as (p & Hp & Hr). exists p. split; [apply in_or_app; now left|exact Hr].
    + intros p Hp. apply in_app_or in Hp as [Hp|[<-|[]]].
      * destruct (I5 p Hp) as (q & Hq & Hr1 & Hr2 & Hr3). exists q. split; [apply in_or_app; now left|]. split; [assumption|].
        split; [apply dict_keys_set; now right|apply set_add_In; now right].
      * cbn [fst]. exists (x, a). split; [apply in_or_app; right; now left|]. split; [reflexivity|].
        split; [apply dict_keys_set; now left|apply set_add_In; now left].
    + intros e He. apply set_add_In in He as [->|He].
      * exists (x, a). split; [apply in_or_app; right; now left|reflexivity].
      * destruct (I6 e He) as (p & Hp & ->). exists p. split; [apply in_or_app; now left|reflexivity].
Qed.

Lemma winv_loop : forall (read : reader) d l done ws ws', winv d done ws ->
  foldM (add_field read d) ws l = Ok ws' ->
  exists done', winv d (done ++ done') ws' /\
    (forall p, In p done' -> In (fst p) l /\ read d (fst (fst (fst p))) (snd (fst (fst p))) (snd (fst p)) = Ok (Some (snd p))) /\
    (forall c s k, In (c, s, k) l -> (read d c s k = Ok None) \/ exists a, read d c s k = Ok (Some a) /\ In ((c, s, k), a) done').
Proof.
  intros read d. induction l as [|[[c s] k] l IH]; intros done ws ws' Hw H; cbn [foldM] in H.
  - injection H as <-. exists []. rewrite app_nil_r. split; [exact Hw|]. split; [intros p []|intros ? ? ? []].
  - apply bind_ok in H as (ws1 & H1 & H2). unfold add_field in H1. apply bind_ok in H1 as (o & Ho & H1).
    destruct o as [a|].
    + pose proof (winv_step Hw H1) as Hw1. destruct (IH _ _ _ Hw1 H2) as (done' & D1 & D2 & D3).
      exists (((c, s, k), a) :: done'). rewrite <- app_assoc in D1. split; [exact D1|]. split.
      * intros p [<-|Hp]; [split; [now left|exact Ho]|]. destruct (D2 p Hp) as [A B]. split; [now right|exact B].
      * intros c' s' k' [E|Hx].
        -- injection E as <- <- <-. right. exists a. split; [exact Ho|now left].
        -- destruct (D3 _ _ _ Hx) as [E|(a' & E & Hin)]; [now left|]. right. exists a'. split; [exact E|now right].
    + injection H1 as <-. destruct (IH _ _ _ Hw H2) as (done' & D1 & D2 & D3). exists done'. split; [exact D1|]. split.
      * intros p Hp. destruct (D2 p Hp) as [A B]. split; [now right|exact B].
      * intros c' s' k' [E|Hx]; [injection E as <- <- <-; now left|]. exact (D3 _ _ _ Hx).
Qed.

Lemma winv0 : forall d, winv d [] ws0.
Proof.
  intros d. unfold winv. cbn. split; [reflexivity|]. split; [constructor|]. split; [constructor|].
  split; [intros; discriminate|]. split; [intros ? []|intros ? []].
Qed.

(** The file written: which datasets and index entries it has. *)
Theorem write_content : forall (read : reader) name d f, write_with read name d = Ok f ->
  exists (done : list (field * larray)) ws, f = ws_file name d ws /\ winv d done ws /\
    (forall x a, In (x, a) done -> selected_field d x /\ read d (fst (fst x)) (snd (fst x)) (snd x) = Ok (Some a)) /\
    (forall c s k, selected_field d (c, s, k) ->
       read d c s k = Ok None \/ exists a, read d c s k = Ok (Some a) /\ In ((c, s, k), a) done).
Proof.
  intros read name d f H. destruct (write_fields H) as (l & ws & Hf & -> & Hl).
  destruct (winv_loop (winv0 d) Hf) as (done & D1 & D2 & D3). exists done, ws. split; [reflexivity|]. split; [exact D1|]. split.
  - intros x a Hin. destruct (D2 _ Hin) as [A B]. split; [now apply Hl|exact B].
  - intros c s k Hx. apply D3. now apply Hl.
Qed.

Lemma path_clash_refl : forall p, path_clash p p = true.
Proof. intros p. unfold path_clash. now rewrite String.eqb_refl. Qed.
Lemma path_clash_sym : forall p q, path_clash p q = path_clash q p.
Proof. intros p q. unfold path_clash. rewrite String.eqb_sym. rewrite <- !orb_assoc. f_equal. apply orb_comm. Qed.

Lemma FOP_keys_nodup : forall (l : list (string * dataset V)),
  ForallOrdPairs (fun p q => path_clash (fst q) (fst p) = false) l -> NoDup (dict_keys l).
Proof.
  induction l as [|p l IH]; intros H; [constructor|]. inversion H as [|? ? H1 H2]; subst. constructor; [|auto].
  intros Hin. apply in_map_iff in Hin as (q & E & Hq). rewrite Forall_forall in H1. specialize (H1 q Hq).
  rewrite E, path_clash_refl in H1. discriminate.
Qed.
Lemma dict_get_NoDup : forall B (l : list (string * B)) k v, NoDup (dict_keys l) -> In (k, v) l -> dict_get k l = Some v.
Proof.
  intros B. induction l as [|[k' v'] l IH]; intros k v H Hin; [destruct Hin|]. inversion H as [|? ? H1 H2]; subst.
  simpl. destruct Hin as [E|Hin].
  - injection E as -> ->. now rewrite String.eqb_refl.
  - destruct (String.eqb_spec k k') as [->|N]; [|auto]. exfalso. apply H1. apply in_map_iff. exists (k', v). auto.
Qed.

Lemma winv_data : forall d done ws x a name, winv d done ws -> In (x, a) done ->
  dict_get (ds_name x) (h5_data (ws_file name d ws)) = Some (ds_of a).
Proof.
  intros d done ws x a name (I1 & I2 & _) Hin. cbn [ws_file h5_data]. apply dict_get_NoDup; [now apply FOP_keys_nodup|].
  rewrite I1. apply in_map_iff. exists (x, a). auto.
Qed.
Lemma winv_index : forall d done ws x a name, winv d done ws -> In (x, a) done ->
  exists y b fi co, In (y, b) done /\ ix_name y = ix_name x /\ ix_made d y b = Ok (fi, co) /\
    dict_get (ix_name x) (h5_index (ws_file name d ws)) = Some (mk_ix fi (IxCount co)).
Proof.
  intros d done ws x a name (I1 & I2 & I3 & I4 & I5 & I6) Hin. destruct (I5 _ Hin) as (q & _ & _ & Hk & _). cbn [fst] in Hk.
  destruct (proj2 (dict_get_keys _ _) Hk) as [[fi co] Hv]. destruct (I4 _ _ Hv) as ([y b] & Hp & E & M). cbn [fst snd] in *.
  exists y, b, fi, co. split; [exact Hp|]. split; [exact E|]. split; [exact M|]. cbn [ws_file h5_index].
  rewrite L_Sel2.dict_get_map with (g := fun p => mk_ix (fst p) (IxCount (snd p))). rewrite Hv. reflexivity.
Qed.

(** Labels depend only on the group of the key. *)
Lemma read_chunk_labels : forall s k (c : chunk V) ls rs, read_chunk s k c = Ok (ls, rs) ->
  ls = if (zsum (ch_counts c) =? 0)%Z then [] else expand_trainids (ch_counts c) (ch_tids c).
Proof.
  intros s k c ls rs H. unfold read_chunk in H. destruct (zsum (ch_counts c) =? 0)%Z; [congruence|].
  apply bind_ok in H as (ds & _ & H). destruct (_ =? _)%Z in H; [congruence|].
  destruct (ds_slice _ _ _) as [|r [|? ?]]; [discriminate|congruence|discriminate].
Qed.
Lemma get_array_group_labels : forall (d : dcoll) s k k' a a',
  (In s (dc_inst d) -> key_group k = key_group k') ->
  get_array d s k = Ok a -> get_array d s k' = Ok a' -> la_labels a = la_labels a'.
Proof.
  intros d s k k' a a' Hk H H'. unfold get_array in H, H'.
  apply bind_ok in H as ([] & _ & H). apply bind_ok in H as (chs & Hchs & H).
  apply bind_ok in H as (dss & Hdss & H). apply bind_ok in H as (ty & _ & H).
  apply bind_ok in H as (parts & Hparts & H). destruct (Nat.eqb _ _) in H; [|discriminate]. injection H as <-.
  apply bind_ok in H' as ([] & _ & H'). apply bind_ok in H' as (chs' & Hchs' & H').
  apply bind_ok in H' as (dss' & Hdss' & H'). apply bind_ok in H' as (ty' & _ & H').
  apply bind_ok in H' as (parts' & Hparts' & H'). destruct (Nat.eqb _ _) in H'; [|discriminate]. injection H' as <-.
  cbn [la_labels].
  assert (Ec : chs = chs').
  { unfold sorted_chunks, find_data_chunks in Hchs, Hchs'. destruct (str_in s (dc_inst d)) eqn:E.
    - apply str_in_iff in E. rewrite <- (Hk E) in Hchs'. congruence.
    - congruence. }
  subst chs'. apply mapM_ok_iff in Hparts. apply mapM_ok_iff in Hparts'. clear -Hparts Hparts'.
  revert parts' Hparts'. induction Hparts as [|c [ls rs] chs parts H1 H2 IH]; intros parts' H'.
  - inversion H'; subst. reflexivity.
  - inversion H' as [|? [ls' rs'] ? parts2 H1' H2']; subst. simpl. rewrite (IH _ H2').
    rewrite (read_chunk_labels H1), (read_chunk_labels H1'). reflexivity.
Qed.
End W.
