(** Boolean checks of the hypotheses, used to show that concrete collections meet
    them.  They are not part of any statement. *)
From Verif Require Import Base PyStr M_Files M_Machinery M_Reader M_Glob M_Select S_Reader S_Coll
  L_Base L_Machinery L_Reader L_GetArray L_Select.
Set Implicit Arguments.
Unset Strict Implicit.
Local Open Scope string_scope.
Local Open Scope list_scope.

Section K.
Context {V : Type}.
Notation faccess := (faccess V).
Notation dcoll := (dcoll V).

Definition distinct_kindsb (d : dcoll) : bool :=
  forallb (fun f => forallb (fun f' => forallb (fun s => negb (str_in s (fa_inst f'))) (fa_ctrl f)) (dc_files d)) (dc_files d).
Lemma distinct_kindsb_ok : forall d, distinct_kindsb d = true -> distinct_kinds d.
Proof.
  intros d H f f' s Hf Hf' Hs. unfold distinct_kindsb in H. rewrite forallb_forall in H.
  specialize (H f Hf). rewrite forallb_forall in H. specialize (H f' Hf'). rewrite forallb_forall in H.
  specialize (H s Hs). apply negb_true_iff in H. now apply str_in_false.
Qed.

Fixpoint nodupb (l : list Z) : bool :=
  match l with [] => true | x :: r => negb (z_in x r) && nodupb r end.
Lemma nodupb_ok : forall l, nodupb l = true -> NoDup l.
Proof.
  induction l as [|x l IH]; intros H; [constructor|]. simpl in H. apply andb_true_iff in H as [H1 H2].
  constructor; [|auto]. apply negb_true_iff in H1. now apply z_in_false.
Qed.

Definition tids_okb (f : h5file V) : bool :=
  match h5_trainid f with
  | None => false
  | Some raw => let n := List.length (nonzero_tids raw) in
      nodupb (firstn n raw) && forallb (fun t => (0 <? t)%Z) (firstn n raw) && forallb (fun t => (t =? 0)%Z) (skipn n raw)
  end.
Lemma all_zero : forall l, forallb (fun t => (t =? 0)%Z) l = true -> l = repeat 0%Z (List.length l).
Proof.
  induction l as [|x l IH]; intros H; [reflexivity|]. simpl in H. apply andb_true_iff in H as [H1 H2].
  apply Z.eqb_eq in H1. subst. simpl. f_equal. auto.
Qed.
Lemma tids_okb_ok : forall f, tids_okb f = true -> tids_ok f.
Proof.
  intros f H. unfold tids_okb in H. unfold tids_ok. destruct (h5_trainid f) as [raw|]; [|discriminate].
  apply andb_true_iff in H as [H H3]. apply andb_true_iff in H as [H1 H2].
  set (n := List.length (nonzero_tids raw)) in *.
  exists (firstn n raw), (List.length (skipn n raw)). split; [|split].
  - rewrite <- (all_zero H3). now rewrite firstn_skipn.
  - now apply nodupb_ok.
  - apply Forall_forall. intros x Hx. rewrite forallb_forall in H2. apply Z.ltb_lt. auto.
Qed.
Definition good_filesb (d : dcoll) : bool := forallb (fun f => tids_okb (fa_file f)) (dc_files d).
Lemma good_filesb_ok : forall d, good_filesb d = true -> good_files d.
Proof.
  intros d H. unfold good_files. apply Forall_forall. intros f Hf. apply tids_okb_ok.
  unfold good_filesb in H. rewrite forallb_forall in H. auto.
Qed.

Definition u64b (z : Z) : bool := (0 <=? z)%Z && (z <? 2 ^ 64)%Z.
Lemma u64b_ok : forall z, u64b z = true -> u64_range z.
Proof. intros z H. apply andb_true_iff in H as [H1 H2]. split; [now apply Z.leb_le|now apply Z.ltb_lt]. Qed.
Definition wfb (g : ix_group) : bool :=
  match ix_more g with
  | IxCount _ => true
  | IxLastStatus l s => forallb u64b (ix_first g) && forallb u64b l && forallb (fun x => (x =? 0)%Z || (x =? 1)%Z) s
  end.
Lemma forallb_Forall : forall A (p : A -> bool) (P : A -> Prop) l,
  (forall x, p x = true -> P x) -> forallb p l = true -> Forall P l.
Proof. intros A p P l H Hl. apply Forall_forall. intros x Hx. rewrite forallb_forall in Hl. auto. Qed.
Lemma wfb_ok : forall g, wfb g = true -> ix_wellformed g.
Proof.
  intros g H. unfold wfb, ix_wellformed in *. destruct (ix_more g); [exact I|].
  apply andb_true_iff in H as [H H3]. apply andb_true_iff in H as [H1 H2].
  split; [|split]; (eapply forallb_Forall; [|eassumption]); [apply u64b_ok|apply u64b_ok|].
  intros x Hx. apply orb_true_iff in Hx as [Hx|Hx]; apply Z.eqb_eq in Hx; auto.
Qed.
Definition readableb (g : ix_group) (n : nat) : bool :=
  wfb g && forallb (fun p => match nth_error (ix_first g) p, entry_count g p with
                             | Some a, Some c => (0 <=? a)%Z && u64b c
                             | _, _ => false end) (seq 0 n).
Lemma readableb_ok : forall g n, readableb g n = true -> index_readable g n.
Proof.
  intros g n H. apply andb_true_iff in H as [H1 H2]. split; [now apply wfb_ok|]. intros p Hp.
  rewrite forallb_forall in H2. specialize (H2 p). rewrite in_seq in H2. specialize (H2 ltac:(lia)).
  destruct (nth_error (ix_first g) p) as [a|], (entry_count g p) as [c|]; try discriminate.
  apply andb_true_iff in H2 as [H2 H3]. exists a, c. repeat split; try (now apply Z.leb_le); now apply u64b_ok.
Qed.
Definition contigb (g : ix_group) (n : nat) : bool :=
  forallb (fun p => match nth_error (ix_first g) p, entry_count g p, nth_error (ix_first g) (S p) with
                    | Some a, Some c, Some b => (b =? a + c)%Z
                    | _, _, _ => true end) (seq 0 (n - 1)).
Lemma contigb_ok : forall g n, readableb g n && contigb g n = true -> index_ok g n.
Proof.
  intros g n H. apply andb_true_iff in H as [H1 H2]. split; [now apply readableb_ok|].
  intros p a c b Hp Ha Hc Hb. unfold contigb in H2. rewrite forallb_forall in H2. specialize (H2 p).
  rewrite in_seq in H2. specialize (H2 ltac:(lia)). rewrite Ha, Hc, Hb in H2. now apply Z.eqb_eq.
Qed.

Definition indexb (chk : ix_group -> nat -> bool) (d : dcoll) (s k : string) : bool :=
  forallb (fun f => negb (str_in s (fa_sources f)) ||
    match dict_get (index_key (str_in s (dc_ctrl d)) s k) (h5_index (fa_file f)) with
    | Some g => chk g (List.length (fa_tids f)) | None => false end) (dc_files d).
Lemma indexb_ok : forall chk (P : ix_group -> nat -> Prop) d s k, (forall g n, chk g n = true -> P g n) ->
  indexb chk d s k = true ->
  forall f, In f (dc_files d) -> In s (fa_sources f) ->
    exists g, dict_get (index_key (str_in s (dc_ctrl d)) s k) (h5_index (fa_file f)) = Some g /\
              P g (List.length (fa_tids f)).
Proof.
  intros chk P d s k HP H f Hf Hs. unfold indexb in H. rewrite forallb_forall in H. specialize (H f Hf).
  apply str_in_iff in Hs. rewrite Hs in H. simpl in H.
  destruct (dict_get _ _) as [g|]; [|discriminate]. eauto.
Qed.
Definition holdsb (g : ix_group) (n : nat) (rows : list V) : bool :=
  forallb (fun p => match nth_error (ix_first g) p, entry_count g p with
     | Some a, Some c => (a + c <=? Z.of_nat (List.length rows))%Z
     | _, _ => true end) (seq 0 n).
Lemma holdsb_ok : forall g n rows, holdsb g n rows = true -> holds_rows g n rows.
Proof.
  intros g n rows H p a c Hp Ha Hc. unfold holdsb in H. rewrite forallb_forall in H. specialize (H p).
  rewrite in_seq in H. specialize (H ltac:(lia)). rewrite Ha, Hc in H. now apply Z.leb_le.
Qed.
Definition good_indexb (d : dcoll) (s k : string) : bool :=
  indexb (fun g n => readableb g n && contigb g n) d s k &&
  forallb (fun f => match dict_get (index_key (str_in s (dc_ctrl d)) s k) (h5_index (fa_file f)),
      dict_get (data_key (str_in s (dc_ctrl d)) s k) (h5_data (fa_file f)) with
    | Some g, Some ds => holdsb g (List.length (fa_tids f)) (ds_rows ds) | _, _ => true end) (dc_files d).
Lemma good_indexb_ok : forall d s k, good_indexb d s k = true -> good_index d s k.
Proof.
  intros d s k H f Hf Hs. apply andb_true_iff in H as [H1 H2]. rewrite forallb_forall in H2. specialize (H2 f Hf).
  destruct (@indexb_ok _ (fun g n => index_ok g n) d s k contigb_ok H1 f Hf Hs) as (g & Hg & Hok).
  exists g. split; [assumption|]. split; [assumption|]. intros ds Hd. rewrite Hg, Hd in H2. now apply holdsb_ok.
Qed.
Definition readable_indexb := indexb readableb.
Lemma readable_indexb_ok : forall d s k, readable_indexb d s k = true -> readable_index d s k.
Proof. intros d s k H. unfold readable_index. eapply indexb_ok; [|exact H]. intros g n. apply readableb_ok. Qed.

Definition good_datab (d : dcoll) (s k : string) : bool :=
  match filter (fun f => str_in s (fa_sources f)) (dc_files d) with
  | [] => true
  | f0 :: _ =>
    match dict_get (data_key (str_in s (dc_ctrl d)) s k) (h5_data (fa_file f0)) with
    | None => false
    | Some ds0 =>
      forallb (fun f => negb (str_in s (fa_sources f)) ||
        match dict_get (data_key (str_in s (dc_ctrl d)) s k) (h5_data (fa_file f)),
              dict_get (index_key (str_in s (dc_ctrl d)) s k) (h5_index (fa_file f)) with
        | Some ds, Some g => String.eqb (ds_dtype ds) (ds_dtype ds0) && zlist_eqb (ds_item ds) (ds_item ds0) &&
            forallb (fun p => match nth_error (ix_first g) p, entry_count g p with
               | Some a, Some c => (a + c <=? Z.of_nat (List.length (ds_rows ds)))%Z
               | _, _ => true end) (seq 0 (List.length (fa_tids f)))
        | _, _ => false end) (dc_files d)
    end
  end.
Lemma good_datab_ok : forall d s k, good_datab d s k = true -> good_data d s k.
Proof.
  intros d s k H. unfold good_datab in H.
  destruct (filter (fun f => str_in s (fa_sources f)) (dc_files d)) as [|f0 fs] eqn:E.
  - exists "", []. intros f Hf Hs. exfalso.
    assert (X : In f (filter (fun f => str_in s (fa_sources f)) (dc_files d))) by (apply filter_In; split; [assumption|now apply str_in_iff]).
    rewrite E in X. destruct X.
  - destruct (dict_get _ (h5_data (fa_file f0))) as [ds0|]; [|discriminate].
    exists (ds_dtype ds0), (ds_item ds0). intros f Hf Hs. rewrite forallb_forall in H. specialize (H f Hf).
    apply str_in_iff in Hs. rewrite Hs in H. simpl in H.
    destruct (dict_get _ (h5_data (fa_file f))) as [ds|]; [|discriminate].
    destruct (dict_get _ (h5_index (fa_file f))) as [g|] eqn:Eg; [|discriminate].
    apply andb_true_iff in H as [H H3]. apply andb_true_iff in H as [H1 H2]. apply String.eqb_eq in H1.
    unfold zlist_eqb in H2. destruct (list_eq_dec _ _ _) as [H2'|]; [|discriminate].
    exists ds, g. do 4 (split; [auto|]). intros p a c Hp Ha Hc.
    rewrite forallb_forall in H3. specialize (H3 p). rewrite in_seq in H3. specialize (H3 ltac:(lia)).
    rewrite Ha, Hc in H3. now apply Z.leb_le.
Qed.

Definition good_ctrlb (d : dcoll) (s : string) : bool :=
  forallb (fun f => negb (str_in s (fa_ctrl f)) ||
     match dict_get s (h5_index (fa_file f)) with
     | None => true
     | Some g => forallb (fun p => match nth_error (ix_first g) p, entry_count g p with
                   | Some a, Some c => (a =? Z.of_nat p)%Z && (c =? 1)%Z | _, _ => false end)
                   (seq 0 (List.length (fa_tids f)))
     end) (dc_files d).
Lemma good_ctrlb_ok : forall d s, good_ctrlb d s = true -> good_ctrl d s.
Proof.
  intros d s H f g Hf Hs Hg p Hp. unfold good_ctrlb in H. rewrite forallb_forall in H. specialize (H f Hf).
  apply str_in_iff in Hs. rewrite Hs, Hg in H. simpl in H. rewrite forallb_forall in H. specialize (H p).
  rewrite in_seq in H. specialize (H ltac:(lia)).
  destruct (nth_error (ix_first g) p), (entry_count g p); try discriminate.
  apply andb_true_iff in H as [H1 H2]. apply Z.eqb_eq in H1, H2. now subst.
Qed.

Definition good_collectionb (d : dcoll) : bool :=
  distinct_kindsb d && good_filesb d && forallb (good_ctrlb d) (dc_ctrl d) &&
  forallb (fun s => match keys_for_source d s with
                    | Ok ks => forallb (fun k => readable_indexb d s k && good_datab d s k) ks
                    | Err _ => true end) (dc_sources d).
Lemma good_collectionb_ok : forall d, good_collectionb d = true -> good_collection d.
Proof.
  intros d H. unfold good_collectionb in H. apply andb_true_iff in H as [H H4]. apply andb_true_iff in H as [H H3].
  apply andb_true_iff in H as [H1 H2].
  split; [now apply distinct_kindsb_ok|]. split; [now apply good_filesb_ok|]. split.
  - intros s Hs. apply good_ctrlb_ok. rewrite forallb_forall in H3. auto.
  - intros s k ks Hs Hks Hk. rewrite forallb_forall in H4. specialize (H4 s Hs). rewrite Hks in H4.
    rewrite forallb_forall in H4. specialize (H4 k Hk). apply andb_true_iff in H4 as [H5 H6].
    split; [now apply readable_indexb_ok|now apply good_datab_ok].
Qed.

(** Opened files give a reachable collection. *)
Lemma open_reachable : forall (fs : list (h5file V)) fas d,
  mapM (@fa_open V) fs = Ok fas -> mk_collection fas None None = Ok d -> reachable d.
Proof.
  intros fs fas d H Hd. eapply reach_open; [|exact Hd]. clear Hd d. revert fas H.
  induction fs as [|f fs IH]; intros fas H; simpl in H; [injection H as <-; constructor|].
  apply bind_ok in H as (fa & H1 & H). apply bind_ok in H as (rest & H2 & H). injection H as <-.
  constructor; [|auto]. assert (E : fa_file fa = f).
  { unfold fa_open in H1. destruct (h5_trainid f); [|discriminate]. apply bind_ok in H1 as ([c i] & _ & H1).
    injection H1 as <-. reflexivity. }
  now rewrite E.
Qed.
End K.
