(** get_array returns, for each train, the rows the index assigns to it. *)
From Verif Require Import Base PyStr M_Files M_Machinery M_Reader S_Reader L_Base L_Machinery L_Reader.
Set Implicit Arguments.
Local Open Scope string_scope.
Local Open Scope list_scope.

Section G.
Context {V : Type}.
Notation faccess := (faccess V).
Notation chunk := (chunk V).

(** ** Reading the index *)
Definition opened (fa : faccess) : Prop := fa_open (fa_file fa) = Ok fa.

Lemma nonzero_tids_ok : forall tids pad, Forall (fun t => 0 < t)%Z tids ->
  nonzero_tids (tids ++ repeat 0%Z pad) = tids.
Proof.
  intros tids pad H. unfold nonzero_tids. rewrite filter_app.
  replace (filter _ (repeat 0%Z pad)) with (@nil Z) by (induction pad; simpl; auto).
  rewrite app_nil_r. induction H as [|t l Ht _ IH]; simpl; [reflexivity|].
  replace (t =? 0)%Z with false by lia. simpl. now rewrite IH.
Qed.

Lemma opened_tids : forall fa, opened fa -> tids_ok (fa_file fa) ->
  exists pad, h5_trainid (fa_file fa) = Some (fa_tids fa ++ repeat 0%Z pad) /\
              NoDup (fa_tids fa) /\ Forall (fun t => 0 < t)%Z (fa_tids fa).
Proof.
  intros fa Ho (tids & pad & Hr & HN & HF). unfold opened, fa_open in Ho. rewrite Hr in Ho.
  apply bind_ok in Ho as ([c i] & _ & Ho). rewrite nonzero_tids_ok in Ho by assumption.
  rewrite <- (f_equal (fun r => match r with Ok a => fa_tids a | Err _ => [] end) Ho). simpl.
  exists pad; auto.
Qed.

Lemma zip3_ok : forall f a b c, List.length a = List.length b -> List.length b = List.length c ->
  exists l, zip3 f a b c = Ok l /\ List.length l = List.length a /\
    forall i x y z, nth_error a i = Some x -> nth_error b i = Some y -> nth_error c i = Some z ->
                    nth_error l i = Some (f x y z).
Proof.
  intros f a b c H1 H2. unfold zip3. rewrite H1, H2, !Nat.eqb_refl. simpl. eexists; split; [reflexivity|].
  split.
  - rewrite map_length, !combine_length. lia.
  - clear H1 H2. revert b c. induction a as [|x0 a IH]; intros b c i x y z Hx Hy Hz; [destruct i; discriminate|].
    destruct b as [|y0 b]; [destruct i; discriminate|]. destruct c as [|z0 c]; [destruct i; discriminate|].
    destruct i; simpl in *; [congruence|eauto].
Qed.

Lemma nth_error_len_ge : forall A (l : list A) n,
  (forall p, (p < n)%nat -> nth_error l p <> None) -> (n <= List.length l)%nat.
Proof.
  intros A l n H. destruct (Nat.le_gt_cases n (List.length l)) as [|G]; [assumption|].
  exfalso. apply (H (List.length l) G). now apply nth_error_None.
Qed.

Lemma u64_id : forall z, u64_range z -> u64 z = z.
Proof. intros z H; unfold u64, u64_range in *. now apply Z.mod_small. Qed.

Lemma index_read : forall (fa : faccess) s g G,
  dict_get (ix_path s g) (h5_index (fa_file fa)) = Some G ->
  index_readable G (List.length (fa_tids fa)) ->
  exists firsts counts,
    fa_get_index fa s g = Ok (firsts, counts) /\
    List.length firsts = List.length (fa_tids fa) /\ List.length counts = List.length (fa_tids fa) /\
    forall p, (p < List.length (fa_tids fa))%nat ->
      nth_error firsts p = nth_error (ix_first G) p /\ nth_error counts p = entry_count G p.
Proof.
  intros fa s g G Hg (Hwf & Hp). unfold fa_get_index. rewrite Hg.
  set (n := List.length (fa_tids fa)) in *.
  assert (L1 : (n <= List.length (ix_first G))%nat).
  { apply nth_error_len_ge. intros p Hlt. destruct (Hp p Hlt) as (a & c & Ha & _). congruence. }
  assert (F1 : List.length (firstn n (ix_first G)) = n) by (rewrite firstn_length; lia).
  unfold ix_wellformed, entry_count in *.
  destruct (ix_more G) as [cs|ls ss].
  - assert (L2 : (n <= List.length cs)%nat).
    { apply nth_error_len_ge. intros p Hlt. destruct (Hp p Hlt) as (a & c & _ & Hc & _). congruence. }
    do 2 eexists; split; [reflexivity|]. split; [assumption|]. split; [rewrite firstn_length; lia|].
    intros p Hlt. rewrite !nth_error_firstn. apply Nat.ltb_lt in Hlt. rewrite Hlt. auto.
  - destruct Hwf as (W1 & W2 & W3).
    assert (L2 : (n <= List.length ls)%nat /\ (n <= List.length ss)%nat).
    { split; apply nth_error_len_ge; intros p Hlt; destruct (Hp p Hlt) as (a & c & _ & Hc & _);
        destruct (nth_error ls p), (nth_error (ix_first G) p), (nth_error ss p); congruence. }
    destruct L2 as [L2 L3].
    assert (F2 : List.length (firstn n ls) = n) by (rewrite firstn_length; lia).
    assert (F3 : List.length (firstn n ss) = n) by (rewrite firstn_length; lia).
    destruct (@zip3_ok (fun last first st => u64 (u64 (u64 (last - first) + 1) * st))
                      (firstn n ls) (firstn n (ix_first G)) (firstn n ss)) as (l & Hz & Hl & Hn);
      [congruence|congruence|].
    rewrite Hz. simpl. do 2 eexists; split; [reflexivity|]. split; [assumption|]. split; [lia|].
    intros p Hlt. rewrite nth_error_firstn. pose proof Hlt as Hlt'. apply Nat.ltb_lt in Hlt. rewrite Hlt.
    split; [reflexivity|].
    destruct (Hp p Hlt') as (a & c & Ha & Hc & Ha0 & Hcr). rewrite Ha in Hc |- *.
    destruct (nth_error ls p) as [x|] eqn:E1; [|discriminate].
    destruct (nth_error ss p) as [z|] eqn:E3; [|discriminate].
    rewrite (Hn p x a z) by (rewrite nth_error_firstn, Hlt; assumption).
    f_equal. rewrite Forall_forall in W3. destruct (W3 z (nth_error_In _ _ E3)) as [->| ->].
    + simpl. rewrite Z.mul_0_r. reflexivity.
    + simpl in Hc. injection Hc as <-. simpl. rewrite Z.mul_1_r.
      unfold u64, u64_range in *. rewrite Zmod_mod. rewrite Zplus_mod_idemp_l.
      apply Z.mod_small. assumption.
Qed.

(** What the model reads from one index entry. *)
Definition file_ix (f : faccess) (s g : string) (E : list entry) : Prop :=
  exists firsts counts, fa_get_index f s g = Ok (firsts, counts) /\
    List.length firsts = List.length (fa_tids f) /\ List.length counts = List.length (fa_tids f) /\
    E = entries (fa_tids f) firsts counts /\ contig E /\ nonneg_entries E.

Lemma index_file_ix : forall (fa : faccess) s g G,
  dict_get (ix_path s g) (h5_index (fa_file fa)) = Some G ->
  index_ok G (List.length (fa_tids fa)) ->
  exists E, file_ix fa s g E /\
    forall p t a c, nth_error E p = Some (t, (a, c)) <->
      nth_error (fa_tids fa) p = Some t /\ nth_error (ix_first G) p = Some a /\ entry_count G p = Some c.
Proof.
  intros fa s g G Hg Hok. destruct (index_read fa s g Hg (proj1 Hok)) as (firsts & counts & Hr & L1 & L2 & Hn).
  destruct Hok as ((_ & Hp) & Hc).
  assert (HE : forall p t a c, nth_error (entries (fa_tids fa) firsts counts) p = Some (t, (a, c)) <->
      nth_error (fa_tids fa) p = Some t /\ nth_error (ix_first G) p = Some a /\ entry_count G p = Some c).
  { intros p t a c. rewrite entries_nth. split.
    - intros (H1 & H2 & H3). pose proof (nth_error_Some_lt _ _ H1) as Hl. destruct (Hn p Hl) as [<- <-]. auto.
    - intros (H1 & H2 & H3). pose proof (nth_error_Some_lt _ _ H1) as Hl. destruct (Hn p Hl) as [-> ->]. auto. }
  exists (entries (fa_tids fa) firsts counts). split; [|exact HE].
  exists firsts, counts. do 4 (split; [auto|]). split.
  - intros i [t [a c]] [t' [a' c']] H1 H2. apply HE in H1 as (H1 & H1' & H1''). apply HE in H2 as (H2 & H2' & H2'').
    unfold e_first, e_count; simpl. eapply Hc; try eassumption. eapply nth_error_Some_lt; eassumption.
  - unfold nonneg_entries. apply Forall_forall. intros [t [a c]] He. apply In_nth_error in He as [p He].
    apply HE in He as (H1 & H2 & H3). destruct (Hp p) as (a' & c' & E1 & E2 & E3 & E4);
      [eapply nth_error_Some_lt; eassumption|].
    unfold e_first, e_count; simpl. unfold u64_range in E4. rewrite E1 in H2; rewrite E2 in H3.
    injection H2 as <-; injection H3 as <-. lia.
Qed.

(** ** Chunks of a file *)
Definition chunk_for (f : faccess) (E : list entry) (c : chunk) : Prop :=
  ch_file c = f /\ ch_tids c = map fst E /\ ch_counts c = map e_count E /\
  match E with e :: _ => ch_first c = e_first e | [] => ch_first c = 0%Z end.

Lemma file_chunks_spec : forall sel f s g E chs,
  file_ix f s g E -> file_chunks sel s g f = Ok chs ->
  exists Es, Forall2 (chunk_for f) Es chs /\
    List.concat Es = filter (fun e => z_in (fst e) sel) E /\
    Forall contig Es /\ Forall nonneg_entries Es.
Proof.
  intros sel f s g E chs (firsts & counts & Hix & L1 & L2 & HE & Hc & Hn) H.
  unfold file_chunks in H. rewrite Hix in H. simpl in H.
  apply bind_ok in H as (rs & Hrs & H).
  assert (Hmask : np_isin (fa_tids f) sel = map (fun e => z_in (fst e) sel) E).
  { unfold np_isin. rewrite <- (@entries_fst (fa_tids f) firsts counts L1 L2) at 1. rewrite <- HE.
    now rewrite map_map. }
  assert (Hmax : maximal_regions (np_isin (fa_tids f) sel) rs).
  { destruct (np_isin (fa_tids f) sel) eqn:Em; [discriminate|].
    destruct (@contiguous_regions_correct (b :: l)) as (rs' & E1 & E2); [discriminate|].
    rewrite E1 in Hrs. injection Hrs as <-. assumption. }
  rewrite Hmask in Hmax.
  pose proof (regions_filter _ _ Hmax) as Hf.
  destruct rs as [|r0 rs0].
  - injection H as <-. exists [[]]. simpl in Hf |- *. split.
    + constructor; [|constructor]. repeat split.
    + split; [now rewrite <- Hf|]. split; (constructor; [|constructor]).
      * intros i e e' H1; destruct i; discriminate.
      * constructor.
  - remember (r0 :: rs0) as rs. clear Heqrs.
    exists (map (fun r => nslice E (fst r) (snd r)) rs).
    split; [|split; [|split]].
    + assert (Hb : forall a b, In (a, b) rs -> (a < b <= List.length E)%nat).
      { intros a b Hr. pose proof (regions_bound a b Hmax Hr) as B. now rewrite map_length in B. }
      apply mapM_ok_iff in H. clear Hrs Hmax Hf. induction H as [|[a b] c rs' chs' Hh _ IH]; simpl; constructor.
      * apply bind_ok in Hh as (first & Hfi & Hh). injection Hh as <-.
        unfold nth_res in Hfi. destruct (nth_error firsts a) as [x|] eqn:Ex; [|discriminate]. injection Hfi as ->.
        unfold chunk_for; simpl.
        split; [reflexivity|]. split.
        { rewrite <- nslice_map. rewrite HE, entries_fst by assumption. reflexivity. }
        split.
        { rewrite <- nslice_map. rewrite HE, entries_count by assumption. reflexivity. }
        destruct (Hb a b (or_introl eq_refl)) as [B1 B2].
        pose proof (nslice_nth E a b 0) as N. rewrite Nat.add_0_r in N.
        replace (0 <? b - a)%nat with true in N by (symmetry; apply Nat.ltb_lt; lia).
        destruct (nth_error E a) as [[t [a' c']]|] eqn:EE.
        -- destruct (nslice E a b) as [|e r]; [discriminate|]. simpl in N. injection N as ->.
           rewrite HE in EE. apply entries_nth in EE as (_ & EE & _). unfold e_first; simpl. congruence.
        -- apply nth_error_None in EE. lia.
      * apply IH. intros; apply Hb; now right.
    + rewrite <- flat_map_concat_map. exact Hf.
    + apply Forall_map, Forall_forall. intros r _. now apply contig_nslice.
    + apply Forall_map, Forall_forall. intros r _. unfold nonneg_entries in *. rewrite Forall_forall in *.
      intros e He. apply Hn. eapply nslice_incl; eassumption.
Qed.

Lemma expand_trainids_eq : forall counts tids, List.length counts = List.length tids ->
  expand_trainids counts tids = np_repeat tids counts.
Proof.
  intros counts tids H. unfold expand_trainids. rewrite H, Nat.min_id.
  rewrite firstn_all. rewrite <- H, firstn_all. reflexivity.
Qed.

Lemma contig_sum : forall E e0 el, contig E -> nth_error E 0 = Some e0 ->
  nth_error E (List.length E - 1) = Some el ->
  (e_first e0 + zsum (map e_count E) = e_first el + e_count el)%Z.
Proof.
  induction E as [|e E IH]; intros e0 el Hc H0 Hl; [discriminate|].
  simpl in H0. injection H0 as ->. destruct E as [|e1 E].
  - simpl in Hl. injection Hl as ->. simpl. lia.
  - change (zsum (map e_count (e0 :: e1 :: E))) with (e_count e0 + zsum (map e_count (e1 :: E)))%Z.
    rewrite <- (IH e1 el).
    + rewrite (Hc 0%nat e0 e1 eq_refl eq_refl). lia.
    + intros i x y Hx Hy. exact (Hc (S i) x y Hx Hy).
    + reflexivity.
    + replace (List.length (e0 :: e1 :: E) - 1)%nat with (S (List.length (e1 :: E) - 1)) in Hl by (simpl; lia).
      exact Hl.
Qed.

Lemma zslice_length : forall A (l : list A) a n, (0 <= a)%Z -> (0 <= n)%Z ->
  (a + n <= Z.of_nat (List.length l))%Z -> Z.of_nat (List.length (zslice l a (a + n))) = n.
Proof.
  intros A l a n Ha Hn H. unfold zslice. rewrite firstn_length, skipn_length. lia.
Qed.

Definition in_bounds (rows : list V) (e : entry) : Prop :=
  (e_first e + e_count e <= Z.of_nat (List.length rows))%Z.

(** The rows of a chunk which are all there. *)
Lemma chunk_rows_length : forall f E (c : chunk) rows,
  chunk_for f E c -> contig E -> nonneg_entries E -> Forall (in_bounds rows) E -> zsum (ch_counts c) <> 0%Z ->
  Z.of_nat (List.length (zslice rows (ch_first c) (ch_first c + zsum (ch_counts c)))) = zsum (ch_counts c).
Proof.
  intros f E c rows (Hf & Ht & Hc & Hfi) Hcon Hnn Hb Ez.
  assert (Hs : (0 <= zsum (ch_counts c))%Z).
  { apply zsum_nonneg. rewrite Hc. apply Forall_map. eapply Forall_impl; [|exact Hnn]. simpl; tauto. }
  destruct E as [|e E]; [rewrite Hc in Ez; exfalso; now apply Ez|].
  assert (exists el, nth_error (e :: E) (List.length (e :: E) - 1) = Some el) as [el Hel]
    by (apply nth_error_ex; simpl; lia).
  pose proof (contig_sum Hcon eq_refl Hel) as Hsum. rewrite <- Hc, <- Hfi in Hsum.
  assert (Hel' : In el (e :: E)) by (eapply nth_error_In; eassumption).
  rewrite Forall_forall in Hb. specialize (Hb _ Hel'). unfold in_bounds in Hb.
  assert (0 <= ch_first c)%Z by (inversion Hnn; subst; lia).
  rewrite zslice_length by lia. reflexivity.
Qed.

Lemma read_chunk_for : forall f E c s k ls rs,
  chunk_for f E c -> contig E -> nonneg_entries E ->
  (forall ds, ch_dataset s k c = Ok ds -> Forall (in_bounds (ds_rows ds)) E) -> read_chunk s k c = Ok (ls, rs) ->
  List.length ls = List.length rs /\ incl ls (ch_tids c) /\
  (forall ds, ch_dataset s k c = Ok ds -> combine ls rs = flat_map (entry_rows (ds_rows ds)) E).
Proof.
  intros f E c s k ls rs Hfor Hcon Hnn Hbd H. assert (Hfor' := Hfor). destruct Hfor' as (Hf & Ht & Hc & Hfi). unfold read_chunk in H.
  assert (Hcn : Forall (fun c => 0 <= c)%Z (ch_counts c)).
  { rewrite Hc. apply Forall_map. eapply Forall_impl; [|exact Hnn]. simpl; tauto. }
  assert (Hfn : (0 <= ch_first c)%Z).
  { destruct E as [|e E]; [lia|]. inversion Hnn; subst. lia. }
  destruct (zsum (ch_counts c) =? 0)%Z eqn:Ez.
  - injection H as <- <-. split; [reflexivity|]. split; [intros x []|]. intros ds _.
    apply Z.eqb_eq in Ez. symmetry. simpl.
    rewrite <- (@labelled_chunk V (ds_rows ds) E (ch_first c)); try assumption.
    + rewrite <- Hc, Ez. rewrite Z.add_0_r. unfold zslice. rewrite Z.sub_diag. simpl.
      now destruct (np_repeat _ _).
    + destruct E; auto.
    + rewrite <- Hc, Ez, Z.add_0_r. unfold zslice. rewrite Z.sub_diag. reflexivity.
  - apply bind_ok in H as (ds & Hds & H).
    apply Z.eqb_neq in Ez. pose proof (chunk_rows_length Hfor Hcon Hnn (Hbd _ Hds) Ez) as El.
    unfold ds_slice in H. rewrite El, Z.eqb_refl in H. injection H as <- <-.
    assert (HL : List.length (ch_counts c) = List.length (ch_tids c)) by (rewrite Hc, Ht, !map_length; reflexivity).
    rewrite expand_trainids_eq by assumption.
    split; [|split].
    + apply Nat2Z.inj. rewrite El. apply np_repeat_length; [congruence|assumption].
    + unfold np_repeat. intros x Hx. apply in_flat_map in Hx as ([t n] & Hin & Hx).
      apply repeat_spec in Hx. simpl in Hx; subst. eapply in_combine_l; eassumption.
    + intros ds' Hds'. rewrite Hds in Hds'. injection Hds' as <-.
      rewrite Ht, Hc in *. apply labelled_chunk; try assumption. destruct E; auto.
Qed.

(** The labels of a chunk do not depend on the data. *)
Lemma read_chunk_cases : forall s k (c : chunk) ls rs, read_chunk s k c = Ok (ls, rs) ->
  (zsum (ch_counts c) = 0%Z /\ ls = [] /\ rs = []) \/
  (zsum (ch_counts c) <> 0%Z /\ ls = expand_trainids (ch_counts c) (ch_tids c)).
Proof.
  intros s k c ls rs H. unfold read_chunk in H. destruct (zsum (ch_counts c) =? 0)%Z eqn:Ez.
  - left. apply Z.eqb_eq in Ez. injection H as <- <-. auto.
  - right. apply Z.eqb_neq in Ez. split; [assumption|]. apply bind_ok in H as (ds & _ & H).
    destruct (_ =? _)%Z in H; [now injection H as <- <-|].
    destruct (ds_slice _ _ _) as [|r [|? ?]]; [discriminate| |discriminate]. now injection H as <- <-.
Qed.

(** The labelled rows read for a chunk. *)
Definition rd (s k : string) (c : chunk) : list (Z * V) :=
  match read_chunk s k c with Ok (l, r) => combine l r | Err _ => [] end.

(** [dsel f] is the dataset of the field in file [f]. *)
Definition file_ds (s k : string) (f : faccess) := ch_dataset s k (mk_chunk f 0 [] []).
Lemma ch_dataset_file : forall s k (c : chunk) , ch_dataset s k c = file_ds s k (ch_file c).
Proof. reflexivity. Qed.

Definition frows (s k : string) (f : faccess) : list V :=
  match file_ds s k f with Ok ds => ds_rows ds | Err _ => [] end.

Definition files_ix (files : list faccess) (s g : string) (Ef : faccess -> list entry) : Prop :=
  forall f, In f files -> file_ix f s g (Ef f).

(** The datasets hold the rows of the index entries. *)
Definition files_hold (files : list faccess) (s k : string) (Ef : faccess -> list entry) : Prop :=
  forall f ds, In f files -> file_ds s k f = Ok ds -> Forall (in_bounds (ds_rows ds)) (Ef f).

Lemma chunks_read : forall sel s k g files Ef lch,
  files_ix files s g Ef -> files_hold files s k Ef ->
  Forall2 (fun f chs => file_chunks sel s g f = Ok chs) files lch ->
  (forall c, In c (List.concat lch) -> exists ds, ch_dataset s k c = Ok ds) ->
  (forall c, In c (List.concat lch) -> exists p, read_chunk s k c = Ok p) ->
  flat_map (rd s k) (List.concat lch) =
    flat_map (fun f => flat_map (entry_rows (frows s k f)) (filter (fun e => z_in (fst e) sel) (Ef f))) files /\
  flat_map (@ch_tids V) (List.concat lch) = flat_map (fun f => filter (fun t => z_in t sel) (fa_tids f)) files /\
  (forall c ls rs, In c (List.concat lch) -> read_chunk s k c = Ok (ls, rs) ->
       List.length ls = List.length rs /\ incl ls (ch_tids c)).
Proof.
  intros sel s k g files Ef lch HE HB H. revert HE HB.
  induction H as [|f chs files lch Hf H IH]; intros HE HB Hds Hrd; simpl.
  - split; [reflexivity|]. split; [reflexivity|]. intros c ls rs [].
  - simpl in Hds, Hrd.
    assert (HEf : file_ix f s g (Ef f)) by (apply HE; now left).
    destruct (@file_chunks_spec sel f s g (Ef f) chs HEf Hf) as (Es & HF2 & Hcc & HC & HN).
    destruct IH as (I1 & I2 & I3).
    { intros f' Hf'; apply HE; now right. }
    { intros f' ds' Hf'; apply HB; now right. }
    { intros c Hc. apply Hds. apply in_or_app; now right. }
    { intros c Hc. apply Hrd. apply in_or_app; now right. }
    assert (K : flat_map (rd s k) chs = flat_map (entry_rows (frows s k f)) (List.concat Es) /\
                flat_map (@ch_tids V) chs = map fst (List.concat Es) /\
                (forall c ls rs, In c chs -> read_chunk s k c = Ok (ls, rs) ->
                   List.length ls = List.length rs /\ incl ls (ch_tids c))).
    { assert (Hds' : forall c, In c chs -> exists ds, ch_dataset s k c = Ok ds)
        by (intros c Hc; apply Hds; apply in_or_app; now left).
      assert (Hrd' : forall c, In c chs -> exists p, read_chunk s k c = Ok p)
        by (intros c Hc; apply Hrd; apply in_or_app; now left).
      assert (HB' : forall ds, file_ds s k f = Ok ds -> Forall (in_bounds (ds_rows ds)) (List.concat Es)).
      { intros ds Hd. rewrite Hcc. apply Forall_forall. intros e He. apply filter_In in He as [He _].
        pose proof (HB f ds (or_introl eq_refl) Hd) as HBf. rewrite Forall_forall in HBf. auto. }
      clear -HF2 HC HN Hds' Hrd' HB'. induction HF2 as [|E c Es chs Hh HF2 IH]; simpl.
      - split; [reflexivity|]. split; [reflexivity|]. intros c ls rs [].
      - inversion HC; subst; inversion HN; subst.
        destruct IH as (J1 & J2 & J3); [assumption|assumption| | | |].
        { intros; apply Hds'; now right. } { intros; apply Hrd'; now right. }
        { intros ds Hd. pose proof (HB' ds Hd) as HBe. simpl in HBe. now apply Forall_app in HBe. }
        destruct (Hrd' c (or_introl eq_refl)) as [[ls rs] Hr].
        destruct (Hds' c (or_introl eq_refl)) as [ds Hd].
        assert (Hb0 : forall ds, ch_dataset s k c = Ok ds -> Forall (in_bounds (ds_rows ds)) E).
        { intros ds' Hd'. rewrite ch_dataset_file in Hd'. replace (ch_file c) with f in Hd' by (symmetry; apply Hh).
          pose proof (HB' ds' Hd') as HBe. simpl in HBe. now apply Forall_app in HBe. }
        destruct (@read_chunk_for f E c s k ls rs Hh H1 H3 Hb0 Hr) as (R1 & R2 & R3).
        rewrite flat_map_app, map_app, J1, J2. split; [|split].
        + f_equal. unfold rd. rewrite Hr. rewrite (R3 _ Hd). f_equal.
          destruct Hh as (Hfile & _). unfold frows. rewrite ch_dataset_file, Hfile in Hd. now rewrite Hd.
        + f_equal. apply Hh.
        + intros c' ls' rs' [<-|Hc'] Hr'; [|eauto]. rewrite Hr in Hr'. injection Hr' as <- <-. auto. }
    destruct K as (K1 & K2 & K3).
    rewrite !flat_map_app, I1, I2, K1, K2, Hcc. split; [reflexivity|]. split.
    + f_equal. destruct HEf as (fi & co & _ & L1 & L2 & HEe & _).
      rewrite HEe. rewrite <- (@entries_fst (fa_tids f) fi co L1 L2) at 2.
      generalize (entries (fa_tids f) fi co). intros l; induction l as [|e l IHl]; simpl; [reflexivity|].
      destruct (z_in (fst e) sel); simpl; now rewrite IHl.
    + intros c ls rs Hc Hr. apply in_app_or in Hc as [Hc|Hc]; eauto.
Qed.

Lemma NoDup_app_disjoint : forall A (a b : list A) x, NoDup (a ++ b) -> In x a -> In x b -> False.
Proof.
  induction a as [|y a IH]; intros b x H Ha Hb; [destruct Ha|].
  simpl in H. inversion H; subst. destruct Ha as [->|Ha]; [apply H2, in_or_app; now right|eauto].
Qed.
Lemma NoDup_app_r : forall A (a b : list A), NoDup (a ++ b) -> NoDup b.
Proof. induction a as [|y a IH]; intros b H; [assumption|]. apply IH. now inversion H. Qed.
Lemma NoDup_app_l : forall A (a b : list A), NoDup (a ++ b) -> NoDup a.
Proof.
  induction a as [|y a IH]; intros b H; [constructor|]. simpl in H; inversion H; subst.
  constructor; [intros Hy; apply H2, in_or_app; now left|eauto].
Qed.
Lemma NoDup_app_intro : forall A (a b : list A), NoDup a -> NoDup b ->
  (forall x, In x a -> In x b -> False) -> NoDup (a ++ b).
Proof.
  induction a as [|y a IH]; intros b Ha Hb H; simpl; [assumption|].
  inversion Ha; subst. constructor.
  - rewrite in_app_iff. intros [|Hy]; [contradiction|]. apply (H y); [now left|assumption].
  - apply IH; [assumption|assumption|]. intros x Hx; apply H. now right.
Qed.

Lemma pairs_of_NoDup : forall A B (h : A -> list Z) (g : A -> list B) t l,
  NoDup (flat_map h l) -> (forall x, In x l -> ~ In t (h x) -> g x = []) ->
  ForallOrdPairs (fun x y => g x = [] \/ g y = []) l.
Proof.
  intros A B h g t; induction l as [|x l IH]; intros HN H; simpl in *; constructor.
  - apply Forall_forall. intros y Hy.
    destruct (in_dec Z.eq_dec t (h x)) as [Hx|Hx]; [|left; apply H; auto].
    right. apply H; [now right|]. intros Hy'. eapply NoDup_app_disjoint; [exact HN|exact Hx|].
    apply in_flat_map; eauto.
  - apply IH; [eapply NoDup_app_r; eassumption|]. intros; apply H; auto.
Qed.

(** Conflicts between files *)
Lemma tids_conflict_spec : forall (files : list faccess) got,
  tids_conflict got files = false <->
  (forall f, In f files -> forall t, In t (fa_tids f) -> ~ In t got) /\
  ForallOrdPairs (fun f1 f2 => forall t, In t (fa_tids f1) -> ~ In t (fa_tids f2)) files.
Proof.
  induction files as [|f files IH]; intros got; simpl.
  - split; [intros _; split; [intros ? []|constructor]|auto].
  - destruct (existsb _ _) eqn:E.
    + split; [discriminate|]. intros [H _]. apply existsb_exists in E as (t & Ht & E). apply z_in_iff in E.
      exfalso. exact (H f (or_introl eq_refl) t Ht E).
    + rewrite IH. split.
      * intros [H1 H2]. split.
        -- intros f' [<-|Hf'] t Ht Hg.
           ++ assert (X : existsb (fun t => z_in t got) (fa_tids f) = true)
                by (apply existsb_exists; exists t; split; [assumption|now apply z_in_iff]). congruence.
           ++ apply (H1 f' Hf' t Ht). apply in_or_app; now left.
        -- constructor; [|assumption]. apply Forall_forall. intros f2 Hf2 t Ht Ht2.
           apply (H1 f2 Hf2 t Ht2). apply in_or_app; now right.
      * intros [H1 H2]. inversion H2; subst. split; [|assumption].
        intros f' Hf' t Ht Hg. apply in_app_or in Hg as [Hg|Hg].
        -- exact (H1 f' (or_intror Hf') t Ht Hg).
        -- rewrite Forall_forall in H3. exact (H3 f' Hf' t Hg Ht).
Qed.

Lemma no_conflict_NoDup : forall (files : list faccess),
  tids_conflict [] files = false -> Forall (fun f => NoDup (fa_tids f)) files ->
  NoDup (flat_map (@fa_tids V) files).
Proof.
  intros files H HF. apply tids_conflict_spec in H as [_ H].
  induction H as [|f files Hf H IH]; simpl; [constructor|]. inversion HF; subst.
  apply NoDup_app_intro; [assumption|auto|].
  intros t Ht Ht2. apply in_flat_map in Ht2 as (f2 & Hf2 & Ht2). rewrite Forall_forall in Hf. exact (Hf f2 Hf2 t Ht Ht2).
Qed.

Lemma index_sources_In : forall (files : list faccess) s,
  In s (index_sources files) <-> exists f, In f files /\ In s (fa_sources f).
Proof.
  intros files s. unfold index_sources. rewrite fold_set_union_In. simpl. intuition.
Qed.
Lemma source_files_In : forall (files : list faccess) s f,
  In f (source_files files s) <-> In f files /\ In s (fa_sources f).
Proof. intros; unfold source_files. rewrite filter_In, str_in_iff. tauto. Qed.

Lemma check_conflicts_ok : forall (files : list faccess) s,
  check_source_conflicts files = Ok tt -> tids_conflict [] (source_files files s) = false.
Proof.
  intros files s H. unfold check_source_conflicts in H.
  destruct (existsb _ _) eqn:E; [discriminate|].
  destruct (source_files files s) as [|f fs] eqn:Es; [reflexivity|]. rewrite <- Es.
  destruct (tids_conflict [] (source_files files s)) eqn:C; [|reflexivity].
  assert (X : existsb (fun s => tids_conflict [] (source_files files s)) (index_sources files) = true);
    [|congruence].
  apply existsb_exists. exists s. split; [|assumption].
  apply index_sources_In. exists f.
  apply source_files_In. rewrite Es. now left.
Qed.

Lemma get_array_entries : forall (d : dcoll V) s k a Ef,
  let g := if str_in s (dc_inst d) then key_group k else "" in
  let fs := source_files (dc_files d) s in
  get_array d s k = Ok a ->
  files_ix fs s g Ef -> files_hold fs s k Ef ->
  NoDup (flat_map (@fa_tids V) fs) ->
  forall t, filter (fun p => (fst p =? t)%Z) (combine (la_labels a) (la_rows a)) =
    flat_map (fun f => filter (fun p => (fst p =? t)%Z)
       (flat_map (entry_rows (frows s k f)) (filter (fun e => z_in (fst e) (dc_tids d)) (Ef f)))) fs.
Proof.
  intros d s k a Ef g fs H HE HB HN t. unfold get_array in H.
  apply bind_ok in H as ([] & _ & H). apply bind_ok in H as (chs & Hchs & H).
  apply bind_ok in H as (dss & Hdss & H). apply bind_ok in H as (ty & _ & H).
  apply bind_ok in H as (parts & Hparts & H).
  destruct (Nat.eqb _ _) in H; [|discriminate]. injection H as <-. simpl.
  unfold sorted_chunks in Hchs. apply bind_ok in Hchs as (chs0 & Hc0 & Hchs). injection Hchs as <-.
  unfold find_data_chunks in Hc0. apply bind_ok in Hc0 as (lch & Hlch & Hc0). injection Hc0 as <-.
  fold g in Hlch. fold fs in Hlch. apply mapM_ok_iff in Hlch.
  set (chs := List.concat lch) in *.
  pose proof (sort_key_perm (@chunk_key V) chs) as HP.
  apply mapM_ok_iff in Hdss. apply mapM_ok_iff in Hparts.
  assert (Hds : forall c, In c chs -> exists ds, ch_dataset s k c = Ok ds).
  { intros c Hc. apply (Permutation_in _ HP) in Hc. clear -Hc Hdss.
    induction Hdss; [destruct Hc|]. destruct Hc as [<-|Hc]; eauto. }
  assert (Hrd : forall c, In c chs -> exists p, read_chunk s k c = Ok p).
  { intros c Hc. apply (Permutation_in _ HP) in Hc. clear -Hc Hparts.
    induction Hparts; [destruct Hc|]. destruct Hc as [<-|Hc]; eauto. }
  destruct (@chunks_read (dc_tids d) s k g fs Ef lch HE HB Hlch Hds Hrd) as (C1 & C2 & C3).
  fold chs in C1, C2, C3.
  assert (Hcomb : combine (flat_map fst parts) (flat_map snd parts) = flat_map (rd s k) (sort_key (@chunk_key V) chs)).
  { rewrite combine_flat_map.
    - clear -Hparts. induction Hparts as [|c [ls rs] cs ps Hc _ IH]; simpl; [reflexivity|].
      rewrite IH. f_equal. unfold rd. now rewrite Hc.
    - intros [ls rs] Hp. simpl.
      assert (exists c, In c chs /\ read_chunk s k c = Ok (ls, rs)) as (c & Hc & Hr).
      { apply Permutation_sym in HP.
        assert (X : exists c, In c (sort_key (@chunk_key V) chs) /\ read_chunk s k c = Ok (ls, rs)).
        { clear -Hparts Hp. induction Hparts; [destruct Hp|]. destruct Hp as [->|Hp].
          - exists x; split; [now left|assumption].
          - destruct (IHHparts Hp) as (c & Hc & Hr). exists c; split; [now right|assumption]. }
        destruct X as (c & Hc & Hr). exists c; split; [eapply Permutation_in; eassumption|assumption]. }
      apply (C3 c ls rs Hc Hr). }
  rewrite Hcomb, filter_flat_map.
  assert (HNc : NoDup (flat_map (@ch_tids V) chs)).
  { rewrite C2. rewrite <- filter_flat_map. now apply NoDup_filter. }
  destruct (@flat_map_perm_single _ _ (fun c => filter (fun p => (fst p =? t)%Z) (rd s k c)) _ _ HP) as [P1 _].
  { eapply pairs_of_NoDup with (t := t); [exact HNc|]. intros c Hc Hnt.
    destruct (Hrd c Hc) as [[ls rs] Hr]. destruct (C3 c ls rs Hc Hr) as [_ Hincl].
    unfold rd. rewrite Hr. clear -Hnt Hincl.
    assert (X : forall p, In p (combine ls rs) -> (fst p =? t)%Z = false).
    { intros [l r] Hp. simpl. apply Z.eqb_neq. intros ->. apply Hnt, Hincl. eapply in_combine_l; eassumption. }
    induction (combine ls rs) as [|p q IH]; simpl; [reflexivity|].
    rewrite (X p (or_introl eq_refl)). apply IH. intros; apply X; now right. }
  rewrite <- P1. rewrite <- filter_flat_map, C1, filter_flat_map. reflexivity.
Qed.

Lemma flat_map_one : forall A B (h : A -> list Z) (g : A -> list B) t l x,
  NoDup (flat_map h l) -> (forall x, In x l -> ~ In t (h x) -> g x = []) ->
  In x l -> In t (h x) -> flat_map g l = g x.
Proof.
  intros A B h g t; induction l as [|y l IH]; intros x HN H Hx Ht; [destruct Hx|]. simpl in *.
  destruct Hx as [->|Hx].
  - rewrite flat_map_nil; [apply app_nil_r|]. intros z Hz. apply H; [now right|].
    intros Htz. eapply NoDup_app_disjoint; [exact HN|exact Ht|]. apply in_flat_map; eauto.
  - rewrite (H y); [|now left|].
    + simpl. apply IH; auto. eapply NoDup_app_r; eassumption.
    + intros Hty. eapply NoDup_app_disjoint; [exact HN|exact Hty|]. apply in_flat_map; eauto.
Qed.

Lemma files_one : forall files f t (fs : list faccess) s k Ef sel,
  NoDup (flat_map (@fa_tids V) fs) -> files = fs ->
  (forall f, In f fs -> map fst (Ef f) = fa_tids f) -> In f fs -> In t (fa_tids f) -> In t sel ->
  exists a c, In (t, (a, c)) (Ef f) /\
  flat_map (fun f => filter (fun p => (fst p =? t)%Z)
       (flat_map (entry_rows (frows s k f)) (filter (fun e => z_in (fst e) sel) (Ef f)))) fs
  = entry_rows (frows s k f) (t, (a, c)).
Proof.
  intros files f t fs s k Ef sel HN _ HE Hf Ht Hsel.
  rewrite (@flat_map_one _ _ (@fa_tids V) _ t fs f); try assumption.
  - rewrite <- (HE f Hf) in Ht. apply in_map_iff in Ht as ([t' [a c]] & <- & He). simpl.
    exists a, c. split; [assumption|]. apply filter_entries_one.
    + assert (NoDup (fa_tids f)).
      { clear -HN Hf. induction fs as [|y fs IH]; [destruct Hf|]. simpl in HN. destruct Hf as [->|Hf].
        - eapply NoDup_app_l; eassumption.
        - apply IH; [eapply NoDup_app_r; eassumption|assumption]. }
      rewrite <- (HE f Hf) in H. clear -H.
      induction (Ef f) as [|e l IH]; simpl in *; [constructor|]. inversion H; subst.
      destruct (z_in _ _); simpl; [constructor|]; auto.
      intros Hin. apply in_map_iff in Hin as (x & Hx & Hin). apply filter_In in Hin as [Hin _].
      apply H2. rewrite <- Hx. now apply in_map.
    + apply filter_In. split; [assumption|]. now apply z_in_iff.
    + reflexivity.
  - intros f' Hf' Hnt. apply filter_entries_none. intros Hin.
    apply in_map_iff in Hin as (x & Hx & Hin). apply filter_In in Hin as [Hin _].
    apply Hnt. rewrite <- (HE f' Hf'), <- Hx. now apply in_map.
Qed.
Lemma files_none : forall t (fs : list faccess) s k Ef sel,
  (forall f, In f fs -> map fst (Ef f) = fa_tids f) ->
  (forall f, In f fs -> In t (fa_tids f) -> ~ In t sel) ->
  flat_map (fun f => filter (fun p => (fst p =? t)%Z)
       (flat_map (entry_rows (frows s k f)) (filter (fun e => z_in (fst e) sel) (Ef f)))) fs = [].
Proof.
  intros t fs s k Ef sel HE H. apply flat_map_nil. intros f Hf. apply filter_entries_none.
  intros Hin. apply in_map_iff in Hin as (x & Hx & Hin). apply filter_In in Hin as [Hin Hs].
  apply z_in_iff in Hs. subst t. apply (H f Hf); [|assumption]. rewrite <- (HE f Hf). now apply in_map.
Qed.

End G.
Arguments zslice_length {A l a n} _ _ _.
