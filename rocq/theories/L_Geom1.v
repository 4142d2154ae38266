(** Tiles and modules; writing into arrays; pixel positions. *)

From Coq Require Import QArith Qround Qabs Lqa.
From Verif Require Import Base L_Base M_Geom S_Geom.

Set Implicit Arguments.
Unset Strict Implicit.

Local Open Scope Z_scope.
Ltac Zify.zify_post_hook ::= Z.div_mod_to_equations.
Local Open Scope list_scope.

(** ** Tiles within a module *)

Lemma data_pixel_in : forall d t s f, 0 <= t < n_tiles d -> in_tile d s f ->
  in_module d (fst (data_pixel d t s f)) (snd (data_pixel d t s f)).
Proof.
  intros d t s f Ht [Hs Hf]. unfold in_module. destruct d; cbn [data_pixel n_tiles frag_ss frag_fs mod_ss mod_fs fst snd] in *; try lia.
  destruct (Z.ltb_spec t 8); cbn [fst snd]; lia.
Qed.

Lemma data_pixel_onto : forall d ss fs, in_module d ss fs ->
  exists t s f, 0 <= t < n_tiles d /\ in_tile d s f /\ data_pixel d t s f = (ss, fs).
Proof.
  intros d ss fs [Hs Hf]. unfold in_tile. destruct d; cbn [data_pixel tile_slice n_tiles frag_ss frag_fs mod_ss mod_fs fst snd] in *.
  - exists (ss / 64), (ss mod 64), fs. repeat split; try lia. f_equal; lia.
  - destruct (fs <? 128) eqn:E; [apply Z.ltb_lt in E|apply Z.ltb_ge in E].
    + exists (7 - ss / 32), (ss mod 32), fs.
      assert (Ht : (7 - ss / 32 <? 8) = true) by (apply Z.ltb_lt; lia). rewrite Ht.
      repeat split; try lia. f_equal; lia.
    + exists (8 + ss / 32), (ss mod 32), (fs - 128).
      assert (Ht : (8 + ss / 32 <? 8) = false) by (apply Z.ltb_ge; lia). rewrite Ht.
      repeat split; try lia. f_equal; lia.
  - exists (fs / 256), ss, (fs mod 256). repeat split; try lia. f_equal; lia.
Qed.

Lemma data_pixel_inj : forall d t s f t' s' f',
  0 <= t < n_tiles d -> in_tile d s f -> 0 <= t' < n_tiles d -> in_tile d s' f' ->
  data_pixel d t s f = data_pixel d t' s' f' -> t = t' /\ s = s' /\ f = f'.
Proof.
  intros d t s f t' s' f' Ht [Hs Hf] Ht' [Hs' Hf'] E. destruct d; cbn [data_pixel tile_slice n_tiles frag_ss frag_fs mod_ss mod_fs fst snd] in *.
  - apply pair_equal_spec in E. lia.
  - destruct (Z.ltb_spec t 8); destruct (Z.ltb_spec t' 8); apply pair_equal_spec in E; lia.
  - apply pair_equal_spec in E. lia.
Qed.

(** [tile_slice] is the set of pixels [data_pixel] gives to the tile. *)
Lemma tile_slice_spec : forall d t ss fs, 0 <= t < n_tiles d ->
  let '(sss, sfs) := tile_slice d t in
  in_slice sss ss && in_slice sfs fs = true ->
  in_tile d (ss - fst sss) (fs - fst sfs) /\ data_pixel d t (ss - fst sss) (fs - fst sfs) = (ss, fs).
Proof.
  intros d t ss fs Ht. unfold in_tile, in_slice. destruct d; cbn [data_pixel tile_slice n_tiles frag_ss frag_fs mod_ss mod_fs fst snd] in *.
  - intros H. rewrite !andb_true_iff, !Z.leb_le, !Z.ltb_lt in H. repeat split; try lia. f_equal; lia.
  - destruct (t <? 8) eqn:E; rewrite ?Z.ltb_lt, ?Z.ltb_ge in E; cbn [fst snd]; intros H;
      rewrite !andb_true_iff, !Z.leb_le, !Z.ltb_lt in H; repeat split; try lia; f_equal; lia.
  - intros H. rewrite !andb_true_iff, !Z.leb_le, !Z.ltb_lt in H. repeat split; try lia. f_equal; lia.
Qed.

Lemma tile_slice_pixel : forall d t s f, 0 <= t < n_tiles d -> in_tile d s f ->
  let '(sss, sfs) := tile_slice d t in
  let '(ss, fs) := data_pixel d t s f in
  in_slice sss ss && in_slice sfs fs = true /\ ss - fst sss = s /\ fs - fst sfs = f.
Proof.
  intros d t s f Ht [Hs Hf]. unfold in_slice. destruct d; cbn [data_pixel tile_slice n_tiles frag_ss frag_fs mod_ss mod_fs fst snd] in *.
  - rewrite !andb_true_iff, !Z.leb_le, !Z.ltb_lt. repeat split; lia.
  - destruct (t <? 8) eqn:E; rewrite ?Z.ltb_lt, ?Z.ltb_ge in E; cbn [fst snd];
      rewrite !andb_true_iff, !Z.leb_le, !Z.ltb_lt; repeat split; lia.
  - rewrite !andb_true_iff, !Z.leb_le, !Z.ltb_lt. repeat split; lia.
Qed.

(** A tile's slice has as many rows and columns as the tile. *)
Lemma tile_slice_size : forall d t, let '(sss, sfs) := tile_slice d t in
  snd sss - fst sss = frag_ss d /\ snd sfs - fst sfs = frag_fs d.
Proof. intros [] t; cbn; [lia| |lia]. destruct (t <? 8); cbn; lia. Qed.

(** ** split_tiles *)

Lemma split_tiles_length : forall A d (a : Z -> Z -> A), Z.of_nat (List.length (split_tiles d a)) = n_tiles d.
Proof. intros A []; reflexivity. Qed.

Lemma split_tiles_spec : forall A d (a : Z -> Z -> A) t b,
  nth_error (split_tiles d a) (Z.to_nat t) = Some b -> 0 <= t ->
  forall s f, b s f = a (fst (data_pixel d t s f)) (snd (data_pixel d t s f)).
Proof.
  intros A d a t b H Ht s f.
  assert (L : t < n_tiles d).
  { rewrite <- (split_tiles_length d a). assert (Z.to_nat t < List.length (split_tiles d a))%nat; [|lia].
    apply nth_error_Some. rewrite H. discriminate. }
  rewrite <- (Z2Nat.id t) by lia. remember (Z.to_nat t) as k eqn:Ek.
  assert (K : (k < Z.to_nat (n_tiles d))%nat) by lia. clear Ek L Ht t.
  destruct d; cbn in K;
    do 16 (destruct k as [|k]; [cbn in H; injection H as <-; cbn; try reflexivity; f_equal; lia|]; try lia).
Qed.

(** ** Writing into an array *)

Section Writes.
Variables (St X K A : Type) (ap : St -> K -> A) (w : X -> K -> option A) (F : St -> X -> res St).

Definition writes (x : X) : Prop :=
  forall o, exists o', F o x = Ok o' /\ forall k, ap o' k = match w x k with Some v => v | None => ap o k end.

Lemma foldM_writes : forall l s, (forall x, In x l -> writes x) ->
  exists o, foldM F s l = Ok o /\
  forall k, (exists l1 x l2, l = l1 ++ x :: l2 /\ w x k = Some (ap o k) /\ forall x', In x' l2 -> w x' k = None) \/
            ((forall x, In x l -> w x k = None) /\ ap o k = ap s k).
Proof.
  induction l as [|x l IH]; intros s H.
  - exists s. split; [reflexivity|]. intros k. right. split; [intros ? []|reflexivity].
  - destruct (H x (or_introl eq_refl) s) as (s1 & E1 & W1).
    destruct (IH s1) as (o & E & W); [intros x' Hx'; apply H; right; exact Hx'|].
    exists o. split; [cbn [foldM]; rewrite E1; exact E|]. intros k.
    destruct (W k) as [(l1 & y & l2 & El & Hy & Hn)|[Hn He]].
    + left. exists (x :: l1), y, l2. subst l. auto.
    + rewrite W1 in He. destruct (w x k) as [v|] eqn:Ew.
      * left. exists [], x, l. rewrite Ew, He. auto.
      * right. split; [|exact He]. intros x' [<-|Hx']; [exact Ew|apply Hn; exact Hx'].
Qed.
End Writes.

(** the tiles of a geometry with their indexes, in order *)
Definition entries {A} (g : list (list A)) : list (Z * (Z * A)) :=
  flat_map (fun mi => map (fun ti => (fst mi, ti)) (zenum (snd mi))) (zenum g).

Lemma foldM_app : forall A S (f : S -> A -> res S) l1 l2 s,
  foldM f s (l1 ++ l2) = bind (foldM f s l1) (fun s' => foldM f s' l2).
Proof.
  induction l1 as [|a l1 IH]; intros l2 s; [reflexivity|]. cbn [app foldM bind].
  destruct (f s a); cbn [bind]; [apply IH|reflexivity].
Qed.

Lemma foldM_entries : forall A S (F : Z -> S -> Z * A -> res S) (g : list (list A)) s,
  foldM (fun out mi => foldM (F (fst mi)) out (zenum (snd mi))) s (zenum g)
  = foldM (fun out e => F (fst e) out (snd e)) s (entries g).
Proof.
  intros A S F g. unfold entries. generalize (zenum g). intros l.
  induction l as [|[m md] l IH]; intros s; [reflexivity|].
  cbn [flat_map foldM fst snd]. rewrite foldM_app.
  assert (E : forall l' s', foldM (fun out e => F (fst e) out (snd e)) s' (map (fun ti => (m, ti)) l') = foldM (F m) s' l').
  { clear. induction l' as [|x l' IH]; intros s'; [reflexivity|]. cbn [map foldM fst snd].
    destruct (F m s' x); cbn [bind]; [apply IH|reflexivity]. }
  rewrite E. destruct (foldM (F m) s (zenum md)); cbn [bind]; [apply IH|reflexivity].
Qed.

Lemma fold_left_entries : forall A S (F : Z -> S -> Z * A -> S) (g : list (list A)) s,
  fold_left (fun out mi => fold_left (F (fst mi)) (zenum (snd mi)) out) (zenum g) s
  = fold_left (fun out e => F (fst e) out (snd e)) (entries g) s.
Proof.
  intros A S F g. unfold entries. generalize (zenum g). intros l.
  induction l as [|[m md] l IH]; intros s; [reflexivity|].
  cbn [flat_map fold_left fst snd]. rewrite fold_left_app, IH. f_equal.
  clear. revert s. induction (zenum md) as [|x l' IH]; intros s; [reflexivity|]. cbn [map fold_left fst snd]. apply IH.
Qed.

Lemma zenum_nth : forall A (l : list A) k, nth_error (zenum l) k = option_map (fun a => (Z.of_nat k, a)) (nth_error l k).
Proof.
  intros A l. unfold zenum.
  assert (G : forall n k, nth_error (combine (map Z.of_nat (seq n (List.length l))) l) k
                          = option_map (fun a => (Z.of_nat (n + k), a)) (nth_error l k)).
  { induction l as [|a l IH]; intros n k; [destruct k; reflexivity|].
    cbn [List.length seq map combine]. destruct k as [|k]; [cbn; rewrite Nat.add_0_r; reflexivity|].
    cbn [nth_error]. rewrite IH. rewrite Nat.add_succ_comm. reflexivity. }
  intros k. apply (G 0%nat).
Qed.

Lemma zenum_In : forall A (l : list A) i a, In (i, a) (zenum l) <-> 0 <= i /\ nth_error l (Z.to_nat i) = Some a.
Proof.
  intros A l i a. split.
  - intros H. apply In_nth_error in H. destruct H as [k Hk]. rewrite zenum_nth in Hk.
    destruct (nth_error l k) eqn:E; [|discriminate]. inversion Hk; subst. split; [lia|]. rewrite Nat2Z.id. exact E.
  - intros [Hi H]. apply nth_error_In with (n := Z.to_nat i). rewrite zenum_nth, H. cbn. rewrite Z2Nat.id by lia. reflexivity.
Qed.

Lemma zenum_sorted : forall A (l : list A), StronglySorted (fun a b => fst a < fst b) (zenum l).
Proof.
  intros A l. unfold zenum.
  assert (G : forall n, StronglySorted (fun a b : Z * A => fst a < fst b) (combine (map Z.of_nat (seq n (List.length l))) l)).
  { induction l as [|a l IH]; intros n; [constructor|].
    cbn [List.length seq map combine]. constructor; [apply IH|]. apply Forall_forall. intros [i x] H.
    apply in_combine_l in H. apply in_map_iff in H. destruct H as (j & <- & Hj). apply in_seq in Hj. cbn. lia. }
  apply G.
Qed.

Definition at_ {A} (g : list (list A)) (m t : Z) : option A :=
  if (0 <=? m) && (0 <=? t)
  then match nth_error g (Z.to_nat m) with Some md => nth_error md (Z.to_nat t) | None => None end
  else None.

Lemma entries_In : forall A (g : list (list A)) m t a, In (m, (t, a)) (entries g) <-> at_ g m t = Some a.
Proof.
  intros A g m t a. unfold entries, at_. split.
  - intros H. apply in_flat_map in H. destruct H as ((m', md) & H1 & H2). cbn [fst snd] in H2.
    apply in_map_iff in H2. destruct H2 as (ti & E & H2). injection E as -> ->.
    apply zenum_In in H1. apply zenum_In in H2. destruct H1 as [P1 P2]. destruct H2 as [Q1 Q2].
    apply Z.leb_le in P1. apply Z.leb_le in Q1. rewrite P1, Q1, P2. exact Q2.
  - destruct (0 <=? m) eqn:P1; [|discriminate]. destruct (0 <=? t) eqn:Q1; [|discriminate]. cbn [andb].
    destruct (nth_error g (Z.to_nat m)) as [md|] eqn:E; [|discriminate]. intros H.
    apply Z.leb_le in P1. apply Z.leb_le in Q1.
    apply in_flat_map. exists (m, md). split; [apply zenum_In; auto|]. cbn [fst snd].
    apply in_map_iff. exists (t, a). split; [reflexivity|]. apply zenum_In. auto.
Qed.

Lemma StronglySorted_app_iff : forall A (R : A -> A -> Prop) l1 l2,
  StronglySorted R l1 -> StronglySorted R l2 -> (forall a b, In a l1 -> In b l2 -> R a b) -> StronglySorted R (l1 ++ l2).
Proof.
  induction l1 as [|a l1 IH]; intros l2 H1 H2 H; [exact H2|]. cbn. inversion H1; subst. constructor.
  - apply IH; auto. intros x y Hx Hy. apply H; [right; exact Hx|exact Hy].
  - apply Forall_app. split; [assumption|]. apply Forall_forall. intros y Hy. apply H; [left; reflexivity|exact Hy].
Qed.

Lemma entries_sorted : forall A (g : list (list A)),
  StronglySorted (fun a b => after (fst b) (fst (snd b)) (fst a) (fst (snd a))) (entries g).
Proof.
  intros A g. unfold entries. pose proof (zenum_sorted g) as H. induction H as [|[m md] l Hs IH Hf]; [constructor|].
  cbn [flat_map fst snd]. apply StronglySorted_app_iff; [|exact IH|].
  - clear. pose proof (zenum_sorted md) as H. induction H as [|[t a] l Hs IH Hf]; [constructor|].
    cbn [map]. constructor; [exact IH|]. apply Forall_forall. intros x Hx. apply in_map_iff in Hx.
    destruct Hx as (ti & <- & Hx). rewrite Forall_forall in Hf. specialize (Hf _ Hx). cbn in *. right. auto.
  - intros a b Ha Hb. apply in_map_iff in Ha. destruct Ha as (ti & <- & Ha).
    apply in_flat_map in Hb. destruct Hb as ((m', md') & H1 & H2). apply in_map_iff in H2. destruct H2 as (ti' & <- & H2).
    rewrite Forall_forall in Hf. specialize (Hf _ H1). cbn in *. left. exact Hf.
Qed.

Lemma sorted_split : forall A (R : A -> A -> Prop) l1 x l2 y, StronglySorted R (l1 ++ x :: l2) -> In y (l1 ++ x :: l2) ->
  y = x \/ In y l2 \/ R y x.
Proof.
  induction l1 as [|a l1 IH]; intros x l2 y H Hy.
  - destruct Hy as [<-|Hy]; auto.
  - inversion H; subst. destruct Hy as [<-|Hy]; [|apply IH; assumption].
    right; right. rewrite Forall_forall in H3. apply H3. apply in_or_app. right. left. reflexivity.
Qed.

Lemma after_irrefl : forall m t, ~ after m t m t.
Proof. unfold after. intros. lia. Qed.

(** ** Pixel positions *)

Lemma tile_at_at : forall g m t, tile_at g m t = at_ g m t.
Proof. reflexivity. Qed.

Lemma fits_at : forall d g m t tl, fits d g -> tile_at g m t = Some tl ->
  0 <= m < 16 /\ 0 <= t < n_tiles d /\ t_ss_px tl = frag_ss d /\ t_fs_px tl = frag_fs d.
Proof.
  intros d g m t tl [L H] E. unfold tile_at in E.
  destruct (0 <=? m) eqn:P1; [|discriminate]. destruct (0 <=? t) eqn:Q1; [|discriminate]. cbn [andb] in E.
  apply Z.leb_le in P1. apply Z.leb_le in Q1.
  destruct (nth_error g (Z.to_nat m)) as [md|] eqn:Em; [|discriminate].
  assert (Hm : (Z.to_nat m < List.length g)%nat) by (apply nth_error_Some; congruence).
  assert (Ht : (Z.to_nat t < List.length md)%nat) by (apply nth_error_Some; congruence).
  destruct (H md (nth_error_In _ _ Em)) as [Lm Hsz].
  destruct (Hsz tl (nth_error_In _ _ E)). repeat split; auto; lia.
Qed.

Definition pix_write (d : detector) (c : bool) (e : Z * (Z * tile)) (k : Z * Z * Z) : option vec :=
  let '(m, (t, tl)) := e in
  let '(m', s, f) := k in
  let '(sss, sfs) := tile_slice d t in
  if (m' =? m) && in_slice sss s && in_slice sfs f
  then let '(ps, pf) := adjust_pixel d c (s - fst sss) (f - fst sfs) in Some (tile_point tl ps pf)
  else None.

Lemma write_tile_writes : forall d c g e, fits d g -> In e (entries g) ->
  writes (fun (o : positions) k => let '(m, s, f) := k in o m s f) (pix_write d c)
         (fun out e => write_tile d c (fst e) out (snd e)) e.
Proof.
  intros d c g (m & t & tl) F H o. apply entries_In in H. rewrite <- tile_at_at in H.
  destruct (fits_at F H) as (Hm & Ht & _).
  cbn [fst snd]. unfold write_tile, pix_write.
  assert (E1 : (m <? n_modules d) = true) by (apply Z.ltb_lt; unfold n_modules; lia).
  assert (E2 : (t <? n_tiles d) = true) by (apply Z.ltb_lt; lia).
  rewrite E1, E2. cbn [negb]. destruct (tile_slice d t) as [sss sfs]. eexists. split; [reflexivity|].
  intros [[m' s] f]. destruct ((m' =? m) && in_slice sss s && in_slice sfs f); [|reflexivity].
  destruct (adjust_pixel d c (s - fst sss) (f - fst sfs)). reflexivity.
Qed.

Lemma positions_spec : forall d g c, fits d g ->
  exists pos, get_pixel_positions d g c = Ok pos /\
  (forall m t tl s f, tile_at g m t = Some tl -> in_tile d s f ->
     pos m (fst (data_pixel d t s f)) (snd (data_pixel d t s f))
     = tile_point tl (fst (adjust_pixel d c s f)) (snd (adjust_pixel d c s f))) /\
  (forall m ss fs, in_module d ss fs -> (forall t s f, data_pixel d t s f = (ss, fs) -> in_tile d s f -> 0 <= t < n_tiles d -> tile_at g m t = None) ->
     pos m ss fs = vzero).
Proof.
  intros d g c F.
  destruct (@foldM_writes positions (Z * (Z * tile)) (Z * Z * Z) vec
              (fun o k => let '(m, s, f) := k in o m s f) (pix_write d c)
              (fun out e => write_tile d c (fst e) out (snd e)) (entries g) (fun _ _ _ => vzero)) as (pos & E & W).
  { intros e He. eapply write_tile_writes; eassumption. }
  exists pos. split; [unfold get_pixel_positions; rewrite foldM_entries; exact E|]. split.
  - intros m t tl s f Ht Hp.
    destruct (fits_at F Ht) as (Hm & Htr & _).
    pose proof (tile_slice_pixel Htr Hp) as P.
    set (ss := fst (data_pixel d t s f)) in *. set (fs := snd (data_pixel d t s f)) in *.
    assert (Edp : data_pixel d t s f = (ss, fs)) by (unfold ss, fs; destruct (data_pixel d t s f); reflexivity).
    rewrite Edp in P.
    assert (Hin : In (m, (t, tl)) (entries g)) by (apply entries_In; exact Ht).
    assert (Wt : pix_write d c (m, (t, tl)) (m, ss, fs) = Some (tile_point tl (fst (adjust_pixel d c s f)) (snd (adjust_pixel d c s f)))).
    { unfold pix_write. destruct (tile_slice d t) as [sss sfs]. destruct P as (P1 & P2 & P3).
      rewrite Z.eqb_refl. cbn [andb]. rewrite P1, P2, P3. destruct (adjust_pixel d c s f). reflexivity. }
    destruct (W (m, ss, fs)) as [(l1 & (m' & t' & tl') & l2 & El & Hw & Hn)|[Hn _]].
    + assert (Hin' : In (m', (t', tl')) (entries g)) by (rewrite El; apply in_or_app; right; left; reflexivity).
      apply entries_In in Hin'. rewrite <- tile_at_at in Hin'.
      destruct (fits_at F Hin') as (_ & Htr' & _).
      cbn in Hw.
      pose proof (@tile_slice_spec d t' ss fs Htr') as S.
      destruct (tile_slice d t') as [sss sfs] eqn:Ets.
      destruct ((m =? m') && in_slice sss ss && in_slice sfs fs) eqn:Eb; [|discriminate].
      apply andb_prop in Eb. destruct Eb as [Eb E3]. apply andb_prop in Eb. destruct Eb as [E1 E2].
      apply Z.eqb_eq in E1. subst m'. rewrite E2, E3 in S. destruct (S eq_refl) as [S1 S2].
      destruct (@data_pixel_inj d t s f t' (ss - fst sss) (fs - fst sfs) Htr Hp Htr' S1) as (-> & Es & Ef); [congruence|].
      rewrite <- Es, <- Ef in Hw. rewrite Ht in Hin'. inversion Hin'; subst tl'.
      destruct (adjust_pixel d c s f) as [ps pf]. cbn. congruence.
    + rewrite (Hn _ Hin) in Wt. discriminate.
  - intros m ss fs Hmod Hnone.
    destruct (W (m, ss, fs)) as [(l1 & (m' & t' & tl') & l2 & El & Hw & Hn)|[_ He]]; [|exact He].
    exfalso. assert (Hin' : In (m', (t', tl')) (entries g)) by (rewrite El; apply in_or_app; right; left; reflexivity).
    apply entries_In in Hin'. rewrite <- tile_at_at in Hin'. destruct (fits_at F Hin') as (_ & Htr' & _).
    cbn in Hw. pose proof (@tile_slice_spec d t' ss fs Htr') as S.
    destruct (tile_slice d t') as [sss sfs] eqn:Ets.
    destruct ((m =? m') && in_slice sss ss && in_slice sfs fs) eqn:Eb; [|discriminate].
    apply andb_prop in Eb. destruct Eb as [Eb E3]. apply andb_prop in Eb. destruct Eb as [E1 E2].
    apply Z.eqb_eq in E1. subst m'. rewrite E2, E3 in S. destruct (S eq_refl) as [S1 S2].
    rewrite (Hnone t' _ _ S2 S1 Htr') in Hin'. discriminate.
Qed.

Lemma veq_refl : forall a, veq a a.
Proof. intros a. repeat split; reflexivity. Qed.

Lemma point_tile_point : forall t s f, veq (tile_point t s f) (point t s f).
Proof. intros t s f. unfold veq, tile_point, point, vadd, vmul. cbn. repeat split; ring. Qed.

Lemma adjust_corner : forall d s f, 0 <= s ->
  (fst (adjust_pixel d false s f) == fst (pixel_origin d s f))%Q /\
  (snd (adjust_pixel d false s f) == snd (pixel_origin d s f))%Q.
Proof.
  intros d s f Hs. destruct d; cbn; try (split; reflexivity).
  rewrite Zmod_odd. destruct (Z.odd s); cbn; split; try reflexivity; ring.
Qed.

Lemma point_ext : forall t s f s' f', (s == s')%Q -> (f == f')%Q -> veq (point t s f) (point t s' f').
Proof. intros t s f s' f' Hs Hf. unfold veq, point. cbn. rewrite Hs, Hf. repeat split; reflexivity. Qed.

Lemma veq_trans : forall a b c, veq a b -> veq b c -> veq a c.
Proof. intros a b c (A1 & A2 & A3) (B1 & B2 & B3). repeat split; etransitivity; eassumption. Qed.

Lemma veq_sym : forall a b, veq a b -> veq b a.
Proof. intros a b (A1 & A2 & A3). repeat split; symmetry; assumption. Qed.

Definition mean_offset (d : detector) : Q * Q := match d with DSSC => (2 # 3, 1 # 2)%Q | _ => (1 # 2, 1 # 2)%Q end.

Lemma adjust_centre : forall d s f, 0 <= s ->
  (fst (adjust_pixel d true s f) == fst (pixel_origin d s f) + fst (mean_offset d))%Q /\
  (snd (adjust_pixel d true s f) == snd (pixel_origin d s f) + snd (mean_offset d))%Q.
Proof.
  intros d s f Hs. destruct d; cbn; try (split; reflexivity).
  rewrite Zmod_odd. destruct (Z.odd s); cbn; split; try reflexivity; ring.
Qed.

(** the centre is the mean of the corners *)
Lemma centre_mean : forall d t s f,
  veq (vmul (inject_Z (Z.of_nat (List.length (outline d)))) (point t (fst (pixel_origin d s f) + fst (mean_offset d)) (snd (pixel_origin d s f) + snd (mean_offset d))))
      (vsum (map (corner_point d t s f) (outline d))).
Proof.
  intros d t s f. unfold corner_point. destruct (pixel_origin d s f) as [a b].
  destruct d; unfold veq, vsum, point, vmul, vadd, vzero; cbn; repeat split; ring.
Qed.

(** ** data_coords_to_positions *)

Lemma concat_nth : forall A (g : list (list A)) n m t md a,
  (forall md, In md g -> List.length md = n) -> nth_error g m = Some md -> nth_error md t = Some a ->
  nth_error (List.concat g) (m * n + t) = Some a.
Proof.
  induction g as [|md0 g IH]; intros n m t md a L Hm Ht; [destruct m; discriminate|].
  cbn [List.concat]. destruct m as [|m].
  - cbn in Hm. injection Hm as ->. cbn. rewrite nth_error_app1; [exact Ht|]. apply nth_error_Some. congruence.
  - cbn in Hm. rewrite nth_error_app2; rewrite (L md0 (or_introl eq_refl)); [|cbn; lia].
    replace (S m * n + t - n)%nat with (m * n + t)%nat by (cbn; lia).
    eapply IH; eauto. intros md1 H1. apply L. right. exact H1.
Qed.

Lemma full_index : forall d g m t tl, full d g -> tile_at g m t = Some tl ->
  py_index (List.concat g) (m * n_tiles d + t) = Ok tl.
Proof.
  intros d g m t tl (F & L & Lm) E. destruct (fits_at F E) as (Hm & Ht & _).
  unfold tile_at in E. replace (0 <=? m) with true in E by (symmetry; apply Z.leb_le; lia).
  replace (0 <=? t) with true in E by (symmetry; apply Z.leb_le; lia). cbn [andb] in E.
  destruct (nth_error g (Z.to_nat m)) as [md|] eqn:Em; [|discriminate].
  assert (N : nth_error (List.concat g) (Z.to_nat m * Z.to_nat (n_tiles d) + Z.to_nat t) = Some tl).
  { eapply concat_nth; eauto. intros md1 H1. specialize (Lm md1 H1). lia. }
  replace (Z.to_nat m * Z.to_nat (n_tiles d) + Z.to_nat t)%nat with (Z.to_nat (m * n_tiles d + t)) in N by nia.
  assert (Lc : (Z.to_nat (m * n_tiles d + t) < List.length (List.concat g))%nat) by (apply nth_error_Some; congruence).
  unfold py_index. assert (0 <= m * n_tiles d + t) by nia.
  replace (m * n_tiles d + t <? 0) with false by (symmetry; apply Z.ltb_ge; lia).
  replace (0 <=? m * n_tiles d + t) with true by (symmetry; apply Z.leb_le; lia).
  replace (m * n_tiles d + t <? Z.of_nat (List.length (List.concat g))) with true by (symmetry; apply Z.ltb_lt; lia).
  cbn [andb]. rewrite N. reflexivity.
Qed.

Lemma full_at : forall d g m t, full d g -> 0 <= m < 16 -> 0 <= t < n_tiles d -> exists tl, tile_at g m t = Some tl.
Proof.
  intros d g m t (F & L & Lm) Hm Ht. unfold tile_at.
  replace (0 <=? m) with true by (symmetry; apply Z.leb_le; lia).
  replace (0 <=? t) with true by (symmetry; apply Z.leb_le; lia). cbn [andb].
  destruct (nth_error g (Z.to_nat m)) as [md|] eqn:Em; [|apply nth_error_None in Em; lia].
  specialize (Lm md (nth_error_In _ _ Em)).
  destruct (nth_error md (Z.to_nat t)) as [tl|] eqn:Et; [eauto|apply nth_error_None in Et; lia].
Qed.

Lemma Qfloor_div : forall a n, 0 < n -> Qfloor (a / inject_Z n) = Qfloor a / n.
Proof.
  intros a n Hn. pose proof (Qfloor_le a) as A1. pose proof (Qlt_floor a) as A2.
  set (k := Qfloor a) in *.
  assert (Qn : (0 < inject_Z n)%Q) by (rewrite (Zlt_Qlt 0 n) in Hn; exact Hn).
  assert (E : a == (a / inject_Z n) * inject_Z n) by (field; intros C; rewrite C in Qn; inversion Qn).
  set (b := (a / inject_Z n)%Q) in *.
  pose proof (Qfloor_le b) as B1. pose proof (Qlt_floor b) as B2. set (j := Qfloor b) in *.
  assert (J1 : j * n <= k).
  { assert (inject_Z (j * n) < inject_Z (k + 1))%Q; [|rewrite <- Zlt_Qlt in H; lia].
    rewrite inject_Z_mult. apply Qle_lt_trans with a; [|exact A2]. rewrite E. apply Qmult_le_compat_r; [exact B1|apply Qlt_le_weak; exact Qn]. }
  assert (J2 : k < (j + 1) * n).
  { rewrite Zlt_Qlt. apply Qle_lt_trans with a; [exact A1|]. rewrite E, inject_Z_mult.
    apply Qmult_lt_r; assumption. }
  apply Z.div_unique_pos with (k - j * n); lia.
Qed.

Lemma coords_to_tile : forall d ss fs, d <> DSSC ->
  in_module d (Qfloor ss) (Qfloor fs) ->
  exists t s f, 0 <= t < n_tiles d /\ in_tile d s f /\ data_pixel d t s f = (Qfloor ss, Qfloor fs) /\
  exists tss tfs, module_coords_to_tile d ss fs = Ok (t, tss, tfs) /\
    (tss == inject_Z s + (ss - inject_Z (Qfloor ss)))%Q /\ (tfs == inject_Z f + (fs - inject_Z (Qfloor fs)))%Q.
Proof.
  intros d ss fs Hd [Hs Hf]. unfold in_tile. destruct d; [| |congruence]; cbn [module_coords_to_tile frag_ss frag_fs n_tiles data_pixel mod_ss mod_fs] in *.
  - exists (Qfloor ss / 64), (Qfloor ss mod 64), (Qfloor fs). repeat split; try lia; [f_equal; lia|].
    unfold divmodq. eexists _, _. rewrite Qfloor_div by lia. split; [reflexivity|]. split.
    + rewrite Z.mod_eq by lia. unfold Z.sub. rewrite inject_Z_plus, inject_Z_opp, inject_Z_mult. ring.
    + ring.
  - unfold divmodq. rewrite !Qfloor_div by lia.
    set (a := Qfloor ss) in *. set (b := Qfloor fs) in *.
    exists ((1 - b / 128) * (7 - a / 32) + b / 128 * (a / 32 + 8)), (a mod 32), (b mod 128).
    assert (Hb : b / 128 = 0 \/ b / 128 = 1) by lia.
    split; [destruct Hb as [-> | ->]; lia|]. split; [lia|]. split.
    + destruct Hb as [Hb|Hb]; rewrite Hb.
      * replace ((1 - 0) * (7 - a / 32) + 0 * (a / 32 + 8)) with (7 - a / 32) by lia.
        replace (7 - a / 32 <? 8) with true by (symmetry; apply Z.ltb_lt; lia). f_equal; lia.
      * replace ((1 - 1) * (7 - a / 32) + 1 * (a / 32 + 8)) with (a / 32 + 8) by lia.
        replace (a / 32 + 8 <? 8) with false by (symmetry; apply Z.ltb_ge; lia). f_equal; lia.
    + eexists _, _. split; [reflexivity|]. split.
      * rewrite Z.mod_eq by lia. unfold Z.sub. rewrite inject_Z_plus, inject_Z_opp, inject_Z_mult. ring.
      * rewrite Z.mod_eq by lia. unfold Z.sub. rewrite inject_Z_plus, inject_Z_opp, inject_Z_mult. ring.
Qed.

Lemma coords_spec : forall d g m ss fs, d <> DSSC -> full d g -> 0 <= m < 16 ->
  in_module d (Qfloor ss) (Qfloor fs) ->
  exists t s f tl v, 0 <= t < n_tiles d /\ in_tile d s f /\ data_pixel d t s f = (Qfloor ss, Qfloor fs) /\
    tile_at g m t = Some tl /\
    data_coords_to_position d g m ss fs = Ok v /\
    veq v (point tl (inject_Z s + (ss - inject_Z (Qfloor ss))) (inject_Z f + (fs - inject_Z (Qfloor fs)))).
Proof.
  intros d g m ss fs Hd F Hm Hin.
  destruct (coords_to_tile Hd Hin) as (t & s & f & Ht & Hsf & Edp & tss & tfs & Ec & E1 & E2).
  destruct (full_at F Hm Ht) as [tl Etl].
  exists t, s, f, tl, (tile_point tl tss tfs). repeat (split; [assumption|]). split.
  - unfold data_coords_to_position. pose proof (full_index F Etl) as P.
    destruct (List.concat g) as [|t0 ts] eqn:Eg.
    + exfalso. unfold py_index in P. cbn in P. revert P.
      repeat match goal with |- context [if ?b then _ else _] => destruct b end; try discriminate.
      all: match goal with |- context [nth_error [] ?k] => destruct k end; discriminate.
    + rewrite Ec. cbn [bind]. rewrite P. reflexivity.
  - eapply veq_trans; [apply point_tile_point|]. apply point_ext; assumption.
Qed.
