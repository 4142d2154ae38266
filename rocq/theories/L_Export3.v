(** What the client reads from a message of protocol 2.2. *)
From Verif Require Import Base PyStr M_Export S_Export L_Base L_Export1 L_Export2.
Set Implicit Arguments.
Unset Strict Implicit.
Local Open Scope string_scope.
Local Open Scope list_scope.

(** ** Dictionaries *)
Lemma dget_nodup {B} (d : list (string * B)) k v : NoDup (dict_keys d) -> In (k, v) d -> dict_get k d = Some v.
Proof.
  induction d as [|[k' v'] d IH]; intros Hn Hin; [contradiction|]. cbn [dict_get].
  inversion Hn; subst. destruct Hin as [E | Hin].
  - injection E as -> ->. now rewrite String.eqb_refl.
  - destruct (String.eqb_spec k k') as [-> | _]; [|auto]. exfalso. apply H1. apply in_map with (f := fst) in Hin. exact Hin.
Qed.
Lemma dget_keys {B} (d : list (string * B)) k : dict_get k d = None <-> ~ In k (dict_keys d).
Proof.
  induction d as [|[k' v'] d IH]; cbn [dict_get dict_keys List.map fst].
  - split; [intros _ []|reflexivity].
  - destruct (String.eqb_spec k k') as [-> | Hk].
    + split; [discriminate|]. intros H; exfalso; apply H; now left.
    + rewrite IH. unfold dict_keys. split; intros H; [intros [E|E]; [congruence|auto]|intros E; apply H; now right].
Qed.
Lemma dget_perm {B} (d e : list (string * B)) k : NoDup (dict_keys d) -> Permutation d e -> dict_get k d = dict_get k e.
Proof.
  intros Hn Hp. assert (Hn' : NoDup (dict_keys e)) by (eapply Permutation_NoDup; [apply Permutation_map; exact Hp|assumption]).
  destruct (dict_get k d) as [v|] eqn:E.
  - symmetry. apply dget_nodup; [assumption|]. eapply Permutation_in; [exact Hp|]. now apply dict_get_In.
  - symmetry. apply dget_keys. apply dget_keys in E. intros H. apply E. unfold dict_keys in *.
    eapply Permutation_in; [apply Permutation_map, Permutation_sym, Hp|exact H].
Qed.
Lemma dset_same {B} k (v : B) d : dict_get k d = Some v -> dict_set k v d = d.
Proof.
  induction d as [|[k' v'] d IH]; cbn [dict_get dict_set]; [discriminate|].
  destruct (String.eqb_spec k k') as [-> | Hk]; intros H; [now injection H as ->|]. now rewrite IH.
Qed.
Lemma dset_set {B} k (v w : B) d : dict_set k v (dict_set k w d) = dict_set k v d.
Proof.
  induction d as [|[k' v'] d IH]; cbn [dict_set].
  - now rewrite String.eqb_refl.
  - destruct (String.eqb_spec k k') as [-> | Hk]; cbn [dict_set]; [now rewrite String.eqb_refl|].
    destruct (String.eqb_spec k k') as [-> | _]; [congruence|]. now rewrite IH.
Qed.
Lemma dset_new {B} k (v : B) d : ~ In k (dict_keys d) -> dict_set k v d = d ++ [(k, v)].
Proof.
  induction d as [|[k' v'] d IH]; intros H; [reflexivity|]. cbn [dict_set app].
  destruct (String.eqb_spec k k') as [-> | Hk]; [exfalso; apply H; now left|]. rewrite IH; [reflexivity|].
  intros E; apply H; now right.
Qed.
Lemma fold_set_app {B} (u d : list (string * B)) :
  NoDup (dict_keys d ++ dict_keys u) -> fold_left (fun d kv => dict_set (fst kv) (snd kv) d) u d = d ++ u.
Proof.
  revert d. induction u as [|[k v] u IH]; intros d H; cbn [fold_left fst snd]; [now rewrite app_nil_r|].
  rewrite dset_new.
  - rewrite IH; [now rewrite <- app_assoc|]. unfold dict_keys in *. rewrite map_app, <- app_assoc. exact H.
  - apply NoDup_remove_2 in H. intros E; apply H. apply in_or_app; now left.
Qed.

(** Same keys in the same order, related values. *)
Definition aligned {A B} (R : A -> B -> Prop) (l : list (string * A)) (e : list (string * B)) : Prop :=
  Forall2 (fun p q => fst p = fst q /\ R (snd p) (snd q)) l e.
Lemma aligned_keys {A B} (R : A -> B -> Prop) l e : aligned R l e -> dict_keys e = dict_keys l.
Proof. induction 1 as [|p q l e [E _] _ IH]; [reflexivity|]. cbn [dict_keys List.map]. now rewrite E, IH || (unfold dict_keys in *; now rewrite E, IH). Qed.
Lemma aligned_get {A B} (R : A -> B -> Prop) l e k : aligned R l e ->
  match dict_get k l, dict_get k e with Some a, Some b => R a b | None, None => True | _, _ => False end.
Proof.
  induction 1 as [|[a x] [b y] l e [E HR] _ IH]; cbn [dict_get]; [exact I|]. cbn [fst snd] in *. subst b.
  destruct (String.eqb k a); [exact HR|exact IH].
Qed.
Lemma aligned_app {A B} (R : A -> B -> Prop) l e l' e' : aligned R l e -> aligned R l' e' -> aligned R (l ++ l') (e ++ e').
Proof. apply Forall2_app. Qed.
Lemma same_dict_intro {A B} (R : A -> B -> Prop) d l e :
  NoDup (dict_keys d) -> Permutation d l -> aligned R l e -> same_dict R d e.
Proof.
  intros Hn Hp Ha. split.
  - rewrite (aligned_keys Ha). eapply Permutation_NoDup; [apply Permutation_map; exact Hp|assumption].
  - intros k. rewrite (dget_perm k Hn Hp). now apply aligned_get.
Qed.

Lemma cnats_shape s : cnats (List.map (fun n => CInt (Z.of_nat n)) s) = Some s.
Proof.
  induction s as [|n s IH]; [reflexivity|]. cbn [List.map cnats cnat].
  replace (0 <=? Z.of_nat n)%Z with true by (symmetry; apply Z.leb_le; lia). rewrite IH, Nat2Z.id. reflexivity.
Qed.

Section Export.
Variable isize : string -> nat.
Notation pack := (pack isize).
Notation got := (got isize).
Notation got_array := (got_array isize).
Notation client_read := (client_read isize).

(** ** Memory *)
Definition grows (h h' : heap) : Prop :=
  (h_next h <= h_next h')%nat /\ forall b i, (b < h_next h)%nat -> h_mem h' b i = h_mem h b i.
Lemma grows_refl h : grows h h.
Proof. split; auto. Qed.
Lemma grows_trans h1 h2 h3 : grows h1 h2 -> grows h2 h3 -> grows h1 h3.
Proof. intros [L1 M1] [L2 M2]. split; [lia|]. intros b i Hb. rewrite M2 by lia. auto. Qed.

Lemma got_array_mem m m' a c : (forall i, m (a_buf a) i = m' (a_buf a) i) -> got_array m a c -> got_array m' a c.
Proof.
  intros Hm (H1 & H2 & H3 & H4). unfold S_Export.got_array. repeat (split; [assumption|]). intros idx Hi. rewrite H4 by assumption.
  unfold elem. now apply read_ext.
Qed.

Lemma shape_packed np m shape : Forall (fun n => (Z.of_nat n < 2 ^ 63)%Z) shape ->
  pack np m (PTuple (List.map (fun n => PInt (Z.of_nat n)) shape)) = Ok (WArray (List.map (fun n => WInt (Z.of_nat n)) shape)).
Proof.
  intros H. rewrite pack_tuple.
  assert (E : mapM (pack np m) (List.map (fun n => PInt (Z.of_nat n)) shape) = Ok (List.map (fun n => WInt (Z.of_nat n)) shape)).
  { induction H as [|n shape Hn _ IH]; [reflexivity|]. cbn [List.map mapM]. rewrite IH. cbn [M_Export.pack].
    replace ((- 2 ^ 63 <=? Z.of_nat n) && (Z.of_nat n <? 2 ^ 64))%Z with true; [reflexivity|].
    symmetry. apply andb_true_iff. split; [apply Z.leb_le|apply Z.ltb_lt]; lia. }
  rewrite E. reflexivity.
Qed.

(** ** One array *)
Definition later (h h' : heap) (bufs : list nat) (m2 : memory) : Prop :=
  forall b i, In b bufs \/ (h_next h <= b)%nat -> (b < h_next h')%nat -> m2 b i = h_mem h' b i.

Lemma array_frames_ok src h k a fs h' : array_frames isize src h (k, a) = Ok (fs, h') -> arr_ok h a ->
  grows h h' /\
  forall m2, later h h' [a_buf a] m2 ->
  exists c, got_array (h_mem h) a c /\
  forall st d rest, dict_get src (fst st) = Some d ->
    client_read st (List.map (transmit m2) fs ++ rest) = client_read (dict_set src (dict_set k (CArr c) d) (fst st), snd st) rest.
Proof.
  intros H (Hl & Hb & Hs). unfold array_frames in H. cbn [fst snd] in H.
  destruct (if c_contiguous isize a then (a, h) else ascontiguousarray isize h a) as [a' h1] eqn:Ea.
  assert (Hsh : a_shape a' = a_shape a /\ a_dtype a' = a_dtype a).
  { destruct (c_contiguous isize a); injection Ea as <- <-; split; reflexivity. }
  destruct Hsh as [Esh Edt].
  assert (Hg : grows h h1).
  { destruct (c_contiguous isize a); injection Ea as <- <-; [apply grows_refl|]. split; cbn [h_next h_mem]; [lia|].
    intros b i Hlt. destruct (Nat.eqb_spec b (h_next h)); [lia|reflexivity]. }
  assert (Hbuf : (a_buf a' < h_next h1)%nat).
  { destruct (c_contiguous isize a); injection Ea as <- <-; [assumption|]. cbn [a_buf h_next]. lia. }
  assert (Hbuf2 : In (a_buf a') [a_buf a] \/ (h_next h <= a_buf a')%nat).
  { destruct (c_contiguous isize a); injection Ea as <- <-; [left; now left|]. right. cbn [a_buf]. lia. }
  assert (Hbytes : read (h_mem h1) (a_buf a') (a_off a') (prod (a_shape a') * isize (a_dtype a')) = tobytes isize (h_mem h) a).
  { destruct (c_contiguous isize a) eqn:Ec.
    - injection Ea as <- <-. now apply contiguous_bytes.
    - assert (E := copy_bytes isize h a). rewrite Ea in E. exact E. }
  rewrite pack_dict in H. cbn [mapM] in H. unfold pack_item in H. cbn [fst snd] in H.
  rewrite Esh, Edt in H. rewrite shape_packed in H by assumption. cbn [M_Export.pack bind] in H.
  injection H as <- <-. split; [assumption|].
  intros m2 Hm2. exists (mk_carr (a_dtype a) (a_shape a) (tobytes isize (h_mem h) a)). split; [apply tobytes_got|].
  intros st d rest Hd. cbn [List.map transmit app S_Export.client_read]. unfold array_data. cbn [transmit].
  assert (Eb : read m2 (a_buf a') (a_off a') (prod (a_shape a') * isize (a_dtype a')) = tobytes isize (h_mem h) a).
  { rewrite <- Hbytes. apply read_ext. intros i. apply Hm2; assumption. }
  rewrite Eb. unfold client_step. cbn [unpack List.map fst snd]. rewrite map_map.
  cbn [unpack]. unfold hstr.
  cbn [dict_get String.eqb Ascii.eqb Bool.eqb]. rewrite Hd, cnats_shape.
  rewrite tobytes_length, Nat.eqb_refl. reflexivity.
Qed.

Lemma later_mono h h1 h' b1 b2 m2 : grows h h1 -> incl b1 b2 -> later h h' b2 m2 -> later h1 h' b1 m2.
Proof. intros [Hg _] Hi H b i Hb Hlt. apply H; [|assumption]. destruct Hb as [Hb|Hb]; [left; auto|right; lia]. Qed.
Lemma later_first h h1 h' b1 b2 m2 : grows h1 h' -> incl b1 b2 -> later h h' b2 m2 -> later h h1 b1 m2.
Proof.
  intros [Hn Hg] Hi H b i Hb Hlt. rewrite H; [apply Hg; assumption| |lia]. destruct Hb as [Hb|Hb]; [left; auto|right; assumption].
Qed.
Lemma arr_ok_grows h h' a : grows h h' -> arr_ok h a -> arr_ok h' a.
Proof. intros [Hg _] (H1 & H2 & H3). repeat split; try assumption. lia. Qed.

Lemma all_array_frames_ok src l : forall h fs h', all_array_frames isize src h l = Ok (fs, h') ->
  Forall (fun ka => arr_ok h (snd ka)) l ->
  grows h h' /\
  forall m2, later h h' (List.map (fun ka => a_buf (snd ka)) l) m2 ->
  exists cs, aligned (got_array (h_mem h)) l cs /\
  forall st d rest, dict_get src (fst st) = Some d ->
    client_read st (List.map (transmit m2) fs ++ rest)
    = client_read (dict_set src (fold_left (fun d kv => dict_set (fst kv) (snd kv) d) (List.map (fun kc => (fst kc, CArr (snd kc))) cs) d) (fst st), snd st) rest.
Proof.
  induction l as [|[k a] l IH]; intros h fs h' H Hok; cbn [all_array_frames] in H.
  - injection H as <- <-. split; [apply grows_refl|]. intros m2 _. exists []. split; [constructor|]. intros [s1 s2] d rest Hd.
    cbn [List.map app fold_left fst snd] in *. now rewrite dset_same.
  - destruct (array_frames isize src h (k, a)) as [[fs1 h1]|] eqn:E1; [|discriminate]. cbn [bind] in H.
    destruct (all_array_frames isize src h1 l) as [[fs2 h2]|] eqn:E2; [|discriminate]. cbn [bind] in H. injection H as <- <-.
    inversion Hok as [|? ? Ha Hr]; subst. cbn [snd] in Ha.
    destruct (array_frames_ok E1 Ha) as [G1 C1].
    assert (Hr1 : Forall (fun ka => arr_ok h1 (snd ka)) l).
    { eapply Forall_impl; [|exact Hr]. intros ka. now apply arr_ok_grows. }
    destruct (IH _ _ _ E2 Hr1) as [G2 C2].
    split; [now apply (grows_trans G1)|]. intros m2 Hm2. cbn [List.map snd] in Hm2.
    destruct (C1 m2) as (c & Hc & Rc).
    { eapply later_first; [exact G2| |exact Hm2]. intros x [<-|[]]; now left. }
    destruct (C2 m2) as (cs & Hcs & Rcs).
    { eapply later_mono; [exact G1| |exact Hm2]. intros x Hx; now right. }
    exists ((k, c) :: cs). split.
    + constructor; [split; [reflexivity|exact Hc]|]. clear -Hcs Hr G1. revert Hr. induction Hcs as [|p q l cs [E H] _ IH]; intros Hr; [constructor|].
      inversion Hr; subst. constructor; [|now apply IH]. split; [assumption|]. apply got_array_mem with (m := h_mem h1); [|assumption].
      intros i. destruct G1 as [_ G1]. apply G1. apply H2.
    + intros st d rest Hd. rewrite map_app, <- app_assoc. rewrite (Rc st d _ Hd).
      rewrite Rcs with (d := dict_set k (CArr c) d).
      * cbn [List.map fold_left fst snd]. now rewrite dset_set.
      * cbn [fst]. rewrite dict_get_set, String.eqb_refl. reflexivity.
Qed.

(** ** One source *)
Lemma split_perm (ps : props) :
  Permutation ps (filter (fun p => negb (is_array (snd p))) ps ++ List.map (fun ka => (fst ka, PArr (snd ka))) (arrays_of ps)).
Proof.
  induction ps as [|[k v] ps IH]; [constructor|]. unfold arrays_of. cbn [filter snd flat_map is_array].
  destruct v; cbn [negb is_array app List.map]; try (constructor; exact IH).
  cbn [fst snd]. etransitivity; [constructor; exact IH|]. apply Permutation_middle.
Qed.

Lemma pack_mem m m' v : pack false m v = pack false m' v.
Proof.
  induction v as [|b|z|b|s|l|l IH|l IH|d IH|n|b|a|] using pval_ind'; try reflexivity.
  - rewrite !pack_list. f_equal. induction IH as [|x l Hx _ IHl]; [reflexivity|]. cbn [mapM]. now rewrite Hx, IHl.
  - rewrite !pack_tuple. f_equal. induction IH as [|x l Hx _ IHl]; [reflexivity|]. cbn [mapM]. now rewrite Hx, IHl.
  - rewrite !pack_dict. f_equal. induction IH as [|x l Hx _ IHl]; [reflexivity|]. cbn [mapM]. unfold pack_item at 1 3.
    now rewrite Hx, IHl.
Qed.

Lemma main_got m (ps : props) w : pack false m (PDict (main_of ps)) = Ok w ->
  exists d, unpack w = CDict d /\ aligned (got false m) (filter (fun p => negb (is_array (snd p))) ps) d.
Proof.
  intros H. apply pack_got in H. inversion H as [| | | | | | | |d d' Hd E1 E2| | | | |]; subst. exists d'. split; [reflexivity|].
  clear H E2. unfold main_of in Hd. revert d' Hd.
  induction (filter (fun p => negb (is_array (snd p))) ps) as [|[k v] l IH]; intros d' Hd; inversion Hd as [|? q ? d2 [E G] Hr]; subst; [constructor|].
  cbn [fst snd] in *. constructor; [|now apply IH]. split; [assumption|]. cbn [snd].
  destruct v as [| | | | | | | | |n| | |]; try exact G. destruct n; cbn [main_value np_item] in G; inversion G; subst; constructor; auto.
Qed.

Lemma source_frames_ok md m0 h src ps fs h' : source_frames isize md h src ps = Ok (fs, h') -> dict_ok ps ->
  (forall k a, In (k, PArr a) ps -> arr_ok h a) ->
  (forall k a i, In (k, PArr a) ps -> h_mem h (a_buf a) i = m0 (a_buf a) i) ->
  grows h h' /\
  forall m2, later h h' (List.map (fun ka => a_buf (snd ka)) (arrays_of ps)) m2 ->
  exists d x y, same_dict (got false m0) ps d /\ dict_get src md = Some x /\ got false m0 x y /\
  forall st rest, client_read st (List.map (transmit m2) fs ++ rest)
                  = client_read (dict_set src d (fst st), dict_set src y (snd st)) rest.
Proof.
  intros H Hn Harr Hm0. unfold source_frames in H. destruct (dict_get src md) as [x|] eqn:Ex; [|discriminate].
  rewrite pack_dict in H. cbn [mapM] in H. unfold pack_item in H. cbn [fst snd] in H.
  destruct (pack false (h_mem h) x) as [wx|] eqn:Epx; [|cbn in H; discriminate].
  destruct (pack false (h_mem h) (PDict (main_of ps))) as [wm|] eqn:Em; [|cbn in H; discriminate].
  cbn [M_Export.pack bind] in H.
  destruct (all_array_frames isize src h (arrays_of ps)) as [[fs1 h1]|] eqn:E1; [|discriminate]. cbn [bind] in H. injection H as <- <-.
  assert (Hin : forall ka, In ka (arrays_of ps) -> In (fst ka, PArr (snd ka)) ps).
  { intros [k a] Hka. unfold arrays_of in Hka. apply in_flat_map in Hka as ([k' v] & Hp & Hv). cbn [fst snd] in *.
    destruct v; try contradiction. destruct Hv as [Hv|[]]. injection Hv as -> ->. assumption. }
  assert (Hok : Forall (fun ka => arr_ok h (snd ka)) (arrays_of ps)).
  { apply Forall_forall. intros ka Hka. apply (Harr (fst ka)). auto. }
  destruct (all_array_frames_ok E1 Hok) as [G C]. split; [assumption|]. intros m2 Hm2.
  destruct (C m2 Hm2) as (cs & Hcs & R). rewrite pack_mem with (m' := m0) in Em. rewrite pack_mem with (m' := m0) in Epx. destruct (main_got Em) as (d & Ed & Hd).
  assert (Hperm := split_perm ps).
  set (arrs := List.map (fun kc => (fst kc, CArr (snd kc))) cs).
  assert (Harrs : aligned (got false m0) (List.map (fun ka => (fst ka, PArr (snd ka))) (arrays_of ps)) arrs).
  { unfold arrs. clear -Hcs Hin Hm0. revert Hin.  induction Hcs as [|p q l cs [E H] _ IH]; intros Hin; [constructor|]. cbn [List.map]. constructor; [|apply IH; intros ka Hk; apply Hin; now right].
    cbn [fst snd]. split; [assumption|]. constructor. apply got_array_mem with (m := h_mem h); [|exact H].
    intros i. apply (Hm0 (fst p)). apply Hin; now left. }
  assert (Hal : aligned (got false m0) (filter (fun p => negb (is_array (snd p))) ps ++ List.map (fun ka => (fst ka, PArr (snd ka))) (arrays_of ps)) (d ++ arrs)).
  { now apply aligned_app. }
  exists (d ++ arrs), x, (unpack wx). split; [|split; [reflexivity|split; [now apply pack_got|]]].
  - eapply same_dict_intro; [exact Hn|exact Hperm|exact Hal].
  - intros st rest. cbn [List.map transmit app S_Export.client_read]. unfold client_step. cbn [unpack List.map fst snd]. unfold hstr.
    cbn [dict_get String.eqb Ascii.eqb Bool.eqb]. rewrite Ed.
    rewrite R with (d := d) by (cbn [fst]; rewrite dict_get_set, String.eqb_refl; reflexivity).
    cbn [fst snd]. rewrite dset_set, fold_set_app; [reflexivity|].
    assert (Hk := aligned_keys Hal). unfold dict_keys in *. rewrite map_app in Hk. fold arrs. rewrite Hk.
    eapply Permutation_NoDup; [apply Permutation_map; exact Hperm|exact Hn].
Qed.


(** ** All sources *)
Lemma frames_of_sources_ok md m0 n0 data : forall h fs h', frames_of_sources isize md h data = Ok (fs, h') ->
  (forall src ps, In (src, ps) data -> dict_ok ps) ->
  (n0 <= h_next h)%nat -> (forall a, array_in data a -> arr_ok h a /\ (a_buf a < n0)%nat) ->
  (forall b i, (b < n0)%nat -> h_mem h b i = m0 b i) ->
  grows h h' /\
  forall m2, later h h' (flat_map (fun p => List.map (fun ka => a_buf (snd ka)) (arrays_of (snd p))) data) m2 ->
  exists cd cm, aligned (same_dict (got false m0)) data cd /\
    Forall2 (fun p q => fst p = fst q /\ exists x, dict_get (fst p) md = Some x /\ got false m0 x (snd q)) data cm /\
  forall st rest, client_read st (List.map (transmit m2) fs ++ rest)
    = client_read (fold_left (fun d kv => dict_set (fst kv) (snd kv) d) cd (fst st),
                   fold_left (fun d kv => dict_set (fst kv) (snd kv) d) cm (snd st)) rest.
Proof.
  induction data as [|[src ps] data IH]; intros h fs h' H Hd Hn0 Ha Hm0; cbn [frames_of_sources] in H.
  - injection H as <- <-. split; [apply grows_refl|]. intros m2 _. exists [], []. split; [constructor|]. split; [constructor|].
    intros [s1 s2] rest. reflexivity.
  - destruct (source_frames isize md h src ps) as [[fs1 h1]|] eqn:E1; [|discriminate]. cbn [bind] in H.
    destruct (frames_of_sources isize md h1 data) as [[fs2 h2]|] eqn:E2; [|discriminate]. cbn [bind] in H. injection H as <- <-.
    assert (Hps : forall k a, In (k, PArr a) ps -> arr_ok h a /\ (a_buf a < n0)%nat).
    { intros k a Hin. apply Ha. exists src, ps, k. split; [now left|assumption]. }
    assert (Hm1 : forall k a i, In (k, PArr a) ps -> h_mem h (a_buf a) i = m0 (a_buf a) i).
    { intros k a i Hin. apply Hm0. now apply (Hps k). }
    assert (Hdp : dict_ok ps) by (apply (Hd src); now left).
    destruct (source_frames_ok E1 Hdp (fun k a Hin => proj1 (Hps k a Hin)) Hm1) as [G1 C1].
    destruct (IH _ _ _ E2) as [G2 C2].
    { intros s p Hin. apply (Hd s); now right. }
    { destruct G1; lia. }
    { intros a (s & p & k & Hin & Hk). destruct (Ha a) as [H1 H2].
      - exists s, p, k. split; [now right|assumption].
      - split; [now apply (arr_ok_grows G1)|assumption]. }
    { intros b i Hb. destruct G1 as [_ G1]. rewrite G1 by lia. auto. }
    split; [now apply (grows_trans G1)|]. intros m2 Hm2. cbn [flat_map snd] in Hm2.
    destruct (C1 m2) as (d & x & y & Hd1 & Hx & Hy & R1).
    { eapply later_first; [exact G2| |exact Hm2]. now apply incl_appl. }
    destruct (C2 m2) as (cd & cm & Hcd & Hcm & R2).
    { eapply later_mono; [exact G1| |exact Hm2]. now apply incl_appr. }
    exists ((src, d) :: cd), ((src, y) :: cm). split; [constructor; [split; [reflexivity|exact Hd1]|exact Hcd]|].
    split; [constructor; [split; [reflexivity|exists x; auto]|exact Hcm]|].
    intros st rest. rewrite map_app, <- app_assoc, R1, R2. reflexivity.
Qed.
End Export.
