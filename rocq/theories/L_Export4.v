(** Serialisation as a whole. *)
From Verif Require Import Base PyStr M_Export S_Export L_Base L_Export1 L_Export2 L_Export3.
Set Implicit Arguments.
Unset Strict Implicit.
Local Open Scope string_scope.
Local Open Scope list_scope.

Section Export.
Variable isize : string -> nat.
Notation pack := (pack isize).
Notation got := (got isize).
Notation serialize := (serialize isize).

Definition by_source (a b : string * props) : bool := String.leb (fst a) (fst b).
Lemma sort_sources_perm data : Permutation data (isort by_source data).
Proof. apply isort_perm. Qed.

Lemma arrays_of_in ps k a : In (k, a) (arrays_of ps) <-> In (k, PArr a) ps.
Proof.
  unfold arrays_of. rewrite in_flat_map. split.
  - intros ([k' v] & Hp & Hv). cbn [fst snd] in *. destruct v; try contradiction. destruct Hv as [Hv|[]]. now injection Hv as -> ->.
  - intros H. exists (k, PArr a). split; [assumption|]. now left.
Qed.

Lemma frames_even md data : forall h fs h', frames_of_sources isize md h data = Ok (fs, h') -> Nat.Even (List.length fs).
Proof.
  assert (Ha : forall src l h fs h', all_array_frames isize src h l = Ok (fs, h') -> Nat.Even (List.length fs)).
  { induction l as [|ka l IH]; intros h fs h' H; cbn [all_array_frames] in H; [injection H as <- <-; now exists 0%nat|].
    destruct (array_frames isize src h ka) as [[f1 h1]|] eqn:E1; [|discriminate]. cbn [bind] in H.
    destruct (all_array_frames isize src h1 l) as [[f2 h2]|] eqn:E2; [|discriminate]. cbn [bind] in H. injection H as <- <-.
    rewrite app_length. apply IH in E2. unfold array_frames in E1.
    destruct (if c_contiguous _ _ then _ else _) as [a' h3]. destruct (pack _ _ _) as [w|]; [|discriminate]. injection E1 as <- <-.
    cbn [List.length]. destruct E2 as [n Hn]. exists (S n). lia. }
  induction data as [|[src ps] data IH]; intros h fs h' H; cbn [frames_of_sources] in H; [injection H as <- <-; now exists 0%nat|].
  destruct (source_frames isize md h src ps) as [[f1 h1]|] eqn:E1; [|discriminate]. cbn [bind] in H.
  destruct (frames_of_sources isize md h1 data) as [[f2 h2]|] eqn:E2; [|discriminate]. cbn [bind] in H. injection H as <- <-.
  rewrite app_length. apply IH in E2 as [n Hn]. unfold source_frames in E1.
  destruct (dict_get src md); [|discriminate]. destruct (pack _ _ _) as [w|] in E1; [|discriminate]. cbn [bind] in E1.
  destruct (pack _ _ _) as [w'|] in E1; [|discriminate]. cbn [bind] in E1.
  destruct (all_array_frames isize src h (arrays_of ps)) as [[f3 h3]|] eqn:E3; [|discriminate]. injection E1 as <- <-.
  apply Ha in E3 as [n' Hn']. cbn [List.length]. exists (S (n' + n))%nat. lia.
Qed.

(** Reading a message of sorted sources. *)
Lemma sources_received md h data fs h' :
  frames_of_sources isize md h (isort by_source data) = Ok (fs, h') -> data_ok h data ->
  forall m2, untouched data (h_next h) (h_mem h') m2 ->
  exists c, client_decode isize (List.map (transmit m2) fs) = Some c /\
    received isize false (h_mem h) data (fun src _ => dict_get src md) c.
Proof.
  intros H (Hn & Hd & Ha) m2 Hm2. assert (Hp := sort_sources_perm data). set (sd := isort by_source data) in *.
  assert (Hin : forall x, In x sd -> In x data) by (intros x; apply Permutation_in; now apply Permutation_sym).
  destruct (@frames_of_sources_ok isize md (h_mem h) (h_next h) sd h fs h' H) as [G C].
  { intros s ps Hs. apply (Hd s). auto. }
  { lia. }
  { intros a (s & ps & k & Hs & Hk). destruct (Ha a) as (A1 & A2 & A3); [exists s, ps, k; auto|]. repeat split; assumption. }
  { reflexivity. }
  destruct (C m2) as (cd & cm & Hcd & Hcm & R).
  { intros b i Hb Hlt. apply Hm2. destruct Hb as [Hb|Hb]; [left|now right].
    apply in_flat_map in Hb as ([s ps] & Hs & Hb). cbn [snd] in Hb. apply in_map_iff in Hb as ([k a] & Eb & Hka). cbn [snd] in Eb.
    apply arrays_of_in in Hka. exists a. split; [exists s, ps, k; auto|assumption]. }
  assert (Hns : NoDup (dict_keys sd)) by (eapply Permutation_NoDup; [apply Permutation_map; exact Hp|exact Hn]).
  assert (Kcd := aligned_keys Hcd).
  assert (Kcm : dict_keys cm = dict_keys sd).
  { clear -Hcm. induction Hcm as [|p q l e [E _] _ IH]; [reflexivity|]. unfold dict_keys in *. cbn [List.map]. now rewrite E, IH. }
  exists (cd, cm). split.
  - assert (E : client_read isize ([], []) (List.map (transmit m2) fs) = Some (cd, cm)).
    { specialize (R ([], []) []). rewrite app_nil_r in R. rewrite R. cbn [fst snd].
      rewrite !fold_set_app; [reflexivity| |]; cbn [dict_keys List.map app]; [now rewrite Kcm|now rewrite Kcd]. }
    unfold client_decode. destruct fs as [|f1 [|f2 fs]]; [exact E| |exact E].
    exfalso. apply frames_even in H as [n Hl]. cbn [List.length] in Hl. lia.
  - split; cbn [fst snd].
    + eapply same_dict_intro; [exact Hn|exact Hp|exact Hcd].
    + intros src ps Hs. rewrite (dget_perm src Hn Hp) in Hs. apply dict_get_In in Hs.
      clear -Hcm Hs Hns. revert Hs Hns.
      induction Hcm as [|p [k y] l e [E (x & Hx & Hg)] _ IH]; intros Hs Hns; [contradiction|]. cbn [fst snd] in *. subst k.
      cbn [dict_get]. destruct Hs as [-> | Hs].
      * cbn [fst] in *. rewrite String.eqb_refl. exists x, y. auto.
      * inversion Hns; subst. destruct (String.eqb_spec src (fst p)) as [-> | _]; [|now apply IH].
        exfalso. apply H1. now apply (in_map fst) in Hs.
Qed.

Lemma default_metadata_get data src ps : dict_get src data = Some ps ->
  dict_get src (default_metadata data) = metadata_of None src ps.
Proof.
  unfold default_metadata, metadata_of. induction data as [|[s p] data IH]; cbn [dict_get List.map fst snd]; [discriminate|].
  destruct (String.eqb src s); [|auto]. intros H; now injection H as ->.
Qed.

Definition chosen (data : sdata) (metadata : option (list (string * pval))) : list (string * pval) :=
  match metadata with None | Some [] => default_metadata data | Some m => m end.
Lemma chosen_get data metadata src ps : dict_get src data = Some ps ->
  dict_get src (chosen data metadata) = metadata_of metadata src ps.
Proof.
  intros H. unfold chosen. destruct metadata as [[|p m]|]; [|reflexivity|]; now apply default_metadata_get.
Qed.

Lemma serialize_v2 h data metadata :
  serialize V2_2 None h data metadata = frames_of_sources isize (chosen data metadata) h (isort by_source data).
Proof. unfold M_Export.serialize, prepare, chosen. destruct metadata as [[|p m]|]; reflexivity. Qed.

Theorem serialize_received h data metadata msg h' :
  serialize V2_2 None h data metadata = Ok (msg, h') -> data_ok h data ->
  forall m2, untouched data (h_next h) (h_mem h') m2 ->
  exists c, client_decode isize (List.map (transmit m2) msg) = Some c /\
    received isize false (h_mem h) data (metadata_of metadata) c.
Proof.
  rewrite serialize_v2. intros H Hok m2 Hm2. destruct (sources_received H Hok Hm2) as (c & Hc & Hd & Hm). exists c. split; [assumption|].
  split; [assumption|]. intros src ps Hs. destruct (Hm src ps Hs) as (x & y & Hx & Hy). exists x, y.
  split; [|assumption]. now rewrite <- (chosen_get metadata Hs).
Qed.

(** ** What is accepted *)
Lemma main_accepts m ps : (forall k v, In (k, v) ps -> sendable v) <-> exists w, pack false m (PDict (main_of ps)) = Ok w.
Proof.
  assert (E : (forall k v, In (k, v) ps -> sendable v) <-> packable (PDict (main_of ps))).
  { unfold main_of. induction ps as [|[k v] ps IH].
    - split; [intros _; constructor; constructor|]. intros _ k v [].
    - assert (Hv : sendable v <-> (is_array v = true \/ (is_array v = false /\ packable (main_value v)))).
      { split.
        - intros H. inversion H as [v' Hp|? ? ?|? ?|?]; subst; cbn [is_array]; auto.
          + destruct v; try (now left); right; (split; [reflexivity|]); try exact Hp. inversion Hp; subst. cbn [np_item]. constructor.
          + right. split; [reflexivity|]. now constructor.
          + right. split; [reflexivity|]. constructor.
        - intros [H|[_ H]].
          + destruct v; try discriminate. apply sd_arr.
          + destruct v as [| | | | | | | | |n| | |]; try (now apply sd_pack). destruct n; cbn [main_value np_item] in H; inversion H; subst.
            * now apply sd_int.
            * apply sd_float. }
      split.
      + intros H. cbn [filter snd]. assert (Hps : forall k v, In (k, v) ps -> sendable v) by (intros k' v' Hin; apply (H k'); now right).
        apply IH in Hps. assert (Hk : sendable v) by (apply (H k); now left). apply Hv in Hk as [Hk|[Hk1 Hk2]].
        * rewrite Hk. exact Hps.
        * rewrite Hk1. cbn [negb List.map fst snd]. constructor. inversion Hps; subst. constructor; [exact Hk2|assumption].
      + intros H k' v' [Hin|Hin].
        * injection Hin as <- <-. apply Hv. cbn [filter snd] in H. destruct (is_array v); [now left|right; split; [reflexivity|]].
          cbn [negb List.map fst snd] in H. inversion H as [| | | | | | | |d Hf|]; subst. inversion Hf; subst. assumption.
        * apply IH with k'; [|assumption]. cbn [filter snd] in H. destruct (is_array v); [exact H|].
          cbn [negb List.map fst snd] in H. inversion H as [| | | | | | | |d Hf|]; subst. inversion Hf; subst. now constructor. }
  rewrite E. split; [apply pack_packable|]. intros (w & H). now apply pack_only in H.
Qed.

Lemma array_frames_accepts src h ka : arr_ok h (snd ka) -> exists fs h', array_frames isize src h ka = Ok (fs, h') /\ grows h h'.
Proof.
  intros (Hl & Hb & Hs). unfold array_frames.
  destruct (if c_contiguous isize (snd ka) then (snd ka, h) else ascontiguousarray isize h (snd ka)) as [a' h1] eqn:Ea.
  assert (Esh : a_shape a' = a_shape (snd ka)) by (destruct (c_contiguous isize (snd ka)); injection Ea as <- <-; reflexivity).
  rewrite pack_dict. cbn [mapM]. unfold pack_item. cbn [fst snd]. rewrite Esh, shape_packed by assumption.
  cbn [M_Export.pack bind]. eexists _, _. split; [reflexivity|].
  destruct (c_contiguous isize (snd ka)); injection Ea as <- <-; [apply grows_refl|]. split; cbn [h_next h_mem]; [lia|].
  intros b i Hlt. destruct (Nat.eqb_spec b (h_next h)); [lia|reflexivity].
Qed.

Lemma all_array_frames_accepts src l : forall h, Forall (fun ka => arr_ok h (snd ka)) l ->
  exists fs h', all_array_frames isize src h l = Ok (fs, h') /\ grows h h'.
Proof.
  induction l as [|ka l IH]; intros h H; cbn [all_array_frames]; [do 2 eexists; split; [reflexivity|apply grows_refl]|].
  inversion H as [|? ? Ha Hr]; subst. destruct (array_frames_accepts src Ha) as (f1 & h1 & -> & G1). cbn [bind].
  destruct (IH h1) as (f2 & h2 & -> & G2); [eapply Forall_impl; [|exact Hr]; intros a; now apply arr_ok_grows|].
  cbn [bind]. do 2 eexists. split; [reflexivity|]. now apply (grows_trans G1).
Qed.

Lemma source_accepts md h src ps : (forall k a, In (k, PArr a) ps -> arr_ok h a) ->
  (exists fs h', source_frames isize md h src ps = Ok (fs, h') /\ grows h h') <->
  (exists x, dict_get src md = Some x /\ packable x) /\ (forall k v, In (k, v) ps -> sendable v).
Proof.
  intros Hok. unfold source_frames. rewrite (main_accepts (h_mem h) ps). split.
  - intros (fs & h' & H & _). destruct (dict_get src md) as [x|]; [|discriminate].
    rewrite pack_dict in H. cbn [mapM] in H. unfold pack_item in H. cbn [fst snd] in H.
    destruct (pack false (h_mem h) x) as [wx|] eqn:Epx; [|cbn in H; discriminate].
    split; [exists x; split; [reflexivity|]; now apply pack_only in Epx|].
    destruct (pack false (h_mem h) (PDict (main_of ps))) as [wm|] eqn:Em; [eauto|cbn in H; discriminate].
  - intros ((x & -> & Hx) & (wm & Em)). rewrite pack_dict. cbn [mapM]. unfold pack_item. cbn [fst snd].
    destruct (pack_packable isize false (h_mem h) Hx) as (wx & ->). rewrite Em. cbn [M_Export.pack bind].
    destruct (@all_array_frames_accepts src (arrays_of ps) h) as (fs & h' & -> & G).
    + apply Forall_forall. intros [k a] Hka. apply (Hok k). now apply arrays_of_in.
    + cbn [bind]. do 2 eexists. split; [reflexivity|assumption].
Qed.

Lemma source_grows md h src ps fs h' : (forall k a, In (k, PArr a) ps -> arr_ok h a) -> source_frames isize md h src ps = Ok (fs, h') -> grows h h'.
Proof.
  intros Hok H. destruct (@source_accepts md h src ps Hok) as [_ A]. destruct A as (fs2 & h2 & E & G).
  - unfold source_frames in H. destruct (dict_get src md) as [x|]; [|discriminate].
    rewrite pack_dict in H. cbn [mapM] in H. unfold pack_item in H. cbn [fst snd] in H.
    destruct (pack false (h_mem h) x) as [wx|] eqn:Epx; [|cbn in H; discriminate].
    split; [exists x; split; [reflexivity|]; now apply pack_only in Epx|]. apply (main_accepts (h_mem h)).
    destruct (pack false (h_mem h) (PDict (main_of ps))) as [wm|] eqn:Em; [eauto|cbn in H; discriminate].
  - rewrite E in H. injection H as <- <-. assumption.
Qed.

Lemma sources_accept md data : forall h, (forall a, array_in data a -> arr_ok h a) ->
  (exists fs h', frames_of_sources isize md h data = Ok (fs, h')) <->
  (forall src ps, In (src, ps) data -> (exists x, dict_get src md = Some x /\ packable x) /\ (forall k v, In (k, v) ps -> sendable v)).
Proof.
  induction data as [|[src ps] data IH]; intros h Hok; cbn [frames_of_sources].
  - split; [intros _ src ps []|]. intros _. eauto.
  - assert (Hps : forall k a, In (k, PArr a) ps -> arr_ok h a).
    { intros k a Hin. apply Hok. exists src, ps, k. split; [now left|assumption]. }
    assert (Hr : forall h1, grows h h1 -> forall a, array_in data a -> arr_ok h1 a).
    { intros h1 G a (s & p & k & Hin & Hk). apply (arr_ok_grows G). apply Hok. exists s, p, k. split; [now right|assumption]. }
    split.
    + intros (fs & h' & H). destruct (source_frames isize md h src ps) as [[f1 h1]|] eqn:E1; [|discriminate]. cbn [bind] in H.
      destruct (frames_of_sources isize md h1 data) as [[f2 h2]|] eqn:E2; [|discriminate].
      assert (G1 := source_grows Hps E1). intros s p [Hin|Hin].
      * injection Hin as <- <-. apply (source_accepts md src Hps). eauto.
      * assert (X : forall s p, In (s, p) data -> (exists x, dict_get s md = Some x /\ packable x) /\ (forall k v, In (k, v) p -> sendable v)).
        { apply (IH h1); [now apply Hr|]. eauto. }
        now apply X.
    + intros H. destruct (proj2 (@source_accepts md h src ps Hps)) as (f1 & h1 & -> & G1); [apply H; now left|]. cbn [bind].
      destruct (proj2 (IH h1 (Hr h1 G1))) as (f2 & h2 & ->); [intros s p Hin; apply H; now right|]. cbn [bind]. eauto.
Qed.

Theorem serialize_accepts h data metadata : data_ok h data ->
  ((exists msg h', serialize V2_2 None h data metadata = Ok (msg, h')) <->
   (forall src ps, dict_get src data = Some ps ->
      (exists x, metadata_of metadata src ps = Some x /\ packable x) /\ (forall k v, dict_get k ps = Some v -> sendable v))).
Proof.
  intros (Hn & Hd & Ha). rewrite serialize_v2.
  assert (Hp := sort_sources_perm data).
  assert (Hin : forall x, In x (isort by_source data) <-> In x data).
  { intros x; split; apply Permutation_in; [now apply Permutation_sym|assumption]. }
  rewrite sources_accept.
  - split; intros H src ps Hs.
    + assert (Hi := dict_get_In _ _ Hs). destruct (H src ps) as [H1 H2]; [now apply Hin|]. rewrite (chosen_get metadata Hs) in H1. split; [assumption|].
      intros k v Hk. apply (H2 k). now apply dict_get_In.
    + apply Hin in Hs. assert (Hg := dget_nodup Hn Hs). destruct (H src ps Hg) as [H1 H2]. rewrite (chosen_get metadata Hg). split; [assumption|].
      intros k v Hk. apply (H2 k). apply dget_nodup; [now apply (Hd src)|assumption].
  - intros a (s & ps & k & Hs & Hk). apply Ha. exists s, ps, k. split; [now apply Hin|assumption].
Qed.

(** ** Protocol 1.0 *)
Lemma v1_received h data metadata msg h' :
  serialize V1_0 None h data metadata = Ok (msg, h') -> data_ok h data ->
  forall m2, exists c, client_decode isize (List.map (transmit m2) msg) = Some c /\
    received isize true (h_mem h) data (metadata_of None) c.
Proof.
  intros H (Hn & Hd & _) m2. unfold M_Export.serialize in H.
  assert (Ep : exists md, prepare None data metadata = Ok (data, md)) by (unfold prepare; eauto).
  destruct Ep as [md Ep]. rewrite Ep in H. cbn [bind] in H.
  destruct (pack true (h_mem h) _) as [w|] eqn:Ew; [|discriminate]. injection H as <- <-.
  apply pack_got in Ew. inversion Ew as [| | | | | | | |d d' Hf E1 E2| | | | |]; subst.
  cbn [List.map transmit client_decode]. unfold client_v1. rewrite <- E2. clear Ew E2.
  set (f := fun p : string * cval => match snd p with CDict ps => Some (fst p, ps) | _ => None end).
  assert (X : exists cd, List.map f d' = List.map (@Some _) cd /\ aligned (fun ps cs => aligned (got true (h_mem h)) ps cs) data cd).
  { clear -Hf. revert d' Hf. induction data as [|[s ps] data IH]; intros d' Hf; inversion Hf as [|? q ? d2 [E G] Hr]; subst.
    - exists []. split; [reflexivity|constructor].
    - destruct (IH d2 Hr) as (cd & Ecd & Hcd). cbn [fst snd] in *. inversion G as [| | | | | | | |e e' He E1 E2| | | | |]; subst.
      exists ((fst q, e') :: cd). split.
      + cbn [List.map]. f_equal; [|assumption]. unfold f. rewrite <- E2. reflexivity.
      + constructor; [|assumption]. split; [reflexivity|exact He]. }
  destruct X as (cd & Ecd & Hcd). rewrite Ecd.
  assert (E1 : forallb (fun o => match o with Some _ => true | None => false end) (List.map (@Some (string * list (string * cval))) cd) = true).
  { apply forallb_forall. intros o Ho. apply in_map_iff in Ho as (x & <- & _). reflexivity. }
  rewrite E1.
  assert (E2 : flat_map (fun o => match o with Some p => [p] | None => [] end) (List.map (@Some (string * list (string * cval))) cd) = cd).
  { clear. induction cd as [|x cd IH]; [reflexivity|]. cbn. now rewrite IH. }
  rewrite E2. eexists. split; [reflexivity|]. split; cbn [fst snd].
  - eapply same_dict_intro; [exact Hn|apply Permutation_refl|].
    clear -Hcd Hd. revert Hd. induction Hcd as [|[s p] [t q] l e [E G] _ IH]; intros Hd; [constructor|]. cbn [fst snd] in *.
    constructor; [|apply IH; intros s' p' Hin; apply (Hd s'); now right]. cbn [fst snd]. split; [assumption|].
    eapply same_dict_intro; [apply (Hd s); now left|apply Permutation_refl|exact G].
  - intros src ps Hs. clear -Hcd Hs. revert Hs. induction Hcd as [|[s p] [t q] l e [E G] _ IH]; [discriminate|]. cbn [fst snd] in *. subst t.
    cbn [dict_get List.map fst snd]. destruct (String.eqb src s); [|exact IH]. intros H. injection H as ->.
    unfold metadata_of. assert (Hg := aligned_get "metadata" G). do 2 eexists. split; [reflexivity|]. split; [reflexivity|].
    destruct (dict_get "metadata" ps), (dict_get "metadata" q); try contradiction; [assumption|]. constructor. constructor.
Qed.
End Export.
