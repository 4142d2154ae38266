(** get_dataframe. *)
From Verif Require Import Base PyStr M_Files M_Reader M_Select M_Series S_Open S_Reader S_Coll S_Avail S_Glob S_Writer S_Frame
  L_Base L_Glob L_Open L_Select L_Trains L_Components6 L_GetArray L_Writer5.
Set Implicit Arguments.
Unset Strict Implicit.
Local Open Scope string_scope.
Local Open Scope list_scope.

Lemma length_append (a b : string) : String.length (a ++ b)%string = (String.length a + String.length b)%nat.
Proof. induction a as [|c a IH]; cbn; [reflexivity|now rewrite IH]. Qed.
Lemma Forall2_nth_l A B (R : A -> B -> Prop) l l' : Forall2 R l l' -> forall i x, nth_error l i = Some x -> exists y, nth_error l' i = Some y /\ R x y.
Proof. induction 1 as [|a b l l' H F IH]; intros [|i] x E; cbn in *; try discriminate; [injection E as <-; eauto|eauto]. Qed.
Lemma Forall2_nth_r A B (R : A -> B -> Prop) l l' : Forall2 R l l' -> forall i y, nth_error l' i = Some y -> exists x, nth_error l i = Some x /\ R x y.
Proof. induction 1 as [|a b l l' H F IH]; intros [|i] x E; cbn in *; try discriminate; [injection E as <-; eauto|eauto]. Qed.

Lemma series_name_spec s k : column_name s k (series_name s k).
Proof.
  unfold series_name, column_name. set (n := (s ++ "/" ++ k)%string). destruct (ends_with ".value" n) eqn:E.
  - left. apply ends_with_iff in E as [p E]. rewrite E. rewrite length_append. cbn [String.length].
    replace (String.length p + 6 - 6)%nat with (String.length p) by lia. destruct (substring_app p ".value") as [-> _]. reflexivity.
  - right. split; [reflexivity|]. intros H. apply ends_with_iff in H. congruence.
Qed.

Lemma app_inj_tail_s (p : string) : forall a b, (a ++ p = b ++ p)%string -> a = b.
Proof.
  intros a b H. assert (L : String.length (a ++ p) = String.length (b ++ p)) by now rewrite H. rewrite !length_append in L.
  revert b H L. induction a as [|c a IH]; intros [|c' b] H L; cbn in *; try lia; [reflexivity|].
  injection H as -> H. f_equal. apply IH; [assumption|lia].
Qed.
Lemma column_name_fun s k a b : column_name s k a -> column_name s k b -> a = b.
Proof.
  intros [H|[H N]] [H'|[H' N']].
  - apply (@app_inj_tail_s ".value"). congruence.
  - exfalso. apply N'. exists a. congruence.
  - exfalso. apply N. exists b. congruence.
  - congruence.
Qed.

(** The last slash splits a name. *)
Lemma last_slash : forall s s' b b', ~ has_char "/" b -> ~ has_char "/" b' -> (s ++ "/" ++ b = s' ++ "/" ++ b')%string -> s = s' /\ b = b'.
Proof.
  induction s as [|c s IH]; intros [|c' s'] b b' N N' H; cbn in H.
  - injection H as H. auto.
  - injection H as <- H. exfalso. apply N. rewrite H. apply has_char_app. right. now left.
  - injection H as -> H. exfalso. apply N'. rewrite <- H. apply has_char_app. right. now left.
  - injection H as -> H. destruct (IH s' b b' N N' H) as [-> ->]. auto.
Qed.

Lemma suffix_long : forall (p k n v : string), (p ++ k = n ++ v)%string -> (String.length v <= String.length k)%nat -> exists b, k = (b ++ v)%string /\ n = (p ++ b)%string.
Proof.
  induction p as [|c p IH]; intros k n v H L; cbn in H.
  - exists n. auto.
  - destruct n as [|c' n]; cbn in H.
    + exfalso. assert (X : String.length (String c (p ++ k)) = String.length v) by now rewrite H. cbn in X. rewrite length_append in X. lia.
    + injection H as <- H. destruct (IH k n v H L) as (b & -> & ->). eauto.
Qed.

(** The name without the slash in it. *)
Lemma column_base s k name : ~ has_char "/" k -> column_name s k name ->
  exists b, name = (s ++ "/" ++ b)%string /\ ~ has_char "/" b /\ (k = b \/ k = (b ++ "." ++ "value")%string).
Proof.
  intros N [H|[H _]]; [|exists k; auto].
  destruct (le_lt_dec (String.length ".value") (String.length k)) as [L|L].
  - assert (H2 : ((s ++ "/") ++ k = name ++ ".value")%string) by (rewrite append_assoc_s; exact H).
    destruct (suffix_long H2 L) as (b & -> & ->). exists b. rewrite append_assoc_s. split; [reflexivity|]. split; [|now right].
    intros C. apply N. apply has_char_app. now left.
  - exfalso. cbn in L.
    destruct k as [|c1 [|c2 [|c3 [|c4 [|c5 [|c6 k]]]]]]; [| | | | | |cbn in L; lia].
    all: assert (R : forall x y, x = y -> rev (list_ascii_of_string x) = rev (list_ascii_of_string y)) by (intros; congruence); apply R in H;
      assert (LA : forall x y, list_ascii_of_string (x ++ y)%string = (list_ascii_of_string x ++ list_ascii_of_string y)%list)
        by (induction x as [|c x IHx]; intros y; cbn; [reflexivity|now rewrite IHx]);
      rewrite !LA, !rev_app_distr in H; cbn in H; congruence.
Qed.

Section Frame.
Variable V : Type.
Variable first : V -> V.
Variable pulse : V -> Z.
Notation dcoll := (dcoll V).
Notation get_series := (get_series first pulse).
Notation dataframe_all := (dataframe_all first pulse).

Lemma dataframe_fields_spec (d : dcoll) ts : reachable d -> exists fs, dataframe_fields d ts = Ok fs /\
  (forall s k, In (s, k) fs <-> shown d ts s k) /\ (separate_keys d -> NoDup fs).
Proof.
  intros Hr. destruct (reachable_inv Hr) as [Hb _]. unfold dataframe_fields.
  destruct (@mapM_total _ _ (fun s => let* ks := keys_for_source d s in
      Ok (List.map (pair s) (filter (fun k => ts || negb (ends_with ".timestamp" k)) ks))) (dc_sources d)) as [l El].
  { intros s Hs. destruct (keys_for_source_ok Hb Hs) as [ks ->]. cbn [bind]. eauto. }
  rewrite El. cbn [bind]. exists (List.concat l). split; [reflexivity|]. apply mapM_ok_iff in El. split.
  - intros s k. rewrite in_concat. unfold shown, available. split.
    + intros (x & Hx & Hin). apply In_nth_error in Hx as [i Hx]. destruct (Forall2_nth_r El Hx) as (s' & Hs' & E).
      destruct (keys_for_source d s') as [ks|] eqn:Ek; cbn [bind] in E; [|discriminate]. injection E as <-.
      apply in_map_iff in Hin as (k' & E & Hin). injection E as <- <-. apply filter_In in Hin as [Hin Hf].
      split; [split; [eapply nth_error_In; eassumption|eauto]|]. apply orb_true_iff in Hf as [->|Hf]; [now left|right].
      apply negb_true_iff in Hf. intros C. apply ends_with_iff in C. congruence.
    + intros [[Hs (ks & Ek & Hk)] Ht]. apply In_nth_error in Hs as [i Hs]. destruct (Forall2_nth_l El Hs) as (x & Hx & E).
      rewrite Ek in E. cbn [bind] in E. injection E as <-. eexists. split; [eapply nth_error_In; exact Hx|]. apply in_map. apply filter_In. split; [assumption|].
      destruct Ht as [->|Ht]; [reflexivity|]. apply orb_true_iff. right. apply negb_true_iff. destruct (ends_with ".timestamp" k) eqn:E; [|reflexivity].
      apply ends_with_iff in E. contradiction.
  - intros [Nk _]. assert (Ns : NoDup (dc_sources d)).
    { apply set_union_NoDup. exact (proj1 (sources_nodup Hr)). }
    clear -El Nk Ns. induction El as [|s x ss l E El IH]; [constructor|]. cbn [List.concat]. inversion Ns as [|? ? Hn Ns']; subst.
    destruct (keys_for_source d s) as [ks|] eqn:Ek; cbn [bind] in E; [|discriminate]. injection E as <-.
    apply NoDup_app_intro; [|apply IH; assumption|].
    + apply FinFun.Injective_map_NoDup; [intros a b Q; congruence|]. apply NoDup_filter. eapply Nk; eassumption.
    + intros [s' k'] H1 H2. apply in_map_iff in H1 as (k0 & Q & _). injection Q as <- <-. apply in_concat in H2 as (y & Hy & H2).
      apply In_nth_error in Hy as [i Hy]. destruct (Forall2_nth_r El Hy) as (s2 & Hs2 & E2).
      destruct (keys_for_source d s2) as [ks2|]; cbn [bind] in E2; [|discriminate]. injection E2 as <-.
      apply in_map_iff in H2 as (k2 & Q & _). injection Q as -> _. apply Hn. eapply nth_error_In; eassumption.
Qed.

Theorem dataframe_columns (d : dcoll) ts cols : reachable d -> dataframe_all d ts = Ok cols ->
  cols <> [] /\ exists fs, (forall s k, In (s, k) fs <-> shown d ts s k) /\ (separate_keys d -> NoDup fs) /\
    Forall2 (fun f c => column_name (fst f) (snd f) (fst c) /\ get_series d (fst f) (snd f) = Ok (snd c)) fs cols.
Proof.
  intros Hr H. destruct (dataframe_fields_spec ts Hr) as (fs & Ef & Hf & Hn). unfold M_Series.dataframe_all in H. rewrite Ef in H. cbn [bind] in H.
  destruct (mapM _ fs) as [l|] eqn:El; cbn [bind] in H; [|discriminate].
  assert (E : l = cols /\ cols <> []) by (destruct l; [discriminate|]; injection H as <-; split; [reflexivity|discriminate]).
  destruct E as [-> Hne]. split; [assumption|]. exists fs. split; [assumption|]. split; [assumption|].
  apply mapM_ok_iff in El. clear -El. induction El as [|[s k] c fs l E El IH]; constructor; [|assumption]. cbn [fst snd] in *.
  destruct (get_series d s k) as [ser|] eqn:Es; cbn [bind] in E; [|discriminate]. injection E as <-. cbn [fst snd]. split; [apply series_name_spec|reflexivity].
Qed.

Theorem dataframe_exists (d : dcoll) ts : reachable d -> (exists s k, shown d ts s k) ->
  (forall s k, shown d ts s k -> exists ser, get_series d s k = Ok ser) -> exists cols, dataframe_all d ts = Ok cols.
Proof.
  intros Hr (s & k & Hs) Hg. destruct (dataframe_fields_spec ts Hr) as (fs & Ef & Hf & Hn). unfold M_Series.dataframe_all. rewrite Ef. cbn [bind].
  destruct (@mapM_total _ _ (fun f => let* s := get_series d (fst f) (snd f) in Ok (series_name (fst f) (snd f), s)) fs) as [l El].
  { intros [s' k'] Hin. apply Hf in Hin. destruct (Hg _ _ Hin) as [ser E]. cbn [fst snd]. rewrite E. cbn [bind]. eauto. }
  rewrite El. cbn [bind]. destruct l as [|c l]; [|eauto]. exfalso. apply mapM_length in El. destruct fs; [|discriminate]. apply (proj2 (Hf s k)) in Hs. destruct Hs.
Qed.

Theorem dataframe_none (d : dcoll) ts : reachable d -> (forall s k, ~ shown d ts s k) -> dataframe_all d ts = Err EValueError.
Proof.
  intros Hr Hno. destruct (dataframe_fields_spec ts Hr) as (fs & Ef & Hf & Hn). unfold M_Series.dataframe_all. rewrite Ef. cbn [bind].
  destruct fs as [|[s k] fs]; [reflexivity|]. exfalso. apply (Hno s k). apply Hf. now left.
Qed.

Theorem dataframe_names (d : dcoll) ts cols : reachable d -> dataframe_all d ts = Ok cols -> plain_names d -> separate_keys d ->
  NoDup (List.map fst cols).
Proof.
  intros Hr H [Pn _] Sk. destruct (dataframe_columns Hr H) as (_ & fs & Hf & Hn & F). specialize (Hn Sk).
  assert (A : forall s k, In (s, k) fs -> available d s k) by (intros s k Hin; apply Hf in Hin; exact (proj1 Hin)).
  clear Hf H. induction F as [|[s k] [name ser] fs cols [Hc _] F IH]; cbn [List.map fst]; [constructor|]. cbn [fst snd] in Hc.
  inversion Hn as [|? ? Hni Hn']; subst. constructor; [|apply IH; [assumption|intros; apply A; now right]].
  intros Hin. apply in_map_iff in Hin as ([name' ser'] & E & Hin). cbn [fst] in E. subst name'. apply In_nth_error in Hin as [i Hi].
  destruct (Forall2_nth_r F Hi) as ([s' k'] & Hi' & [Hc' _]). cbn [fst snd] in Hc'. apply nth_error_In in Hi'.
  assert (A1 : available d s k) by (apply A; now left). assert (A2 : available d s' k') by (apply A; now right).
  destruct (column_base (Pn _ _ A1) Hc) as (b & E1 & N1 & K1). destruct (column_base (Pn _ _ A2) Hc') as (b' & E2 & N2 & K2).
  rewrite E1 in E2. destruct (last_slash N1 N2 E2) as [-> ->]. destruct Sk as [_ Sk].
  destruct K1 as [-> | ->], K2 as [-> | ->]; try contradiction.
  - apply (Sk s' b' (b' ++ "." ++ "value")%string "value" A1 A2). reflexivity.
  - apply (Sk s' b' (b' ++ "." ++ "value")%string "value" A2 A1). reflexivity.
Qed.
End Frame.
