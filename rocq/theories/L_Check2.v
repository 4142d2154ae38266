(** Boolean checks of the hypotheses about written files; not part of any statement. *)
From Verif Require Import Base PyStr M_Files M_Machinery M_Reader M_Select M_Writer S_Reader S_Coll S_Avail S_Open S_Writer
  L_Base L_Reader L_GetArray L_Select L_Array2 L_Check L_Open.
Set Implicit Arguments.
Unset Strict Implicit.
Local Open Scope string_scope.
Local Open Scope list_scope.

Section K.
Context {V : Type}.
Notation faccess := (faccess V).
Notation dcoll := (dcoll V).

Definition fieldsb (d : dcoll) : list (string * string) :=
  flat_map (fun s => match keys_for_source d s with Ok ks => map (pair s) ks | Err _ => [] end) (dc_sources d).
Lemma fieldsb_ok : forall d s k, available d s k -> In (s, k) (fieldsb d).
Proof.
  intros d s k (Hs & ks & E & Hk). apply in_flat_map. exists s. split; [exact Hs|]. rewrite E. now apply in_map.
Qed.
Lemma fieldsb_iff : forall d s k, In (s, k) (fieldsb d) -> available d s k.
Proof.
  intros d s k H. apply in_flat_map in H as (s' & Hs & H). destruct (keys_for_source d s') as [ks|] eqn:E; [|destruct H].
  apply in_map_iff in H as (k' & E' & Hk). injection E' as -> ->. split; [exact Hs|]. eauto.
Qed.
Fixpoint has_charb (c : ascii) (s : string) : bool :=
  match s with EmptyString => false | String x r => Ascii.eqb x c || has_charb c r end.
Lemma has_charb_ok : forall c s, has_charb c s = false -> ~ has_char c s.
Proof.
  intros c. induction s as [|x s IH]; simpl; intros H; [auto|]. apply orb_false_iff in H as [H1 H2]. apply Ascii.eqb_neq in H1.
  intros [E|E]; [congruence|]. now apply IH.
Qed.
Definition plain_namesb (d : dcoll) : bool :=
  forallb (fun x => negb (has_charb "/" (snd x)) && forallb (fun y =>
     String.eqb (fst x) (fst y) || negb (String.eqb (index_key (is_control d (fst x)) (fst x) (snd x)) (index_key (is_control d (fst y)) (fst y) (snd y)))) (fieldsb d)) (fieldsb d).
Lemma plain_namesb_ok : forall d, plain_namesb d = true -> plain_names d.
Proof.
  intros d H. unfold plain_namesb in H. rewrite forallb_forall in H. split.
  - intros s k A. apply fieldsb_ok in A. specialize (H _ A). apply andb_true_iff in H as [H _]. apply negb_true_iff in H. now apply has_charb_ok.
  - intros s k s' k' A B E. apply fieldsb_ok in A. apply fieldsb_ok in B. specialize (H _ A). apply andb_true_iff in H as [_ H].
    rewrite forallb_forall in H. specialize (H _ B). cbn [fst snd] in H. rewrite E, String.eqb_refl, orb_false_r in H. now apply String.eqb_eq.
Qed.
Definition no_nestingb (d : dcoll) : bool :=
  forallb (fun s => forallb (fun s' => match strip_prefix (s ++ "/")%string s' with Some _ => false | None => true end) (dc_sources d)) (dc_sources d).
Lemma no_nestingb_ok : forall d, no_nestingb d = true -> no_nesting d.
Proof.
  intros d H s s' r Hs Hs' E. unfold no_nestingb in H. rewrite forallb_forall in H. specialize (H s Hs). rewrite forallb_forall in H. specialize (H s' Hs').
  destruct (strip_prefix (s ++ "/")%string s') eqn:E2; [discriminate|]. assert (X : strip_prefix (s ++ "/")%string s' = Some r); [|congruence].
  apply strip_prefix_some. rewrite append_assoc_s. exact E.
Qed.
Fixpoint sorted_ltb (l : list Z) : bool :=
  match l with [] => true | x :: r => forallb (fun y => x <? y)%Z r && sorted_ltb r end.
Lemma sorted_ltb_ok : forall l, sorted_ltb l = true -> StronglySorted Z.lt l.
Proof.
  induction l as [|x l IH]; intros H; constructor; simpl in H; apply andb_true_iff in H as [H1 H2]; [auto|].
  apply Forall_forall. intros y Hy. rewrite forallb_forall in H1. apply Z.ltb_lt. auto.
Qed.
Definition apartb (f1 f2 : faccess) : bool :=
  forallb (fun t1 => forallb (fun t2 => t1 <? t2)%Z (fa_tids f2)) (fa_tids f1) ||
  forallb (fun t1 => forallb (fun t2 => t2 <? t1)%Z (fa_tids f2)) (fa_tids f1).
Lemma apartb_ok : forall f1 f2, apartb f1 f2 = true -> seqfiles_apart f1 f2.
Proof.
  intros f1 f2 H. unfold apartb in H. apply orb_true_iff in H as [H|H]; rewrite forallb_forall in H; [left|right]; intros t1 t2 H1 H2;
    specialize (H t1 H1); rewrite forallb_forall in H; specialize (H t2 H2); now apply Z.ltb_lt.
Qed.
Fixpoint sequenceb (s : string) (l : list faccess) : bool :=
  match l with
  | [] => true
  | f :: r => (negb (str_in s (fa_sources f)) || sorted_ltb (fa_tids f) && forallb (fun g => negb (str_in s (fa_sources g)) || apartb f g) r) && sequenceb s r
  end.
Lemma sequenceb_ok : forall s l, sequenceb s l = true ->
  (forall f, In f l -> In s (fa_sources f) -> StronglySorted Z.lt (fa_tids f)) /\
  ForallOrdPairs (fun f1 f2 => In s (fa_sources f1) -> In s (fa_sources f2) -> seqfiles_apart f1 f2) l.
Proof.
  intros s. induction l as [|f l IH]; intros H; [split; [intros ? []|constructor]|]. simpl in H. apply andb_true_iff in H as [H1 H2].
  destruct (IH H2) as [I1 I2]. split.
  - intros g [<-|Hg] Hs; [|auto]. apply str_in_iff in Hs. rewrite Hs in H1. cbn [negb orb] in H1. apply andb_true_iff in H1 as [H1 _]. now apply sorted_ltb_ok.
  - constructor; [|exact I2]. apply Forall_forall. intros g Hg Hs Hs'. apply str_in_iff in Hs. rewrite Hs in H1. cbn [negb orb] in H1.
    apply andb_true_iff in H1 as [_ H1]. rewrite forallb_forall in H1. specialize (H1 g Hg). apply str_in_iff in Hs'. rewrite Hs' in H1. now apply apartb_ok.
Qed.
Definition in_orderb (d : dcoll) : bool :=
  sorted_ltb (dc_tids d) && forallb (fun s => sequenceb s (dc_files d)) (dc_sources d).
Lemma in_orderb_ok : forall d, in_orderb d = true -> in_order d.
Proof.
  intros d H. apply andb_true_iff in H as [H1 H2]. split; [now apply sorted_ltb_ok|]. intros s Hs. rewrite forallb_forall in H2. now apply sequenceb_ok, H2.
Qed.
Fixpoint snodupb (l : list string) : bool :=
  match l with [] => true | x :: r => negb (str_in x r) && snodupb r end.
Lemma snodupb_ok : forall l, snodupb l = true -> NoDup l.
Proof.
  induction l as [|x l IH]; intros H; [constructor|]. simpl in H. apply andb_true_iff in H as [H1 H2].
  constructor; [|auto]. apply negb_true_iff in H1. now apply str_in_false.
Qed.
Definition separate_keysb (d : dcoll) : bool :=
  forallb (fun s => match keys_for_source d s with Ok ks => snodupb ks | Err _ => true end) (dict_keys (dc_sel d)) &&
  forallb (fun x => forallb (fun y => negb (String.eqb (fst x) (fst y)) || match strip_prefix (snd x ++ ".")%string (snd y) with Some _ => false | None => true end) (fieldsb d)) (fieldsb d).
Lemma separate_keysb_ok : forall d, separate_keysb d = true -> separate_keys d.
Proof.
  intros d H. apply andb_true_iff in H as [H1 H2]. rewrite forallb_forall in H1, H2. split.
  - intros s ks E. assert (Hin : In s (dict_keys (dc_sel d))).
    { unfold keys_for_source in E. destruct (dict_get s (dc_sel d)) eqn:Eg; [|discriminate]. apply dict_get_keys. eauto. }
    specialize (H1 s Hin). rewrite E in H1. now apply snodupb_ok.
  - intros s k k' r A B E. apply fieldsb_ok in A. apply fieldsb_ok in B. specialize (H2 _ A). rewrite forallb_forall in H2. specialize (H2 _ B).
    cbn [fst snd] in H2. rewrite String.eqb_refl in H2. cbn [negb orb] in H2.
    destruct (strip_prefix (k ++ ".")%string k') eqn:E2; [discriminate|]. assert (X : strip_prefix (k ++ ".")%string k' = Some r); [|congruence].
    apply strip_prefix_some. rewrite append_assoc_s. exact E.
Qed.
Definition good_indexesb (d : dcoll) : bool := forallb (fun x => good_indexb d (fst x) (snd x)) (fieldsb d).
Lemma good_indexesb_ok : forall d, good_indexesb d = true -> forall s k, available d s k -> good_index d s k.
Proof. intros d H s k A. apply fieldsb_ok in A. unfold good_indexesb in H. rewrite forallb_forall in H. specialize (H _ A). now apply good_indexb_ok. Qed.
Definition readableb (d : dcoll) : bool := forallb (fun x => match get_array d (fst x) (snd x) with Ok _ => true | Err _ => false end) (fieldsb d).
Lemma readableb_ok : forall d, readableb d = true -> forall s k, available d s k -> exists a, get_array d s k = Ok a.
Proof.
  intros d H s k A. apply fieldsb_ok in A. unfold readableb in H. rewrite forallb_forall in H. specialize (H _ A). cbn [fst snd] in H.
  destruct (get_array d s k); [eauto|discriminate].
Qed.
Definition orderlyb (d : dcoll) : bool :=
  good_collectionb d && good_indexesb d && plain_namesb d && no_nestingb d && in_orderb d &&
  negb (Nat.eqb (List.length (dc_tids d)) 0) && forallb (fun t => 0 <? t)%Z (dc_tids d).
Lemma orderlyb_ok : forall d, orderlyb d = true -> orderly d.
Proof.
  intros d H. unfold orderlyb in H. do 6 (apply andb_true_iff in H as [H ?H]). split; [now apply good_collectionb_ok|].
  split; [now apply good_indexesb_ok|]. split; [now apply plain_namesb_ok|]. split; [now apply no_nestingb_ok|]. split; [now apply in_orderb_ok|].
  split; [|apply Forall_forall; intros t Ht; rewrite forallb_forall in H0; apply Z.ltb_lt; auto]. intros E. rewrite E in H1. discriminate.
Qed.
Definition control_completeb (d : dcoll) : bool :=
  forallb (fun x => negb (is_control d (fst x)) || forallb (fun t => existsb (fun f => str_in (fst x) (fa_sources f) && z_in t (fa_tids f)) (dc_files d)) (dc_tids d)) (fieldsb d).
Lemma control_completeb_ok : forall d, control_completeb d = true <-> control_complete d.
Proof.
  intros d. unfold control_completeb. rewrite forallb_forall. split.
  - intros H s k t Hc A Ht. apply fieldsb_ok in A. specialize (H _ A). cbn [fst] in H. rewrite Hc in H. cbn [negb orb] in H. rewrite forallb_forall in H. specialize (H t Ht).
    apply existsb_exists in H as (f & Hf & H). apply andb_true_iff in H as [H1 H2]. exists f. split; [exact Hf|]. split; [now apply str_in_iff|now apply z_in_iff].
  - intros H [s k] Hin. apply fieldsb_iff in Hin. cbn [fst]. destruct (is_control d s) eqn:Ec; [|reflexivity]. cbn [negb orb]. apply forallb_forall. intros t Ht.
    destruct (H s k t Ec Hin Ht) as (f & F1 & F2 & F3). apply existsb_exists. exists f. split; [exact F1|]. apply andb_true_iff. split; [now apply str_in_iff|now apply z_in_iff].
Qed.
End K.
