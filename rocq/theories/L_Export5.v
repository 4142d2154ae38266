(** Dummy timestamps. *)
From Verif Require Import Base PyStr S_Open M_Export S_Export L_Base L_Export1 L_Export2 L_Export3 L_Export4.
Set Implicit Arguments.
Unset Strict Implicit.
Local Open Scope string_scope.
Local Open Scope list_scope.

Section Stamp.
Variables (upd : list (string * pval)) (derived : bool).

(** The data after the timestamps were put in. *)
Definition renewed (ps ps' : props) : Prop :=
  dict_keys ps' = dict_keys ps /\ (forall k, k <> "metadata" -> dict_get k ps' = dict_get k ps) /\
  (forall k a, In (k, PArr a) ps' -> In (k, PArr a) ps).

Lemma renewed_refl ps : renewed ps ps.
Proof. repeat split; auto. Qed.
Lemma dset_keys_same {B} k (v : B) d : In k (dict_keys d) -> dict_keys (dict_set k v d) = dict_keys d.
Proof.
  unfold dict_keys. induction d as [|[k' v'] d IH]; cbn [dict_set List.map fst]; [intros []|].
  destruct (String.eqb_spec k k') as [-> | Hk]; [reflexivity|]. intros [E|H]; [congruence|]. cbn [List.map fst]. now rewrite IH.
Qed.
Lemma in_dset {B} k (v : B) d p : In p (dict_set k v d) -> p = (k, v) \/ In p d.
Proof.
  induction d as [|[k' v'] d IH]; cbn [dict_set]; [intros [<-|[]]; now left|].
  destruct (String.eqb_spec k k') as [-> | Hk]; intros [H|H].
  - left; now symmetry.
  - right; now right.
  - right; now left.
  - destruct (IH H); [now left|right; now right].
Qed.
Lemma renewed_set md ps : is_array md = false -> dict_get "metadata" ps <> None -> renewed ps (dict_set "metadata" md ps).
Proof.
  intros Ha Hg. split; [|split].
  - apply dset_keys_same. destruct (dict_get "metadata" ps) eqn:E; [|congruence]. apply dict_get_keys. eauto.
  - intros k Hk. rewrite dict_get_set. apply String.eqb_neq in Hk. now rewrite Hk.
  - intros k a H. apply in_dset in H as [H|H]; [|assumption]. injection H as _ <-. discriminate.
Qed.
Lemma renewed_trans a b c : renewed a b -> renewed b c -> renewed a c.
Proof. intros (A1 & A2 & A3) (B1 & B2 & B3). split; [congruence|]. split; [intros k Hk; rewrite B2, A2 by assumption; reflexivity|]. eauto. Qed.

Lemma all_renewed_trans (a b c : sdata) : Forall2 (fun p p' => fst p = fst p' /\ renewed (snd p) (snd p')) a b ->
  Forall2 (fun p p' => fst p = fst p' /\ renewed (snd p) (snd p')) b c ->
  Forall2 (fun p p' => fst p = fst p' /\ renewed (snd p) (snd p')) a c.
Proof.
  intros Hab. revert c. induction Hab as [|p q a b [E1 R1] _ IH]; intros c Hbc; inversion Hbc as [|? r ? c' [E2 R2] Hr]; subst; constructor; auto.
  split; [congruence|]. now apply (renewed_trans R1).
Qed.

Lemma stamp_ok ks : forall st st', foldM (stamp_source upd derived) st ks = Ok st' -> NoDup ks ->
  (forall s, In s ks -> exists x x', dict_get s (snd st) = Some x /\ add_ts upd x = Ok x' /\ dict_get s (snd st') = Some x') /\
  (forall s, ~ In s ks -> dict_get s (snd st') = dict_get s (snd st)) /\
  Forall2 (fun p p' => fst p = fst p' /\ renewed (snd p) (snd p')) (fst st) (fst st').
Proof.
  assert (R : forall l : sdata, Forall2 (fun p p' => fst p = fst p' /\ renewed (snd p) (snd p')) l l).
  { induction l; constructor; auto using renewed_refl. }
  induction ks as [|k ks IH]; intros st st' H Hn; cbn [foldM] in H.
  - injection H as <-. split; [intros s []|]. split; [reflexivity|]. apply R.
  - destruct (stamp_source upd derived st k) as [st1|] eqn:E1; [|discriminate]. cbn [bind] in H.
    inversion Hn as [|? ? Hk Hks]; subst. destruct (IH _ _ H Hks) as (I1 & I2 & I3).
    unfold stamp_source in E1. destruct (dict_get k (snd st)) as [x|] eqn:Ex; [|discriminate].
    destruct (add_ts upd x) as [x'|] eqn:Ea; [|discriminate]. cbn [bind] in E1. injection E1 as <-. cbn [fst snd] in *.
    assert (Hna : is_array x' = false).
    { unfold add_ts in Ea. destruct x; try discriminate. injection Ea as <-. reflexivity. }
    split; [|split].
    + intros s [<-|Hs].
      * exists x, x'. split; [assumption|]. split; [assumption|]. rewrite I2 by assumption. now rewrite dict_get_set, String.eqb_refl.
      * destruct (I1 s Hs) as (y & y' & Y1 & Y2 & Y3). exists y, y'. split; [|auto].
        rewrite dict_get_set in Y1. destruct (String.eqb_spec s k) as [-> | _]; [contradiction|assumption].
    + intros s Hs. rewrite I2 by (intros E; apply Hs; now right). rewrite dict_get_set.
      destruct (String.eqb_spec s k) as [-> | _]; [exfalso; apply Hs; now left|reflexivity].
    + destruct derived; [|exact I3].
      eapply all_renewed_trans; [|exact I3]. clear -Hna. induction (fst st) as [|p l IH]; cbn [List.map]; constructor; [|assumption].
      match goal with |- context [String.eqb ?a k] => destruct (String.eqb a k) end; [|split; [reflexivity|apply renewed_refl]].
      cbn [fst snd]. split; [reflexivity|].
      match goal with |- context [match ?a with Some _ => _ | None => _ end] => destruct a eqn:E end; [|apply renewed_refl].
      apply renewed_set; [assumption|]. unfold props in *. congruence.
Qed.
End Stamp.

Section Export.
Variable isize : string -> nat.
Notation got := (got isize).
Notation serialize := (serialize isize).

Lemma match_none {A B} (R : A -> B -> Prop) (x : option A) (y : option B) :
  match x, y with Some a, Some b => R a b | None, None => True | _, _ => False end -> y = None <-> x = None.
Proof. destruct x, y; try contradiction; split; congruence. Qed.

Lemma match_some {A B} (R : A -> B -> Prop) (x : option A) (y : option B) a :
  match x, y with Some a, Some b => R a b | None, None => True | _, _ => False end -> x = Some a -> exists b, y = Some b /\ R a b.
Proof. intros H ->. destruct y; [eauto|contradiction]. Qed.

Lemma forall2_get (data data' : sdata) : Forall2 (fun p p' => fst p = fst p' /\ renewed (snd p) (snd p')) data data' ->
  dict_keys data' = dict_keys data /\
  (forall s ps, dict_get s data = Some ps -> exists ps', dict_get s data' = Some ps' /\ renewed ps ps') /\
  (forall s ps', In (s, ps') data' -> exists ps, In (s, ps) data /\ renewed ps ps').
Proof.
  induction 1 as [|[s p] [s' p'] l l' [E R] _ (I1 & I2 & I3)].
  - split; [reflexivity|]. split; [discriminate|]. intros s ps' [].
  - cbn [fst snd] in *. subst s'. split; [unfold dict_keys in *; cbn [List.map fst]; now rewrite I1|]. split.
    + intros t ps. cbn [dict_get]. destruct (String.eqb t s); [|apply I2]. intros H. injection H as ->. eauto.
    + intros t ps' [H|H]; [injection H as -> ->; exists p; split; [now left|assumption]|].
      destruct (I3 t ps' H) as (ps & Hp & Hr). exists ps. split; [now right|assumption].
Qed.

Theorem serialize_stamped bits str h data metadata msg h' :
  serialize V2_2 (Some (bits, str)) h data metadata = Ok (msg, h') -> data_ok h data ->
  forall m2, untouched data (h_next h) (h_mem h') m2 ->
  exists c sec frac, client_decode isize (List.map (transmit m2) msg) = Some c /\
    py_split dot str = [sec; frac] /\
    (forall src, dict_get src (fst c) = None <-> dict_get src data = None) /\
    forall src ps, dict_get src data = Some ps ->
      (exists e, dict_get src (fst c) = Some e /\
        forall k, k <> "metadata" ->
          match dict_get k ps, dict_get k e with Some a, Some b => got false (h_mem h) a b | None, None => True | _, _ => False end) /\
      (exists d e, metadata_of metadata src ps = Some (PDict d) /\ dict_get src (snd c) = Some (CDict e) /\
        forall k, match stamped bits sec (py_ljust frac 18 "0") d k, dict_get k e with
                  | Some a, Some b => got false (h_mem h) a b | None, None => True | _, _ => False end).
Proof.
  intros H Hok m2 Hm2. unfold M_Export.serialize in H.
  destruct (prepare (Some (bits, str)) data metadata) as [[data' md']|] eqn:Ep; [|discriminate]. cbn [bind] in H.
  unfold prepare in Ep. fold (chosen data metadata) in Ep.
  destruct (dummy_ts (bits, str)) as [upd|] eqn:Eu; [|discriminate]. cbn [bind] in Ep.
  unfold dummy_ts in Eu. cbn [fst snd] in Eu. destruct (py_split dot str) as [|sec [|frac [|x r]]] eqn:Es; try discriminate. injection Eu as <-.
  set (upd := [("timestamp", PFloat bits); ("timestamp.sec", PStr sec); ("timestamp.frac", PStr (py_ljust frac 18 "0"))]) in *.
  destruct Hok as (Hn & Hd & Ha).
  destruct (stamp_ok Ep Hn) as (S1 & S2 & S3). cbn [fst snd] in *.
  destruct (forall2_get S3) as (K & G1 & G2).
  assert (Hok' : data_ok h data').
  { split; [unfold dict_ok; now rewrite K|]. split.
    - intros s ps' Hin. destruct (G2 s ps' Hin) as (ps & Hp & Hr & _). unfold dict_ok. rewrite Hr. now apply (Hd s).
    - intros a (s & ps' & k & Hs & Hk). destruct (G2 s ps' Hs) as (ps & Hp & _ & _ & Hr). apply Ha. exists s, ps, k. auto. }
  destruct (@sources_received isize md' h data' msg h' H Hok' m2) as (c & Hc & [Hr1a Hr1] & Hr2).
  { intros b i Hb. apply Hm2. destruct Hb as [(a & (s & ps' & k & Hs & Hk) & Eb)|Hb]; [left|now right].
    destruct (G2 s ps' Hs) as (ps & Hp & _ & _ & Hr). exists a. split; [exists s, ps, k; auto|assumption]. }
  exists c, sec, frac. split; [assumption|]. split; [reflexivity|]. split.
  { intros src. specialize (Hr1 src). rewrite (dget_keys data src), <- K, <- dget_keys.
    exact (match_none Hr1). }
  intros src ps Hs. destruct (G1 src ps Hs) as (ps' & Hs' & Hr). split.
  - destruct (match_some (Hr1 src) Hs') as (e & He & [_ Hr3]). exists e. split; [exact He|]. clear Hr1. rename Hr3 into Hr1.
    intros k Hk. specialize (Hr1 k). destruct Hr as (_ & Hr & _). rewrite Hr in Hr1 by assumption. exact Hr1.
  - destruct (Hr2 src ps' Hs') as (x' & y & Hx' & Hy & Hg).
    destruct (S1 src) as (x & x2 & Hx & Hts & Hx2); [apply dict_get_keys; eauto|].
    rewrite Hx' in Hx2. injection Hx2 as <-. rewrite (chosen_get metadata Hs) in Hx.
    unfold add_ts in Hts. destruct x as [| | | | | | | |d| | | |]; try discriminate. injection Hts as <-.
    inversion Hg as [| | | | | | | |d1 e He E1 E2| | | | |]; subst. exists d, e. split; [assumption|]. split; [assumption|].
    intros k. assert (X := aligned_get k He). unfold stamped. destruct (dict_get "timestamp" d) eqn:Et; [exact X|].
    unfold dict_update, upd in X. cbn [fold_left fst snd] in X. rewrite !dict_get_set in X.
    destruct (String.eqb k "timestamp") eqn:Ek; [apply String.eqb_eq in Ek; rewrite Ek in X |- *; exact X|clear Ek].
    destruct (String.eqb k "timestamp.sec") eqn:Ek; [apply String.eqb_eq in Ek; rewrite Ek in X |- *; exact X|clear Ek].
    destruct (String.eqb k "timestamp.frac") eqn:Ek; [apply String.eqb_eq in Ek; rewrite Ek in X |- *; exact X|clear Ek]. exact X.
Qed.
End Export.

Lemma split_two : forall c s a b, py_split c s = [a; b] -> s = (a ++ String c b)%string /\ ~ has_char c a /\ ~ has_char c b.
Proof.
  assert (N : forall c s, py_split c s <> []) by (intros c [|x s]; cbn; [discriminate|destruct (Ascii.eqb x c); [discriminate|destruct (py_split c s); discriminate]]).
  assert (One : forall c s a, py_split c s = [a] -> s = a /\ ~ has_char c a).
  { intros c s. induction s as [|x s IH]; intros a H; cbn in H; [injection H as <-; cbn; tauto|].
    destruct (Ascii.eqb_spec x c) as [->|Hx]; [injection H; intros X; destruct (N _ _ X)|].
    destruct (py_split c s) as [|w ws] eqn:E; [destruct (N _ _ E)|]. injection H as <- ->. destruct (IH w eq_refl) as [<- H2]. split; [reflexivity|]. cbn. tauto. }
  intros c s. induction s as [|x s IH]; intros a b H; cbn in H; [discriminate|].
  destruct (Ascii.eqb_spec x c) as [->|Hx].
  - injection H as <- H. destruct (One _ _ _ H) as [-> H2]. repeat split; auto.
  - destruct (py_split c s) as [|w ws] eqn:E; [destruct (N _ _ E)|]. injection H as <- ->. destruct (IH w b eq_refl) as (-> & H2 & H3). cbn. repeat split; tauto.
Qed.

Lemma repeat_char : forall c n d, has_char d (str_repeat c n) -> d = c.
Proof. induction n as [|n IH]; cbn; intros d H; [tauto|]. destruct H as [->|H]; auto. Qed.
Lemma repeat_len : forall c n, String.length (str_repeat c n) = n.
Proof. induction n as [|n IH]; cbn; congruence. Qed.
Lemma length_app_s : forall a b, String.length (a ++ b)%string = (String.length a + String.length b)%nat.
Proof. induction a as [|x a IH]; intros b; cbn; [reflexivity|]. now rewrite IH. Qed.

Lemma printed_ok : forall str sec frac, py_split dot str = [sec; frac] -> printed_time str sec frac (py_ljust frac 18 "0").
Proof.
  intros str sec frac H. destruct (split_two H) as (E & A & B). repeat split; try assumption.
  exists (str_repeat "0" (18 - String.length frac)). split; [reflexivity|]. split; [intros c; apply repeat_char|].
  unfold py_ljust. rewrite length_app_s, repeat_len. lia.
Qed.
