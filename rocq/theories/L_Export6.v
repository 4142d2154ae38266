(** Dummy timestamps in the data. *)
From Verif Require Import Base PyStr S_Open M_Export S_Export L_Base L_Export1 L_Export2 L_Export3 L_Export4 L_Export5.
Set Implicit Arguments.
Unset Strict Implicit.
Local Open Scope string_scope.
Local Open Scope list_scope.

Definition stamps (bits : Z) (sec frac : string) : list (string * pval) :=
  [("timestamp", PFloat bits); ("timestamp.sec", PStr sec); ("timestamp.frac", PStr (py_ljust frac 18 "0"))].

(** What happens to the metadata in the data of a source. *)
Definition restamped (upd : list (string * pval)) (ps ps' : props) : Prop :=
  match dict_get "metadata" ps with
  | None => dict_get "metadata" ps' = None
  | Some x => exists x', add_ts upd x = Ok x' /\ dict_get "metadata" ps' = Some x'
  end.

Section Stamp.
Variable upd : list (string * pval).

Lemma map_get (f : string * props -> props) (l : sdata) s :
  dict_get s (List.map (fun p => (fst p, f p)) l) = match dict_get s l with Some ps => Some (f (s, ps)) | None => None end.
Proof.
  induction l as [|[t ps] l IH]; [reflexivity|]. cbn [List.map dict_get fst snd].
  destruct (String.eqb_spec s t) as [-> | _]; [reflexivity|exact IH].
Qed.

Definition put (k : string) (md' : pval) (p : string * props) : props :=
  if String.eqb (fst p) k then match dict_get "metadata" (snd p) with Some _ => dict_set "metadata" md' (snd p) | None => snd p end else snd p.

Lemma stamp_derived ks : forall st st', foldM (stamp_source upd true) st ks = Ok st' -> NoDup ks ->
  (forall s ps, In s ks -> dict_get s (fst st) = Some ps ->
     exists x x' ps', dict_get s (snd st) = Some x /\ add_ts upd x = Ok x' /\ dict_get s (fst st') = Some ps' /\
       dict_get "metadata" ps' = match dict_get "metadata" ps with Some _ => Some x' | None => None end) /\
  (forall s, ~ In s ks -> dict_get s (fst st') = dict_get s (fst st)).
Proof.
  induction ks as [|k ks IH]; intros st st' H Hn; cbn [foldM] in H.
  - injection H as <-. split; [intros s ps []|reflexivity].
  - destruct (stamp_source upd true st k) as [st1|] eqn:E1; [|discriminate]. cbn [bind] in H.
    inversion Hn as [|? ? Hk Hks]; subst. destruct (IH _ _ H Hks) as (I1 & I2).
    unfold stamp_source in E1. destruct (dict_get k (snd st)) as [x|] eqn:Ex; [|discriminate].
    destruct (add_ts upd x) as [x'|] eqn:Ea; [|discriminate]. cbn [bind] in E1. injection E1 as E1.
    assert (F : fst st1 = List.map (fun p => (fst p, put k x' p)) (fst st)).
    { rewrite <- E1. cbn [fst]. apply map_ext. intros [s ps]. unfold put. cbn [fst snd]. destruct (String.eqb s k); reflexivity. }
    assert (G : forall s, dict_get s (fst st1) = match dict_get s (fst st) with Some ps => Some (put k x' (s, ps)) | None => None end).
    { intros s. rewrite F. apply map_get. }
    split.
    + intros s ps [<-|Hs] Hps.
      * exists x, x'. exists (put k x' (k, ps)). split; [assumption|]. split; [assumption|].
        split; [rewrite I2 by assumption; now rewrite G, Hps|]. unfold put. cbn [fst snd]. rewrite String.eqb_refl.
        destruct (dict_get "metadata" ps) eqn:Em; [now rewrite dict_get_set|exact Em].
      * assert (N : s <> k) by (intros ->; contradiction).
        destruct (I1 s ps Hs) as (y & y' & ps' & Y1 & Y2 & Y3 & Y4).
        { rewrite G, Hps. unfold put. cbn [fst snd]. apply String.eqb_neq in N. now rewrite N. }
        exists y, y', ps'. split; [|auto]. rewrite <- E1 in Y1. cbn [snd] in Y1. rewrite dict_get_set in Y1.
        apply String.eqb_neq in N. now rewrite N in Y1.
    + intros s Hs. rewrite I2 by (intros E; apply Hs; now right). rewrite G.
      destruct (dict_get s (fst st)) as [ps|]; [|reflexivity]. unfold put. cbn [fst snd].
      destruct (String.eqb_spec s k) as [-> | _]; [exfalso; apply Hs; now left|reflexivity].
Qed.
Lemma stamp_given ks : forall st st', foldM (stamp_source upd false) st ks = Ok st' -> fst st' = fst st.
Proof.
  induction ks as [|k ks IH]; intros st st' H; cbn [foldM] in H; [now injection H as <-|].
  destruct (stamp_source upd false st k) as [st1|] eqn:E1; [|discriminate]. cbn [bind] in H. rewrite (IH _ _ H).
  unfold stamp_source in E1. destruct (dict_get k (snd st)) as [x|]; [|discriminate].
  destruct (add_ts upd x) as [x'|]; [|discriminate]. cbn [bind] in E1. now injection E1 as <-.
Qed.
End Stamp.

Lemma prepare_ok bits str h data metadata data' md' : prepare (Some (bits, str)) data metadata = Ok (data', md') -> data_ok h data ->
  exists sec frac, py_split dot str = [sec; frac] /\ data_ok h data' /\ dict_keys data' = dict_keys data /\
  (forall s ps, dict_get s data = Some ps -> exists ps', dict_get s data' = Some ps' /\ renewed ps ps') /\
  (forall s ps', In (s, ps') data' -> exists ps, In (s, ps) data /\ renewed ps ps') /\
  match metadata with
  | None | Some [] => forall s ps ps', dict_get s data = Some ps -> dict_get s data' = Some ps' -> restamped (stamps bits sec frac) ps ps'
  | _ => data' = data
  end.
Proof.
  intros Ep Hok. unfold prepare in Ep. fold (chosen data metadata) in Ep.
  destruct (dummy_ts (bits, str)) as [upd|] eqn:Eu; [|discriminate]. cbn [bind] in Ep.
  unfold dummy_ts in Eu. cbn [fst snd] in Eu. destruct (py_split dot str) as [|sec [|frac [|x r]]] eqn:Es; try discriminate. injection Eu as <-.
  fold (stamps bits sec frac) in Ep. exists sec, frac. split; [reflexivity|]. destruct Hok as (Hn & Hd & Ha).
  destruct (stamp_ok Ep Hn) as (S1 & S2 & S3). cbn [fst snd] in S3. destruct (forall2_get S3) as (K & G1 & G2).
  split; [|split; [exact K|split; [exact G1|split; [exact G2|]]]].
  - split; [unfold dict_ok; now rewrite K|]. split.
    + intros s ps' Hin. destruct (G2 s ps' Hin) as (ps & Hp & Hr & _). unfold dict_ok. rewrite Hr. now apply (Hd s).
    + intros a (s & ps' & k & Hs & Hk). destruct (G2 s ps' Hs) as (ps & Hp & _ & _ & Hr). apply Ha. exists s, ps, k. auto.
  - assert (D : chosen data metadata = default_metadata data -> foldM (stamp_source (stamps bits sec frac) true) (data, chosen data metadata) (dict_keys data) = Ok (data', md') ->
      forall s ps ps', dict_get s data = Some ps -> dict_get s data' = Some ps' -> restamped (stamps bits sec frac) ps ps').
    { intros Ec Ed s ps ps' Hs Hs'. destruct (stamp_derived Ed Hn) as (T & _).
      destruct (T s ps) as (x & x' & ps1 & T1 & T2 & T3 & T4); [apply dict_get_keys; eauto|exact Hs|]. cbn [fst snd] in *.
      rewrite Hs' in T3. injection T3 as <-. rewrite Ec, (default_metadata_get Hs) in T1. unfold restamped.
      destruct (dict_get "metadata" ps) as [y|] eqn:Ey; [|exact T4].
      cbn in T1. rewrite Ey in T1. injection T1 as <-. eauto. }
    destruct metadata as [[|p m]|].
    + exact (D eq_refl Ep).
    + change data' with (fst (data', md')). rewrite (stamp_given Ep). reflexivity.
    + exact (D eq_refl Ep).
Qed.

Lemma stamped_got isize np m bits sec frac d e : aligned (got isize np m) (match dict_get "timestamp" d with Some _ => d | None => dict_update d (stamps bits sec frac) end) e ->
  forall k, match stamped bits sec (py_ljust frac 18 "0") d k, dict_get k e with
            | Some a, Some b => got isize np m a b | None, None => True | _, _ => False end.
Proof.
  intros He k. assert (X := aligned_get k He). unfold stamped. destruct (dict_get "timestamp" d) eqn:Et; [exact X|].
  unfold dict_update, stamps in X. cbn [fold_left fst snd] in X. rewrite !dict_get_set in X.
  destruct (String.eqb k "timestamp") eqn:Ek; [apply String.eqb_eq in Ek; rewrite Ek in X |- *; exact X|clear Ek].
  destruct (String.eqb k "timestamp.sec") eqn:Ek; [apply String.eqb_eq in Ek; rewrite Ek in X |- *; exact X|clear Ek].
  destruct (String.eqb k "timestamp.frac") eqn:Ek; [apply String.eqb_eq in Ek; rewrite Ek in X |- *; exact X|clear Ek]. exact X.
Qed.

Definition is_v1 (v : protocol) : bool := match v with V1_0 => true | V2_2 => false end.

(** The data which the client gets are those prepared. *)
Lemma prepared_received isize v bits str h data metadata msg h' data' md' :
  prepare (Some (bits, str)) data metadata = Ok (data', md') -> data_ok h data ->
  serialize isize v (Some (bits, str)) h data metadata = Ok (msg, h') ->
  forall m2, untouched data (h_next h) (h_mem h') m2 ->
  exists c, client_decode isize (List.map (transmit m2) msg) = Some c /\ same_dict (same_dict (got isize (is_v1 v) (h_mem h))) data' (fst c).
Proof.
  intros Ep Hok H m2 Hm2. destruct (prepare_ok Ep Hok) as (sec & frac & _ & Hok' & K & G1 & G2 & _).
  unfold serialize in H. rewrite Ep in H. cbn [bind] in H. destruct v.
  - assert (H' : serialize isize V1_0 None h data' None = Ok (msg, h')) by exact H.
    destruct (@v1_received isize h data' None msg h' H' Hok' m2) as (c & Hc & Hr & _). exists c. auto.
  - destruct (@sources_received isize md' h data' msg h' H Hok' m2) as (c & Hc & Hr & _); [|exists c; auto].
    intros b i Hb. apply Hm2. destruct Hb as [(a & (s & ps' & k & Hs & Hk) & Eb)|Hb]; [left|now right].
    destruct (G2 s ps' Hs) as (ps & Hp & _ & _ & Hr). exists a. split; [exists s, ps, k; auto|assumption].
Qed.

Lemma data_restamped isize v bits str h data metadata msg h' :
  metadata = None \/ metadata = Some [] ->
  serialize isize v (Some (bits, str)) h data metadata = Ok (msg, h') -> data_ok h data ->
  forall m2, untouched data (h_next h) (h_mem h') m2 ->
  exists c sec frac, client_decode isize (List.map (transmit m2) msg) = Some c /\ py_split dot str = [sec; frac] /\
    (forall src, dict_get src (fst c) = None <-> dict_get src data = None) /\
    forall src ps, dict_get src data = Some ps -> exists e, dict_get src (fst c) = Some e /\
      (forall k, k <> "metadata" ->
         match dict_get k ps, dict_get k e with Some a, Some b => got isize (is_v1 v) (h_mem h) a b | None, None => True | _, _ => False end) /\
      match dict_get "metadata" ps with
      | None => dict_get "metadata" e = None
      | Some x => exists d d', x = PDict d /\ dict_get "metadata" e = Some (CDict d') /\
          forall k, match stamped bits sec (py_ljust frac 18 "0") d k, dict_get k d' with
                    | Some a, Some b => got isize (is_v1 v) (h_mem h) a b | None, None => True | _, _ => False end
      end.
Proof.
  intros Hmd H Hok m2 Hm2. destruct (prepare (Some (bits, str)) data metadata) as [[data' md']|] eqn:Ep; [|unfold serialize in H; rewrite Ep in H; discriminate].
  destruct (prepared_received Ep Hok H Hm2) as (c & Hc & Hr1a & Hr1). destruct (prepare_ok Ep Hok) as (sec & frac & Es & Hok' & K & G1 & G2 & R).
  assert (R' : forall s ps ps', dict_get s data = Some ps -> dict_get s data' = Some ps' -> restamped (stamps bits sec frac) ps ps') by (destruct Hmd as [-> | ->]; exact R).
  exists c, sec, frac. split; [assumption|]. split; [assumption|]. split.
  { intros src. specialize (Hr1 src). rewrite (dget_keys data src), <- K, <- dget_keys. exact (match_none Hr1). }
  intros src ps Hs. destruct (G1 src ps Hs) as (ps' & Hs' & Hr). destruct (match_some (Hr1 src) Hs') as (e & He & _ & Hr3).
  exists e. split; [exact He|]. split.
  - intros k Hk. specialize (Hr3 k). destruct Hr as (_ & Hr & _). now rewrite Hr in Hr3 by assumption.
  - specialize (R' _ _ _ Hs Hs'). specialize (Hr3 "metadata"). unfold restamped in R'. destruct (dict_get "metadata" ps) as [x|].
    + destruct R' as (x' & Hx & Hx'). rewrite Hx' in Hr3. destruct (dict_get "metadata" e) as [y|]; [|contradiction].
      unfold add_ts in Hx. destruct x as [| | | | | | | |d| | | |]; try discriminate. injection Hx as <-.
      inversion Hr3 as [| | | | | | | |d1 e1 He1 E1 E2| | | | |]; subst. exists d, e1. split; [reflexivity|]. split; [reflexivity|].
      now apply stamped_got.
    + rewrite R' in Hr3. destruct (dict_get "metadata" e); [contradiction|reflexivity].
Qed.

Lemma data_given isize v bits str h data p m msg h' :
  serialize isize v (Some (bits, str)) h data (Some (p :: m)) = Ok (msg, h') -> data_ok h data ->
  (v = V1_0 -> serialize isize v None h data (Some (p :: m)) = Ok (msg, h')) /\
  forall m2, untouched data (h_next h) (h_mem h') m2 ->
  exists c, client_decode isize (List.map (transmit m2) msg) = Some c /\ same_dict (same_dict (got isize (is_v1 v) (h_mem h))) data (fst c).
Proof.
  intros H Hok. destruct (prepare (Some (bits, str)) data (Some (p :: m))) as [[data' md']|] eqn:Ep; [|unfold serialize in H; rewrite Ep in H; discriminate].
  destruct (prepare_ok Ep Hok) as (sec & frac & Es & Hok' & K & G1 & G2 & R). subst data'. split.
  - intros ->. unfold serialize in *. rewrite Ep in H. exact H.
  - intros m2 Hm2. exact (prepared_received Ep Hok H Hm2).
Qed.
