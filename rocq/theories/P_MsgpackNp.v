(** The bytes of messages of protocol 1.0 (C104). *)
From Verif Require Import Base L_Base PyStr M_FilesMap L_Sel2 L_Export1 L_Export2 L_Export3 L_Export4 L_Export5 M_Export S_Export L_Export2 P_Export M_Msgpack S_Msgpack L_Msgpack M_MsgpackNp S_MsgpackNp L_MsgpackNp.
Set Implicit Arguments.
Local Open Scope string_scope.
Local Open Scope Z_scope.
Local Open Scope list_scope.

(** What is packed is unpacked again, exactly. *)
Theorem C104_unpack : forall fl float_bytes float_of, numpy_floats fl float_bytes float_of ->
  forall w b, np_pack float_bytes w = Ok b -> proper_n fl w -> np_unpackb float_of b = Some w.
Proof. intros fl fb fo FL w b H P. exact (np_unpackb_back FL H P). Qed.
Print Assumptions C104_unpack.
(** Different values have different bytes, and no packed value is the beginning of another one. *)
Theorem C104_self_delimiting : forall fl float_bytes float_of, numpy_floats fl float_bytes float_of ->
  forall w w' b b' r r', np_pack float_bytes w = Ok b -> np_pack float_bytes w' = Ok b' -> proper_n fl w -> proper_n fl w' ->
  b ++ r = b' ++ r' -> w = w' /\ r = r'.
Proof.
  intros fl fb fo FL w w' b b' r r' H H' P P' E. set (f := (2 * List.length b + 2 * List.length b')%nat).
  destruct (np_all_back FL P H) as [_ A]. destruct (np_all_back FL P' H') as [_ B]. specialize (A f r ltac:(unfold f; lia)). specialize (B f r' ltac:(unfold f; lia)).
  rewrite E, B in A. now injection A.
Qed.
Print Assumptions C104_self_delimiting.
(** Nothing but lengths of 2^32 and more is refused, and this with ValueError: so are arrays of 4 GiB and more. *)
Theorem C104_packs : forall fl float_bytes float_of, numpy_floats fl float_bytes float_of -> forall w, proper_n fl w ->
  (small_n w -> exists b, np_pack float_bytes w = Ok b) /\ (~ small_n w -> np_pack float_bytes w = Err EValueError).
Proof.
  intros fl fb fo FL w P. split; [now apply (np_packs_iff FL P)|]. intros N. destruct (np_pack fb w) as [b|e] eqn:E.
  - exfalso. apply N, (np_packs_iff FL P). eauto.
  - now rewrite (np_pack_err E).
Qed.
Print Assumptions C104_packs.

Section Data.
Variable isize : string -> nat.
Variable fl : string -> Z -> Prop.
Lemma pack_np_case m n w : pack isize true m (PNp n) = Ok w -> (w = WNp n) \/ exists b, n = NFloat "float64" b /\ w = WFloat b.
Proof.
  intros H. destruct n as [k z|k b|k x y]; [left; now injection H| |left; now injection H].
  destruct (String.eqb_spec k "float64") as [->|N]; [right; exists b; split; [reflexivity|now injection H]|left].
  assert (E : pack isize true m (PNp (NFloat k b)) = Ok (WNp (NFloat k b))).
  { cbn [M_Export.pack]. repeat (match goal with |- context[match ?x with EmptyString => _ | String _ _ => _ end] => destruct x as [|[[] [] [] [] [] [] [] []] ?]; try reflexivity end). contradiction N. reflexivity. }
  rewrite E in H. now injection H.
Qed.
Lemma packed_proper m v : forall w, pack isize true m v = Ok w -> proper_v fl v -> proper_n fl w.
Proof.
  induction v as [|b|z|b|s|l|l IH|l IH|d IH|n|b|a|] using pval_ind'; intros w H P.
  - injection H as <-. constructor.
  - injection H as <-. constructor.
  - cbn [M_Export.pack] in H. destruct (_ && _) eqn:E in H; [|discriminate]. injection H as <-. constructor. apply andb_true_iff in E as [E1 E2].
    apply Z.leb_le in E1. apply Z.ltb_lt in E2. lia.
  - injection H as <-. inversion P; subst. now constructor.
  - injection H as <-. constructor.
  - injection H as <-. inversion P; subst. now constructor.
  - rewrite pack_list in H. apply bind_ok in H as (ws & E & H). injection H as <-. inversion P as [| | | | | |? X| | | | | |]; subst. clear P. constructor.
    apply mapM_Forall2 in E. induction E as [|x w l ws Hx E IHE]; intros w' Hw; [destruct Hw|]. inversion IH; subst.
    destruct Hw as [<-|Hw]; [apply H1; [exact Hx|apply X; now left]|]. apply IHE; [assumption|intros v Hv; apply X; now right|exact Hw].
  - rewrite pack_tuple in H. apply bind_ok in H as (ws & E & H). injection H as <-. inversion P as [| | | | | | |? X| | | | |]; subst. clear P. constructor.
    apply mapM_Forall2 in E. induction E as [|x w l ws Hx E IHE]; intros w' Hw; [destruct Hw|]. inversion IH; subst.
    destruct Hw as [<-|Hw]; [apply H1; [exact Hx|apply X; now left]|]. apply IHE; [assumption|intros v Hv; apply X; now right|exact Hw].
  - rewrite pack_dict in H. apply bind_ok in H as (ws & E & H). injection H as <-. inversion P as [| | | | | | | |? ND X| | | |]; subst. clear P.
    apply mapM_Forall2 in E. assert (K : dict_keys ws = dict_keys d).
    { clear -E. unfold dict_keys. induction E as [|x w l ws Hx E IHE]; [reflexivity|]. cbn. rewrite IHE. f_equal. unfold pack_item in Hx. apply bind_ok in Hx as (? & _ & Hx). now injection Hx as <-. }
    constructor; [now rewrite K|]. clear ND K. induction E as [|x w l ws Hx E IHE]; intros k' w' Hw; [destruct Hw|]. inversion IH; subst.
    unfold pack_item in Hx. apply bind_ok in Hx as (y & Hy & Hx). injection Hx as <-.
    destruct Hw as [Ew|Hw]; [injection Ew as <- <-; apply H1; [exact Hy|apply (X (fst x)); left; now destruct x]|].
    apply (IHE) with (k := k'); [assumption|intros k v Hv; apply (X k); now right|exact Hw].
  - inversion P as [| | | | | | | | |? R B| | |]; subst. destruct (@pack_np_case m n w H) as [->|(b & -> & ->)]; [now constructor|]. constructor. exact (B _ _ eq_refl).
  - injection H as <-. constructor.
  - injection H as <-. inversion P; subst. now constructor.
  - discriminate.
Qed.

Definition proper_md (md : list (string * pval)) : Prop := forall s v, In (s, v) md -> proper_v fl v.
Lemma update_proper u d : NoDup (dict_keys d) -> (forall k v, In (k, v) d -> proper_v fl v) -> (forall k v, In (k, v) u -> proper_v fl v) -> proper_v fl (PDict (dict_update d u)).
Proof.
  unfold dict_update. revert d. induction u as [|[k v] u IH]; intros d ND P U; cbn [fold_left]; [now constructor|].
  apply IH; [now apply dict_set_nodup| |intros k' v' H; apply (U k'); now right].
  intros k' v' H. apply in_dset in H as [E|H]; [injection E as -> ->; apply (U k); now left|now apply (P k')].
Qed.
Lemma stamp_proper upd : (forall k v, In (k, v) upd -> proper_v fl v) -> forall ks st st', foldM (stamp_source upd true) st ks = Ok st' ->
  proper_data fl (fst st) -> proper_md (snd st) -> proper_data fl (fst st').
Proof.
  intros U. induction ks as [|k ks IH]; intros st st' H Gd Gm; cbn [foldM] in H; [injection H as <-; exact Gd|].
  apply bind_ok in H as (st1 & H1 & H). unfold stamp_source in H1. destruct (dict_get k (snd st)) as [x|] eqn:Ex; [|discriminate].
  apply bind_ok in H1 as (x' & Ha & H1). apply dict_get_In in Ex.
  assert (Px : proper_v fl x'). { unfold add_ts in Ha. destruct x; try discriminate. injection Ha as <-. assert (P := Gm _ _ Ex). inversion P; subst. destruct (dict_get "timestamp" d); [exact P|]. now apply update_proper. }
  apply (IH st1 st' H); injection H1 as <-; cbn [fst snd].
  - destruct Gd as [N Gd]. split.
    { unfold dict_keys in N |- *. rewrite map_map. erewrite map_ext; [exact N|]. intros [s p]. cbn [fst snd]. now destruct (String.eqb s k). }
    intros src ps Hs. apply in_map_iff in Hs as ([s p] & E & Hs). cbn [fst snd] in E. destruct (Gd s p Hs) as [ND P].
    destruct (String.eqb s k); [|injection E as <- <-; now split]. injection E as <- <-.
    match goal with |- context[match ?a with Some _ => _ | None => _ end] => destruct a end; [|now split]. split; [now apply dict_set_nodup|].
    intros k' v' H'. apply in_dset in H' as [E|H']; [injection E as -> ->; exact Px|now apply (P k')].
  - intros s v Hv. apply in_dset in Hv as [E|Hv]; [injection E as -> ->; exact Px|now apply (Gm s)].
Qed.
Lemma stamp_same upd : forall ks st st', foldM (stamp_source upd false) st ks = Ok st' -> fst st' = fst st.
Proof.
  induction ks as [|k ks IH]; intros st st' H; cbn [foldM] in H; [now injection H as <-|].
  apply bind_ok in H as (st1 & H1 & H). rewrite (IH _ _ H). unfold stamp_source in H1. destruct (dict_get k (snd st)); [|discriminate]. apply bind_ok in H1 as (x' & _ & H1). now injection H1 as <-.
Qed.
Lemma prepare_proper now data metadata data' md : prepare now data metadata = Ok (data', md) -> proper_data fl data -> stamp_bits now -> proper_data fl data'.
Proof.
  intros H G B. unfold prepare in H. destruct now as [[bits str]|]; [|now injection H as <- <-]. apply bind_ok in H as (upd & Hu & H).
  assert (D : proper_md (default_metadata data)).
  { intros s v Hv. unfold default_metadata in Hv. apply in_map_iff in Hv as ([s' ps] & E & Hs). cbn [fst snd] in E. injection E as <- <-.
    destruct (dict_get "metadata" ps) as [x|] eqn:Ex; [|constructor; [constructor|intros ? ? []]]. apply dict_get_In in Ex. now apply (proj2 (proj2 G _ _ Hs) "metadata"). }
  assert (U : forall k v, In (k, v) upd -> proper_v fl v).
  { unfold dummy_ts in Hu. cbn [snd fst] in Hu. destruct (py_split dot str) as [|a [|b [|]]]; try discriminate. injection Hu as <-.
    intros k v [E|[E|[E|[]]]]; injection E as <- <-; constructor. exact B. }
  destruct metadata as [[|p m]|].
  - exact (@stamp_proper upd U _ _ _ H G D).
  - apply stamp_same in H. cbn [fst] in H. now subst data'.
  - exact (@stamp_proper upd U _ _ _ H G D).
Qed.
End Data.

(** The message has one part; unpacked, it is the value which was packed, with dummy timestamps (C47_timestamps_in_data) or without. *)
Theorem C104_any_message : forall (isize : string -> nat) fl float_bytes float_of now h data metadata msg h', numpy_floats fl float_bytes float_of ->
  serialize isize V1_0 now h data metadata = Ok (msg, h') -> proper_data fl data -> stamp_bits now ->
  forall bytes m2, message_bytes_v1 float_bytes msg = Ok bytes ->
  exists b w, bytes = [b] /\ np_unpackb float_of b = Some w /\ List.map (transmit m2) msg = [WPacked w].
Proof.
  intros isize fl fb fo now h data metadata msg h' FL H G B bytes m2 Hb.
  unfold serialize in H. apply bind_ok in H as ([data2 md] & Hp & H). destruct (@prepare_proper fl now data metadata data2 md Hp G B) as [ND G2].
  apply bind_ok in H as (w & Hw & H). injection H as <- <-. cbn [message_bytes_v1 mapM] in Hb. apply bind_ok in Hb as (b & Hb & E). injection E as <-.
  exists b, w. split; [reflexivity|]. split; [|reflexivity].
  apply (@C104_unpack fl fb fo FL w b Hb). apply (@packed_proper isize fl _ _ _ Hw). constructor.
  - unfold dict_keys in ND |- *. rewrite map_map. exact ND.
  - intros k v Hv. apply in_map_iff in Hv as ([s ps] & E & Hs). injection E as <- <-. destruct (G2 s ps Hs) as [N X]. now constructor.
Qed.
Print Assumptions C104_any_message.

(** A client which only has the bytes of a message gets what was passed to feed(), with the types of numbers and arrays. *)
Theorem C104_message : forall (isize : string -> nat) fl float_bytes float_of h data metadata msg h', numpy_floats fl float_bytes float_of ->
  serialize isize V1_0 None h data metadata = Ok (msg, h') -> data_ok h data -> proper_data fl data ->
  forall bytes, message_bytes_v1 float_bytes msg = Ok bytes ->
  exists b w c, bytes = [b] /\ np_unpackb float_of b = Some w /\ client_decode isize [WPacked w] = Some c /\
    received isize true (h_mem h) data (metadata_of None) c.
Proof.
  intros isize fl fb fo h data metadata msg h' FL H Hok G bytes Hb.
  destruct (@C47_v1_roundtrip isize h data metadata msg h' H Hok (h_mem h)) as (c & Hc & R).
  destruct (@C104_any_message isize fl fb fo None h data metadata msg h' FL H G I bytes (h_mem h) Hb) as (b & w & E & U & T).
  exists b, w, c. rewrite T in Hc. auto.
Qed.
Print Assumptions C104_message.

(** Examples: floating point numbers of 64 bits, least significant byte first. *)
Definition fl_ex (k : string) (b : Z) : Prop := k = "float64" /\ 0 <= b < 2 ^ 64.
Definition float_bytes_ex (k : string) (b : Z) : list Z := rev (be 8 b).
Definition float_of_ex (k : string) (l : list Z) : Z := unsigned (rev l).
Lemma floats_ex : numpy_floats fl_ex float_bytes_ex float_of_ex.
Proof.
  intros k n b E [-> R]. injection E as <-. unfold float_bytes_ex, float_of_ex. rewrite rev_length, be_length, rev_involutive. split; [reflexivity|]. now apply be_value.
Qed.
Example C104_pack_example :
  np_pack float_bytes_ex (WNp (NInt "int16" (-2))) =
    Ok [0x83; 0xc4; 2; 110; 100; 0xc2; 0xc4; 4; 116; 121; 112; 101; 0xa3; 60; 105; 50; 0xc4; 4; 100; 97; 116; 97; 0xc4; 2; 254; 255] /\
  proper_n fl_ex (WNp (NInt "int16" (-2))) /\ proper_n fl_ex (WNp (NComplex "complex128" 0 4607182418800017408)) /\
  np_unpackb float_of_ex [0x83; 0xc4; 2; 110; 100; 0xc2; 0xc4; 4; 116; 121; 112; 101; 0xa3; 60; 105; 50; 0xc4; 4; 100; 97; 116; 97; 0xc4; 2; 254; 255] =
    Some (WNp (NInt "int16" (-2))).
Proof. split; [vm_compute; reflexivity|]. split; [constructor; cbn; lia|]. split; [|vm_compute; reflexivity]. constructor. cbn. repeat split; lia. Qed.
Lemma data_ex_proper : proper_data fl_ex data_ex.
Proof.
  split; [exact (proj1 data_ex_ok)|]. intros src ps Hs. split; [exact (proj1 (proj2 data_ex_ok) _ _ Hs)|].
  assert (O : forall (k : string), NoDup [k]) by (intros k; repeat constructor; intros []).
  destruct Hs as [E|[E|[]]]; injection E as <- <-; intros k v Hv.
  - destruct Hv as [E|[E|[E|[E|[]]]]]; injection E as <- <-.
    + constructor; [reflexivity|]. intros n [<-|[<-|[]]]; reflexivity.
    + constructor; [reflexivity|]. intros n [<-|[<-|[]]]; reflexivity.
    + constructor; [cbn; lia|discriminate].
    + constructor. intros v [<-|[<-|[<-|[]]]]; constructor; [apply (O "k")|]. intros k v [E|[]]. injection E as <- <-. constructor.
  - destruct Hv as [E|[]]. injection E as <- <-. constructor; [apply (O "timestamp.tid")|]. intros k v [E|[]]. injection E as <- <-. constructor.
Qed.
Example C104_example : exists msg h' b w c,
  serialize isize_ex V1_0 None heap_ex data_ex None = Ok (msg, h') /\ data_ok heap_ex data_ex /\ proper_data fl_ex data_ex /\
  message_bytes_v1 float_bytes_ex msg = Ok [b] /\ np_unpackb float_of_ex b = Some w /\ client_decode isize_ex [WPacked w] = Some c /\
  option_map (dict_get "n") (dict_get "b/src" (fst c)) = Some (Some (CNp (NInt "uint8" 7))).
Proof.
  destruct (serialize isize_ex V1_0 None heap_ex data_ex None) as [[msg h']|e] eqn:E; [|exfalso; vm_compute in E; discriminate].
  exists msg, h'. vm_compute in E. injection E as <- <-. do 3 eexists. split; [reflexivity|]. split; [exact data_ex_ok|]. split; [exact data_ex_proper|].
  split; [vm_compute; reflexivity|]. split; [vm_compute; reflexivity|]. split; vm_compute; reflexivity.
Qed.
