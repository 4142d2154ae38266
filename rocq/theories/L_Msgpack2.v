(** Messages as bytes. *)
From Verif Require Import Base L_Base PyStr M_Export S_Export L_Export1 L_Export2 L_Export3 L_Export4 L_Export5 L_Sel2 M_Msgpack S_Msgpack L_Msgpack.
Set Implicit Arguments.
Unset Strict Implicit.
Local Open Scope string_scope.
Local Open Scope list_scope.

Section Export.
Variable isize : string -> nat.
Notation pack := (pack isize).

Lemma pack_proper m v : forall w, pack false m v = Ok w -> proper_p v -> proper_w w.
Proof.
  induction v as [|b|z|b|s|l|l IH|l IH|d IH|n|b|a|] using pval_ind'; intros w H P.
  - injection H as <-. constructor.
  - injection H as <-. constructor.
  - cbn [M_Export.pack] in H. destruct (_ && _) eqn:E in H; [|discriminate]. injection H as <-. constructor. apply andb_true_iff in E as [E1 E2].
    apply Z.leb_le in E1. apply Z.ltb_lt in E2. lia.
  - injection H as <-. inversion P; subst. now constructor.
  - injection H as <-. constructor.
  - injection H as <-. inversion P; subst. now constructor.
  - rewrite pack_list in H. apply bind_ok in H as (ws & E & H). injection H as <-. inversion P as [| | | | | |? X| | | | | | | |]; subst. clear P. constructor.
    apply mapM_Forall2 in E. induction E as [|x w l ws Hx E IHE]; intros w' Hw; [destruct Hw|]. inversion IH; subst.
    destruct Hw as [<-|Hw]; [apply H1; [exact Hx|apply X; now left]|]. apply IHE; [assumption|intros v Hv; apply X; now right|exact Hw].
  - rewrite pack_tuple in H. apply bind_ok in H as (ws & E & H). injection H as <-. inversion P as [| | | | | | |? X| | | | | | |]; subst. clear P. constructor.
    apply mapM_Forall2 in E. induction E as [|x w l ws Hx E IHE]; intros w' Hw; [destruct Hw|]. inversion IH; subst.
    destruct Hw as [<-|Hw]; [apply H1; [exact Hx|apply X; now left]|]. apply IHE; [assumption|intros v Hv; apply X; now right|exact Hw].
  - rewrite pack_dict in H. apply bind_ok in H as (ws & E & H). injection H as <-. inversion P as [| | | | | | | |? ND X| | | | | |]; subst. clear P.
    apply mapM_Forall2 in E. assert (K : dict_keys ws = dict_keys d).
    { clear -E. unfold dict_keys. induction E as [|x w l ws Hx E IHE]; [reflexivity|]. cbn. rewrite IHE. f_equal. unfold pack_item in Hx. apply bind_ok in Hx as (? & _ & Hx). now injection Hx as <-. }
    constructor; [now rewrite K|]. clear ND K. induction E as [|x w l ws Hx E IHE]; intros k' w' Hw; [destruct Hw|]. inversion IH; subst.
    unfold pack_item in Hx. apply bind_ok in Hx as (y & Hy & Hx). injection Hx as <-.
    destruct Hw as [Ew|Hw]; [injection Ew as <- <-; apply H1; [exact Hy|apply (X (fst x)); left; now destruct x]|].
    apply (IHE) with (k := k'); [assumption|intros k v Hv; apply (X k); now right|exact Hw].
  - assert (Q := pack_only H). inversion Q; subst. rewrite pack_float64 in H. injection H as <-. inversion P; subst. now constructor.
  - discriminate.
  - discriminate.
  - discriminate.
Qed.

Definition proper_frame (f : frame) : Prop := match f with FMsg w => proper_w w | FView _ _ _ => True end.
Ltac nd := repeat (constructor; [cbn; intros X; repeat destruct X as [X|X]; try discriminate X; exact X|]); constructor.
Lemma array_frames_proper src h ka fs h' : array_frames isize src h ka = Ok (fs, h') -> Forall proper_frame fs.
Proof.
  unfold array_frames. destruct (if c_contiguous _ _ then _ else _) as [a h1]. intros H. apply bind_ok in H as (hd & Hd & H). injection H as <- _.
  constructor; [|constructor; [exact I|constructor]]. apply (pack_proper Hd). constructor; [cbn; nd|].
  intros k v [E|[E|[E|[E|[E|[]]]]]]; injection E as <- <-; try constructor. intros v Hv. apply in_map_iff in Hv as (z & <- & _). constructor.
Qed.
Lemma all_array_frames_proper src l : forall h fs h', all_array_frames isize src h l = Ok (fs, h') -> Forall proper_frame fs.
Proof.
  induction l as [|ka l IH]; intros h fs h' H; cbn [all_array_frames] in H; [injection H as <- _; constructor|].
  apply bind_ok in H as ([f1 h1] & H1 & H). apply bind_ok in H as ([f2 h2] & H2 & H). injection H as <- _. apply Forall_app. split; [now apply array_frames_proper in H1|eauto].
Qed.
Lemma main_proper ps : NoDup (dict_keys ps) -> (forall k v, In (k, v) ps -> proper_p v) -> proper_p (PDict (main_of ps)).
Proof.
  intros ND P. unfold main_of. constructor.
  - unfold dict_keys. rewrite map_map. cbn [fst]. unfold dict_keys in ND. clear P. induction ps as [|[k v] ps IH]; cbn; [constructor|].
    inversion ND as [|? ? N1 N2]; subst. destruct (negb (is_array v)); [|auto]. cbn. constructor; [|auto]. intros X. apply N1.
    apply in_map_iff in X as (p & <- & X). apply filter_In in X as [X _]. now apply in_map.
  - intros k v H. apply in_map_iff in H as ([k' v'] & E & H). cbn [fst snd] in E. injection E as <- <-. apply filter_In in H as [H _].
    assert (Pv := P _ _ H). unfold main_value. destruct v'; try exact Pv. destruct n; cbn [np_item]; [constructor|inversion Pv; now constructor|constructor].
Qed.
Lemma frames_proper md data : good_md md -> forall h fs h', good_data data -> frames_of_sources isize md h data = Ok (fs, h') -> Forall proper_frame fs.
Proof.
  intros Gm. induction data as [|[src ps] data IH]; intros h fs h' Gd H; cbn [frames_of_sources] in H; [injection H as <- _; constructor|].
  apply bind_ok in H as ([f1 h1] & H1 & H). apply bind_ok in H as ([f2 h2] & H2 & H). injection H as <- _. apply Forall_app. split.
  - unfold source_frames in H1. destruct (dict_get src md) as [x|] eqn:E; [|discriminate]. apply dict_get_In in E.
    apply bind_ok in H1 as (hd & Hd & H1). apply bind_ok in H1 as (mn & Hm & H1). apply bind_ok in H1 as ([f3 h3] & H3 & H1). injection H1 as <- _.
    destruct (Gd src ps (or_introl eq_refl)) as [ND P]. constructor; [|constructor; [exact (pack_proper Hm (main_proper ND P))|now apply all_array_frames_proper in H3]].
    apply (pack_proper Hd). constructor; [cbn; nd|]. intros k v [E1|[E1|[E1|[]]]]; injection E1 as <- <-; [constructor|constructor|now apply (Gm src)].
  - apply (IH h1 f2 h2); [|exact H2]. intros s p Hs. apply (Gd s). now right.
Qed.

Lemma update_proper u d : NoDup (dict_keys d) -> (forall k v, In (k, v) d -> proper_p v) -> (forall k v, In (k, v) u -> proper_p v) -> proper_p (PDict (dict_update d u)).
Proof.
  unfold dict_update. revert d. induction u as [|[k v] u IH]; intros d ND P U; cbn [fold_left]; [now constructor|].
  apply IH; [now apply dict_set_nodup| |intros k' v' H; apply (U k'); now right].
  intros k' v' H. apply in_dset in H as [E|H]; [injection E as -> ->; apply (U k); now left|now apply (P k')].
Qed.
Lemma stamp_good upd derived : (forall k v, In (k, v) upd -> proper_p v) -> forall ks st st', foldM (stamp_source upd derived) st ks = Ok st' ->
  good_data (fst st) -> good_md (snd st) -> good_data (fst st') /\ good_md (snd st').
Proof.
  intros U. induction ks as [|k ks IH]; intros st st' H Gd Gm; cbn [foldM] in H; [injection H as <-; now split|].
  apply bind_ok in H as (st1 & H1 & H). unfold stamp_source in H1. destruct (dict_get k (snd st)) as [x|] eqn:Ex; [|discriminate].
  apply bind_ok in H1 as (x' & Ha & H1). apply dict_get_In in Ex.
  assert (Px : proper_p x'). { unfold add_ts in Ha. destruct x; try discriminate. injection Ha as <-. assert (P := Gm _ _ Ex). inversion P; subst. destruct (dict_get "timestamp" d); [exact P|]. now apply update_proper. }
  apply (IH st1 st' H); injection H1 as <-; cbn [fst snd].
  - destruct derived; [|exact Gd]. intros src ps Hs. apply in_map_iff in Hs as ([s p] & E & Hs). cbn [fst snd] in E. destruct (Gd s p Hs) as [ND P].
    destruct (String.eqb s k); [|injection E as <- <-; now split]. injection E as <- <-.
    match goal with |- context[match ?a with Some _ => _ | None => _ end] => destruct a end; [|now split]. split; [now apply dict_set_nodup|].
    intros k' v' H'. apply in_dset in H' as [E|H']; [injection E as -> ->; exact Px|now apply (P k')].
  - intros s v Hv. apply in_dset in Hv as [E|Hv]; [injection E as -> ->; exact Px|now apply (Gm s)].
Qed.

Lemma message_proper now h data metadata msg h' : serialize isize V2_2 now h data metadata = Ok (msg, h') -> good_data data -> given_md metadata -> stamp_bits now ->
  Forall proper_frame msg /\ Nat.Even (List.length msg).
Proof.
  unfold serialize. intros H Gd Gm B. apply bind_ok in H as ([data' md'] & Hp & H). split; [|now apply frames_even in H].
  assert (G : good_data data' /\ good_md md').
  { assert (D : good_md (default_metadata data)).
    { intros s v Hv. unfold default_metadata in Hv. apply in_map_iff in Hv as ([s' ps] & E & Hs). cbn [fst snd] in E. injection E as <- <-.
      destruct (dict_get "metadata" ps) as [x|] eqn:Ex; [|constructor; [constructor|intros ? ? []]]. apply dict_get_In in Ex. now apply (proj2 (Gd _ _ Hs) "metadata"). }
    set (md := match metadata with None | Some [] => default_metadata data | Some m => m end) in *.
    assert (M : good_md md). { unfold md. destruct metadata as [[|? ?]|]; assumption. }
    unfold prepare in Hp. fold md in Hp. destruct now as [[bits str]|]; [|injection Hp as <- <-; now split].
    apply bind_ok in Hp as (upd & Hu & Hp). apply (stamp_good (upd := upd)) in Hp; [exact Hp| |exact Gd|exact M].
    unfold dummy_ts in Hu. cbn [snd fst] in Hu. destruct (py_split dot str) as [|a [|b [|]]]; try discriminate. injection Hu as <-.
    intros k v [E|[E|[E|[]]]]; injection E as <- <-; constructor. exact B. }
  destruct G as [Gd' Gm']. eapply frames_proper; [exact Gm'| |exact H]. intros s ps Hs. apply Gd' with (src := s).
  eapply Permutation_in; [|exact Hs]. apply Permutation_sym, sort_sources_perm.
Qed.

(** ** The client *)
Lemma content_array hw st b st' : client_step isize st (WPacked hw) (WBytes b) = Some st' -> content_of hw = Some "array".
Proof.
  unfold client_step, content_of. destruct (unpack hw); try discriminate. destruct (hstr "source" d); [|discriminate]. destruct (hstr "content" d) as [c|]; [|discriminate].
  intros H. destruct (string_dec c "array") as [-> | N]; [reflexivity|]. exfalso. revert H. 
  destruct (string_dec c "msgpack") as [-> | N2]; [discriminate|].
  repeat (destruct c as [|[[] [] [] [] [] [] [] []] c]; try discriminate); congruence.
Qed.
Lemma content_msgpack hw st w st' : client_step isize st (WPacked hw) (WPacked w) = Some st' -> content_of hw = Some "msgpack".
Proof.
  unfold client_step, content_of. destruct (unpack hw); try discriminate. destruct (hstr "source" d); [|discriminate]. destruct (hstr "content" d) as [c|]; [|discriminate].
  intros H. destruct (string_dec c "msgpack") as [-> | N]; [reflexivity|]. exfalso. revert H. 
  destruct (string_dec c "array") as [-> | N2]; [discriminate|].
  repeat (destruct c as [|[[] [] [] [] [] [] [] []] c]; try discriminate); congruence.
Qed.
Lemma bytes_sim m : forall msg bs, message_bytes m msg = Ok bs -> Forall proper_frame msg -> forall st c,
  client_read isize st (List.map (transmit m) msg) = Some c -> bytes_read isize st bs = Some c.
Proof.
  assert (G : forall n msg, (List.length msg <= n)%nat -> forall bs, message_bytes m msg = Ok bs -> Forall proper_frame msg -> forall st c,
    client_read isize st (List.map (transmit m) msg) = Some c -> bytes_read isize st bs = Some c).
  2: { intros msg. exact (G _ _ (le_n _)). }
  induction n as [|n IH]; intros msg L bs H P st c C.
  - destruct msg; [|cbn in L; lia]. injection H as <-. exact C.
  - destruct msg as [|f [|g msg]]; [injection H as <-; exact C|discriminate C|].
    unfold message_bytes in H. cbn [mapM] in H. apply bind_ok in H as (b1 & H1 & H). apply bind_ok in H as (bs1 & H & E). injection E as <-.
    apply bind_ok in H as (b2 & H2 & H). apply bind_ok in H as (bs2 & H & E). injection E as <-.
    inversion P as [|? ? P1 P']; subst. inversion P' as [|? ? P2 P3]; subst. cbn [List.map client_read] in C. cbn [bytes_read].
    destruct (client_step isize st (transmit m f) (transmit m g)) as [st1|] eqn:Es; [|discriminate].
    assert (B : bytes_step isize st b1 b2 = Some st1).
    { destruct f as [hw|? ? ?]; [|discriminate]. cbn [transmit] in Es. cbn [part_bytes] in H1. cbn in P1. unfold bytes_step. rewrite (unpackb_back H1 P1).
      destruct g as [pw|buf off k]; cbn [transmit part_bytes] in *.
      - rewrite (content_msgpack Es). cbn in P2. now rewrite (unpackb_back H2 P2).
      - rewrite (content_array Es). injection H2 as <-. exact Es. }
    rewrite B. apply (IH msg); [cbn in L; lia|exact H|exact P3|exact C].
Qed.
Theorem bytes_client m now h data metadata msg h' bs c : serialize isize V2_2 now h data metadata = Ok (msg, h') -> good_data data -> given_md metadata -> stamp_bits now ->
  message_bytes m msg = Ok bs -> client_decode isize (List.map (transmit m) msg) = Some c -> bytes_read isize ([], []) bs = Some c.
Proof.
  intros H Gd Gm B Hb C. destruct (message_proper H Gd Gm B) as [P E]. apply (bytes_sim Hb P). unfold client_decode in C.
  destruct msg as [|f [|g msg]]; try exact C. cbn in E. destruct E as [k Ek]. lia.
Qed.
End Export.
