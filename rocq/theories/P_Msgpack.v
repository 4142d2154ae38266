(** The bytes of streamed messages (C89). *)
From Verif Require Import Base L_Base M_Export S_Export P_Export M_Msgpack S_Msgpack L_Msgpack L_Msgpack2.
Set Implicit Arguments.
Local Open Scope string_scope.
Local Open Scope Z_scope.
Local Open Scope list_scope.

(** What is packed is unpacked again, exactly; the result consists of bytes. *)
Theorem C89_unpack : forall w b, mp_pack w = Ok b -> proper_w w -> unpackb b = Some w /\ Forall byte b.
Proof. intros w b H P. split; [exact (unpackb_back H P)|exact (pack_bytes H P)]. Qed.
Print Assumptions C89_unpack.
(** Nothing but lengths of 2^32 and more is refused, and this with ValueError. *)
Theorem C89_packs : forall w, proper_w w ->
  (small_w w -> exists b, mp_pack w = Ok b) /\ (~ small_w w -> mp_pack w = Err EValueError).
Proof.
  intros w P. split; [apply packs_iff|]. intros N. destruct (mp_pack w) as [b|e] eqn:E.
  - exfalso. apply N, packs_iff. eauto.
  - now rewrite (pack_error E P).
Qed.
Print Assumptions C89_packs.
(** Different values have different bytes, and no packed value is the beginning of another one. *)
Theorem C89_self_delimiting : forall w w' b b' r r', mp_pack w = Ok b -> mp_pack w' = Ok b' -> proper_w w -> proper_w w' ->
  b ++ r = b' ++ r' -> w = w' /\ r = r'.
Proof.
  intros w w' b b' r r' H H' P P' E. set (f := (2 * List.length b + 2 * List.length b')%nat).
  assert (A := all_back H P (f := f) r ltac:(unfold f; lia)). assert (B := all_back H' P' (f := f) r' ltac:(unfold f; lia)).
  rewrite E, B in A. now injection A.
Qed.
Print Assumptions C89_self_delimiting.

(** A client which only has the bytes of the parts of a message gets what was passed to feed(): the values, and the arrays
    as they are when the message is sent. *)
Theorem C89_message : forall (isize : string -> nat) h data metadata msg h',
  serialize isize V2_2 None h data metadata = Ok (msg, h') -> data_ok h data -> good_data data -> given_md metadata ->
  forall m2 bytes, untouched data (h_next h) (h_mem h') m2 -> message_bytes m2 msg = Ok bytes ->
  exists c, bytes_read isize ([], []) bytes = Some c /\ received isize false (h_mem h) data (metadata_of metadata) c.
Proof.
  intros isize h data metadata msg h' H Hok Gd Gm m2 bytes U Hb. destruct (@C47_roundtrip isize h data metadata msg h' H Hok m2 U) as (c & Hc & R). exists c. split; [|exact R].
  exact (bytes_client H Gd Gm I Hb Hc).
Qed.
Print Assumptions C89_message.
(** With dummy timestamps, too, the client has the same as one which is given the packed values (C47_timestamps). *)
Theorem C89_any_message : forall (isize : string -> nat) now h data metadata msg h' m2 bytes c,
  serialize isize V2_2 now h data metadata = Ok (msg, h') -> good_data data -> given_md metadata -> stamp_bits now ->
  message_bytes m2 msg = Ok bytes -> client_decode isize (List.map (transmit m2) msg) = Some c ->
  bytes_read isize ([], []) bytes = Some c.
Proof. intros. eapply bytes_client; eassumption. Qed.
Print Assumptions C89_any_message.

Example C89_pack_example :
  mp_pack (WMap [("a", WInt (-1)); ("b", WArray [WInt 300; WInt (-129); WFloat 4607182418800017408; WNil; WBool true; WBin [1; 2]])]) =
    Ok [0x82; 0xa1; 97; 0xff; 0xa1; 98; 0x96; 0xcd; 1; 44; 0xd1; 255; 127; 0xcb; 63; 240; 0; 0; 0; 0; 0; 0; 0xc0; 0xc3; 0xc4; 2; 1; 2] /\
  mp_pack (WInt (2 ^ 64 - 1)) = Ok [0xcf; 255; 255; 255; 255; 255; 255; 255; 255] /\
  mp_pack (WInt (- 2 ^ 63)) = Ok [0xd3; 128; 0; 0; 0; 0; 0; 0; 0] /\
  unpackb [0x81; 0xa1; 97; 0xcd; 1; 44] = Some (WMap [("a", WInt 300)]) /\ unpackb [0x81; 0xa1; 97; 0xcd; 1] = None.
Proof. repeat split; vm_compute; reflexivity. Qed.
Lemma data_ex_good : good_data data_ex.
Proof.
  assert (O : forall (k : string) v, NoDup [k] /\ (proper_p v -> forall k' v', In (k', v') [(k, v)] -> proper_p v')).
  { intros k v. split; [repeat constructor; intros []|]. intros P k' v' [E|[]]. now injection E as _ <-. }
  intros src ps Hs. split; [exact (proj1 (proj2 data_ex_ok) _ _ Hs)|]. destruct Hs as [E|[E|[]]]; injection E as <- <-; intros k v Hv.
  - destruct Hv as [E|[E|[E|[E|[]]]]]; injection E as <- <-; try constructor. intros v [<-|[<-|[<-|[]]]]; constructor; [apply (O "k" PNone)|].
    apply (O "k" PNone). constructor.
  - destruct Hv as [E|[]]. injection E as <- <-. constructor; [apply (O "timestamp.tid" PNone)|]. apply (O "timestamp.tid" (PInt 10000)). constructor.
Qed.
Example C89_example : exists msg h' bytes c,
  serialize isize_ex V2_2 None heap_ex data_ex None = Ok (msg, h') /\ data_ok heap_ex data_ex /\ good_data data_ex /\
  message_bytes (h_mem h') msg = Ok bytes /\ bytes_read isize_ex ([], []) bytes = Some c /\
  option_map (dict_get "n") (dict_get "b/src" (fst c)) = Some (Some (CInt 7)).
Proof.
  destruct (serialize isize_ex V2_2 None heap_ex data_ex None) as [[msg h']|e] eqn:E; [|exfalso; vm_compute in E; discriminate].
  exists msg, h'. vm_compute in E. injection E as <- <-. do 2 eexists. split; [reflexivity|]. split; [exact data_ex_ok|]. split; [exact data_ex_good|].
  split; [vm_compute; reflexivity|]. split; vm_compute; reflexivity.
Qed.
