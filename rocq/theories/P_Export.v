(** C47, C67: messages of the streaming interface can be decoded, and contain what was fed. *)
From Verif Require Import Base PyStr S_Open M_Export S_Export L_Export1 L_Export4 L_Export5 L_Export6.
Set Implicit Arguments.
Local Open Scope string_scope.
Local Open Scope list_scope.

(** ** C47: protocol versions *)
(** A streamer is made for exactly the versions 1.0 and 2.2, and then uses the named one; any other name is a ValueError. *)
Theorem C47_versions : forall s,
  (s = "1.0" -> parse_protocol s = Ok V1_0) /\ (s = "2.2" -> parse_protocol s = Ok V2_2) /\
  (s <> "1.0" -> s <> "2.2" -> parse_protocol s = Err EValueError).
Proof.
  intros s. unfold parse_protocol. split; [intros ->; reflexivity|]. split; [intros ->; reflexivity|]. intros A B.
  apply String.eqb_neq in A, B. rewrite A, B. reflexivity.
Qed.
Print Assumptions C47_versions.
(** Against the documentation (export.py 81), which names 2.1 as the other version: it is refused. *)
Theorem C47_documented_version_refuted : parse_protocol "2.1" = Err EValueError.
Proof. reflexivity. Qed.
Print Assumptions C47_documented_version_refuted.

(** ** C47: protocol 2.2 *)
(** A client which reads the message (the memory may have changed, except for the arrays sent) gets the same sources,
    for each the same keys with the same values, arrays with the same type, shape and elements, and the metadata. *)
Theorem C47_roundtrip : forall (isize : string -> nat) h data metadata msg h',
  serialize isize V2_2 None h data metadata = Ok (msg, h') -> data_ok h data ->
  forall m2, untouched data (h_next h) (h_mem h') m2 ->
  exists c, client_decode isize (List.map (transmit m2) msg) = Some c /\
    received isize false (h_mem h) data (metadata_of metadata) c.
Proof. intros; eapply serialize_received; eassumption. Qed.
Print Assumptions C47_roundtrip.
(** The copy made of an array which is not contiguous is contiguous, in memory of its own, with the same type, shape
    and elements. *)
Theorem C47_copy : forall (isize : string -> nat) h a a' h', ascontiguousarray isize h a = (a', h') ->
  c_contiguous isize a' = true /\ a_buf a' = h_next h /\ a_dtype a' = a_dtype a /\ a_shape a' = a_shape a /\
  (forall idx, inside (a_shape a) idx -> elem isize (h_mem h') a' idx = elem isize (h_mem h) a idx) /\
  (forall b i, b <> h_next h -> h_mem h' b i = h_mem h b i).
Proof.
  intros isize h a a' h' E. pose proof (copy_contiguous isize h a) as C. rewrite E in C. destruct C as (C1 & C2 & C3).
  pose proof (tobytes_got isize (h_mem h) a) as (_ & _ & _ & G). pose proof (tobytes_got isize (h_mem h') a') as (_ & _ & _ & G').
  assert (D : a_buf a' = h_next h /\ a_dtype a' = a_dtype a /\ a_shape a' = a_shape a) by (unfold ascontiguousarray in E; injection E as <- _; auto).
  destruct D as (D1 & D2 & D3). split; [exact C1|]. split; [exact D1|]. split; [exact D2|]. split; [exact D3|]. split.
  - intros idx Hi. rewrite <- (G idx Hi). rewrite <- (G' idx) by now rewrite D3. now rewrite D2, D3, C3.
  - unfold ascontiguousarray in E. injection E as _ <-. intros b i Hb. cbn. destruct (Nat.eqb_spec b (h_next h)); [contradiction|reflexivity].
Qed.
Print Assumptions C47_copy.

(** Data are accepted if and only if every value is an array, a number of numpy or something msgpack knows, and every
    source has metadata msgpack can pack. *)
Theorem C47_accepts : forall (isize : string -> nat) h data metadata, data_ok h data ->
  ((exists msg h', serialize isize V2_2 None h data metadata = Ok (msg, h')) <->
   (forall src ps, dict_get src data = Some ps ->
      (exists x, metadata_of metadata src ps = Some x /\ packable x) /\ (forall k v, dict_get k ps = Some v -> sendable v))).
Proof. intros; now apply serialize_accepts. Qed.
Print Assumptions C47_accepts.

(** With dummy timestamps (the time has the bits [bits] and is printed as [str]): the metadata of a source without
    timestamp get the time, its part before and after the point, the latter filled up to 18 digits; nothing else
    changes. *)
Theorem C47_timestamps : forall (isize : string -> nat) bits str h data metadata msg h',
  serialize isize V2_2 (Some (bits, str)) h data metadata = Ok (msg, h') -> data_ok h data ->
  forall m2, untouched data (h_next h) (h_mem h') m2 ->
  exists c sec frac full, client_decode isize (List.map (transmit m2) msg) = Some c /\
    printed_time str sec frac full /\
    (forall src, dict_get src (fst c) = None <-> dict_get src data = None) /\
    forall src ps, dict_get src data = Some ps ->
      (exists e, dict_get src (fst c) = Some e /\
        forall k, k <> "metadata" ->
          match dict_get k ps, dict_get k e with Some a, Some b => got isize false (h_mem h) a b | None, None => True | _, _ => False end) /\
      (exists d e, metadata_of metadata src ps = Some (PDict d) /\ dict_get src (snd c) = Some (CDict e) /\
        forall k, match stamped bits sec full d k, dict_get k e with
                  | Some a, Some b => got isize false (h_mem h) a b | None, None => True | _, _ => False end).
Proof.
  intros isize bits str h data metadata msg h' H Hd m2 Hm. destruct (serialize_stamped H Hd Hm) as (c & sec & frac & Hc & Hs & R).
  exists c, sec, frac, (py_ljust frac 18 "0"). split; [exact Hc|]. split; [exact (printed_ok Hs)|exact R].
Qed.
Print Assumptions C47_timestamps.

(** A boolean of numpy is refused (numpy.bool_ is not a numpy.number). *)
Theorem C47_bool_refuted : forall (isize : string -> nat) h data metadata src ps k b, data_ok h data ->
  dict_get src data = Some ps -> dict_get k ps = Some (PNpBool b) ->
  ~ exists msg h', serialize isize V2_2 None h data metadata = Ok (msg, h').
Proof.
  intros isize h data metadata src ps k b Hok Hs Hk H. assert (H' := proj1 (C47_accepts isize metadata Hok) H). clear H. rename H' into H.
  destruct (H src ps Hs) as [_ Hv]. specialize (Hv k _ Hk). inversion Hv as [v Hp| | |]; subst. inversion Hp.
Qed.
Print Assumptions C47_bool_refuted.

(** ** Protocol 1.0 *)
(** The same for protocol 1.0, where the message does not depend on the memory, and numbers of numpy stay as they are;
    the metadata are those in the data. *)
Theorem C47_v1_roundtrip : forall (isize : string -> nat) h data metadata msg h',
  serialize isize V1_0 None h data metadata = Ok (msg, h') -> data_ok h data ->
  forall m2, exists c, client_decode isize (List.map (transmit m2) msg) = Some c /\
    received isize true (h_mem h) data (metadata_of None) c.
Proof. intros; eapply v1_received; eassumption. Qed.
Print Assumptions C47_v1_roundtrip.

(** Metadata given to feed() are not sent in protocol 1.0. *)
Theorem C47_v1_metadata_refuted : forall (isize : string -> nat) h data metadata,
  serialize isize V1_0 None h data metadata = serialize isize V1_0 None h data None.
Proof. reflexivity. Qed.
Print Assumptions C47_v1_metadata_refuted.

(** The dummy timestamps in the data.  Without metadata given to feed(), the metadata in the data of a source get the
    time as well, for both protocols; a source without metadata in its data is sent without, so that in protocol 1.0 it has
    no timestamp. *)
Theorem C47_timestamps_in_data : forall (isize : string -> nat) v bits str h data metadata msg h',
  metadata = None \/ metadata = Some [] ->
  serialize isize v (Some (bits, str)) h data metadata = Ok (msg, h') -> data_ok h data ->
  forall m2, untouched data (h_next h) (h_mem h') m2 ->
  exists c sec frac full, client_decode isize (List.map (transmit m2) msg) = Some c /\
    printed_time str sec frac full /\
    (forall src, dict_get src (fst c) = None <-> dict_get src data = None) /\
    forall src ps, dict_get src data = Some ps -> exists e, dict_get src (fst c) = Some e /\
      (forall k, k <> "metadata" ->
         match dict_get k ps, dict_get k e with
         | Some a, Some b => got isize (match v with V1_0 => true | V2_2 => false end) (h_mem h) a b | None, None => True | _, _ => False end) /\
      match dict_get "metadata" ps with
      | None => dict_get "metadata" e = None
      | Some x => exists d d', x = PDict d /\ dict_get "metadata" e = Some (CDict d') /\
          forall k, match stamped bits sec full d k, dict_get k d' with
                    | Some a, Some b => got isize (match v with V1_0 => true | V2_2 => false end) (h_mem h) a b | None, None => True | _, _ => False end
      end.
Proof.
  intros isize v bits str h data metadata msg h' Hm H Hd m2 H2. destruct (@data_restamped isize v bits str h data metadata msg h' Hm H Hd m2 H2) as (c & sec & frac & Hc & Hs & R).
  exists c, sec, frac, (py_ljust frac 18 "0"). split; [exact Hc|]. split; [exact (printed_ok Hs)|exact R].
Qed.
Print Assumptions C47_timestamps_in_data.

(** With metadata given to feed(), the data are sent as they are: the timestamps are in the metadata of protocol 2.2
    only, and the message of protocol 1.0 has none. *)
Theorem C47_timestamps_given : forall (isize : string -> nat) v bits str h data p m msg h',
  serialize isize v (Some (bits, str)) h data (Some (p :: m)) = Ok (msg, h') -> data_ok h data ->
  (v = V1_0 -> serialize isize v None h data (Some (p :: m)) = Ok (msg, h')) /\
  forall m2, untouched data (h_next h) (h_mem h') m2 ->
  exists c, client_decode isize (List.map (transmit m2) msg) = Some c /\
    same_dict (same_dict (got isize (match v with V1_0 => true | V2_2 => false end) (h_mem h))) data (fst c).
Proof. intros isize v bits str h data p m msg h' H Hd. exact (@data_given isize v bits str h data p m msg h' H Hd). Qed.
Print Assumptions C47_timestamps_given.

(** ** A case *)
Definition isize_ex (d : string) : nat := if String.eqb d "uint16" then 2 else 1.
Definition mem_ex : memory := fun b i => (Z.of_nat b * 100 + i)%Z.
Definition heap_ex : heap := mk_heap mem_ex 5.
(** A 2x3 array of two-byte numbers, and the same memory transposed. *)
Definition arr_ex : arr := mk_arr 2 4 "uint16" [2; 3] [6; 2]%Z.
Definition arr_t_ex : arr := mk_arr 2 4 "uint16" [3; 2] [2; 6]%Z.
Definition data_ex : sdata :=
  [("b/src", [("x", PArr arr_ex); ("xt", PArr arr_t_ex); ("n", PNp (NInt "uint8" 7));
              ("t", PTuple [PInt 1; PStr "a"; PDict [("k", PNone)]])]);
   ("a/src", [("metadata", PDict [("timestamp.tid", PInt 10000)])])].

Lemma dec_nodup (l : list string) : (if List.list_eq_dec string_dec (nodup string_dec l) l then true else false) = true -> NoDup l.
Proof. destruct (List.list_eq_dec string_dec (nodup string_dec l) l) as [E|]; [|discriminate]. intros _. rewrite <- E. apply NoDup_nodup. Qed.

Lemma data_ex_ok : data_ok heap_ex data_ex.
Proof.
  split; [apply dec_nodup; vm_compute; reflexivity|]. split.
  - intros src ps [H|[H|[]]]; injection H as <- <-; apply dec_nodup; vm_compute; reflexivity.
  - intros a (src & ps & k & [H|[H|[]]] & Hk); injection H as <- <-; cbn [In] in Hk.
    + destruct Hk as [H|[H|[H|[H|[]]]]]; try discriminate; injection H as <- <-; (split; [reflexivity|]); (split; [cbn; lia|]);
        repeat (apply Forall_cons; [reflexivity|]); apply Forall_nil.
    + destruct Hk as [H|[]]. discriminate.
Qed.

Example C47_example : exists msg h' c,
  serialize isize_ex V2_2 None heap_ex data_ex None = Ok (msg, h') /\ data_ok heap_ex data_ex /\ List.length msg = 8 /\
  client_decode isize_ex (List.map (transmit (h_mem h')) msg) = Some c /\
  dict_get "b/src" (fst c) = Some [("n", CInt 7); ("t", CList [CInt 1; CStr "a"; CDict [("k", CNone)]]);
    ("x", CArr (mk_carr "uint16" [2; 3] [204; 205; 206; 207; 208; 209; 210; 211; 212; 213; 214; 215]%Z));
    ("xt", CArr (mk_carr "uint16" [3; 2] [204; 205; 210; 211; 206; 207; 212; 213; 208; 209; 214; 215]%Z))] /\
  dict_get "a/src" (snd c) = Some (CDict [("timestamp.tid", CInt 10000)]).
Proof.
  destruct (serialize isize_ex V2_2 None heap_ex data_ex None) as [[msg h']|e] eqn:E; [|exfalso; vm_compute in E; discriminate].
  exists msg, h'. destruct (client_decode isize_ex (List.map (transmit (h_mem h')) msg)) as [c|] eqn:D.
  - exists c. split; [reflexivity|]. split; [apply data_ex_ok|].
    vm_compute in E. injection E as <- <-. vm_compute in D. injection D as <-. split; [reflexivity|]. split; [reflexivity|].
    split; reflexivity.
  - exfalso. vm_compute in E. injection E as <- <-. vm_compute in D. discriminate.
Qed.

Example C47_timestamps_example : exists msg h',
  serialize isize_ex V2_2 (Some (42, "1600000000.25")%Z) heap_ex data_ex None = Ok (msg, h') /\
  option_map (fun c => dict_get "a/src" (snd c)) (client_decode isize_ex (List.map (transmit (h_mem h')) msg))
  = Some (Some (CDict [("timestamp.tid", CInt 10000); ("timestamp", CFloat 42); ("timestamp.sec", CStr "1600000000");
                       ("timestamp.frac", CStr "250000000000000000")])).
Proof.
  destruct (serialize isize_ex V2_2 (Some (42, "1600000000.25")%Z) heap_ex data_ex None) as [[msg h']|e] eqn:E; [|exfalso; vm_compute in E; discriminate].
  exists msg, h'. split; [reflexivity|]. vm_compute in E. injection E as <- <-. vm_compute. reflexivity.
Qed.

Example C47_v1_example : exists msg h' c,
  serialize isize_ex V1_0 None heap_ex data_ex (Some [("a/src", PDict [("timestamp.tid", PInt 1)])]) = Ok (msg, h') /\
  client_decode isize_ex (List.map (transmit (h_mem h')) msg) = Some c /\
  option_map (dict_get "n") (dict_get "b/src" (fst c)) = Some (Some (CNp (NInt "uint8" 7))) /\
  dict_get "a/src" (snd c) = Some (CDict [("timestamp.tid", CInt 10000)]).
Proof.
  destruct (serialize isize_ex V1_0 None heap_ex data_ex (Some [("a/src", PDict [("timestamp.tid", PInt 1)])])) as [[msg h']|e] eqn:E; [|exfalso; vm_compute in E; discriminate].
  exists msg, h'. destruct (client_decode isize_ex (List.map (transmit (h_mem h')) msg)) as [c|] eqn:D.
  - exists c. split; [reflexivity|]. split; [reflexivity|]. vm_compute in E. injection E as <- <-. vm_compute in D. injection D as <-. split; reflexivity.
  - exfalso. vm_compute in E. injection E as <- <-. vm_compute in D. discriminate.
Qed.

(** Two sources, one without metadata: in protocol 1.0 only the other one gets a timestamp; none, if metadata were given. *)
Example C47_timestamps_v1_example : exists msg h' c,
  serialize isize_ex V1_0 (Some (42, "1600000000.25")%Z) heap_ex data_ex None = Ok (msg, h') /\
  client_decode isize_ex (List.map (transmit (h_mem h')) msg) = Some c /\
  (exists e, dict_get "a/src" (fst c) = Some e /\
     dict_get "metadata" e = Some (CDict [("timestamp.tid", CInt 10000); ("timestamp", CFloat 42);
                                          ("timestamp.sec", CStr "1600000000"); ("timestamp.frac", CStr "250000000000000000")])) /\
  (exists e, dict_get "b/src" (fst c) = Some e /\ dict_get "metadata" e = None) /\
  exists msg2, serialize isize_ex V1_0 (Some (42, "1600000000.25")%Z) heap_ex data_ex (Some [("b/src", PDict []); ("a/src", PDict [])]) = Ok (msg2, h') /\
    serialize isize_ex V1_0 None heap_ex data_ex None = Ok (msg2, h') /\ msg2 <> msg.
Proof.
  destruct (serialize isize_ex V1_0 (Some (42, "1600000000.25")%Z) heap_ex data_ex None) as [[msg h']|e] eqn:E; [|exfalso; vm_compute in E; discriminate].
  vm_compute in E. injection E as <- <-. eexists _, _, _. split; [reflexivity|]. split; [vm_compute; reflexivity|].
  split; [eexists; split; vm_compute; reflexivity|]. split; [eexists; split; vm_compute; reflexivity|].
  eexists. split; [vm_compute; reflexivity|]. split; [vm_compute; reflexivity|discriminate].
Qed.
Example C47_bool_example : data_ok heap_ex [("s", [("b", PNpBool true)])] /\
  serialize isize_ex V2_2 None heap_ex [("s", [("b", PNpBool true)])] None = Err ETypeError.
Proof.
  split; [|reflexivity]. split; [apply dec_nodup; reflexivity|]. split.
  - intros src ps [H|[]]; injection H as <- <-; apply dec_nodup; reflexivity.
  - intros a (src & ps & k & [H|[]] & Hk); injection H as <- <-. destruct Hk as [H|[]]. discriminate.
Qed.

(** ** C67: what is fed is not copied *)
(** It is not true that a message keeps what was fed: a contiguous array which is written after feed() returned and
    before the message was sent arrives changed. *)
Theorem C67_snapshot_refuted : exists h data msg h' m2 c ps e carr,
  data_ok h data /\ serialize isize_ex V2_2 None h data None = Ok (msg, h') /\
  (forall b i, b <> a_buf arr_ex \/ i <> 4%Z -> m2 b i = h_mem h' b i) /\
  client_decode isize_ex (List.map (transmit m2) msg) = Some c /\
  dict_get "b/src" data = Some ps /\ dict_get "x" ps = Some (PArr arr_ex) /\
  dict_get "b/src" (fst c) = Some e /\ dict_get "x" e = Some (CArr carr) /\
  ~ got_array isize_ex (h_mem h) arr_ex carr.
Proof.
  destruct (serialize isize_ex V2_2 None heap_ex data_ex None) as [[msg h']|e] eqn:E; [|exfalso; vm_compute in E; discriminate].
  exists heap_ex, data_ex, msg, h', (fun b i => if (b =? 2)%nat && (i =? 4)%Z then 0%Z else h_mem h' b i).
  destruct (client_decode isize_ex (List.map (transmit (fun b i => if (b =? 2)%nat && (i =? 4)%Z then 0%Z else h_mem h' b i)) msg)) as [c|] eqn:D.
  - exists c. vm_compute in E. injection E as <- <-. vm_compute in D. injection D as <-. do 3 eexists.
    split; [apply data_ex_ok|]. split; [reflexivity|]. split.
    { intros b i Hb. destruct (Nat.eqb_spec b 2) as [-> | Hb2]; [|reflexivity]. destruct (Z.eqb_spec i 4) as [-> | Hi]; [|reflexivity].
      exfalso. destruct Hb as [Hb|Hb]; apply Hb; reflexivity. }
    split; [reflexivity|]. split; [reflexivity|]. split; [reflexivity|]. split; [reflexivity|]. split; [reflexivity|].
    intros (_ & _ & _ & H). specialize (H [0; 0]). assert (Hin : inside (a_shape arr_ex) [0; 0]).
    { apply Forall2_cons; [cbn; lia|]. apply Forall2_cons; [cbn; lia|]. constructor. }
    apply H in Hin. vm_compute in Hin. discriminate.
  - exfalso. vm_compute in E. injection E as <- <-. vm_compute in D. discriminate.
Qed.
Print Assumptions C67_snapshot_refuted.

(** Protocol 1.0 copies: whatever is written later, the client gets what was fed ([m2] is any memory). *)
Theorem C67_v1_snapshot : forall (isize : string -> nat) h data metadata msg h' m2,
  serialize isize V1_0 None h data metadata = Ok (msg, h') -> data_ok h data ->
  exists c, client_decode isize (List.map (transmit m2) msg) = Some c /\
    same_dict (same_dict (got isize true (h_mem h))) data (fst c).
Proof.
  intros isize h data metadata msg h' m2 H Hok. destruct (@C47_v1_roundtrip isize h data metadata msg h' H Hok m2) as (c & Hc & Hr & _). eauto.
Qed.
Print Assumptions C67_v1_snapshot.
