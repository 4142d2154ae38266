(** The text of the cached map of a run (C88). *)
From Verif Require Import Base L_Base PyStr M_Cxi M_Repr M_FilesMap S_FilesMap L_FilesMap P_FilesMap M_Json S_Json L_Json L_Json2 L_Json3 L_Json4.
Set Implicit Arguments.
Local Open Scope string_scope.
Local Open Scope Z_scope.
Local Open Scope list_scope.

(** Whatever is written can be read again, at any level of indentation. *)
Theorem C88_round_trip : forall v lvl, plain v -> loads (dump lvl v) = Ok v.
Proof. exact round_trip. Qed.
Print Assumptions C88_round_trip.

(** A string is read as what its characters stand for, however it is spelled. *)
Theorem C88_strings : forall r t, spells r t -> loads (codes """" ++ r ++ codes """") = Ok (JStr t).
Proof.
  assert (HX : forall h u, hex_number h u -> exists a b c d, h = [a; b; c; d] /\ hex4 a b c d = Some u).
  { intros h u (a & b & c & d & va & vb & vc & vd & -> & A & B & C & D & ->). exists a, b, c, d. split; [reflexivity|].
    assert (V : forall c v, hex_digit c v -> hex_val c = Some v).
    { intros x v X. unfold hex_val, is_dig. destruct X as [[X ->]|[[X ->]|[X ->]]].
      - destruct (Z.leb_spec 48 x); [|lia]. destruct (Z.leb_spec x 57); [|lia]. reflexivity.
      - destruct (Z.leb_spec x 57); [lia|]. rewrite andb_false_r. destruct (Z.leb_spec 97 x); [lia|]. cbn [andb]. destruct (Z.leb_spec 65 x); [|lia]. destruct (Z.leb_spec x 70); [|lia]. cbn [andb]. f_equal. lia.
      - destruct (Z.leb_spec x 57); [lia|]. rewrite andb_false_r. destruct (Z.leb_spec 97 x); [|lia]. destruct (Z.leb_spec x 102); [|lia]. cbn [andb]. f_equal. lia. }
    unfold hex4. rewrite (V _ _ A), (V _ _ B), (V _ _ C), (V _ _ D). f_equal. lia. }
  assert (SC : forall r t, spells r t -> forall q, scan_str (r ++ 34 :: q) = Some (t, q)).
  { intros r t S q. induction S as [|c r t C1 C2 C3 S IH|e x r t E S IH|h u r t H N S IH|h1 h2 u v r t H1 H2 U W S IH].
    - reflexivity.
    - cbn [app scan_str]. destruct (Z.eqb_spec c 34); [contradiction|]. destruct (Z.eqb_spec c 92); [contradiction|]. destruct (Z.ltb_spec c 32); [lia|]. now rewrite IH.
    - cbn in E. repeat destruct E as [E|E]; try (injection E as <- <-; cbn [app]; change (ch "\") with 92; cbn -[Z.mul]; now rewrite IH). destruct E.
    - destruct (HX h u H) as (a & b & c & d & -> & E). change (codes "\u") with [92; 117]. cbn [app scan_str]. cbn [Z.eqb Pos.eqb]. rewrite E.
      assert (Hh : is_high u = false) by (unfold is_high, high in *; destruct (Z.leb_spec 55296 u); [|reflexivity]; destruct (Z.leb_spec u 56319); [lia|reflexivity]).
      rewrite Hh. cbn [andb]. rewrite IH. destruct (r ++ 34 :: q) as [|x1 [|x2 [|x3 [|x4 [|x5 [|x6 z]]]]]]; reflexivity.
    - destruct (HX h1 u H1) as (a & b & c & d & -> & E). destruct (HX h2 v H2) as (a2 & b2 & c2 & d2 & -> & E2). change (codes "\u") with [92; 117]. cbn [app scan_str]. cbn [Z.eqb Pos.eqb]. rewrite E.
      assert (Hh : is_high u = true) by (unfold is_high, high in *; destruct (Z.leb_spec 55296 u); [|lia]; destruct (Z.leb_spec u 56319); [reflexivity|lia]).
      assert (Hl : is_low v = true) by (unfold is_low, low in *; destruct (Z.leb_spec 56320 v); [|lia]; destruct (Z.leb_spec v 57343); [reflexivity|lia]).
      rewrite Hh. cbn [andb]. rewrite E2, Hl, IH. reflexivity. }
  intros r t S. unfold loads. change (codes """") with [34]. cbn [app]. change (skip_ws (34 :: r ++ [34])) with (34 :: r ++ [34]).
  generalize (2 * List.length (34%Z :: r ++ [34%Z]))%nat. intros n. replace (n + 2)%nat with (Datatypes.S (n + 1))%nat by lia. cbn [value]. rewrite Z.eqb_refl, (SC r t S). reflexivity.
Qed.
Print Assumptions C88_strings.
Example C88_strings_example : spells (codes "a\u00E9\uD83D\ude00\/") [97; 0xE9; 0x1F600; 47].
Proof.
  apply sp_char; [cbn; lia|discriminate|discriminate|].
  assert (X : forall a b c d va vb vc vd, hex_digit a va -> hex_digit b vb -> hex_digit c vc -> hex_digit d vd -> hex_number [a; b; c; d] (va * 4096 + vb * 256 + vc * 16 + vd))
    by (intros a b c d va vb vc vd A B C D; exists a, b, c, d, va, vb, vc, vd; repeat (split; [first [reflexivity|assumption]|]); reflexivity).
  apply (@sp_unicode (codes "00E9") 0xE9 (codes "\uD83D\ude00\/")); [apply (X 48 48 69 57 0 0 14 9); unfold hex_digit; lia|unfold high; lia|].
  apply (@sp_pair (codes "D83D") (codes "de00") 0xD83D 0xDE00 (codes "\/")); [apply (X 68 56 51 68 13 8 3 13); unfold hex_digit; lia|apply (X 100 101 48 48 13 14 0 0); unfold hex_digit; lia|unfold high; lia|unfold low; lia|].
  apply sp_escape; [cbn; tauto|constructor].
Qed.

(** A list, dictionary or string cut off anywhere is refused, with JSONDecodeError. *)
Theorem C88_truncated : forall v lvl p, plain v -> (exists l, v = JList l) \/ (exists l, v = JDict l) \/ (exists s, v = JStr s) ->
  cut_off p (dump lvl v) -> loads p = Err EJSONDecodeError.
Proof. intros v lvl p P K (q & E & N). exact (truncated P K E N). Qed.
Print Assumptions C88_truncated.

(** Reading any text gives a value or JSONDecodeError. *)
Theorem C88_errors : forall t e, loads t = Err e -> e = EJSONDecodeError.
Proof. exact loads_err. Qed.
Print Assumptions C88_errors.

(** The file [save] writes is the map it was given, once it is loaded; a first part of it is not JSON, and skipped by [load]. *)
Theorem C88_saved_map : forall frepr fparse l, faithful frepr fparse ->
  cache_of_text fparse (map_text frepr l) = CMap l /\
  forall p, cut_off p (map_text frepr l) -> cache_of_text fparse p = CGarbage.
Proof.
  intros frepr fparse l F.
  assert (P : plain (JList (map (json_of_entry frepr) l))) by (apply map_plain, Forall_forall; intros e _; apply F). split.
  - unfold cache_of_text, map_text. rewrite (round_trip 0 P).
    rewrite all_some_map; [reflexivity|]. intros e _. apply entry_back, F.
  - intros p (q & E & N). unfold cache_of_text.
    rewrite (truncated (lvl := 0%nat) (p := p) (q := q) P (or_introl (ex_intro _ _ eq_refl)) E N). reflexivity.
Qed.
Print Assumptions C88_saved_map.

(** Any number of processes save maps and read the file, in any interleaving, writing and reading in pieces of any size:
    at any moment the file holds what it held at the start, or one of the maps; and so does what a reader got. *)
Theorem C88_readers : forall frepr fparse target (s0 s : system Z), faithful frepr fparse ->
  fresh_start s0 -> ssteps target s0 s -> (forall i all, saver s0 i all -> exists l, all = map_text frepr l) ->
  forall t, contents (sy_fs s) target = Some t \/ (exists j, sy_procs s j = RDone t) ->
  contents (sy_fs s0) target = Some t \/ exists i l, saver s0 i (map_text frepr l) /\ t = map_text frepr l /\ cache_of_text fparse t = CMap l.
Proof.
  intros frepr fparse target s0 s F Fr St Sv t H. destruct (C32_complete_maps Fr St) as (A & B & _).
  assert (G : forall i all, saver s0 i all -> exists l, saver s0 i (map_text frepr l) /\ all = map_text frepr l /\ cache_of_text fparse all = CMap l).
  { intros i all X. destruct (Sv i all X) as [l ->]. exists l. split; [exact X|]. split; [reflexivity|]. exact (proj1 (C88_saved_map l F)). }
  destruct H as [H|[j H]].
  - destruct A as [A|(i & all & X & _ & A)]; [left; congruence|]. right. exists i. rewrite A in H. injection H as <-. exact (G i all X).
  - destruct (B j t H) as [A'|(i & X & _)]; [now left|]. right. exists i. exact (G i t X).
Qed.
Print Assumptions C88_readers.

(** A file which is cut off, or not JSON, does not keep a run from being opened. *)
Theorem C88_harmless : forall frepr fparse l p, faithful frepr fparse -> cut_off p (map_text frepr l) ->
  harmless (cache_of_text fparse p) /\ harmless (cache_of_text fparse (map_text frepr l)).
Proof. intros frepr fparse l p F C. destruct (C88_saved_map l F) as [A B]. rewrite A, (B p C). unfold harmless. split; eauto. Qed.
Print Assumptions C88_harmless.

(** A string with a high surrogate followed by a low one, as os.fsdecode never makes, comes back as one other character. *)
Theorem C88_surrogates_refuted : exists s t, s <> t /\ loads (dump 0 (JStr s)) = Ok (JStr t) /\ loads (dump 0 (JStr t)) = Ok (JStr t).
Proof. exists [0xD800; 0xDC00], [0x10000]. split; [discriminate|]. split; vm_compute; reflexivity. Qed.
Print Assumptions C88_surrogates_refuted.

(** Whole numbers of seconds: repr gives the integer and ".0". *)
Definition repr0 (m : Z) : text := codes (int_repr m) ++ codes ".0".
Definition parse0 (t : text) : Z := match scan_number (removelast (removelast t)) with Some (JInt z, _) => z | _ => 0 end.
Lemma repr0_faithful : faithful repr0 parse0.
Proof.
  intros m. split.
  - assert (G : forall z, 0 <= z -> codes (str_of_int z) = codes "0" \/ digits1 (codes (str_of_int z)) /\ hd 0 (codes (str_of_int z)) <> 48).
    { intros z Hz. destruct (nat_int Hz) as ([->|[_ H]] & _ & D); [now left|]. right. split; [exact D|exact H]. }
    assert (D : (exists ds, codes ".0" = codes "." ++ ds /\ digits1 ds)).
    { exists [48]. split; [reflexivity|]. split; [discriminate|]. constructor; [unfold digit; lia|constructor]. }
    unfold repr0, int_repr. destruct (m <? 0) eqn:Lm.
    + exists (codes "-"), (codes (str_of_int (- m))), (codes ".0"), []. apply Z.ltb_lt in Lm. split; [now rewrite app_nil_r|].
      split; [now right|]. split; [apply G; lia|]. split; [now right|]. split; [now left|]. left. discriminate.
    + exists [], (codes (str_of_int m)), (codes ".0"), []. apply Z.ltb_ge in Lm. split; [now rewrite app_nil_r|].
      split; [now left|]. split; [apply G; lia|]. split; [now right|]. split; [now left|]. left. discriminate.
  - unfold parse0, repr0. change (codes ".0") with ([46] ++ [48]). rewrite app_assoc, !removelast_last.
    assert (S := scan_int m (r := []) I). rewrite app_nil_r in S. now rewrite S.
Qed.
Definition entry0 := mk_entry "RAW-R0001-DA01-S00000.h5" (1551000000, 4096) (mk_info [10000; 10001] ["SA1/XGM"] ["A/DET:out"; "B""\C:x"]).
Example C88_text_example : map_text repr0 [entry0] = codes
"[
  {
    ""filename"": ""RAW-R0001-DA01-S00000.h5"",
    ""mtime"": 1551000000.0,
    ""size"": 4096,
    ""train_ids"": [
      10000,
      10001
    ],
    ""control_sources"": [
      ""SA1/XGM""
    ],
    ""instrument_sources"": [
      ""A/DET:out"",
      ""B\""\\C:x""
    ]
  }
]".
Proof. vm_compute. reflexivity. Qed.
Example C88_example : cache_of_text parse0 (map_text repr0 [entry0]) = CMap [entry0] /\
  cache_of_text parse0 (codes "[
  {
    ""filename"": ""RAW") = CGarbage /\
  cache_of_text parse0 [] = CGarbage /\
  loads (codes " [1, -2.5e3, ""\u00e9\ud83d\ude00"", {""a"": null, ""a"": true}] ") =
    Ok (JList [JInt 1; JFloat (codes "-2.5e3"); JStr [233; 128512]; JDict [(codes "a", JBool true)]]) /\
  loads (codes "[1,]") = Err EJSONDecodeError /\ loads (codes "[1] 2") = Err EJSONDecodeError.
Proof. repeat split; vm_compute; reflexivity. Qed.

(** A process saves a map in two writes while another one reads the file, which was cut off before. *)
Definition save_start (t : list Z) : system Z :=
  mk_sys (mk_fs (supd (fun _ => None) "map.json" (Some 0%nat)) (upd (fun _ => []) 0 (firstn 30 t)) 1)
    (fun i => match i with O => WStart [firstn 100 t; skipn 100 t] | _ => RStart end).
Definition json_start : system Z := save_start (map_text repr0 [entry0]).
Lemma save_and_read t : (List.length t <= 2000)%nat -> exists s, ssteps "map.json" (save_start t) s /\ sy_procs s 1 = RDone t.
Proof.
  intros L. assert (H := ssteps_refl "map.json" (save_start t)). unfold save_start in H at 2. pose proof (firstn_skipn 100 t) as FS.
  revert H FS. generalize (firstn 100 t) as a, (skipn 100 t) as b. intros a b H FS.
  eapply (@go _ _ _ _ 0) in H; [|simpl; apply (@st_mkstemp _ _ _ _ "map.jsonA"); [reflexivity|discriminate]].
  eapply (@go _ _ _ _ 0) in H; [|simpl; apply st_write].
  eapply (@go _ _ _ _ 0) in H; [|simpl; apply st_write].
  eapply (@go _ _ _ _ 0) in H; [|simpl; apply st_close].
  eapply (@go _ _ _ _ 0) in H; [|simpl; apply st_replace; discriminate].
  eapply (@go _ _ _ _ 1) in H; [|simpl; apply st_open; reflexivity].
  assert (R : forall k : nat, (List.length t <= k)%nat -> exists s, ssteps "map.json" (save_start t) s /\ sy_procs s 1 = RDone t); [|apply (R 2000%nat L)].
  intros k K. eapply (@go _ _ _ _ 1) in H; [|simpl; apply (@st_read _ _ _ _ _ k)].
  eapply (@go _ _ _ _ 1) in H; [|simpl; apply st_eof].
  - eexists. split; [exact H|]. unfold upd; simpl. rewrite FS. f_equal. now apply firstn_all2.
  - unfold upd; simpl. rewrite FS, firstn_all2 by exact K. lia.
Qed.
Example C88_readers_example : fresh_start json_start /\ (forall i all, saver json_start i all -> exists l, all = map_text repr0 l) /\
  exists s, ssteps "map.json" json_start s /\ sy_procs s 1 = RDone (map_text repr0 [entry0]).
Proof.
  unfold json_start. split; [|split].
  - generalize (map_text repr0 [entry0]). intros t. split.
    + intros n i H. simpl in *. unfold supd in H. destruct (String.eqb n "map.json"); [injection H as <-; lia|discriminate].
    + intros [|i]; simpl; eauto.
  - intros i all H. exists [entry0]. revert H. generalize (map_text repr0 [entry0]). intros t (ps & E & ->). destruct i; simpl in E; [|discriminate]. injection E as <-. simpl. rewrite app_nil_r. apply (firstn_skipn 100).
  - apply save_and_read. apply Nat.leb_le. vm_compute. reflexivity.
Qed.
