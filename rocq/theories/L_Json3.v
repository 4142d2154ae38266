(** Lemmas on JSON texts: writing and reading back. *)
From Verif Require Import Base PyStr M_Stacking M_Cxi M_Repr M_FilesMap M_Json S_Stacking S_OpenRun S_Json L_Base L_Cxi7 L_OpenRun L_Json L_Json2.
Set Implicit Arguments.
Unset Strict Implicit.
Local Open Scope string_scope.
Local Open Scope Z_scope.
Local Open Scope list_scope.

(** ** Strings *)
Lemma hex_hexd : forall n, 0 <= n < 16 -> hex_val (hexd n) = Some n.
Proof.
  intros n H. unfold hexd. destruct (Z.ltb_spec n 10); unfold hex_val, is_dig.
  - replace ((48 <=? 48 + n) && (48 + n <=? 57)) with true by lia. f_equal. lia.
  - replace ((48 <=? 87 + n) && (87 + n <=? 57)) with false by lia. replace ((97 <=? 87 + n) && (87 + n <=? 102)) with true by lia. f_equal. lia.
Qed.
Lemma hex4_u4 : forall n, 0 <= n < 65536 -> hex4 (hexd (n / 4096 mod 16)) (hexd (n / 256 mod 16)) (hexd (n / 16 mod 16)) (hexd (n mod 16)) = Some n.
Proof.
  intros n H. unfold hex4. rewrite !hex_hexd by (apply Z.mod_pos_bound; lia). f_equal.
  assert (n / 4096 mod 16 = n / 4096) by (apply Z.mod_small; split; [apply Z.div_pos; lia|apply Z.div_lt_upper_bound; lia]).
  assert (n / 4096 = n / 16 / 16 / 16) by (rewrite !Z.div_div by lia; reflexivity). assert (n / 256 = n / 16 / 16) by (rewrite !Z.div_div by lia; reflexivity).
  assert (A := Z.div_mod n 16 ltac:(lia)). assert (B := Z.div_mod (n / 16) 16 ltac:(lia)). assert (C := Z.div_mod (n / 16 / 16) 16 ltac:(lia)). lia.
Qed.
Lemma u4_read : forall n T, 0 <= n < 65536 -> is_high n = false \/ ~ low_next T -> scan_str (u4 n ++ T) = put n (scan_str T).
Proof. intros n T H N. unfold u4. cbn [app]. apply scan_u; [now apply hex4_u4|exact N]. Qed.
Lemma u4_not_low : forall n T, 0 <= n < 65536 -> is_low n = false -> ~ low_next (u4 n ++ T).
Proof. intros n T H L (a & b & c & d & r & u & E & Eu & El). unfold u4 in E. cbn [app] in E. injection E as <- <- <- <- _. rewrite hex4_u4 in Eu by exact H. injection Eu as <-. congruence. Qed.

(** What is written for a string which does not begin with a low surrogate, does not begin with an escaped one. *)
Lemma esc_not_low : forall s T, Forall code_point s -> (forall v b, s = v :: b -> ~ low v) -> ~ low_next (flat_map esc_char s ++ 34 :: T).
Proof.
  intros s T F H. destruct s as [|c s]; [intros (? & ? & ? & ? & ? & ? & E & _); cbn in E; discriminate|].
  specialize (H c s eq_refl). inversion F as [|? ? Hc _]; subst. cbn [flat_map]. rewrite <- app_assoc. set (R := flat_map esc_char s ++ 34 :: T). clearbody R.
  unfold esc_char.
  repeat (match goal with |- context[if ?c =? ?k then _ else _] => destruct (Z.eqb_spec c k); [intros (? & ? & ? & ? & ? & ? & E & _); cbn in E; discriminate|] end).
  destruct ((32 <=? c) && (c <=? 126)) eqn:A; [intros (? & ? & ? & ? & ? & ? & E & _); cbn in E; injection E; intros; lia|].
  unfold code_point, low in *. destruct (Z.ltb_spec c 65536).
  - apply u4_not_low; [lia|]. unfold is_low. lia.
  - rewrite <- app_assoc. assert (0 <= (c - 65536) / 1024 < 1024) by (split; [apply Z.div_pos; lia|apply Z.div_lt_upper_bound; lia]).
    apply u4_not_low; [lia|]. unfold is_low. lia.
Qed.
Lemma scan_dump : forall s T, plain_str s -> scan_str (flat_map esc_char s ++ 34 :: T) = Some (s, T).
Proof.
  induction s as [|c s IH]; intros T [F P]; [reflexivity|]. inversion F as [|? ? Hc Fs]; subst.
  assert (Ps : plain_str s) by (split; [exact Fs|]; intros a u v b E; apply (P (c :: a) u v b); now rewrite E).
  assert (Hn : is_high c = false \/ ~ low_next (flat_map esc_char s ++ 34 :: T)).
  { destruct (is_high c) eqn:E; [right|now left]. apply esc_not_low; [exact Fs|]. intros v b ->. apply (P [] c v b eq_refl). unfold is_high in E. unfold high. lia. }
  cbn [flat_map]. rewrite <- app_assoc. assert (R := IH T Ps). set (X := flat_map esc_char s ++ 34 :: T) in *.
  assert (G : scan_str (esc_char c ++ X) = put c (scan_str X)); [|rewrite G, R; reflexivity].
  unfold esc_char.
  repeat (match goal with |- context[if ?c =? ?k then _ else _] => destruct (Z.eqb_spec c k); [subst c; cbn [app]; apply scan_esc; [lia|reflexivity]|] end).
  destruct ((32 <=? c) && (c <=? 126)) eqn:A; [cbn [app]; apply scan_char; lia|].
  unfold code_point in Hc. destruct (Z.ltb_spec c 65536).
  - apply u4_read; [lia|exact Hn].
  - rewrite <- app_assoc. assert (B : 0 <= (c - 65536) / 1024 < 1024) by (split; [apply Z.div_pos; lia|apply Z.div_lt_upper_bound; lia]).
    assert (B2 := Z.mod_pos_bound (c - 65536) 1024 ltac:(lia)). assert (B3 := Z.div_mod (c - 65536) 1024 ltac:(lia)).
    set (h := (c - 65536) / 1024) in *. set (l := (c - 65536) mod 1024) in *. unfold u4. cbn [app].
    erewrite scan_pair; [|apply hex4_u4; lia|unfold is_high; lia|apply hex4_u4; lia|unfold is_low; lia]. f_equal. unfold join_pair. lia.
Qed.
Lemma dump_str_read : forall s T, plain_str s -> exists r, dump_str s ++ T = 34 :: r /\ scan_str r = Some (s, T).
Proof.
  intros s T P. exists (flat_map esc_char s ++ 34 :: T). split; [|now apply scan_dump]. unfold dump_str. cbn [app]. now rewrite <- app_assoc.
Qed.

(** ** Numbers *)
Definition rest_ok (r : text) : Prop := match r with [] => True | c :: _ => num_char c = false end.
Lemma take_all : forall ds r, Forall digit ds -> match r with [] => True | c :: _ => is_dig c = false end -> take_digits (ds ++ r) = (ds, r).
Proof.
  induction ds as [|c ds IH]; intros r F H; cbn [app].
  - destruct r as [|c r]; [reflexivity|]. cbn. now rewrite H.
  - inversion F as [|? ? Hc Fs]; subst. cbn. unfold is_dig at 1. unfold digit in Hc. replace ((48 <=? c) && (c <=? 57)) with true by lia. now rewrite IH.
Qed.
Lemma rest_no_digit : forall r, rest_ok r -> match r with [] => True | c :: _ => is_dig c = false end.
Proof. intros [|c r] H; [exact I|]. now apply num_char_no in H. Qed.
Definition good_int (ip : text) : Prop := ip = codes "0" \/ digits1 ip /\ hd 0 ip <> 48.
Lemma int_read : forall ip r, good_int ip -> match r with [] => True | c :: _ => is_dig c = false end -> int_part (ip ++ r) = Some (ip, r).
Proof.
  intros ip r [->|[[N F] H]] Hr; [reflexivity|]. destruct ip as [|c ip]; [contradiction|]. cbn [app]. unfold int_part. cbn in H. apply Z.eqb_neq in H. rewrite H.
  assert (E := take_all F Hr). inversion F as [|? ? Hc _]; subst. unfold digit in Hc. replace (is_dig c) with true by (unfold is_dig; lia). f_equal. exact E.
Qed.
Lemma sign_read : forall sg ip r, sg = [] \/ sg = codes "-" -> good_int ip -> sign_part (sg ++ ip ++ r) = (sg, ip ++ r).
Proof.
  intros sg ip r [->| ->] G; [|reflexivity]. cbn [app]. destruct G as [->|[[N F] _]]; [reflexivity|]. destruct ip as [|c ip]; [contradiction|].
  inversion F as [|? ? Hc _]; subst. unfold digit in Hc. cbn. replace (c =? 45) with false by lia. reflexivity.
Qed.
Lemma frac_none : forall r, rest_ok r -> frac_part r = ([], r).
Proof. intros [|c r] H; [reflexivity|]. apply num_char_no in H as (_ & H & _). cbn. now rewrite H. Qed.
Lemma exp_none : forall r, rest_ok r -> exp_part r = ([], r).
Proof. intros [|c r] H; [reflexivity|]. apply num_char_no in H as (_ & _ & H). cbn. now rewrite H. Qed.
Lemma exp_read : forall e s ds r, e = codes "e" \/ e = codes "E" -> s = [] \/ s = codes "+" \/ s = codes "-" -> digits1 ds -> rest_ok r ->
  exp_part ((e ++ s ++ ds) ++ r) = (e ++ s ++ ds, r).
Proof.
  intros e s ds r He Hs [N F] Hr. assert (T := take_all F (rest_no_digit Hr)).
  assert (S : exp_sign (s ++ ds ++ r) = (s, ds ++ r)).
  { destruct Hs as [->|[->| ->]]; try reflexivity. destruct ds as [|d ds]; [contradiction|]. inversion F as [|? ? Hd _]; subst. unfold digit in Hd.
    cbn. replace ((d =? 43) || (d =? 45)) with false by lia. reflexivity. }
  destruct He as [->| ->]; cbn [codes app]; unfold exp_part; cbn [Z.eqb]; change ((ch "e" =? 101) || (ch "e" =? 69)) with true; change ((ch "E" =? 101) || (ch "E" =? 69)) with true;
    cbv iota; rewrite <- app_assoc, S, T; destruct ds; try contradiction; reflexivity.
Qed.
Lemma scan_float : forall t r, float_literal t -> rest_ok r -> scan_number (t ++ r) = Some (JFloat t, r).
Proof.
  intros t r (sg & ip & f & x & -> & Hsg & Hip & Hf & Hx & Hfx) Hr. unfold scan_number.
  replace ((sg ++ ip ++ f ++ x) ++ r) with (sg ++ ip ++ (f ++ x ++ r)) by now rewrite <- !app_assoc.
  rewrite (sign_read _ Hsg Hip).
  assert (Hxd : match x ++ r with [] => True | c :: _ => is_dig c = false /\ (c =? 46) = false end).
  { destruct Hx as [->|(e & s & ds & -> & [->| ->] & _)]; [|split; reflexivity|split; reflexivity]. destruct r as [|c r]; [exact I|]. cbn. apply num_char_no in Hr. tauto. }
  assert (Hfd : match f ++ x ++ r with [] => True | c :: _ => is_dig c = false end).
  { destruct Hf as [->|(ds & -> & _)]; [|reflexivity]. cbn [app]. destruct (x ++ r); tauto. }
  rewrite (int_read Hip Hfd).
  assert (Ef : frac_part (f ++ x ++ r) = (f, x ++ r)).
  { destruct Hf as [->|(ds & -> & [N F])].
    - cbn [app]. destruct (x ++ r) as [|c y]; [reflexivity|]. cbn. now rewrite (proj2 Hxd).
    - cbn [codes app]. unfold frac_part. change (ch "." =? 46) with true. cbv iota. rewrite (@take_all ds (x ++ r) F); [|destruct (x ++ r); tauto].
      destruct ds; [contradiction|reflexivity]. }
  rewrite Ef. assert (Ex : exp_part (x ++ r) = (x, r)).
  { destruct Hx as [->|(e & s & ds & -> & He & Hs & Hd)]; [now apply exp_none|now apply exp_read]. }
  rewrite Ex. destruct f, x; try reflexivity. destruct Hfx; contradiction.
Qed.

(** Decimal integers. *)
Lemma digit_code : forall c, is_digit c = true -> digit (ch c) /\ ch c - 48 = digit_val c.
Proof. intros [[] [] [] [] [] [] [] []] H; vm_compute in H; try discriminate; (split; [unfold digit, ch; cbn; lia|reflexivity]). Qed.
Lemma codes_len : forall s, List.length (codes s) = String.length s.
Proof. induction s as [|c s IH]; [reflexivity|]. cbn. now rewrite IH. Qed.
Lemma codes_digits : forall s, all_digits s -> Forall digit (codes s) /\ forall a, fold_left (fun a c => 10 * a + (c - 48)) (codes s) a = a * 10 ^ Z.of_nat (String.length s) + decimal s.
Proof.
  induction s as [|c s IH]; intros H; [split; [constructor|intros a; cbn; lia]|]. destruct H as [Hc Hs]. destruct (IH Hs) as [F E]. destruct (digit_code Hc) as [D1 D2].
  split; [constructor; assumption|]. intros a. cbn [codes fold_left decimal String.length]. rewrite E, D2, Nat2Z.inj_succ, Z.pow_succ_r by lia. nia.
Qed.
Lemma nat_int : forall z, 0 <= z -> good_int (codes (str_of_int z)) /\ dec_value (codes (str_of_int z)) = z /\ digits1 (codes (str_of_int z)).
Proof.
  intros z H. destruct (str_of_int_spec H) as (A & B & C). destruct (codes_digits A) as [F E].
  assert (D : digits1 (codes (str_of_int z))) by (split; [|exact F]; destruct (str_of_int z); [contradiction|discriminate]).
  split; [|split; [unfold dec_value; rewrite E, C; lia|exact D]].
  destruct (Z.eq_dec z 0) as [->|N]; [left; reflexivity|right]. split; [exact D|]. assert (X := @str_of_int_first z ltac:(lia)).
  destruct (str_of_int z) as [|c s]; [contradiction|]. cbn [codes hd]. intros Y. apply (X s). f_equal. clear - Y. revert Y. destruct c as [[] [] [] [] [] [] [] []]; vm_compute; intros Y; try discriminate; reflexivity.
Qed.
Lemma scan_int : forall z r, rest_ok r -> scan_number (codes (int_repr z) ++ r) = Some (JInt z, r).
Proof.
  assert (G : forall sg z r, 0 <= z -> sg = [] \/ sg = codes "-" -> rest_ok r ->
    scan_number (sg ++ codes (str_of_int z) ++ r) = Some (JInt (match sg with [] => z | _ => - z end), r)).
  { intros sg z r H Hsg Hr. destruct (nat_int H) as (G & E & _). unfold scan_number. rewrite (sign_read _ Hsg G), (int_read G (rest_no_digit Hr)), (frac_none Hr), (exp_none Hr), E. reflexivity. }
  intros z r Hr. unfold int_repr. destruct (Z.ltb_spec z 0).
  - change (codes (String "-" (str_of_int (- z))) ++ r) with (codes "-" ++ codes (str_of_int (- z)) ++ r).
    rewrite (G (codes "-") (- z) r) by (try lia; auto). cbn [codes]. now rewrite Z.opp_involutive.
  - exact (G [] z r ltac:(lia) (or_introl eq_refl) Hr).
Qed.
Lemma int_head : forall z, exists c s, codes (int_repr z) = c :: s /\ (digit c \/ c = 45 /\ exists d s', s = d :: s' /\ digit d).
Proof.
  intros z. unfold int_repr. destruct (Z.ltb_spec z 0).
  - destruct (@nat_int (- z)) as (_ & _ & N & F); [lia|]. exists 45, (codes (str_of_int (- z))). split; [reflexivity|]. right. split; [reflexivity|].
    destruct (codes (str_of_int (- z))) as [|d s]; [contradiction|]. exists d, s. split; [reflexivity|]. now inversion F.
  - destruct (@nat_int z) as (_ & _ & N & F); [lia|]. destruct (codes (str_of_int z)) as [|d s]; [contradiction|]. exists d, s. split; [reflexivity|]. left. now inversion F.
Qed.
Lemma float_head : forall t, float_literal t -> exists c s, t = c :: s /\ (digit c \/ c = 45 /\ exists d s', s = d :: s' /\ digit d).
Proof.
  intros t (sg & ip & f & x & -> & Hsg & Hip & _). assert (P : exists d s', ip = d :: s' /\ digit d).
  { destruct Hip as [->|[[N F] _]]; [exists 48, []; split; [reflexivity|unfold digit; lia]|]. destruct ip as [|d s']; [contradiction|]. exists d, s'. split; [reflexivity|now inversion F]. }
  destruct P as (d & s' & -> & D). destruct Hsg as [->| ->]; cbn [codes app].
  - eexists _, _. split; [reflexivity|]. now left.
  - exists 45, (d :: s' ++ f ++ x). split; [reflexivity|]. right. split; [reflexivity|]. eauto.
Qed.
(** A number is recognised as one. *)
Lemma value_number : forall n c s p, digit c \/ c = 45 /\ (exists d s', s = d :: s' /\ digit d) -> scan_number (c :: s) = Some p -> value (S n) (c :: s) = Ok p.
Proof.
  intros n c s p H E. cbn [value]. rewrite E.
  assert (K : c = 45 \/ digit c) by tauto. unfold digit in K.
  replace (c =? 34) with false by lia. replace (c =? 91) with false by lia. replace (c =? 123) with false by lia.
  replace (c =? ch "n") with false by (change (ch "n") with 110; lia). replace (c =? ch "t") with false by (change (ch "t") with 116; lia).
  replace (c =? ch "f") with false by (change (ch "f") with 102; lia). replace (c =? ch "N") with false by (change (ch "N") with 78; lia).
  replace (c =? ch "I") with false by (change (ch "I") with 73; lia).
  destruct (Z.eqb_spec c 45) as [->|]; [|reflexivity]. destruct H as [H|(_ & d & s' & -> & D)]; [unfold digit in H; lia|].
  change (codes "Infinity") with (73 :: codes "nfinity"). cbn [strip]. unfold digit in D. replace (d =? 73) with false by lia. reflexivity.
Qed.

(** ** Values *)
Lemma json_ind2 : forall P : json -> Prop, P JNull -> (forall b, P (JBool b)) -> (forall z, P (JInt z)) -> (forall t, P (JFloat t)) -> (forall s, P (JStr s)) ->
  (forall l, (forall v, In v l -> P v) -> P (JList l)) -> (forall l, (forall k v, In (k, v) l -> P v) -> P (JDict l)) -> forall v, P v.
Proof.
  intros P H1 H2 H3 H4 H5 H6 H7. fix IH 1. intros [|b|z|t|s|l|l]; [exact H1|exact (H2 b)|exact (H3 z)|exact (H4 t)|exact (H5 s)| |].
  - apply H6. induction l as [|x l IHl]; [intros v []|]. intros v [<-|H]; [apply IH|now apply IHl].
  - apply H7. induction l as [|[k0 x] l IHl]; [intros k v []|]. intros k v [E|H]; [injection E as _ <-; apply IH|now apply (IHl k)].
Qed.

Lemma skip_newline : forall lvl c r, is_ws c = false -> skip_ws (newline lvl ++ c :: r) = c :: r.
Proof.
  intros lvl c r H. unfold newline. cbn [app skip_ws]. change (is_ws 10) with true. cbv iota. induction (2 * lvl)%nat as [|n IH]; cbn.
  - now rewrite H.
  - exact IH.
Qed.
(** The first character of a value. *)
Lemma dump_head : forall v lvl, plain v -> exists c r, dump lvl v = c :: r /\ is_ws c = false /\ c <> 93.
Proof.
  intros v lvl P. destruct P as [|b|z|t H|s|l|l]; cbn [dump].
  - eexists _, _. split; [reflexivity|]. split; [reflexivity|discriminate].
  - destruct b; eexists _, _; (split; [reflexivity|]; split; [reflexivity|discriminate]).
  - destruct (int_head z) as (c & s & -> & H). exists c, s. split; [reflexivity|]. unfold digit in H. unfold is_ws. lia.
  - destruct H as [H|[->|[->| ->]]]; [|eexists _, _; split; [reflexivity|]; split; [reflexivity|discriminate]..].
    destruct (float_head H) as (c & s & -> & H'). exists c, s. split; [reflexivity|]. unfold digit in H'. unfold is_ws. lia.
  - eexists _, _. split; [reflexivity|]. split; [reflexivity|discriminate].
  - destruct l; eexists _, _; (split; [reflexivity|]; split; [reflexivity|discriminate]).
  - destruct l; eexists _, _; (split; [reflexivity|]; split; [reflexivity|discriminate]).
Qed.
Lemma text_eqb_iff : forall a b, text_eqb a b = true <-> a = b.
Proof.
  induction a as [|x a IH]; intros [|y b]; cbn; try (split; congruence). rewrite andb_true_iff, Z.eqb_eq, IH. split; [intros [-> ->]; reflexivity|intros H; injection H; auto].
Qed.
Lemma tset_new : forall A k (v : A) l, ~ In k (map fst l) -> tset k v l = l ++ [(k, v)].
Proof.
  induction l as [|[k' v'] l IH]; intros H; [reflexivity|]. cbn in *. destruct (text_eqb k k') eqn:E; [apply text_eqb_iff in E; subst; tauto|]. f_equal. apply IH. tauto.
Qed.

Definition reads (lvl : nat) (v : json) : Prop := forall rest, rest_ok rest -> exists n, value n (dump lvl v ++ rest) = Ok (v, rest).

Lemma newline_ok : forall lvl r, rest_ok (newline lvl ++ r).
Proof. intros lvl r. reflexivity. Qed.
Lemma elements_read : forall lvl l acc rest, l <> [] -> (forall v, In v l -> plain v /\ reads (S lvl) v) ->
  exists n, elements n acc (sep_join (44 :: newline (S lvl)) (map (dump (S lvl)) l) ++ newline lvl ++ 93 :: rest) = Ok (JList (acc ++ l), rest).
Proof.
  intros lvl l. induction l as [|v l IH]; intros acc rest N H; [contradiction|]. destruct (H v (or_introl eq_refl)) as [Pv Rv]. destruct l as [|w l].
  - cbn [map sep_join]. destruct (Rv (newline lvl ++ 93 :: rest) (newline_ok _ _)) as [n E]. exists (S n). cbn [elements]. rewrite E. cbn [bind fst snd].
    rewrite skip_newline by reflexivity. reflexivity.
  - destruct (IH (acc ++ [v]) rest) as [m Em]; [discriminate|intros x Hx; apply H; now right|].
    set (J := sep_join (44 :: newline (S lvl)) (map (dump (S lvl)) (w :: l))) in *.
    change (sep_join (44 :: newline (S lvl)) (map (dump (S lvl)) (v :: w :: l))) with (dump (S lvl) v ++ (44 :: newline (S lvl)) ++ J).
    rewrite <- !app_assoc. destruct (Rv ((44 :: newline (S lvl)) ++ J ++ newline lvl ++ 93 :: rest) eq_refl) as [n E].
    assert (HJ : exists c r, J = c :: r /\ is_ws c = false).
    { destruct (dump_head (S lvl) (proj1 (H w (or_intror (or_introl eq_refl))))) as (c & r & E0 & W & _). subst J. cbn [map sep_join]. rewrite E0. destruct (map (dump (S lvl)) l); cbn [app]; eauto. }
    destruct HJ as (c & r & HJ & W).
    exists (S (Nat.max n m)). cbn [elements]. rewrite (@value_ge n (Nat.max n m) _ _ (Nat.le_max_l _ _) E) by discriminate. cbn [bind fst snd app skip_ws].
    change (is_ws 44) with false. cbv iota. change (44 =? 93) with false. change (44 =? 44) with true. cbv iota. rewrite HJ. cbn [app].
    rewrite skip_newline by exact W. rewrite HJ in Em. cbn [app] in Em. rewrite (@elements_ge m (Nat.max n m) _ _ _ (Nat.le_max_r _ _) Em) by discriminate. now rewrite <- app_assoc.
Qed.

Lemma members_read : forall lvl l acc rest, l <> [] -> NoDup (map fst (acc ++ l)) -> (forall k v, In (k, v) l -> plain_str k /\ plain v /\ reads (S lvl) v) ->
  exists n, members n acc (sep_join (44 :: newline (S lvl)) (map (fun p => dump_str (fst p) ++ codes ": " ++ dump (S lvl) (snd p)) l) ++ newline lvl ++ 125 :: rest)
    = Ok (JDict (acc ++ l), rest).
Proof.
  intros lvl l. induction l as [|[k v] l IH]; intros acc rest N ND H; [contradiction|]. destruct (H k v (or_introl eq_refl)) as (Pk & Pv & Rv).
  assert (NI : ~ In k (map fst acc)).
  { rewrite map_app in ND. cbn [map fst] in ND. apply NoDup_remove_2 in ND. intros X. apply ND. apply in_or_app. now left. }
  destruct (dump_head (S lvl) Pv) as (c0 & r0 & E0 & W0 & _).
  assert (ONE : forall T n, value n (dump (S lvl) v ++ T) = Ok (v, T) -> members (S n) acc ((dump_str k ++ codes ": " ++ dump (S lvl) v) ++ T) =
    match skip_ws T with [] => bad | y :: r3 => if y =? 125 then Ok (JDict (acc ++ [(k, v)]), r3) else if y =? 44 then members n (acc ++ [(k, v)]) (skip_ws r3) else bad end).
  { intros T n E. rewrite <- app_assoc. destruct (dump_str_read ((codes ": " ++ dump (S lvl) v) ++ T) Pk) as (r & -> & Es). cbn [members]. change (34 =? 34) with true. cbv iota. rewrite Es.
    cbn [codes app skip_ws]. change (is_ws (ch ":")) with false. cbv iota. change (ch ":" =? 58) with true. cbv iota.
    change (skip_ws (ch " " :: dump (S lvl) v ++ T)) with (skip_ws (dump (S lvl) v ++ T)).
    replace (skip_ws (dump (S lvl) v ++ T)) with (dump (S lvl) v ++ T) by (rewrite E0; cbn; now rewrite W0). rewrite E. cbn [bind fst snd]. now rewrite (tset_new v NI). }
  destruct l as [|[k2 w] l].
  - cbn [map sep_join fst snd]. destruct (Rv (newline lvl ++ 125 :: rest) (newline_ok _ _)) as [n E]. exists (S n). rewrite (ONE _ _ E). rewrite skip_newline by reflexivity. reflexivity.
  - destruct (IH (acc ++ [(k, v)]) rest) as [m Em]; [discriminate|now rewrite <- app_assoc|intros k' x Hx; apply H; now right|].
    set (F := fun p : text * json => dump_str (fst p) ++ codes ": " ++ dump (S lvl) (snd p)) in *.
    set (J := sep_join (44 :: newline (S lvl)) (map F ((k2, w) :: l))) in *.
    change (sep_join (44 :: newline (S lvl)) (map F ((k, v) :: (k2, w) :: l))) with (F (k, v) ++ (44 :: newline (S lvl)) ++ J).
    rewrite <- (app_assoc (F (k, v))), <- (app_assoc (44 :: _)). destruct (Rv ((44 :: newline (S lvl)) ++ J ++ newline lvl ++ 125 :: rest) eq_refl) as [n E].
    assert (HJ : exists r, J = 34 :: r) by (subst J; cbn [map sep_join]; destruct (map F l); unfold F at 1, dump_str at 1; cbn [app fst]; eauto).
    destruct HJ as (r & HJ).
    exists (S (Nat.max n m)). apply (@value_ge n (Nat.max n m)) in E; [|lia|discriminate]. unfold F at 1. cbn [fst snd]. rewrite (ONE _ _ E).
    cbn [app skip_ws]. change (is_ws 44) with false. cbv iota. change (44 =? 125) with false. change (44 =? 44) with true. cbv iota. rewrite HJ. cbn [app].
    rewrite skip_newline by reflexivity. rewrite HJ in Em. cbn [app] in Em. rewrite (@members_ge m (Nat.max n m) _ _ _ (Nat.le_max_r _ _) Em) by discriminate. now rewrite <- app_assoc.
Qed.

Theorem dump_reads : forall v, plain v -> forall lvl, reads lvl v.
Proof.
  induction v as [|b|z|t|s|l IH|l IH] using json_ind2; intros P lvl rest Hr.
  - exists 1%nat. reflexivity.
  - exists 1%nat. destruct b; reflexivity.
  - exists 1%nat. cbn [dump]. assert (E := scan_int z Hr). destruct (int_head z) as (c & s & Es & H). rewrite Es in *. cbn [app] in *. apply value_number; [|exact E].
    destruct H as [H|(-> & d & s' & -> & D)]; [now left|right]. split; [reflexivity|]. cbn. eauto.
  - cbn [dump]. inversion P as [| | |? H| | |]; subst. destruct H as [H|[->|[->| ->]]]; [|exists 1%nat; reflexivity..].
    exists 1%nat. assert (E := scan_float H Hr). destruct (float_head H) as (c & s & -> & H'). cbn [app] in *. apply value_number; [|exact E].
    destruct H' as [H'|(-> & d & s' & -> & D)]; [now left|right]. split; [reflexivity|]. cbn. eauto.
  - inversion P as [| | | |? H| |]; subst. exists 1%nat. cbn [dump]. destruct (dump_str_read rest H) as (r & -> & E). cbn [value]. change (34 =? 34) with true. cbv iota. now rewrite E.
  - inversion P as [| | | | |? H|]; subst. destruct l as [|v l]; [exists 1%nat; reflexivity|].
    destruct (@elements_read lvl (v :: l) [] rest) as [n E]; [discriminate|intros x Hx; split; [auto|apply IH; auto]|].
    exists (S n). cbn [dump]. rewrite <- !app_comm_cons. cbn [value]. change (91 =? 34) with false. change (91 =? 91) with true. cbv iota. rewrite <- !app_assoc.
    assert (HJ : exists c r, sep_join (44 :: newline (S lvl)) (map (dump (S lvl)) (v :: l)) = c :: r /\ is_ws c = false /\ c <> 93).
    { destruct (dump_head (S lvl) (H v (or_introl eq_refl))) as (c & r & E0 & W & C). cbn [map sep_join]. rewrite E0. destruct (map (dump (S lvl)) l); cbn [app]; eauto. }
    destruct HJ as (c & r & HJ & W & C). rewrite HJ in E |- *. cbn [app] in E |- *. rewrite skip_newline by exact W. apply Z.eqb_neq in C. rewrite C. exact E.
  - inversion P as [| | | | | |? ND H]; subst. destruct l as [|[k v] l]; [exists 1%nat; reflexivity|].
    destruct (@members_read lvl ((k, v) :: l) [] rest) as [n E]; [discriminate|exact ND|intros k' x Hx; split; [apply (H _ _ Hx)|split; [apply (H _ _ Hx)|]]; apply (IH k' x Hx); apply (H _ _ Hx)|].
    exists (S n). cbn [dump]. rewrite <- !app_comm_cons. cbn [value]. change (123 =? 34) with false. change (123 =? 91) with false. change (123 =? 123) with true. cbv iota. rewrite <- !app_assoc.
    assert (HJ : exists r, sep_join (44 :: newline (S lvl)) (map (fun p => dump_str (fst p) ++ codes ": " ++ dump (S lvl) (snd p)) ((k, v) :: l)) = 34 :: r).
    { destruct l as [|p0 l0]; cbn [map sep_join fst]; unfold dump_str at 1; cbn [app]; eauto. }
    destruct HJ as (r & HJ). rewrite HJ in E |- *. cbn [app] in E |- *. rewrite skip_newline by reflexivity. change (34 =? 125) with false. cbv iota. exact E.
Qed.

Theorem round_trip : forall v lvl, plain v -> loads (dump lvl v) = Ok v.
Proof.
  intros v lvl P. destruct (dump_reads P lvl (rest := []) I) as [n E]. rewrite app_nil_r in E. destruct (dump_head lvl P) as (c & r & E0 & W & _).
  assert (S : skip_ws (dump lvl v) = dump lvl v) by (rewrite E0; cbn; now rewrite W). rewrite <- S in E. now rewrite (loads_value E).
Qed.
Theorem truncated : forall v lvl p q, plain v -> (exists l, v = JList l) \/ (exists l, v = JDict l) \/ (exists s, v = JStr s) ->
  dump lvl v = p ++ q -> q <> [] -> loads p = Err EJSONDecodeError.
Proof.
  intros v lvl p q P K E N. destruct (loads p) as [w|e] eqn:H; [exfalso|f_equal; now apply loads_err in H].
  assert (R := round_trip lvl P). rewrite E in R.
  assert (W : forall p' c, (c = 91 \/ c = 123 \/ c = 34) -> p = c :: p' -> is_num w = false).
  { intros p' c Hc ->. unfold loads in H. apply bind_ok in H as ([w' r] & E1 & H). cbn [fst snd] in H. destruct (skip_ws r); [|discriminate]. injection H as ->.
    assert (Es : skip_ws (c :: p') = c :: p') by (destruct Hc as [->|[->| ->]]; reflexivity). rewrite Es in E1.
    assert (G : forall n, value (S n) (c :: p') = Ok (w, r) -> is_num w = false).
    { assert (EL : forall n acc s v r, elements n acc s = Ok (v, r) -> is_num v = false).
      { induction n as [|n IHn]; intros acc s v0 r0 X; [discriminate|]. cbn [elements] in X. apply bind_ok in X as (pp & _ & X). destruct (skip_ws (snd pp)) as [|x ?]; [discriminate|].
        destruct (x =? 93); [injection X as <- _; reflexivity|]. destruct (x =? 44); [eauto|discriminate]. }
      assert (ML : forall n acc s v r, members n acc s = Ok (v, r) -> is_num v = false).
      { induction n as [|n IHn]; intros acc s v0 r0 X; [discriminate|]. cbn [members] in X. destruct s as [|y s]; [discriminate|]. destruct (y =? 34); [|discriminate].
        destruct (scan_str s) as [[? ?]|]; [|discriminate]. destruct (skip_ws t0) as [|x ?]; [discriminate|]. destruct (x =? 58); [|discriminate].
        apply bind_ok in X as (pp & _ & X). destruct (skip_ws (snd pp)) as [|z ?]; [discriminate|].
        destruct (z =? 125); [injection X as <- _; reflexivity|]. destruct (z =? 44); [eauto|discriminate]. }
      intros n X. cbn [value] in X. destruct Hc as [->|[->| ->]].
      - change (91 =? 34) with false in X. change (91 =? 91) with true in X. cbv iota in X. destruct (skip_ws p') as [|x ?]; [discriminate|]. destruct (x =? 93); [injection X as <- _; reflexivity|eauto].
      - change (123 =? 34) with false in X. change (123 =? 91) with false in X. change (123 =? 123) with true in X. cbv iota in X. destruct (skip_ws p') as [|x ?]; [discriminate|].
        destruct (x =? 125); [injection X as <- _; reflexivity|eauto].
      - change (34 =? 34) with true in X. cbv iota in X. destruct (scan_str p') as [[? ?]|]; [|discriminate]. injection X as <- _. reflexivity. }
    rewrite Nat.add_comm in E1. exact (G _ E1). }
  destruct p as [|c p']; [discriminate|].
  assert (Hc : c = 91 \/ c = 123 \/ c = 34).
  { destruct K as [[l ->]|[[l ->]|[s ->]]]; cbn [dump] in E; [destruct l|destruct l|]; cbn in E; injection E; intros; subst; auto. }
  destruct (loads_prefix H (W p' c Hc eq_refl) R) as [_ F].
  (* the text ends with a bracket, brace or quote *)
  assert (L : exists a b, dump lvl v = a ++ [b] /\ is_ws b = false).
  { destruct K as [[l ->]|[[l ->]|[s ->]]]; cbn [dump].
    - destruct l; [exists [91], 93; split; reflexivity|]. 
      match goal with |- context[91 :: ?A ++ ?B ++ ?C ++ [93]] => exists (91 :: A ++ B ++ C), 93 end. split; [|reflexivity]. cbn [app]. now rewrite <- !app_assoc.
    - destruct l; [exists [123], 125; split; reflexivity|]. 
      match goal with |- context[123 :: ?A ++ ?B ++ ?C ++ [125]] => exists (123 :: A ++ B ++ C), 125 end. split; [|reflexivity]. cbn [app]. now rewrite <- !app_assoc.
    - exists (34 :: flat_map esc_char s), 34. split; reflexivity. }
  destruct L as (a & b & L & Wb). rewrite E in L. destruct (exists_last N) as (q' & b' & ->). rewrite app_assoc in L. apply app_inj_tail in L as [_ ->].
  apply Forall_app in F as [_ F]. inversion F; congruence.
Qed.
