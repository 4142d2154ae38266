(** Lemmas on JSON texts: adding characters at the end. *)
From Verif Require Import Base PyStr M_Cxi M_Repr M_FilesMap M_Json S_Stacking S_Json L_Base L_Json.
Set Implicit Arguments.
Unset Strict Implicit.
Local Open Scope string_scope.
Local Open Scope Z_scope.
Local Open Scope list_scope.

Lemma skip_ws_app : forall s x r q, skip_ws s = x :: r -> skip_ws (s ++ q) = x :: r ++ q.
Proof. induction s as [|c s IH]; intros x r q H; [discriminate|]. cbn in *. destruct (is_ws c); [now apply IH|]. injection H as <- <-. reflexivity. Qed.
Lemma take_digits_app : forall s d c r q, take_digits s = (d, c :: r) -> take_digits (s ++ q) = (d, c :: r ++ q).
Proof.
  induction s as [|a s IH]; intros d c r q H; [discriminate|]. cbn in *. destruct (is_dig a).
  - destruct (take_digits s) as [d' r'] eqn:E. injection H as <- ->. now rewrite (IH _ _ _ q eq_refl).
  - injection H as <- <- <-. reflexivity.
Qed.
Lemma strip_app : forall k s r q, strip k s = Some r -> strip k (s ++ q) = Some (r ++ q).
Proof. induction k as [|a k IH]; intros s r q H; cbn in *; [now injection H as <-|]. destruct s as [|c s]; [discriminate|]. cbn. destruct (c =? a); [now apply IH|discriminate]. Qed.
Lemma put_some : forall c o t r, put c o = Some (t, r) -> exists t', t = c :: t' /\ o = Some (t', r).
Proof. intros c [[t' r']|] t r H; [|discriminate]. injection H as <- <-. eauto. Qed.

(** A low surrogate is written next. *)
Definition low_next (T : text) : Prop := exists a b c d r u, T = 92 :: 117 :: a :: b :: c :: d :: r /\ hex4 a b c d = Some u /\ is_low u = true.
Lemma scan_u : forall a b c d u T, hex4 a b c d = Some u -> is_high u = false \/ ~ low_next T ->
  scan_str (92 :: 117 :: a :: b :: c :: d :: T) = put u (scan_str T).
Proof.
  intros a b c d u T E H. cbn [scan_str]. change (92 =? 34) with false. change (92 =? 92) with true. change (117 =? 117) with true. cbv iota. rewrite E.
  destruct T as [|x [|y [|a2 [|b2 [|c2 [|d2 r3]]]]]]; try reflexivity.
  destruct (is_high u && (x =? 92) && (y =? 117)) eqn:B; [|reflexivity]. apply andb_prop in B as [B B3]. apply andb_prop in B as [B1 B2].
  apply Z.eqb_eq in B2, B3. subst x y. destruct (hex4 a2 b2 c2 d2) as [u2|] eqn:E2; [|reflexivity]. destruct (is_low u2) eqn:L; [|reflexivity].
  exfalso. destruct H as [H|H]; [congruence|]. apply H. exists a2, b2, c2, d2, r3, u2. auto.
Qed.
Lemma scan_pair : forall a b c d u a2 b2 c2 d2 u2 T, hex4 a b c d = Some u -> is_high u = true -> hex4 a2 b2 c2 d2 = Some u2 -> is_low u2 = true ->
  scan_str (92 :: 117 :: a :: b :: c :: d :: 92 :: 117 :: a2 :: b2 :: c2 :: d2 :: T) = put (join_pair u u2) (scan_str T).
Proof.
  intros a b c d u a2 b2 c2 d2 u2 T E H E2 L. cbn [scan_str]. change (92 =? 34) with false. change (92 =? 92) with true. change (117 =? 117) with true. cbv iota.
  rewrite E, H, E2. cbn [andb]. cbv iota. rewrite L. reflexivity.
Qed.
Lemma scan_esc : forall e x T, e <> 117 -> simple_escape e = Some x -> scan_str (92 :: e :: T) = put x (scan_str T).
Proof. intros e x T N E. cbn [scan_str]. change (92 =? 34) with false. change (92 =? 92) with true. cbv iota. apply Z.eqb_neq in N. now rewrite N, E. Qed.
Lemma scan_char : forall c T, c <> 34 -> c <> 92 -> 32 <= c -> scan_str (c :: T) = put c (scan_str T).
Proof. intros c T H1 H2 H3. cbn [scan_str]. apply Z.eqb_neq in H1, H2. rewrite H1, H2. destruct (Z.ltb_spec c 32); [lia|reflexivity]. Qed.

Lemma low_dec : forall T, low_next T \/ ~ low_next T.
Proof.
  intros T. destruct T as [|x [|y [|a [|b [|c [|d r]]]]]]; try (right; intros (? & ? & ? & ? & ? & ? & H & _); discriminate).
  destruct (Z.eq_dec x 92) as [->|N]; [|right; intros (? & ? & ? & ? & ? & ? & H & _); injection H; intros; lia].
  destruct (Z.eq_dec y 117) as [->|N]; [|right; intros (? & ? & ? & ? & ? & ? & H & _); injection H; intros; lia].
  destruct (hex4 a b c d) as [u|] eqn:E; [|right; intros (? & ? & ? & ? & ? & ? & H & H2 & _); injection H as <- <- <- <- <-; congruence].
  destruct (is_low u) eqn:L; [left; repeat eexists; eassumption|right; intros (? & ? & ? & ? & ? & ? & H & H2 & H3); injection H as <- <- <- <- <-; congruence].
Qed.
(** When a string ends inside a text, adding more does not put a surrogate there. *)
Lemma low_next_app : forall T q t r, scan_str T = Some (t, r) -> low_next (T ++ q) -> low_next T.
Proof.
  intros T q t r H (a & b & c & d & r' & u & E & Eu & El).
  destruct T as [|x [|y T]]; [discriminate|injection E as -> E; discriminate|]. injection E as -> -> E.
  destruct T as [|a' [|b' [|c' [|d' T]]]]; try (cbn in H; discriminate). injection E as -> -> -> -> E. exists a, b, c, d, T, u. auto.
Qed.

Lemma scan_str_app : forall n s t r q, (List.length s <= n)%nat -> scan_str s = Some (t, r) -> scan_str (s ++ q) = Some (t, r ++ q).
Proof.
  induction n as [|n IH]; intros s t r q Hn H; [destruct s; [discriminate|cbn in Hn; lia]|]. destruct s as [|c s]; [discriminate|]. cbn in Hn.
  assert (G : forall c0 s0, (List.length s0 <= List.length s)%nat -> put c0 (scan_str s0) = Some (t, r) -> put c0 (scan_str (s0 ++ q)) = Some (t, r ++ q)).
  { intros c0 s0 L X. apply put_some in X as (t' & -> & X). apply (@IH _ _ _ q) in X; [|lia]. now rewrite X. }
  cbn [app].
  destruct (Z.eq_dec c 34) as [->|N34]; [injection H as <- <-; reflexivity|].
  destruct (Z.eq_dec c 92) as [->|N92].
  - destruct s as [|e r1]; [discriminate|]. destruct (Z.eq_dec e 117) as [->|N117].
    + destruct r1 as [|a [|b [|c' [|d r2]]]]; try discriminate. destruct (hex4 a b c' d) as [u|] eqn:E; [|cbn in H; rewrite E in H; discriminate].
      cbn [app]. destruct (is_high u) eqn:Hi; [destruct (low_dec r2) as [Lo|Lo]|].
      * destruct Lo as (a2 & b2 & c2 & d2 & r3 & u2 & -> & E2 & L2). rewrite (scan_pair _ E Hi E2 L2) in H. cbn [app]. rewrite (scan_pair _ E Hi E2 L2).
        apply G; [cbn; lia|exact H].
      * rewrite (scan_u E (or_intror Lo)) in H. rewrite scan_u with (u := u); [apply G; [cbn; lia|exact H]|exact E|].
        right. apply put_some in H as (t' & _ & H). intros X. apply Lo. eapply low_next_app; eassumption.
      * rewrite (scan_u E (or_introl Hi)) in H. rewrite (scan_u E (or_introl Hi)). apply G; [cbn; lia|exact H].
    + destruct (simple_escape e) as [x|] eqn:E; [|cbn in H; apply Z.eqb_neq in N117; rewrite N117, E in H; discriminate].
      rewrite (scan_esc _ N117 E) in H. cbn [app]. rewrite (scan_esc _ N117 E). apply G; [cbn; lia|exact H].
  - destruct (Z_lt_ge_dec c 32) as [L|L].
    + exfalso. cbn in H. apply Z.eqb_neq in N34, N92. rewrite N34, N92 in H. destruct (Z.ltb_spec c 32); [discriminate|lia].
    + rewrite scan_char in H by lia. rewrite scan_char by lia. apply G; [lia|exact H].
Qed.

(** ** Numbers *)
Definition num_char (c : Z) : bool := is_dig c || (c =? 46) || (c =? 101) || (c =? 69) || (c =? 43) || (c =? 45).
Lemma num_char_no : forall c, num_char c = false -> is_dig c = false /\ (c =? 46) = false /\ (c =? 101) || (c =? 69) = false.
Proof. intros c H. unfold num_char in H. destruct (is_dig c), (c =? 46), (c =? 101), (c =? 69); try discriminate; auto. Qed.

Lemma frac_app : forall s f c r q, frac_part s = (f, c :: r) -> f <> [] \/ (c =? 46) = false -> frac_part (s ++ q) = (f, (c :: r) ++ q).
Proof.
  intros s f c r q H D. unfold frac_part in *. destruct s as [|a s]; [discriminate|]. cbn [app]. destruct (a =? 46) eqn:E.
  - destruct (take_digits s) as [[|d ds] r'] eqn:T.
    + injection H as <- <- <-. destruct D as [D|D]; [contradiction|congruence].
    + injection H as <- ->. now rewrite (take_digits_app q T).
  - injection H as <- <- <-. reflexivity.
Qed.
Lemma exp_app : forall s x c r q, exp_part s = (x, c :: r) -> x <> [] \/ (c =? 101) || (c =? 69) = false -> exp_part (s ++ q) = (x, (c :: r) ++ q).
Proof.
  intros s x c r q H D. unfold exp_part in *. destruct s as [|a s]; [discriminate|]. cbn [app]. destruct ((a =? 101) || (a =? 69)) eqn:E.
  - destruct (exp_sign s) as [sg r1] eqn:S. destruct (take_digits r1) as [[|d ds] r'] eqn:T.
    + injection H as <- <- <-. destruct D as [D|D]; [contradiction|congruence].
    + assert (S' : exp_sign (s ++ q) = (sg, r1 ++ q)).
      { unfold exp_sign in *. destruct s as [|y s]; [injection S as _ <-; discriminate|]. cbn [app]. destruct ((y =? 43) || (y =? 45)); injection S as <- <-; reflexivity. }
      rewrite S'. injection H as <- ->. now rewrite (take_digits_app q T).
  - injection H as <- <- <-. reflexivity.
Qed.
Lemma int_app : forall s ip c r q, int_part s = Some (ip, c :: r) -> int_part (s ++ q) = Some (ip, (c :: r) ++ q).
Proof.
  intros s ip c r q H. unfold int_part in *. destruct s as [|a s]; [discriminate|]. cbn [app]. destruct (a =? 48).
  - injection H as <- ->. reflexivity.
  - destruct (is_dig a) eqn:D; [|discriminate]. injection H as H. f_equal. exact (take_digits_app (s := a :: s) q H).
Qed.
Lemma scan_number_app : forall s v c r q, scan_number s = Some (v, c :: r) -> num_char c = false -> scan_number (s ++ q) = Some (v, c :: r ++ q).
Proof.
  intros s v c r q H D. destruct (num_char_no D) as (D1 & D2 & D3). unfold scan_number in *.
  destruct (sign_part s) as [sg s1] eqn:S. destruct (int_part s1) as [[ip s2]|] eqn:E; [|discriminate].
  assert (S' : sign_part (s ++ q) = (sg, s1 ++ q)).
  { unfold sign_part in *. destruct s as [|a s]; [injection S as _ <-; discriminate|]. cbn [app]. destruct (a =? 45); injection S as <- <-; reflexivity. }
  rewrite S'. destruct (frac_part s2) as [f s3] eqn:F. destruct (exp_part s3) as [x s4] eqn:X.
  assert (NF : f = [] -> s3 = s2).
  { intros ->. unfold frac_part in F. destruct s2 as [|a s2]; [now injection F|]. destruct (a =? 46); [|now injection F]. destruct (take_digits s2) as [[|? ?] ?]; [now injection F|discriminate]. }
  assert (NX : x = [] -> s4 = s3).
  { intros ->. unfold exp_part in X. destruct s3 as [|a s3]; [now injection X|]. destruct ((a =? 101) || (a =? 69)); [|now injection X]. destruct (exp_sign s3).
    destruct (take_digits t0) as [[|? ?] ?]; [now injection X|discriminate]. }
  assert (HX : x <> [] -> exists e s3', s3 = e :: s3' /\ (e =? 46) = false).
  { intros N. unfold exp_part in X. destruct s3 as [|a s3]; [injection X as <- _; contradiction|]. destruct ((a =? 101) || (a =? 69)) eqn:Q; [|injection X as <- _; contradiction].
    exists a, s3. split; [reflexivity|]. apply Z.eqb_neq. apply orb_prop in Q as [Q|Q]; apply Z.eqb_eq in Q; lia. }
  destruct f as [|f0 f].
  - specialize (NF eq_refl). subst s3. destruct x as [|x0 x].
    + specialize (NX eq_refl). subst s4. injection H as <- ->. rewrite (int_app q E). rewrite (frac_app q F (or_intror D2)). cbv iota beta.
      rewrite (exp_app q X (or_intror D3)). reflexivity.
    + destruct HX as (e & s3' & -> & Q); [discriminate|]. injection H as <- ->. rewrite (int_app q E). rewrite (frac_app q F (or_intror Q)). cbv iota beta.
      rewrite (exp_app q X); [reflexivity|left; discriminate].
  - assert (P : exists y s3', s3 = y :: s3').
    { destruct s3 as [|y s3']; [|eauto]. cbn in X. injection X as <- <-. discriminate. }
    destruct P as (y & s3' & ->). assert (P : exists z s2', s2 = z :: s2') by (destruct s2 as [|z s2']; [discriminate|eauto]). destruct P as (z & s2' & ->).
    rewrite (int_app q E). rewrite (frac_app q F); [|left; discriminate]. cbv iota beta.
    assert (s4 = c :: r) by (destruct x; injection H; auto). subst s4.
    destruct x as [|x0 x].
    + rewrite (exp_app q X (or_intror D3)). injection H as <-. reflexivity.
    + rewrite (exp_app q X); [|left; discriminate]. injection H as <-. reflexivity.
Qed.

(** ** Values *)
Definition is_num (v : json) : bool := match v with JInt _ | JFloat _ => true | _ => false end.
Definition delimited (r : text) : Prop := match r with [] => False | c :: _ => num_char c = false end.
Lemma ws_delimited : forall r x r', skip_ws r = x :: r' -> num_char x = false -> delimited r.
Proof.
  intros r x r' H Hx. destruct r as [|c r]; [discriminate|]. cbn in H. destruct (is_ws c) eqn:W; [|now injection H as <- <-].
  cbn. unfold is_ws in W. unfold num_char, is_dig. lia.
Qed.
Lemma keyword_app : forall k v0 s v r q, keyword k v0 s = Ok (v, r) -> keyword k v0 (s ++ q) = Ok (v, r ++ q).
Proof. intros k v0 s v r q H. unfold keyword in *. destruct (strip (codes k) s) as [r'|] eqn:E; [|discriminate]. injection H as <- <-. now rewrite (strip_app q E). Qed.

Lemma value_app : forall n,
  (forall s v r q, value n s = Ok (v, r) -> is_num v = false \/ delimited r -> value n (s ++ q) = Ok (v, r ++ q)) /\
  (forall acc s v r q, elements n acc s = Ok (v, r) -> elements n acc (s ++ q) = Ok (v, r ++ q)) /\
  (forall acc s v r q, members n acc s = Ok (v, r) -> members n acc (s ++ q) = Ok (v, r ++ q)).
Proof.
  induction n as [|n (IV & IE & IM)]; [repeat split; intros; discriminate|].
  assert (KE : forall acc s v r q, elements n acc (skip_ws s) = Ok (v, r) -> elements n acc (skip_ws (s ++ q)) = Ok (v, r ++ q)).
  { intros acc s v r q H. destruct (skip_ws s) as [|x s'] eqn:E.
    - exfalso. apply (value_len n) in H. cbn in H. lia.
    - rewrite (skip_ws_app q E). now apply (IE acc (x :: s')). }
  assert (KM : forall acc s v r q, members n acc (skip_ws s) = Ok (v, r) -> members n acc (skip_ws (s ++ q)) = Ok (v, r ++ q)).
  { intros acc s v r q H. destruct (skip_ws s) as [|x s'] eqn:E.
    - exfalso. apply (value_len n) in H. cbn in H. lia.
    - rewrite (skip_ws_app q E). now apply (IM acc (x :: s')). }
  repeat split.
  - intros s v r q H D. cbn [value] in *. destruct s as [|c s]; [discriminate|]. cbn [app].
    destruct (c =? 34).
    { destruct (scan_str s) as [[t r']|] eqn:E; [|discriminate]. injection H as <- <-. now rewrite (@scan_str_app (List.length s) s t r' q (le_n _) E). }
    destruct (c =? 91).
    { destruct (skip_ws s) as [|x r'] eqn:E; [discriminate|]. rewrite (skip_ws_app q E). destruct (x =? 93); [injection H as <- <-; reflexivity|]. exact (IE _ _ _ _ q H). }
    destruct (c =? 123).
    { destruct (skip_ws s) as [|x r'] eqn:E; [discriminate|]. rewrite (skip_ws_app q E). destruct (x =? 125); [injection H as <- <-; reflexivity|]. exact (IM _ _ _ _ q H). }
    repeat (match type of H with (if ?b then keyword _ _ _ else _) = _ => destruct b; [exact (keyword_app q H)|] end).
    assert (NS : forall p, scan_number (c :: s) = Some p -> (if c =? 45 then strip (codes "Infinity") (s ++ q) else None) = None).
    { intros p Hp. destruct (Z.eqb_spec c 45) as [->|]; [|reflexivity]. unfold scan_number, sign_part in Hp. change (45 =? 45) with true in Hp. cbv iota beta in Hp.
      destruct s as [|y s]; [discriminate|]. cbn [app]. change (codes "Infinity") with (73 :: codes "nfinity"). cbn [strip].
      destruct (Z.eqb_spec y 73) as [->|]; [discriminate|reflexivity]. }
    destruct (if c =? 45 then strip (codes "Infinity") s else None) as [r'|] eqn:E.
    { destruct (c =? 45); [|discriminate]. rewrite (strip_app q E). injection H as <- <-. reflexivity. }
    destruct (scan_number (c :: s)) as [[v' r']|] eqn:F; [|discriminate]. rewrite (NS _ eq_refl). injection H as -> ->.
    destruct D as [D|D].
    + exfalso. unfold scan_number, sign_part in F. revert F. destruct (c =? 45); (destruct (int_part _) as [[? ?]|]; [|discriminate]); destruct (frac_part _) as [f ?]; destruct (exp_part _) as [x ?];
        destruct f, x; intros F; injection F as <- _; discriminate.
    + destruct r as [|y r]; [contradiction|]. change (c :: s ++ q) with ((c :: s) ++ q). now rewrite (scan_number_app q F D).
  - intros acc s v r q H. cbn [elements] in *. apply bind_ok in H as ([v1 r1] & E & H). cbn [fst snd] in H.
    destruct (skip_ws r1) as [|x r2] eqn:W; [discriminate|].
    assert (D : delimited r1).
    { apply (ws_delimited W). destruct (Z.eqb_spec x 93) as [->|]; [reflexivity|]. destruct (Z.eqb_spec x 44) as [->|]; [reflexivity|discriminate]. }
    rewrite (IV _ _ _ q E (or_intror D)). cbn [bind fst snd]. rewrite (skip_ws_app q W). destruct (x =? 93); [injection H as <- <-; reflexivity|].
    destruct (x =? 44); [|discriminate]. now apply KE.
  - intros acc s v r q H. cbn [members] in *. destruct s as [|c s]; [discriminate|]. cbn [app]. destruct (c =? 34); [|discriminate].
    destruct (scan_str s) as [[k r1]|] eqn:Es; [|discriminate]. rewrite (@scan_str_app (List.length s) s k r1 q (le_n _) Es).
    destruct (skip_ws r1) as [|x r2] eqn:W1; [discriminate|]. rewrite (skip_ws_app q W1). destruct (x =? 58); [|discriminate].
    apply bind_ok in H as ([v1 r3] & E & H). cbn [fst snd] in H. destruct (skip_ws r3) as [|y r4] eqn:W; [discriminate|].
    assert (D : delimited r3).
    { apply (ws_delimited W). destruct (Z.eqb_spec y 125) as [->|]; [reflexivity|]. destruct (Z.eqb_spec y 44) as [->|]; [reflexivity|discriminate]. }
    assert (E' : value n (skip_ws (r2 ++ q)) = Ok (v1, r3 ++ q)).
    { destruct (skip_ws r2) as [|z r2'] eqn:W2; [apply (value_len n) in E; cbn in E; lia|]. rewrite (skip_ws_app q W2). exact (IV _ _ _ q E (or_intror D)). }
    rewrite E'. cbn [bind fst snd]. rewrite (skip_ws_app q W). destruct (y =? 125); [injection H as <- <-; reflexivity|].
    destruct (y =? 44); [|discriminate]. now apply KM.
Qed.

(** A text which is a list, a dict, a string or a constant: no longer text with something more than white space added is accepted as
    another value. *)
Theorem loads_prefix : forall p q v w, loads p = Ok v -> is_num v = false -> loads (p ++ q) = Ok w -> w = v /\ Forall (fun c => is_ws c = true) q.
Proof.
  intros p q v w H N H2. unfold loads in H. apply bind_ok in H as ([v' r] & E & H). cbn [fst snd] in H. destruct (skip_ws r) eqn:W; [|discriminate]. injection H as ->.
  destruct (skip_ws p) as [|x p'] eqn:Wp; [apply (proj1 (value_len _)) in E; cbn in E; lia|].
  assert (E2 := proj1 (value_app _) _ _ _ q E (or_introl N)). change ((x :: p') ++ q) with (x :: p' ++ q) in E2. rewrite <- (skip_ws_app q Wp) in E2.
  apply loads_value in E2. rewrite H2 in E2. destruct (skip_ws (r ++ q)) eqn:W2; [|discriminate]. injection E2 as ->. split; [reflexivity|].
  clear - W2. induction r as [|c r IH]; cbn in W2.
  - induction q as [|c q IH]; [constructor|]. cbn in W2. destruct (is_ws c) eqn:E; [|discriminate]. constructor; auto.
  - destruct (is_ws c); [auto|discriminate].
Qed.
