(** Lemmas on JSON texts: numbers, strings, and what follows a value. *)
From Verif Require Import Base PyStr M_Cxi M_Repr M_FilesMap M_Json S_Stacking S_Json L_Base L_Cxi7 L_OpenRun.
Set Implicit Arguments.
Unset Strict Implicit.
Local Open Scope string_scope.
Local Open Scope Z_scope.
Local Open Scope list_scope.

(** ** Fuel *)
Lemma value_more : forall n,
  (forall s r, value n s = r -> r <> Err ERuntimeError -> value (S n) s = r) /\
  (forall acc s r, elements n acc s = r -> r <> Err ERuntimeError -> elements (S n) acc s = r) /\
  (forall acc s r, members n acc s = r -> r <> Err ERuntimeError -> members (S n) acc s = r).
Proof.
  induction n as [|n (IV & IE & IM)]; [repeat split; intros; subst; cbn in *; contradiction|]. repeat split.
  - intros s r E H. subst r. remember (S n) as m. cbn [value]. subst m. cbn [value] in H |- *. destruct s as [|c r]; [reflexivity|].
    destruct (c =? 34); [reflexivity|]. destruct (c =? 91).
    + destruct (skip_ws r) as [|x r']; [reflexivity|]. destruct (x =? 93); [reflexivity|]. now apply IE.
    + destruct (c =? 123); [|reflexivity]. destruct (skip_ws r) as [|x r']; [reflexivity|]. destruct (x =? 125); [reflexivity|]. now apply IM.
  - intros acc s r E H. subst r. remember (S n) as m. cbn [elements]. subst m. cbn [elements] in H |- *.
    destruct (value n s) as [[v r]|e] eqn:E.
    + rewrite (IV s _ E) by discriminate. cbn [bind fst snd] in *. destruct (skip_ws r) as [|x r']; [reflexivity|]. destruct (x =? 93); [reflexivity|].
      destruct (x =? 44); [|reflexivity]. now apply IE.
    + cbn [bind] in *. now rewrite (IV s _ E H).
  - intros acc s r E H. subst r. remember (S n) as m. cbn [members]. subst m. cbn [members] in H |- *.
    destruct s as [|q r]; [reflexivity|]. destruct (q =? 34); [|reflexivity]. destruct (scan_str r) as [[k r1]|]; [|reflexivity].
    destruct (skip_ws r1) as [|x r2]; [reflexivity|]. destruct (x =? 58); [|reflexivity]. destruct (value n (skip_ws r2)) as [[v r3]|e] eqn:E.
    + rewrite (IV _ _ E) by discriminate. cbn [bind fst snd] in *. destruct (skip_ws r3) as [|y r4]; [reflexivity|]. destruct (y =? 125); [reflexivity|].
      destruct (y =? 44); [|reflexivity]. now apply IM.
    + cbn [bind] in *. now rewrite (IV _ _ E H).
Qed.
Lemma value_ge : forall n m s r, (n <= m)%nat -> value n s = r -> r <> Err ERuntimeError -> value m s = r.
Proof. intros n m s r H. induction H as [|m H IH]; intros E N; [exact E|]. apply value_more; auto. Qed.
Lemma elements_ge : forall n m acc s r, (n <= m)%nat -> elements n acc s = r -> r <> Err ERuntimeError -> elements m acc s = r.
Proof. intros n m acc s r H. induction H as [|m H IH]; intros E N; [exact E|]. apply value_more; auto. Qed.
Lemma members_ge : forall n m acc s r, (n <= m)%nat -> members n acc s = r -> r <> Err ERuntimeError -> members m acc s = r.
Proof. intros n m acc s r H. induction H as [|m H IH]; intros E N; [exact E|]. apply value_more; auto. Qed.

(** ** What is left is shorter *)
Lemma skip_ws_len : forall s, (List.length (skip_ws s) <= List.length s)%nat.
Proof. induction s as [|c s IH]; [reflexivity|]. cbn. destruct (is_ws c); cbn; lia. Qed.
Lemma take_digits_len : forall s, (List.length (snd (take_digits s)) <= List.length s)%nat.
Proof. induction s as [|c s IH]; [reflexivity|]. cbn. destruct (is_dig c); [|reflexivity]. destruct (take_digits s). cbn in *. lia. Qed.
Lemma scan_str_len : forall n s t r, (List.length s <= n)%nat -> scan_str s = Some (t, r) -> (List.length r < List.length s)%nat.
Proof.
  assert (P : forall c o t r, put c o = Some (t, r) -> exists t', o = Some (t', r)).
  { intros c [[t' r']|] t r H; [|discriminate]. injection H as _ <-. eauto. }
  induction n as [|n IH]; intros s t r Hn H; [destruct s; [discriminate|cbn in Hn; lia]|]. destruct s as [|c s]; [discriminate|]. cbn in Hn.
  assert (G : forall c0 s0 t0, (List.length s0 <= List.length s)%nat -> put c0 (scan_str s0) = Some (t0, r) -> (List.length r < List.length (c :: s))%nat).
  { intros c0 s0 t0 L X. apply P in X as [t' X]. apply IH in X; [cbn; lia|lia]. }
  cbn [scan_str] in H. destruct (c =? 34); [injection H as _ <-; cbn; lia|]. destruct (c =? 92).
  - destruct s as [|e r1]; [discriminate|]. destruct (e =? 117).
    + destruct r1 as [|a [|b [|c' [|d r2]]]]; try discriminate. destruct (hex4 a b c' d) as [u|]; [|discriminate].
      assert (K : put u (scan_str r2) = Some (t, r) -> (List.length r < List.length (c :: e :: a :: b :: c' :: d :: r2))%nat) by (apply G; cbn; lia).
      destruct r2 as [|x [|y [|a2 [|b2 [|c2 [|d2 r3]]]]]]; try (exact (K H)).
      destruct (if is_high u && (x =? 92) && (y =? 117) then hex4 a2 b2 c2 d2 else None) as [u2|]; [|exact (K H)].
      destruct (is_low u2); [|exact (K H)]. revert H. apply G. cbn. lia.
    + destruct (simple_escape e) as [x|]; [|discriminate]. revert H. apply G. cbn. lia.
  - destruct (c <? 32); [discriminate|]. revert H. apply G. lia.
Qed.
Lemma strip_len : forall k s r, strip k s = Some r -> (List.length s = List.length k + List.length r)%nat.
Proof. induction k as [|a k IH]; intros s r H; cbn in H; [injection H as <-; reflexivity|]. destruct s as [|c s]; [discriminate|]. destruct (c =? a); [|discriminate]. cbn. now rewrite (IH _ _ H). Qed.
Lemma scan_number_len : forall s v r, scan_number s = Some (v, r) -> (List.length r < List.length s)%nat.
Proof.
  intros s v r H. unfold scan_number in H.
  assert (L1 : (List.length (snd (sign_part s)) <= List.length s)%nat) by (unfold sign_part; destruct s as [|c s]; [reflexivity|]; destruct (c =? 45); cbn; lia).
  destruct (sign_part s) as [sg s1]. cbn in L1. destruct (int_part s1) as [[ip s2]|] eqn:E; [|discriminate].
  assert (L2 : (List.length s2 < List.length s1)%nat).
  { unfold int_part in E. destruct s1 as [|c s1]; [discriminate|]. destruct (c =? 48); [injection E as _ <-; cbn; lia|].
    destruct (is_dig c) eqn:D; [|discriminate]. injection E as E. cbn in E. rewrite D in E. assert (X := take_digits_len s1). destruct (take_digits s1). injection E as _ <-. cbn in *. lia. }
  destruct (frac_part s2) as [f s3] eqn:F. assert (L3 : (List.length s3 <= List.length s2)%nat).
  { unfold frac_part in F. destruct s2 as [|c s2]; [injection F as _ <-; lia|]. destruct (c =? 46); [|injection F as _ <-; lia].
    assert (X := take_digits_len s2). destruct (take_digits s2) as [[|d ds] r']; injection F as _ <-; cbn in *; lia. }
  destruct (exp_part s3) as [x s4] eqn:X. assert (L4 : (List.length s4 <= List.length s3)%nat).
  { unfold exp_part in X. destruct s3 as [|c s3]; [injection X as _ <-; lia|]. destruct ((c =? 101) || (c =? 69)); [|injection X as _ <-; lia].
    assert (Y : (List.length (snd (exp_sign s3)) <= List.length s3)%nat) by (unfold exp_sign; destruct s3 as [|y s3]; [reflexivity|]; destruct ((y =? 43) || (y =? 45)); cbn; lia).
    destruct (exp_sign s3) as [sg' r1]. cbn in Y. assert (Z := take_digits_len r1). destruct (take_digits r1) as [[|d ds] r']; injection X as _ <-; cbn in *; lia. }
  destruct f, x; injection H as _ <-; lia.
Qed.

Lemma value_len : forall n,
  (forall s v r, value n s = Ok (v, r) -> (List.length r < List.length s)%nat) /\
  (forall acc s v r, elements n acc s = Ok (v, r) -> (List.length r < List.length s)%nat) /\
  (forall acc s v r, members n acc s = Ok (v, r) -> (List.length r < List.length s)%nat).
Proof.
  induction n as [|n (IV & IE & IM)]; [repeat split; intros; discriminate|].
  assert (KW : forall k v0 s v r, keyword k v0 s = Ok (v, r) -> (List.length r <= List.length s)%nat).
  { intros k v0 s v r H. unfold keyword in H. destruct (strip (codes k) s) eqn:E; [|discriminate]. injection H as _ <-. apply strip_len in E. lia. }
  repeat split.
  - intros s v r H. cbn [value] in H. destruct s as [|c s]; [discriminate|]. cbn [List.length].
    destruct (c =? 34). { destruct (scan_str s) as [[t r']|] eqn:E; [|discriminate]. injection H as _ <-. apply (@scan_str_len (List.length s)) in E; lia. }
    destruct (c =? 91).
    { assert (L := skip_ws_len s). destruct (skip_ws s) as [|x r']; [discriminate|]. destruct (x =? 93); [injection H as _ <-; cbn in L; lia|]. apply IE in H. lia. }
    destruct (c =? 123).
    { assert (L := skip_ws_len s). destruct (skip_ws s) as [|x r']; [discriminate|]. destruct (x =? 125); [injection H as _ <-; cbn in L; lia|]. apply IM in H. lia. }
    repeat (match type of H with (if ?b then keyword _ _ _ else _) = _ => destruct b; [apply KW in H; lia|] end).
    destruct (if c =? 45 then strip (codes "Infinity") s else None) as [r'|] eqn:E.
    { destruct (c =? 45); [|discriminate]. injection H as _ <-. apply strip_len in E. lia. }
    destruct (scan_number (c :: s)) as [[v' r']|] eqn:F; [|discriminate]. injection H as _ <-. apply scan_number_len in F. exact F.
  - intros acc s v r H. cbn [elements] in H. apply bind_ok in H as ([v1 r1] & E & H). apply IV in E. cbn [fst snd] in H.
    assert (L := skip_ws_len r1). destruct (skip_ws r1) as [|x r2]; [discriminate|]. cbn in L. destruct (x =? 93); [injection H as _ <-; lia|].
    destruct (x =? 44); [|discriminate]. apply IE in H. assert (L2 := skip_ws_len r2). lia.
  - intros acc s v r H. cbn [members] in H. destruct s as [|q s]; [discriminate|]. destruct (q =? 34); [|discriminate].
    destruct (scan_str s) as [[k r1]|] eqn:E; [|discriminate]. apply (@scan_str_len (List.length s)) in E; [|lia].
    assert (L := skip_ws_len r1). destruct (skip_ws r1) as [|x r2]; [discriminate|]. cbn in L. destruct (x =? 58); [|discriminate].
    apply bind_ok in H as ([v1 r3] & E2 & H). apply IV in E2. cbn [fst snd] in H. assert (L2 := skip_ws_len r2). assert (L3 := skip_ws_len r3).
    destruct (skip_ws r3) as [|y r4]; [discriminate|]. cbn in *. destruct (y =? 125); [injection H as _ <-; lia|].
    destruct (y =? 44); [|discriminate]. apply IM in H. assert (L4 := skip_ws_len r4). lia.
Qed.

(** ** There is always enough fuel, and all errors are JSONDecodeError *)
Lemma value_enough : forall n,
  (forall s e, (2 * List.length s + 1 <= n)%nat -> value n s = Err e -> e = EJSONDecodeError) /\
  (forall acc s e, (2 * List.length s + 2 <= n)%nat -> elements n acc s = Err e -> e = EJSONDecodeError) /\
  (forall acc s e, (2 * List.length s + 2 <= n)%nat -> members n acc s = Err e -> e = EJSONDecodeError).
Proof.
  induction n as [|n (IV & IE & IM)]; [repeat split; intros; lia|].
  assert (KW : forall k v0 s e, keyword k v0 s = Err e -> e = EJSONDecodeError).
  { intros k v0 s e H. unfold keyword in H. destruct (strip (codes k) s); [discriminate|]. injection H as <-. reflexivity. }
  repeat split.
  - intros s e Hn H. cbn [value] in H. destruct s as [|c s]; [injection H as <-; reflexivity|]. cbn [List.length] in Hn.
    destruct (c =? 34). { destruct (scan_str s) as [[t r']|]; [discriminate|]. injection H as <-; reflexivity. }
    destruct (c =? 91).
    { assert (L := skip_ws_len s). destruct (skip_ws s) as [|x r']; [injection H as <-; reflexivity|]. destruct (x =? 93); [discriminate|]. apply IE in H; [exact H|lia]. }
    destruct (c =? 123).
    { assert (L := skip_ws_len s). destruct (skip_ws s) as [|x r']; [injection H as <-; reflexivity|]. destruct (x =? 125); [discriminate|]. apply IM in H; [exact H|lia]. }
    repeat (match type of H with (if ?b then keyword _ _ _ else _) = _ => destruct b; [exact (KW _ _ _ _ H)|] end).
    destruct (if c =? 45 then strip (codes "Infinity") s else None); [discriminate|]. destruct (scan_number (c :: s)); [discriminate|]. injection H as <-. reflexivity.
  - intros acc s e Hn H. cbn [elements] in H. destruct (value n s) as [[v1 r1]|e1] eqn:E; cbn [bind fst snd] in H.
    + apply (value_len n) in E. assert (L := skip_ws_len r1). destruct (skip_ws r1) as [|x r2]; [injection H as <-; reflexivity|]. cbn in L.
      destruct (x =? 93); [discriminate|]. destruct (x =? 44); [|injection H as <-; reflexivity]. apply IE in H; [exact H|]. assert (L2 := skip_ws_len r2). lia.
    + injection H as <-. apply IV in E; [exact E|lia].
  - intros acc s e Hn H. cbn [members] in H. destruct s as [|q s]; [injection H as <-; reflexivity|]. destruct (q =? 34); [|injection H as <-; reflexivity].
    destruct (scan_str s) as [[k r1]|] eqn:Es; [|injection H as <-; reflexivity]. apply (@scan_str_len (List.length s)) in Es; [|lia]. cbn [List.length] in Hn.
    assert (L := skip_ws_len r1). destruct (skip_ws r1) as [|x r2]; [injection H as <-; reflexivity|]. cbn in L. destruct (x =? 58); [|injection H as <-; reflexivity].
    assert (L2 := skip_ws_len r2). destruct (value n (skip_ws r2)) as [[v1 r3]|e1] eqn:E; cbn [bind fst snd] in H.
    + apply (value_len n) in E. assert (L3 := skip_ws_len r3). destruct (skip_ws r3) as [|y r4]; [injection H as <-; reflexivity|]. cbn in L3.
      destruct (y =? 125); [discriminate|]. destruct (y =? 44); [|injection H as <-; reflexivity]. apply IM in H; [exact H|]. assert (L4 := skip_ws_len r4). lia.
    + injection H as <-. apply IV in E; [exact E|lia].
Qed.
Theorem loads_err : forall s e, loads s = Err e -> e = EJSONDecodeError.
Proof.
  intros s e H. unfold loads in H. destruct (value (2 * List.length s + 2) (skip_ws s)) as [[v r]|e1] eqn:E; cbn [bind fst snd] in H.
  - destruct (skip_ws r); [discriminate|]. injection H as <-. reflexivity.
  - injection H as <-. apply value_enough in E; [exact E|]. assert (L := skip_ws_len s). lia.
Qed.
(** One run of the parser, with any fuel, decides. *)
Lemma loads_value : forall n s v r, value n (skip_ws s) = Ok (v, r) -> loads s = match skip_ws r with [] => Ok v | _ => Err EJSONDecodeError end.
Proof.
  intros n s v r H. unfold loads. assert (E : value (2 * List.length s + 2) (skip_ws s) = Ok (v, r)).
  { destruct (value (2 * List.length s + 2) (skip_ws s)) as [p|e] eqn:E.
    - apply (@value_ge _ (n + (2 * List.length s + 2))) in H; [|lia|discriminate]. apply (@value_ge _ (n + (2 * List.length s + 2))) in E; [|lia|discriminate]. congruence.
    - assert (L := skip_ws_len s). assert (X : e = EJSONDecodeError) by (apply (proj1 (value_enough _) _ _) with (2 := E); lia). subst e.
      apply (@value_ge _ (n + (2 * List.length s + 2))) in H; [|lia|discriminate]. apply (@value_ge _ (n + (2 * List.length s + 2))) in E; [|lia|discriminate]. congruence. }
  rewrite E. reflexivity.
Qed.
