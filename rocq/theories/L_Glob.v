(** The compiled patterns accept exactly the names the specification says. *)
From Verif Require Import Base PyStr M_Glob S_Glob L_Base.
Set Implicit Arguments.
Unset Strict Implicit.
Local Open Scope char_scope.
Local Open Scope list_scope.

Lemma until_bracket_some : forall l a b, until_bracket l = Some (a, b) <-> l = a ++ "]" :: b /\ ~ In "]" a.
Proof.
  induction l as [|c l IH]; intros a b; simpl.
  - split; [discriminate|intros [H _]; destruct a; discriminate].
  - destruct (Ascii.eqb_spec c "]") as [->|Hne].
    + split; [intros H; injection H as <- <-; split; [reflexivity|intros []]|].
      intros [H Hn]. destruct a as [|x a]; simpl in H; [now injection H as <-|].
      injection H as <- _. exfalso. apply Hn. now left.
    + destruct (until_bracket l) as [[a' b']|] eqn:E.
      * destruct (IH a' b') as [I1 _]. specialize (I1 eq_refl) as [-> Hn']. split.
        -- intros H; injection H as <- <-. split; [reflexivity|]. intros [H|H]; congruence.
        -- intros [H Hn]. destruct a as [|x a]; simpl in H; [congruence|]. injection H as <- H.
           assert (Some (a', b') = Some (a, b)) as X.
           { apply (proj2 (IH a b)). split; [assumption|]. intros Hin; apply Hn; now right. }
           injection X as -> ->. reflexivity.
      * split; [discriminate|]. intros [H Hn]. destruct a as [|x a]; simpl in H; [congruence|]. injection H as <- H.
        assert (None = Some (a, b)) as X; [|discriminate].
        apply (proj2 (IH a b)). split; [assumption|]. intros Hin; apply Hn; now right.
Qed.

Lemma class_body_some : forall l a b, class_body l = Some (a, b) <->
  l = a ++ "]" :: b /\ a <> [] /\ ~ In "]" (tl a).
Proof.
  intros [|c l] a b; simpl.
  - split; [discriminate|intros [H _]; destruct a; discriminate].
  - destruct (Ascii.eqb_spec c "]") as [->|Hne].
    + destruct (until_bracket l) as [[a' b']|] eqn:E; split.
      * intros H; injection H as <- <-. apply until_bracket_some in E as [-> Hn]. simpl. split; [reflexivity|]. split; [discriminate|assumption].
      * intros (H & Ha & Hn). destruct a as [|x a]; [congruence|]. simpl in *. injection H as <- H.
        assert (X : until_bracket l = Some (a, b)) by (apply until_bracket_some; auto). congruence.
      * discriminate.
      * intros (H & Ha & Hn). destruct a as [|x a]; [congruence|]. simpl in *. injection H as <- H.
        assert (X : until_bracket l = Some (a, b)) by (apply until_bracket_some; auto). congruence.
    + destruct (until_bracket l) as [[a' b']|] eqn:E; split.
      * intros H; injection H as <- <-. apply until_bracket_some in E as [-> Hn]. simpl. split; [reflexivity|]. split; [discriminate|assumption].
      * intros (H & Ha & Hn). destruct a as [|x a]; [congruence|]. simpl in *. injection H as <- H.
        assert (X : until_bracket l = Some (a, b)) by (apply until_bracket_some; auto). congruence.
      * discriminate.
      * intros (H & Ha & Hn). destruct a as [|x a]; [congruence|]. simpl in *. injection H as <- H.
        assert (X : until_bracket l = Some (a, b)) by (apply until_bracket_some; auto). congruence.
Qed.

Lemma class_split_some : forall l neg body rest,
  class_split l = Some (neg, body, rest) <-> bracket l neg body rest.
Proof.
  intros [|c l] neg body rest; unfold bracket.
  - simpl. split; [discriminate|]. intros (H & Hb & _). destruct neg, body; discriminate.
  - unfold class_split. destruct (Ascii.eqb_spec c "!") as [->|Hne].
    + destruct (class_body l) as [[a b]|] eqn:E; split.
      * intros H; injection H as <- <- <-. apply class_body_some in E as (-> & Ha & Hn). simpl.
        split; [reflexivity|]. split; [assumption|]. split; [assumption|discriminate].
      * intros (H & Hb & Hn & Hh). destruct neg; simpl in H.
        -- injection H as H. assert (X : class_body l = Some (body, rest)) by (apply class_body_some; auto). congruence.
        -- exfalso. destruct body as [|x body]; [congruence|]. simpl in H. injection H as <- _. now apply Hh.
      * discriminate.
      * intros (H & Hb & Hn & Hh). destruct neg; simpl in H.
        -- injection H as H. assert (X : class_body l = Some (body, rest)) by (apply class_body_some; auto). congruence.
        -- exfalso. destruct body as [|x body]; [congruence|]. simpl in H. injection H as <- _. now apply Hh.
    + destruct (class_body (c :: l)) as [[a b]|] eqn:E; split.
      * intros H; injection H as <- <- <-. apply class_body_some in E as (H & Ha & Hn). rewrite H. simpl.
        split; [reflexivity|]. split; [assumption|]. split; [assumption|].
        intros _. destruct a as [|x a]; [congruence|]. simpl in *. injection H as <- _. congruence.
      * intros (H & Hb & Hn & Hh). destruct neg; simpl in H; [congruence|].
        assert (X : class_body (c :: l) = Some (body, rest)) by (apply class_body_some; auto). congruence.
      * discriminate.
      * intros (H & Hb & Hn & Hh). destruct neg; simpl in H; [congruence|].
        assert (X : class_body (c :: l) = Some (body, rest)) by (apply class_body_some; auto). congruence.
Qed.

Lemma class_items_spec : forall n body items c, (List.length body <= n)%nat -> class_items body = Ok items ->
  (existsb (M_Glob.in_range c) items = true <-> in_set c body).
Proof.
  induction n as [|n IH]; intros body items c Hn H.
  - destruct body; [|simpl in Hn; lia]. injection H as <-. simpl. split; [discriminate|intros X; inversion X].
  - destruct body as [|x body]; [injection H as <-; simpl; split; [discriminate|intros X; inversion X]|].
    simpl in Hn.
    assert (Hsingle : forall items', ~ starts_range body -> class_items body = Ok items' ->
       (existsb (M_Glob.in_range c) ((x, x) :: items') = true <-> in_set c (x :: body))).
    { intros items' Hns Hi. simpl. rewrite orb_true_iff. rewrite (IH body items' c ltac:(lia) Hi).
      unfold M_Glob.in_range. simpl. rewrite andb_true_iff, !Nat.leb_le. split.
      - intros [[H1 H2]|H1]; [|now apply set_char_next].
        assert (x = c) as ->; [|now apply set_char].
        rewrite <- (ascii_nat_embedding x), <- (ascii_nat_embedding c). f_equal. lia.
      - intros X. inversion X; subst; auto; try (exfalso; apply Hns; unfold starts_range; eauto; fail). }
    destruct body as [|d [|e r]].
    + simpl in H. injection H as <-. apply Hsingle; [intros (? & ? & ?); discriminate|reflexivity].
    + simpl in H. injection H as <-. apply Hsingle; [intros (? & ? & ?); discriminate|reflexivity].
    + simpl in H. destruct (Ascii.eqb_spec d "-") as [->|Hne].
      * destruct (Nat.leb_spec (nat_of_ascii x) (nat_of_ascii e)) as [Hle|Hlt]; [|discriminate].
        apply bind_ok in H as (q & Hq & H). injection H as <-. simpl. rewrite orb_true_iff.
        rewrite (IH r q c ltac:(simpl in Hn; lia) Hq). unfold M_Glob.in_range; simpl. rewrite andb_true_iff, !Nat.leb_le. split.
        -- intros [[H1 H2]|H1]; [now apply set_range|now apply set_range_next].
        -- intros X. inversion X; subst; auto; exfalso; match goal with H : ~ starts_range _ |- _ => apply H; unfold starts_range; eauto end.
      * apply bind_ok in H as (q & Hq & H). injection H as <-. apply Hsingle; [|exact Hq].
        intros (? & ? & X). injection X as -> _. congruence.
Qed.

Lemma gmatch_star : forall ts s, gmatch (GStar :: ts) s = true <-> exists s1 s2, s = s1 ++ s2 /\ gmatch ts s2 = true.
Proof.
  intros ts s. induction s as [|c s IH].
  - simpl. rewrite orb_false_r. split.
    + intros H. exists [], []. auto.
    + intros (s1 & s2 & H & Hm). destruct s1, s2; try discriminate. exact Hm.
  - change (gmatch (GStar :: ts) (c :: s)) with (gmatch ts (c :: s) || gmatch (GStar :: ts) s)%bool.
    rewrite orb_true_iff, IH. split.
    + intros [H|(s1 & s2 & -> & Hm)]; [exists [], (c :: s); auto|exists (c :: s1), s2; auto].
    + intros (s1 & s2 & H & Hm). destruct s1 as [|x s1]; simpl in H; [subst s2; auto|].
      injection H as <- ->. right. eauto.
Qed.

Lemma glob_parse_spec : forall fuel l ts s, (List.length l < fuel)%nat -> glob_parse fuel l = Ok ts ->
  (gmatch ts s = true <-> matches l s).
Proof.
  induction fuel as [|fuel IH]; intros l ts s Hf H; [lia|].
  destruct l as [|c r]; simpl in H.
  - injection H as <-. simpl. destruct s; split; try discriminate; try constructor. intros X; inversion X.
  - simpl in Hf. destruct (Ascii.eqb_spec c "*") as [->|Hs].
    { apply bind_ok in H as (q & Hq & H). injection H as <-. rewrite gmatch_star. split.
      - intros (s1 & s2 & -> & Hm). apply m_star. apply (IH r q s2 ltac:(lia) Hq). exact Hm.
      - intros X. inversion X; subst; [|congruence]. eexists; eexists; split; [reflexivity|].
        apply (IH r q _ ltac:(lia) Hq). assumption. }
    destruct (Ascii.eqb_spec c "?") as [->|Hq].
    { apply bind_ok in H as (q & Hq & H). injection H as <-. simpl. destruct s as [|x s].
      - split; [discriminate|]. intros X; inversion X.
      - rewrite (IH r q s ltac:(lia) Hq). split; [apply m_any|]. intros X; inversion X; subst; [assumption|congruence]. }
    assert (Hlit : forall q, (c = "[" -> class_split r = None) -> glob_parse fuel r = Ok q ->
       (gmatch (GChar c :: q) s = true <-> matches (c :: r) s)).
    { intros q Hb Hp. simpl. destruct s as [|x s].
      - split; [discriminate|]. intros X; inversion X; subst; congruence.
      - rewrite andb_true_iff, (IH r q s ltac:(lia) Hp). split.
        + intros [E Hm]. apply Ascii.eqb_eq in E. subst x. apply m_char; try assumption.
          intros -> neg body rest Hbr. apply class_split_some in Hbr. rewrite (Hb eq_refl) in Hbr. discriminate.
        + intros X. inversion X; subst; try congruence.
          * exfalso. match goal with H : bracket _ _ _ _ |- _ => apply class_split_some in H; rewrite (Hb eq_refl) in H; discriminate end.
          * split; [apply Ascii.eqb_refl|assumption]. }
    destruct (Ascii.eqb_spec c "[") as [->|Hb].
    + destruct (class_split r) as [[[neg body] rest]|] eqn:E.
      * apply bind_ok in H as (items & Hi & H). apply bind_ok in H as (q & Hp & H). injection H as <-.
        assert (Hbr : bracket r neg body rest) by now apply class_split_some.
        assert (Hlen : (List.length rest < fuel)%nat).
        { destruct Hbr as (-> & _). rewrite !app_length in Hf. simpl in Hf. lia. }
        simpl. destruct s as [|x s]; [split; [discriminate|intros X; inversion X]|].
        rewrite andb_true_iff, (IH rest q s Hlen Hp).
        pose proof (@class_items_spec (List.length body) body items x (le_n _) Hi) as Hset. split.
        -- intros [Hx Hm]. eapply m_set; [exact Hbr| |exact Hm].
           destruct neg; simpl in Hx.
           ++ intros Hin. apply Hset in Hin. rewrite Hin in Hx. discriminate.
           ++ apply Hset. now destruct (existsb _ items).
        -- intros X. inversion X as [| | |? neg' body' rest' ? ? Hbr' Hin Hm|? ? ? _ _ Hno _]; subst.
           ++ apply class_split_some in Hbr'. rewrite E in Hbr'. injection Hbr' as <- <- <-. split; [|assumption].
              destruct neg; simpl.
              ** destruct (existsb _ items); [|reflexivity]. exfalso. apply Hin. now apply Hset.
              ** apply Hset in Hin. now rewrite Hin.
           ++ exfalso. exact (Hno eq_refl _ _ _ Hbr).
      * apply bind_ok in H as (q & Hp & H). injection H as <-. apply Hlit; auto.
    + apply bind_ok in H as (q & Hp & H). injection H as <-. apply Hlit; [congruence|assumption].
Qed.

Theorem glob_compile_spec : forall p ts s, glob_compile p = Ok ts -> (glob_match ts s = true <-> glob p s).
Proof. intros p ts s H. unfold glob_match, glob. exact (@glob_parse_spec _ (chars p) ts (chars s) (Nat.lt_succ_diag_r _) H). Qed.

(** Compilation only fails for a set with a reversed range. *)
Lemma class_items_ok : forall n body, (List.length body <= n)%nat ->
  ((exists items, class_items body = Ok items) <-> good_set body).
Proof.
  induction n as [|n IH]; intros body Hn.
  - destruct body; [|simpl in Hn; lia]. split; [constructor|eexists; reflexivity].
  - destruct body as [|x body]; [split; [constructor|eexists; reflexivity]|]. simpl in Hn.
    assert (Hs : ~ starts_range body -> (exists items, (let* q := class_items body in Ok ((x, x) :: q)) = Ok items) <-> good_set (x :: body)).
    { intros Hns. split.
      - intros (items & H). apply bind_ok in H as (q & Hq & _). apply gs_char; [assumption|]. apply IH; [lia|eauto].
      - intros H. inversion H as [|? ? ? Hle Hr|? ? Hr Hg]; subst; [exfalso; apply Hns; unfold starts_range; eauto|].
        apply IH in Hg as [q Hq]; [|lia]. rewrite Hq. eexists; reflexivity. }
    destruct body as [|d [|e r]].
    + apply Hs. intros (? & ? & ?); discriminate.
    + apply Hs. intros (? & ? & ?); discriminate.
    + destruct (Ascii.eqb_spec d "-") as [->|Hne].
      * simpl. destruct (Nat.leb_spec (nat_of_ascii x) (nat_of_ascii e)) as [Hle|Hlt]; split.
        -- intros (items & H). apply bind_ok in H as (q & Hq & _). apply gs_range; [assumption|]. apply IH; [simpl in Hn; lia|eauto].
        -- intros H. inversion H as [|? ? ? _ Hr|? ? Hr Hg]; subst; [|exfalso; apply Hr; unfold starts_range; eauto].
           apply IH in Hr as [q Hq]; [|simpl in Hn; lia]. rewrite Hq. eexists; reflexivity.
        -- intros (items & H). discriminate.
        -- intros H. inversion H; subst; [lia|]. exfalso. match goal with H : ~ starts_range _ |- _ => apply H; unfold starts_range; eauto end.
      * assert (Hns : ~ starts_range (d :: e :: r)) by (intros (? & ? & X); injection X as -> _; congruence).
        specialize (Hs Hns). simpl. destruct (Ascii.eqb_spec d "-"); [congruence|]. exact Hs.
Qed.
Theorem glob_compile_iff : forall p, (exists ts, glob_compile p = Ok ts) <-> valid_pattern p.
Proof.
  assert (G : forall n l, (List.length l < n)%nat -> (exists ts, glob_parse n l = Ok ts) <-> accepted l);
    [|intros p; exact (G _ (chars p) (Nat.lt_succ_diag_r _))].
  induction n as [|fuel IH]; intros l Hf; [lia|]. destruct l as [|c r]; [split; [constructor|simpl; eauto]|]. simpl in Hf.
  assert (Hlit : forall tok, (c = "[" -> class_split r = None) ->
     (exists ts, (let* q := glob_parse fuel r in Ok (tok :: q)) = Ok ts) <-> accepted (c :: r)).
  { intros tok Hb. split.
    - intros (ts & H). apply bind_ok in H as (q & Hq & _). apply a_char; [|apply IH; [lia|eauto]].
      intros Hc neg body rest Hbr. apply class_split_some in Hbr. rewrite (Hb Hc) in Hbr. discriminate.
    - intros H. inversion H as [|? neg body rest Hbr _ _|? ? _ Hr]; subst.
      + apply class_split_some in Hbr. rewrite (Hb eq_refl) in Hbr. discriminate.
      + apply IH in Hr as [q Hq]; [|lia]. rewrite Hq. eexists; reflexivity. }
  simpl. destruct (Ascii.eqb_spec c "*") as [Hc|Hs]; [apply Hlit; intros; congruence|].
  destruct (Ascii.eqb_spec c "?") as [Hc|Hq]; [apply Hlit; intros; congruence|].
  destruct (Ascii.eqb_spec c "[") as [Hc|Hb]; [|apply Hlit; intros; congruence].
  destruct (class_split r) as [[[neg body] rest]|] eqn:E; [|apply Hlit; intros; reflexivity].
  assert (Hbr : bracket r neg body rest) by now apply class_split_some.
  assert (Hlen : (List.length rest < fuel)%nat).
  { destruct Hbr as (-> & _). rewrite !app_length in Hf. simpl in Hf. lia. }
  subst c. split.
  - intros (ts & H). apply bind_ok in H as (items & Hi & H). apply bind_ok in H as (q & Hp & _).
    apply (a_set _ _ _ _ Hbr); [apply (class_items_ok (le_n _)); eauto|apply IH; eauto].
  - intros H. inversion H as [|? neg' body' rest' Hbr' Hg Hr|? ? Hno _]; subst; [|exfalso; exact (Hno eq_refl _ _ _ Hbr)].
    apply class_split_some in Hbr'. rewrite E in Hbr'. injection Hbr' as <- <- <-.
    apply (class_items_ok (le_n _)) in Hg as [items Hi]. apply IH in Hr as [q Hp]; [|assumption]. rewrite Hi. simpl. rewrite Hp. eexists; reflexivity.
Qed.

Lemma ends_with_iff : forall suf s, ends_with suf s = true <-> ends suf s.
Proof.
  intros suf s. unfold ends. induction s as [|c s IH]; simpl; rewrite orb_true_iff, String.eqb_eq.
  - split.
    + intros [->|H]; [exists ""%string; reflexivity|discriminate].
    + intros [[|c p] H]; simpl in H; [left; now symmetry|discriminate].
  - rewrite IH. split.
    + intros [->|[p ->]]; [exists ""%string; reflexivity|exists (String c p); reflexivity].
    + intros [[|c' p] H]; simpl in H; [left; now symmetry|]. injection H as <- ->. right. eauto.
Qed.
Lemma strip_suffix_some : forall suf s p, strip_suffix suf s = Some p <-> s = (p ++ suf)%string.
Proof.
  intros suf. assert (Hlen : forall a b : string, String.length (a ++ b) = (String.length a + String.length b)%nat)
    by (induction a; simpl; congruence).
  assert (Hself : forall c p, suf <> (String c p ++ suf)%string).
  { intros c p H. apply (f_equal String.length) in H. rewrite Hlen in H. simpl in H. lia. }
  induction s as [|c s IH]; intros p; simpl.
  - destruct (String.eqb_spec suf "") as [->|Hne]; split.
    + intros H; injection H as <-. reflexivity.
    + destruct p; simpl; [reflexivity|discriminate].
    + discriminate.
    + destruct p; simpl; [congruence|discriminate].
  - destruct (String.eqb_spec suf (String c s)) as [->|Hne]; split.
    + intros H; injection H as <-. reflexivity.
    + intros H. destruct p as [|c' p]; [reflexivity|]. exfalso. exact (Hself c' p H).
    + destruct (strip_suffix suf s) as [q|] eqn:E; [|discriminate]. intros H; injection H as <-.
      simpl. f_equal. now apply IH.
    + intros H. destruct p as [|c' p]; simpl in H; [congruence|]. injection H as <- H. apply IH in H. now rewrite H.
Qed.
Theorem ctrl_key_match_spec : forall p ts s, glob_compile p = Ok ts ->
  (ctrl_key_match p ts s = true <-> key_glob true p s).
Proof.
  intros p ts s H. unfold ctrl_key_match, key_glob.
  pose proof (ends_with_iff ".value" p) as E1. pose proof (ends_with_iff "*" p) as E2.
  destruct (ends_with ".value" p) eqn:X1.
  { simpl. rewrite (glob_compile_spec s H). split; [auto|]. intros [Hg|(_ & Hn & _)]; [assumption|]. exfalso. apply Hn. now apply E1. }
  destruct (ends_with "*" p) eqn:X2.
  { simpl. rewrite (glob_compile_spec s H). split; [auto|]. intros [Hg|(_ & _ & Hn & _)]; [assumption|]. exfalso. apply Hn. now apply E2. }
  simpl. rewrite orb_true_iff, (glob_compile_spec s H). apply or_iff_compat_l. split.
  - destruct (strip_suffix ".value" s) as [k|] eqn:E; [|discriminate]. intros Hk. split; [reflexivity|].
    split; [intros X; apply E1 in X; discriminate|]. split; [intros X; apply E2 in X; discriminate|].
    exists k. split; [now apply strip_suffix_some|]. now apply (glob_compile_spec k H).
  - intros (_ & _ & _ & k & -> & Hk). rewrite (proj2 (strip_suffix_some ".value" _ k) eq_refl).
    now apply (glob_compile_spec k H).
Qed.
Theorem key_match_spec : forall (b : bool) p ts s, glob_compile p = Ok ts ->
  ((if b then ctrl_key_match p ts else glob_match ts) s = true <-> key_glob b p s).
Proof.
  intros [|] p ts s H; [now apply ctrl_key_match_spec|]. rewrite (glob_compile_spec s H). unfold key_glob.
  split; [auto|]. intros [Hg|[Hf _]]; [assumption|discriminate].
Qed.
