(** Lemmas on the text printed by lsxfel: reading it back. *)
From Verif Require Import Base PyStr M_Files M_Reader M_Cxi M_OpenRun M_Repr M_Crystfel M_Info M_InfoText M_Lsxfel M_LsText
  M_Stacking S_Open S_Stacking S_OpenRun S_Repr S_Info S_InfoText S_Lsxfel S_LsText L_Crystfel L_Repr L_Frame L_Lsxfel P_InfoText L_LsText.
Set Implicit Arguments.
Unset Strict Implicit.
Local Open Scope string_scope.
Local Open Scope list_scope.
Local Opaque int_repr str_of_int timedelta_str right_aligned.

Lemma colon_note : forall n, exists t, note_str n = String ":" t /\ ~ has_char ":" t.
Proof. intros []; (eexists; split; [reflexivity|lit]). Qed.
Lemma note_inj : forall n m, note_str n = note_str m -> n = m.
Proof. intros [] [] E; try reflexivity; discriminate E. Qed.
Lemma no_colon_app : forall a b, ~ has_char ":" a -> ~ has_char ":" b -> ~ has_char ":" (a ++ b)%string.
Proof. intros a b A B H. apply has_char_app in H as [H|H]; auto. Qed.

Lemma run_tail : forall n d k, ~ has_char ":" (" Run of " ++ right_aligned 4 n ++ " trains, with " ++ right_aligned 3 d ++ " detector files and " ++ right_aligned 3 k ++ " others")%string.
Proof.
  intros n d k. repeat (apply no_colon_app; [first [lit|apply no_colon_aligned]|]). lit.
Qed.

Lemma one_item : forall l l' r r', named l -> named l' -> plain_line l -> plain_line l' ->
  (forall i j, l = LInfo i -> l' = LInfo j -> text_lines i = text_lines j -> same_shown i j) ->
  lines_of l ++ r = lines_of l' ++ r' -> same_line l l' /\ r = r'.
Proof.
  intros l l' r r' H H' P P' I E.
  assert (K : kind_of_line l = kind_of_line l').
  { destruct (first_kind H) as (a & t & A & <-). destruct (first_kind H') as (b & u & B & <-). rewrite A, B in E. injection E as -> _. reflexivity. }
  destruct l as [n d|n|a b|p t|s|s|n p t|ind n a b c|i|n nt|n], l' as [n' d'|n'|a' b'|p' t'|s'|s'|n' p' t'|ind' n' a' b' c'|i'|n' nt'|n'];
    try discriminate K; try (destruct nt; discriminate K); try (destruct nt'; discriminate K); cbn [lines_of app] in E; cbn [same_line].
  - (* LName *) injection E as E E2. split; [|exact E2].
    assert (A : ~ has_char ":" (n ++ " ")%string) by (apply no_colon_app; [intros X; destruct (P _ X) as [_ Y]; now apply Y|lit]).
    assert (A' : ~ has_char ":" (n' ++ " ")%string) by (apply no_colon_app; [intros X; destruct (P' _ X) as [_ Y]; now apply Y|lit]).
    change (n ++ " " ++ String ":" (" " ++ descr_str d) = n' ++ " " ++ String ":" (" " ++ descr_str d'))%string in E.
    rewrite <- !(app_assoc_s _ " ") in E. apply first_char in E as [E _]; [|assumption|assumption]. apply app_inj_tail_s in E. subst n'.
    destruct H as (i & F & ->), H' as (j & F' & ->). rewrite F in F'. injection F' as <-. reflexivity.
  - (* LName, LInfo *) exfalso. injection E as E _.
    assert (A : ~ has_char ":" (n ++ " ")%string) by (apply no_colon_app; [intros X; destruct (P _ X) as [_ Y]; now apply Y|lit]).
    change (n ++ " " ++ String ":" (" " ++ descr_str d) = "# of trains" ++ String ":" ("    " ++ nat_repr (in_trains i')))%string in E.
    rewrite <- !(app_assoc_s _ " ") in E. apply first_char in E as [E _]; [|exact A|lit]. apply (f_equal (ending 1)) in E. rewrite ending_app in E by (cbn; lia). discriminate E.
  - (* LTrains *) injection E as E E2. apply int_repr_inj in E as [E _]; [|reflexivity|reflexivity]. split; [f_equal; lia|exact E2].
  - (* LPixels *) injection E as E E2. split; [|exact E2]. apply int_repr_inj in E as [-> E]; [|reflexivity|reflexivity].
    injection E as E. apply int_repr_inj in E as [-> _]; [|reflexivity|reflexivity]. reflexivity.
  - (* LFrames *) injection E as E E2. split; [|exact E2]. apply int_repr_inj in E as [-> E]; [|reflexivity|reflexivity].
    apply (app_cancel " frames per train, ") in E. apply int_repr_inj in E as [-> _]; [|reflexivity|reflexivity]. reflexivity.
  - (* LInst *) injection E as E E2. apply int_repr_inj in E as [E _]; [|reflexivity|reflexivity]. rewrite <- !app_assoc in E2.
    apply app_same_length in E2 as [E2 E3]; [|rewrite !map_length; lia]. apply dev_lines_inj in E2. subst s'. injection E3 as E3. auto.
  - (* LInst, LCtrl *) exfalso. injection E as E E2. apply int_repr_inj in E as [_ E]; [|reflexivity|reflexivity]. discriminate E.
  - exfalso. injection E as E E2. apply int_repr_inj in E as [_ E]; [|reflexivity|reflexivity]. discriminate E.
  - (* LCtrl *) injection E as E E2. apply int_repr_inj in E as [E _]; [|reflexivity|reflexivity]. rewrite <- !app_assoc in E2.
    apply app_same_length in E2 as [E2 E3]; [|rewrite !map_length; lia]. apply dev_lines_inj in E2. subst s'. injection E3 as E3. auto.
  - (* LSumDet *) injection E as E E2. split; [|exact E2]. apply int_repr_inj in E as [E3 E]; [|reflexivity|reflexivity].
    apply (app_cancel " trains, ") in E. apply int_repr_inj in E as [-> E]; [|reflexivity|reflexivity].
    apply (app_cancel " frames/train, ") in E. apply int_repr_inj in E as [-> _]; [|reflexivity|reflexivity]. f_equal. lia.
  - (* LRun *) injection E as E E2. split; [|exact E2].
    assert (X : forall ind n a b c, (ind ++ n ++ " : Run of " ++ right_aligned 4 a ++ " trains, with " ++ right_aligned 3 b ++ " detector files and " ++ right_aligned 3 c ++ " others")%string
      = (((ind ++ n) ++ " ") ++ String ":" (" Run of " ++ right_aligned 4 a ++ " trains, with " ++ right_aligned 3 b ++ " detector files and " ++ right_aligned 3 c ++ " others"))%string)
      by (intros; rewrite !app_assoc_s; reflexivity).
    pose proof (eq_trans (eq_sym (X ind n a b c)) (eq_trans E (X ind' n' a' b' c'))) as E0. clear E. rename E0 into E. apply last_char in E as [E1 E]; [|apply run_tail|apply run_tail]. apply app_inj_tail_s in E1. split; [exact E1|].
    apply (app_cancel " Run of ") in E. apply aligned_inj in E as [-> E]; [|reflexivity|reflexivity].
    apply (app_cancel " trains, with ") in E. apply aligned_inj in E as [-> E]; [|reflexivity|reflexivity].
    apply (app_cancel " detector files and ") in E. apply aligned_inj in E as [-> E]; [|reflexivity|reflexivity]. auto.
  - (* LInfo, LName *) exfalso. injection E as E _. symmetry in E.
    assert (A : ~ has_char ":" (n' ++ " ")%string) by (apply no_colon_app; [intros X; destruct (P' _ X) as [_ Y]; now apply Y|lit]).
    change (n' ++ " " ++ String ":" (" " ++ descr_str d') = "# of trains" ++ String ":" ("    " ++ nat_repr (in_trains i)))%string in E.
    rewrite <- !(app_assoc_s _ " ") in E. apply first_char in E as [E _]; [|exact A|lit]. apply (f_equal (ending 1)) in E. rewrite ending_app in E by (cbn; lia). discriminate E.
  - (* LInfo *) apply text_prefix in E as [E E2]. split; [|exact E2]. apply I; auto.
  - (* LNote *) injection E as E E2. destruct (colon_note nt) as (t & T & N). destruct (colon_note nt') as (t' & T' & N').
    assert (Y : forall n t, (n ++ String " " t)%string = ((n ++ " ") ++ t)%string) by (intros; rewrite app_assoc_s; reflexivity).
    rewrite T, T', (Y n (String ":" t)), (Y n' (String ":" t')) in E. apply last_char in E as [E X]; [|exact N|exact N']. apply app_inj_tail_s in E. subst n' t'.
    assert (nt = nt') as <- by (apply note_inj; congruence). split; [reflexivity|]. apply app_inv_head in E2. exact E2.
  - (* LRaw *) injection E as E E2. apply app_inj_tail_s in E. subst n'. auto.
Qed.

Lemma lines_nonempty : forall l, lines_of l <> [].
Proof. intros []; discriminate. Qed.
Lemma all_items : forall o o', Forall named o -> Forall named o' -> Forall plain_line o -> Forall plain_line o' ->
  (forall i j, In (LInfo i) o -> In (LInfo j) o' -> text_lines i = text_lines j -> same_shown i j) ->
  List.concat (map lines_of o) = List.concat (map lines_of o') -> Forall2 same_line o o'.
Proof.
  induction o as [|l o IH]; intros [|l' o'] N N' P P' I E.
  - constructor.
  - exfalso. cbn in E. symmetry in E. apply app_eq_nil in E as [E _]. exact (lines_nonempty E).
  - exfalso. cbn in E. apply app_eq_nil in E as [E _]. exact (lines_nonempty E).
  - inversion N; inversion N'; inversion P; inversion P'; subst. cbn [map List.concat] in E. apply one_item in E as [E1 E2]; auto.
    + constructor; [exact E1|]. apply IH; auto. intros i j Hi Hj. apply I; now right.
    + intros i j -> ->. apply I; now left.
Qed.

(** ** The printed lines tell the values *)
Lemma char_in_iff : forall c s, char_in c s = true <-> has_char c s.
Proof.
  intros c s. induction s as [|x s IH]; cbn; [split; [discriminate|intros []]|]. rewrite Bool.orb_true_iff, IH.
  split; (intros [A|A]; [left|right; exact A]); [apply Ascii.eqb_eq in A; congruence|apply Ascii.eqb_eq; congruence].
Qed.
Lemma repr_plain : forall s, (forall c, has_char c s -> ordinary c) -> repr_body single_quote s = s.
Proof.
  induction s as [|c s IH]; intros H; [reflexivity|]. destruct (H c (or_introl eq_refl)) as (A & B & C & D). cbn [repr_body].
  rewrite IH by (intros x Hx; apply H; now right).
  destruct (Ascii.eqb_spec c single_quote) as [X|_]; [now destruct D|]. destruct (Ascii.eqb_spec c "\") as [X|_]; [now destruct C|]. cbn [orb].
  destruct (Nat.eqb_spec (nat_of_ascii c) 10); [lia|]. destruct (Nat.eqb_spec (nat_of_ascii c) 13); [lia|]. destruct (Nat.eqb_spec (nat_of_ascii c) 9); [lia|].
  destruct (Nat.ltb_spec (nat_of_ascii c) 32); [lia|]. destruct (Nat.eqb_spec (nat_of_ascii c) 127); [lia|]. reflexivity.
Qed.
Lemma quoted_repr : forall s, (forall c, has_char c s -> ordinary c) -> quoted s (str_repr s).
Proof.
  intros s H. split; [exact H|]. unfold str_repr. destruct (char_in single_quote s) eqn:X.
  - apply char_in_iff in X. destruct (H _ X) as (_ & _ & _ & Y). now destruct Y.
  - cbn [andb]. rewrite repr_plain by exact H. reflexivity.
Qed.
Lemma source_chars : forall b k r s g c, four_parts b k r s g -> has_char c s -> has_char c b.
Proof.
  intros b k r s g c (ext & -> & _) H. apply (proj2 (has_char_app _ _ _)). right. right. apply (proj2 (has_char_app c r _)). right. right.
  apply (proj2 (has_char_app c s _)). left. exact H.
Qed.
Lemma basename_chars : forall p c, has_char c (basename p) -> has_char c p.
Proof. intros p c H. destruct (basename_spec p) as (_ & [X|(d & X)]); rewrite X; [exact H|]. apply (proj2 (has_char_app c d _)). right. right. exact H. Qed.
Definition ordinaryb (c : ascii) : bool :=
  (32 <=? nat_of_ascii c)%nat && negb (nat_of_ascii c =? 127)%nat && negb (Ascii.eqb c "\") && negb (Ascii.eqb c "'").
Fixpoint all_ordinary (s : string) : bool := match s with "" => true | String c r => ordinaryb c && all_ordinary r end.
Lemma ordinary_ok : forall s, all_ordinary s = true -> forall c, has_char c s -> ordinary c.
Proof.
  induction s as [|x s IH]; intros H c Hc; [destruct Hc|]. cbn [all_ordinary] in H. apply andb_true_iff in H as [H1 H2].
  destruct Hc as [->|Hc]; [|now apply IH]. unfold ordinaryb in H1. rewrite !andb_true_iff in H1. destruct H1 as [[[A B] C] D].
  apply Nat.leb_le in A. apply negb_true_iff, Nat.eqb_neq in B. apply negb_true_iff, Ascii.eqb_neq in C. apply negb_true_iff, Ascii.eqb_neq in D.
  exact (conj A (conj B (conj C D))).
Qed.
Lemma unknown_ordinary : forall c, has_char c "Unknown data source ({})" -> ordinary c.
Proof. apply ordinary_ok. vm_compute. reflexivity. Qed.
Lemma line_tells : forall l, named l -> plain_line l -> tells l (lines_of l).
Proof.
  intros [n d|n|a b|p t|s|s|n p t|ind n a b c|i|n nt|n] H P; cbn [lines_of].
  - destruct H as (i & F & ->). destruct (filename_ok F) as (k & r & s & g & FP & _ & X).
    destruct X as [(num & _ & _ & -> & _)|[(name & num & _ & _ & _ & _ & _ & word & _ & ->)|(_ & _ & -> & _)]]; cbn [descr_str]; [constructor|constructor|].
    apply t_pair; apply quoted_repr; [exact unknown_ordinary|]. intros c Hc. apply P. exact (basename_chars (source_chars FP Hc)).
  - constructor. apply int_expr_repr.
  - apply t_pixels; apply int_expr_repr.
  - constructor; apply int_expr_repr.
  - apply t_inst; [apply int_expr_repr|]. clear. induction s; constructor; auto. reflexivity.
  - apply t_ctrl; [apply int_expr_repr|]. clear. induction s; constructor; auto. reflexivity.
  - constructor; apply int_expr_repr.
  - constructor; apply aligned_ok.
  - constructor. reflexivity.
  - destruct nt; cbn [note_blank note_str].
    + apply (@t_note n NotFound "File/folder not found"); [reflexivity|intros [X|[X|X]]; discriminate X].
    + apply (@t_note n BadFile "Unrecognised file"); [reflexivity|intros [X|[X|X]]; discriminate X].
    + apply (@t_note n BadDir "Unrecognised directory"); [reflexivity|intros [X|[X|X]]; discriminate X].
    + apply (@t_heading n ProposalData "Proposal data directory"); [reflexivity|left; reflexivity].
    + apply (@t_heading n Proposal "Proposal directory"); [reflexivity|right; left; reflexivity].
    + apply (@t_heading n RunDir "Run directory"); [reflexivity|right; right; reflexivity].
  - constructor.
Qed.
