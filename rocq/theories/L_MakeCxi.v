(** Proofs about karabo-data-make-virtual-cxi: paths and numbers. *)
From Verif Require Import Base PyStr M_Files M_Reader M_Stacking M_Components M_Cxi M_OpenRun M_MakeCxi
  S_Open S_Stacking S_OpenRun S_Glob S_Components S_MakeCxi L_Base L_Stacking L_Glob L_Open L_OpenRun L_Lsxfel.
Set Implicit Arguments.
Unset Strict Implicit.
Local Open Scope string_scope.
Local Open Scope list_scope.

(** ** Words of paths *)
Lemma words_split : forall p, words p (py_split slash p).
Proof.
  intros p. remember (py_split slash p) as ws eqn:E. symmetry in E. revert p E.
  induction ws as [|w ws IH]; intros p E; [destruct (split_nonempty E)|].
  apply split_cons in E as [N H]. destruct ws as [|w' ws].
  - destruct H as [[_ ->]|(r & _ & H)]; [split; [reflexivity|exact N]|destruct (split_nonempty H)].
  - destruct H as [[H _]|(r & -> & H)]; [discriminate|]. split; [exact N|]. exists r. split; [reflexivity|]. now apply IH.
Qed.
Lemma words_fun : forall ws p, words p ws -> py_split slash p = ws.
Proof.
  induction ws as [|w ws IH]; intros p H; [destruct H|]. destruct ws as [|w' ws].
  - destruct H as [-> H]. apply split_none'. exact H.
  - destruct H as (N & q & -> & H). rewrite <- (IH q H). apply split_app'. exact N.
Qed.
Lemma words_iff : forall p ws, words p ws <-> ws = py_split slash p.
Proof. intros p ws. split; [intros H; symmetry; now apply words_fun|intros ->; apply words_split]. Qed.
Lemma split_noslash : forall p w, In w (py_split slash p) -> ~ has_char "/" w.
Proof.
  intros p w. pose proof (words_split p) as H. revert H. generalize (py_split slash p) as ws. intros ws. revert p. induction ws as [|x ws IH]; intros p H Hin; [destruct Hin|].
  destruct ws as [|x' ws].
  - destruct H as [_ H]. destruct Hin as [<-|[]]. exact H.
  - destruct H as (N & q & _ & H). destruct Hin as [<-|Hin]; [exact N|]. exact (IH q H Hin).
Qed.

Lemma slash_is : slash = "/"%char. Proof. reflexivity. Qed.

Lemma starts_slash : forall p, starts_with "/" p = true <-> absolute p.
Proof.
  intros p. rewrite starts_with_spec. unfold absolute. split; intros [q ->]; exists q; reflexivity.
Qed.

(** ** Normal form of absolute paths *)
Lemma follow_ok : forall cs w, Forall name_ok cs -> ~ has_char "/" w -> Forall name_ok (follow cs w).
Proof.
  intros cs w H N. unfold follow. destruct (String.eqb_spec w "") as [|N1]; [exact H|]. destruct (String.eqb_spec w ".") as [|N2]; [exact H|].
  destruct (String.eqb_spec w "..") as [|N3].
  - clear -H. induction H as [|c l Hc Hl IH]; [constructor|]. destruct l as [|c' l]; [constructor|]. change (removelast (c :: c' :: l)) with (c :: removelast (c' :: l)).
    constructor; assumption.
  - apply Forall_app. split; [exact H|]. constructor; [|constructor]. repeat split; assumption.
Qed.
Lemma last_ok : forall cs, Forall name_ok cs -> cs <> [] -> name_ok (last cs "").
Proof.
  induction cs as [|c l IH]; intros H Hne; [congruence|]. inversion H; subst. destruct l as [|c' l]; [assumption|].
  change (last (c :: c' :: l) "") with (last (c' :: l) ""). apply IH; [assumption|discriminate].
Qed.
Lemma norm_step_follow : forall cs w, Forall name_ok cs -> norm_step true cs w = follow cs w.
Proof.
  intros cs w H. unfold norm_step, follow. destruct (String.eqb w ""); [reflexivity|]. destruct (String.eqb w "."); [reflexivity|].
  cbn [orb andb negb]. destruct (String.eqb w ".."); cbn [negb orb]; [|reflexivity].
  destruct cs as [|c cs]; [reflexivity|]. destruct (last_ok H ltac:(discriminate)) as (_ & _ & N & _).
  destruct (String.eqb_spec (last (c :: cs) "") ".."); [contradiction|reflexivity].
Qed.
Lemma fold_norm : forall ws cs, Forall name_ok cs -> (forall w, In w ws -> ~ has_char "/" w) ->
  fold_left (norm_step true) ws cs = fold_left follow ws cs /\ Forall name_ok (fold_left follow ws cs).
Proof.
  induction ws as [|w ws IH]; intros cs H N; [now split|]. cbn [fold_left]. rewrite norm_step_follow by assumption.
  apply IH; [apply follow_ok; [assumption|apply N; now left]|]. intros x Hx. apply N. now right.
Qed.
Lemma below_join : forall cs, cs <> [] -> ("/" ++ join_slash cs)%string = below cs.
Proof.
  induction cs as [|c cs IH]; intros H; [congruence|]. destruct cs as [|c' cs].
  - cbn. now rewrite app_nil_s.
  - change (join_slash (c :: c' :: cs)) with (c ++ "/" ++ join_slash (c' :: cs))%string. rewrite IH by discriminate. reflexivity.
Qed.
Lemma norm_abs : forall p, absolute p -> ordinary p ->
  normpath p = path_of (fold_left follow (py_split slash p) []) /\ Forall name_ok (fold_left follow (py_split slash p) []).
Proof.
  intros p A O. unfold normpath. rewrite (proj2 (starts_slash p) A).
  destruct (@fold_norm (py_split slash p) [] (Forall_nil _)) as [-> Hok]; [intros w Hw; exact (split_noslash Hw)|]. split; [|exact Hok].
  assert (I : initial_slashes p = "/").
  { unfold initial_slashes. rewrite (proj2 (starts_slash p) A). destruct (starts_with "//" p) eqn:E; cbn [andb]; [|reflexivity].
    apply starts_with_spec in E as [q E]. destruct (O q E) as [r ->]. rewrite (proj2 (starts_with_spec "///" p)); [reflexivity|]. exists r. exact E. }
  rewrite I. set (cs := fold_left follow (py_split slash p) []) in *.
  destruct cs as [|c cs]; [reflexivity|]. rewrite below_join by discriminate. reflexivity.
Qed.

Lemma split_below : forall cs, Forall name_ok cs -> forall p, py_split slash (below cs ++ String slash p)%string = "" :: cs ++ py_split slash p.
Proof.
  induction cs as [|c cs IH]; intros H p; [reflexivity|]. inversion H as [|? ? (N1 & N2 & N3 & N4) Hcs]; subst.
  cbn [below]. change (("/" ++ c ++ below cs) ++ String slash p)%string with (String slash ((c ++ below cs) ++ String slash p))%string.
  cbn [py_split]. rewrite Ascii.eqb_refl. f_equal. rewrite append_assoc_s.
  specialize (IH Hcs p). destruct cs as [|c' cs].
  - cbn [below append app] in *. rewrite split_app' by exact N4. reflexivity.
  - cbn [below] in *. change (("/" ++ c' ++ below cs) ++ String slash p)%string with (String slash ((c' ++ below cs) ++ String slash p))%string in *.
    cbn [py_split] in IH. rewrite Ascii.eqb_refl in IH. injection IH as IH. rewrite split_app' by exact N4. rewrite IH. reflexivity.
Qed.
Lemma follow_names : forall cs acc, Forall name_ok cs -> fold_left follow cs acc = acc ++ cs.
Proof.
  induction cs as [|c cs IH]; intros acc H; [now rewrite app_nil_r|]. inversion H as [|? ? (N1 & N2 & N3 & N4) Hcs]; subst. cbn [fold_left].
  unfold follow at 2. destruct (String.eqb_spec c ""); [contradiction|]. destruct (String.eqb_spec c "."); [contradiction|]. destruct (String.eqb_spec c ".."); [contradiction|].
  rewrite IH by assumption. now rewrite <- app_assoc.
Qed.

Lemma app_last_slash : forall (a b x : string) (y : ascii), (a ++ b)%string = (x ++ String y "")%string -> b <> "" -> exists z, b = (z ++ String y "")%string.
Proof.
  induction a as [|c a IH]; intros b x y H Hb; [exists x; exact H|]. destruct x as [|c' x]; cbn in H; injection H as -> H.
  - destruct a; cbn in H; [congruence|discriminate].
  - exact (IH _ _ _ H Hb).
Qed.
Lemma below_no_slash : forall cs x, Forall name_ok cs -> below cs <> (x ++ "/")%string.
Proof.
  induction cs as [|c cs IH]; intros x H E; [destruct x; discriminate|]. inversion H as [|? ? (N1 & N2 & N3 & N4) Hcs]; subst.
  cbn [below] in E. change ("/" ++ c ++ below cs)%string with ("/" ++ (c ++ below cs))%string in E. apply app_last_slash in E as [z E].
  - destruct cs as [|c' cs].
    + cbn in E. rewrite app_nil_s in E. subst c. apply N4. apply has_app. right. now left.
    + apply app_last_slash in E as [z' E]; [exact (IH _ Hcs E)|]. discriminate.
  - destruct c; [congruence|discriminate].
Qed.
Lemma ends_slash : forall p, ends_with "/" p = true <-> exists q, p = (q ++ "/")%string.
Proof. intros p. rewrite ends_with_iff. reflexivity. Qed.

Theorem abspath_spec : forall C p, Forall name_ok C -> ordinary p ->
  exists cs, abspath (path_of C) p = path_of cs /\ Forall name_ok cs /\ forall cs', leads C p cs' <-> cs' = cs.
Proof.
  intros C p HC O. unfold abspath. destruct (starts_with "/" p) eqn:Es.
  - apply starts_slash in Es. destruct (norm_abs Es O) as [E1 E2]. exists (fold_left follow (py_split slash p) []).
    split; [exact E1|]. split; [exact E2|]. intros cs'. unfold leads. split.
    + intros (ws & Hw & [[_ ->]|[N _]]); [|contradiction]. apply words_iff in Hw. now subst ws.
    + intros ->. exists (py_split slash p). split; [apply words_split|]. left. now split.
  - assert (N : ~ absolute p) by (intros H; apply starts_slash in H; congruence).
    assert (J : path_join (path_of C) p = (below C ++ String slash p)%string).
    { unfold path_join. rewrite Es. destruct C as [|c C]; [reflexivity|]. change (path_of (c :: C)) with (below (c :: C)).
      destruct (ends_with "/" (below (c :: C))) eqn:Ee; [apply ends_slash in Ee as [q E]; destruct (below_no_slash HC E)|].
      rewrite orb_false_r. destruct (String.eqb_spec (below (c :: C)) ""); [discriminate|]. reflexivity. }
    assert (A : absolute (path_join (path_of C) p)).
    { rewrite J. destruct C as [|c C]; [exists p; reflexivity|]. cbn [below]. eexists. reflexivity. }
    assert (O' : ordinary (path_join (path_of C) p)).
    { rewrite J. intros q Hq. exfalso. destruct C as [|c C]; cbn in Hq; injection Hq as Hq.
      - apply N. eexists. exact Hq.
      - inversion HC as [|? ? (N1 & _ & _ & N4) _]; subst. destruct c as [|x c]; [congruence|]. cbn in Hq. injection Hq as Hq _. apply N4. left. exact Hq. }
    destruct (norm_abs A O') as [E1 E2]. rewrite J in E1, E2. rewrite (split_below HC) in E1, E2. cbn [fold_left] in E1, E2.
    rewrite fold_left_app in E1, E2. change (follow [] "") with (@nil string) in E1, E2. rewrite (follow_names [] HC) in E1, E2. cbn [app] in E1, E2.
    rewrite J. eexists. split; [exact E1|]. split; [exact E2|]. intros cs'. unfold leads. split.
    + intros (ws & Hw & [[H _]|[_ ->]]); [contradiction|]. apply words_iff in Hw. now subst ws.
    + intros ->. exists (py_split slash p). split; [apply words_split|]. right. now split.
Qed.

(** ** The directory of a path *)
Lemma below_app : forall a b, below (a ++ b) = (below a ++ below b)%string.
Proof. induction a as [|c a IH]; intros b; [reflexivity|]. cbn [below app]. rewrite IH. cbn [append]. rewrite append_assoc_s. reflexivity. Qed.
Lemma head_of_none : forall b, ~ has_char "/" b -> head_of b = "".
Proof.
  intros [|c b] H; [reflexivity|]. cbn [head_of]. destruct (char_in slash (String c b)) eqn:E; [|reflexivity].
  apply char_in_iff in E. contradiction.
Qed.
Lemma head_of_spec : forall a b, ~ has_char "/" b -> head_of (a ++ String slash b) = (a ++ "/")%string.
Proof.
  induction a as [|x a IH]; intros b H.
  - cbn [append head_of]. cbn [char_in]. rewrite Ascii.eqb_refl. cbn [orb]. rewrite head_of_none by assumption. reflexivity.
  - cbn [append head_of]. destruct (char_in slash (String x (a ++ String slash b))) eqn:E; [now rewrite IH|].
    assert (X : char_in slash (String x (a ++ String slash b)) = true); [|congruence]. apply char_in_iff. right. apply has_app. right. now left.
Qed.
Lemma rstrip_slash_end : forall a, rstrip_slashes (a ++ "/") = rstrip_slashes a.
Proof. induction a as [|c a IH]; [reflexivity|]. cbn [append rstrip_slashes]. now rewrite IH. Qed.
Lemma rstrip_id : forall a, (forall q, a <> (q ++ "/")%string) -> rstrip_slashes a = a.
Proof.
  induction a as [|c a IH]; intros H; [reflexivity|]. cbn [rstrip_slashes]. destruct a as [|c' a].
  - cbn. destruct (Ascii.eqb_spec c slash) as [->|]; [|reflexivity]. destruct (H "" eq_refl).
  - rewrite IH; [reflexivity|]. intros q Hq. apply (H (String c q)). rewrite Hq. reflexivity.
Qed.
Lemma dirname_spec : forall cs, Forall name_ok cs -> dirname (path_of cs) = path_of (removelast cs).
Proof.
  intros cs H. destruct cs as [|c0 cs0] eqn:E; [reflexivity|]. rewrite <- E in *.
  assert (Hne : cs <> []) by (rewrite E; discriminate). clear E c0 cs0.
  destruct (exists_last Hne) as (l & c & ->). rewrite removelast_last. apply Forall_app in H as [Hl Hc].
  inversion Hc as [|? ? (N1 & N2 & N3 & N4) _]; subst.
  assert (E : path_of (l ++ [c]) = (below l ++ String slash c)%string).
  { transitivity (below (l ++ [c])); [destruct l; reflexivity|]. rewrite below_app. cbn [below]. now rewrite app_nil_s. }
  rewrite E. unfold dirname. rewrite head_of_spec by exact N4. rewrite rstrip_slash_end, rstrip_id by (intros q; apply below_no_slash; exact Hl).
  destruct l as [|x l]; [reflexivity|]. reflexivity.
Qed.

(** ** Suffixes *)
Lemma strip_suffix_spec : forall suf s t, strip_suffix suf s = Some t <-> s = (t ++ suf)%string.
Proof.
  intros suf s t. unfold strip_suffix. split.
  - destruct (ends_with suf s) eqn:E; [|discriminate]. apply ends_with_iff in E as [q ->]. rewrite length_app_s.
    replace (String.length q + String.length suf - String.length suf)%nat with (String.length q) by lia. rewrite substring_all. congruence.
  - intros ->. rewrite (proj2 (ends_with_iff _ _)) by (exists t; reflexivity). rewrite length_app_s.
    replace (String.length t + String.length suf - String.length suf)%nat with (String.length t) by lia. now rewrite substring_all.
Qed.
Lemma substring_end : forall a b, substring (String.length a) (String.length b) (a ++ b) = b.
Proof. induction a as [|c a IH]; intros b; cbn; [|apply IH]. pose proof (substring_all b "") as H. now rewrite app_nil_s in H. Qed.
Lemma last_n_app : forall n a b, String.length b = n -> last_n n (a ++ b) = b /\ but_last n (a ++ b) = a.
Proof.
  intros n a b <-. unfold last_n, but_last. rewrite length_app_s. replace (String.length a + String.length b - String.length b)%nat with (String.length a) by lia.
  split; [apply substring_end|apply substring_all].
Qed.
Lemma last_n_short : forall n s, (String.length s < n)%nat -> (String.length (last_n n s) < n)%nat.
Proof.
  intros n s H. unfold last_n. replace (String.length s - n)%nat with 0%nat by lia.
  assert (X : forall n s, (String.length (substring 0 n s) <= String.length s)%nat); [|specialize (X n s); lia].
  clear. induction n as [|n IH]; intros [|c s]; cbn; try lia. specialize (IH s). lia.
Qed.

Lemma take_all : forall d, all_digits d -> take_digits d = (d, "").
Proof. intros d H. pose proof (@take_digits_app d "" H) as X. rewrite app_nil_s in X. apply X. exact I. Qed.
Lemma take_all_iff : forall d, snd (take_digits d) = "" <-> all_digits d.
Proof.
  intros d. split; [|intros H; now rewrite take_all].
  destruct (take_digits d) as [a r] eqn:E. cbn. intros ->. apply take_digits_spec in E as (-> & H & _). now rewrite app_nil_s.
Qed.

Definition run_parts (s p k d : string) : Prop :=
  s = (p ++ "/" ++ k ++ "/r" ++ d)%string /\ (k = "raw" \/ k = "proc") /\ all_digits d /\ String.length d = 4%nat.
Lemma match_run_none : forall s, (forall q, s <> (q ++ "/")%string) -> forall p k r,
  match_run s = Some (p, k, r) <-> exists d, r = String "r" d /\ run_parts s p k d.
Proof.
  intros s Hs p k r. unfold match_run. destruct (strip_suffix "/" s) as [t|] eqn:E; [apply strip_suffix_spec in E; destruct (Hs _ E)|]. clear E Hs.
  destruct (Nat.lt_ge_cases (String.length s) 5) as [L|L].
  - split.
    + destruct (strip_prefix "r" (last_n 5 s)) as [num|] eqn:E; [|discriminate]. apply strip_prefix_spec in E.
      pose proof (last_n_short L) as X. rewrite E in X. cbn in X. destruct (Nat.eqb_spec (String.length num) 4); [lia|]. discriminate.
    + intros (d & _ & -> & _ & _ & Hd). exfalso. cbn in L. rewrite !length_app_s in L. cbn in L. rewrite !length_app_s in L. cbn in L. lia.
  - destruct (@split_at (String.length s - 5) s ltac:(lia)) as (a & b & -> & La). rewrite length_app_s in *.
    assert (Lb : String.length b = 5%nat) by lia. destruct (@last_n_app 5 a b Lb) as [-> ->].
    assert (A : forall a b p k d, String.length b = 5%nat -> ((a ++ b)%string = (p ++ "/" ++ k ++ "/r" ++ d)%string /\ String.length d = 4%nat <->
       a = (p ++ "/" ++ k ++ "/")%string /\ b = String "r" d /\ String.length d = 4%nat)).
    { clear. intros a b p k d Hb. split.
      - intros [H Hd]. assert (E : (p ++ "/" ++ k ++ "/r" ++ d)%string = ((p ++ "/" ++ k ++ "/") ++ String "r" d)%string) by (repeat (cbn [append]; rewrite ?append_assoc_s); reflexivity).
        rewrite E in H. destruct (@last_n_app 5 a b Hb) as [E1 E2]. destruct (@last_n_app 5 (p ++ "/" ++ k ++ "/") (String "r" d)) as [E3 E4]; [cbn; lia|].
        rewrite H in E1, E2. rewrite E3 in E1. rewrite E4 in E2. auto.
      - intros (-> & -> & Hd). split; [|exact Hd]. repeat (cbn [append]; rewrite ?append_assoc_s); reflexivity. }
    split.
    + destruct (strip_prefix "r" b) as [num|] eqn:E; [|discriminate]. apply strip_prefix_spec in E. cbn in E. subst b.
      destruct (Nat.eqb_spec (String.length num) 4) as [Ln|]; [|discriminate]. cbn [andb].
      destruct (String.eqb_spec (snd (take_digits num)) "") as [Hd|]; [|discriminate]. apply take_all_iff in Hd.
      destruct (strip_suffix "/raw/" a) as [q|] eqn:E1.
      * intros H. injection H as <- <- <-. exists num. split; [reflexivity|]. apply strip_suffix_spec in E1. unfold run_parts. split; [|auto].
        apply (A a (String "r" num) q "raw" num Lb). auto.
      * destruct (strip_suffix "/proc/" a) as [q|] eqn:E2; [|discriminate].
        intros H. injection H as <- <- <-. exists num. split; [reflexivity|]. apply strip_suffix_spec in E2. unfold run_parts. split; [|auto].
        apply (A a (String "r" num) q "proc" num Lb). auto.
    + intros (d & -> & H1 & Hk & Hd & Ld). destruct (proj1 (A a b p k d Lb) (conj H1 Ld)) as (-> & -> & _). clear A.
      rewrite (proj2 (strip_prefix_spec "r" (String "r" d) d) eq_refl). rewrite Ld, (proj2 (take_all_iff d) Hd). cbn [Nat.eqb andb String.eqb].
      destruct Hk as [-> | ->].
      * rewrite (proj2 (strip_suffix_spec "/raw/" _ p)) by reflexivity. reflexivity.
      * destruct (strip_suffix "/raw/" (p ++ "/" ++ "proc" ++ "/")) as [q|] eqn:E.
        { exfalso. apply strip_suffix_spec in E. destruct (@last_n_app 5 q "/raw/" eq_refl) as [E1 _]. rewrite <- E in E1.
          assert (E2 : (p ++ "/" ++ "proc" ++ "/")%string = ((p ++ "/") ++ "proc/")%string) by (rewrite append_assoc_s; reflexivity).
          rewrite E2 in E1. destruct (@last_n_app 5 (p ++ "/") "proc/" eq_refl) as [E3 _]. rewrite E3 in E1. discriminate. }
        rewrite (proj2 (strip_suffix_spec "/proc/" _ p)) by reflexivity. reflexivity.
Qed.

(** The last two components of a path. *)
Lemma app_slash_inj : forall (a a' b b' : string), ~ has_char "/" b -> ~ has_char "/" b' -> (a ++ String "/" b)%string = (a' ++ String "/" b')%string -> a = a' /\ b = b'.
Proof.
  intros a a' b b' N N' H. assert (E := app_eq_split N N' H). subst b'. split; [|reflexivity].
  revert a' H. induction a as [|c a IH]; intros [|c' a'] H; cbn in H; [reflexivity| | |].
  - injection H as _ H. assert (L := f_equal String.length H). rewrite length_app_s in L. cbn in L. lia.
  - injection H as _ H. assert (L := f_equal String.length H). rewrite length_app_s in L. cbn in L. lia.
  - injection H as -> H. f_equal. exact (IH _ H).
Qed.
Lemma below_snoc : forall l c, below (l ++ [c]) = (below l ++ String "/" c)%string.
Proof. intros l c. rewrite below_app. cbn [below]. now rewrite app_nil_s. Qed.
Lemma below_last : forall cs p b, Forall name_ok cs -> ~ has_char "/" b -> below cs = (p ++ String "/" b)%string -> exists l, cs = l ++ [b] /\ p = below l.
Proof.
  intros cs p b H N E. destruct cs as [|c cs]; [destruct p; discriminate|].
  destruct (@exists_last _ (c :: cs) ltac:(discriminate)) as (l & x & El). rewrite El in *. rewrite below_snoc in E.
  apply Forall_app in H as [_ H]. inversion H as [|? ? (_ & _ & _ & Nx) _]; subst. destruct (app_slash_inj Nx N E) as [<- <-]. exists l. now split.
Qed.
Lemma path_of_below : forall cs, cs <> [] -> path_of cs = below cs.
Proof. intros [|c cs] H; [congruence|reflexivity]. Qed.
Lemma digits_no_slash : forall d, all_digits d -> ~ has_char "/" d.
Proof. intros d H Hc. apply char_in_iff in Hc. rewrite (digits_has H) in Hc; [discriminate|reflexivity]. Qed.
Lemma match_run_spec : forall cs p k r, Forall name_ok cs ->
  match_run (path_of cs) = Some (p, k, r) <->
  exists l d, cs = l ++ [k; r] /\ r = String "r" d /\ (k = "raw" \/ k = "proc") /\ all_digits d /\ String.length d = 4%nat /\ p = below l.
Proof.
  intros cs p k r H. destruct cs as [|c0 cs0] eqn:Ec.
  { split; [discriminate|]. intros (l & d & E & _). destruct l; discriminate. }
  rewrite <- Ec in *. assert (Hne : cs <> []) by (rewrite Ec; discriminate). rewrite path_of_below by exact Hne. clear Ec c0 cs0.
  rewrite match_run_none by (intros q; apply below_no_slash; exact H). unfold run_parts. split.
  - intros (d & -> & E & Hk & Hd & Ld).
    assert (E' : below cs = ((p ++ String "/" k) ++ String "/" (String "r" d))%string) by (rewrite E, !append_assoc_s; reflexivity).
    apply below_last in E' as (l & -> & E'); [|exact H|]; [|intros [X|X]; [discriminate|exact (digits_no_slash Hd X)]].
    apply Forall_app in H as [H _]. symmetry in E'. apply below_last in E' as (l' & -> & ->); [|exact H|].
    + exists l', d. rewrite <- app_assoc. repeat split; auto.
    + destruct Hk as [-> | ->]; cbn; intuition discriminate.
  - intros (l & d & -> & -> & Hk & Hd & Ld & ->). exists d. split; [reflexivity|]. split; [|auto].
    rewrite below_app. cbn [below]. rewrite app_nil_s. reflexivity.
Qed.

(** ** Numbers *)
Lemma py_int_spec : forall s n, py_int s = Ok n <-> number_text s n.
Proof.
  set (num := fun t => match take_digits t with (String c d, EmptyString) => Ok (int_of (String c d)) | _ => Err EValueError end).
  assert (N : forall t n, num t = Ok n <-> numeral t n).
  { intros t n. unfold num, numeral. split.
    - destruct (take_digits t) as [[|c d] [|x r]] eqn:E; try discriminate. apply take_digits_spec in E as (-> & H & _). rewrite app_nil_s.
      intros X. injection X as <-. split; [discriminate|]. split; [exact H|]. symmetry. apply int_of_decimal.
    - intros (Hne & Hd & <-). rewrite take_all by assumption. destruct t as [|c d]; [congruence|]. f_equal. apply int_of_decimal. }
  assert (Hmin : forall t n, ~ numeral (String "-" t) n) by (intros t n (_ & [X _] & _); discriminate).
  assert (Hplu : forall t n, ~ numeral (String "+" t) n) by (intros t n (_ & [X _] & _); discriminate).
  intros s n. unfold number_text.
  assert (D : (exists t, s = String "-" t /\ py_int s = (let* n := num t in Ok (- n)%Z)) \/ (exists t, s = String "+" t /\ py_int s = num t) \/
    ((forall t, s <> String "-" t) /\ (forall t, s <> String "+" t) /\ py_int s = num s)).
  { destruct s as [|c t]; [right; right; repeat split; congruence|]. destruct (Ascii.ascii_dec c "-") as [->|N1]; [left; exists t; split; reflexivity|].
    destruct (Ascii.ascii_dec c "+") as [->|N2]; [right; left; exists t; split; reflexivity|]. right. right. split; [congruence|]. split; [congruence|].
    unfold py_int. destruct c as [[] [] [] [] [] [] [] []]; try reflexivity; congruence. }
  destruct D as [(t & -> & ->)|[(t & -> & ->)|(N1 & N2 & ->)]].
  - split.
    + intros H. apply bind_ok in H as (m & Hm & H). injection H as <-. right. right. exists t. split; [reflexivity|]. rewrite Z.opp_involutive. now apply N.
    + intros [H|[(t' & E & H)|(t' & E & H)]]; [destruct (Hmin _ _ H)|discriminate|]. injection E as <-. apply N in H. rewrite H. cbn. now rewrite Z.opp_involutive.
  - rewrite N. split; [intros H; right; left; eauto|]. intros [H|[(t' & E & H)|(t' & E & H)]]; [destruct (Hplu _ _ H)| |discriminate]. now injection E as <-.
  - rewrite N. split; [auto|]. intros [H|[(t' & E & H)|(t' & E & H)]]; [exact H|destruct (N2 _ E)|destruct (N1 _ E)].
Qed.
Lemma py_int_err : forall s e, py_int s = Err e -> e = EValueError.
Proof.
  intros s e. unfold py_int. set (num := fun t => match take_digits t with (String c d, EmptyString) => Ok (int_of (String c d)) | _ => Err EValueError end).
  assert (N : forall t, num t = Err e -> e = EValueError) by (intros t; unfold num; destruct (take_digits t) as [[|c d] [|x r]]; congruence).
  destruct s as [|c t]; [apply (N "")|].
  destruct c as [[] [] [] [] [] [] [] []]; try apply N.
  intros H. fold (num t) in H. destruct (num t) as [n|e'] eqn:E; cbn in H; [discriminate|]. injection H as ->. exact (N t E).
Qed.
Lemma format_run : forall n r, run_dir_name n r <-> r = ("r" ++ format_0d 4 n)%string.
Proof.
  assert (E : forall n, (n < 0)%Z -> padded 3 (py_rjust (str_of_int (- n)) 3 "0") (- n)).
  { intros n H. pose proof (@format_padded 3 (- n) ltac:(lia) ltac:(lia)) as X. unfold format_0d in X. destruct (Z.ltb_spec (- n) 0); [lia|exact X]. }
  intros n r. unfold run_dir_name. split.
  - intros (s & [(H & P & ->)|(H & P & ->)]).
    + rewrite (padded_fun P (@format_padded 4 n H ltac:(lia))). reflexivity.
    + unfold format_0d. destruct (Z.ltb_spec n 0); [|lia]. rewrite (padded_fun P (E n H)). reflexivity.
  - intros ->. destruct (Z.lt_ge_cases n 0) as [H|H].
    + exists (py_rjust (str_of_int (- n)) 3 "0"). right. split; [exact H|]. split; [exact (E n H)|]. unfold format_0d. destruct (Z.ltb_spec n 0); [reflexivity|lia].
    + exists (format_0d 4 n). left. split; [exact H|]. split; [apply format_padded; lia|reflexivity].
Qed.
Lemma join_inside : forall p b r, p <> "" -> ~ absolute b -> (inside p b r <-> r = path_join p b).
Proof.
  intros p b r Hp Hb. unfold inside, path_join. destruct (starts_with "/" b) eqn:E; [apply starts_slash in E; contradiction|].
  destruct (String.eqb_spec p ""); [contradiction|]. cbn [orb]. destruct (ends_with "/" p) eqn:Ee.
  - apply ends_slash in Ee as [q ->]. split.
    + intros [(q' & _ & ->)|(_ & H & _)]; [reflexivity|destruct (H q eq_refl)].
    + intros ->. left. exists q. now split.
  - split.
    + intros [(q' & -> & _)|(_ & _ & ->)]; [|reflexivity]. rewrite (proj2 (ends_slash _)) in Ee by eauto. discriminate.
    + intros ->. right. split; [assumption|]. split; [|reflexivity]. intros q ->. rewrite (proj2 (ends_slash _)) in Ee by eauto. discriminate.
Qed.
Lemma join3 : forall p a b, p <> "" -> a <> "" -> ~ has_char "/" a -> ~ absolute b -> path_join (path_join p a) b = path_join p (a ++ "/" ++ b)%string.
Proof.
  intros p a b Hp Ha Na Nb.
  assert (Sa : starts_with "/" a = false). { destruct (starts_with "/" a) eqn:E; [|reflexivity]. apply starts_slash in E as [q ->]. exfalso. apply Na. now left. }
  assert (Sab : starts_with "/" (a ++ "/" ++ b) = false).
  { destruct (starts_with "/" (a ++ "/" ++ b)) eqn:E; [|reflexivity]. apply starts_slash in E as [q E]. destruct a as [|c a]; [congruence|]. cbn in E. injection E as -> _. exfalso. apply Na. now left. }
  assert (Sb : starts_with "/" b = false) by (destruct (starts_with "/" b) eqn:E; [apply starts_slash in E; contradiction|reflexivity]).
  assert (X : exists x, path_join p a = (x ++ a)%string /\ path_join p (a ++ "/" ++ b) = (x ++ a ++ "/" ++ b)%string /\ path_join p a <> "").
  { unfold path_join. rewrite Sa, Sab. destruct (String.eqb_spec p ""); [contradiction|]. cbn [orb]. destruct (ends_with "/" p).
    - exists p. repeat split. destruct p; [congruence|discriminate].
    - exists (p ++ "/")%string. rewrite !append_assoc_s. repeat split. destruct p; [congruence|discriminate]. }
  destruct X as (x & E1 & E2 & E3). rewrite E2. unfold path_join at 1. rewrite Sb. destruct (String.eqb_spec (path_join p a) ""); [contradiction|].
  destruct (ends_with "/" (path_join p a)) eqn:Ee; [|cbn [orb]; rewrite E1; rewrite append_assoc_s; reflexivity].
  exfalso. apply ends_slash in Ee as [q Eq]. rewrite E1 in Eq. apply app_last_slash in Eq as [z ->]; [|exact Ha]. apply Na. apply has_app. right. now left.
Qed.
