(** Proofs about FilenameInfo and lsxfel. *)
From Verif Require Import Base PyStr M_Files M_Reader M_FilesMap M_Stacking M_Info M_OpenRun M_Lsxfel S_Open S_Stacking S_Info S_Lsxfel
  L_Base L_Stacking L_Open L_OpenRun L_FilesMap2 L_Info.
Set Implicit Arguments.
Unset Strict Implicit.
Local Open Scope string_scope.
Local Open Scope list_scope.

Lemma Ok_inj : forall A (x y : A), Ok x = Ok y -> x = y.
Proof. congruence. Qed.

(** ** Strings *)
Lemma length_app_s : forall a b : string, String.length (a ++ b) = (String.length a + String.length b)%nat.
Proof. induction a; cbn; intros; [reflexivity|]. now rewrite IHa. Qed.

Lemma app_nil_s : forall a : string, (a ++ "")%string = a.
Proof. induction a; cbn; congruence. Qed.

Lemma has_app : forall c a b, has_char c (a ++ b) <-> has_char c a \/ has_char c b.
Proof. induction a as [|x a IH]; cbn; intros b; [tauto|]. rewrite IH. tauto. Qed.

Lemma basename_spec : forall p, file_name p (basename p).
Proof.
  induction p as [|c r IH].
  - split; [cbn; tauto|]. now left.
  - cbn [basename]. destruct (char_in slash (String c r)) eqn:E.
    + destruct IH as [H1 [H2|(d & H2)]]; (split; [exact H1|]); right.
      * cbn in E. destruct (Ascii.eqb_spec c slash) as [->|N]; [exists ""; cbn; now rewrite <- H2|].
        cbn in E. apply char_in_iff in E. exfalso. apply H1. rewrite <- H2. exact E.
      * exists (String c d). cbn. now rewrite H2 at 1.
    + split; [|now left]. intros H. apply char_in_iff in H. fold slash in H. congruence.
Qed.

Lemma app_eq_split : forall c (a a' b b' : string), ~ has_char c b -> ~ has_char c b' -> (a ++ String c b)%string = (a' ++ String c b')%string -> b = b'.
Proof.
  induction a as [|x a IH]; intros a' b b' N N' H; destruct a' as [|y a']; cbn in H; injection H; clear H; intros; subst.
  - reflexivity.
  - destruct N. apply has_app. right. now left.
  - destruct N'. apply has_app. right. now left.
  - eapply IH; eassumption.
Qed.

Lemma file_name_fun : forall p b b', file_name p b -> file_name p b' -> b = b'.
Proof.
  intros p b b' [N1 H1] [N2 H2]. destruct H1 as [->|(d & ->)]; destruct H2 as [H2|(d' & H2)]; subst.
  - reflexivity.
  - destruct N1. apply has_app. right. now left.
  - destruct N2. apply has_app. right. now left.
  - cbn in H2. exact (app_eq_split N1 N2 H2).
Qed.

Lemma basename_id : forall f, ~ has_char "/" f -> basename f = f.
Proof. intros f H. apply (@file_name_fun f); [apply basename_spec|]. split; [exact H|now left]. Qed.

Lemma substring_all : forall (a b : string), substring 0 (String.length a) (a ++ b) = a.
Proof. induction a; cbn; intros b; [destruct b; reflexivity|]. now rewrite IHa. Qed.

Lemma drop3_app : forall a ext, String.length ext = 3%nat -> drop_last3 (a ++ ext) = a.
Proof. intros a ext H. unfold drop_last3. rewrite length_app_s, H. replace (String.length a + 3 - 3)%nat with (String.length a) by lia. apply substring_all. Qed.

Lemma split_at : forall n (s : string), (n <= String.length s)%nat -> exists a b, s = (a ++ b)%string /\ String.length a = n.
Proof.
  induction n as [|n IH]; intros s H; [exists "", s; now split|]. destruct s as [|c s]; cbn in H; [lia|].
  destruct (IH s ltac:(lia)) as (a & b & -> & <-). exists (String c a), b. now split.
Qed.

Lemma drop3_spec : forall s, (3 <= String.length s)%nat -> exists ext, s = (drop_last3 s ++ ext)%string /\ String.length ext = 3%nat.
Proof.
  intros s H. destruct (@split_at (String.length s - 3) s ltac:(lia)) as (a & b & -> & Ha). rewrite length_app_s in *.
  assert (String.length b = 3%nat) by lia. exists b. rewrite drop3_app by assumption. now split.
Qed.

Lemma drop3_short : forall s, (String.length s < 3)%nat -> drop_last3 s = "".
Proof. intros s H. unfold drop_last3. replace (String.length s - 3)%nat with 0%nat by lia. destruct s; reflexivity. Qed.

Lemma split_nonempty : forall c s, py_split c s <> [].
Proof. intros c [|x s]; cbn; [discriminate|]. destruct (Ascii.eqb x c); [discriminate|]. destruct (py_split c s); discriminate. Qed.

Lemma split_cons : forall c s a l, py_split c s = a :: l ->
  ~ has_char c a /\ ((l = [] /\ s = a) \/ exists r, s = (a ++ String c r)%string /\ py_split c r = l).
Proof.
  induction s as [|x s IH]; intros a l H; cbn in H.
  - injection H as <- <-. split; [cbn; tauto|]. now left.
  - destruct (Ascii.eqb_spec x c) as [->|N].
    + injection H as <- <-. split; [cbn; tauto|]. right. exists s. now split.
    + destruct (py_split c s) as [|w ws] eqn:Es; [destruct (split_nonempty Es)|]. injection H as <- <-.
      destruct (IH _ _ eq_refl) as [H1 H2]. split; [cbn; tauto|]. destruct H2 as [[-> ->]|(r & -> & <-)].
      * left. now split.
      * right. exists r. now split.
Qed.

Lemma split_none' : forall c a, ~ has_char c a -> py_split c a = [a].
Proof.
  induction a as [|x a IH]; intros H; cbn; [reflexivity|].
  cbn in H. destruct (Ascii.eqb_spec x c) as [->|N]; [tauto|]. rewrite IH by tauto. reflexivity.
Qed.
Lemma split_app' : forall c a b, ~ has_char c a -> py_split c (a ++ String c b)%string = a :: py_split c b.
Proof.
  induction a as [|x a IH]; intros b H; cbn.
  - rewrite Ascii.eqb_refl. reflexivity.
  - cbn in H. destruct (Ascii.eqb_spec x c) as [->|N]; [tauto|]. rewrite IH by tauto. reflexivity.
Qed.

Lemma four_parts_iff : forall b k r s g, four_parts b k r s g <-> py_split "-" (drop_last3 b) = [k; r; s; g].
Proof.
  intros b k r s g. split.
  - intros (ext & -> & Hx & N1 & N2 & N3 & N4).
    assert (Heq : (k ++ "-" ++ r ++ "-" ++ s ++ "-" ++ g ++ ext)%string = ((k ++ String "-" (r ++ String "-" (s ++ String "-" g))) ++ ext)%string).
    { rewrite !append_assoc_s. cbn [append]. rewrite !append_assoc_s. cbn [append]. rewrite !append_assoc_s. cbn [append]. reflexivity. }
    rewrite Heq, drop3_app by assumption. rewrite !split_app', split_none' by assumption. reflexivity.
  - intros H.
    assert (L : (3 <= String.length b)%nat).
    { destruct (Nat.le_gt_cases 3 (String.length b)) as [L|L]; [exact L|]. rewrite drop3_short in H by assumption. discriminate. }
    destruct (drop3_spec L) as (ext & Hb & Hx). set (a := drop_last3 b) in *.
    apply split_cons in H as [N1 [[? _]|(r1 & H1 & H)]]; [discriminate|].
    apply split_cons in H as [N2 [[? _]|(r2 & H2 & H)]]; [discriminate|].
    apply split_cons in H as [N3 [[? _]|(r3 & H3 & H)]]; [discriminate|].
    apply split_cons in H as [N4 [[_ H4]|(r4 & H4 & H)]]; [|destruct (split_nonempty H)].
    exists ext. repeat split; try assumption. rewrite Hb, H1, H2, H3, H4.
    rewrite !append_assoc_s. cbn [append]. rewrite !append_assoc_s. cbn [append]. rewrite !append_assoc_s. cbn [append]. reflexivity.
Qed.

Lemma is_upper_iff : forall c, is_upper c = true <-> capital c.
Proof. intros c. unfold is_upper, capital. rewrite andb_true_iff, !Nat.leb_le. reflexivity. Qed.

Lemma digit_not_upper : forall c, is_digit c = true -> is_upper c = false.
Proof.
  intros c H. unfold is_digit in H. apply andb_true_iff in H as [H1 H2]. apply Nat.leb_le in H1, H2.
  unfold is_upper. apply andb_false_iff. left. apply Nat.leb_gt. lia.
Qed.

Lemma take_upper_spec : forall s a r, take_upper s = (a, r) -> s = (a ++ r)%string /\ capitals a /\ match r with "" => True | String c _ => ~ capital c end.
Proof.
  induction s as [|c s IH]; intros a r H; cbn in H.
  - injection H as <- <-. repeat split.
  - destruct (is_upper c) eqn:E.
    + destruct (take_upper s) as [a' r'] eqn:Es. injection H as <- <-. destruct (IH _ _ eq_refl) as (-> & H1 & H2).
      repeat split; try assumption. apply is_upper_iff; assumption. now apply is_upper_iff. 
    + injection H as <- <-. repeat split. intros H. apply is_upper_iff in H. congruence.
Qed.

Lemma take_upper_app : forall a r, capitals a -> match r with "" => True | String c _ => is_upper c = false end -> take_upper (a ++ r) = (a, r).
Proof.
  induction a as [|c a IH]; intros r H1 H2; cbn [append].
  - destruct r as [|c r]; [reflexivity|]. cbn. now rewrite H2.
  - destruct H1 as [Hc Ha]. cbn. apply is_upper_iff in Hc. rewrite Hc, IH by assumption. reflexivity.
Qed.

Lemma source_groups_iff : forall s a d, source_groups s = Some (a, d) <-> numbered s a d.
Proof.
  intros s a d. unfold source_groups. split.
  - destruct (take_upper s) as [a' r] eqn:E1. destruct (take_digits r) as [d' t] eqn:E2.
    destruct (String.eqb_spec a' "") as [|N1]; cbn; [discriminate|]. destruct (String.eqb_spec d' "") as [|N2]; cbn; [discriminate|].
    intros H. injection H as -> ->. apply take_upper_spec in E1 as (-> & H1 & _). apply take_digits_spec in E2 as (-> & H2 & H3).
    repeat split; try assumption. exists t. now split.
  - intros (N1 & H1 & N2 & H2 & t & -> & H3).
    rewrite take_upper_app; [|assumption|].
    + rewrite take_digits_app by assumption. destruct (String.eqb_spec a ""); [congruence|]. destruct (String.eqb_spec d ""); [congruence|]. reflexivity.
    + destruct d as [|c d]; [congruence|]. cbn. apply digit_not_upper. apply H2.
Qed.

Lemma str_in_det : forall n, str_in n DETECTOR_NAMES = true <-> detector_kind n.
Proof.
  intros n. unfold detector_kind, DETECTOR_NAMES, str_in. cbn [existsb]. rewrite !orb_true_iff, !String.eqb_eq. intuition congruence.
Qed.

Lemma rawcorr_cases : forall k, (k = "RAW" /\ rawcorr_descr k = "Raw") \/ (k = "CORR" /\ rawcorr_descr k = "Corrected") \/ (k <> "RAW" /\ k <> "CORR" /\ rawcorr_descr k = "?").
Proof. intros k. unfold rawcorr_descr. destruct (String.eqb_spec k "RAW"); [tauto|]. destruct (String.eqb_spec k "CORR"); tauto. Qed.

Lemma numbered_fun : forall s a d a' d', numbered s a d -> numbered s a' d' -> a = a' /\ d = d'.
Proof. intros s a d a' d' H1 H2. apply source_groups_iff in H1, H2. rewrite H1 in H2. injection H2 as <- <-. now split. Qed.

Lemma filename_ok : forall path i, filename_info path = Ok i ->
  exists k r s g, four_parts (basename path) k r s g /\ info_of (basename path) k s i.
Proof.
  intros path i. unfold filename_info.
  destruct (py_split "-" (drop_last3 (basename path))) as [|k [|r [|s [|g [|x l]]]]] eqn:E; try discriminate.
  apply four_parts_iff in E. intros H. apply Ok_inj in H. exists k, r, s, g. split; [exact E|]. unfold info_of.
  destruct (source_groups s) as [[name num]|] eqn:Es.
  - apply source_groups_iff in Es. destruct (String.eqb_spec name "DA") as [->|N].
    + rewrite <- H. cbn. split; [reflexivity|]. left. exists num. auto.
    + destruct (str_in name DETECTOR_NAMES) eqn:Ed.
      * apply str_in_det in Ed. rewrite <- H. split; [reflexivity|]. right. left. exists name, num. cbn [fn_detector fn_name fn_module fn_descr].
        repeat (split; [assumption || reflexivity|]). exists (rawcorr_descr k). split; [|reflexivity].
        destruct (rawcorr_cases k) as [[-> ->]|[[-> ->]|(A & B & ->)]]; tauto.
      * rewrite <- H. cbn. split; [reflexivity|]. right. right. split; [|auto]. intros n' m' Hn. destruct (numbered_fun Es Hn) as [<- _].
        split; [exact N|]. intros Hd. apply str_in_det in Hd. congruence.
  - rewrite <- H. cbn. split; [reflexivity|]. right. right. split; [|auto]. intros n' m' Hn. apply source_groups_iff in Hn. congruence.
Qed.

Lemma filename_total : forall path k r s g, four_parts (basename path) k r s g -> exists i, filename_info path = Ok i.
Proof. intros path k r s g H. apply four_parts_iff in H. unfold filename_info. rewrite H. eexists. reflexivity. Qed.

Lemma filename_err : forall path e, filename_info path = Err e ->
  e = EAssertionError /\ forall k r s g, ~ four_parts (basename path) k r s g.
Proof.
  intros path e H. split.
  - revert H. unfold filename_info. destruct (py_split "-" (drop_last3 (basename path))) as [|k [|r [|s [|g [|x l]]]]]; congruence.
  - intros k r s g F. destruct (filename_total F) as [i Hi]. congruence.
Qed.

Lemma four_parts_fun : forall b k r s g k' r' s' g', four_parts b k r s g -> four_parts b k' r' s' g' -> k = k' /\ s = s'.
Proof. intros b k r s g k' r' s' g' H1 H2. apply four_parts_iff in H1, H2. rewrite H1 in H2. injection H2 as <- <- <- <-. now split. Qed.

Lemma detector_iff : forall path i, filename_info path = Ok i -> (fn_detector i = true <-> detector_file (basename path)).
Proof.
  intros path i H. destruct (filename_ok H) as (k & r & s & g & F & _ & C). split.
  - intros D. destruct C as [(num & _ & D' & _)|[(name & num & Hn & Hk & _)|(_ & D' & _)]]; try congruence.
    exists k, r, s, g, name, num. auto.
  - intros (k' & r' & s' & g' & name & num & F' & Hn & Hk). destruct (four_parts_fun F F') as [_ <-].
    destruct C as [(num' & Hn' & _)|[(name' & num' & _ & _ & D & _)|(N & _)]]; [|exact D|].
    + destruct (numbered_fun Hn Hn') as [-> _]. destruct Hk as [X|[X|X]]; discriminate.
    + destruct (N _ _ Hn) as [_ X]. destruct (X Hk).
Qed.

(** ** Segments *)
Lemma segment_tail_iff : forall s, segment_tail s = true <-> exists num rest, s = ("-S" ++ num ++ ".h5" ++ rest)%string /\ num <> "" /\ all_digits num.
Proof.
  intros s. unfold segment_tail. split.
  - destruct (strip_prefix "-S" s) as [r|] eqn:E; [|discriminate]. apply strip_prefix_spec in E. subst s.
    destruct (take_digits r) as [d t] eqn:E. apply take_digits_spec in E as (-> & H1 & H2). intros H. apply andb_true_iff in H as [N P].
    destruct (String.eqb_spec d ""); [discriminate|].
    apply starts_with_spec in P as [t' ->]. exists d, t'. now split.
  - intros (num & rest & -> & N & D).
    replace (strip_prefix "-S" ("-S" ++ num ++ ".h5" ++ rest)%string) with (Some (num ++ ".h5" ++ rest)%string) by (symmetry; now apply strip_prefix_spec).
    rewrite take_digits_app; [|assumption|reflexivity]. destruct (String.eqb_spec num ""); [congruence|]. reflexivity.
Qed.

Lemma newline_iff : forall c, is_newline c = true <-> c = ascii_of_nat 10.
Proof.
  intros c. unfold is_newline. rewrite Nat.eqb_eq. split.
  - intros H. rewrite <- (ascii_nat_embedding c), H. reflexivity.
  - intros ->. reflexivity.
Qed.

Lemma seg_of_app : forall f g, seg_of f g <-> g <> "" /\ ~ has_char (ascii_of_nat 10) g /\ exists t, f = (g ++ t)%string /\ segment_tail t = true.
Proof.
  intros f g. unfold seg_of. split.
  - intros (N & L & num & rest & -> & H1 & H2). split; [exact N|]. split; [exact L|]. eexists. split; [reflexivity|]. apply segment_tail_iff. exists num, rest. auto.
  - intros (N & L & t & -> & H). split; [exact N|]. split; [exact L|]. apply segment_tail_iff in H as (num & rest & -> & H). exists num, rest. auto.
Qed.

Lemma segment_group_ok : forall f g, segment_group f = Some g -> seg_of f g /\ forall g', seg_of f g' -> (String.length g' <= String.length g)%nat.
Proof.
  induction f as [|c f IH]; intros g H; cbn in H; [discriminate|].
  destruct (is_newline c) eqn:En; [discriminate|].
  assert (Nc : c <> ascii_of_nat 10) by (intros X; apply newline_iff in X; congruence).
  destruct (segment_group f) as [g1|] eqn:E.
  - injection H as <-. destruct (IH _ eq_refl) as [S1 S2]. split.
    + apply seg_of_app in S1 as (N & L & t & -> & T). apply seg_of_app. split; [discriminate|]. split; [cbn; tauto|]. exists t. now split.
    + intros g' S'. apply seg_of_app in S' as (N & L & t & Ht & T). destruct g' as [|c' g']; [congruence|]. cbn in Ht. injection Ht as <- Ht.
      cbn [String.length]. destruct g' as [|c2 g2]; [cbn; lia|]. apply le_n_S. apply S2. apply seg_of_app. split; [discriminate|]. split; [cbn in *; tauto|]. exists t. now split.
  - destruct (segment_tail f) eqn:Et; [|discriminate]. injection H as <-. split.
    + apply seg_of_app. split; [discriminate|]. split; [cbn; tauto|]. exists f. now split.
    + intros g' S'. apply seg_of_app in S' as (N & L & t & Ht & T). destruct g' as [|c' g']; [congruence|]. cbn in Ht. injection Ht as <- Ht.
      destruct g' as [|c2 g2]; [cbn; lia|]. exfalso.
      assert (X : forall f' g', seg_of f' g' -> segment_group f' <> None).
      { clear. induction f' as [|c f IH]; intros g' S'; apply seg_of_app in S' as (N & L & t & Ht & T); (destruct g' as [|c' g']; [congruence|]); cbn in Ht; [discriminate|].
        injection Ht as <- Ht. cbn. destruct (is_newline c) eqn:En; [apply newline_iff in En; subst; destruct L; now left|].
        destruct (segment_group f) eqn:E; [discriminate|]. destruct g' as [|c2 g2]; [cbn in Ht; subst; rewrite T; discriminate|].
        exfalso. apply (IH (String c2 g2)); [|reflexivity]. apply seg_of_app. split; [discriminate|]. split; [cbn in *; tauto|]. exists t. now split. }
      apply (X f (String c2 g2)); [|exact E]. apply seg_of_app. split; [discriminate|]. split; [cbn in *; tauto|]. exists t. now split.
Qed.

Lemma segment_group_none : forall f g, seg_of f g -> segment_group f <> None.
Proof.
  induction f as [|c f IH]; intros g' S'; apply seg_of_app in S' as (N & L & t & Ht & T); (destruct g' as [|c' g']; [congruence|]); cbn in Ht; [discriminate|].
  injection Ht as <- Ht. cbn. destruct (is_newline c) eqn:En; [apply newline_iff in En; subst; destruct L; now left|].
  destruct (segment_group f) eqn:E; [discriminate|]. destruct g' as [|c2 g2]; [cbn in Ht; subst; rewrite T; discriminate|].
  exfalso. apply (IH (String c2 g2)); [|reflexivity]. apply seg_of_app. split; [discriminate|]. split; [cbn in *; tauto|]. exists t. now split.
Qed.

Lemma app_length_eq : forall (a b c d : string), (a ++ b)%string = (c ++ d)%string -> String.length a = String.length c -> a = c.
Proof.
  induction a as [|x a IH]; intros b c d H L; destruct c as [|y c]; try discriminate; [reflexivity|]. cbn in *. injection H as <- H. injection L as L.
  f_equal. exact (IH _ _ _ H L).
Qed.

Lemma segment_iff : forall f g, segment_group f = Some g <-> segment f g.
Proof.
  intros f g. split; [exact (@segment_group_ok f g)|]. intros [S1 S2].
  destruct (segment_group f) as [g'|] eqn:E; [|destruct (segment_group_none S1 E)].
  destruct (segment_group_ok E) as [S3 S4]. pose proof (S2 _ S3). pose proof (S4 _ S1). f_equal.
  apply seg_of_app in S1 as (_ & _ & t & Ht & _). apply seg_of_app in S3 as (_ & _ & t' & Ht' & _). rewrite Ht in Ht'.
  symmetry. apply (app_length_eq Ht'). lia.
Qed.
