(** C90 for a negative [maxlen], which Python's slice l[:-k] takes as: all members but the last k. *)
From Verif Require Import Base PyStr M_Utils S_Utils L_Base L_Utils P_Utils.
Local Open Scope string_scope.
Local Open Scope list_scope.

(** Following a path through members which have at least [k] members after them in their group. *)
Inductive at_but (k : nat) : h5tree -> list string -> h5tree -> Prop :=
| but_here t : at_but k t [] t
| but_down a b n c p t : (k <= List.length b)%nat -> at_but k c p t -> at_but k (HGroup (a ++ (n, c) :: b)) (n :: p) t.

Lemma in_but A k (l : list A) x : In x (firstn (List.length l - k) l) <-> exists a b, l = a ++ x :: b /\ (k <= List.length b)%nat.
Proof.
  split.
  - intros H. apply in_split in H. destruct H as (a & b & E). exists a, (b ++ skipn (List.length l - k) l). split.
    + rewrite <- (firstn_skipn (List.length l - k) l) at 1. rewrite E, <- app_assoc. reflexivity.
    + rewrite app_length, skipn_length. assert (L : (List.length (firstn (List.length l - k) l) = List.length l - k)%nat) by (rewrite firstn_length; lia).
      rewrite E, app_length in L. cbn [List.length] in L. lia.
  - intros (a & b & -> & L). rewrite app_length. cbn [List.length]. rewrite firstn_app.
    apply in_or_app. right. replace (List.length a + S (List.length b) - k - List.length a)%nat with (S (List.length b - k)) by lia. now left.
Qed.
Lemma neg_first k i ms : (0 < k)%nat -> hdf5_paths (- Z.of_nat k) i (HGroup ms) =
  members (- Z.of_nat k) i (List.length (firstn (List.length ms - k) ms)) (firstn (List.length ms - k) ms).
Proof.
  intros K. rewrite paths_group, members_firstn. unfold prefix_len. destruct (Z.ltb_spec (- Z.of_nat k) 0); [|lia].
  replace (Z.to_nat (Z.of_nat (List.length ms) + - Z.of_nat k)) with (List.length ms - k)%nat by lia. reflexivity.
Qed.
Lemma members_okz (m : Z) i l :
  (forall n c, In (n, c) l -> c <> HBroken /\ (forall ms, c = HGroup ms -> exists o, hdf5_paths m (i + 4) c = (o, None))) ->
  exists o, members m i (List.length l) l = (o, None) /\
    forall x, In x o <-> exists n c, In (n, c) l /\ (x = (spaces i ++ n)%string \/ exists ms, c = HGroup ms /\ In x (fst (hdf5_paths m (i + 4) c))).
Proof.
  induction l as [|[k c] r IH]; intros H; [exists []; split; [reflexivity|]; intros x; split; [intros []|intros (n & c & [] & _)]|].
  destruct IH as (o & E & HO); [intros n c' Hn; apply (H n); now right|]. destruct (H k c (or_introl eq_refl)) as [NB HG].
  cbn [List.length members]. destruct c as [ms| |]; [| |congruence].
  - destruct (HG ms eq_refl) as (o1 & E1). rewrite E1, E. eexists. split; [reflexivity|]. intros x. split.
    + intros [<-|Hx]; [exists k, (HGroup ms); split; [now left|now left]|]. apply in_app_or in Hx. destruct Hx as [Hx|Hx].
      * exists k, (HGroup ms). split; [now left|]. right. exists ms. split; [reflexivity|]. now rewrite E1.
      * apply HO in Hx. destruct Hx as (n & c & Hn & D). exists n, c. split; [now right|exact D].
    + intros (n & c & [Hn|Hn] & D).
      * injection Hn as <- <-. destruct D as [->|(ms' & _ & D)]; [now left|]. rewrite E1 in D. right. apply in_or_app. now left.
      * right. apply in_or_app. right. apply HO. eauto.
  - rewrite E. eexists. split; [reflexivity|]. intros x. split.
    + intros [<-|[<-|Hx]]; [exists k, HOther; split; [now left|now left]..|]. apply HO in Hx. destruct Hx as (n & c & Hn & D). exists n, c. split; [now right|exact D].
    + intros (n & c & [Hn|Hn] & D).
      * injection Hn as <- <-. destruct D as [->|(ms' & D & _)]; [now left|discriminate].
      * right. right. apply HO. eauto.
Qed.
Lemma neg_ok (k : nat) : (0 < k)%nat -> forall t i, (exists ms, t = HGroup ms) -> (forall p, ~ at_but k t p HBroken) ->
  exists o, hdf5_paths (- Z.of_nat k) i t = (o, None) /\
    forall x, In x o <-> exists p n c, at_but k t (p ++ [n]) c /\ x = (spaces (i + 4 * List.length p) ++ n)%string.
Proof.
  intros K. induction t as [ms IH| |] using h5tree_ind2; intros i (ms' & E) NB; try discriminate. clear ms' E. rewrite neg_first by exact K.
  set (f := firstn (List.length ms - k) ms).
  assert (SUB : forall n c, In (n, c) f -> In (n, c) ms) by (intros n c H; rewrite <- (firstn_skipn (List.length ms - k) ms); apply in_or_app; now left).
  assert (DN : forall n c p t, In (n, c) f -> at_but k c p t -> at_but k (HGroup ms) (n :: p) t).
  { intros n c p t H Hp. apply in_but in H. destruct H as (a & b & -> & L). now constructor. }
  assert (UP : forall n p t, at_but k (HGroup ms) (n :: p) t -> exists c, In (n, c) f /\ at_but k c p t).
  { intros n p t H. inversion H as [|a b ? c ? ? L Hp]; subst. exists c. split; [|exact Hp]. apply in_but. eauto. }
  assert (NB' : forall n c, In (n, c) f -> forall p, ~ at_but k c p HBroken) by (intros n c H p Hp; apply (NB (n :: p)); eauto).
  destruct (members_okz (- Z.of_nat k) i f) as (o & EO & HO).
  { intros n c H. split; [intros ->; exact (NB' _ _ H [] (but_here _ _))|]. intros ms' ->.
    destruct (IH n (HGroup ms') (SUB _ _ H) (i + 4)%nat) as (o & E & _); [eauto|exact (NB' _ _ H)|eauto]. }
  exists o. split; [exact EO|]. intros x. rewrite HO. split.
  - intros (n & c & Hn & [->|(ms' & -> & Hx)]).
    + exists [], n, c. split; [eapply DN; [exact Hn|constructor]|]. cbn [List.length]. now rewrite Nat.mul_0_r, Nat.add_0_r.
    + destruct (IH n (HGroup ms') (SUB _ _ Hn) (i + 4)%nat) as (o' & E & H'); [eauto|exact (NB' _ _ Hn)|]. rewrite E in Hx. cbn [fst] in Hx. apply H' in Hx.
      destruct Hx as (p & n' & c & Hp & ->). exists (n :: p), n', c. split; [cbn [app]; eapply DN; eauto|]. f_equal. f_equal. cbn [List.length]. lia.
  - intros (p & n & c & Hp & ->). destruct p as [|q p]; cbn [app] in Hp; apply UP in Hp; destruct Hp as (c' & Hq & Hp').
    + exists n, c'. split; [exact Hq|]. left. cbn [List.length]. now rewrite Nat.mul_0_r, Nat.add_0_r.
    + exists q, c'. split; [exact Hq|]. right. assert (G : exists ms', c' = HGroup ms') by (destruct p; inversion Hp'; subst; eauto). destruct G as (ms' & ->). exists ms'. split; [reflexivity|].
      destruct (IH q (HGroup ms') (SUB _ _ Hq) (i + 4)%nat) as (o' & E & H'); [eauto|exact (NB' _ _ Hq)|]. rewrite E. cbn [fst]. apply H'. exists p, n, c. split; [exact Hp'|]. f_equal. f_equal. cbn [List.length]. lia.
Qed.

(** With maxlen = -k the lines printed are the names of the objects which can be reached without passing through one of the
    last k members of a group; a group with at most k members is shown as if it were empty. *)
Theorem C90_negative : forall (k i : nat) ms, (0 < k)%nat -> (forall p, ~ at_but k (HGroup ms) p HBroken) ->
  exists lines, hdf5_paths (- Z.of_nat k) i (HGroup ms) = (lines, None) /\
    forall x, In x lines <-> exists p n c, at_but k (HGroup ms) (p ++ [n]) c /\ x = (spaces (i + 4 * List.length p) ++ n)%string.
Proof. intros k i ms K H. apply neg_ok; eauto. Qed.
Print Assumptions C90_negative.

(** A broken link among them ends it with KeyError. *)
Theorem C90_negative_broken : forall (k i : nat) ms p, (0 < k)%nat -> at_but k (HGroup ms) p HBroken ->
  exists lines, hdf5_paths (- Z.of_nat k) i (HGroup ms) = (lines, Some EKeyError).
Proof.
  intros k i ms p K H.
  assert (G : forall t i p, (exists ms, t = HGroup ms) -> at_but k t p HBroken -> exists o, hdf5_paths (- Z.of_nat k) i t = (o, Some EKeyError)); [|eapply G; eauto].
  clear i ms p H. induction t as [ms IH| |] using h5tree_ind2; intros i p (ms' & E) H; try discriminate. clear ms' E. rewrite neg_first by exact K.
  inversion H as [|a b n c p' ? L H']; subst.
  assert (Hin : In (n, c) (firstn (List.length (a ++ (n, c) :: b) - k) (a ++ (n, c) :: b))) by (apply in_but; eauto).
  assert (SUB : In (n, c) (a ++ (n, c) :: b)) by (apply in_or_app; right; now left).
  destruct c as [ms'| |]; [| inversion H'|].
  - destruct (IH n _ SUB (i + 4)%nat p') as (o & E); [eauto|exact H'|]. eapply members_error; [exact Hin|right; split; [reflexivity|exact E]|].
    intros n' ms'' e _ He. eapply paths_keyerror; [|exact He]. eauto.
  - eapply members_error with (ms := []) (o := []); [exact Hin|now left|]. intros n' ms'' e _ He. eapply paths_keyerror; [|exact He]. eauto.
Qed.
Print Assumptions C90_negative_broken.

(** The broken link is last, so that it is not looked at. *)
Definition ends_broken : list (string * h5tree) := [("INDEX", HGroup [("flag", HOther); ("trainId", HOther)]); ("x", HOther); ("y", HBroken)].
Example C90_negative_example : (forall p, ~ at_but 1 (HGroup ends_broken) p HBroken) /\
  hdf5_paths (-1) 0 (HGroup ends_broken) = (["INDEX"; "    flag"; "    flag"; "x"; "x"], None) /\
  at_but 1 (HGroup (ends_broken ++ [("z", HOther)])) ["y"] HBroken /\
  hdf5_paths (-1) 0 (HGroup (ends_broken ++ [("z", HOther)])) = (["INDEX"; "    flag"; "    flag"; "x"; "x"; "y"], Some EKeyError).
Proof.
  split; [|split; [reflexivity|split; [|reflexivity]]].
  2: { apply (but_down 1 (firstn 2 ends_broken) [("z", HOther)] "y" HBroken [] HBroken); constructor. }
  assert (UP : forall ms q t, at_but 1 (HGroup ms) q t -> q = [] /\ t = HGroup ms \/ exists n c p, In (n, c) (firstn (List.length ms - 1) ms) /\ at_but 1 c p t).
  { intros ms q t H. inversion H as [|a b n c p ? L Hp]; subst; [now left|]. right. exists n, c, p. split; [|exact Hp]. apply in_but. eauto. }
  intros p H. apply UP in H. destruct H as [[_ H]|(n & c & q & Hin & H)]; [discriminate|].
  destruct Hin as [E|[E|[]]]; injection E as <- <-; [|inversion H].
  apply UP in H. destruct H as [[_ H]|(n & c & r & Hin & H)]; [discriminate|]. destruct Hin as [E|[]]. injection E as <- <-. inversion H.
Qed.
