From Verif Require Import Base M_Utils S_Utils L_Base.
Set Implicit Arguments.
Unset Strict Implicit.
Local Open Scope string_scope.
Local Open Scope list_scope.

Section TreeInd.
Variable P : h5tree -> Prop.
Hypothesis PG : forall ms, (forall n c, In (n, c) ms -> P c) -> P (HGroup ms).
Hypothesis PO : P HOther.
Hypothesis PB : P HBroken.
Fixpoint h5tree_ind2 (t : h5tree) : P t :=
  match t with
  | HGroup ms => PG ((fix go (l : list (string * h5tree)) : forall n c, In (n, c) l -> P c :=
      match l with
      | [] => fun n c H => match H with end
      | (k, x) :: r => fun n c H => match H with
          | or_introl E => match (f_equal snd E : x = c) in _ = y return P y with eq_refl => h5tree_ind2 x end
          | or_intror H => go r n c H end
      end) ms)
  | HOther => PO
  | HBroken => PB
  end.
End TreeInd.

Definition child (m : Z) (i : nat) (c : h5tree) : list string * option exn :=
  match c with HGroup _ => hdf5_paths m (i + 4) c | _ => ([], None) end.
Fixpoint members (m : Z) (i n : nat) (l : list (string * h5tree)) {struct l} : list string * option exn :=
  match l, n with
  | (k, c) :: r, S n =>
      let line := (spaces i ++ k)%string in
      match c with
      | HBroken => ([line], Some EKeyError)
      | HGroup _ =>
          let '(o1, e1) := hdf5_paths m (i + 4) c in
          match e1 with Some _ => (line :: o1, e1) | None => let '(o, e) := members m i n r in (line :: o1 ++ o, e) end
      | HOther => let '(o, e) := members m i n r in (line :: line :: o, e)
      end
  | _, _ => ([], None)
  end.
Lemma paths_group m i ms : hdf5_paths m i (HGroup ms) = members m i (prefix_len m (List.length ms)) ms.
Proof.
  cbn [hdf5_paths]. generalize (prefix_len m (List.length ms)). induction ms as [|[k c] r IH]; intros n; [reflexivity|].
  destruct n; [reflexivity|]. cbn [members]. destruct c; [|now rewrite IH|reflexivity]. destruct (hdf5_paths m (i + 4) (HGroup ms)) as [o1 [e|]]; [reflexivity|]. now rewrite IH.
Qed.
Lemma members_firstn m i : forall l n, members m i n l = members m i (List.length (firstn n l)) (firstn n l).
Proof.
  induction l as [|[k c] r IH]; intros [|n]; try reflexivity. cbn [firstn List.length members].
  destruct c; [|now rewrite IH|reflexivity]. destruct (hdf5_paths m (i + 4) (HGroup ms)) as [o1 [e|]]; [reflexivity|]. now rewrite IH.
Qed.
Lemma prefix_firstn (m : nat) A (l : list A) : firstn (prefix_len (Z.of_nat m) (List.length l)) l = firstn m l.
Proof.
  unfold prefix_len. destruct (Z.ltb_spec (Z.of_nat m) 0); [lia|]. rewrite Nat2Z.id. destruct (Nat.min_spec m (List.length l)) as [[A1 ->]|[A1 ->]]; [reflexivity|].
  now rewrite !firstn_all2 by lia.
Qed.
Lemma paths_first m i ms : hdf5_paths (Z.of_nat m) i (HGroup ms) = members (Z.of_nat m) i (List.length (firstn m ms)) (firstn m ms).
Proof. rewrite paths_group, members_firstn, prefix_firstn. reflexivity. Qed.

(** Broken links and lines. *)
Lemma members_ok (m i : nat) l :
  (forall n c, In (n, c) l -> c <> HBroken /\ (forall ms, c = HGroup ms -> exists o, hdf5_paths (Z.of_nat m) (i + 4) c = (o, None))) ->
  exists o, members (Z.of_nat m) i (List.length l) l = (o, None) /\
    forall x, In x o <-> exists n c, In (n, c) l /\ (x = (spaces i ++ n)%string \/ exists ms, c = HGroup ms /\ In x (fst (hdf5_paths (Z.of_nat m) (i + 4) c))).
Proof.
  induction l as [|[k c] r IH]; intros H; [exists []; split; [reflexivity|]; intros x; split; [intros []|intros (n & c & [] & _)]|].
  destruct IH as (o & E & HO); [intros n c' Hn; apply (H n); now right|]. destruct (H k c (or_introl eq_refl)) as [NB HG].
  cbn [List.length members]. destruct c as [ms| |]; [| |congruence].
  - destruct (HG ms eq_refl) as (o1 & E1). rewrite E1, E. eexists. split; [reflexivity|]. intros x. split.
    + intros [<-|Hx]; [exists k, (HGroup ms); split; [now left|now left]|]. apply in_app_or in Hx. destruct Hx as [Hx|Hx].
      * exists k, (HGroup ms). split; [now left|]. right. exists ms. split; [reflexivity|]. now rewrite E1.
      * apply HO in Hx. destruct Hx as (n & c & Hn & D). exists n, c. split; [now right|exact D].
    + intros (n & c & [Hn|Hn] & D).
      * injection Hn as <- <-. destruct D as [->|(ms' & _ & D)]; [now left|]. rewrite E1 in D. right. apply in_or_app. now left.
      * right. apply in_or_app. right. apply HO. eauto.
  - rewrite E. eexists. split; [reflexivity|]. intros x. split.
    + intros [<-|[<-|Hx]]; [exists k, HOther; split; [now left|now left]..|]. apply HO in Hx. destruct Hx as (n & c & Hn & D). exists n, c. split; [now right|exact D].
    + intros (n & c & [Hn|Hn] & D).
      * injection Hn as <- <-. destruct D as [->|(ms' & D & _)]; [now left|discriminate].
      * right. right. apply HO. eauto.
Qed.
Lemma paths_ok (m : nat) : forall t i, (exists ms, t = HGroup ms) -> (forall p, ~ at_first m t p HBroken) ->
  exists o, hdf5_paths (Z.of_nat m) i t = (o, None) /\
    forall x, In x o <-> exists p n c, at_first m t (p ++ [n]) c /\ x = (spaces (i + 4 * List.length p) ++ n)%string.
Proof.
  induction t as [ms IH| |] using h5tree_ind2; intros i (ms' & E) NB; try discriminate. clear ms' E. rewrite paths_first.
  assert (SUB : forall n c, In (n, c) (firstn m ms) -> In (n, c) ms) by (intros n c H; rewrite <- (firstn_skipn m ms); apply in_or_app; now left).
  assert (NB' : forall n c, In (n, c) (firstn m ms) -> forall p, ~ at_first m c p HBroken) by (intros n c H p Hp; apply (NB (n :: p)); econstructor; eauto).
  destruct (@members_ok m i (firstn m ms)) as (o & EO & HO).
  { intros n c H. split; [intros ->; exact (NB' _ _ H [] (first_here _ _))|]. intros ms' ->.
    destruct (IH n (HGroup ms') (SUB _ _ H) (i + 4)%nat) as (o & E & _); [eauto|exact (NB' _ _ H)|eauto]. }
  exists o. split; [exact EO|]. intros x. rewrite HO. split.
  - intros (n & c & Hn & [->|(ms' & -> & Hx)]).
    + exists [], n, c. split; [econstructor; [exact Hn|constructor]|]. cbn [List.length]. now rewrite Nat.mul_0_r, Nat.add_0_r.
    + destruct (IH n (HGroup ms') (SUB _ _ Hn) (i + 4)%nat) as (o' & E & H'); [eauto|exact (NB' _ _ Hn)|]. rewrite E in Hx. cbn [fst] in Hx. apply H' in Hx.
      destruct Hx as (p & n' & c & Hp & ->). exists (n :: p), n', c. split; [cbn [app]; econstructor; eauto|]. f_equal. f_equal. cbn [List.length]. lia.
  - intros (p & n & c & Hp & ->). destruct p as [|q p]; cbn [app] in Hp; inversion Hp as [|? ? c' ? ? Hq Hp']; subst.
    + exists n, c'. split; [exact Hq|]. left. cbn [List.length]. now rewrite Nat.mul_0_r, Nat.add_0_r.
    + exists q, c'. split; [exact Hq|]. right. assert (G : exists ms', c' = HGroup ms') by (destruct p; inversion Hp'; subst; eauto). destruct G as (ms' & ->). exists ms'. split; [reflexivity|].
      destruct (IH q (HGroup ms') (SUB _ _ Hq) (i + 4)%nat) as (o' & E & H'); [eauto|exact (NB' _ _ Hq)|]. rewrite E. cbn [fst]. apply H'. exists p, n, c. split; [exact Hp'|]. f_equal. f_equal. cbn [List.length]. lia.
Qed.
Lemma members_error (m : Z) i l n c ms o : In (n, c) l -> (c = HBroken \/ (c = HGroup ms /\ hdf5_paths m (i + 4) c = (o, Some EKeyError))) ->
  (forall n' ms' e, In (n', HGroup ms') l -> snd (hdf5_paths m (i + 4) (HGroup ms')) = Some e -> e = EKeyError) ->
  exists o', members m i (List.length l) l = (o', Some EKeyError).
Proof.
  induction l as [|[k x] r IH]; intros Hin HB HK; [contradiction|]. cbn [List.length members].
  destruct x as [ms'| |]; [| |eauto].
  - specialize (HK k ms') as HK1. destruct (hdf5_paths m (i + 4) (HGroup ms')) as [o1 [e|]] eqn:E.
    + rewrite (HK1 e); [eauto|now left|reflexivity].
    + destruct Hin as [Hin|Hin]; [injection Hin as <- <-; destruct HB as [HB|[_ HB]]; [discriminate|congruence]|].
      destruct IH as (o' & ->); [exact Hin|exact HB|intros; eapply HK; [right|]; eauto|]. eauto.
  - destruct Hin as [Hin|Hin]; [injection Hin as <- <-; destruct HB as [HB|[HB _]]; discriminate|].
    destruct IH as (o' & ->); [exact Hin|exact HB|intros; eapply HK; [right|]; eauto|]. eauto.
Qed.
Lemma members_keyerror (m : Z) i l : forall k, (forall n' ms' e, In (n', HGroup ms') l -> snd (hdf5_paths m (i + 4) (HGroup ms')) = Some e -> e = EKeyError) ->
  forall e, snd (members m i k l) = Some e -> e = EKeyError.
Proof.
  induction l as [|[n x] r IH]; intros [|k] HK e; cbn [members snd]; try discriminate.
  assert (HK' : forall n' ms' e, In (n', HGroup ms') r -> snd (hdf5_paths m (i + 4) (HGroup ms')) = Some e -> e = EKeyError) by (intros; eapply HK; [right|]; eauto).
  destruct x as [ms'| |].
  - specialize (HK n ms') as HK1. destruct (hdf5_paths m (i + 4) (HGroup ms')) as [o1 [e1|]]; cbn [snd].
    + intros E. injection E as <-. apply (HK1 e1); [now left|reflexivity].
    + specialize (IH k HK' e). destruct (members m i k r). exact IH.
  - specialize (IH k HK' e). destruct (members m i k r). exact IH.
  - intros E. now injection E as <-.
Qed.
Lemma paths_keyerror (m : Z) : forall t i e, (exists ms, t = HGroup ms) -> snd (hdf5_paths m i t) = Some e -> e = EKeyError.
Proof.
  induction t as [ms IH| |] using h5tree_ind2; intros i e (ms' & E); try discriminate. clear ms' E. rewrite paths_group. apply members_keyerror.
  intros n' ms' e' Hin H. eapply (IH n' _ Hin); eauto.
Qed.
Lemma paths_error (m : nat) : forall t i p, (exists ms, t = HGroup ms) -> at_first m t p HBroken -> exists o, hdf5_paths (Z.of_nat m) i t = (o, Some EKeyError).
Proof.
  induction t as [ms IH| |] using h5tree_ind2; intros i p (ms' & E) H; try discriminate. clear ms' E. rewrite paths_first.
  inversion H as [|? n c p' ? Hin H']; subst. assert (SUB : In (n, c) ms) by (rewrite <- (firstn_skipn m ms); apply in_or_app; now left).
  destruct c as [ms'| |]; [| inversion H'|].
  - destruct (IH n _ SUB (i + 4)%nat p') as (o & E); [eauto|exact H'|]. eapply members_error; [exact Hin|right; split; [reflexivity|exact E]|].
    intros n' ms'' e _ He. eapply paths_keyerror; [|exact He]. eauto.
  - eapply members_error with (ms := []) (o := []); [exact Hin|now left|]. intros n' ms'' e _ He. eapply paths_keyerror; [|exact He]. eauto.
Qed.

(** Reading the listing back. *)
Fixpoint lines (i : nat) (t : h5tree) : list (nat * string) :=
  match t with
  | HGroup ms => flat_map (fun nc => match snd nc with HGroup _ => (i, fst nc) :: lines (i + 4) (snd nc) | _ => [(i, fst nc); (i, fst nc)] end) ms
  | _ => []
  end.
Definition item (i : nat) (nc : string * h5tree) : list (nat * string) :=
  match snd nc with HGroup _ => (i, fst nc) :: lines (i + 4) (snd nc) | _ => [(i, fst nc); (i, fst nc)] end.
Definition show (l : nat * string) : string := (spaces (fst l) ++ snd l)%string.
Lemma tidy_down m ms n c : tidy m (HGroup ms) -> In (n, c) ms -> tidy m c.
Proof. intros T H p ms' Hp. apply (T (n :: p)). econstructor; eauto. Qed.
Lemma tidy_top m ms : tidy m (HGroup ms) -> (List.length ms <= m)%nat /\ NoDup (map fst ms) /\ forall n c, In (n, c) ms -> plain_name n /\ c <> HBroken.
Proof. intros T. apply (T []). constructor. Qed.
Lemma paths_lines (m : nat) : forall t i, (exists ms, t = HGroup ms) -> tidy m t -> hdf5_paths (Z.of_nat m) i t = (map show (lines i t), None).
Proof.
  induction t as [ms IH| |] using h5tree_ind2; intros i (ms' & E) T; try discriminate. clear ms' E. rewrite paths_first.
  destruct (tidy_top T) as (LE & _ & HN). rewrite firstn_all2 by exact LE. cbn [lines]. change (fun nc => _) with (item i) at 1.
  assert (K : forall l, incl l ms -> members (Z.of_nat m) i (List.length l) l = (map show (flat_map (item i) l), None)).
  { induction l as [|[n c] r IHl]; intros HI; [reflexivity|]. cbn [List.length members flat_map]. unfold item at 1. cbn [fst snd].
    assert (Hin : In (n, c) ms) by (apply HI; now left). rewrite IHl by (intros x Hx; apply HI; now right). destruct (HN n c Hin) as [_ NB].
    destruct c as [ms'| |]; [| |congruence].
    - rewrite (IH n _ Hin (i + 4)%nat) by (eauto using tidy_down). rewrite map_app. reflexivity.
    - reflexivity. }
  apply K. apply incl_refl.
Qed.
Lemma spaces_show i n j k : plain_name n -> plain_name k -> (spaces i ++ n)%string = (spaces j ++ k)%string -> i = j /\ n = k.
Proof.
  intros [_ P] [_ Q]. revert j. induction i as [|i IH]; intros [|j]; cbn; intros H.
  - auto.
  - subst n. now destruct P.
  - subst k. now destruct Q.
  - injection H as H. destruct (IH j H). auto.
Qed.
Definition neat (l : nat * string) : Prop := plain_name (snd l).
Lemma show_inj : forall a b, Forall neat a -> Forall neat b -> map show a = map show b -> a = b.
Proof.
  induction a as [|[i n] a IH]; intros [|[j k] b] Ha Hb E; cbn in E; try discriminate; [reflexivity|]. injection E as E1 E2.
  inversion Ha; inversion Hb; subst. destruct (@spaces_show i n j k) as [-> ->]; auto. f_equal. auto.
Qed.
Lemma lines_neat m : forall t i, tidy m t -> Forall neat (lines i t).
Proof.
  induction t as [ms IH| |] using h5tree_ind2; intros i T; cbn [lines]; [|constructor..]. apply Forall_forall. intros x Hx. apply in_flat_map in Hx. destruct Hx as ([n c] & Hin & Hx). cbn [fst snd] in Hx.
  destruct (tidy_top T) as (_ & _ & HN). destruct (HN n c Hin) as [P _]. destruct c as [ms'| |].
  - destruct Hx as [<-|Hx]; [exact P|]. pose proof (IH n _ Hin (i + 4)%nat (tidy_down T Hin)) as F. rewrite Forall_forall in F. auto.
  - destruct Hx as [<-|[<-|[]]]; exact P.
  - destruct Hx as [<-|[<-|[]]]; exact P.
Qed.
(** Text. *)
Lemma cut_line : forall a b r s, ~ In "010"%char (list_ascii_of_string a) -> ~ In "010"%char (list_ascii_of_string b) ->
  (a ++ String "010" r)%string = (b ++ String "010" s)%string -> a = b /\ r = s.
Proof.
  induction a as [|c a IH]; intros [|d b] r s Ha Hb E; cbn in *.
  - now injection E as <-.
  - injection E as <- _. exfalso. apply Hb. now left.
  - injection E as -> _. exfalso. apply Ha. now left.
  - injection E as <- E. destruct (IH b r s) as [-> ->]; auto.
Qed.
Lemma sapp_assoc' : forall a b c, ((a ++ b) ++ c)%string = (a ++ (b ++ c))%string.
Proof. induction a as [|x a IH]; intros b c; cbn; [reflexivity|now rewrite IH]. Qed.
Lemma printed_cons l r : printed (l :: r) = (l ++ String "010" (printed r))%string.
Proof.
  unfold printed. cbn [map]. destruct (map _ r) as [|x y] eqn:E; cbn [String.concat].
  - reflexivity.
  - rewrite sapp_assoc'. reflexivity.
Qed.
Lemma printed_inj : forall a b, (forall x, In x a -> ~ In "010"%char (list_ascii_of_string x)) -> (forall x, In x b -> ~ In "010"%char (list_ascii_of_string x)) ->
  printed a = printed b -> a = b.
Proof.
  assert (NE : forall x r, printed (x :: r) <> "") by (intros x r; rewrite printed_cons; destruct x; discriminate).
  induction a as [|x a IH]; intros [|y b] Ha Hb E.
  - reflexivity.
  - symmetry in E. now apply NE in E.
  - now apply NE in E.
  - rewrite !printed_cons in E. apply cut_line in E; [|apply Ha; now left|apply Hb; now left]. destruct E as [-> E]. f_equal. apply IH; auto with datatypes.
Qed.
Lemma show_line l : neat l -> ~ In "010"%char (list_ascii_of_string (show l)).
Proof.
  intros [P _]. destruct l as [i n]. unfold show. cbn [fst snd] in *. induction i as [|i IH]; [exact P|]. cbn. intros [H|H]; [discriminate|]. now apply IH.
Qed.
(** The lines of a forest end where the indentation becomes smaller. *)
Definition below (i : nat) (r : list (nat * string)) : Prop := match r with [] => True | (j, _) :: _ => (j < i)%nat end.
Lemma item_head i nc : exists r, item i nc = (i, fst nc) :: r.
Proof. unfold item. destruct (snd nc); eauto. Qed.
Lemma forest_below i l r : below i r -> below (i + 4) (flat_map (item i) l ++ r).
Proof.
  intros B. destruct l as [|nc l]; cbn [flat_map app].
  - destruct r as [|[j k] r]; cbn in *; [exact I|lia].
  - destruct (item_head i nc) as (x & ->). cbn. lia.
Qed.
Lemma forest_inj m : forall t t' i r r', (exists ms, t = HGroup ms) -> (exists ms, t' = HGroup ms) -> tidy m t -> tidy m t' -> below i r -> below i r' ->
  lines i t ++ r = lines i t' ++ r' -> t = t' /\ r = r'.
Proof.
  induction t as [ms IH| |] using h5tree_ind2; intros t' i r r' (x & E) (ms' & E') T T' B B' EQ; try discriminate. clear x E. subst t'.
  destruct (tidy_top T) as (_ & ND & HN). destruct (tidy_top T') as (_ & ND' & HN'). cbn [lines] in EQ. change (fun nc => _) with (item i) in EQ.
  assert (K : forall l l', incl l ms -> incl l' ms' -> NoDup (map fst l) -> NoDup (map fst l') -> flat_map (item i) l ++ r = flat_map (item i) l' ++ r' -> l = l' /\ r = r').
  { clear EQ. induction l as [|[n c] l IHl]; intros [|[n' c'] l'] HI HI' N N' EQ.
    - auto.
    - exfalso. cbn [flat_map app] in EQ. destruct (item_head i (n', c')) as (y & E). rewrite E in EQ. cbn in EQ. subst r. cbn in B. lia.
    - exfalso. cbn [flat_map app] in EQ. destruct (item_head i (n, c)) as (y & E). rewrite E in EQ. cbn in EQ. subst r'. cbn in B'. lia.
    - cbn [flat_map] in EQ. rewrite <- !app_assoc in EQ. pose proof (HI _ (or_introl eq_refl)) as Hin. pose proof (HI' _ (or_introl eq_refl)) as Hin'.
      assert (SI : incl l ms) by (intros y Hy; apply HI; now right). assert (SI' : incl l' ms') by (intros y Hy; apply HI'; now right).
      cbn in N, N'. inversion N as [|? ? N1 N2]; subst. inversion N' as [|? ? N1' N2']; subst.
      destruct (HN _ _ Hin) as [_ NB]. destruct (HN' _ _ Hin') as [_ NB'].
      unfold item at 1 3 in EQ. cbn [fst snd] in EQ.
      assert (CLASH : forall k j l0 tail rest, ~ In k (map fst l0) -> below i rest -> (i, k) :: tail = flat_map (item i) l0 ++ rest -> j = i -> False).
      { intros k j l0 tail rest NI BR E _. destruct l0 as [|[a b] l0]; cbn [flat_map app] in E.
        - subst rest. cbn in BR. lia.
        - destruct (item_head i (a, b)) as (y & E2). rewrite E2 in E. cbn in E. injection E as -> _. apply NI. now left. }
      destruct c as [mc| |]; [| |congruence]; (destruct c' as [mc'| |]; [| |congruence]).
      + cbn [app] in EQ. injection EQ as <- EQ. destruct (IH n (HGroup mc) Hin (HGroup mc') (i + 4)%nat (flat_map (item i) l ++ r) (flat_map (item i) l' ++ r')) as [E1 E2]; eauto using tidy_down, forest_below.
        destruct (IHl l' SI SI' N2 N2' E2) as [-> ->]. split; [|reflexivity]. congruence.
      + exfalso. cbn [app] in EQ. injection EQ as <- EQ. destruct mc as [|[a b] mc]; cbn [lines flat_map] in EQ.
        * cbn [app] in EQ. symmetry in EQ. eapply CLASH; [exact N1|exact B|exact EQ|reflexivity].
        * change (match snd (a, b) with HGroup _ => _ | _ => _ end) with (item (i + 4) (a, b)) in EQ. destruct (item_head (i + 4) (a, b)) as (y & E2). rewrite E2 in EQ. cbn in EQ. injection EQ as EQ _ _. lia.
      + exfalso. cbn [app] in EQ. injection EQ as <- EQ. destruct mc' as [|[a b] mc']; cbn [lines flat_map] in EQ.
        * cbn [app] in EQ. eapply CLASH; [exact N1'|exact B'|exact EQ|reflexivity].
        * change (match snd (a, b) with HGroup _ => _ | _ => _ end) with (item (i + 4) (a, b)) in EQ. destruct (item_head (i + 4) (a, b)) as (y & E2). rewrite E2 in EQ. cbn in EQ. injection EQ as EQ _ _. lia.
      + cbn [app] in EQ. injection EQ as <- _ EQ. destruct (IHl l' SI SI' N2 N2' EQ) as [-> ->]. auto. }
  destruct (K ms ms' (incl_refl _) (incl_refl _) ND ND' EQ) as [-> ->]. auto.
Qed.
