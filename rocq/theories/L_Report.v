(** The reports of validation are what is wrong. *)
From Verif Require Import Base PyStr M_Files M_Machinery M_Reader M_Validation S_Reader S_Validation S_Report L_Base L_Machinery L_Reader L_GetArray L_Components L_Validation L_Validation2.
Set Implicit Arguments.
Unset Strict Implicit.
Local Open Scope string_scope.
Local Open Scope list_scope.

Section F.
Context {V : Type}.
Variable fa : faccess V.
Let n := List.length (fa_tids fa).

Lemma entries_read s g G : dict_get (ix_path s g) (h5_index (fa_file fa)) = Some G -> even_index fa G -> small_index G -> index_typed G ->
  exists F C, fa_get_index fa s g = Ok (F, C) /\ List.length F = Nat.min n (List.length (ix_first G)) /\ List.length C = List.length F /\
    (forall p a, nth_error F p = Some a <-> (p < n)%nat /\ nth_error (ix_first G) p = Some a) /\
    (forall p a c, nth_error F p = Some a /\ nth_error C p = Some c <-> index_entry G n p a c).
Proof.
  intros HG HE [S1 S2] HT.
  assert (X : exists F C, fa_get_index fa s g = Ok (F, C) /\ List.length F = Nat.min n (List.length (ix_first G)) /\ List.length C = List.length F /\ F = firstn n (ix_first G)).
  { unfold fa_get_index. rewrite HG. fold n. unfold even_index in HE. fold n in HE. destruct (ix_more G) as [c|l st].
    - do 2 eexists. split; [reflexivity|]. rewrite !firstn_length. auto.
    - destruct HE as [E1 E2]. unfold zip3. rewrite !firstn_length, E1, E2, Nat.eqb_refl. cbn [andb bind]. do 2 eexists. split; [reflexivity|].
      rewrite firstn_length, map_length, !combine_length, !firstn_length. split; [reflexivity|]. split; [lia|reflexivity]. }
  destruct X as (F & C & H & L1 & L2 & EF). exists F, C. split; [exact H|]. split; [exact L1|]. split; [exact L2|].
  assert (HF : forall p a, nth_error F p = Some a <-> (p < n)%nat /\ nth_error (ix_first G) p = Some a).
  { intros p a. rewrite EF, nth_error_firstn. destruct (Nat.ltb_spec p n); split; [auto|intros [_ X]; exact X|discriminate|lia]. }
  split; [exact HF|]. intros p a c. destruct (index_entries HG HT H) as [_ EC]. unfold index_entry. split.
  - intros [H1 H2]. apply HF in H1 as [P1 P2]. destruct (EC p c H2) as (c' & E1 & E2). assert (B := S2 p c' E1).
    rewrite u64_id in E2 by (unfold u64_range; lia). subst c'. auto.
  - intros (P1 & P2 & P3). assert (HFp : nth_error F p = Some a) by (apply HF; auto). split; [exact HFp|].
    destruct (nth_error_ex C (n := p)) as [c0 Hc]; [apply nth_error_Some_lt in HFp; lia|]. destruct (EC p c0 Hc) as (c' & E1 & E2).
    rewrite P3 in E1. injection E1 as <-. assert (B := S2 p c P3). rewrite u64_id in E2 by (unfold u64_range; lia). congruence.
Qed.

(** ** Data outside the dataset *)
Lemma np_max_spec : forall l, Forall (Z.le 0) l -> l <> [] -> In (np_max l) l /\ forall x, In x l -> (x <= np_max l)%Z.
Proof.
  induction l as [|x l IH]; intros H0 Hn; [congruence|]. inversion H0 as [|? ? X0 L0]; subst. cbn [np_max fold_right] in *. fold (np_max l) in *.
  destruct l as [|y l].
  - cbn. split; [left; lia|]. intros z [<-|[]]. lia.
  - destruct (IH L0) as [I1 I2]; [discriminate|]. split.
    + destruct (Z.max_spec x (np_max (y :: l))) as [[_ ->]|[_ ->]]; [now right|now left].
    + intros z [<-|Hz]; [lia|]. specialize (I2 z Hz). lia.
Qed.
Lemma key_report s k G ds : indexed_field fa s k G ds -> even_index fa G -> small_index G -> index_typed G ->
  exists ps, check_key fa s k = Ok ps /\ forall pk, In pk ps <-> exists e, pk = POutside (data_key false s k) e (Z.of_nat (List.length (ds_rows ds))) /\
    (Z.of_nat (List.length (ds_rows ds)) < e)%Z /\ (exists p a c, index_entry G n p a c /\ e = (a + c)%Z) /\ (forall p a c, index_entry G n p a c -> (a + c <= e)%Z).
Proof.
  intros (_ & _ & HG & Hds) HE HS HT. rewrite <- ix_path_inst in HG. destruct (entries_read HG HE HS HT) as (F & C & Hix & L1 & L2 & HF & HEn).
  unfold check_key. rewrite Hix. cbn [bind]. rewrite ds_path_inst. unfold fa_dataset. rewrite Hds. cbn [bind]. rewrite (np_bin_same _ (eq_sym L2)). cbn [bind].
  set (rows := Z.of_nat (List.length (ds_rows ds))). set (ends := map _ (combine F C)). eexists. split; [reflexivity|].
  assert (IN : forall e, In e ends <-> exists p a c, index_entry G n p a c /\ e = (a + c)%Z).
  { intros e. unfold ends. rewrite in_map_iff. split.
    - intros ([a c] & <- & H). apply In_nth_error in H as [p H]. apply nth_combine in H. apply HEn in H. exists p, a, c. split; [exact H|].
      destruct H as (_ & A & B). destruct HS as [S1 S2]. specialize (S1 _ _ A). specialize (S2 _ _ B). cbn [fst snd]. apply u64_id. unfold u64_range. lia.
    - intros (p & a & c & H & ->). exists (a, c). assert (H' := H). apply HEn in H'. apply nth_combine in H'. split; [|eapply nth_error_In; exact H'].
      destruct H as (_ & A & B). destruct HS as [S1 S2]. specialize (S1 _ _ A). specialize (S2 _ _ B). cbn [fst snd]. apply u64_id. unfold u64_range. lia. }
  assert (NN : Forall (Z.le 0) ends).
  { apply Forall_forall. intros e He. apply IN in He as (p & a & c & (_ & A & B) & ->). destruct HS as [S1 S2]. specialize (S1 _ _ A). specialize (S2 _ _ B). lia. }
  intros pk. destruct (existsb _ ends) eqn:E.
  - apply existsb_exists in E as (e0 & H0 & Hlt). apply Z.ltb_lt in Hlt.
    destruct (np_max_spec NN) as [M1 M2]; [intros X; rewrite X in H0; destruct H0|]. split.
    + intros [<-|[]]. exists (np_max ends). split; [reflexivity|]. split; [specialize (M2 _ H0); lia|]. split; [now apply IN|].
      intros p a c H. apply M2. apply IN. eauto.
    + intros (e & -> & He & H1 & H2). left. f_equal. apply IN in H1. apply Z.le_antisymm; [|exact (M2 _ H1)].
      apply IN in M1 as (p & a & c & Hp & Em). rewrite Em. now apply (H2 p).
  - split; [intros []|]. intros (e & -> & He & H1 & _). apply IN in H1. rewrite existsb_false_iff in E. specialize (E e H1). apply Z.ltb_ge in E. lia.
Qed.

(** ** The index *)
Lemma counted_nonzero (P : nat -> Prop) (l : list bool) p r : (forall q, nth_error l q = Some true <-> P q) -> nonzero l = p :: r -> counted P (List.length (nonzero l)) p.
Proof.
  intros HP E. exists r. assert (S := nonzero_from_sorted l 0). fold (nonzero l) in S. rewrite E in S. split; [exact S|]. split.
  - intros q. rewrite <- E, nonzero_spec. apply HP.
  - now rewrite E.
Qed.
Lemma counted_unique P k p k' p' : counted P k p -> counted P k' p' -> k = k' /\ p = p'.
Proof.
  intros (l & S & I & ->) (l' & S' & I' & ->).
  assert (E : p :: l = p' :: l').
  { revert S S'. assert (X : forall q, In q (p :: l) <-> In q (p' :: l')) by (intros q; rewrite I, I'; reflexivity). clear I I'. revert X.
    generalize (p :: l) (p' :: l'). intros a. induction a as [|x a IH]; intros b X S S'.
    - destruct b as [|y b]; [reflexivity|]. exfalso. apply (proj2 (X y)). now left.
    - destruct b as [|y b]; [exfalso; apply (proj1 (X x)); now left|]. inversion S as [|? ? S1 F1]; subst. inversion S' as [|? ? S2 F2]; subst.
      rewrite Forall_forall in F1, F2.
      assert (x = y).
      { destruct (proj1 (X x) (or_introl eq_refl)) as [->|H1]; [reflexivity|]. destruct (proj2 (X y) (or_introl eq_refl)) as [->|H2]; [reflexivity|].
        specialize (F1 _ H2). specialize (F2 _ H1). lia. }
      subst y. f_equal. apply IH; [|assumption|assumption]. intros q. split; intros H.
      + destruct (proj1 (X q) (or_intror H)) as [<-|H']; [|exact H']. specialize (F1 _ H). lia.
      + destruct (proj2 (X q) (or_intror H)) as [<-|H']; [|exact H']. specialize (F2 _ H). lia. }
  injection E as -> ->. auto.
Qed.

Definition group_wrong (index : string) (G : ix_group) (pk : problem_kind) : Prop :=
  match pk with
  | PWrongNumber i nf nt => i = index /\ nf = List.length (ix_first G) /\ nt = n /\ (nf < nt)%nat
  | PNotAtZero i => i = index /\ exists a, nth_error (ix_first G) 0 = Some a /\ a <> 0%Z
  | PGaps i m pos a c b => i = index /\ counted (gap_at G n) m pos /\ index_entry G n pos a c /\ nth_error (ix_first G) (S pos) = Some b
  | POverlaps i m pos a c b => i = index /\ counted (overlap_at G n) m pos /\ index_entry G n pos a c /\ nth_error (ix_first G) (S pos) = Some b
  | _ => False
  end.
Lemma group_report s k G ds : indexed_field fa s k G ds -> even_index fa G -> small_index G -> index_typed G -> (0 < n)%nat -> ix_first G <> [] ->
  exists ps, check_group fa s (key_group k) = Ok ps /\ forall pk, In pk ps <-> group_wrong ("INDEX/" ++ index_key false s k)%string G pk.
Proof.
  intros (_ & _ & HG & Hds) HE HS HT Hn Hne. rewrite <- ix_path_inst in HG. destruct (entries_read HG HE HS HT) as (F & C & Hix & L1 & L2 & HF & HEn).
  unfold check_group. rewrite Hix. cbn [bind]. fold n. rewrite L2, Nat.eqb_refl. cbn [app]. rewrite <- ix_path_inst. set (index := ("INDEX/" ++ ix_path s (key_group k))%string).
  destruct (ix_first G) as [|f0 fr] eqn:EF; [congruence|]. rewrite <- EF in *.
  assert (F0 : nth_error F 0 = Some f0) by (apply HF; rewrite EF; auto).
  unfold check_index_contiguous, nth_res. rewrite F0. cbn [bind]. rewrite (np_bin_same _ (eq_sym L2)). cbn [bind]. set (ends := map _ (combine F C)).
  assert (Lends : List.length ends = List.length F) by (unfold ends; rewrite map_length, combine_length; lia).
  rewrite np_bin_same by (rewrite removelast_length, skipn_length; lia). cbn [bind].
  set (gaps := map _ (combine (skipn 1 F) (removelast ends))).
  assert (Hgaps : forall p g, nth_error gaps p = Some g <-> exists a c b, index_entry G n p a c /\ (S p < n)%nat /\ nth_error (ix_first G) (S p) = Some b /\ g = (b - (a + c))%Z).
  { intros p g. unfold gaps. split.
    - intros H. apply nth_map_inv in H as ([b e] & H & ->). apply nth_combine in H as [H1 H2].
      rewrite nth_error_skipn in H1. cbn [Nat.add] in H1. pose proof (nth_error_Some_lt _ _ H1) as Hl.
      rewrite nth_removelast in H2 by lia. unfold ends in H2. apply nth_map_inv in H2 as ([a c] & H2 & ->). apply nth_combine in H2. apply HEn in H2.
      apply HF in H1 as [P1 P2]. exists a, c, b. split; [exact H2|]. split; [exact P1|]. split; [exact P2|]. destruct H2 as (_ & A & B).
      destruct HS as [S1 S2]. assert (B1 := S1 _ _ A). assert (B2 := S2 _ _ B). assert (B3 := S1 _ _ P2). cbn [fst snd]. unfold gap_f64. rewrite u64_id by (unfold u64_range; lia).
      unfold to_i64. destruct (Z.ltb_spec b (2 ^ 63)); [|lia]. rewrite !to_f64_small by lia. reflexivity.
    - intros (a & c & b & H2 & P1 & P2 & ->). rewrite nth_error_map. assert (H1 : nth_error F (S p) = Some b) by (apply HF; auto).
      assert (Hl := nth_error_Some_lt _ _ H1). assert (H3 := H2). apply HEn in H3. apply nth_combine in H3.
      rewrite (proj2 (nth_combine (skipn 1 F) (removelast ends) p b (u64 (a + c)))).
      2:{ split; [now rewrite nth_error_skipn|]. rewrite nth_removelast by lia. unfold ends. rewrite nth_error_map, H3. reflexivity. }
      cbn [option_map fst snd]. f_equal. destruct H2 as (_ & A & B).
      destruct HS as [S1 S2]. assert (B1 := S1 _ _ A). assert (B2 := S2 _ _ B). assert (B3 := S1 _ _ P2). unfold gap_f64. rewrite u64_id by (unfold u64_range; lia).
      unfold to_i64. destruct (Z.ltb_spec b (2 ^ 63)); [|lia]. rewrite !to_f64_small by lia. reflexivity. }
  assert (G1 : forall q, nth_error (map (fun g => (0 <? g)%Z) gaps) q = Some true <-> gap_at G n q).
  { intros q. rewrite nth_error_map. split.
    - destruct (nth_error gaps q) as [g|] eqn:Eg; [|discriminate]. cbn. intros H. injection H as H. apply Z.ltb_lt in H.
      apply Hgaps in Eg as (a & c & b & X1 & X2 & X3 & ->). exists a, c, b. split; [exact X1|]. split; [exact X2|]. split; [exact X3|]. lia.
    - intros (a & c & b & X1 & X2 & X3 & X4). rewrite (proj2 (Hgaps q (b - (a + c))%Z)) by eauto 8. cbn. f_equal. apply Z.ltb_lt. lia. }
  assert (G2 : forall q, nth_error (map (fun g => (g <? 0)%Z) gaps) q = Some true <-> overlap_at G n q).
  { intros q. rewrite nth_error_map. split.
    - destruct (nth_error gaps q) as [g|] eqn:Eg; [|discriminate]. cbn. intros H. injection H as H. apply Z.ltb_lt in H.
      apply Hgaps in Eg as (a & c & b & X1 & X2 & X3 & ->). exists a, c, b. split; [exact X1|]. split; [exact X2|]. split; [exact X3|]. lia.
    - intros (a & c & b & X1 & X2 & X3 & X4). rewrite (proj2 (Hgaps q (b - (a + c))%Z)) by eauto 8. cbn. f_equal. apply Z.ltb_lt. lia. }
  (* one report *)
  assert (R : forall (P : nat -> Prop) ixs mk, (forall q, nth_error ixs q = Some true <-> P q) ->
     (forall q, P q -> exists a c b, index_entry G n q a c /\ (S q < n)%nat /\ nth_error (ix_first G) (S q) = Some b) ->
     exists ps, match nonzero ixs with
                | [] => Ok []
                | pos :: _ => let* f := match nth_error F pos with Some x => Ok x | None => Err EIndexError end in
                    let* c := match nth_error C pos with Some x => Ok x | None => Err EIndexError end in
                    let* n0 := match nth_error F (S pos) with Some x => Ok x | None => Err EIndexError end in
                    Ok [mk index (List.length (nonzero ixs)) pos f c n0]
                end = Ok ps /\
       forall pk : problem_kind, In pk ps <-> exists m pos a c b, pk = mk index m pos a c b /\ counted P m pos /\ index_entry G n pos a c /\ nth_error (ix_first G) (S pos) = Some b).
  { intros P ixs mk HP HPe. destruct (nonzero ixs) as [|p r] eqn:E.
    - exists []. split; [reflexivity|]. intros pk. split; [intros []|]. intros (m & pos & a & c & b & _ & (l & _ & I & _) & _).
      assert (X : P pos) by (apply I; now left). apply HP in X. apply nonzero_spec in X. rewrite E in X. exact X.
    - assert (X : P p) by (apply HP; apply nonzero_spec; rewrite E; now left). destruct (HPe p X) as (a & c & b & Y1 & Y2 & Y3).
      assert (Z1 := proj2 (HEn p a c) Y1). destruct Z1 as [Z1 Z2]. assert (Z3 : nth_error F (S p) = Some b) by (apply HF; auto).
      rewrite Z1, Z2, Z3. cbn [bind]. eexists. split; [reflexivity|]. assert (CT := counted_nonzero HP E). rewrite E in CT. intros pk. split.
      + intros [<-|[]]. exists (List.length (p :: r)), p, a, c, b. split; [reflexivity|]. split; [exact CT|]. split; [exact Y1|exact Y3].
      + intros (m & pos & a' & c' & b' & -> & CT' & Y1' & Y3'). destruct (counted_unique CT CT') as [<- <-]. left.
        destruct Y1 as (_ & A & B). destruct Y1' as (_ & A' & B'). congruence. }
  assert (W1 : forall q, gap_at G n q -> exists a c b, index_entry G n q a c /\ (S q < n)%nat /\ nth_error (ix_first G) (S q) = Some b).
  { intros q (a & c & b & X1 & X2 & X3 & _). eauto 7. }
  assert (W2 : forall q, overlap_at G n q -> exists a c b, index_entry G n q a c /\ (S q < n)%nat /\ nth_error (ix_first G) (S q) = Some b).
  { intros q (a & c & b & X1 & X2 & X3 & _). eauto 7. }
  destruct (R _ _ PGaps G1 W1) as (p1 & E1 & I1). destruct (R _ _ POverlaps G2 W2) as (p2 & E2 & I2). clear R.
  rewrite E1. cbn [bind]. rewrite E2. cbn [bind]. eexists. split; [reflexivity|]. intros pk. rewrite !in_app_iff, I1, I2.
  assert (NW : In pk (if Nat.eqb (List.length F) n then [] else [PWrongNumber index (List.length F) n]) <->
     pk = PWrongNumber index (List.length (ix_first G)) n /\ (List.length (ix_first G) < n)%nat).
  { rewrite L1. destruct (Nat.eqb_spec (Nat.min n (List.length (ix_first G))) n).
    - split; [intros []|]. intros [_ H]. lia.
    - rewrite Nat.min_r by lia. split; [intros [<-|[]]; split; [reflexivity|lia]|]. intros [-> _]. now left. }
  assert (NZ : In pk (if (f0 =? 0)%Z then [] else [PNotAtZero index]) <-> pk = PNotAtZero index /\ f0 <> 0%Z).
  { destruct (Z.eqb_spec f0 0); cbn [In]; split; intros H; try tauto.
    - destruct H as [<-|[]]. auto.
    - destruct H as [-> _]. auto. }
  rewrite NW, NZ. split.
  - intros [[-> H]|[[-> H]|[(m & pos & a & c & b & -> & H)|(m & pos & a & c & b & -> & H)]]]; cbn [group_wrong]; [auto| |auto|auto].
    split; [reflexivity|]. exists f0. rewrite EF. auto.
  - destruct pk; cbn [group_wrong]; try tauto.
    + intros (-> & -> & -> & H). left. auto.
    + intros (-> & a & H & N). rewrite EF in H. injection H as <-. auto.
    + intros (-> & H). right; right; left. eauto 8.
    + intros (-> & H). right; right; right. eauto 8.
Qed.

(** ** Train IDs *)
Lemma index_first_zero l : existsb (Z.eqb 0) l = true -> nth_error l (z_index 0 l) = Some 0%Z /\ forall q, (q < z_index 0 l)%nat -> nth_error l q <> Some 0%Z.
Proof.
  induction l as [|x l IH]; intros H; [discriminate|]. destruct (Z.eq_dec x 0) as [->|N].
  - split; [reflexivity|]. intros q Hq. change (z_index 0 (0%Z :: l)) with 0%nat in Hq. lia.
  - assert (H' : existsb (Z.eqb 0) l = true) by (simpl in H; destruct x; [contradiction|exact H|exact H]).
    rewrite (z_index_cons N H'). destruct (IH H') as [I1 I2]. split; [exact I1|]. intros [|q] Hq; cbn; [congruence|]. apply I2. lia.
Qed.
Lemma trainids_report raw : h5_trainid (fa_file fa) = Some raw ->
  exists ps, check_trainids fa = Ok ps /\ forall pk, In pk ps <-> match pk with PZeroesBefore | PNotIncreasing _ _ _ => is_wrong fa pk | _ => False end.
Proof.
  intros Hraw. unfold check_trainids. rewrite Hraw. eexists. split; [reflexivity|].
  assert (NZ : (if existsb (Z.eqb 0) raw then filter (fun t => negb (t =? 0)%Z) raw else raw) = filter (fun t => negb (t =? 0)%Z) raw).
  { destruct (existsb (Z.eqb 0) raw) eqn:E; [reflexivity|]. now rewrite existsb_zero_false. }
  rewrite NZ. set (nz := filter _ raw).
  assert (Z1 : forall pk, In pk (if existsb (Z.eqb 0) raw then if forallb (Z.eqb 0) (skipn (z_index 0 raw) raw) then [] else [PZeroesBefore] else []) <->
     pk = PZeroesBefore /\ is_wrong fa PZeroesBefore).
  { intros pk. cbn [is_wrong]. destruct (existsb (Z.eqb 0) raw) eqn:E.
    - destruct (index_first_zero E) as [I1 I2]. destruct (forallb (Z.eqb 0) (skipn (z_index 0 raw) raw)) eqn:E2.
      + split; [intros []|]. intros [_ (raw' & i & j & t & Hr & Hij & Hi & Hj & Ht)]. rewrite Hraw in Hr. injection Hr as <-.
        assert (Q : (z_index 0 raw <= i)%nat) by (apply Nat.nlt_ge; intros Q; exact (I2 i Q Hi)).
        rewrite forallb_forall in E2. assert (X : In t (skipn (z_index 0 raw) raw)).
        { apply nth_error_In with (n := (j - z_index 0 raw)%nat). rewrite nth_error_skipn. replace (z_index 0 raw + (j - z_index 0 raw))%nat with j by lia. exact Hj. }
        specialize (E2 t X). apply Z.eqb_eq in E2. congruence.
      + split.
        * intros [<-|[]]. split; [reflexivity|]. assert (X : exists t, In t (skipn (z_index 0 raw) raw) /\ t <> 0%Z).
          { clear -E2. induction (skipn (z_index 0 raw) raw) as [|x l IH]; [discriminate|]. cbn [forallb] in E2. destruct (Z.eqb_spec 0 x) as [<-|N].
            - destruct (IH E2) as (t & A & B). exists t. split; [now right|exact B].
            - exists x. split; [now left|congruence]. }
          destruct X as (t & X & N). apply In_nth_error in X as [q X]. rewrite nth_error_skipn in X.
          exists raw, (z_index 0 raw), (z_index 0 raw + q)%nat, t. split; [exact Hraw|]. split; [|auto].
          destruct q; [|lia]. rewrite Nat.add_0_r in X. congruence.
        * intros [-> _]. now left.
    - split; [intros []|]. intros [_ (raw' & i & j & t & Hr & Hij & Hi & Hj & Ht)]. rewrite Hraw in Hr. injection Hr as <-.
      apply nth_error_In in Hi. rewrite existsb_false_iff in E. specialize (E _ Hi). discriminate. }
  assert (PAIR : forall q, nth_error (incr_pairs nz) q = Some true <-> exists a b, nth_error nz q = Some a /\ nth_error nz (S q) = Some b /\ (b <= a)%Z).
  { intros q. unfold incr_pairs. split.
    - intros H. apply nth_map_inv in H as ([a b] & H & E). apply nth_combine in H as [H1 H2]. rewrite nth_error_skipn in H2. exists a, b.
      split; [exact H1|]. split; [exact H2|]. symmetry in E. now apply Z.leb_le in E.
    - intros (a & b & H1 & H2 & H3). rewrite nth_error_map, (proj2 (nth_combine nz (skipn 1 nz) q a b)); [|split; [exact H1|now rewrite nth_error_skipn]].
      cbn. f_equal. now apply Z.leb_le. }
  assert (Z2 : forall pk, In pk (if (1 <? List.length nz)%nat
          then match nonzero (map (fun p : Z * Z => (snd p <=? fst p)%Z) (combine nz (skipn 1 nz))) with
               | [] => [] | pos :: _ => [PNotIncreasing pos (nth pos nz 0%Z) (nth (S pos) nz 0%Z)] end
          else []) <-> exists pos a b, pk = PNotIncreasing pos a b /\ is_wrong fa pk).
  { intros pk. fold (incr_pairs nz).
    assert (X : (if (1 <? List.length nz)%nat then match nonzero (incr_pairs nz) with
               | [] => [] | pos :: _ => [PNotIncreasing pos (nth pos nz 0%Z) (nth (S pos) nz 0%Z)] end else []) =
               match nonzero (incr_pairs nz) with [] => [] | pos :: _ => [PNotIncreasing pos (nth pos nz 0%Z) (nth (S pos) nz 0%Z)] end).
    { destruct (Nat.ltb_spec 1 (List.length nz)) as [L|L]; [reflexivity|]. destruct nz as [|x [|y r]]; cbn in L; try lia; reflexivity. }
    rewrite X. clear X. destruct (nonzero (incr_pairs nz)) as [|p r] eqn:E.
    - split; [intros []|]. intros (pos & a & b & -> & raw' & ids & Hr & -> & A & B & Hle & _). rewrite Hraw in Hr. injection Hr as <-. fold nz in A, B.
      apply (proj1 (nonzero_nil _) E pos). apply PAIR. eauto.
    - assert (Hp : nth_error (incr_pairs nz) p = Some true) by (apply nonzero_spec; rewrite E; now left).
      apply PAIR in Hp as (a & b & A & B & Hle).
      assert (FST : forall i, (i < p)%nat -> nth_error (incr_pairs nz) i = Some false).
      { intros i Hi. assert (Y := @nonzero_from_hd (incr_pairs nz) 0 p r E i ltac:(lia) Hi). now rewrite Nat.sub_0_r in Y. }
      rewrite (nth_error_nth _ _ 0%Z A), (nth_error_nth _ _ 0%Z B). split.
      + intros [<-|[]]. exists p, a, b. split; [reflexivity|]. exists raw, nz. split; [exact Hraw|]. split; [reflexivity|]. split; [exact A|]. split; [exact B|].
        split; [exact Hle|]. intros i x y Hi Hx Hy. destruct (Z.lt_ge_cases x y) as [L|L]; [exact L|].
        assert (Y : nth_error (incr_pairs nz) i = Some true) by (apply PAIR; eauto). rewrite (FST i Hi) in Y. discriminate.
      + intros (pos & a' & b' & -> & raw' & ids & Hr & -> & A' & B' & Hle' & Hf'). rewrite Hraw in Hr. injection Hr as <-. fold nz in A', B', Hf'.
        left. assert (p = pos).
        { destruct (Nat.lt_trichotomy p pos) as [L|[L|L]]; [|exact L|].
          - specialize (Hf' p a b L A B). lia.
          - assert (Y : nth_error (incr_pairs nz) pos = Some true) by (apply PAIR; eauto). rewrite (FST pos L) in Y. discriminate. }
        subst pos. congruence. }
  intros pk. rewrite in_app_iff, Z1, Z2. split.
  - intros [[-> H]|(pos & a & b & -> & H)]; exact H.
  - destruct pk; try tauto. intros H. right. eauto.
Qed.

(** ** One source and the file *)
Lemma groups_In ks g : In g (fold_left (fun acc k => set_add (key_group k) acc) ks []) <-> exists k, In k ks /\ g = key_group k.
Proof.
  assert (X : forall l acc, In g (fold_left (fun acc k => set_add (key_group k) acc) l acc) <-> In g acc \/ exists k, In k l /\ g = key_group k).
  { induction l as [|x l IH]; intros acc; cbn [fold_left].
    - split; [auto|]. intros [H|(k & [] & _)]; exact H.
    - rewrite IH, set_add_In. split.
      + intros [[->|H]|(k & H & ->)]; [right; exists x; simpl; auto|auto|right; exists k; simpl; auto].
      + intros [H|(k & [<-|H] & ->)]; eauto. }
  rewrite X. split; [intros [[]|H]; exact H|auto].
Qed.
Lemma mapM_concat A B (f : A -> res (list B)) l : (forall x, In x l -> exists r, f x = Ok r) ->
  exists rs, mapM f l = Ok rs /\ forall y, In y (List.concat rs) <-> exists x r, In x l /\ f x = Ok r /\ In y r.
Proof.
  induction l as [|x l IH]; intros H.
  - exists []. split; [reflexivity|]. intros y. split; [intros []|]. intros (x & r & [] & _).
  - destruct (H x (or_introl eq_refl)) as [r Hr]. destruct IH as (rs & E & I); [intros; apply H; now right|].
    exists (r :: rs). cbn [mapM]. rewrite Hr. cbn [bind]. rewrite E. split; [reflexivity|]. intros y. cbn [List.concat]. rewrite in_app_iff, I. split.
    + intros [Hy|(x' & r' & Hx & Hr' & Hy)]; [exists x, r; split; [now left|auto]|exists x', r'; split; [now right|auto]].
    + intros (x' & r' & [<-|Hx] & Hr' & Hy); [left; congruence|right; eauto].
Qed.
Definition from_index (pk : problem_kind) : Prop := match pk with PZeroesBefore | PNotIncreasing _ _ _ => False | _ => True end.
Theorem reports_right : checkable fa ->
  exists ps, file_checks fa = Ok ps /\ forall p, In p ps <-> pr_file p = h5_name (fa_file fa) /\ is_wrong fa (pr_kind p).
Proof.
  intros [(raw & Hraw) HC]. fold n in HC. destruct (trainids_report Hraw) as (pt & Et & It).
  assert (KEY : forall s ks, In s (fa_inst fa) -> fa_get_keys fa s = Ok ks ->
     exists ps, check_source fa s = Ok ps /\ forall pk, In pk ps <-> exists k g ds, In k ks /\ indexed_field fa s k g ds /\
       ((exists e, pk = POutside (data_key false s k) e (Z.of_nat (List.length (ds_rows ds))) /\
           (Z.of_nat (List.length (ds_rows ds)) < e)%Z /\ (exists p a c, index_entry g n p a c /\ e = (a + c)%Z) /\ (forall p a c, index_entry g n p a c -> (a + c <= e)%Z)) \/
        group_wrong ("INDEX/" ++ index_key false s k)%string g pk)).
  { intros s ks Hs Hks. destruct (HC s Hs) as (ks' & Hks' & H). rewrite Hks in Hks'. injection Hks' as <-.
    unfold check_source. rewrite Hks. cbn [bind].
    destruct (@mapM_concat _ _ (check_key fa s) ks) as (r1 & E1 & I1).
    { intros k Hk. destruct (H k Hk) as (g & ds & HI & _ & _ & A & B & C). destruct (key_report HI A B C) as (r & E & _). eauto. }
    destruct (@mapM_concat _ _ (check_group fa s) (fold_left (fun acc k => set_add (key_group k) acc) ks [])) as (r2 & E2 & I2).
    { intros g0 Hg. apply groups_In in Hg as (k & Hk & ->). destruct (H k Hk) as (g & ds & HI & D & E & A & B & C). destruct (group_report HI A B C D E) as (r & E' & _). eauto. }
    rewrite E1. cbn [bind]. rewrite E2. cbn [bind]. eexists. split; [reflexivity|]. intros pk. rewrite in_app_iff, I1, I2. split.
    - intros [(k & r & Hk & Hr & Hy)|(g0 & r & Hg & Hr & Hy)].
      + destruct (H k Hk) as (g & ds & HI & D & E & A & B & C). destruct (key_report HI A B C) as (r' & E' & I'). rewrite Hr in E'. injection E' as <-.
        apply I' in Hy. exists k, g, ds. auto.
      + apply groups_In in Hg as (k & Hk & ->). destruct (H k Hk) as (g & ds & HI & D & E & A & B & C). destruct (group_report HI A B C D E) as (r' & E' & I').
        rewrite Hr in E'. injection E' as <-. apply I' in Hy. exists k, g, ds. auto.
    - intros (k & g & ds & Hk & HI & Hw). destruct (H k Hk) as (g' & ds' & HI' & D & E & A & B & C).
      assert (g' = g /\ ds' = ds) as [-> ->] by (destruct HI as (_ & _ & X1 & X2); destruct HI' as (_ & _ & Y1 & Y2); split; congruence).
      destruct Hw as [Hw|Hw].
      + left. destruct (key_report HI A B C) as (r' & E' & I'). exists k, r'. split; [exact Hk|]. split; [exact E'|]. now apply I'.
      + right. destruct (group_report HI A B C D E) as (r' & E' & I'). exists (key_group k), r'. split; [apply groups_In; eauto|]. split; [exact E'|]. now apply I'. }
  unfold file_checks. destruct (@mapM_concat _ _ (check_source fa) (fa_inst fa)) as (r1 & E1 & I1).
  { intros s Hs. destruct (HC s Hs) as (ks & Hks & _). destruct (KEY s ks Hs Hks) as (ps & E & _). eauto. }
  rewrite E1. cbn [bind]. rewrite Et. cbn [bind]. eexists. split; [reflexivity|]. intros [fn pk]. rewrite in_map_iff. cbn [pr_file pr_kind].
  assert (SRC : In pk (List.concat r1) <-> from_index pk /\ is_wrong fa pk).
  { rewrite I1. split.
    - intros (s & r & Hs & Hr & Hy). destruct (HC s Hs) as (ks & Hks & _). destruct (KEY s ks Hs Hks) as (ps & E & I). rewrite Hr in E. injection E as <-.
      apply (proj1 (I pk)) in Hy. destruct Hy as (k & g & ds & Hk & HI & [(e & -> & Hw)|Hw]).
      + split; [exact Logic.I|]. exists s, k, g, ds. destruct Hw as (X1 & X2 & X3). split; [exact HI|]. auto.
      + destruct pk; cbn [group_wrong from_index is_wrong] in Hw |- *; try tauto; split; try exact Logic.I.
        * destruct Hw as (-> & -> & -> & X). exists s, k, g, ds. auto.
        * destruct Hw as (-> & a & X & Y). exists s, k, g, ds, a. auto.
        * destruct Hw as (-> & X). exists s, k, g, ds. auto.
        * destruct Hw as (-> & X). exists s, k, g, ds. auto.
    - intros [HF HW].
      assert (X : exists s k g ds, indexed_field fa s k g ds /\ ((exists e, pk = POutside (data_key false s k) e (Z.of_nat (List.length (ds_rows ds))) /\
           (Z.of_nat (List.length (ds_rows ds)) < e)%Z /\ (exists p a c, index_entry g n p a c /\ e = (a + c)%Z) /\ (forall p a c, index_entry g n p a c -> (a + c <= e)%Z)) \/
        group_wrong ("INDEX/" ++ index_key false s k)%string g pk)).
      { destruct pk; cbn [from_index is_wrong group_wrong] in HF, HW |- *; try tauto.
        - destruct HW as (s & k & g & ds & HI & -> & -> & X). exists s, k, g, ds. split; [exact HI|]. left. eexists. split; [reflexivity|]. exact X.
        - destruct HW as (s & k & g & ds & HI & -> & -> & -> & X). exists s, k, g, ds. split; [exact HI|]. right. auto.
        - destruct HW as (s & k & g & ds & a & HI & -> & X & Y). exists s, k, g, ds. split; [exact HI|]. right. eauto.
        - destruct HW as (s & k & g & ds & HI & -> & X). exists s, k, g, ds. split; [exact HI|]. right. auto.
        - destruct HW as (s & k & g & ds & HI & -> & X). exists s, k, g, ds. split; [exact HI|]. right. auto. }
      destruct X as (s & k & g & ds & HI & X). assert (HI' := HI). destruct HI' as (Hs & (ks & Hks & Hk) & _).
      destruct (KEY s ks Hs Hks) as (ps & E & I). exists s, ps. split; [exact Hs|]. split; [exact E|]. apply I. exists k, g, ds. auto. }
  split.
  - intros (pk' & E & H). injection E as -> ->. split; [reflexivity|]. apply in_app_iff in H as [H|H]; [now apply SRC in H|].
    apply It in H. destruct pk; tauto.
  - intros [-> H]. exists pk. split; [reflexivity|]. apply in_app_iff. destruct pk; (right; apply It; exact H) || (left; apply SRC; split; [exact Logic.I|exact H]).
Qed.
End F.

(** ** An index with different numbers of first rows and counts *)
Lemma mapM_In A B (f : A -> res B) l rs x : mapM f l = Ok rs -> In x l -> exists r, f x = Ok r /\ In r rs.
Proof. intros H Hx. apply mapM_ok_iff in H. induction H as [|y r l rs Hy H IH]; [destruct Hx|]. destruct Hx as [<-|Hx]; [exists r; split; [exact Hy|now left]|]. destruct (IH Hx) as (r' & A1 & A2). exists r'. split; [exact A1|now right]. Qed.
Theorem ragged_reported V (fa : faccess V) s k ks G c ps : In s (fa_inst fa) -> fa_get_keys fa s = Ok ks -> In k ks ->
  dict_get (index_key false s k) (h5_index (fa_file fa)) = Some G -> ix_more G = IxCount c ->
  let n := List.length (fa_tids fa) in
  Nat.min n (List.length (ix_first G)) <> Nat.min n (List.length c) -> file_checks fa = Ok ps ->
  In (mk_problem (h5_name (fa_file fa)) (PDifferentNumber ("INDEX/" ++ index_key false s k)%string (Nat.min n (List.length (ix_first G))) (Nat.min n (List.length c)))) ps.
Proof.
  intros Hs Hks Hk HG Hc n N H. unfold file_checks in H. apply bind_ok in H as (p1 & H1 & H). apply bind_ok in H as (p2 & _ & H). injection H as <-.
  apply in_map. apply in_app_iff. left. destruct (mapM_In H1 Hs) as (r & Hr & Ir). apply in_concat. exists r. split; [exact Ir|].
  unfold check_source in Hr. rewrite Hks in Hr. cbn [bind] in Hr. apply bind_ok in Hr as (q1 & _ & Hr). apply bind_ok in Hr as (q2 & Hq & Hr). injection Hr as <-.
  apply in_app_iff. right. assert (Ig : In (key_group k) (fold_left (fun acc k => set_add (key_group k) acc) ks [])) by (apply groups_In; eauto).
  destruct (mapM_In Hq Ig) as (r & Hr & Ir'). apply in_concat. exists r. split; [exact Ir'|]. clear -Hr HG Hc N.
  unfold check_group, fa_get_index in Hr. rewrite ix_path_inst, HG, Hc in Hr. cbn [bind] in Hr. fold n in Hr. rewrite !firstn_length in Hr.
  apply bind_ok in Hr as (q & _ & Hr). injection Hr as <-. destruct (Nat.eqb_spec (Nat.min n (List.length (ix_first G))) (Nat.min n (List.length c))); [contradiction|].
  now left.
Qed.

(** ** A run *)
Section R.
Context {V : Type}.
Notation faccess := (faccess V).
Theorem run_reports (paths : list (string * res faccess)) cache d :
  mk_collection (usable (map snd paths)) None None = Ok d ->
  (forall p f, In (p, Ok f) paths -> checkable f /\ cache (h5_name (fa_file f)) <> None) ->
  exists ps, run_checks paths cache = Ok ps /\ forall rp, In rp ps <->
    match rp with
    | RNotOpened p e => In (p, Err e) paths
    | RNoUsableFiles => forall p f, ~ In (p, Ok f) paths
    | RFileProblem q => exists p f, In (p, Ok f) paths /\ pr_file q = h5_name (fa_file f) /\ is_wrong f (pr_kind q)
    | RCacheWrong nm => exists p f, In (p, Ok f) paths /\ nm = h5_name (fa_file f) /\ entry_wrong cache f
    end.
Proof.
  intros Hd HC. unfold run_checks. rewrite Hd. cbn [bind]. set (files := usable (map snd paths)).
  assert (UF : forall f, In f files <-> exists p, In (p, Ok f) paths) by (intros f; apply usable_In).
  destruct (@mapM_concat _ _ (fun f : faccess => let* l := file_checks f in Ok (map RFileProblem l)) files) as (p1 & -> & I1).
  { intros f Hf. apply UF in Hf as (p & Hp). destruct (HC p f Hp) as [C1 _]. destruct (reports_right C1) as (ps & -> & _). cbn [bind]. eauto. }
  cbn [bind]. destruct (@mapM_concat _ _ (check_map_entry cache) files) as (p2 & -> & I2).
  { intros f Hf. apply UF in Hf as (p & Hp). destruct (HC p f Hp) as [_ C2]. unfold check_map_entry. destruct (cache (h5_name (fa_file f))) as [[[t c] i]|]; [eauto|congruence]. }
  cbn [bind]. eexists. split; [reflexivity|]. intros rp. rewrite !in_app_iff, I1, I2.
  assert (A : In rp (flat_map (fun p : string * res faccess => match snd p with Ok _ => [] | Err e => [RNotOpened (fst p) e] end) paths) <->
     exists p e, rp = RNotOpened p e /\ In (p, Err e) paths).
  { rewrite in_flat_map. split.
    - intros ([p [f|e]] & Hp & H); [destruct H|]. destruct H as [<-|[]]. exists p, e. auto.
    - intros (p & e & -> & Hp). exists (p, Err e). split; [exact Hp|now left]. }
  assert (B : In rp (match files with [] => [RNoUsableFiles] | _ :: _ => [] end) <-> rp = RNoUsableFiles /\ forall p f, ~ In (p, Ok f) paths).
  { destruct files as [|f r] eqn:E.
    - split.
      + intros [<-|[]]. split; [reflexivity|]. intros p f H. exact (proj2 (UF f) (ex_intro _ p H)).
      + intros [-> _]. now left.
    - split; [intros []|]. intros [_ H]. destruct (proj1 (UF f) (or_introl eq_refl)) as (p & Hp). exact (H p f Hp). }
  rewrite A, B. clear A B.
  assert (CE : forall (f : faccess) nm, (exists r, check_map_entry cache f = Ok r /\ In (RCacheWrong nm) r) <-> nm = h5_name (fa_file f) /\ entry_wrong cache f).
  { intros f nm. unfold check_map_entry, entry_wrong. destruct (cache (h5_name (fa_file f))) as [[[t c] i]|].
    2:{ split; [intros (r & H & _); discriminate|]. intros (_ & t & c & i & H & _). discriminate. }
    assert (X : negb (same_set c (fa_ctrl f)) || negb (same_set i (fa_inst f)) || negb (zlist_eqb t (fa_tids f)) = true <->
       ~ (t = fa_tids f /\ (forall s, In s c <-> In s (fa_ctrl f)) /\ (forall s, In s i <-> In s (fa_inst f)))).
    { rewrite <- (same_set_spec c), <- (same_set_spec i), <- zlist_eqb_iff. destruct (same_set c _), (same_set i _), (zlist_eqb t _); cbn; split; intros H; try discriminate; try reflexivity; try (intros (X1 & X2 & X3); discriminate). exfalso. apply H. auto. }
    destruct (_ || _) in X |- *.
    - split.
      + intros (r & E & H). injection E as <-. destruct H as [E|[]]. injection E as <-. split; [reflexivity|]. exists t, c, i. split; [reflexivity|]. now apply X.
      + intros (-> & _). eexists. split; [reflexivity|now left].
    - split.
      + intros (r & E & H). injection E as <-. destruct H.
      + intros (_ & t' & c' & i' & E & H). injection E as <- <- <-. apply X in H. discriminate. }
  split.
  - intros [(p & e & -> & H)|[[-> H]|[(f & r & Hf & Hr & H)|(f & r & Hf & Hr & H)]]]; [exact H|exact H| |].
    + apply UF in Hf as (p & Hp). destruct (HC p f Hp) as [C1 _]. destruct (reports_right C1) as (ps & E & I). rewrite E in Hr. cbn [bind] in Hr. injection Hr as <-.
      apply in_map_iff in H as (q & <- & Hq). exists p, f. split; [exact Hp|]. now apply I.
    + apply UF in Hf as (p & Hp).
      assert (X : exists nm, rp = RCacheWrong nm).
      { unfold check_map_entry in Hr. destruct (cache (h5_name (fa_file f))) as [[[t c] i]|]; [|discriminate]. injection Hr as <-.
        match type of H with In _ (if ?b then _ else _) => destruct b end; [|destruct H]. destruct H as [<-|[]]. eauto. }
      destruct X as (nm & ->). exists p, f. split; [exact Hp|]. apply CE. eauto.
  - destruct rp as [p e| |q|nm]; intros H.
    + left. eauto.
    + right; left. auto.
    + right; right; left. destruct H as (p & f & Hp & H). exists f. destruct (HC p f Hp) as [C1 _]. destruct (reports_right C1) as (ps & E & I).
      rewrite E. cbn [bind]. eexists. split; [apply UF; eauto|]. split; [reflexivity|]. apply in_map. now apply I.
    + right; right; right. destruct H as (p & f & Hp & H). apply CE in H as (r & Hr & H). exists f, r. split; [apply UF; eauto|auto].
Qed.
End R.
