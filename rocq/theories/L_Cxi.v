(** Lemmas on the CXI writer: mapping one chunk. *)
From Verif Require Import Base PyStr M_Files M_Machinery M_Reader M_Components M_Cxi L_Base L_Reader L_GetArray L_Components.
Set Implicit Arguments.
Unset Strict Implicit.
Local Open Scope list_scope.

Definition blocks {A} (F : nat) (L : list A) : list A := flat_map (fun t => repeat t F) L.
Lemma blocks_app : forall A F (a b : list A), blocks F (a ++ b) = blocks F a ++ blocks F b.
Proof. intros. apply flat_map_app. Qed.
Lemma blocks_length : forall A F (l : list A), List.length (blocks F l) = (List.length l * F)%nat.
Proof. induction l as [|x l IH]; cbn; [reflexivity|]. rewrite app_length, repeat_length. fold (blocks F l). lia. Qed.
Lemma blocks_nth : forall A F (l : list A) j t i, nth_error l j = Some t -> (i < F)%nat ->
  nth_error (blocks F l) (j * F + i) = Some t.
Proof.
  induction l as [|x l IH]; intros [|j] t i H Hi; cbn in H; try discriminate.
  - injection H as ->. cbn. rewrite nth_error_app1 by (rewrite repeat_length; lia). now apply nth_error_repeat.
  - cbn [blocks flat_map]. rewrite nth_error_app2 by (rewrite repeat_length; lia). rewrite repeat_length.
    replace (S j * F + i - F)%nat with (j * F + i)%nat by lia. now apply IH.
Qed.
Lemma blocks_firstn : forall A F (l : list A) n, firstn (n * F) (blocks F l) = blocks F (firstn n l).
Proof.
  induction l as [|x l IH]; intros [|n]; cbn; try reflexivity; try apply firstn_nil.
  rewrite firstn_app, repeat_length. rewrite firstn_all2 by (rewrite repeat_length; lia). f_equal.
  replace (F + n * F - F)%nat with (n * F)%nat by lia. apply IH.
Qed.
Lemma blocks_skipn : forall A F (l : list A) n, skipn (n * F) (blocks F l) = blocks F (skipn n l).
Proof.
  induction l as [|x l IH]; intros [|n]; cbn; try reflexivity; try apply skipn_nil.
  rewrite skipn_app, repeat_length. rewrite skipn_all2 by (rewrite repeat_length; lia). cbn.
  replace (F + n * F - F)%nat with (n * F)%nat by lia. apply IH.
Qed.

Definition mism (a b : list Z) : list nat := nonzero (map (fun p => negb (fst p =? snd p)%Z) (combine a b)).
Lemma nz_from_S : forall l n, nonzero_from (S n) l = map S (nonzero_from n l).
Proof. induction l as [|b l IH]; intros n; cbn; [reflexivity|]. destruct b; cbn; now rewrite IH. Qed.
Lemma mism_cons : forall x a y b, mism (x :: a) (y :: b) = if (x =? y)%Z then map S (mism a b) else 0%nat :: map S (mism a b).
Proof. intros. unfold mism, nonzero. cbn. destruct (x =? y)%Z; cbn; now rewrite nz_from_S. Qed.
Lemma mism_app : forall p a b, mism (p ++ a) (p ++ b) = map (Nat.add (List.length p)) (mism a b).
Proof.
  induction p as [|x p IH]; intros a b; cbn [app List.length].
  - symmetry. cbn. apply map_id.
  - rewrite mism_cons, Z.eqb_refl, IH, map_map. reflexivity.
Qed.
Lemma mism_nil : forall b, mism [] b = [].
Proof. reflexivity. Qed.
Lemma mism_differ : forall x a y b, x <> y -> exists l, mism (x :: a) (y :: b) = 0%nat :: l.
Proof. intros. rewrite mism_cons. destruct (Z.eqb_spec x y); [contradiction|]. eauto. Qed.

Lemma common_prefix : forall (L R : list Z), exists P L' R', L = P ++ L' /\ R = P ++ R' /\
  match L', R' with x :: _, y :: _ => x <> y | _, _ => True end.
Proof.
  induction L as [|x L IH]; intros R.
  - exists [], [], R. cbn. repeat split; auto.
  - destruct R as [|y R].
    + exists [], (x :: L), []. cbn. auto.
    + destruct (Z.eq_dec x y) as [->|Hd].
      * destruct (IH R) as (P & L' & R' & -> & -> & H). exists (y :: P), L', R'. auto.
      * exists [], (x :: L), (y :: R). auto.
Qed.

(** ** The table of positions *)
Lemma find_rev_unique : forall A (f : A -> bool) l x, In x l -> f x = true -> (forall y, In y l -> f y = true -> y = x) -> find f (rev l) = Some x.
Proof.
  intros A f l x Hin Hx Hu. destruct (find f (rev l)) as [y|] eqn:E.
  - apply find_some in E as [E1 E2]. f_equal. apply Hu; [now apply in_rev|assumption].
  - apply find_none with (x := x) in E; [congruence|now apply in_rev in Hin].
Qed.
Lemma tid_position_some : forall T fpt j t, NoDup T -> nth_error T j = Some t -> tid_position T fpt t = Some (Z.of_nat j * fpt)%Z.
Proof.
  intros T fpt j t HN Hj. unfold tid_position.
  set (f := fun i => (Z.of_nat i * fpt)%Z).
  assert (Hnth : forall i x, nth_error (combine T (map f (seq 0 (List.length T)))) i = Some x -> nth_error T i = Some (fst x) /\ snd x = f i).
  { assert (G : forall (T : list Z) n i x, nth_error (combine T (map f (seq n (List.length T)))) i = Some x -> nth_error T i = Some (fst x) /\ snd x = f (n + i)%nat).
    { clear. induction T as [|t T IH]; intros n [|i] x H; cbn in H; try discriminate.
      - injection H as <-. cbn. rewrite Nat.add_0_r. auto.
      - apply IH in H as [H1 H2]. cbn. split; [assumption|]. now rewrite Nat.add_succ_r. }
    intros i x H. apply (G T 0%nat) in H. exact H. }
  rewrite (@find_rev_unique _ _ _ (t, f j)); [reflexivity| | |].
  - assert (G : forall (T : list Z) n j t, nth_error T j = Some t -> nth_error (combine T (map f (seq n (List.length T)))) j = Some (t, f (n + j)%nat)).
    { clear. induction T as [|t T IH]; intros n [|j] t' H; cbn in H; try discriminate.
      - injection H as ->. cbn. now rewrite Nat.add_0_r.
      - cbn. rewrite (IH (S n) _ _ H). now rewrite Nat.add_succ_r. }
    eapply nth_error_In. exact (G T 0%nat j t Hj).
  - cbn. apply Z.eqb_refl.
  - intros y Hy Hf. apply Z.eqb_eq in Hf. apply In_nth_error in Hy as (i & Hi). apply Hnth in Hi as [H1 H2].
    rewrite Hf in H1. assert (i = j) as ->. { eapply (proj1 (NoDup_nth_error T)); [assumption| |congruence]. apply nth_error_Some. congruence. }
    destruct y; cbn in *. now subst.
Qed.

(** ** map_rows *)
Section Map.
Context {T X W : Type}.
Variables (F : nat) (Ts : list Z) (HF : (0 < F)%nat) (HT : StronglySorted Z.lt Ts).
Variables (at_ : T -> nat -> Z -> X) (col : Z) (inj : W -> X) (vals : list W) (put : Z -> Z -> nat -> T -> res T).
(** What an assignment does, when it works. *)
Hypothesis put_effect : forall start src n tgt tgt', (0 <= start)%Z -> (0 <= src)%Z -> (0 < n)%nat -> (src + Z.of_nat n <= Z.of_nat (List.length vals))%Z ->
  put start src n tgt = Ok tgt' -> forall i c,
  (c = col -> (start <= Z.of_nat i < start + Z.of_nat n)%Z -> forall v, nth_error vals (Z.to_nat src + (i - Z.to_nat start)) = Some v -> at_ tgt' i c = inj v) /\
  (c <> col \/ ~ (start <= Z.of_nat i < start + Z.of_nat n)%Z -> at_ tgt' i c = at_ tgt i c).
Variable (good : T -> Prop).
Definition progress := forall start src n tgt, (0 <= start)%Z -> (0 <= src)%Z -> (0 < n)%nat -> (src + Z.of_nat n <= Z.of_nat (List.length vals))%Z ->
  good tgt -> exists tgt', put start src n tgt = Ok tgt' /\ good tgt'.

Definition eff (L : list Z) (src : Z) (tgt tgt' : T) : Prop :=
  (forall q t j i v, nth_error L q = Some t -> nth_error Ts j = Some t -> (i < F)%nat ->
     nth_error vals (Z.to_nat src + q * F + i) = Some v -> at_ tgt' (j * F + i) col = inj v) /\
  (forall j t i c, nth_error Ts j = Some t -> (i < F)%nat -> c <> col \/ ~ In t L -> at_ tgt' (j * F + i) c = at_ tgt (j * F + i) c).

Lemma SS_NoDup : forall l, StronglySorted Z.lt l -> NoDup l.
Proof. induction 1; constructor; auto. intros Hin. rewrite Forall_forall in H0. specialize (H0 _ Hin). lia. Qed.
Lemma SS_nth : forall l i j x y, StronglySorted Z.lt l -> nth_error l i = Some x -> nth_error l j = Some y -> (i < j)%nat -> (x < y)%Z.
Proof.
  induction l as [|a l IH]; intros i j x y H Hi Hj Hlt; [destruct i; discriminate|]. inversion H; subst.
  destruct j as [|j]; [lia|]. destruct i as [|i]; cbn in *.
  - injection Hi as ->. rewrite Forall_forall in H3. apply H3. now apply nth_error_In in Hj.
  - eapply IH; eauto. lia.
Qed.
Lemma SS_skipn : forall n l, StronglySorted Z.lt l -> StronglySorted Z.lt (skipn n l).
Proof. induction n; intros l H; [assumption|]. destruct l; [assumption|]. inversion H. cbn. auto. Qed.

Lemma sorted_tail_in : forall L t0 j, StronglySorted Z.lt (t0 :: L) -> incl (t0 :: L) Ts -> nth_error Ts j = Some t0 -> incl (t0 :: L) (skipn j Ts).
Proof.
  intros L t0 j HS HI Hj t Ht. assert (Hin := HI _ Ht). apply In_nth_error in Hin as (i & Hi).
  destruct (le_lt_dec j i) as [Hle|Hlt].
  - apply nth_error_In with (i - j)%nat. rewrite nth_error_skipn. now replace (j + (i - j))%nat with i by lia.
  - exfalso. assert (t < t0)%Z by (eapply SS_nth; [exact HT|exact Hi|exact Hj|exact Hlt]). destruct Ht as [->|Ht]; [lia|]. inversion HS; subst.
    match goal with H : Forall _ L |- _ => rewrite Forall_forall in H; specialize (H _ Ht) end. lia.
Qed.

Lemma map_rows_step : forall L t0 src tgt fuel, StronglySorted Z.lt (t0 :: L) -> incl (t0 :: L) Ts -> (0 < fuel)%nat ->
  exists P L' j, t0 :: L = P ++ L' /\ P <> [] /\ (forall q t, nth_error P q = Some t -> nth_error Ts (j + q) = Some t) /\
    map_rows (blocks F Ts) (tid_position Ts (Z.of_nat F)) put fuel src (blocks F (t0 :: L)) tgt =
    (let* tgt' := put (Z.of_nat (j * F)) src (List.length P * F) tgt in
     map_rows (blocks F Ts) (tid_position Ts (Z.of_nat F)) put (pred fuel) (src + Z.of_nat (List.length P * F)) (blocks F L') tgt').
Proof.
  intros L t0 src tgt fuel HS HI Hfuel.
  assert (Hin : In t0 Ts) by (apply HI; now left). apply In_nth_error in Hin as (j & Hj).
  assert (HR := sorted_tail_in HS HI Hj). set (R := skipn j Ts) in *.
  assert (HRS : StronglySorted Z.lt R) by now apply SS_skipn.
  assert (Hlen : (List.length (t0 :: L) <= List.length R)%nat) by (apply NoDup_incl_length; [now apply SS_NoDup|assumption]).
  destruct (common_prefix (t0 :: L) R) as (P & L' & R' & E1 & E2 & Hd).
  assert (ER : exists R0, R = t0 :: R0). { assert (Hz : nth_error R 0 = Some t0) by (unfold R; rewrite nth_error_skipn, Nat.add_0_r; exact Hj). destruct R as [|r R0]; [discriminate|]. injection Hz as ->. eauto. } destruct ER as (R0 & ER).
  assert (HP : P <> []). { intros ->. cbn in E1, E2. subst L' R'. rewrite ER in Hd. now apply Hd. }
  assert (HPn : forall q t, nth_error P q = Some t -> nth_error Ts (j + q) = Some t).
  { intros q t Hq. rewrite <- nth_error_skipn. fold R. rewrite E2. rewrite nth_error_app1; [assumption|]. apply nth_error_Some. congruence. }
  exists P, L', j. split; [assumption|]. split; [assumption|]. split; [assumption|].
  destruct fuel as [|fuel]; [lia|]. cbn [pred].
  assert (Eb : exists b, blocks F (t0 :: L) = t0 :: b). { cbn. destruct F; [lia|]. cbn. eauto. } destruct Eb as (b & Eb).
  cbn [map_rows]. rewrite Eb. cbn [map_rows]. rewrite <- Eb.
  rewrite (tid_position_some (Z.of_nat F) (SS_NoDup HT) Hj).
  assert (Ez : zslice (blocks F Ts) (Z.of_nat j * Z.of_nat F) (Z.of_nat j * Z.of_nat F + Z.of_nat (List.length (blocks F (t0 :: L)))) = blocks F (firstn (List.length (t0 :: L)) R)).
  { unfold zslice. rewrite blocks_length.
    replace (Z.to_nat (Z.of_nat j * Z.of_nat F + Z.of_nat (List.length (t0 :: L) * F) - Z.of_nat j * Z.of_nat F)) with (List.length (t0 :: L) * F)%nat by lia.
    replace (Z.to_nat (Z.of_nat j * Z.of_nat F)) with (j * F)%nat by lia.
    now rewrite blocks_skipn, blocks_firstn. }
  rewrite Ez.
  assert (El : List.length (blocks F (firstn (List.length (t0 :: L)) R)) = List.length (blocks F (t0 :: L))).
  { rewrite !blocks_length, firstn_length. f_equal. lia. }
  rewrite El, Nat.eqb_refl. cbn [negb].
  assert (Eh : hd 0%Z (blocks F (firstn (List.length (t0 :: L)) R)) = t0).
  { rewrite ER. cbn. destruct F; [lia|]. reflexivity. }
  rewrite Eh, Z.eqb_refl. cbn [negb].
  fold (mism (blocks F (t0 :: L)) (blocks F (firstn (List.length (t0 :: L)) R))).
  set (nm := match mism (blocks F (t0 :: L)) (blocks F (firstn (List.length (t0 :: L)) R)) with i :: _ => i | [] => List.length (blocks F (t0 :: L)) end).
  assert (En : nm = (List.length P * F)%nat).
  { unfold nm. rewrite E2. rewrite E1, app_length, firstn_app_2, !blocks_app, mism_app. rewrite !blocks_length.
    destruct L' as [|x L'].
    - cbn [blocks flat_map]. rewrite mism_nil. cbn [map]. rewrite app_nil_r, blocks_length. reflexivity.
    - destruct R' as [|y R'].
      { rewrite E1, E2, !app_length in Hlen. cbn in Hlen. lia. }
      cbn [List.length firstn blocks flat_map]. destruct F as [|F']; [lia|]. cbn [repeat app].
      destruct (@mism_differ x (repeat x F' ++ flat_map (fun t => x :: repeat x F') L') y (repeat y F' ++ flat_map (fun t => t :: repeat t F') (firstn (List.length L') R')) Hd) as (l & El').
      match goal with |- context [mism ?a ?b] => destruct (@mism_differ x (tl a) y (tl b) Hd) as (l2 & El2); cbn [tl] in El2; rewrite El2 end.
      cbn [map]. lia. }
  rewrite En. replace (Z.of_nat j * Z.of_nat F)%Z with (Z.of_nat (j * F)) by lia.
  assert (Ek : skipn (List.length P * F) (blocks F (t0 :: L)) = blocks F L').
  { rewrite E1, blocks_app, skipn_app, blocks_length, Nat.sub_diag. rewrite skipn_all2 by (rewrite blocks_length; lia). reflexivity. }
  now rewrite Ek.
Qed.

Lemma SS_app_r : forall a b, StronglySorted Z.lt (a ++ b) -> StronglySorted Z.lt b.
Proof. induction a; intros b H; [assumption|]. cbn in H. inversion H. auto. Qed.
Lemma SS_app_disj : forall a b t, StronglySorted Z.lt (a ++ b) -> In t a -> In t b -> False.
Proof.
  induction a as [|x a IH]; intros b t H Ha Hb; [destruct Ha|]. cbn in H. inversion H; subst. destruct Ha as [->|Ha]; [|eauto].
  rewrite Forall_forall in H3. assert (t < t)%Z by (apply H3; apply in_or_app; auto). lia.
Qed.

Lemma map_rows_spec : forall n L src fuel tgt, (List.length L <= n)%nat -> StronglySorted Z.lt L -> incl L Ts -> (List.length L <= fuel)%nat -> (0 <= src)%Z ->
  (src + Z.of_nat (List.length L * F) <= Z.of_nat (List.length vals))%Z ->
  let r := map_rows (blocks F Ts) (tid_position Ts (Z.of_nat F)) put fuel src (blocks F L) tgt in
  (forall tgt', r = Ok tgt' -> eff L src tgt tgt') /\ (progress -> good tgt -> exists tgt', r = Ok tgt' /\ good tgt') .
Proof.
  induction n as [|n IH]; intros L src fuel tgt Hn HS HI Hf Hs Hv.
  - destruct L; [|cbn in Hn; lia]. cbn. destruct fuel; cbn; (split; [intros tgt' [= <-]; split; [intros [|q]; discriminate|reflexivity]|eauto]).
  - destruct L as [|t0 L]. { cbn. destruct fuel; cbn; (split; [intros tgt' [= <-]; split; [intros [|q]; discriminate|reflexivity]|eauto]). }
    cbn [List.length] in Hn, Hf.
    destruct (map_rows_step src tgt HS HI (fuel := fuel)) as (P & L' & j & E1 & HP & HPn & Er); [lia|].
    intros r. assert (Er' : r = _) by exact Er. clearbody r. clear Er.
    assert (HlP : (0 < List.length P)%nat) by (destruct P; [congruence|cbn; lia]).
    assert (HlL : List.length (t0 :: L) = (List.length P + List.length L')%nat) by now rewrite E1, app_length.
    cbn [List.length] in HlL.
    assert (HvP : (src + Z.of_nat (List.length P * F) <= Z.of_nat (List.length vals))%Z). { cbn [List.length] in Hv. rewrite HlL in Hv. rewrite Nat.mul_add_distr_r in Hv. lia. }
    specialize (IH L' (src + Z.of_nat (List.length P * F))%Z (pred fuel)).
    assert (HPF : (0 < List.length P * F)%nat) by (apply Nat.mul_pos_pos; assumption).
    assert (H1 : forall tgt', let r := map_rows (blocks F Ts) (tid_position Ts (Z.of_nat F)) put (pred fuel) (src + Z.of_nat (List.length P * F)) (blocks F L') tgt' in
      (forall tgt'', r = Ok tgt'' -> eff L' (src + Z.of_nat (List.length P * F)) tgt' tgt'') /\ (progress -> good tgt' -> exists tgt'', r = Ok tgt'' /\ good tgt'')).
    { intros tgt'. apply IH; [lia| | |lia|lia|].
      - rewrite E1 in HS. now apply SS_app_r in HS.
      - intros x Hx. apply HI. rewrite E1. apply in_or_app. now right.
      - cbn [List.length] in Hv. rewrite HlL in Hv. rewrite Nat.mul_add_distr_r in Hv. lia. }
    cbv zeta in H1. split.
    + intros tgt' Hr. rewrite Er' in Hr. apply bind_ok in Hr as (tg1 & Hp & Hr). apply H1 in Hr. destruct Hr as [Hr1 Hr2].
      assert (Hpe := put_effect (start := Z.of_nat (j * F)) (src := src) (n := (List.length P * F)%nat) (tgt := tgt) (tgt' := tg1) ltac:(lia) Hs HPF HvP Hp). clear Hp.
      rewrite E1 in *. clear E1. split.
      * intros q t jj i v Hq Hjj Hi Hval. destruct (lt_dec q (List.length P)) as [Hlt|Hge].
        -- rewrite nth_error_app1 in Hq by assumption. assert (Hj2 := HPn _ _ Hq).
           assert (jj = (j + q)%nat) as ->. { eapply (proj1 (NoDup_nth_error Ts)); [now apply SS_NoDup| |congruence]. apply nth_error_Some. congruence. }
           rewrite (Hr2 _ _ _ col Hjj Hi).
           2:{ right. intros HL'. eapply SS_app_disj; [exact HS| |exact HL']. now apply nth_error_In in Hq. }
           apply (proj1 (Hpe ((j + q) * F + i)%nat col)); [reflexivity| |].
           ++ assert (q * F + i < List.length P * F)%nat. { assert (S q * F <= List.length P * F)%nat by (apply Nat.mul_le_mono_r; lia). lia. } lia.
           ++ replace (Z.to_nat (Z.of_nat (j * F))) with (j * F)%nat by lia.
              replace ((j + q) * F + i - j * F)%nat with (q * F + i)%nat by lia. now rewrite Nat.add_assoc.
        -- rewrite nth_error_app2 in Hq by lia. eapply Hr1; [exact Hq|exact Hjj|exact Hi|].
           rewrite <- Hval. f_equal. assert (q = (q - List.length P) + List.length P)%nat by lia.
           replace (q * F)%nat with ((q - List.length P) * F + List.length P * F)%nat by (rewrite <- Nat.mul_add_distr_r; f_equal; lia). lia.
      * intros jj t i c Hjj Hi Hc. rewrite (Hr2 _ _ _ c Hjj Hi).
        2:{ destruct Hc as [Hc|Hc]; [now left|right]. intros Hx. apply Hc. apply in_or_app. now right. }
        apply (proj2 (Hpe (jj * F + i)%nat c)). destruct Hc as [Hc|Hc]; [now left|right]. intros [Ha Hb]. apply Hc. apply in_or_app. left.
        assert (j <= jj)%nat. { destruct (le_lt_dec j jj); [assumption|]. assert (S jj * F <= j * F)%nat by (apply Nat.mul_le_mono_r; lia). lia. }
        assert (jj < j + List.length P)%nat. { destruct (le_lt_dec (j + List.length P) jj); [|assumption]. assert ((j + List.length P) * F <= jj * F)%nat by (apply Nat.mul_le_mono_r; lia). lia. }
        destruct (nth_error P (jj - j)) as [t'|] eqn:EP. 2:{ apply nth_error_None in EP. lia. }
        assert (E := HPn _ _ EP). replace (j + (jj - j))%nat with jj in E by lia. rewrite Hjj in E. injection E as ->. now apply nth_error_In in EP.
    + intros Hpr Hg. rewrite Er'. destruct (Hpr (Z.of_nat (j * F)) src (List.length P * F)%nat tgt) as (tg1 & -> & Hg1); try lia; [assumption|].
      cbn [bind]. apply (proj2 (H1 tg1)); assumption.
Qed.
End Map.
