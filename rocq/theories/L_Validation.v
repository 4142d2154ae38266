(** Lemmas about file validation. *)
From Verif Require Import Base PyStr M_Files M_Machinery M_Reader S_Reader M_Validation S_Validation
  L_Base L_Machinery L_Reader L_GetArray.
Set Implicit Arguments.
Unset Strict Implicit.
Local Open Scope string_scope.
Local Open Scope list_scope.

(** ** Conversion to float64 *)
Lemma to_f64_small : forall z, (Z.abs z <= 2 ^ 53)%Z -> to_f64 z = z.
Proof. intros z H. unfold to_f64. apply Z.leb_le in H. now rewrite H. Qed.
Lemma to_f64_large : forall z, (2 ^ 53 < Z.abs z)%Z -> (2 ^ 53 <= Z.abs (to_f64 z))%Z.
Proof.
  intros z H. unfold to_f64. destruct (Z.leb_spec (Z.abs z) (2 ^ 53)) as [L|L]; [lia|]. clear L.
  set (a := Z.abs z) in *. set (e := (Z.log2 a - 52)%Z). cbv zeta.
  assert (Ha : (0 < a)%Z) by lia.
  assert (L53 : (53 <= Z.log2 a)%Z) by (apply Z.log2_le_pow2; lia).
  assert (He : (1 <= e)%Z) by (unfold e; lia).
  destruct (Z.log2_spec a Ha) as [A1 A2].
  assert (P : (0 < 2 ^ e)%Z) by (apply Z.pow_pos_nonneg; lia).
  assert (Q : (2 ^ 52 <= a / 2 ^ e)%Z).
  { apply Z.div_le_lower_bound; [assumption|]. rewrite <- Z.pow_add_r by lia.
    replace (e + 52)%Z with (Z.log2 a) by (unfold e; lia). assumption. }
  set (q' := (if (a mod 2 ^ e <? 2 ^ (e - 1))%Z then _ else _)).
  assert (Q' : (2 ^ 52 <= q')%Z).
  { unfold q'. repeat match goal with |- context [if ?b then _ else _] => destruct b end; lia. }
  rewrite Z.abs_mul, Z.abs_mul.
  assert (S : Z.abs (Z.sgn z) = 1%Z) by (destruct z; simpl in *; try reflexivity; unfold a in Ha; simpl in Ha; lia).
  rewrite S, Z.mul_1_l, (Z.abs_eq (2 ^ e)%Z), (Z.abs_eq q') by lia.
  assert (2 ^ 1 <= 2 ^ e)%Z by (apply Z.pow_le_mono_r; lia). nia.
Qed.
Lemma to_f64_inj : forall x y, (Z.abs y < 2 ^ 53)%Z -> to_f64 x = to_f64 y -> x = y.
Proof.
  intros x y Hy H. rewrite (@to_f64_small y) in H by lia.
  destruct (Z.le_gt_cases (Z.abs x) (2 ^ 53)) as [L|G]; [now rewrite to_f64_small in H|].
  apply to_f64_large in G. rewrite H in G. lia.
Qed.

(** ** Lists of checks *)
Lemma mapM_concat_nil : forall A B (f : A -> res (list B)) l,
  (exists ps, mapM f l = Ok ps /\ List.concat ps = []) <-> (forall x, In x l -> f x = Ok []).
Proof.
  intros A B f l; split.
  - intros (ps & H & E). revert ps H E. induction l as [|x l IH]; intros ps H E y Hy; [destruct Hy|].
    simpl in H. destruct (f x) as [p|] eqn:Ex; [|discriminate]. simpl in H.
    destruct (mapM f l) as [ps'|] eqn:El; [|discriminate]. simpl in H. injection H as <-.
    simpl in E. apply app_eq_nil in E as [E1 E2]. destruct Hy as [<-|Hy]; [congruence|eauto].
  - intros H. exists (map (fun _ => []) l). split.
    + induction l as [|x l IH]; [reflexivity|]. simpl. rewrite (H x (or_introl eq_refl)). simpl.
      rewrite IH; [reflexivity|]. intros y Hy. apply H. now right.
    + induction l as [|x l IH]; [reflexivity|]. simpl. apply IH. intros y Hy. apply H. now right.
Qed.
Lemma nonzero_nil : forall l, nonzero l = [] <-> (forall p, nth_error l p <> Some true).
Proof.
  intros l; split.
  - intros H p Hp. apply nonzero_spec in Hp. rewrite H in Hp. destruct Hp.
  - intros H. destruct (nonzero l) as [|p r] eqn:E; [reflexivity|]. exfalso. apply (H p). apply nonzero_spec.
    rewrite E. now left.
Qed.

(** ** Train IDs *)
Lemma forallb_zero : forall l, forallb (Z.eqb 0) l = true -> l = repeat 0%Z (List.length l).
Proof.
  induction l as [|x l IH]; intros H; [reflexivity|]. cbn [forallb] in H. apply andb_true_iff in H as [H1 H2].
  apply Z.eqb_eq in H1. subst x. simpl. f_equal. auto.
Qed.
Lemma nonzero_shift : forall l i, nonzero_from (S i) l = map S (nonzero_from i l).
Proof. intros l i. apply nonzero_from_S. Qed.
Lemma z_index_cons : forall x l, x <> 0%Z -> existsb (Z.eqb 0) l = true -> z_index 0 (x :: l) = S (z_index 0 l).
Proof.
  intros x l Hx H. unfold z_index, nonzero. simpl. destruct (Z.eqb_spec x 0) as [E|_]; [contradiction|].
  rewrite nonzero_shift. destruct (nonzero_from 0 (map (fun x => Z.eqb x 0) l)) as [|p r] eqn:E; [|reflexivity].
  exfalso. apply existsb_exists in H as (y & Hy & E0). apply Z.eqb_eq in E0. subst y.
  apply In_nth_error in Hy as [p Hp].
  apply (proj1 (nonzero_nil _) E p). rewrite nth_error_map, Hp. reflexivity.
Qed.
Lemma zeros_split : forall l, existsb (Z.eqb 0) l = true ->
  forallb (Z.eqb 0) (skipn (z_index 0 l) l) = true ->
  exists tids pad, l = tids ++ repeat 0%Z pad /\ filter (fun t => negb (t =? 0)%Z) l = tids.
Proof.
  induction l as [|x l IH]; intros H1 H2; [discriminate|].
  destruct (Z.eq_dec x 0) as [->|N].
  - assert (E : z_index 0 (0%Z :: l) = 0%nat) by reflexivity. rewrite E in H2.
    change (skipn 0 (0%Z :: l)) with (0%Z :: l) in H2. apply forallb_zero in H2.
    remember (List.length (0%Z :: l)) as m. exists [], m. split; [assumption|]. rewrite H2.
    clear. induction m; [reflexivity|assumption].
  - assert (H1' : existsb (Z.eqb 0) l = true).
    { simpl in H1. destruct x; [contradiction|exact H1|exact H1]. }
    rewrite (z_index_cons N H1') in H2. simpl in H2. destruct (IH H1' H2) as (tids & pad & E1 & E2).
    exists (x :: tids), pad. split; [simpl; congruence|]. simpl. destruct (Z.eqb_spec x 0); [contradiction|].
    simpl. congruence.
Qed.
Lemma existsb_zero_false : forall l, existsb (Z.eqb 0) l = false -> filter (fun t => negb (t =? 0)%Z) l = l.
Proof.
  induction l as [|x l IH]; intros H; [reflexivity|]. cbn [existsb] in H. apply orb_false_iff in H as [H1 H2].
  simpl. rewrite Z.eqb_sym, H1. simpl. f_equal. auto.
Qed.
Definition incr_pairs (l : list Z) : list bool := map (fun p => (snd p <=? fst p)%Z) (combine l (skipn 1 l)).
Lemma incr_pairs_sorted : forall l, nonzero (incr_pairs l) = [] <-> StronglySorted Z.lt l.
Proof.
  intros l. rewrite nonzero_nil. split.
  - intros H. apply Sorted_StronglySorted; [intros a b c; apply Z.lt_trans|].
    induction l as [|x l IH]; [constructor|]. constructor.
    + apply IH. intros p Hp. apply (H (S p)). unfold incr_pairs in *. destruct l as [|y l]; [destruct p; discriminate|]. exact Hp.
    + destruct l as [|y l]; [constructor|]. constructor. specialize (H 0%nat). unfold incr_pairs in H. simpl in H.
      destruct (Z.leb_spec y x); [congruence|lia].
  - intros H p Hp. unfold incr_pairs in Hp. revert p Hp. induction l as [|x l IH]; intros p Hp; [destruct p; discriminate|].
    inversion H as [|? ? H1 H2]; subst. destruct l as [|y l]; [destruct p; discriminate|]. destruct p as [|p].
    + simpl in Hp. injection Hp as Hp. apply Z.leb_le in Hp. inversion H2; subst. lia.
    + apply (IH H1 p). exact Hp.
Qed.

Section F.
Context {V : Type}.
Notation faccess := (faccess V).

Lemma trainids_checked : forall (fa : faccess) raw, h5_trainid (fa_file fa) = Some raw -> Forall u64_range raw ->
  (check_trainids fa = Ok [] <-> padded_increasing raw).
Proof.
  intros fa raw Hraw Hu. unfold check_trainids. rewrite Hraw.
  assert (NZ : (if existsb (Z.eqb 0) raw then filter (fun t => negb (t =? 0)%Z) raw else raw) =
               filter (fun t => negb (t =? 0)%Z) raw).
  { destruct (existsb (Z.eqb 0) raw) eqn:E; [reflexivity|]. now rewrite existsb_zero_false. }
  rewrite NZ. set (nz := filter _ raw).
  assert (INC : (if (1 <? List.length nz)%nat
          then match nonzero (map (fun p : Z * Z => (snd p <=? fst p)%Z) (combine nz (skipn 1 nz))) with
               | [] => [] | pos :: _ => [PNotIncreasing pos (nth pos nz 0%Z) (nth (S pos) nz 0%Z)] end
          else []) = [] <-> StronglySorted Z.lt nz).
  { rewrite <- incr_pairs_sorted. fold (incr_pairs nz). destruct (Nat.ltb_spec 1 (List.length nz)) as [L|L].
    - destruct (nonzero (incr_pairs nz)); split; congruence.
    - split; [intros _|reflexivity]. destruct nz as [|x [|y r]]; simpl in L; try lia; reflexivity. }
  split.
  - intros H. injection H as H. apply app_eq_nil in H as [H1 H2]. apply INC in H2.
    assert (S : exists pad, raw = nz ++ repeat 0%Z pad).
    { destruct (existsb (Z.eqb 0) raw) eqn:E.
      - destruct (forallb (Z.eqb 0) (skipn (z_index 0 raw) raw)) eqn:E2; [|discriminate].
        destruct (zeros_split E E2) as (tids & pad & E3 & E4). exists pad. unfold nz. now rewrite E4.
      - exists 0%nat. unfold nz. rewrite (existsb_zero_false E). simpl. now rewrite app_nil_r. }
    destruct S as [pad S]. exists nz, pad. split; [assumption|]. split; [assumption|].
    apply Forall_forall. intros t Ht. unfold nz in Ht. apply filter_In in Ht as [Ht Hz].
    rewrite Forall_forall in Hu. specialize (Hu t Ht). unfold u64_range in Hu.
    destruct (Z.eqb_spec t 0); [discriminate|lia].
  - intros (tids & pad & E & Hs & Hp).
    assert (NZE : nz = tids).
    { unfold nz. rewrite E. apply nonzero_tids_ok with (pad := pad) in Hp. exact Hp. }
    f_equal. rewrite NZE in *. rewrite (proj2 INC Hs), app_nil_r.
    destruct (existsb (Z.eqb 0) raw) eqn:E1; [|reflexivity].
    replace (forallb (Z.eqb 0) (skipn (z_index 0 raw) raw)) with true; [reflexivity|]. symmetry.
    rewrite E in *. clear - Hp E1. induction tids as [|x tids IH].
    + simpl in *. destruct pad; [discriminate|]. clear. change (z_index 0 (repeat 0%Z (S pad))) with 0%nat.
      simpl. induction pad; [reflexivity|assumption].
    + inversion Hp; subst. simpl app in *. assert (x <> 0%Z) by lia.
      assert (E2 : existsb (Z.eqb 0) (tids ++ repeat 0%Z pad) = true).
      { simpl in E1. destruct x; [contradiction|exact E1|exact E1]. }
      rewrite z_index_cons by assumption. simpl. auto.
Qed.

(** ** The index *)
Lemma np_bin_same : forall A B C (f : A -> B -> C) a b, List.length a = List.length b ->
  np_bin f a b = Ok (map (fun p => f (fst p) (snd p)) (combine a b)).
Proof. intros A B C f a b H. unfold np_bin. now rewrite H, Nat.eqb_refl. Qed.
Lemma nth_combine : forall A B (a : list A) (b : list B) p x y,
  nth_error (combine a b) p = Some (x, y) <-> nth_error a p = Some x /\ nth_error b p = Some y.
Proof.
  induction a as [|x0 a IH]; intros b p x y; [destruct p; simpl; split; try discriminate; intros [H _]; discriminate|].
  destruct b as [|y0 b]; [destruct p; simpl; split; try discriminate; intros [_ H]; discriminate|].
  destruct p; simpl; [|apply IH]. split; [intros H; injection H as -> ->; auto|intros [H1 H2]; congruence].
Qed.
Lemma nth_map_inv : forall A B (f : A -> B) l p y, nth_error (map f l) p = Some y -> exists x, nth_error l p = Some x /\ y = f x.
Proof.
  intros A B f l p y H. rewrite nth_error_map in H. destruct (nth_error l p) as [x|]; [|discriminate].
  injection H as <-. eauto.
Qed.
Lemma nth_removelast : forall A (l : list A) p, (S p < List.length l)%nat -> nth_error (removelast l) p = nth_error l p.
Proof.
  induction l as [|x l IH]; intros p H; [simpl in H; lia|]. destruct l as [|y l]; [simpl in H; lia|].
  destruct p; [reflexivity|]. change (removelast (x :: y :: l)) with (x :: removelast (y :: l)). simpl nth_error at 1.
  rewrite IH by (simpl in *; lia). reflexivity.
Qed.
Lemma removelast_length : forall A (l : list A), List.length (removelast l) = (List.length l - 1)%nat.
Proof. induction l as [|x l IH]; [reflexivity|]. destruct l as [|y l]; [reflexivity|]. change (removelast (x :: y :: l)) with (x :: removelast (y :: l)). simpl in *. lia. Qed.

Lemma u64_bound : forall z, u64_range (u64 z).
Proof. intros z. unfold u64, u64_range. apply Z.mod_pos_bound. reflexivity. Qed.

Lemma index_entries : forall (fa : faccess) s g G F C,
  dict_get (ix_path s g) (h5_index (fa_file fa)) = Some G -> index_typed G ->
  fa_get_index fa s g = Ok (F, C) ->
  (forall p, (p < List.length (fa_tids fa))%nat -> nth_error F p = nth_error (ix_first G) p) /\
  (forall p c, nth_error C p = Some c -> exists c', entry_count G p = Some c' /\ c = u64 c').
Proof.
  intros fa s g G F C HG (T1 & T2) H. unfold fa_get_index in H. rewrite HG in H. unfold entry_count.
  set (n := List.length (fa_tids fa)) in *. destruct (ix_more G) as [cs|ls ss].
  - injection H as <- <-. split.
    + intros p Hp. rewrite nth_error_firstn. apply Nat.ltb_lt in Hp. now rewrite Hp.
    + intros p c Hc. rewrite nth_error_firstn in Hc. destruct (p <? n)%nat; [|discriminate].
      exists c. split; [assumption|]. symmetry. apply u64_id. rewrite Forall_forall in T2. apply T2. eapply nth_error_In; eassumption.
  - destruct (zip3 _ _ _ _) as [cs|] eqn:Z; [|discriminate]. simpl in H. injection H as <- <-. split.
    + intros p Hp. rewrite nth_error_firstn. apply Nat.ltb_lt in Hp. now rewrite Hp.
    + intros p c Hc. unfold zip3 in Z. destruct (_ && _); [|discriminate]. injection Z as <-.
      apply nth_map_inv in Hc as ([[l f] st] & Hc & ->). apply nth_combine in Hc as [Hc Hst].
      apply nth_combine in Hc as [Hl Hf]. rewrite nth_error_firstn in Hl, Hf, Hst.
      destruct (p <? n)%nat; [|discriminate]. rewrite Hl, Hf, Hst. eexists. split; [reflexivity|]. simpl.
      destruct T2 as [_ T2]. rewrite Forall_forall in T2. destruct (T2 st (nth_error_In _ _ Hst)) as [->| ->]; simpl.
      * rewrite Z.mul_0_r. reflexivity.
      * rewrite Z.mul_1_r. unfold u64. rewrite Zmod_mod, Zplus_mod_idemp_l. reflexivity.
Qed.

Lemma existsb_false_iff : forall A (p : A -> bool) l, existsb p l = false <-> (forall x, In x l -> p x = false).
Proof.
  intros A p l. split.
  - intros H x Hx. destruct (p x) eqn:E; [|reflexivity]. assert (existsb p l = true) by (apply existsb_exists; eauto). congruence.
  - intros H. destruct (existsb p l) eqn:E; [|reflexivity]. apply existsb_exists in E as (x & Hx & E). rewrite (H x Hx) in E. discriminate.
Qed.

Lemma key_checked : forall (fa : faccess) s k F C ds, fa_get_index fa s (key_group k) = Ok (F, C) ->
  fa_dataset fa (ds_path "INSTRUMENT" s k) = Ok ds -> List.length F = List.length C ->
  (check_key fa s k = Ok [] <->
   forall p a c, nth_error F p = Some a -> nth_error C p = Some c -> (u64 (a + c) <= Z.of_nat (List.length (ds_rows ds)))%Z).
Proof.
  intros fa s k F C ds H1 H2 L. unfold check_key. rewrite H1. simpl. rewrite H2. simpl. rewrite (np_bin_same _ L). simpl.
  set (l := map _ (combine F C)). set (b := existsb _ l).
  assert (E : b = false <-> forall p a c, nth_error F p = Some a -> nth_error C p = Some c -> (u64 (a + c) <= Z.of_nat (List.length (ds_rows ds)))%Z).
  { unfold b. rewrite existsb_false_iff. split.
    - intros H p a c Ha Hc. assert (Hin : In (u64 (a + c)) l).
      { apply (nth_error_In l p). unfold l. rewrite nth_error_map. rewrite (proj2 (nth_combine F C p a c)) by auto. reflexivity. }
      specialize (H _ Hin). apply Z.ltb_ge in H. assumption.
    - intros H x Hx. unfold l in Hx. apply In_nth_error in Hx as [p Hp]. apply nth_map_inv in Hp as ([a c] & Hp & ->).
      apply nth_combine in Hp as [Ha Hc]. apply Z.ltb_ge. simpl. eauto. }
  rewrite <- E. destruct b; split; congruence.
Qed.

Lemma contiguous_checked : forall ix F C, List.length F = List.length C ->
  (check_index_contiguous ix F C = Ok [] <->
   nth_error F 0 = Some 0%Z /\
   forall p a c b, nth_error F p = Some a -> nth_error C p = Some c -> nth_error F (S p) = Some b ->
     to_f64 (to_i64 b) = to_f64 (u64 (a + c))).
Proof.
  intros ix F C L. unfold check_index_contiguous, nth_res.
  destruct (nth_error F 0) as [f0|] eqn:E0; [|simpl; split; [discriminate|intros [H _]; discriminate]].
  cbn [bind]. rewrite (np_bin_same _ L). cbn [bind].
  set (ends := map _ (combine F C)).
  assert (Lends : List.length ends = List.length F) by (unfold ends; rewrite map_length, combine_length; lia).
  assert (Hends : forall p e, nth_error ends p = Some e <-> exists a c, nth_error F p = Some a /\ nth_error C p = Some c /\ e = u64 (a + c)).
  { intros p e. unfold ends. split.
    - intros H. apply nth_map_inv in H as ([a c] & H & ->). apply nth_combine in H as [H1 H2]. eauto.
    - intros (a & c & H1 & H2 & ->). rewrite nth_error_map. rewrite (proj2 (nth_combine F C p a c)) by auto. reflexivity. }
  rewrite np_bin_same by (rewrite removelast_length, skipn_length; lia). cbn [bind].
  set (gaps := map _ (combine (skipn 1 F) (removelast ends))).
  assert (Hgaps : forall p g, nth_error gaps p = Some g <-> exists a c b, nth_error F p = Some a /\ nth_error C p = Some c /\
            nth_error F (S p) = Some b /\ g = gap_f64 b (u64 (a + c))).
  { intros p g. unfold gaps. split.
    - intros H. apply nth_map_inv in H as ([b e] & H & ->). apply nth_combine in H as [H1 H2].
      rewrite nth_error_skipn in H1. cbn [Nat.add] in H1. pose proof (nth_error_Some_lt _ _ H1) as Hl.
      rewrite nth_removelast in H2 by lia. apply Hends in H2 as (a & c & Ha & Hc & ->). exists a, c, b. auto.
    - intros (a & c & b & Ha & Hc & Hb & ->). rewrite nth_error_map.
      rewrite (proj2 (nth_combine (skipn 1 F) (removelast ends) p b (u64 (a + c)))); [reflexivity|].
      split; [now rewrite nth_error_skipn|]. pose proof (nth_error_Some_lt _ _ Hb) as Hl.
      rewrite nth_removelast by lia. apply Hends. eauto. }
  assert (Z1 : nonzero (map (fun g => (0 <? g)%Z) gaps) = [] <-> forall p g, nth_error gaps p = Some g -> (g <= 0)%Z).
  { rewrite nonzero_nil. split.
    - intros H p g Hp. specialize (H p). rewrite nth_error_map, Hp in H. simpl in H. destruct (Z.ltb_spec 0 g); [congruence|lia].
    - intros H p Hp. apply nth_map_inv in Hp as (g & Hp & Hg). symmetry in Hg. apply Z.ltb_lt in Hg. specialize (H p g Hp). lia. }
  assert (Z2 : nonzero (map (fun g => (g <? 0)%Z) gaps) = [] <-> forall p g, nth_error gaps p = Some g -> (0 <= g)%Z).
  { rewrite nonzero_nil. split.
    - intros H p g Hp. specialize (H p). rewrite nth_error_map, Hp in H. simpl in H. destruct (Z.ltb_spec g 0); [congruence|lia].
    - intros H p Hp. apply nth_map_inv in Hp as (g & Hp & Hg). symmetry in Hg. apply Z.ltb_lt in Hg. specialize (H p g Hp). lia. }
  split.
  - intros H. destruct (nonzero (map (fun g => (0 <? g)%Z) gaps)) as [|p1 r1] eqn:N1; cbn [bind] in H.
    2:{ exfalso. destruct (nth_error F p1); [|discriminate]. cbn [bind] in H. destruct (nth_error C p1); [|discriminate]. cbn [bind] in H.
        destruct (nth_error F (S p1)); [|discriminate]. cbn [bind] in H.
        match type of H with (bind ?x _ = _) => destruct x as [q|] end; [|discriminate]. simpl in H. injection H as H.
        apply app_eq_nil in H as [_ H]. discriminate. }
    destruct (nonzero (map (fun g => (g <? 0)%Z) gaps)) as [|p2 r2] eqn:N2; cbn [bind] in H.
    2:{ exfalso. destruct (nth_error F p2); [|discriminate]. cbn [bind] in H. destruct (nth_error C p2); [|discriminate]. cbn [bind] in H.
        destruct (nth_error F (S p2)); [|discriminate]. cbn [bind] in H. simpl in H. injection H as H.
        apply app_eq_nil in H as [_ H]. discriminate. }
    pose proof (proj1 Z1 eq_refl) as Q1. pose proof (proj1 Z2 eq_refl) as Q2.
    destruct (Z.eqb_spec f0 0) as [->|]; [|discriminate]. split; [reflexivity|].
    intros p a c b Ha Hc Hb. assert (G : nth_error gaps p = Some (gap_f64 b (u64 (a + c)))) by (apply Hgaps; exists a, c, b; auto).
    pose proof (Q1 _ _ G). pose proof (Q2 _ _ G). unfold gap_f64 in *. lia.
  - intros [H0 Hc]. injection H0 as ->. simpl Z.eqb. cbv iota.
    assert (Q : forall p g, nth_error gaps p = Some g -> g = 0%Z).
    { intros p g Hp. apply Hgaps in Hp as (a & c & b & Ha & Hcc & Hb & ->). unfold gap_f64. rewrite (Hc p a c b); auto. lia. }
    rewrite (proj2 Z1) by (intros p g Hp; rewrite (Q p g Hp); lia).
    rewrite (proj2 Z2) by (intros p g Hp; rewrite (Q p g Hp); lia). reflexivity.
Qed.

Lemma group_checked : forall (fa : faccess) s g,
  check_group fa s g = Ok [] <-> exists F C, fa_get_index fa s g = Ok (F, C) /\
    List.length F = List.length (fa_tids fa) /\ List.length C = List.length (fa_tids fa) /\
    check_index_contiguous ("INDEX/" ++ ix_path s g)%string F C = Ok [].
Proof.
  intros fa s g. unfold check_group. destruct (fa_get_index fa s g) as [[F C]|] eqn:E; simpl.
  2:{ split; [discriminate|]. intros (F & C & H & _). discriminate. }
  split.
  - intros H. destruct (check_index_contiguous _ F C) as [q|] eqn:Ec; [|discriminate]. simpl in H. injection H as H.
    exists F, C. destruct (Nat.eqb_spec (List.length F) (List.length C)); [|discriminate].
    destruct (Nat.eqb_spec (List.length F) (List.length (fa_tids fa))); [|discriminate].
    simpl in H. subst q. repeat split; congruence.
  - intros (F' & C' & H & L1 & L2 & Hc). injection H as <- <-. rewrite Hc. simpl. rewrite L1, L2, Nat.eqb_refl. reflexivity.
Qed.

Lemma source_checked : forall (fa : faccess) s,
  check_source fa s = Ok [] <-> exists ks, fa_get_keys fa s = Ok ks /\
    forall k, In k ks -> check_key fa s k = Ok [] /\ check_group fa s (key_group k) = Ok [].
Proof.
  intros fa s. unfold check_source. destruct (fa_get_keys fa s) as [ks|]; simpl.
  2:{ split; [discriminate|]. intros (ks & H & _). discriminate. }
  set (groups := fold_left _ ks []).
  assert (G : forall g, In g groups <-> exists k, In k ks /\ g = key_group k).
  { intros g. unfold groups. assert (X : forall l acc, In g (fold_left (fun acc k => set_add (key_group k) acc) l acc) <-> In g acc \/ exists k, In k l /\ g = key_group k).
    { induction l as [|x l IH]; intros acc; cbn [fold_left].
      - split; [auto|]. intros [H|(k & [] & _)]; exact H.
      - rewrite IH, set_add_In. split.
        + intros [[->|H]|(k & H & ->)]; [right; exists x; simpl; auto|auto|right; exists k; simpl; auto].
        + intros [H|(k & [<-|H] & ->)]; eauto. }
    rewrite X. split; [intros [[]|H]; exact H|auto]. }
  split.
  - intros H. destruct (mapM (check_key fa s) ks) as [p1|] eqn:E1; [|discriminate]. simpl in H.
    destruct (mapM (check_group fa s) groups) as [p2|] eqn:E2; [|discriminate]. simpl in H. injection H as H.
    apply app_eq_nil in H as [H1 H2]. exists ks. split; [reflexivity|]. intros k Hk. split.
    + eapply (proj1 (mapM_concat_nil (check_key fa s) ks)); [|assumption]. eauto.
    + eapply (proj1 (mapM_concat_nil (check_group fa s) groups)); [eauto|]. apply G. eauto.
  - intros (ks' & Hks & H). injection Hks as <-.
    destruct (proj2 (mapM_concat_nil (check_key fa s) ks) (fun k Hk => proj1 (H k Hk))) as (p1 & -> & E1). simpl.
    destruct (proj2 (mapM_concat_nil (check_group fa s) groups)) as (p2 & -> & E2).
    { intros g Hg. apply G in Hg as (k & Hk & ->). exact (proj2 (H k Hk)). }
    simpl. now rewrite E1, E2.
Qed.

Lemma file_checked : forall (fa : faccess),
  file_checks fa = Ok [] <-> (forall s, In s (fa_inst fa) -> check_source fa s = Ok []) /\ check_trainids fa = Ok [].
Proof.
  intros fa. unfold file_checks. split.
  - intros H. destruct (mapM (check_source fa) (fa_inst fa)) as [p1|] eqn:E1; [|discriminate]. simpl in H.
    destruct (check_trainids fa) as [p2|] eqn:E2; [|discriminate]. simpl in H. injection H as H.
    apply map_eq_nil in H. apply app_eq_nil in H as [H1 H2]. split; [|now rewrite H2].
    apply (proj1 (mapM_concat_nil (check_source fa) (fa_inst fa))). eauto.
  - intros [H1 H2]. destruct (proj2 (mapM_concat_nil _ _) H1) as (p1 & -> & E1). simpl. rewrite H2. simpl. now rewrite E1.
Qed.

Lemma opened_trainid : forall f (fa : faccess), fa_open f = Ok fa -> fa_file fa = f /\ exists raw, h5_trainid f = Some raw /\ fa_tids fa = nonzero_tids raw.
Proof.
  intros f fa H. unfold fa_open in H. destruct (h5_trainid f) as [raw|] eqn:E; [|discriminate].
  destruct (read_data_sources f) as [[c i]|]; [|discriminate]. simpl in H. injection H as <-. simpl. eauto.
Qed.

Lemma fa_dataset_ok : forall (fa : faccess) path ds, fa_dataset fa path = Ok ds <-> dict_get path (h5_data (fa_file fa)) = Some ds.
Proof. intros fa path ds. unfold fa_dataset. destruct (dict_get path _); split; congruence. Qed.

Theorem passed_usable : forall f (fa : faccess), fa_open f = Ok fa -> file_sane f -> file_checks fa = Ok [] -> usable_file fa.
Proof.
  intros f fa Ho ((T1 & T2 & T3) & SN) H. apply file_checked in H as [H1 H2].
  destruct (opened_trainid Ho) as (E & raw & Hraw & Htids). subst f. split.
  { exists raw. split; [assumption|]. apply (trainids_checked Hraw (T1 _ Hraw)). assumption. }
  intros s ks k Hs Hks Hk. specialize (H1 s Hs). apply source_checked in H1 as (ks' & Hks' & H1).
  rewrite Hks in Hks'. injection Hks' as <-. destruct (H1 k Hk) as [K1 K2]. clear H1.
  apply group_checked in K2 as (F & C & Hix & L1 & L2 & Hc).
  assert (Hds : exists ds, fa_dataset fa (ds_path "INSTRUMENT" s k) = Ok ds).
  { unfold check_key in K1. rewrite Hix in K1. simpl in K1. destruct (fa_dataset fa _) as [ds|]; [eauto|discriminate]. }
  destruct Hds as [ds Hds]. assert (HG : exists G, dict_get (ix_path s (key_group k)) (h5_index (fa_file fa)) = Some G).
  { unfold fa_get_index in Hix. destruct (dict_get _ _) as [G|]; [eauto|discriminate]. }
  destruct HG as [G HG]. exists G, ds. rewrite <- ix_path_inst, <- ds_path_inst. split; [assumption|].
  split; [now apply fa_dataset_ok|].
  pose proof (proj1 (key_checked Hix Hds ltac:(congruence)) K1) as Kin.
  apply (contiguous_checked _ (eq_trans L1 (eq_sym L2))) in Hc as [Hc0 Hc].
  destruct (index_entries HG (T2 _ _ HG) Hix) as [EF EC]. pose proof (SN _ _ HG) as SG.
  apply fa_dataset_ok in Hds. pose proof (T3 _ _ Hds) as Bds. set (nr := List.length (ds_rows ds)) in *.
  set (n := List.length (fa_tids fa)) in *. destruct (T2 _ _ HG) as [TF _].
  assert (CC : forall p c, nth_error C p = Some c -> entry_count G p = Some c /\ (0 <= c < 2 ^ 63)%Z).
  { intros p c Hp. destruct (EC p c Hp) as (c' & Ec & ->). pose proof (SG _ _ Ec) as B.
    rewrite u64_id by (unfold u64_range; lia). auto. }
  assert (FF : forall p a, nth_error F p = Some a -> u64_range a).
  { intros p a Hp. rewrite EF in Hp by (pose proof (nth_error_Some_lt _ _ Hp); lia).
    rewrite Forall_forall in TF. apply TF. eapply nth_error_In; eassumption. }
  assert (Main : forall p, (p < n)%nat -> exists a c, nth_error F p = Some a /\ nth_error C p = Some c /\
             (0 <= a)%Z /\ (a + c <= Z.of_nat nr)%Z).
  { assert (Step : forall p a, nth_error F p = Some a -> (0 <= a < 2 ^ 53)%Z -> exists c, nth_error C p = Some c /\ (a + c <= Z.of_nat nr)%Z).
    { intros p a Ha Ba. destruct (nth_error_ex C (n := p)) as [c Hcp]; [pose proof (nth_error_Some_lt _ _ Ha); lia|].
      exists c. split; [assumption|]. specialize (Kin p a c Ha Hcp). destruct (CC p c Hcp) as [_ B].
      rewrite u64_id in Kin; [assumption|]. unfold u64_range. lia. }
    induction p as [|p IH]; intros Hp.
    - destruct (Step 0%nat 0%Z Hc0) as (c & Hc1 & Hc2); [lia|]. exists 0%Z, c. repeat split; try assumption; lia.
    - destruct IH as (a & c & Ha & Hcp & A0 & Hend); [lia|].
      destruct (nth_error_ex F (n := S p)) as [b Hb]; [lia|].
      pose proof (Hc p a c b Ha Hcp Hb) as Hf. destruct (CC p c Hcp) as [_ B].
      rewrite (@u64_id (a + c)) in Hf by (unfold u64_range; lia).
      apply to_f64_inj in Hf; [|lia].
      assert (Hb' : b = (a + c)%Z).
      { unfold to_i64 in Hf. pose proof (FF _ _ Hb) as Ub. unfold u64_range in Ub.
        destruct (Z.ltb_spec b (2 ^ 63)); [assumption|]. lia. }
      destruct (Step (S p) b Hb) as (c' & Hc1 & Hc2); [lia|]. exists b, c'. repeat split; try assumption; lia. }
  split; [|split].
  - intros p Hp. destruct (Main p Hp) as (a & c & Ha & Hcp & A0 & Hend). destruct (CC p c Hcp) as [Ec B].
    exists a, c. rewrite <- EF by assumption. repeat split; try assumption; lia.
  - intros a Hn Ha. rewrite <- EF in Ha by assumption. congruence.
  - intros p a c b Hp Ha Hcp Hb. rewrite <- EF in Ha by lia. rewrite <- EF in Hb by assumption.
    destruct (Main p) as (a' & c' & Ha' & Hc' & A0 & Hend); [lia|]. rewrite Ha' in Ha. injection Ha as ->.
    destruct (CC p c' Hc') as [Ec B]. rewrite Ec in Hcp. injection Hcp as ->.
    pose proof (Hc p a c b Ha' Hc' Hb) as Hf. rewrite (@u64_id (a + c)) in Hf by (unfold u64_range; lia).
    apply to_f64_inj in Hf; [|lia]. unfold to_i64 in Hf. pose proof (FF _ _ Hb) as Ub. unfold u64_range in Ub.
    destruct (Z.ltb_spec b (2 ^ 63)); [assumption|]. lia.
Qed.

Lemma usable_readable : forall g n nr, index_typed g -> (Z.of_nat nr < 2 ^ 53)%Z -> usable_index g n nr -> index_ok g n.
Proof.
  intros g n nr (T1 & T2) Hnr (U1 & U2 & U3). split; [split|assumption].
  - unfold ix_wellformed. destruct (ix_more g); [exact I|]. tauto.
  - intros p Hp. destruct (U1 p Hp) as (a & c & Ha & Hc & A0 & C0 & B). exists a, c. unfold u64_range. repeat split; try assumption; lia.
Qed.

Theorem usable_passes : forall f (fa : faccess), fa_open f = Ok fa -> file_typed f -> fa_tids fa <> [] ->
  usable_file fa -> file_checks fa = Ok [].
Proof.
  intros f fa Ho (T1 & T2 & T3) Hne ((raw & Hraw & Hpad) & Hu).
  destruct (opened_trainid Ho) as (E & raw' & Hraw' & Htids). subst f. apply file_checked. split.
  2:{ apply (trainids_checked Hraw (T1 _ Hraw)). assumption. }
  intros s Hs. apply source_checked.
  assert (Hks : exists ks, fa_get_keys fa s = Ok ks).
  { unfold fa_get_keys. destruct (str_in s (fa_ctrl fa)); [eauto|]. apply str_in_iff in Hs. rewrite Hs. eauto. }
  destruct Hks as [ks Hks]. exists ks. split; [assumption|]. intros k Hk.
  destruct (Hu s ks k Hs Hks Hk) as (G & ds & HG & Hds & U). rewrite <- ix_path_inst in HG. rewrite <- ds_path_inst in Hds.
  pose proof (T3 _ _ Hds) as Bds. pose proof (usable_readable (T2 _ _ HG) Bds U) as Hok.
  destruct (index_read fa s (key_group k) HG (proj1 Hok)) as (F & C & Hix & L1 & L2 & Hn).
  destruct U as (U1 & U2 & U3). set (n := List.length (fa_tids fa)) in *. set (nr := List.length (ds_rows ds)) in *.
  assert (Hn0 : (0 < n)%nat) by (unfold n; destruct (fa_tids fa); [congruence|simpl; lia]).
  assert (FC : forall p a c, nth_error F p = Some a -> nth_error C p = Some c -> (0 <= a)%Z /\ (0 <= c)%Z /\ (a + c <= Z.of_nat nr)%Z).
  { intros p a c Ha Hc. pose proof (nth_error_Some_lt _ _ Ha) as Hp. rewrite L1 in Hp. destruct (Hn p Hp) as [E1 E2].
    destruct (U1 p Hp) as (a' & c' & Ha' & Hc' & B). rewrite E1, Ha' in Ha. rewrite E2, Hc' in Hc. injection Ha as ->. injection Hc as ->. assumption. }
  split.
  - apply fa_dataset_ok in Hds. apply (key_checked Hix Hds); [congruence|]. intros p a c Ha Hc.
    destruct (FC p a c Ha Hc) as (A0 & C0 & B). rewrite u64_id by (unfold u64_range; lia). assumption.
  - apply group_checked. exists F, C. do 3 (split; [assumption|]). apply contiguous_checked; [congruence|]. split.
    + destruct (nth_error_ex F (n := 0%nat)) as [a Ha]; [lia|]. rewrite Ha. f_equal. apply U2; [assumption|].
      destruct (Hn 0%nat Hn0) as [<- _]. assumption.
    + intros p a c b Ha Hc Hb. pose proof (nth_error_Some_lt _ _ Hb) as Hp. rewrite L1 in Hp.
      destruct (Hn p) as [E1 E2]; [lia|]. destruct (Hn (S p) Hp) as [E3 _].
      assert (Eb : b = (a + c)%Z) by (apply (U3 p); congruence).
      destruct (FC p a c Ha Hc) as (A0 & C0 & B). rewrite (@u64_id (a + c)) by (unfold u64_range; lia).
      subst b. f_equal. unfold to_i64. destruct (Z.ltb_spec (a + c) (2 ^ 63)); [reflexivity|lia].
Qed.
End F.
