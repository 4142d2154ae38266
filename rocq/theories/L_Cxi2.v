(** Lemmas on the CXI writer: chunks, files and modules. *)
From Verif Require Import Base PyStr M_Files M_Machinery M_Reader M_Components M_Cxi S_Reader L_Base L_Reader L_GetArray L_Array2 L_Components L_Cxi.
Set Implicit Arguments.
Unset Strict Implicit.
Local Open Scope list_scope.

Definition rows_at {W} (t : Z) (A : list (Z * W)) : list W := map snd (filter (fun p => (fst p =? t)%Z) A).
Lemma rows_at_app : forall W t (A B : list (Z * W)), rows_at t (A ++ B) = rows_at t A ++ rows_at t B.
Proof. intros. unfold rows_at. now rewrite filter_app, map_app. Qed.

Definition pos_entry (e : entry) : bool := negb (e_count e =? 0)%Z.
Definition fixed_counts (F : nat) (E : list entry) : Prop := Forall (fun e => e_count e = 0 \/ e_count e = Z.of_nat F)%Z E.

Lemma contig_tail : forall e E, contig (e :: E) -> contig E.
Proof. intros e E H i x y Hx Hy. exact (H (S i) x y Hx Hy). Qed.
Lemma contig_next : forall e e' E, contig (e :: e' :: E) -> e_first e' = (e_first e + e_count e)%Z.
Proof. intros e e' E H. exact (H 0%nat e e' eq_refl eq_refl). Qed.

Lemma chunk_layout : forall F E a, (0 < F)%nat -> contig E -> fixed_counts F E -> match E with e :: _ => e_first e = a | [] => True end ->
  np_repeat (map fst E) (map e_count E) = blocks F (map fst (filter pos_entry E)) /\
  (forall q e, nth_error (filter pos_entry E) q = Some e -> e_first e = a + Z.of_nat (q * F) /\ e_count e = Z.of_nat F)%Z /\
  (forall N, E <> [] -> Forall (fun e => e_first e + e_count e <= N)%Z E -> a + Z.of_nat (List.length (filter pos_entry E) * F) <= N)%Z.
Proof.
  intros F E a HF. revert a. induction E as [|e E IH]; intros a HC HX Ha.
  - cbn. split; [reflexivity|]. split; [intros [|q]; discriminate|]. congruence.
  - inversion HX as [|? ? He HX']; subst.
    destruct (IH (e_first e + e_count e)%Z (contig_tail HC) HX') as (I1 & I2 & I3).
    { destruct E as [|e' E]; [exact I|]. now apply contig_next in HC. }
    cbn [map filter]. unfold np_repeat in *. cbn [combine flat_map fst snd]. rewrite I1. assert (HPe : pos_entry e = negb (e_count e =? 0)%Z) by reflexivity.
    destruct He as [He|He]; rewrite He in *; rewrite ?HPe.
    + cbn [Z.eqb negb Z.to_nat repeat app]. split; [reflexivity|]. rewrite Z.add_0_r in I2, I3. split; [exact I2|].
      intros N _ HN. inversion HN; subst. destruct E as [|e' E].
      * cbn. lia.
      * apply I3; [discriminate|assumption].
    + replace (Z.of_nat F =? 0)%Z with false by lia. cbn [negb map]. split; [|split].
      * cbn [blocks flat_map]. now rewrite Nat2Z.id.
      * intros [|q] x Hq; cbn in Hq.
        -- injection Hq as <-. split; [lia|assumption].
        -- destruct (I2 _ _ Hq) as [J1 J2]. split; [lia|assumption].
      * intros N _ HN. inversion HN; subst. cbn [List.length]. destruct E as [|e' E].
        -- cbn. lia.
        -- specialize (I3 N ltac:(discriminate) ltac:(assumption)). lia.
Qed.

Lemma nth_error_zslice : forall A (l : list A) a n i, (0 <= a)%Z -> (i < n)%nat -> nth_error (zslice l a (a + Z.of_nat n)) i = nth_error l (Z.to_nat a + i).
Proof.
  intros A l a n i Ha Hi. unfold zslice. replace (Z.to_nat (a + Z.of_nat n - a)) with n by lia.
  rewrite nth_error_firstn. replace (i <? n)%nat with true by (symmetry; now apply Nat.ltb_lt). now rewrite nth_error_skipn.
Qed.

Section Eff.
Context {T X W : Type}.
Variables (F : nat) (Ts : list Z) (HF : (0 < F)%nat) (HT : StronglySorted Z.lt Ts).
Variables (at_ : T -> nat -> Z -> X) (inj : W -> X).

(** The rows [A], labelled with train IDs, are now in column [col]; nothing else has changed. *)
Definition effA (col : Z) (A : list (Z * W)) (tgt tgt' : T) : Prop :=
  forall j t i c, nth_error Ts j = Some t -> (i < F)%nat ->
    at_ tgt' (j * F + i) c = if (c =? col)%Z then match nth_error (rows_at t A) i with Some v => inj v | None => at_ tgt (j * F + i) c end
                             else at_ tgt (j * F + i) c.
Lemma effA_nil : forall col tgt, effA col [] tgt tgt.
Proof. intros col tgt j t i c _ _. cbn. destruct i; cbn; now destruct (c =? col)%Z. Qed.
Lemma effA_app : forall col A B t1 t2 t3, (forall t, rows_at t A = [] \/ rows_at t B = []) ->
  effA col A t1 t2 -> effA col B t2 t3 -> effA col (A ++ B) t1 t3.
Proof.
  intros col A B t1 t2 t3 HD HA HB j t i c Hj Hi. rewrite (HB j t i c Hj Hi), (HA j t i c Hj Hi).
  destruct (c =? col)%Z; [|reflexivity]. rewrite rows_at_app. destruct (HD t) as [E|E]; rewrite E.
  - cbn [app]. destruct i; reflexivity.
  - rewrite app_nil_r. destruct i; reflexivity.
Qed.

Definition put_works (put : Z -> Z -> nat -> T -> res T) (col : Z) (vals : list W) : Prop :=
  forall start src n tgt tgt', (0 <= start)%Z -> (0 <= src)%Z -> (0 < n)%nat -> (src + Z.of_nat n <= Z.of_nat (List.length vals))%Z ->
  put start src n tgt = Ok tgt' -> forall i c,
  (c = col -> (start <= Z.of_nat i < start + Z.of_nat n)%Z -> forall v, nth_error vals (Z.to_nat src + (i - Z.to_nat start)) = Some v -> at_ tgt' i c = inj v) /\
  (c <> col \/ ~ (start <= Z.of_nat i < start + Z.of_nat n)%Z -> at_ tgt' i c = at_ tgt i c).


Lemma chunk_effect : forall (V : Type) (f : faccess V) E c put col vals good tgt,
  chunk_for f E c -> contig E -> nonneg_entries E -> fixed_counts F E -> StronglySorted Z.lt (map fst E) -> incl (map fst E) Ts ->
  Forall (fun e => e_first e + e_count e <= Z.of_nat (List.length vals))%Z E ->
  put_works put col vals ->
  let tids := np_repeat (ch_tids c) (ch_counts c) in
  let r := map_rows (blocks F Ts) (tid_position Ts (Z.of_nat F)) put (List.length tids) (ch_first c) tids tgt in
  (forall tgt', r = Ok tgt' -> effA col (flat_map (entry_rows vals) E) tgt tgt') /\
  (progress vals put good -> good tgt -> exists tgt', r = Ok tgt' /\ good tgt').
Proof.
  intros V f E c put col vals good tgt (C1 & C2 & C3 & C4) HC HN HX HS HI HB HP.
  cbv zeta. rewrite C2, C3.
  destruct E as [|e0 E0].
  { cbn. split; [|eauto]. intros tgt' [= <-]. apply effA_nil. }
  set (E := e0 :: E0) in *. assert (HE : E <> []) by discriminate.
  destruct (@chunk_layout F E (ch_first c) HF HC HX) as (L1 & L2 & L3); [unfold E in *; cbn in C4 |- *; congruence|].
  assert (C5 : (0 <= ch_first c)%Z). { cbn in C4. rewrite C4. unfold nonneg_entries in HN. inversion HN. tauto. }
  clear C4. clearbody E. set (L := map fst (filter pos_entry E)) in *. rewrite L1.
  assert (HL : incl L Ts). { intros t Ht. apply HI. unfold L in Ht. apply in_map_iff in Ht as (e & <- & He). apply filter_In in He as [He _]. now apply in_map. }
  assert (HLS : StronglySorted Z.lt L). { unfold L. clear -HS. induction E as [|e E IH]; cbn; [constructor|]. cbn in HS. inversion HS; subst.
    destruct (pos_entry e); [|auto]. cbn. constructor; [auto|]. rewrite Forall_forall in *. intros t Ht. apply in_map_iff in Ht as (x & <- & Hx).
    apply filter_In in Hx as [Hx _]. apply H2. now apply in_map. }
  assert (Hlen : List.length L = List.length (filter pos_entry E)) by apply map_length.
  destruct (@map_rows_spec T X W F Ts HF HT at_ col inj vals put HP good (List.length L) L (ch_first c) (List.length (blocks F L)) tgt) as [M1 M2]; try assumption; try lia.
  { rewrite blocks_length. assert (List.length L * 1 <= List.length L * F)%nat by (apply Nat.mul_le_mono_l; lia). lia. }
  { rewrite Hlen. apply L3; assumption. }
  split; [|exact M2].
  intros tgt' Hr. destruct (M1 tgt' Hr) as [Q1 Q2]. clear M1 M2 Hr.
  intros j t i cc Hj Hi. destruct (Z.eqb_spec cc col) as [->|Hcc].
  2:{ apply (Q2 j t i cc Hj Hi). now left. }
  assert (HND : NoDup (map fst E)) by exact (SS_NoDup HF HS).
  destruct (in_dec Z.eq_dec t L) as [HtL|HtL].
  - unfold L in HtL. apply in_map_iff in HtL as (e & He & Hin). apply In_nth_error in Hin as (q & Hq).
    destruct (L2 q e Hq) as [F1 F2]. assert (HeE : In e E) by (apply nth_error_In in Hq; now apply filter_In in Hq).
    unfold rows_at. rewrite (@filter_entries_one _ vals t E e HND HeE He). unfold entry_rows. rewrite map_map. cbn [snd]. rewrite map_id. rewrite F2.
    rewrite Forall_forall in HB. specialize (HB e HeE). rewrite F2 in HB. unfold nonneg_entries in HN. rewrite Forall_forall in HN. specialize (HN e HeE).
    rewrite nth_error_zslice by lia.
    destruct (nth_error vals (Z.to_nat (e_first e) + i)) as [v|] eqn:Ev.
    2:{ apply nth_error_None in Ev. lia. }
    apply (Q1 q t j i v); [unfold L; rewrite nth_error_map, Hq; cbn; now rewrite He|assumption|assumption|].
    rewrite <- Ev. f_equal. lia.
  - rewrite (Q2 j t i col Hj Hi (or_intror HtL)).
    assert (Er : rows_at t (flat_map (entry_rows vals) E) = []).
    { unfold rows_at. destruct (in_dec Z.eq_dec t (map fst E)) as [Hin|Hin].
      - apply in_map_iff in Hin as (e & He & Hin). rewrite (@filter_entries_one _ vals t E e HND Hin He).
        assert (E0c : e_count e = 0%Z). { destruct (Z.eqb_spec (e_count e) 0) as [E1|E1]; [assumption|]. exfalso. apply HtL. unfold L. rewrite <- He. apply in_map. apply filter_In. split; [assumption|].
          unfold pos_entry. destruct (Z.eqb_spec (e_count e) 0); [contradiction|reflexivity]. }
        unfold entry_rows. rewrite E0c. unfold zslice. replace (Z.to_nat (e_first e + 0 - e_first e)) with 0%nat by lia. reflexivity.
      - rewrite (@filter_entries_none _ vals t E Hin). reflexivity. }
    rewrite Er. destruct i; reflexivity.
Qed.

(** ** A sequence of assignments to one column *)
Lemma fold_effect : forall (C : Type) (step : T -> C -> res T) col cs As tgt tgt',
  Forall2 (fun c A => forall t1 t2, step t1 c = Ok t2 -> effA col A t1 t2) cs As ->
  ForallOrdPairs (fun A B => forall t, rows_at t A = [] \/ rows_at t B = []) As ->
  foldM step tgt cs = Ok tgt' -> effA col (List.concat As) tgt tgt'.
Proof.
  intros C step col cs As tgt tgt' H. revert tgt. induction H as [|c A cs As Hc H IH]; intros tgt HO Hf; cbn in *.
  - injection Hf as <-. apply effA_nil.
  - apply bind_ok in Hf as (t1 & H1 & Hf). inversion HO; subst. apply effA_app with t1.
    + intros t. assert (G : forall Bs : list (list (Z * W)), Forall (fun B => forall t, rows_at t A = [] \/ rows_at t B = []) Bs -> rows_at t A = [] \/ rows_at t (List.concat Bs) = []).
      { clear. induction Bs as [|B Bs IH]; intros H; [now right|]. inversion H; subst. cbn [List.concat]. rewrite rows_at_app.
        destruct (H2 t) as [E|E]; [now left|]. destruct (IH H3) as [E'|E']; [now left|]. right. now rewrite E, E'. }
      now apply G.
    + now apply Hc.
    + now apply IH.
Qed.
Lemma fold_progress : forall (C : Type) (step : T -> C -> res T) (good : T -> Prop) cs tgt,
  (forall c t1, In c cs -> good t1 -> exists t2, step t1 c = Ok t2 /\ good t2) -> good tgt -> exists tgt', foldM step tgt cs = Ok tgt' /\ good tgt'.
Proof.
  intros C step good cs. induction cs as [|c cs IH]; intros tgt H Hg; cbn; [eauto|].
  destruct (H c tgt (or_introl eq_refl) Hg) as (t1 & -> & Hg1). cbn. apply IH; [intros; apply H; [now right|assumption]|assumption].
Qed.

(** ** All the modules: each has its own column *)
Lemma modules_effect : forall (step : T -> string * Z -> res T) (A : string * Z -> list (Z * W)) ms tgt tgt',
  (forall sm t1 t2, In sm ms -> step t1 sm = Ok t2 -> effA (snd sm) (A sm) t1 t2) -> NoDup (map snd ms) ->
  foldM step tgt ms = Ok tgt' ->
  forall j t i, nth_error Ts j = Some t -> (i < F)%nat ->
    (forall sm, In sm ms -> at_ tgt' (j * F + i) (snd sm) = match nth_error (rows_at t (A sm)) i with Some v => inj v | None => at_ tgt (j * F + i) (snd sm) end) /\
    (forall c, ~ In c (map snd ms) -> at_ tgt' (j * F + i) c = at_ tgt (j * F + i) c).
Proof.
  intros step A. induction ms as [|sm ms IH]; intros tgt tgt' H HN Hf j t i Hj Hi; cbn in *.
  - injection Hf as <-. split; [contradiction|reflexivity].
  - apply bind_ok in Hf as (t1 & H1 & Hf). inversion HN as [|? ? HN1 HN2]; subst.
    destruct (IH t1 tgt' (fun sm' a b Hin => H sm' a b (or_intror Hin)) HN2 Hf j t i Hj Hi) as [I1 I2].
    assert (Hs := H sm tgt t1 (or_introl eq_refl) H1 j t i). split.
    + intros sm' [<-|Hin].
      * rewrite (I2 (snd sm) HN1). rewrite (Hs (snd sm) Hj Hi), Z.eqb_refl. reflexivity.
      * rewrite (I1 sm' Hin). rewrite (Hs (snd sm') Hj Hi). destruct (Z.eqb_spec (snd sm') (snd sm)) as [E|_]; [|reflexivity].
        exfalso. apply HN1. rewrite <- E. now apply in_map.
    + intros c Hc. rewrite I2 by tauto. rewrite (Hs c Hj Hi). destruct (Z.eqb_spec c (snd sm)) as [->|_]; [|reflexivity]. exfalso. apply Hc. now left.
Qed.
End Eff.
