(** by_id slices with a step. *)
From Verif Require Import Base PyStr M_Files M_Machinery M_Reader M_Glob M_Select S_Reader S_Coll S_Select
  L_Base L_Machinery L_Reader L_GetArray L_Select L_SelTrains.
Set Implicit Arguments.
Unset Strict Implicit.
Local Open Scope list_scope.
Local Open Scope Z_scope.

Lemma pick_range_nth : forall A (l : list A) a b i, 0 <= a -> b <= Z.of_nat (List.length l) ->
  0 <= i -> i < b - a -> nth_error (pick l (py_range a b 1)) (Z.to_nat i) = nth_error l (Z.to_nat (a + i)).
Proof.
  intros A l a b i Ha Hb Hi Hi2.
  assert (F : Forall2 (fun p x => nth_error l (Z.to_nat p) = Some x) (py_range a b 1) (pick l (py_range a b 1))).
  { apply pick_all. intros p Hp. apply py_range_In in Hp; [|lia]. change (0 <? 1) with true in Hp. cbv iota in Hp.
    destruct Hp as (H1 & m & Hm & ->). lia. }
  assert (P : nth_error (py_range a b 1) (Z.to_nat i) = Some (a + i)).
  { unfold py_range. rewrite nth_error_map.
    assert (L : i < range_len a b 1) by (apply range_len_pos; lia).
    rewrite (@nth_error_nth' _ (seq 0 (Z.to_nat (range_len a b 1))) (Z.to_nat i) 0%nat) by (rewrite seq_length; lia).
    rewrite seq_nth by lia. cbn [option_map]. f_equal. lia. }
  revert P. generalize (Z.to_nat i). clear -F. induction F as [|p x ps r Hp F IH]; intros [|n] P; cbn in P |- *; try discriminate.
  - injection P as ->. now rewrite Hp.
  - now apply IH.
Qed.
Lemma pick_range_length : forall A (l : list A) a b, 0 <= a -> b <= Z.of_nat (List.length l) ->
  Z.of_nat (List.length (pick l (py_range a b 1))) = Z.max 0 (b - a).
Proof.
  intros A l a b Ha Hb.
  assert (F : Forall2 (fun p x => nth_error l (Z.to_nat p) = Some x) (py_range a b 1) (pick l (py_range a b 1))).
  { apply pick_all. intros p Hp. apply py_range_In in Hp; [|lia]. change (0 <? 1) with true in Hp. cbv iota in Hp.
    destruct Hp as (H1 & m & Hm & ->). lia. }
  replace (List.length (pick l (py_range a b 1))) with (List.length (py_range a b 1)) by (clear -F; induction F; cbn; congruence). unfold py_range. rewrite map_length, seq_length. unfold range_len. change (0 <? 1) with true. cbv iota.
  destruct (Z.ltb_spec a b); [|lia]. rewrite Z.div_1_r. lia.
Qed.
Lemma pick_shift : forall A (l mid : list A) a qs, (forall q, In q qs -> nth_error mid (Z.to_nat q) = nth_error l (Z.to_nat (a + q))) ->
  pick l (map (fun q => a + q) qs) = pick mid qs.
Proof.
  intros A l mid a. induction qs as [|q qs IH]; intros H; cbn [map pick]; [reflexivity|].
  rewrite (H q (or_introl eq_refl)). rewrite IH by (intros; apply H; now right). reflexivity.
Qed.
Lemma range_shift : forall a b c k, c = b - a -> py_range a b k = map (fun q => a + q) (py_range 0 c k).
Proof.
  intros a b c k ->. unfold py_range. rewrite map_map.
  replace (range_len a b k) with (range_len 0 (b - a) k).
  - apply map_ext. intros i. lia.
  - unfold range_len. destruct (0 <? k).
    + replace (0 <? b - a) with (a <? b); [replace (b - a - 0) with (b - a) by lia; reflexivity|].
      destruct (Z.ltb_spec a b), (Z.ltb_spec 0 (b - a)); try reflexivity; lia.
    + replace (b - a <? 0) with (b <? a); [replace (0 - (b - a)) with (a - b) by lia; reflexivity|].
      destruct (Z.ltb_spec b a), (Z.ltb_spec (b - a) 0); try reflexivity; lia.
Qed.
Lemma range_move : forall s a b k, py_range (s + a) (s + b) k = map (fun q => s + q) (py_range a b k).
Proof.
  intros s a b k. rewrite (@range_shift (s + a) (s + b) (b - a)) by lia. rewrite (@range_shift a b (b - a)) by lia.
  rewrite map_map. apply map_ext. intros q. lia.
Qed.

(** Every k-th item of a slice. *)
Lemma py_slice_step : forall A (l : list A) a b k mid, 0 < k -> py_slice l (mk_slice a b None) = Ok mid ->
  py_slice l (mk_slice a b (Some k)) = py_slice mid (mk_slice None None (Some k)).
Proof.
  intros A l a b k mid Hk. unfold py_slice, slice_indices. cbn [sl_step sl_start sl_stop].
  change (1 =? 0) with false. change (1 <? 0) with false. cbv iota.
  assert (E0 : (k =? 0) = false) by (apply Z.eqb_neq; lia). assert (E1 : (k <? 0) = false) by (apply Z.ltb_ge; lia).
  rewrite E0, E1. cbv iota.
  set (n := Z.of_nat (List.length l)).
  set (s := match a with None => 0 | Some v => slice_clip v n 0 n end).
  set (e := match b with None => n | Some v => slice_clip v n 0 n end).
  assert (N : 0 <= n) by (subst n; lia).
  assert (S0 : 0 <= s) by (subst s; destruct a as [v|]; [|lia]; unfold slice_clip; destruct (Z.ltb_spec v 0); lia).
  assert (Ee : e <= n) by (subst e; destruct b as [v|]; [|lia]; unfold slice_clip; destruct (Z.ltb_spec v 0); lia).
  intros E. injection E as <-. cbn [bind]. f_equal.
  rewrite pick_range_length by assumption.
  destruct (Z_le_gt_dec s e) as [Hle|Hgt].
  - rewrite (@range_shift s e (e - s)) by reflexivity. rewrite Z.max_r by lia. apply pick_shift.
    intros q Hq. apply py_range_In in Hq; [|lia]. apply Z.ltb_lt in Hk. rewrite Hk in Hq. destruct Hq as (H1 & m & Hm & Hq).
    apply pick_range_nth; try assumption; nia.
  - assert (R : forall x, In x (py_range s e k) -> False).
    { intros x Hx. apply py_range_In in Hx; [|lia]. pose proof Hk as Hk'. apply Z.ltb_lt in Hk'. rewrite Hk' in Hx. destruct Hx as (H1 & m & Hm & ->). nia. }
    destruct (py_range s e k) as [|x r]; [|exfalso; apply (R x); now left].
    rewrite Z.max_l by lia.
    assert (R' : forall x, In x (py_range 0 0 k) -> False).
    { intros x Hx. apply py_range_In in Hx; [|lia]. pose proof Hk as Hk'. apply Z.ltb_lt in Hk'. rewrite Hk' in Hx. destruct Hx as (H1 & m & Hm & ->). nia. }
    destruct (py_range 0 0 k) as [|x r]; [reflexivity|exfalso; apply (R' x); now left].
Qed.

(** Backwards: the items from position p down to, and without, position q. *)
Lemma py_slice_back : forall A (l : list A) (p q : option nat) k mid, k < 0 ->
  (match p with Some i => (i < List.length l)%nat | None => True end) -> (match q with Some i => (i < List.length l)%nat | None => True end) ->
  py_slice l (mk_slice (option_map (fun i => Z.of_nat (S i)) q) (option_map (fun i => Z.of_nat (S i)) p) None) = Ok mid ->
  py_slice l (mk_slice (option_map Z.of_nat p) (option_map Z.of_nat q) (Some k)) = py_slice mid (mk_slice None None (Some k)).
Proof.
  intros A l p q k mid Hk Hp Hq. unfold py_slice, slice_indices. cbn [sl_step sl_start sl_stop].
  change (1 =? 0) with false. change (1 <? 0) with false. cbv iota.
  assert (E0 : (k =? 0) = false) by (apply Z.eqb_neq; lia). assert (E1 : (k <? 0) = true) by (apply Z.ltb_lt; lia).
  rewrite E0, E1. cbv iota.
  set (n := Z.of_nat (List.length l)).
  set (a := match option_map Z.of_nat p with None => n - 1 | Some v => slice_clip v n (-1) (n - 1) end).
  set (b := match option_map Z.of_nat q with None => -1 | Some v => slice_clip v n (-1) (n - 1) end).
  set (s := match option_map _ q with None => 0 | Some v => slice_clip v n 0 n end).
  set (e := match option_map _ p with None => n | Some v => slice_clip v n 0 n end).
  assert (N : 0 <= n) by (subst n; lia).
  assert (Ea : e = a + 1).
  { subst a e. destruct p as [i|]; cbn [option_map]; [|lia]. unfold slice_clip.
    destruct (Z.ltb_spec (Z.of_nat i) 0), (Z.ltb_spec (Z.of_nat (S i)) 0); lia. }
  assert (Eb : s = b + 1).
  { subst b s. destruct q as [i|]; cbn [option_map]; [|lia]. unfold slice_clip.
    destruct (Z.ltb_spec (Z.of_nat i) 0), (Z.ltb_spec (Z.of_nat (S i)) 0); lia. }
  assert (S0 : 0 <= s) by (subst s; destruct q as [v|]; cbn [option_map]; [|lia]; unfold slice_clip; destruct (Z.ltb_spec (Z.of_nat (S v)) 0); lia).
  assert (Ee : e <= n) by (subst e; destruct p as [v|]; cbn [option_map]; [|lia]; unfold slice_clip; destruct (Z.ltb_spec (Z.of_nat (S v)) 0); lia).
  intros E. injection E as <-. cbn [bind]. f_equal.
  rewrite pick_range_length by assumption.
  assert (K : (0 <? k) = false) by (apply Z.ltb_ge; lia).
  destruct (Z_le_gt_dec s e) as [Hle|Hgt].
  - rewrite Z.max_r by lia. replace a with (s + (e - s - 1)) by lia. replace b with (s + (-1)) by lia.
    rewrite range_move. apply pick_shift.
    intros x Hx. apply py_range_In in Hx; [|lia]. rewrite K in Hx. destruct Hx as (H1 & m & Hm & Hx).
    apply pick_range_nth; try assumption; nia.
  - assert (R : forall u v x, u <= v -> In x (py_range u v k) -> False).
    { intros u v x Huv Hx. apply py_range_In in Hx; [|lia]. rewrite K in Hx. destruct Hx as (H1 & m & Hm & ->). nia. }
    rewrite Z.max_l by lia.
    destruct (py_range a b k) as [|x r] eqn:Er; [|exfalso; apply (R a b x); [lia|rewrite Er; now left]].
    destruct (py_range (0 - 1) (-1) k) as [|x r] eqn:Er2; [reflexivity|exfalso; apply (R (0 - 1) (-1) x); [lia|rewrite Er2; now left]].
Qed.

Lemma slice_of_all : forall A (l : list A) k, k <> 0 -> exists r, py_slice l (mk_slice None None (Some k)) = Ok r /\ is_slice l (mk_slice None None (Some k)) r.
Proof. intros A l k Hk. exact (proj2 (py_slice_spec l (mk_slice None None (Some k))) Hk). Qed.

Theorem by_id_step : forall l a b k, StronglySorted Z.lt l -> l <> [] -> usable_bound l a -> usable_bound l b ->
  let ta := option_map tid_val a in let tb := option_map tid_val b in
  (outside l ta tb -> new_train_ids l (ById a b k) = Err EValueError) /\
  (k = Some 0 -> new_train_ids l (ById a b k) = Err EValueError) /\
  (forall s, k = Some s -> 0 < s -> ~ outside l ta tb -> exists r, new_train_ids l (ById a b k) = Ok r /\
     is_slice (filter (in_range ta tb) l) (mk_slice None None (Some s)) r).
Proof.
  intros l a b k HS Hne Hua Hub ta tb. cbn [new_train_ids].
  destruct (tid_ix_cases false HS Hne Hua) as [(Ra & t & Et & Hlt)|(Hna & pa & Ra & Ba)].
  - rewrite Ra. cbn. split; [reflexivity|]. split; [reflexivity|]. intros s _ _ X. exfalso. apply X. left. exists t. split; assumption.
  - rewrite Ra. cbn [bind]. destruct (tid_ix_cases true HS Hne Hub) as [(Rb & t & Et & Hlt)|(Hnb & pb & Rb & Bb)].
    + rewrite Rb. cbn. split; [reflexivity|]. split; [reflexivity|]. intros s _ _ X. exfalso. apply X. right. exists t. split; assumption.
    + rewrite Rb. cbn [bind]. split; [|split].
      * intros [(t & Et & Hlt)|(t & Et & Hlt)]; exfalso; [exact (Hna t Et Hlt)|exact (Hnb t Et Hlt)].
      * intros ->. reflexivity.
      * intros s -> Hs _. assert (Hs0 : s <> 0) by lia.
        destruct (@slice_of_all _ (filter (in_range ta tb) l) s Hs0) as (r & Er & Ir). exists r. split; [|exact Ir].
        rewrite (@py_slice_step _ l (option_map Z.of_nat pa) (option_map Z.of_nat pb) s (filter (in_range ta tb) l) Hs); [exact Er|].
        apply slice_filter; [assumption|exact Ba|exact Bb].
Qed.

Lemma at_bound_succ : forall l t p, StronglySorted Z.lt l -> nth_error l p = Some t -> at_bound l (t + 1) (S p).
Proof.
  intros l t p HS Hp i x Hi. destruct (Nat.lt_trichotomy i p) as [Hlt|[->|Hlt]].
  - pose proof (sorted_nth_lt HS Hi Hp Hlt). split; lia.
  - assert (x = t) by congruence. split; lia.
  - pose proof (sorted_nth_lt HS Hp Hi Hlt). split; lia.
Qed.
Lemma tid_in_ix : forall l a stop, StronglySorted Z.lt l -> l <> [] -> (forall ut, a = Some ut -> In (tid_val ut) l) ->
  exists p, tid_to_slice_ix a l stop = Ok (option_map Z.of_nat p) /\
    match a with None => p = None | Some ut => exists i, p = Some i /\ nth_error l i = Some (tid_val ut) end.
Proof.
  intros l [ut|] stop HS Hne H; [|exists None; split; reflexivity].
  specialize (H ut eq_refl). destruct (list_index (tid_val ut) l) as [p|] eqn:E; [|exfalso; now apply list_index_from_none in E].
  destruct (@tid_ix_spec l ut stop HS Hne) as (H1 & _). destruct (H1 p E) as (-> & _). exists (Some p). split; [reflexivity|].
  exists p. split; [reflexivity|]. apply list_index_from_some in E as [_ E]. now rewrite Nat.sub_0_r in E.
Qed.

Theorem by_id_back : forall l a b k, StronglySorted Z.lt l -> l <> [] -> k < 0 ->
  (forall ut, a = Some ut -> In (tid_val ut) l) -> (forall ut, b = Some ut -> In (tid_val ut) l) ->
  exists r, new_train_ids l (ById a b (Some k)) = Ok r /\
    is_slice (filter (in_range (option_map (fun u => tid_val u + 1) b) (option_map (fun u => tid_val u + 1) a)) l) (mk_slice None None (Some k)) r.
Proof.
  intros l a b k HS Hne Hk Ha Hb. cbn [new_train_ids].
  destruct (@tid_in_ix l a false HS Hne Ha) as (pa & Ra & Ba). destruct (@tid_in_ix l b true HS Hne Hb) as (pb & Rb & Bb).
  rewrite Ra. cbn [bind]. rewrite Rb. cbn [bind].
  set (mid := filter _ l). assert (Hk0 : k <> 0) by lia.
  destruct (@slice_of_all _ mid k Hk0) as (r & Er & Ir). exists r. split; [|exact Ir].
  rewrite (@py_slice_back _ l pa pb k mid Hk); [exact Er| | |].
  - destruct a as [ut|]; [destruct Ba as (i & -> & Hi)|subst pa; exact I]. now apply nth_error_Some_lt in Hi.
  - destruct b as [ut|]; [destruct Bb as (i & -> & Hi)|subst pb; exact I]. now apply nth_error_Some_lt in Hi.
  - subst mid. replace (option_map (fun i => Z.of_nat (S i)) pb) with (option_map Z.of_nat (option_map S pb)) by (destruct pb; reflexivity).
    replace (option_map (fun i => Z.of_nat (S i)) pa) with (option_map Z.of_nat (option_map S pa)) by (destruct pa; reflexivity).
    apply slice_filter; [assumption| |].
    + destruct b as [ut|]; cbn [option_map]; [destruct Bb as (i & -> & Hi)|subst pb; reflexivity]. cbn [option_map].
      split; [now apply at_bound_succ|apply nth_error_Some_lt in Hi; lia].
    + destruct a as [ut|]; cbn [option_map]; [destruct Ba as (i & -> & Hi)|subst pa; reflexivity]. cbn [option_map].
      split; [now apply at_bound_succ|apply nth_error_Some_lt in Hi; lia].
Qed.

Lemma by_id_empty : forall a b k, (a <> None \/ b <> None) -> new_train_ids [] (ById a b k) = Err EIndexError.
Proof. intros [a|] [b|] k H; cbn; try reflexivity. destruct H; congruence. Qed.
Lemma by_id_gap_any : forall l t b k, StronglySorted Z.lt l -> inside_gap l t ->
  new_train_ids l (ById (Some (PyInt t)) b k) = Err ETypeError.
Proof.
  intros l t b k HS Hg. assert (Hne : l <> []) by (destruct Hg as (_ & (x & Hx & _) & _); intros ->; destruct Hx).
  destruct (@tid_ix_spec l (PyInt t) false HS Hne) as (_ & _ & _ & H4). unfold new_train_ids. rewrite (H4 Hg). reflexivity.
Qed.
