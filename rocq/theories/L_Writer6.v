(** Virtual datasets. *)
From Verif Require Import Base PyStr M_Files M_Machinery M_Reader M_Select M_Writer S_Reader S_Coll S_Avail S_Open S_Writer
  L_Base L_Machinery L_Reader L_GetArray L_Select L_Array2 L_Trains L_Sel2 L_Sel3 L_Hist L_Union L_Open L_Series L_Writer L_Writer2 L_Writer3 L_Writer4 L_Writer5.
Set Implicit Arguments.
Unset Strict Implicit.
Local Open Scope string_scope.
Local Open Scope list_scope.

Section Sort.
Variables (A : Type) (key : A -> Z) (p : A -> bool).
Let leb (a b : A) := (key a <=? key b)%Z.
Lemma insert_head : forall x l, Forall (fun y => key x <= key y)%Z l -> insert_sorted leb x l = x :: l.
Proof. intros x [|y l] H; [reflexivity|]. inversion H; subst. simpl. unfold leb. replace (key x <=? key y)%Z with true by lia. reflexivity. Qed.
Lemma filter_insert : forall x l, StronglySorted (fun a b => key a <= key b)%Z l ->
  filter p (insert_sorted leb x l) = if p x then insert_sorted leb x (filter p l) else filter p l.
Proof.
  intros x l H. induction H as [|y l Hs IH Hy]; simpl; [destruct (p x); reflexivity|].
  unfold leb at 1. destruct (key x <=? key y)%Z eqn:E.
  - cbn [filter]. destruct (p x) eqn:Ex; [|reflexivity]. symmetry. apply Z.leb_le in E.
    rewrite Forall_forall in Hy. assert (F : Forall (fun z => key x <= key z)%Z (filter p (y :: l))).
    { apply Forall_forall. intros z Hz. apply filter_In in Hz as [[<-|Hz] _]; [exact E|]. specialize (Hy z Hz). lia. }
    cbn [filter] in F. now apply insert_head.
  - cbn [filter]. rewrite IH. destruct (p x) eqn:Ex; [|reflexivity]. destruct (p y) eqn:Ey; [|reflexivity]. simpl. unfold leb at 2. now rewrite E.
Qed.
Lemma filter_sort : forall l, filter p (sort_key key l) = sort_key key (filter p l).
Proof.
  induction l as [|x l IH]; [reflexivity|]. unfold sort_key in *. cbn [isort fold_right]. change (fold_right _ [] l) with (isort (fun a b => key a <=? key b)%Z l).
  rewrite filter_insert by (apply (sort_key_sorted key)). cbn [filter]. destruct (p x); [|exact IH]. cbn [isort fold_right]. now rewrite IH.
Qed.
End Sort.

Section W.
Context {V : Type}.
Notation faccess := (faccess V).
Notation dcoll := (dcoll V).
Notation larray := (larray V).
Notation chunk := (chunk V).

Lemma chunk_counts_ok : forall (d : dcoll) s k l, reachable d -> distinct_kinds d -> In s (dc_sources d) -> good_index d s k ->
  find_data_chunks d s k = Ok l -> forall c, In c l -> Forall (fun n => 0 <= n)%Z (ch_counts c) /\ List.length (ch_counts c) = List.length (ch_tids c).
Proof.
  intros d s k l Hr Hk Hs Hi H c Hc. destruct (reachable_inv Hr) as [Hb _]. destruct (@good_index_entries V d s k Hb Hk Hs Hi) as (Ef & HE & _).
  unfold find_data_chunks in H. apply bind_ok in H as (lch & Hlch & H). injection H as <-. apply mapM_ok_iff in Hlch.
  apply in_concat in Hc as (chs & Hchs & Hc). destruct (Forall2_In_r Hlch Hchs) as (f & Hf & Hfc).
  destruct (@file_chunks_spec V _ f s _ (Ef f) chs (HE f Hf) Hfc) as (Es & HF2 & _ & _ & HN).
  destruct (Forall2_In_r HF2 Hc) as (E & HEs & (_ & C2 & C3 & _)). rewrite Forall_forall in HN. specialize (HN E HEs).
  rewrite C2, C3, !map_length. split; [|reflexivity]. unfold nonneg_entries in HN. rewrite Forall_forall in HN |- *.
  intros n Hn. apply in_map_iff in Hn as (e & <- & He). apply HN in He. lia.
Qed.

Lemma sum_zero_iff : forall l, Forall (fun n => 0 <= n)%Z l -> (zsum l =? 0)%Z = negb (existsb (fun n => 0 <? n)%Z l).
Proof.
  intros l H. induction H as [|x l Hx Hl IH]; [reflexivity|]. simpl. pose proof (zsum_nonneg Hl).
  destruct (0 <? x)%Z eqn:E; simpl.
  - apply Z.eqb_neq. apply Z.ltb_lt in E. lia.
  - rewrite <- IH. apply Z.ltb_ge in E. assert (x = 0)%Z by lia. subst. reflexivity.
Qed.

Theorem virtual_same : forall (d : dcoll) c s k a, reachable d -> distinct_kinds d -> good_index d s k -> get_array d s k = Ok a ->
  read_virtual d c s k = Ok (match la_rows a with [] => None | _ :: _ => Some a end).
Proof.
  intros d c s k a Hr Hk Hi Ha. assert (Hs := get_array_source _ _ _ Ha). assert (Hlen := get_array_lengths Ha).
  unfold get_array in Ha. apply bind_ok in Ha as ([] & _ & Ha). apply bind_ok in Ha as (chs & Hchs & Ha).
  apply bind_ok in Ha as (dss & Hdss & Ha). apply bind_ok in Ha as (ty & Hty & Ha). apply bind_ok in Ha as (parts & Hparts & Ha).
  destruct (Nat.eqb _ _) in Ha; [|discriminate]. injection Ha as <-. cbn [la_rows la_labels] in *.
  destruct (reachable_inv Hr) as [Hb _]. pose proof (fun c ds => @sorted_chunks_full V d s k chs c ds Hb Hk Hs Hi Hchs) as Hfull.
  unfold sorted_chunks in Hchs. apply bind_ok in Hchs as (l & Hl & Hchs). injection Hchs as <-.
  assert (Hok := chunk_counts_ok Hr Hk Hs Hi Hl).
  unfold read_virtual. rewrite Hl. cbn [bind]. rewrite <- filter_sort.
  assert (Hok' : forall c, In c (sort_key (@chunk_key V) l) -> Forall (fun n => 0 <= n)%Z (ch_counts c) /\ List.length (ch_counts c) = List.length (ch_tids c)).
  { intros ch Hc. apply Hok. eapply Permutation_in; [apply Permutation_sym, (sort_key_perm (@chunk_key V))|exact Hc]. }
  assert (HT : Forall (fun ds => ds_dtype ds = fst ty /\ ds_item ds = snd ty) dss).
  { clear -Hty. unfold common_type in Hty. destruct dss as [|x r]; [discriminate|]. destruct (forallb _ r) eqn:E1 in Hty; [|discriminate].
    cbn [negb] in Hty. destruct (forallb _ r) eqn:E2 in Hty; [|discriminate]. injection Hty as <-. cbn [fst snd].
    rewrite forallb_forall in E1, E2. constructor; [auto|]. apply Forall_forall. intros y Hy. split.
    - symmetry. apply String.eqb_eq. now apply E2.
    - specialize (E1 y Hy). unfold zlist_eqb in E1. destruct (list_eq_dec Z.eq_dec (ds_item x) (ds_item y)); [congruence|discriminate]. }
  clear Hty Hl Hok. set (chs := sort_key (@chunk_key V) l) in *. clearbody chs. clear l.
  set (P := fun c : chunk => existsb (fun n => 0 <? n)%Z (ch_counts c)).
  assert (G : exists parts', mapM (virtual_part s k (snd ty)) (filter P chs) = Ok parts' /\
     flat_map fst parts' = flat_map fst parts /\ flat_map snd parts' = flat_map snd parts /\
     (filter P chs = [] -> flat_map snd parts = []) /\
     (forall c0 r, filter P chs = c0 :: r -> flat_map snd parts <> [] /\ exists ds0, ch_dataset s k c0 = Ok ds0 /\ ds_dtype ds0 = fst ty /\ ds_item ds0 = snd ty)).
  { apply mapM_ok_iff in Hdss. apply mapM_ok_iff in Hparts. clear Hlen. revert dss parts Hdss Hparts HT Hok' Hfull.
    induction chs as [|ch chs IH]; intros dss parts Hdss Hparts HT Hok' Hfull.
    - inversion Hparts; subst. exists []. split; [reflexivity|]. do 2 (split; [reflexivity|]). split; [reflexivity|]. intros; discriminate.
    - inversion Hdss as [|? ds ? dss' D1 D2]; subst. inversion Hparts as [|? [ls rs] ? parts2 P1 P2]; subst. inversion HT as [|? ? [T1 T2] T3]; subst.
      destruct (IH dss' parts2 D2 P2 T3) as (parts' & I1 & I2 & I3 & I4 & I5); [intros; apply Hok'; now right|intros; apply Hfull; auto; now right|].
      destruct (Hok' ch) as [C1 C2]; [now left|]. cbn [filter]. fold (P ch). unfold read_chunk in P1. rewrite (sum_zero_iff C1) in P1. fold (P ch) in P1.
      destruct (P ch) eqn:EP; cbn [negb] in P1.
      + rewrite D1 in P1. cbn [bind] in P1.
        assert (En : (Z.of_nat (List.length (ds_slice ds (ch_first ch) (ch_first ch + zsum (ch_counts ch)))) =? zsum (ch_counts ch))%Z = true).
        { apply Z.eqb_eq, (Hfull ch ds); [now left|exact D1|]. apply Z.eqb_neq. rewrite (sum_zero_iff C1). fold (P ch). now rewrite EP. }
        rewrite En in P1. injection P1 as <- <-.
        exists ((np_repeat (ch_tids ch) (ch_counts ch), ds_slice ds (ch_first ch) (ch_first ch + zsum (ch_counts ch))) :: parts').
        cbn [mapM]. unfold virtual_part at 1. rewrite D1. cbn [bind]. rewrite En, T2. unfold zlist_eqb.
        destruct (list_eq_dec Z.eq_dec (snd ty) (snd ty)) as [_|N]; [|congruence]. cbn [andb bind]. rewrite I1. cbn [bind].
        split; [reflexivity|]. simpl. rewrite I2, I3, (expand_trainids_eq _ _ C2). split; [reflexivity|]. split; [reflexivity|]. split; [intros; discriminate|].
        intros c0 r E. injection E as <- <-. split; [|eauto]. apply Z.eqb_eq in En.
        assert (Z0 : (zsum (ch_counts ch) =? 0)%Z = false) by (rewrite (sum_zero_iff C1); fold (P ch); rewrite EP; reflexivity).
        apply Z.eqb_neq in Z0. intros E. apply app_eq_nil in E as [E _]. rewrite E in En. simpl in En. congruence.
      + injection P1 as <- <-. exists parts'. simpl. auto. }
  destruct G as (parts' & G1 & G2 & G3 & G4 & G5).
  change (filter (fun c : chunk => existsb (fun n => 0 <? n)%Z (ch_counts c)) chs) with (filter P chs).
  destruct (filter P chs) as [|c0 r] eqn:E.
  - rewrite (G4 eq_refl). reflexivity.
  - destruct (G5 c0 r eq_refl) as (N & ds0 & D1 & D2 & D3). rewrite D1. cbn [bind]. rewrite D3, G1. cbn [bind]. rewrite G2, G3, D2.
    destruct (flat_map snd parts); [congruence|reflexivity].
Qed.

(** get_virtual_dataset. *)
Theorem virtual_dataset : forall (d : dcoll) s k a, reachable d -> good_collection d -> available d s k -> good_index d s k -> get_array d s k = Ok a ->
  get_virtual_dataset d s k =
    match la_rows a with [] => Err ETypeError | _ :: _ => Ok (mk_ds (la_dtype a) (la_item a) (la_rows a)) end.
Proof.
  intros d s k a Hr Hg Av Hi Ha. unfold get_virtual_dataset.
  assert (Hcf : check_field d s k = Ok tt).
  { unfold get_array in Ha. apply bind_ok in Ha as ([] & H & _). exact H. }
  rewrite Hcf. cbn [bind]. rewrite (virtual_same (str_in s (dc_ctrl d)) Hr (proj1 Hg) Hi Ha). cbn [bind].
  destruct (la_rows a) as [|r rows] eqn:E; [reflexivity|]. rewrite add_dataset_unfold. unfold put_data. cbn [ws0 ws_data existsb bind put_index ws_index dict_keys map str_in].
  unfold ix_made. cbn [fst]. destruct (str_in s (dc_ctrl d)) eqn:Ec.
  - destruct (control_labels Hr Hg Av Hi Ec Ha) as [HN _]. destruct (control_index_ok (dc_tids d) HN) as [v ->]. cbn [bind]. now rewrite E.
  - rewrite generate_index_counts. cbn [bind]. now rewrite E.
Qed.

(** write_virtual. *)
Theorem write_virtual_total : forall name (d : dcoll), reachable d -> good_collection d -> plain_names d -> no_nesting d -> separate_keys d ->
  (forall s k, available d s k -> good_index d s k) -> (forall s k, available d s k -> exists a, get_array d s k = Ok a) ->
  exists f, write_virtual name d = Ok f.
Proof.
  intros name d Hr Hg Hp Hn Hs Hi Ha. destruct (@write_total V (@read_virtual V) name d EAssertionError Hr (proj1 Hg) Hp Hn Hs) as [[W _]|[_ (s & k & Av & E)]].
  - intros s k Av. right. destruct (Ha s k Av) as [a Ga]. rewrite (virtual_same _ Hr (proj1 Hg) (Hi s k Av) Ga). eexists. split; [reflexivity|].
    intros a' E Hc. assert (a' = a) by (destruct (la_rows a); [discriminate|congruence]). subst a'. apply (control_labels Hr Hg Av (Hi s k Av) Hc Ga).
  - exact W.
  - destruct (Ha s k Av) as [a Ga]. rewrite (virtual_same _ Hr (proj1 Hg) (Hi s k Av) Ga) in E. discriminate.
Qed.
End W.
