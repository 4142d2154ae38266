(** Packed values of protocol 1.0 are read back. *)
From Verif Require Import Base L_Base M_Export S_Export L_Export2 L_Export3 M_Msgpack S_Msgpack L_Msgpack M_MsgpackNp S_MsgpackNp.
Set Implicit Arguments.
Unset Strict Implicit.
Local Open Scope string_scope.
Local Open Scope Z_scope.
Local Open Scope list_scope.

Section L.
Variable fl : string -> Z -> Prop.
Variable float_bytes : string -> Z -> list Z.
Variable float_of : string -> list Z -> Z.
Hypothesis FL : numpy_floats fl float_bytes float_of.
Notation np_get := (np_get float_of).
Notation np_items := (np_items float_of).
Notation np_pack := (np_pack float_bytes).

Definition leaf (w : wval) : Prop := match w with WArray _ | WMap _ | WNp _ | WNpBool _ | WNd _ _ _ => False | _ => True end.
Lemma get_leaf : forall f s w r, get f s = Some (w, r) -> leaf w -> np_get f s = Some (w, r).
Proof.
  intros [|f] s w r H L; [discriminate|]. destruct s as [|b s]; [discriminate|]. cbn [get S_MsgpackNp.np_get] in *.
  destruct (kind_of b) as [w'|n|n| |n|n|n|n|n|n|n| ]; try exact H.
  - destruct (get_items f n s) as [[l r']|]; [|discriminate]. injection H as <- _. destruct L.
  - destruct (take n s) as [[l0 r0]|]; [|discriminate]. destruct (get_items f _ r0) as [[l r']|]; [|discriminate]. injection H as <- _. destruct L.
  - destruct (get_pairs f n [] s) as [[l r']|]; [|discriminate]. injection H as <- _. destruct L.
  - destruct (take n s) as [[l0 r0]|]; [|discriminate]. destruct (get_pairs f _ [] r0) as [[l r']|]; [|discriminate]. injection H as <- _. destruct L.
Qed.
Lemma np_get_array_head : forall n h f s, 0 <= n -> mp_array_head n = Ok h -> np_get (S f) (h ++ s) = opt_map WArray (np_items f n s).
Proof.
  intros n h f s Hn H. unfold mp_array_head in H. destruct (n <? 16) eqn:E1; [|destruct (n <? 2 ^ 16) eqn:E2; [|destruct (n <? 2 ^ 32) eqn:E3; [|discriminate]]];
    apply Ok_inj in H; subst h; rewrite ?Z.ltb_lt, ?Z.ltb_ge in *; cbn [app S_MsgpackNp.np_get].
  - now rewrite (@small_kind 144 160 n KArray) by (auto; lia).
  - change (kind_of 220) with (KArrayLen 2). cbv iota. rewrite take_be by reflexivity. rewrite be_value; [reflexivity|]. change (256 ^ Z.of_nat 2) with (2 ^ 16). lia.
  - change (kind_of 221) with (KArrayLen 4). cbv iota. rewrite take_be by reflexivity. rewrite be_value; [reflexivity|]. change (256 ^ Z.of_nat 4) with (2 ^ 32). lia.
Qed.
Lemma np_get_map_head : forall n h f s, 0 <= n -> mp_map_head n = Ok h -> np_get (S f) (h ++ s) = as_object float_of (np_items f (2 * n) s).
Proof.
  intros n h f s Hn H. unfold mp_map_head in H. destruct (n <? 16) eqn:E1; [|destruct (n <? 2 ^ 16) eqn:E2; [|destruct (n <? 2 ^ 32) eqn:E3; [|discriminate]]];
    apply Ok_inj in H; subst h; rewrite ?Z.ltb_lt, ?Z.ltb_ge in *; cbn [app S_MsgpackNp.np_get].
  - now rewrite (@small_kind 128 144 n KMap) by (auto; lia).
  - change (kind_of 222) with (KMapLen 2). cbv iota. rewrite take_be by reflexivity. rewrite be_value; [reflexivity|]. change (256 ^ Z.of_nat 2) with (2 ^ 16). lia.
  - change (kind_of 223) with (KMapLen 4). cbv iota. rewrite take_be by reflexivity. rewrite be_value; [reflexivity|]. change (256 ^ Z.of_nat 4) with (2 ^ 32). lia.
Qed.

Fixpoint items (l : list wval) : res (list Z) :=
  match l with [] => Ok [] | x :: r => let* b := np_pack x in let* bs := items r in Ok (b ++ bs) end.
Definition text_items (d : list (string * wval)) : list wval := flat_map (fun p => [WStr (fst p); snd p]) d.
Definition bin_items (d : list (string * wval)) : list wval := flat_map (fun p => [WBin (utf8 (fst p)); snd p]) d.
Lemma flat_length : forall (f : string -> wval) (d : list (string * wval)), Z.of_nat (List.length (flat_map (fun p => [f (fst p); snd p]) d)) = 2 * Z.of_nat (List.length d).
Proof. intros f d. induction d as [|p d IH]; [reflexivity|]. cbn [flat_map app List.length]. lia. Qed.

Lemma np_pack_array : forall l, np_pack (WArray l) = let* h := mp_array_head (Z.of_nat (List.length l)) in let* b := items l in Ok (h ++ b).
Proof. reflexivity. Qed.
Lemma bind_assoc : forall A B C (x : res A) (f : A -> res B) (g : B -> res C), bind (bind x f) g = bind x (fun a => bind (f a) g).
Proof. intros A B C [a|e] f g; reflexivity. Qed.
Lemma bind_ext : forall A B (x : res A) (f g : A -> res B), (forall a, f a = g a) -> bind x f = bind x g.
Proof. intros A B [a|e] f g H; [apply H|reflexivity]. Qed.
Lemma np_pack_map : forall d, np_pack (WMap d) = let* h := mp_map_head (Z.of_nat (List.length d)) in let* b := items (text_items d) in Ok (h ++ b).
Proof.
  intros d. cbn [M_MsgpackNp.np_pack]. apply bind_ext. intros h. match goal with |- bind ?x _ = bind ?y _ => assert (E : x = y); [|now rewrite E] end.
  induction d as [|[k x] d IH]; [reflexivity|]. rewrite IH. cbn [text_items flat_map fst snd app items M_MsgpackNp.np_pack mp_pack].
  apply bind_ext. intros kb. rewrite !bind_assoc. apply bind_ext. intros b. rewrite !bind_assoc. apply bind_ext. intros bs. reflexivity.
Qed.
(** Values without anything of numpy. *)
Definition plain (w : wval) : Prop := leaf w \/ exists s, w = WArray (List.map (fun n => WInt (Z.of_nat n)) s).
Lemma plain_pack : forall w, plain w -> mp_pack w = np_pack w.
Proof.
  intros w [L|(s & ->)].
  - destruct w; try contradiction L; reflexivity.
  - rewrite mp_array, np_pack_array. apply bind_ext. intros h. assert (E : forall l, pack_items (List.map (fun n => WInt (Z.of_nat n)) l) = items (List.map (fun n => WInt (Z.of_nat n)) l)).
    { induction l as [|n l IH]; [reflexivity|]. cbn [List.map pack_items items]. rewrite IH. reflexivity. }
    now rewrite E.
Qed.
Lemma np_dict_items : forall d, (forall k w, In (k, w) d -> plain w) -> np_dict d = let* h := mp_map_head (Z.of_nat (List.length d)) in let* b := items (bin_items d) in Ok (h ++ b).
Proof.
  intros d P. unfold np_dict. apply bind_ext. intros h. match goal with |- bind ?x _ = bind ?y _ => assert (E : x = y); [|now rewrite E] end.
  induction d as [|[k x] d IH]; [reflexivity|]. cbn [np_pairs]. rewrite IH by (intros k' w Hw; apply (P k'); now right).
  rewrite (plain_pack (P k x (or_introl eq_refl))). cbn [bin_items flat_map fst snd app items].
  change (np_pack (WBin (utf8 k))) with (mp_pack (WBin (utf8 k))).
  apply bind_ext. intros kb. rewrite !bind_assoc. apply bind_ext. intros b. rewrite !bind_assoc. apply bind_ext. intros bs. reflexivity.
Qed.

(** ** Reading *)
Definition np_back (w : wval) : Prop := forall b, np_pack w = Ok b -> (1 <= List.length b)%nat /\ forall f rest, (2 * List.length b <= f)%nat -> np_get f (b ++ rest) = Some (w, rest).
Lemma np_items_S : forall f n s, np_items (S f) n s = if n <=? 0 then Some ([], s) else match np_get f s with Some (w, r) => opt_map (cons w) (np_items f (n - 1) r) | None => None end.
Proof. reflexivity. Qed.
Lemma np_items_back : forall l b, items l = Ok b -> (forall w, In w l -> np_back w) ->
  forall f rest, (2 * List.length b < f)%nat -> np_items f (Z.of_nat (List.length l)) (b ++ rest) = Some (l, rest).
Proof.
  induction l as [|w l IH]; intros b H P f rest Hf.
  - injection H as <-. destruct f; [lia|]. reflexivity.
  - cbn [items] in H. apply bind_ok in H as (b1 & H1 & H). apply bind_ok in H as (b2 & H2 & H). injection H as <-.
    rewrite app_length in Hf. destruct f as [|f]; [lia|]. rewrite np_items_S. cbn [List.length]. replace (Z.of_nat (S (List.length l)) <=? 0) with false by (symmetry; apply Z.leb_gt; lia).
    destruct (P w (or_introl eq_refl) b1 H1) as [L1 Rw]. rewrite <- app_assoc. rewrite (Rw f (b2 ++ rest)) by lia.
    replace (Z.of_nat (S (List.length l)) - 1) with (Z.of_nat (List.length l)) by lia. rewrite (IH b2 H2) by (try lia; intros w' Hw'; apply P; now right). reflexivity.
Qed.
Lemma leaf_back : forall w, leaf w -> proper_n fl w -> np_back w.
Proof.
  intros w L P b H. assert (H' : mp_pack w = Ok b) by (destruct w; try contradiction L; exact H). split; [exact (mp_pack_len H')|].
  intros f rest Hf. apply get_leaf; [|exact L]. apply (all_back H'); [|exact Hf]. destruct P; try contradiction L; now constructor.
Qed.
Lemma array_back : forall l, (forall w, In w l -> np_back w) -> np_back (WArray l).
Proof.
  intros l IH b H. rewrite np_pack_array in H. apply bind_ok in H as (h & Hh & H). apply bind_ok in H as (bs & Hb & H). injection H as <-.
  assert (L := array_head_len Hh). rewrite app_length. split; [lia|]. intros f rest Hf. destruct f; [lia|]. rewrite <- app_assoc.
  rewrite (np_get_array_head f (bs ++ rest) (Nat2Z.is_nonneg _) Hh). rewrite (np_items_back Hb IH) by lia. reflexivity.
Qed.
Lemma map_back : forall n l b h w, mp_map_head n = Ok h -> 0 <= n -> Z.of_nat (List.length l) = 2 * n -> items l = Ok b -> (forall w, In w l -> np_back w) ->
  object float_of (pairs_of l) = Some w ->
  (1 <= List.length (h ++ b))%nat /\ forall f rest, (2 * List.length (h ++ b) <= f)%nat -> np_get f ((h ++ b) ++ rest) = Some (w, rest).
Proof.
  intros n l b h w Hh Hn Hl Hb IH Ho. assert (L := map_head_len Hh). rewrite app_length. split; [lia|]. intros f rest Hf. destruct f; [lia|]. rewrite <- app_assoc.
  rewrite (np_get_map_head f (b ++ rest) Hn Hh), <- Hl. rewrite (np_items_back Hb IH) by lia. cbn [as_object]. now rewrite Ho.
Qed.

Lemma text_pairs : forall d, pairs_of (text_items d) = List.map (fun p => (WStr (fst p), snd p)) d.
Proof. induction d as [|p d IH]; [reflexivity|]. cbn. now rewrite <- IH. Qed.
Lemma text_no_field : forall k d, field k (List.map (fun p => (WStr (fst p), snd p)) d) = None.
Proof. intros k d. unfold field. induction d as [|p d IH]; [reflexivity|]. exact IH. Qed.
Lemma text_dict_back : forall d acc, NoDup (dict_keys (acc ++ d)) -> text_dict acc (List.map (fun p => (WStr (fst p), snd p)) d) = Some (WMap (acc ++ d)).
Proof.
  induction d as [|[k w] d IH]; intros acc ND; cbn [List.map text_dict fst snd]; [now rewrite app_nil_r|].
  assert (Nk : ~ In k (dict_keys acc)).
  { unfold dict_keys in ND |- *. rewrite map_app in ND. cbn in ND. apply NoDup_remove_2 in ND. intros X. apply ND. apply in_or_app. now left. }
  rewrite dset_new by exact Nk. rewrite IH by now rewrite <- app_assoc. now rewrite <- app_assoc.
Qed.
Lemma text_object : forall d, NoDup (dict_keys d) -> object float_of (pairs_of (text_items d)) = Some (WMap d).
Proof. intros d ND. rewrite text_pairs. unfold object. rewrite text_no_field. now apply (@text_dict_back d []). Qed.

(** ** Numpy *)
Lemma code_back : forall d, type_name d -> type_of_code (dtype_str d) = d.
Proof.
  intros d T. unfold dtype_str. destruct (dict_get d dtype_table) as [c|] eqn:E; [|exact T].
  unfold dtype_table in E. cbn [dict_get] in E.
  repeat match type of E with (if String.eqb d ?b then Some ?x else _) = _ => destruct (String.eqb_spec d b) as [->|_]; [assert (c = x) as -> by congruence; reflexivity|] end.
  discriminate E.
Qed.
Lemma lengths_back : forall s, lengths (List.map (fun n => WInt (Z.of_nat n)) s) = Some s.
Proof.
  induction s as [|n s IH]; [reflexivity|]. cbn [List.map lengths]. replace (Z.of_nat n <? 0) with false by (symmetry; apply Z.ltb_ge; lia).
  rewrite IH. cbn. now rewrite Nat2Z.id.
Qed.
Lemma array_object : forall d s l, type_name d -> object float_of (pairs_of (bin_items (np_array d s l))) = Some (WNd d s l).
Proof.
  intros d s l T.
  assert (E : object float_of (pairs_of (bin_items (np_array d s l))) =
              option_map (fun s => WNd (type_of_code (dtype_str d)) s l) (lengths (List.map (fun n => WInt (Z.of_nat n)) s))) by reflexivity.
  rewrite E, lengths_back, code_back by exact T. reflexivity.
Qed.
Lemma scalar_object : forall k l, object float_of (pairs_of (bin_items (np_scalar k l))) = number float_of (dtype_str k) l.
Proof. reflexivity. Qed.
Lemma signed_be_pos : forall n z, 0 <= z < 256 ^ Z.of_nat n / 2 -> signed (be n z) = z.
Proof.
  intros n z H. assert (P : 0 < 256 ^ Z.of_nat n) by (apply Z.pow_pos_nonneg; lia). assert (256 ^ Z.of_nat n / 2 <= 256 ^ Z.of_nat n) by (apply Z.div_le_upper_bound; lia).
  unfold signed. rewrite be_length, be_value by lia. now replace (z <? 256 ^ Z.of_nat n / 2) with true by (symmetry; apply Z.ltb_lt; lia).
Qed.
Lemma int_data : forall k sg n z, int_type k = Some (sg, n) -> real_number fl (NInt k z) -> type_of_code (dtype_str k) = k /\ int_bytes k = n /\
  (if sg then signed (be n (z mod 256 ^ Z.of_nat n)) else unsigned (be n (z mod 256 ^ Z.of_nat n))) = z.
Proof.
  intros k sg n z E R. unfold real_number in R. rewrite E in R. unfold int_type in E. cbn [dict_get] in E.
  assert (S : forall m, (0 < m)%nat -> - (256 ^ Z.of_nat m / 2) <= z < 256 ^ Z.of_nat m / 2 -> signed (be m (z mod 256 ^ Z.of_nat m)) = z).
  { intros m Hm H. destruct (Z_lt_ge_dec z 0) as [N|N]; [apply signed_be; lia|]. rewrite Z.mod_small; [apply signed_be_pos; lia|].
    assert (0 < 256 ^ Z.of_nat m) by (apply Z.pow_pos_nonneg; lia). assert (256 ^ Z.of_nat m / 2 <= 256 ^ Z.of_nat m) by (apply Z.div_le_upper_bound; lia). lia. }
  assert (U : forall m, 0 <= z < 256 ^ Z.of_nat m -> unsigned (be m (z mod 256 ^ Z.of_nat m)) = z) by (intros m H; rewrite Z.mod_small by exact H; now apply be_value).
  repeat match type of E with (if String.eqb k ?b then Some (?x, ?y) else _) = _ => destruct (String.eqb_spec k b) as [->|_];
    [assert (sg = x /\ n = y) as [-> ->] by (split; congruence); split; [reflexivity|]; split; [reflexivity|]; first [apply S; [lia|]|apply U]; cbn in R |- *; lia|] end.
  discriminate E.
Qed.
Lemma float_data : forall k n, float_type k = Some n -> type_of_code (dtype_str k) = k /\ int_type k = None /\ String.eqb k "bool" = false.
Proof.
  intros k n E. unfold float_type in E. cbn [dict_get] in E.
  repeat match type of E with (if String.eqb k ?b then _ else _) = _ => destruct (String.eqb_spec k b) as [->|_]; [repeat split; reflexivity|] end. discriminate E.
Qed.
Lemma complex_data : forall k p n, complex_type k = Some (p, n) -> type_of_code (dtype_str k) = k /\ int_type k = None /\ float_type k = None /\ String.eqb k "bool" = false /\
  complex_part k = p /\ float_type p = Some n.
Proof.
  intros k p n E. unfold complex_type in E. cbn [dict_get] in E.
  repeat match type of E with (if String.eqb k ?b then Some (?x, ?y) else _) = _ => destruct (String.eqb_spec k b) as [->|_]; [assert (p = x /\ n = y) as [-> ->] by (split; congruence); repeat split; reflexivity|] end. discriminate E.
Qed.
Lemma int_not_bool : forall k x, int_type k = Some x -> String.eqb k "bool" = false.
Proof. intros k x E. destruct (String.eqb_spec k "bool") as [->|_]; [discriminate E|reflexivity]. Qed.
Lemma number_back : forall n, real_number fl n -> number float_of (dtype_str (np_kind n)) (np_data float_bytes n) = Some (WNp n).
Proof.
  intros [k z|k b|k x y] R; unfold number; cbn [np_kind np_data].
  - destruct (int_type k) as [[sg n]|] eqn:E; [|unfold real_number in R; rewrite E in R; contradiction R].
    destruct (int_data E R) as (C & N & D). rewrite C, (int_not_bool E), E, N, rev_length, be_length, Nat.eqb_refl, rev_involutive. now rewrite D.
  - destruct R as [T F]. destruct (float_type k) as [n|] eqn:E; [|contradiction]. destruct (float_data E) as (C & I & B). destruct (FL E F) as [L O].
    rewrite C, B, I, E, L, Nat.eqb_refl, O. reflexivity.
  - cbn [real_number] in R. destruct (complex_type k) as [[p n]|] eqn:E; [|contradiction]. destruct R as [X Y].
    destruct (complex_data E) as (C & I & F & B & P & T). destruct (FL T X) as [L1 O1]. destruct (FL T Y) as [L2 O2].
    rewrite C, B, I, F, E, P, app_length, L1, L2. replace (n + n =? 2 * n)%nat with true by (symmetry; apply Nat.eqb_eq; lia).
    rewrite <- L1 at 1 2. rewrite firstn_app, Nat.sub_diag, firstn_all, skipn_app, Nat.sub_diag, skipn_all. cbn [firstn skipn app]. rewrite app_nil_r, O1, O2. reflexivity.
Qed.
Lemma bin_back : forall l, np_back (WBin l).
Proof.
  intros l b H. assert (L := @mp_pack_len (WBin l) b H). split; [exact L|]. intros f rest Hf. cbn [M_MsgpackNp.np_pack mp_pack] in H. apply bind_ok in H as (h & Hh & H). injection H as <-.
  destruct f; [lia|]. apply get_leaf; [|exact I]. rewrite <- app_assoc. now apply get_bin.
Qed.
Lemma shape_back : forall s, (forall n, In n s -> Z.of_nat n < 2 ^ 64) -> np_back (WArray (List.map (fun n => WInt (Z.of_nat n)) s)).
Proof.
  intros s H. apply array_back. intros w Hw. apply in_map_iff in Hw as (n & <- & Hn). apply leaf_back; [exact I|]. constructor. specialize (H n Hn). lia.
Qed.
Lemma dict_back : forall d w, (forall k x, In (k, x) d -> plain x /\ np_back x) -> object float_of (pairs_of (bin_items d)) = Some w ->
  forall b, np_dict d = Ok b -> (1 <= List.length b)%nat /\ forall f rest, (2 * List.length b <= f)%nat -> np_get f (b ++ rest) = Some (w, rest).
Proof.
  intros d w P O b H. rewrite np_dict_items in H by (intros k x Hx; now apply (P k)).
  apply bind_ok in H as (h & Hh & H). apply bind_ok in H as (bs & Hb & H). injection H as <-.
  eapply (@map_back _ (bin_items d) bs h w Hh); [lia|apply (flat_length (fun k => WBin (utf8 k)))|exact Hb| |exact O].
  intros x Hw. apply in_flat_map in Hw as ([k y] & Hx & [<-|[<-|[]]]); [apply bin_back|]. exact (proj2 (P k y Hx)).
Qed.
Lemma scalar_back : forall k l w, number float_of (dtype_str k) l = Some w -> forall b, np_dict (np_scalar k l) = Ok b ->
  (1 <= List.length b)%nat /\ forall f rest, (2 * List.length b <= f)%nat -> np_get f (b ++ rest) = Some (w, rest).
Proof.
  intros k l w H. apply dict_back; [|now rewrite scalar_object]. intros k' x [E|[E|[E|[]]]]; injection E as <- <-; (split; [now left|]).
  - apply leaf_back; [exact I|constructor].
  - apply leaf_back; [exact I|constructor].
  - apply bin_back.
Qed.

Lemma np_all_back : forall w, proper_n fl w -> np_back w.
Proof.
  apply (@wval_ind2 (fun w => proper_n fl w -> np_back w)).
  - now apply leaf_back.
  - intros b. now apply leaf_back.
  - intros z. now apply leaf_back.
  - intros b. now apply leaf_back.
  - intros s. now apply leaf_back.
  - intros l. now apply leaf_back.
  - intros l IH P. inversion P; subst. apply array_back. auto.
  - intros d IH P. inversion P as [| | | | | | |? ND X| | |]; subst. intros b H. rewrite np_pack_map in H. apply bind_ok in H as (h & Hh & H). apply bind_ok in H as (bs & Hb & H). injection H as <-.
    apply (@map_back _ (text_items d) bs h (WMap d) Hh); [lia|apply (flat_length WStr)|exact Hb| |now apply text_object].
    intros w Hw. apply in_flat_map in Hw as ([k x] & Hx & [<-|[<-|[]]]); [apply leaf_back; [exact I|constructor]|]. apply (IH k x Hx). exact (X k x Hx).
  - intros n P. inversion P; subst. exact (scalar_back (number_back H0)).
  - intros v P. assert (N : number float_of (dtype_str "bool") [if v then 1 else 0] = Some (WNpBool v)) by (destruct v; reflexivity). exact (scalar_back N).
  - intros d s l P. inversion P; subst. intros b Hb. refine (@dict_back (np_array d s l) _ _ _ b Hb); [|now apply array_object].
    intros k x [E|[E|[E|[E|[E|[]]]]]]; injection E as <- <-; (split; [first [now left|right; eauto]|]).
    + apply leaf_back; [exact I|constructor].
    + apply leaf_back; [exact I|constructor].
    + apply bin_back.
    + now apply shape_back.
    + apply bin_back.
Qed.
Lemma np_unpackb_back : forall w b, np_pack w = Ok b -> proper_n fl w -> np_unpackb float_of b = Some w.
Proof.
  intros w b H P. unfold np_unpackb. destruct (np_all_back P H) as [_ R]. assert (E := R (2 * List.length b + 2)%nat []). rewrite app_nil_r in E. now rewrite E by lia.
Qed.

(** ** What can be packed *)
Lemma items_pack : forall l, (exists b, items l = Ok b) <-> forall w, In w l -> exists b, np_pack w = Ok b.
Proof.
  induction l as [|w l IH]; [split; [intros _ w []|eexists; reflexivity]|]. cbn [items]. split.
  - intros (b & H). apply bind_ok in H as (b1 & H1 & H). apply bind_ok in H as (b2 & H2 & _). intros w' [<-|Hw]; [eauto|]. apply IH; [eauto|exact Hw].
  - intros H. destruct (H w (or_introl eq_refl)) as [b1 ->]. destruct (proj2 IH) as [b2 ->]; [intros w' Hw; apply H; now right|]. eexists. reflexivity.
Qed.
Lemma items_err : forall l e, items l = Err e -> exists w, In w l /\ np_pack w = Err e.
Proof.
  induction l as [|w l IH]; intros e H; [discriminate|]. cbn [items] in H. destruct (np_pack w) as [b|e'] eqn:E.
  - cbn [bind] in H. destruct (items l) as [b2|e2]; [discriminate|]. cbn [bind] in H. destruct (IH e) as (w' & Hw & Ew); [congruence|]. exists w'. split; [now right|exact Ew].
  - cbn [bind] in H. exists w. split; [now left|congruence].
Qed.
Lemma bind_okb : forall (x : res (list Z)) h, (exists b, (let* b := x in Ok (h ++ b)) = Ok b) <-> exists b, x = Ok b.
Proof. intros [b|e] h; split; intros (y & H); cbn [bind] in *; eauto; discriminate. Qed.
Lemma array_ok : forall l, (exists b, np_pack (WArray l) = Ok b) <-> Z.of_nat (List.length l) < 2 ^ 32 /\ forall w, In w l -> exists b, np_pack w = Ok b.
Proof.
  intros l. rewrite np_pack_array, <- items_pack, <- array_packs. destruct (mp_array_head _) as [h|e]; cbn [bind].
  - rewrite bind_okb. split; [intros H; split; [eauto|exact H]|tauto].
  - split; [intros (b & H); discriminate|intros [(b & H) _]; discriminate].
Qed.
Lemma map_ok : forall n l, (exists b, (let* h := mp_map_head n in let* b := items l in Ok (h ++ b)) = Ok b) <-> n < 2 ^ 32 /\ forall w, In w l -> exists b, np_pack w = Ok b.
Proof.
  intros n l. rewrite <- items_pack, <- map_packs. destruct (mp_map_head _) as [h|e]; cbn [bind].
  - rewrite bind_okb. split; [intros H; split; [eauto|exact H]|tauto].
  - split; [intros (b & H); discriminate|intros [(b & H) _]; discriminate].
Qed.
Lemma leaf_ok : forall w, leaf w -> (exists b, np_pack w = Ok b) <-> small_n w.
Proof.
  intros w L. assert (E : np_pack w = mp_pack w) by (destruct w; try contradiction L; reflexivity). rewrite E, packs_iff.
  destruct w; try contradiction L; split; intros H; inversion H; subst; now constructor.
Qed.
Lemma dict_ok : forall d, (forall k w, In (k, w) d -> plain w) -> Z.of_nat (List.length d) < 2 ^ 32 -> (forall k w, In (k, w) d -> Z.of_nat (String.length k) < 2 ^ 32) ->
  (exists b, np_dict d = Ok b) <-> forall k w, In (k, w) d -> exists b, np_pack w = Ok b.
Proof.
  intros d P N K. rewrite np_dict_items by exact P. rewrite map_ok. split.
  - intros [_ H] k w Hw. apply H. unfold bin_items. apply in_flat_map. exists (k, w). split; [exact Hw|right; now left].
  - intros H. split; [exact N|]. intros w Hw. apply in_flat_map in Hw as ([k x] & Hx & [<-|[<-|[]]]); [|exact (H k x Hx)].
    apply leaf_ok; [exact I|]. constructor. rewrite utf8_length. exact (K k x Hx).
Qed.
Lemma dtype_short : forall d, Z.of_nat (String.length (dtype_str d)) < 2 ^ 32 <-> Z.of_nat (String.length d) < 2 ^ 32.
Proof.
  intros d. unfold dtype_str. destruct (dict_get d dtype_table) as [c|] eqn:E; [|tauto]. unfold dtype_table in E. cbn [dict_get] in E.
  repeat match type of E with (if String.eqb d ?b then Some ?x else _) = _ => destruct (String.eqb_spec d b) as [->|_]; [assert (c = x) as -> by congruence; split; reflexivity|] end.
  discriminate E.
Qed.
Lemma data_short : forall n, real_number fl n -> Z.of_nat (List.length (np_data float_bytes n)) < 2 ^ 32 /\ Z.of_nat (String.length (dtype_str (np_kind n))) < 2 ^ 32.
Proof.
  intros [k z|k b|k x y] R; cbn [np_kind np_data].
  - unfold real_number in R. destruct (int_type k) as [[sg n]|] eqn:E; [|contradiction]. split.
    + rewrite rev_length, be_length. unfold int_bytes. repeat match goal with |- context[if ?b then _ else _] => destruct b end; reflexivity.
    + apply dtype_short. unfold int_type in E. cbn [dict_get] in E.
      repeat match type of E with (if String.eqb k ?b then _ else _) = _ => destruct (String.eqb_spec k b) as [->|_]; [reflexivity|] end. discriminate E.
  - destruct R as [T F]. destruct (float_type k) as [n|] eqn:E; [|contradiction]. rewrite (proj1 (FL E F)). unfold float_type in E. cbn [dict_get] in E. clear T F.
    repeat match type of E with (if String.eqb k ?b then Some ?x else _) = _ => destruct (String.eqb_spec k b) as [->|_]; [assert (n = x) as -> by congruence; split; reflexivity|] end. discriminate E.
  - cbn [real_number] in R. destruct (complex_type k) as [[p n]|] eqn:E; [|contradiction]. destruct R as [X Y].
    destruct (complex_data E) as (_ & _ & _ & _ & P & T). rewrite P, app_length, (proj1 (FL T X)), (proj1 (FL T Y)). clear X Y P T. unfold complex_type in E. cbn [dict_get] in E.
    repeat match type of E with (if String.eqb k ?b then Some (?x, ?y) else _) = _ => destruct (String.eqb_spec k b) as [->|_]; [assert (n = y) as -> by congruence; split; reflexivity|] end. discriminate E.
Qed.
Lemma scalar_ok : forall k l, Z.of_nat (List.length l) < 2 ^ 32 -> Z.of_nat (String.length (dtype_str k)) < 2 ^ 32 -> exists b, np_dict (np_scalar k l) = Ok b.
Proof.
  intros k l H1 H2. apply dict_ok.
  - intros k' x [E|[E|[E|[]]]]; injection E as <- <-; now left.
  - reflexivity.
  - intros k' x [E|[E|[E|[]]]]; injection E as <- <-; reflexivity.
  - intros k' x [E|[E|[E|[]]]]; injection E as <- <-; (apply leaf_ok; [exact I|now constructor]).
Qed.
Lemma np_packs_iff : forall w, proper_n fl w -> (exists b, np_pack w = Ok b) <-> small_n w.
Proof.
  apply (@wval_ind2 (fun w => proper_n fl w -> (exists b, np_pack w = Ok b) <-> small_n w)).
  - intros _. now apply leaf_ok. - intros b _. now apply leaf_ok. - intros z _. now apply leaf_ok. - intros b _. now apply leaf_ok. - intros s _. now apply leaf_ok. - intros l _. now apply leaf_ok.
  - intros l IH P. inversion P as [| | | | | |? X| | | |]; subst. rewrite array_ok. split.
    + intros [N H]. constructor; [exact N|]. intros w Hw. apply (IH w Hw); auto.
    + intros H. inversion H; subst. split; [assumption|]. intros w Hw. apply (IH w Hw); auto.
  - intros d IH P. inversion P as [| | | | | | |? ND X| | |]; subst. rewrite np_pack_map, map_ok. split.
    + intros [N H]. constructor; [exact N|]. intros k w Hw. split.
      * assert (S : small_n (WStr k)). { apply leaf_ok; [exact I|]. apply H. apply in_flat_map. exists (k, w). split; [exact Hw|now left]. } now inversion S.
      * apply (IH k w Hw); [eauto|]. apply H. apply in_flat_map. exists (k, w). split; [exact Hw|right; now left].
    + intros H. inversion H as [| | | | | | |? N S| | |]; subst. split; [exact N|]. intros w Hw. apply in_flat_map in Hw as ([k x] & Hx & [<-|[<-|[]]]); destruct (S k x Hx) as [S1 S2].
      * apply leaf_ok; [exact I|now constructor].
      * apply (IH k x Hx); eauto.
  - intros n P. inversion P; subst. destruct (data_short H0) as [H1 H2]. split; [constructor|]. intros _. now apply scalar_ok.
  - intros v _. split; [constructor|]. intros _. now apply (@scalar_ok "bool" [if v then 1 else 0]).
  - intros d s l P. inversion P; subst. cbn [M_MsgpackNp.np_pack]. rewrite dict_ok.
    + split.
      * intros H. assert (A := fun k w X => H k w X). assert (HT := A "type" _ (or_intror (or_introl eq_refl))). assert (HS := A "shape" _ (or_intror (or_intror (or_intror (or_introl eq_refl))))).
        assert (HD := A "data" _ (or_intror (or_intror (or_intror (or_intror (or_introl eq_refl)))))).
        apply leaf_ok in HT; [|exact I]. apply leaf_ok in HD; [|exact I]. apply array_ok in HS as [HS _]. rewrite map_length in HS. inversion HT; inversion HD; subst. constructor; [now apply dtype_short|assumption|assumption].
      * intros H k x Hx. inversion H; subst. destruct Hx as [E|[E|[E|[E|[E|[]]]]]]; injection E as <- <-.
        -- apply leaf_ok; [exact I|constructor].
        -- apply leaf_ok; [exact I|]. constructor. now apply dtype_short.
        -- apply leaf_ok; [exact I|]. constructor. reflexivity.
        -- apply array_ok. rewrite map_length. split; [assumption|]. intros w Hw. apply in_map_iff in Hw as (n & <- & _). eexists. reflexivity.
        -- apply leaf_ok; [exact I|now constructor].
    + intros k x [E|[E|[E|[E|[E|[]]]]]]; injection E as <- <-; first [now left|right; eauto].
    + reflexivity.
    + intros k x [E|[E|[E|[E|[E|[]]]]]]; injection E as <- <-; reflexivity.
Qed.
Lemma leaf_err : forall w e, leaf w -> np_pack w = Err e -> e = EValueError.
Proof.
  intros w e L H. destruct w; try contradiction L; cbn [M_MsgpackNp.np_pack mp_pack] in H; try discriminate;
    unfold mp_str, mp_str_head, mp_bin_head in H; repeat match type of H with context[if ?b then _ else _] => destruct b end; cbn [bind] in H; congruence.
Qed.
Lemma map_err : forall n l e, (let* h := mp_map_head n in let* b := items l in Ok (h ++ b)) = Err e -> (forall w e', In w l -> np_pack w = Err e' -> e' = EValueError) -> e = EValueError.
Proof.
  intros n l e H P. destruct (mp_map_head n) as [h|e'] eqn:Eh; cbn [bind] in H.
  - destruct (items l) as [b|e'] eqn:E; cbn [bind] in H; [discriminate|]. apply items_err in E as (w & Hw & E). assert (X := P w e' Hw E). congruence.
  - unfold mp_map_head in Eh. repeat match type of Eh with context[if ?b then _ else _] => destruct b end; congruence.
Qed.
Lemma array_err : forall l e, np_pack (WArray l) = Err e -> (forall w e', In w l -> np_pack w = Err e' -> e' = EValueError) -> e = EValueError.
Proof.
  intros l e H P. rewrite np_pack_array in H. destruct (mp_array_head _) as [h|e'] eqn:Eh; cbn [bind] in H.
  - destruct (items l) as [b|e'] eqn:E; cbn [bind] in H; [discriminate|]. apply items_err in E as (w & Hw & E). assert (X := P w e' Hw E). congruence.
  - unfold mp_array_head in Eh. repeat match type of Eh with context[if ?b then _ else _] => destruct b end; congruence.
Qed.
Lemma dict_err : forall d e, (forall k w, In (k, w) d -> plain w) -> np_dict d = Err e -> e = EValueError.
Proof.
  intros d e P H. rewrite np_dict_items in H by exact P. apply (map_err H). intros w e' Hw. apply in_flat_map in Hw as ([k x] & Hx & [<-|[<-|[]]]); [now apply leaf_err|].
  cbn [snd]. destruct (P k x Hx) as [L|(s & ->)]; [now apply leaf_err|]. intros E. apply (array_err E). intros w e2 Hw. apply in_map_iff in Hw as (n & <- & _). now apply leaf_err.
Qed.
Lemma np_pack_err : forall w e, np_pack w = Err e -> e = EValueError.
Proof.
  apply (@wval_ind2 (fun w => forall e, np_pack w = Err e -> e = EValueError)).
  - intros e. now apply leaf_err. - intros b e. now apply leaf_err. - intros z e. now apply leaf_err. - intros b e. now apply leaf_err. - intros s e. now apply leaf_err. - intros l e. now apply leaf_err.
  - intros l IH e H. apply (array_err H). intros w e' Hw. now apply IH.
  - intros d IH e H. rewrite np_pack_map in H. apply (map_err H). intros w e' Hw. apply in_flat_map in Hw as ([k x] & Hx & [<-|[<-|[]]]); [now apply leaf_err|exact (IH k x Hx e')].
  - intros n e. apply dict_err. intros k x [E|[E|[E|[]]]]; injection E as <- <-; now left.
  - intros b e. apply dict_err. intros k x [E|[E|[E|[]]]]; injection E as <- <-; now left.
  - intros d s l e. apply dict_err. intros k x [E|[E|[E|[E|[E|[]]]]]]; injection E as <- <-; first [now left|right; eauto].
Qed.
End L.
