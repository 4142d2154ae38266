(** Packed values are read back. *)
From Verif Require Import Base L_Base M_Export S_Export L_Export2 L_Export3 M_Msgpack S_Msgpack.
Set Implicit Arguments.
Unset Strict Implicit.
Local Open Scope string_scope.
Local Open Scope Z_scope.
Local Open Scope list_scope.

Lemma Ok_inj : forall A (a b : A), Ok a = Ok b -> a = b.
Proof. intros A a b H. now injection H. Qed.
Lemma be_length : forall n z, List.length (be n z) = n.
Proof. induction n as [|n IH]; intros z; cbn; [reflexivity|]. now rewrite IH. Qed.
Lemma be_byte : forall n z, Forall byte (be n z).
Proof. induction n as [|n IH]; intros z; cbn; constructor; [|apply IH]. unfold byte. apply Z.mod_pos_bound. lia. Qed.
Lemma unsigned_acc : forall l a, fold_left (fun a b => 256 * a + b) l a = a * 256 ^ Z.of_nat (List.length l) + unsigned l.
Proof.
  unfold unsigned. induction l as [|b l IH]; intros a; [cbn; lia|]. cbn [fold_left List.length]. rewrite IH, (IH (256 * 0 + b)).
  rewrite Nat2Z.inj_succ, Z.pow_succ_r by lia. lia.
Qed.
Lemma be_mod : forall n z, 0 <= z -> unsigned (be n z) = z mod 256 ^ Z.of_nat n.
Proof.
  induction n as [|n IH]; intros z Hz; [cbn; now rewrite Z.mod_1_r|].
  cbn [be]. unfold unsigned. cbn [fold_left]. rewrite unsigned_acc, be_length, IH by exact Hz.
  rewrite Nat2Z.inj_succ, Z.pow_succ_r by lia. set (p := 256 ^ Z.of_nat n). assert (P : 0 < p) by (apply Z.pow_pos_nonneg; lia).
  rewrite (Z.mul_comm 256 p), Z.rem_mul_r by lia. lia.
Qed.
Lemma be_value : forall n z, 0 <= z < 256 ^ Z.of_nat n -> unsigned (be n z) = z.
Proof. intros n z H. rewrite be_mod by lia. now apply Z.mod_small. Qed.
Lemma take_app : forall l s n, n = Z.of_nat (List.length l) -> take n (l ++ s) = Some (l, s).
Proof.
  intros l s n ->. unfold take. rewrite app_length. replace (_ <=? _) with true by (symmetry; apply Z.leb_le; lia).
  rewrite Nat2Z.id, firstn_app, Nat.sub_diag, firstn_all, skipn_app, Nat.sub_diag, skipn_all. cbn. now rewrite app_nil_r.
Qed.
Lemma take_be : forall n z s k, k = Z.of_nat n -> take k (be n z ++ s) = Some (be n z, s).
Proof. intros n z s k ->. apply take_app. now rewrite be_length. Qed.
Lemma take_len_be : forall n z l s k, k = Z.of_nat n -> z = Z.of_nat (List.length l) -> 0 <= z < 256 ^ Z.of_nat n -> take_len k (be n z ++ l ++ s) = Some (l, s).
Proof. intros n z l s k Hk Hz R. unfold take_len. rewrite (take_be z (l ++ s) Hk), be_value by exact R. now apply take_app. Qed.

Lemma utf8_length : forall s, List.length (utf8 s) = String.length s.
Proof. induction s as [|c s IH]; cbn; [reflexivity|]. now rewrite IH. Qed.
Lemma utf8_byte : forall s, Forall byte (utf8 s).
Proof. induction s as [|c s IH]; cbn; constructor; [|exact IH]. unfold byte. assert (B := nat_ascii_bounded c). lia. Qed.
Lemma text_utf8 : forall s, text_of (utf8 s) = s.
Proof. induction s as [|c s IH]; cbn; [reflexivity|]. fold (text_of (utf8 s)). now rewrite IH, Nat2Z.id, ascii_nat_embedding. Qed.

(** ** Integers *)
Lemma signed_be : forall n z, (0 < n)%nat -> - (256 ^ Z.of_nat n / 2) <= z < 0 -> signed (be n (z mod 256 ^ Z.of_nat n)) = z.
Proof.
  intros n z Hn H. unfold signed. rewrite be_length. set (p := 256 ^ Z.of_nat n) in *.
  assert (P : 0 < p) by (apply Z.pow_pos_nonneg; lia). assert (B := Z.mod_pos_bound z p P).
  rewrite be_value by (fold p; lia).
  assert (E2 : 2 * (p / 2) = p).
  { destruct n as [|n]; [lia|]. unfold p. rewrite Nat2Z.inj_succ, Z.pow_succ_r by lia. replace (256 * 256 ^ Z.of_nat n) with (128 * 256 ^ Z.of_nat n * 2) by lia. rewrite Z.div_mul by lia. lia. }
  assert (E : z mod p = z + p). { symmetry. apply Z.mod_unique with (q := -1); [left|]; lia. }
  rewrite E. replace (z + p <? p / 2) with false by (symmetry; apply Z.ltb_ge; lia). lia.
Qed.
Lemma get_int : forall z f s, - 2 ^ 63 <= z < 2 ^ 64 -> get (S f) (mp_int z ++ s) = Some (WInt z, s).
Proof.
  intros z f s H. unfold mp_int.
  destruct (z <? - 2 ^ 31) eqn:E1; [|destruct (z <? - 2 ^ 15) eqn:E2; [|destruct (z <? - 2 ^ 7) eqn:E3; [|destruct (z <? - 2 ^ 5) eqn:E4;
    [|destruct (z <? 0) eqn:E5; [|destruct (z <? 2 ^ 7) eqn:E6; [|destruct (z <? 2 ^ 8) eqn:E7; [|destruct (z <? 2 ^ 16) eqn:E8; [|destruct (z <? 2 ^ 32) eqn:E9]]]]]]]];
    rewrite ?Z.ltb_lt, ?Z.ltb_ge in *; cbn [app get].
  - change (kind_of 211) with (KInt 8). cbv iota. rewrite take_be by reflexivity. cbn [opt_map]. change (2 ^ 64) with (256 ^ Z.of_nat 8). rewrite signed_be; [reflexivity|lia|]. change (256 ^ Z.of_nat 8 / 2) with (2 ^ 63). lia.
  - change (kind_of 210) with (KInt 4). cbv iota. rewrite take_be by reflexivity. cbn [opt_map]. change (2 ^ 32) with (256 ^ Z.of_nat 4). rewrite signed_be; [reflexivity|lia|]. change (256 ^ Z.of_nat 4 / 2) with (2 ^ 31). lia.
  - change (kind_of 209) with (KInt 2). cbv iota. rewrite take_be by reflexivity. cbn [opt_map]. change (2 ^ 16) with (256 ^ Z.of_nat 2). rewrite signed_be; [reflexivity|lia|]. change (256 ^ Z.of_nat 2 / 2) with (2 ^ 15). lia.
  - change (kind_of 208) with (KInt 1). cbv iota. rewrite take_be by reflexivity. cbn [opt_map]. change (2 ^ 8) with (256 ^ Z.of_nat 1). rewrite signed_be; [reflexivity|lia|]. change (256 ^ Z.of_nat 1 / 2) with (2 ^ 7). lia.
  - assert (K : kind_of (z + 256) = KNow (WInt (z + 256 - 256))).
    { unfold kind_of. change (- 2 ^ 5) with (-32) in *.
      repeat match goal with |- context[if ?b then _ else _] => replace b with false by (symmetry; first [apply Z.ltb_ge; lia|apply Z.eqb_neq; lia]) end.
      replace ((224 <=? z + 256) && (z + 256 <? 256)) with true by lia. reflexivity. }
    rewrite K. do 3 f_equal. lia.
  - change (2 ^ 7) with 128 in *. unfold kind_of. replace (z <? 128) with true by lia. reflexivity.
  - change (kind_of 204) with (KUint 1). cbv iota. rewrite take_be by reflexivity. cbn [opt_map]. rewrite be_value; [reflexivity|]. change (256 ^ Z.of_nat 1) with (2 ^ 8). lia.
  - change (kind_of 205) with (KUint 2). cbv iota. rewrite take_be by reflexivity. cbn [opt_map]. rewrite be_value; [reflexivity|]. change (256 ^ Z.of_nat 2) with (2 ^ 16). lia.
  - change (kind_of 206) with (KUint 4). cbv iota. rewrite take_be by reflexivity. cbn [opt_map]. rewrite be_value; [reflexivity|]. change (256 ^ Z.of_nat 4) with (2 ^ 32). lia.
  - change (kind_of 207) with (KUint 8). cbv iota. rewrite take_be by reflexivity. cbn [opt_map]. rewrite be_value; [reflexivity|]. change (256 ^ Z.of_nat 8) with (2 ^ 64). lia.
Qed.

(** ** Heads *)
Lemma small_kind : forall lo hi b (k : Z -> kind), (lo = 0x80 /\ hi = 0x90 /\ k = KMap) \/ (lo = 0x90 /\ hi = 0xa0 /\ k = KArray) \/ (lo = 0xa0 /\ hi = 0xc0 /\ k = KStr) ->
  0 <= b < hi - lo -> kind_of (lo + b) = k b.
Proof.
  intros lo hi b k [(-> & -> & ->)|[(-> & -> & ->)|(-> & -> & ->)]] H; unfold kind_of;
    repeat match goal with
    | |- context[if ?x <? ?y then _ else _] => (replace (x <? y) with false by (symmetry; apply Z.ltb_ge; lia)) || (replace (x <? y) with true by (symmetry; apply Z.ltb_lt; lia)); cbv iota
    end; f_equal; lia.
Qed.
Lemma get_str : forall s b f rest, mp_str s = Ok b -> get (S f) (b ++ rest) = Some (WStr s, rest).
Proof.
  intros s b f rest H. unfold mp_str in H. apply bind_ok in H as (h & Hh & H). injection H as <-. rewrite <- app_assoc. unfold mp_str_head in Hh.
  assert (L := utf8_length s). set (n := Z.of_nat (String.length s)) in *. assert (N : 0 <= n) by (unfold n; lia).
  destruct (n <? 32) eqn:E1; [|destruct (n <? 2 ^ 8) eqn:E2; [|destruct (n <? 2 ^ 16) eqn:E3; [|destruct (n <? 2 ^ 32) eqn:E4; [|discriminate]]]];
    apply Ok_inj in Hh; subst h; rewrite ?Z.ltb_lt, ?Z.ltb_ge in *; cbn [app get].
  - rewrite (@small_kind 160 192 n KStr) by (auto; lia). rewrite take_app by (unfold n; lia). cbn. now rewrite text_utf8.
  - change (kind_of 217) with (KStrLen 1). cbv iota. rewrite take_len_be; [|reflexivity|unfold n; lia|change (256 ^ Z.of_nat 1) with (2 ^ 8); lia]. cbn. now rewrite text_utf8.
  - change (kind_of 218) with (KStrLen 2). cbv iota. rewrite take_len_be; [|reflexivity|unfold n; lia|change (256 ^ Z.of_nat 2) with (2 ^ 16); lia]. cbn. now rewrite text_utf8.
  - change (kind_of 219) with (KStrLen 4). cbv iota. rewrite take_len_be; [|reflexivity|unfold n; lia|change (256 ^ Z.of_nat 4) with (2 ^ 32); lia]. cbn. now rewrite text_utf8.
Qed.
Lemma get_bin : forall l h f rest, mp_bin_head (Z.of_nat (List.length l)) = Ok h -> get (S f) (h ++ l ++ rest) = Some (WBin l, rest).
Proof.
  intros l h f rest Hh. unfold mp_bin_head in Hh. set (n := Z.of_nat (List.length l)) in *. assert (N : 0 <= n) by (unfold n; lia).
  destruct (n <? 2 ^ 8) eqn:E2; [|destruct (n <? 2 ^ 16) eqn:E3; [|destruct (n <? 2 ^ 32) eqn:E4; [|discriminate]]];
    apply Ok_inj in Hh; subst h; rewrite ?Z.ltb_lt, ?Z.ltb_ge in *; cbn [app get].
  - change (kind_of 196) with (KBinLen 1). cbv iota. rewrite take_len_be; [reflexivity|reflexivity|unfold n; lia|change (256 ^ Z.of_nat 1) with (2 ^ 8); lia].
  - change (kind_of 197) with (KBinLen 2). cbv iota. rewrite take_len_be; [reflexivity|reflexivity|unfold n; lia|change (256 ^ Z.of_nat 2) with (2 ^ 16); lia].
  - change (kind_of 198) with (KBinLen 4). cbv iota. rewrite take_len_be; [reflexivity|reflexivity|unfold n; lia|change (256 ^ Z.of_nat 4) with (2 ^ 32); lia].
Qed.
Lemma get_array_head : forall n h f s, 0 <= n -> mp_array_head n = Ok h -> get (S f) (h ++ s) = opt_map WArray (get_items f n s).
Proof.
  intros n h f s N Hh. unfold mp_array_head in Hh.
  destruct (n <? 16) eqn:E2; [|destruct (n <? 2 ^ 16) eqn:E3; [|destruct (n <? 2 ^ 32) eqn:E4; [|discriminate]]];
    apply Ok_inj in Hh; subst h; rewrite ?Z.ltb_lt, ?Z.ltb_ge in *; cbn [app get].
  - now rewrite (@small_kind 144 160 n KArray) by (auto; lia).
  - change (kind_of 220) with (KArrayLen 2). cbv iota. rewrite take_be by reflexivity. rewrite be_value; [reflexivity|change (256 ^ Z.of_nat 2) with (2 ^ 16); lia].
  - change (kind_of 221) with (KArrayLen 4). cbv iota. rewrite take_be by reflexivity. rewrite be_value; [reflexivity|change (256 ^ Z.of_nat 4) with (2 ^ 32); lia].
Qed.
Lemma get_map_head : forall n h f s, 0 <= n -> mp_map_head n = Ok h -> get (S f) (h ++ s) = opt_map WMap (get_pairs f n [] s).
Proof.
  intros n h f s N Hh. unfold mp_map_head in Hh.
  destruct (n <? 16) eqn:E2; [|destruct (n <? 2 ^ 16) eqn:E3; [|destruct (n <? 2 ^ 32) eqn:E4; [|discriminate]]];
    apply Ok_inj in Hh; subst h; rewrite ?Z.ltb_lt, ?Z.ltb_ge in *; cbn [app get].
  - now rewrite (@small_kind 128 144 n KMap) by (auto; lia).
  - change (kind_of 222) with (KMapLen 2). cbv iota. rewrite take_be by reflexivity. rewrite be_value; [reflexivity|change (256 ^ Z.of_nat 2) with (2 ^ 16); lia].
  - change (kind_of 223) with (KMapLen 4). cbv iota. rewrite take_be by reflexivity. rewrite be_value; [reflexivity|change (256 ^ Z.of_nat 4) with (2 ^ 32); lia].
Qed.

(** ** All values *)
Lemma wval_ind2 : forall P : wval -> Prop, P WNil -> (forall b, P (WBool b)) -> (forall z, P (WInt z)) -> (forall b, P (WFloat b)) -> (forall s, P (WStr s)) -> (forall l, P (WBin l)) ->
  (forall l, (forall w, In w l -> P w) -> P (WArray l)) -> (forall d, (forall k w, In (k, w) d -> P w) -> P (WMap d)) ->
  (forall n, P (WNp n)) -> (forall b, P (WNpBool b)) -> (forall d s b, P (WNd d s b)) -> forall w, P w.
Proof.
  intros P H1 H2 H3 H4 H5 H6 HA HM H7 H8 H9. fix IH 1. intros [ |b|z|b|s|l|l|d|n|b|t s b].
  - exact H1. - apply H2. - apply H3. - apply H4. - apply H5. - apply H6.
  - apply HA. induction l as [|x l IHl]; intros w Hw; [destruct Hw|]. destruct Hw as [<-|Hw]; [apply IH|now apply IHl].
  - apply HM. induction d as [|[k x] l IHl]; intros k' w Hw; [destruct Hw|]. destruct Hw as [E|Hw]; [injection E as _ <-; apply IH|now apply (IHl k')].
  - apply H7. - apply H8. - apply H9.
Qed.
Fixpoint pack_items (l : list wval) : res (list Z) :=
  match l with [] => Ok [] | x :: r => let* b := mp_pack x in let* bs := pack_items r in Ok (b ++ bs) end.
Fixpoint pack_pairs (d : list (string * wval)) : res (list Z) :=
  match d with
  | [] => Ok []
  | (k, x) :: r => let* kb := mp_str k in let* b := mp_pack x in let* bs := pack_pairs r in Ok (kb ++ b ++ bs)
  end.
Lemma mp_array : forall l, mp_pack (WArray l) = let* h := mp_array_head (Z.of_nat (List.length l)) in let* b := pack_items l in Ok (h ++ b).
Proof. reflexivity. Qed.
Lemma mp_map : forall l, mp_pack (WMap l) = let* h := mp_map_head (Z.of_nat (List.length l)) in let* b := pack_pairs l in Ok (h ++ b).
Proof. reflexivity. Qed.

Lemma array_head_len : forall n h, mp_array_head n = Ok h -> (1 <= List.length h)%nat.
Proof. intros n h H. unfold mp_array_head in H. repeat match type of H with (if ?b then _ else _) = _ => destruct b end; inversion H; subst; cbn; lia. Qed.
Lemma map_head_len : forall n h, mp_map_head n = Ok h -> (1 <= List.length h)%nat.
Proof. intros n h H. unfold mp_map_head in H. repeat match type of H with (if ?b then _ else _) = _ => destruct b end; inversion H; subst; cbn; lia. Qed.
Lemma mp_str_len : forall s h, mp_str s = Ok h -> (1 <= List.length h)%nat.
Proof. intros n h H. unfold mp_str, mp_str_head in H. repeat match type of H with context[if ?b then _ else _] => destruct b end; inversion H; subst; cbn; lia. Qed.
Lemma mp_int_len : forall z, (1 <= List.length (mp_int z))%nat.
Proof. intros z. unfold mp_int. repeat match goal with |- context[if ?b then _ else _] => destruct b end; cbn; lia. Qed.
Lemma mp_pack_len : forall w b, mp_pack w = Ok b -> (1 <= List.length b)%nat.
Proof.
  intros [ |b|z|b|s|l|l|d|n|b|t s b] o H.
  - inversion H; cbn; lia. - inversion H; cbn; lia. - inversion H. apply mp_int_len. - inversion H; cbn; lia. - now apply mp_str_len in H.
  - cbn [mp_pack] in H. apply bind_ok in H as (h & Hh & H). injection H as <-. rewrite app_length. unfold mp_bin_head in Hh.
    repeat match type of Hh with context[if ?b then _ else _] => destruct b end; inversion Hh; subst; cbn; lia.
  - rewrite mp_array in H. apply bind_ok in H as (h & Hh & H). apply bind_ok in H as (bs & _ & H). injection H as <-. apply array_head_len in Hh. rewrite app_length. lia.
  - rewrite mp_map in H. apply bind_ok in H as (h & Hh & H). apply bind_ok in H as (bs & _ & H). injection H as <-. apply map_head_len in Hh. rewrite app_length. lia.
  - discriminate. - discriminate. - discriminate.
Qed.

Definition reads_back (w : wval) : Prop := forall b, mp_pack w = Ok b -> proper_w w -> forall f rest, (2 * List.length b <= f)%nat -> get f (b ++ rest) = Some (w, rest).
Lemma items_back : forall l b, pack_items l = Ok b -> (forall w, In w l -> proper_w w /\ reads_back w) ->
  forall f rest, (2 * List.length b < f)%nat -> get_items f (Z.of_nat (List.length l)) (b ++ rest) = Some (l, rest).
Proof.
  induction l as [|w l IH]; intros b H P f rest Hf.
  - injection H as <-. destruct f; [lia|]. reflexivity.
  - cbn [pack_items] in H. apply bind_ok in H as (b1 & H1 & H). apply bind_ok in H as (b2 & H2 & H). injection H as <-.
    rewrite app_length in Hf. destruct f as [|f]; [lia|]. cbn [get_items List.length]. replace (Z.of_nat (S (List.length l)) <=? 0) with false by (symmetry; apply Z.leb_gt; lia).
    destruct (P w (or_introl eq_refl)) as [Pw Rw]. assert (L1 := mp_pack_len H1). rewrite <- app_assoc. rewrite (Rw b1 H1 Pw f (b2 ++ rest)) by lia.
    replace (Z.of_nat (S (List.length l)) - 1) with (Z.of_nat (List.length l)) by lia. rewrite (IH b2 H2) by (try lia; intros w' Hw'; apply P; now right). reflexivity.
Qed.
Lemma pairs_back : forall d b acc, pack_pairs d = Ok b -> (forall k w, In (k, w) d -> proper_w w /\ reads_back w) -> NoDup (dict_keys (acc ++ d)) ->
  forall f rest, (2 * List.length b < f)%nat -> get_pairs f (Z.of_nat (List.length d)) acc (b ++ rest) = Some (acc ++ d, rest).
Proof.
  induction d as [|[k w] d IH]; intros b acc H P ND f rest Hf.
  - injection H as <-. destruct f; [lia|]. cbn. now rewrite app_nil_r.
  - cbn [pack_pairs] in H. apply bind_ok in H as (b0 & H0 & H). apply bind_ok in H as (b1 & H1 & H). apply bind_ok in H as (b2 & H2 & H). injection H as <-.
    rewrite !app_length in Hf. destruct f as [|f]; [lia|]. cbn [get_pairs List.length]. replace (Z.of_nat (S (List.length d)) <=? 0) with false by (symmetry; apply Z.leb_gt; lia).
    destruct (P k w (or_introl eq_refl)) as [Pw Rw]. assert (L0 := mp_str_len H0). assert (L1 := mp_pack_len H1). rewrite <- !app_assoc.
    destruct f as [|f]; [lia|]. rewrite (get_str f (b1 ++ b2 ++ rest) H0). rewrite (Rw b1 H1 Pw (S f) (b2 ++ rest)) by lia.
    replace (Z.of_nat (S (List.length d)) - 1) with (Z.of_nat (List.length d)) by lia.
    assert (Nk : ~ In k (dict_keys acc)).
    { unfold dict_keys in ND |- *. rewrite map_app in ND. cbn in ND. apply NoDup_remove_2 in ND. intros X. apply ND. apply in_or_app. now left. }
    rewrite dset_new by exact Nk. rewrite (IH b2 (acc ++ [(k, w)]) H2).
    + now rewrite <- app_assoc.
    + intros k' w' Hw'. apply (P k'). now right.
    + now rewrite <- app_assoc.
    + lia.
Qed.
Lemma all_back : forall w, reads_back w.
Proof.
  apply wval_ind2; unfold reads_back.
  - intros b H _ f rest Hf. injection H as <-. destruct f; [cbn in Hf; lia|]. reflexivity.
  - intros b o H _ f rest Hf. injection H as <-. destruct f; [cbn in Hf; lia|]. destruct b; reflexivity.
  - intros z o H P f rest Hf. apply Ok_inj in H; subst o. assert (L := mp_int_len z). destruct f; [lia|]. inversion P; subst. now apply get_int.
  - intros b o H P f rest Hf. apply Ok_inj in H; subst o. destruct f; [cbn in Hf; lia|]. inversion P; subst. cbn [app get]. change (kind_of 203) with KFloat. cbv iota.
    rewrite take_be by reflexivity. cbn [opt_map]. rewrite be_value; [reflexivity|]. exact H0.
  - intros s b H _ f rest Hf. assert (L := mp_str_len H). destruct f; [lia|]. now apply get_str.
  - intros l b H _ f rest Hf. cbn [mp_pack] in H. assert (L := @mp_pack_len (WBin l) b H). apply bind_ok in H as (h & Hh & H). injection H as <-.
    destruct f; [lia|]. rewrite <- app_assoc. now apply get_bin.
  - intros l IH b H P f rest Hf. rewrite mp_array in H. apply bind_ok in H as (h & Hh & H). apply bind_ok in H as (bs & Hb & H). injection H as <-.
    assert (L := array_head_len Hh). rewrite app_length in Hf. destruct f; [lia|]. rewrite <- app_assoc. rewrite (get_array_head f (bs ++ rest) (Nat2Z.is_nonneg _) Hh).
    inversion P; subst. rewrite (items_back Hb); [reflexivity| |lia]. intros w Hw. split; [auto|]. intros b' H' P'. now apply IH.
  - intros l IH b H P f rest Hf. rewrite mp_map in H. apply bind_ok in H as (h & Hh & H). apply bind_ok in H as (bs & Hb & H). injection H as <-.
    assert (L := map_head_len Hh). rewrite app_length in Hf. destruct f; [lia|]. rewrite <- app_assoc. rewrite (get_map_head f (bs ++ rest) (Nat2Z.is_nonneg _) Hh).
    inversion P; subst. rewrite (pairs_back (acc := []) Hb); [reflexivity| |assumption|lia]. intros k w Hw. split; [eauto|]. intros b' H' P'. now apply (IH k).
  - discriminate. - discriminate. - discriminate.
Qed.
Theorem unpackb_back : forall w b, mp_pack w = Ok b -> proper_w w -> unpackb b = Some w.
Proof.
  intros w b H P. unfold unpackb. assert (E := all_back H P (f := (2 * List.length b + 2)%nat) []). rewrite app_nil_r in E. now rewrite E by lia.
Qed.

(** ** What can be packed *)
Lemma bind_err : forall A B (x : res A) (f : A -> res B) e, x = Err e -> bind x f = Err e.
Proof. intros A B x f e ->. reflexivity. Qed.
Lemma str_packs : forall s, (exists b, mp_str s = Ok b) <-> Z.of_nat (String.length s) < 2 ^ 32.
Proof.
  intros s. unfold mp_str, mp_str_head. set (n := Z.of_nat _). split.
  - intros [b H]. apply bind_ok in H as (h & Hh & _).
    destruct (n <? 32) eqn:E1; [lia|]. destruct (n <? 2 ^ 8) eqn:E2; [lia|]. destruct (n <? 2 ^ 16) eqn:E3; [lia|]. destruct (n <? 2 ^ 32) eqn:E4; [lia|discriminate].
  - intros H. apply Z.ltb_lt in H. rewrite H. destruct (n <? 32), (n <? 2 ^ 8), (n <? 2 ^ 16); cbn; eauto.
Qed.
Lemma bin_packs : forall n, (exists b, mp_bin_head n = Ok b) <-> n < 2 ^ 32.
Proof.
  intros n. unfold mp_bin_head. split.
  - intros [b Hh]. destruct (n <? 2 ^ 8) eqn:E2; [lia|]. destruct (n <? 2 ^ 16) eqn:E3; [lia|]. destruct (n <? 2 ^ 32) eqn:E4; [lia|discriminate].
  - intros H. apply Z.ltb_lt in H. rewrite H. destruct (n <? 2 ^ 8), (n <? 2 ^ 16); eauto.
Qed.
Lemma array_packs : forall n, (exists b, mp_array_head n = Ok b) <-> n < 2 ^ 32.
Proof.
  intros n. unfold mp_array_head. split.
  - intros [b Hh]. destruct (n <? 16) eqn:E2; [lia|]. destruct (n <? 2 ^ 16) eqn:E3; [lia|]. destruct (n <? 2 ^ 32) eqn:E4; [lia|discriminate].
  - intros H. apply Z.ltb_lt in H. rewrite H. destruct (n <? 16), (n <? 2 ^ 16); eauto.
Qed.
Lemma map_packs : forall n, (exists b, mp_map_head n = Ok b) <-> n < 2 ^ 32.
Proof.
  intros n. unfold mp_map_head. split.
  - intros [b Hh]. destruct (n <? 16) eqn:E2; [lia|]. destruct (n <? 2 ^ 16) eqn:E3; [lia|]. destruct (n <? 2 ^ 32) eqn:E4; [lia|discriminate].
  - intros H. apply Z.ltb_lt in H. rewrite H. destruct (n <? 16), (n <? 2 ^ 16); eauto.
Qed.
Lemma items_pack : forall l, (exists b, pack_items l = Ok b) <-> forall w, In w l -> exists b, mp_pack w = Ok b.
Proof.
  induction l as [|w l IH]; split.
  - intros _ w [].
  - intros _. now exists [].
  - intros [b H]. cbn in H. apply bind_ok in H as (b1 & H1 & H). apply bind_ok in H as (b2 & H2 & _). intros w' [<-|Hw]; [eauto|]. apply (proj1 IH); eauto.
  - intros H. destruct (H w (or_introl eq_refl)) as [b1 H1]. destruct (proj2 IH) as [b2 H2]; [intros w' Hw; apply H; now right|]. cbn. rewrite H1, H2. cbn. eauto.
Qed.
Lemma pairs_pack : forall d, (exists b, pack_pairs d = Ok b) <-> forall k w, In (k, w) d -> Z.of_nat (String.length k) < 2 ^ 32 /\ exists b, mp_pack w = Ok b.
Proof.
  induction d as [|[k w] d IH]; split.
  - intros _ k w [].
  - intros _. now exists [].
  - intros [b H]. cbn [pack_pairs] in H. apply bind_ok in H as (b0 & H0 & H). apply bind_ok in H as (b1 & H1 & H). apply bind_ok in H as (b2 & H2 & _).
    intros k' w' [E|Hw]; [injection E as <- <-; split; [apply str_packs|]; eauto|]. apply (proj1 IH); eauto.
  - intros H. destruct (H k w (or_introl eq_refl)) as [Hk [b1 H1]]. destruct (proj2 IH) as [b2 H2]; [intros k' w' Hw; apply H; now right|].
    apply str_packs in Hk as [b0 H0]. cbn [pack_pairs]. rewrite H0, H1, H2. cbn. eauto.
Qed.
Theorem packs_iff : forall w, (exists b, mp_pack w = Ok b) <-> small_w w.
Proof.
  apply wval_ind2.
  - split; [intros; constructor|intros; cbn; eauto].
  - split; [intros; constructor|intros; cbn; eauto].
  - split; [intros; constructor|intros; cbn; eauto].
  - split; [intros; constructor|intros; cbn; eauto].
  - intros s. split; [intros H; constructor; now apply str_packs|]. intros H. inversion H; subst. now apply str_packs.
  - intros l. split.
    + intros [b H]. cbn in H. apply bind_ok in H as (h & Hh & _). constructor. apply bin_packs. eauto.
    + intros H. inversion H as [| | | | |? L| |]; subst. apply bin_packs in L as [h Hh]. cbn. rewrite Hh. cbn. eauto.
  - intros l IH. rewrite mp_array. split.
    + intros [b H]. apply bind_ok in H as (h & Hh & H). apply bind_ok in H as (bs & Hb & _). constructor; [apply array_packs; eauto|].
      intros w Hw. apply IH; [exact Hw|]. apply (proj1 (items_pack l)); eauto.
    + intros H. inversion H as [| | | | | |? L X|]; subst. apply array_packs in L as [h Hh]. destruct (proj2 (items_pack l)) as [b Hb].
      { intros w Hw. apply (IH w Hw). auto. } rewrite Hh, Hb. cbn. eauto.
  - intros d IH. rewrite mp_map. split.
    + intros [b H]. apply bind_ok in H as (h & Hh & H). apply bind_ok in H as (bs & Hb & _). constructor; [apply map_packs; eauto|].
      intros k w Hw. destruct (proj1 (pairs_pack d) (ex_intro _ bs Hb) k w Hw) as [A B]. split; [exact A|]. now apply (IH k w Hw).
    + intros H. inversion H as [| | | | | | |? L X]; subst. apply map_packs in L as [h Hh]. destruct (proj2 (pairs_pack d)) as [b Hb].
      { intros k w Hw. destruct (X k w Hw) as [A B]. split; [exact A|]. now apply (IH k w Hw). } rewrite Hh, Hb. cbn. eauto.
  - intros n. split; [intros [b H]; discriminate|intros H; inversion H].
  - intros n. split; [intros [b H]; discriminate|intros H; inversion H].
  - intros t s n. split; [intros [b H]; discriminate|intros H; inversion H].
Qed.

(** ** Bytes *)
Lemma head_bytes : forall n h, 0 <= n -> mp_array_head n = Ok h \/ mp_map_head n = Ok h \/ mp_str_head n = Ok h \/ mp_bin_head n = Ok h -> Forall byte h.
Proof.
  intros n h N H. unfold mp_array_head, mp_map_head, mp_str_head, mp_bin_head in H.
  assert (C : forall b l, byte b -> Forall byte l -> Forall byte (b :: l)) by (intros; now constructor).
  destruct H as [H|[H|[H|H]]];
    repeat match type of H with (if ?b then _ else _) = _ => destruct b eqn:?E end; try discriminate; apply Ok_inj in H; subst h;
    apply C; try apply be_byte; try constructor; unfold byte; lia.
Qed.
Theorem pack_bytes : forall w b, mp_pack w = Ok b -> proper_w w -> Forall byte b.
Proof.
  refine (wval_ind2 _ _ _ _ _ _ _ _ _ _ _).
  - intros b H _. injection H as <-. repeat constructor; unfold byte; lia.
  - intros b o H _. injection H as <-. repeat constructor; destruct b; unfold byte; lia.
  - intros z o H P. apply Ok_inj in H; subst o. inversion P; subst. unfold mp_int.
    repeat match goal with |- context[if ?b then _ else _] => destruct b eqn:?E end; repeat (constructor; try apply be_byte); unfold byte; try lia;
      try (apply Z.mod_pos_bound; lia).
  - intros z o H P. apply Ok_inj in H; subst o. constructor; [unfold byte; lia|apply be_byte].
  - intros s b H _. cbn in H. unfold mp_str in H. apply bind_ok in H as (h & Hh & H). injection H as <-. apply Forall_app. split; [|apply utf8_byte].
    apply head_bytes with (n := Z.of_nat (String.length s)); [lia|auto].
  - intros l b H P. cbn in H. apply bind_ok in H as (h & Hh & H). injection H as <-. inversion P; subst. apply Forall_app. split; [|assumption].
    apply head_bytes with (n := Z.of_nat (List.length l)); [lia|auto].
  - intros l IH b H P. rewrite mp_array in H. apply bind_ok in H as (h & Hh & H). apply bind_ok in H as (bs & Hb & H). injection H as <-. inversion P; subst.
    apply Forall_app. split; [apply head_bytes with (n := Z.of_nat (List.length l)); [lia|auto]|]. clear P Hh. revert bs Hb.
    induction l as [|w l IHl]; intros bs Hb; [injection Hb as <-; constructor|]. cbn in Hb. apply bind_ok in Hb as (b1 & H1 & Hb). apply bind_ok in Hb as (b2 & H2 & Hb). injection Hb as <-.
    apply Forall_app. split; [apply (IH w); [now left|exact H1|]; match goal with X : forall w, In w (_ :: _) -> _ |- _ => apply X; now left end|].
    apply IHl; [|  |exact H2]; intros; [eapply IH; eauto; now right|]. match goal with X : forall w, In w (_ :: _) -> _ |- _ => apply X; now right end.
  - intros l IH b H P. rewrite mp_map in H. apply bind_ok in H as (h & Hh & H). apply bind_ok in H as (bs & Hb & H). injection H as <-. inversion P as [| | | | | | |? ND X]; subst.
    apply Forall_app. split; [apply head_bytes with (n := Z.of_nat (List.length l)); [lia|auto]|]. clear P Hh ND. revert bs Hb.
    induction l as [|[k w] l IHl]; intros bs Hb; [injection Hb as <-; constructor|]. cbn [pack_pairs] in Hb. apply bind_ok in Hb as (b0 & H0 & Hb). apply bind_ok in Hb as (b1 & H1 & Hb). apply bind_ok in Hb as (b2 & H2 & Hb). injection Hb as <-.
    apply Forall_app. split.
    { unfold mp_str in H0. apply bind_ok in H0 as (h0 & Hh0 & H0). injection H0 as <-. apply Forall_app. split; [|apply utf8_byte]. apply head_bytes with (n := Z.of_nat (String.length k)); [lia|auto]. }
    apply Forall_app. split; [apply (IH k w); [now left|exact H1|]; apply (X k); now left|].
    apply IHl; [intros k' w' Hw'; apply (IH k'); now right|intros k' w' Hw'; apply (X k'); now right|exact H2].
  - discriminate. - discriminate. - discriminate.
Qed.

Theorem pack_error : forall w e, mp_pack w = Err e -> proper_w w -> e = EValueError.
Proof.
  assert (S : forall s e, mp_str s = Err e -> e = EValueError).
  { intros s e H. unfold mp_str, mp_str_head in H. repeat match type of H with context[if ?b then _ else _] => destruct b end; cbn in H; congruence. }
  refine (wval_ind2 _ _ _ _ _ _ _ _ _ _ _); try discriminate.
  - intros s e H _. exact (S s e H).
  - intros l e H _. cbn in H. unfold mp_bin_head in H. repeat match type of H with context[if ?b then _ else _] => destruct b end; cbn in H; congruence.
  - intros l IH e H P. rewrite mp_array in H. inversion P as [| | | | | |? X|]; subst. clear P. destruct (mp_array_head _) as [h|e'] eqn:Eh; cbn in H.
    + destruct (pack_items l) as [b|e'] eqn:Ei; cbn in H; [discriminate|]. assert (e' = e) by congruence. subst e'. clear H Eh.
      induction l as [|w l IHl]; [discriminate|]. cbn in Ei. destruct (mp_pack w) as [b1|e1] eqn:E1; cbn in Ei.
      * destruct (pack_items l) as [b2|e2]; cbn in Ei; [discriminate|]. apply IHl; first [congruence|intros w' Hw'; apply IH; now right|intros w' Hw'; apply X; now right].
      * apply (IH w (or_introl eq_refl) e); [congruence|apply X; now left].
    + unfold mp_array_head in Eh. repeat match type of Eh with context[if ?b then _ else _] => destruct b end; congruence.
  - intros l IH e H P. rewrite mp_map in H. inversion P as [| | | | | | |? ND X]; subst. clear P ND. destruct (mp_map_head _) as [h|e'] eqn:Eh; cbn in H.
    + destruct (pack_pairs l) as [b|e'] eqn:Ei; cbn in H; [discriminate|]. assert (e' = e) by congruence. subst e'. clear H Eh.
      induction l as [|[k w] l IHl]; [discriminate|]. cbn [pack_pairs] in Ei. destruct (mp_str k) as [b0|e0] eqn:E0; cbn in Ei; [|apply (S k); congruence].
      destruct (mp_pack w) as [b1|e1] eqn:E1; cbn in Ei.
      * destruct (pack_pairs l) as [b2|e2]; cbn in Ei; [discriminate|]. apply IHl; first [congruence|intros k' w' Hw'; apply (IH k'); now right|intros k' w' Hw'; apply (X k'); now right].
      * apply (IH k w (or_introl eq_refl) e); [congruence|apply (X k); now left].
    + unfold mp_map_head in Eh. repeat match type of Eh with context[if ?b then _ else _] => destruct b end; congruence.
  - intros n e _ H. inversion H.
  - intros n e _ H. inversion H.
  - intros t s n e _ H. inversion H.
Qed.
