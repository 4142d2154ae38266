(** Lemmas about open_run. *)

From Verif Require Import Base L_Base PyStr M_Cxi S_Open M_Stacking S_Stacking L_Cxi7 L_Crystfel M_OpenRun S_OpenRun.

Set Implicit Arguments.
Unset Strict Implicit.
Local Open Scope string_scope.
Local Open Scope Z_scope.
Local Open Scope list_scope.

Lemma digit_range : forall c, is_digit c = true -> 0 <= digit_val c <= 9.
Proof.
  intros c. unfold is_digit, digit_val. rewrite andb_true_iff, !Nat.leb_le. intros [H1 H2].
  change (nat_of_ascii "0") with 48%nat in *. change (nat_of_ascii "9") with 57%nat in *. lia.
Qed.

Lemma digit_inj : forall c d, is_digit c = true -> is_digit d = true -> digit_val c = digit_val d -> c = d.
Proof.
  intros c d. unfold is_digit, digit_val. rewrite !andb_true_iff, !Nat.leb_le. intros [H1 H2] [H3 H4] E.
  change (nat_of_ascii "0") with 48%nat in *. rewrite <- (ascii_nat_embedding c), <- (ascii_nat_embedding d). f_equal. lia.
Qed.

Lemma decimal_bound : forall s, all_digits s -> 0 <= decimal s < 10 ^ Z.of_nat (String.length s).
Proof.
  induction s as [|c s IH]; intros H; [cbn; lia|]. destruct H as [Hc Hs]. specialize (IH Hs). pose proof (digit_range Hc).
  change (decimal (String c s)) with (digit_val c * 10 ^ Z.of_nat (String.length s) + decimal s).
  change (String.length (String c s)) with (S (String.length s)). rewrite Nat2Z.inj_succ, Z.pow_succ_r by lia.
  set (p := 10 ^ Z.of_nat (String.length s)) in *. nia.
Qed.

Lemma decimal_inj : forall s t, all_digits s -> all_digits t -> String.length s = String.length t -> decimal s = decimal t -> s = t.
Proof.
  induction s as [|c s IH]; intros [|d t] Hs Ht L E; try discriminate; [reflexivity|].
  destruct Hs as [Hc Hs], Ht as [Hd Ht]. injection L as L.
  change (decimal (String c s)) with (digit_val c * 10 ^ Z.of_nat (String.length s) + decimal s) in E.
  change (decimal (String d t)) with (digit_val d * 10 ^ Z.of_nat (String.length t) + decimal t) in E.
  rewrite <- L in E. pose proof (decimal_bound Hs) as B1. pose proof (decimal_bound Ht) as B2. rewrite <- L in B2.
  set (p := 10 ^ Z.of_nat (String.length s)) in *.
  assert (X : digit_val c = digit_val d) by nia. f_equal; [apply digit_inj; assumption|]. apply IH; auto. rewrite X in E. lia.
Qed.

Lemma zeros_numeral : forall k s, all_digits s -> all_digits (str_repeat "0" k ++ s)%string /\ decimal (str_repeat "0" k ++ s)%string = decimal s /\
  String.length (str_repeat "0" k ++ s)%string = (k + String.length s)%nat.
Proof.
  induction k as [|k IH]; intros s H; [auto|]. destruct (IH s H) as (A & B & C).
  change ((str_repeat "0" (S k) ++ s)%string) with (String "0" (str_repeat "0" k ++ s)).
  split; [split; [reflexivity|exact A]|]. split; [|cbn [String.length]; rewrite C; reflexivity].
  change (decimal (String "0" (str_repeat "0" k ++ s))) with (0 * 10 ^ Z.of_nat (String.length (str_repeat "0" k ++ s)) + decimal (str_repeat "0" k ++ s)).
  rewrite B. lia.
Qed.

(** The numeral printed by str() is the shortest one. *)
Lemma no_zero_min : forall s t, all_digits s -> all_digits t -> no_zero_first s -> decimal s = decimal t -> (String.length s <= String.length t)%nat.
Proof.
  intros s t Hs Ht N E. destruct s as [|c s]; [cbn; lia|]. destruct Hs as [Hc Hs].
  assert (D : 1 <= digit_val c).
  { pose proof (digit_range Hc). assert (digit_val c <> 0); [|lia]. intros Z0. apply (N s). f_equal. apply digit_inj; auto. }
  pose proof (decimal_bound Hs) as B. pose proof (decimal_bound Ht) as B2.
  change (decimal (String c s)) with (digit_val c * 10 ^ Z.of_nat (String.length s) + decimal s) in E.
  assert (P : 10 ^ Z.of_nat (String.length s) < 10 ^ Z.of_nat (String.length t)) by nia.
  apply Z.pow_lt_mono_r_iff in P; [|lia|lia]. cbn [String.length]. lia.
Qed.

Lemma digit_char_spec : forall z, 0 <= z <= 9 -> is_digit (digit_char z) = true /\ digit_val (digit_char z) = z.
Proof.
  intros z H. assert (C : z = 0 \/ z = 1 \/ z = 2 \/ z = 3 \/ z = 4 \/ z = 5 \/ z = 6 \/ z = 7 \/ z = 8 \/ z = 9) by lia.
  repeat destruct C as [-> |C]; try (split; reflexivity). subst. split; reflexivity.
Qed.

Lemma digits_of_first : forall fuel z acc, 0 < z < 2 ^ Z.of_nat fuel -> no_zero_first (digits_of fuel z acc).
Proof.
  induction fuel as [|fuel IH]; intros z acc H; [cbn in H; lia|]. cbn [digits_of].
  destruct (z <? 10) eqn:E; [|apply Z.ltb_ge in E].
  - apply Z.ltb_lt in E. intros r X. injection X as X _. destruct (@digit_char_spec z) as [_ D]; [lia|]. rewrite X in D. change (digit_val "0") with 0 in D. lia.
  - apply IH. split; [apply Z.div_str_pos; lia|]. apply Z.div_lt_upper_bound; [lia|].
    rewrite Nat2Z.inj_succ, Z.pow_succ_r in H by lia. destruct H as [H1 H2]. nia.
Qed.

Lemma str_of_int_first : forall z, 0 < z -> no_zero_first (str_of_int z).
Proof.
  intros z H. unfold str_of_int. apply digits_of_first. split; [exact H|].
  rewrite Nat2Z.inj_succ, Z2Nat.id by apply Z.log2_nonneg. apply Z.log2_spec. exact H.
Qed.

Lemma str_of_int_numeral : forall z, 0 <= z -> numeral (str_of_int z) z.
Proof. intros z H. destruct (str_of_int_spec H) as (A & B & C). repeat split; assumption. Qed.

Lemma str_of_int_short : forall z s, 0 <= z -> numeral s z -> (String.length (str_of_int z) <= String.length s)%nat.
Proof.
  intros z s H (N & A & D). destruct (Z.eq_dec z 0) as [->|Hz].
  - change (str_of_int 0) with "0". destruct s; [congruence|cbn; lia].
  - destruct (str_of_int_numeral H) as (_ & A' & D'). apply no_zero_min; auto; [|congruence]. apply str_of_int_first. lia.
Qed.

Lemma rjust_spec : forall w s n, numeral s n -> ((String.length s <= w)%nat \/ no_zero_first s) -> padded w (py_rjust s w "0") n.
Proof.
  intros w s n (N & A & D) H. unfold py_rjust. destruct (zeros_numeral (w - String.length s) A) as (A' & D' & L').
  unfold padded, numeral. rewrite L'. repeat split; auto; try lia.
  - intros X. rewrite X in L'. cbn in L'. destruct s; [congruence|cbn in L'; lia].
  - destruct (Nat.le_gt_cases (String.length s) w) as [C|C]; [left; lia|]. right.
    replace (w - String.length s)%nat with 0%nat by lia. cbn. destruct H; [lia|assumption].
Qed.

Lemma padded_fun : forall w s t n, padded w s n -> padded w t n -> s = t.
Proof.
  intros w s t n ((N1 & A1 & D1) & L1 & C1) ((N2 & A2 & D2) & L2 & C2). apply decimal_inj; auto; [|congruence].
  assert (no_zero_first s -> (String.length s <= String.length t)%nat) by (intros; apply no_zero_min; auto; congruence).
  assert (no_zero_first t -> (String.length t <= String.length s)%nat) by (intros; apply no_zero_min; auto; congruence).
  destruct C1, C2; lia.
Qed.

Lemma format_padded : forall w n, 0 <= n -> (1 <= w)%nat -> padded w (format_0d w n) n.
Proof.
  intros w n H W. unfold format_0d. destruct (n <? 0) eqn:E; [apply Z.ltb_lt in E; lia|]. apply rjust_spec; [apply str_of_int_numeral; exact H|].
  destruct (Z.eq_dec n 0) as [->|Hn]; [left; cbn; lia|right; apply str_of_int_first; lia].
Qed.

Lemma char_in_iff : forall c s, char_in c s = true <-> has_char c s.
Proof.
  induction s as [|x s IH]; cbn; [split; [discriminate|tauto]|]. destruct (Ascii.eqb_spec x c) as [->|N]; cbn; [tauto|].
  rewrite IH. split; [auto|intros [X|X]; [congruence|exact X]].
Qed.

Lemma digits_has : forall c s, all_digits s -> is_digit c = false -> char_in c s = false.
Proof.
  intros c s A D. destruct (char_in c s) eqn:E; [|reflexivity]. apply char_in_iff in E. apply (digits_char A) in E. congruence.
Qed.

Lemma digits_first : forall c s, all_digits s -> is_digit c = false -> starts_with (String c "") s = false.
Proof.
  intros c [|x s] A D; [reflexivity|]. destruct A as [A _]. cbn. destruct (Ascii.eqb_spec c x) as [->|N]; [congruence|reflexivity].
Qed.

Lemma proposal_name : forall n a, 0 <= n -> stands_for "p" 6 n a -> exists s, padded 6 s n /\ proposal_arg a = String "p" s.
Proof.
  intros n a H S. destruct S as [|s Hs C|s Hs]; cbn [proposal_arg].
  - exists (format_0d 6 n). split; [apply format_padded; lia|reflexivity].
  - pose proof Hs as (_ & A & _). rewrite (digits_has A) by reflexivity. rewrite (digits_first A) by reflexivity. cbn [negb andb].
    exists (py_rjust s 6 "0"). split; [apply rjust_spec; assumption|reflexivity].
  - exists s. split; [exact Hs|]. cbn [starts_with]. rewrite andb_false_r. reflexivity.
Qed.

Lemma run_name : forall n a, 0 <= n -> stands_for "r" 4 n a -> exists s, padded 4 s n /\ run_arg a = String "r" s.
Proof.
  intros n a H S. destruct S as [|s Hs C|s Hs]; cbn [run_arg].
  - exists (format_0d 4 n). split; [apply format_padded; lia|reflexivity].
  - pose proof Hs as (_ & A & _). rewrite (digits_first A) by reflexivity. cbn [negb].
    exists (py_rjust s 4 "0"). split; [apply rjust_spec; assumption|reflexivity].
  - exists s. split; [exact Hs|]. reflexivity.
Qed.

Lemma padded_inj : forall w s n m, padded w s n -> padded w s m -> n = m.
Proof. intros w s n m ((_ & _ & A) & _) ((_ & _ & B) & _). congruence. Qed.

(** The directory of a proposal number and a run number. *)
Lemma open_run_spec : forall glob n m p r data, 0 <= n -> 0 <= m -> stands_for "p" 6 n p -> stands_for "r" 4 m r ->
  exists ps rs, padded 6 ps n /\ padded 4 rs m /\
  open_run_path glob p r data =
    match glob ("/gpfs/exfel/exp/*/*/p" ++ ps)%string with
    | [] => Err EException
    | d :: _ => Ok (path_join (path_join d data) (String "r" rs))
    end.
Proof.
  intros glob n m p r data Hn Hm Sp Sr. destruct (proposal_name Hn Sp) as (ps & Pp & Ep). destruct (run_name Hm Sr) as (rs & Pr & Er).
  exists ps, rs. split; [exact Pp|]. split; [exact Pr|]. unfold open_run_path, find_proposal. rewrite Ep, Er.
  assert (C : char_in slash (String "p" ps) = false).
  { cbn. apply digits_has; [apply Pp|reflexivity]. }
  rewrite C. change (path_join DATA_ROOT_DIR ("*/*/" ++ String "p" ps)) with ("/gpfs/exfel/exp/*/*/p" ++ ps)%string.
  destruct (glob ("/gpfs/exfel/exp/*/*/p" ++ ps)%string); reflexivity.
Qed.
