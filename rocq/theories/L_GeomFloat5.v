(** Tiles whose corners are clear of the halves; the error of binary64. *)

From Coq Require Import QArith Qround Qabs Qpower Lqa.
From Verif Require Import Base L_Base M_Geom M_GeomFloat S_Geom S_GeomFloat L_Geom1 L_Geom2 L_Geom4 L_Geom6 L_GeomFloat L_GeomFloat2.

Set Implicit Arguments.
Unset Strict Implicit.

Local Open Scope Z_scope.
Local Open Scope list_scope.

Lemma clear_ext : forall e x y, (x == y)%Q -> clear_of_half e x -> clear_of_half e y.
Proof. intros e x y E C z. rewrite <- E. apply C. Qed.

(** [s] is a number of pixels. *)
Lemma step_clear : forall p s z, (0 < p)%Q -> (s == inject_Z z * p)%Q -> clear_of_half E8 (s / p).
Proof.
  intros p s z P E. apply whole_clear with z; [reflexivity|]. rewrite E. field. intros H. rewrite H in P. discriminate.
Qed.

Lemma tiles_clear : forall px g, (0 < fst px)%Q -> (0 < snd px)%Q -> corners_clear E8 px g ->
  (forall m t tl, tile_at g m t = Some tl -> exists a b c e,
     (vx (t_ss tl) == inject_Z a * fst px)%Q /\ (vy (t_ss tl) == inject_Z b * snd px)%Q /\
     (vx (t_fs tl) == inject_Z c * fst px)%Q /\ (vy (t_fs tl) == inject_Z e * snd px)%Q) ->
  forall md tl, In md g -> In tl md -> clear_tile px tl.
Proof.
  intros px g P1 P2 C S md tl Hm Hl. assert (I : In tl (List.concat g)) by (apply in_concat; eauto).
  apply in_tile_at in I as (m & t & Ht). destruct (C _ _ _ Ht) as [C1 C2]. destruct (S _ _ _ Ht) as (a & b & c & e & S1 & S2 & S3 & S4).
  split; [exact C1|]. split; [exact C2|].
  split; [exact (step_clear P1 S1)|]. split; [exact (step_clear P2 S2)|].
  split; [exact (step_clear P1 S3)|exact (step_clear P2 S4)].
Qed.

(** A test for being clear. *)
Definition clearb (e q : Q) : bool := negb (Qle_bool (Qabs (q - (inject_Z (Qfloor q) + (1 # 2)))) e).

Lemma clearb_ok : forall e q, (e < 1 # 2)%Q -> clearb e q = true -> clear_of_half e q.
Proof.
  intros e q E H z. unfold clearb in H. apply negb_true_iff in H.
  assert (N : (e < Qabs (q - (inject_Z (Qfloor q) + (1 # 2))))%Q).
  { apply Qnot_le_lt. intros L. apply Qle_bool_iff in L. congruence. }
  destruct (Z.eq_dec z (Qfloor q)) as [->|D]; [exact N|].
  pose proof (Qfloor_le q) as F1. pose proof (Qlt_floor q) as F2. rewrite inject_Z_plus in F2. change (inject_Z 1) with 1%Q in F2.
  set (f := Qfloor q) in *. destruct (Z.lt_ge_cases z f) as [L|L].
  - assert (X : (inject_Z z <= inject_Z f - 1)%Q).
    { assert (Y : (inject_Z z <= inject_Z (f - 1))%Q) by (rewrite <- Zle_Qle; lia). unfold Z.sub in Y. rewrite inject_Z_plus in Y. change (inject_Z (- (1))) with (- (1))%Q in Y. lra. }
    apply Qlt_le_trans with (1 # 2)%Q; [exact E|]. apply Qabs_case; intros; lra.
  - assert (X : (inject_Z f + 1 <= inject_Z z)%Q).
    { assert (Y : (inject_Z (f + 1) <= inject_Z z)%Q) by (rewrite <- Zle_Qle; lia). rewrite inject_Z_plus in Y. exact Y. }
    apply Qlt_le_trans with (1 # 2)%Q; [exact E|]. apply Qabs_case; intros; lra.
Qed.

Definition corners_clearb (e : Q) (px : Q * Q) (g : geometry) : bool :=
  forallb (fun tl => clearb e (vx (t_corner tl) / fst px) && clearb e (vy (t_corner tl) / snd px)) (List.concat g).

Lemma corners_clearb_ok : forall e px g, (e < 1 # 2)%Q -> corners_clearb e px g = true -> corners_clear e px g.
Proof.
  intros e px g E H m t tl Ht. apply canvas_tile in Ht. unfold corners_clearb in H. rewrite forallb_forall in H.
  specialize (H _ Ht). apply andb_true_iff in H as [H1 H2]. split; apply clearb_ok; assumption.
Qed.

(** ** The error of binary64 *)

Lemma two_pos : forall k, (0 < 2 ^ k)%Q.
Proof. intros k. apply Qpower_0_lt. reflexivity. Qed.

Lemma two_nat : forall k, 0 <= k -> (2 ^ k == inject_Z (2 ^ k))%Q.
Proof. intros k H. rewrite Zpower_Qpower by exact H. reflexivity. Qed.

Lemma two_plus : forall a b, (2 ^ (a + b) == 2 ^ a * 2 ^ b)%Q.
Proof. intros a b. apply Qpower_plus. discriminate. Qed.

Lemma exponent_le : forall q, ~ (q == 0)%Q -> (2 ^ exponent q <= Qabs q)%Q.
Proof.
  intros q N. unfold exponent. set (k := Z.log2 _ - Z.log2 _). destruct (Qle_bool (2 ^ k) (Qabs q)) eqn:E; [apply Qle_bool_iff; exact E|].
  destruct q as [n d]. cbn [Qnum Qden] in k. assert (Hn : n <> 0) by (intros ->; apply N; reflexivity).
  pose proof (Z.log2_spec (Z.abs n) ltac:(lia)) as [L1 _]. pose proof (Z.log2_spec (Zpos d) ltac:(lia)) as [_ L2].
  set (a := Z.log2 (Z.abs n)) in *. set (b := Z.log2 (Zpos d)) in *.
  assert (A : 0 <= a) by apply Z.log2_nonneg. assert (B : 0 <= b) by apply Z.log2_nonneg.
  assert (X : (2 ^ (k - 1) * inject_Z (2 ^ (b + 1)) == inject_Z (2 ^ a))%Q).
  { rewrite <- two_nat by lia. rewrite <- two_plus. rewrite <- two_nat by lia. replace (k - 1 + (b + 1)) with a by lia. reflexivity. }
  assert (Y : (Qabs (n # d) * inject_Z (Zpos d) == inject_Z (Z.abs n))%Q) by (unfold Qabs, Qeq, Qmult, inject_Z; cbn; lia).
  assert (Z1 : (inject_Z (2 ^ a) <= inject_Z (Z.abs n))%Q) by (rewrite <- Zle_Qle; exact L1).
  assert (Z2 : (inject_Z (Zpos d) <= inject_Z (2 ^ (b + 1)))%Q) by (rewrite <- Zle_Qle; lia).
  assert (Z3 : (0 < inject_Z (Zpos d))%Q) by reflexivity. pose proof (two_pos (k - 1)) as Z4.
  apply (Qmult_le_r _ _ (inject_Z (Zpos d)) Z3). rewrite Y. eapply Qle_trans; [|exact Z1]. rewrite <- X.
  rewrite (Qmult_comm (2 ^ (k - 1)) (inject_Z (Zpos d))), (Qmult_comm (2 ^ (k - 1)) (inject_Z (2 ^ (b + 1)))).
  apply Qmult_le_compat_r; [exact Z2|apply Qlt_le_weak; exact Z4].
Qed.

Lemma binary64_float64 : float64 binary64.
Proof.
  intros q _. unfold binary64. destruct (Qeq_bool q 0) eqn:E.
  - apply Qeq_bool_iff in E. assert (Y : (Qabs (0 - q) == 0)%Q) by (rewrite E; reflexivity). assert (Y2 : (Qabs q == 0)%Q) by (rewrite E; reflexivity).
    rewrite Y, Y2. rewrite Qmult_0_r, Qplus_0_l. discriminate.
  - assert (N : ~ (q == 0)%Q) by (intros H; apply Qeq_bool_iff in H; congruence). cbv zeta.
    pose proof (exponent_le N) as L. set (x := exponent q) in *. pose proof (two_pos (x - 52)) as P. set (u := (2 ^ (x - 52))%Q) in *.
    assert (U1 : (2 ^ x == u * inject_Z (2 ^ 52))%Q).
    { unfold u. rewrite <- two_nat by lia. rewrite <- two_plus. replace (x - 52 + 52) with x by lia. reflexivity. }
    pose proof (np_around_half_even (q / u)) as [H _]. unfold nearest in H. set (z := np_around (q / u)) in *. clearbody z u.
    assert (X : (inject_Z z * u - q == (inject_Z z - q / u) * u)%Q) by (field; intros K; rewrite K in P; discriminate).
    rewrite X, Qabs_Qmult, (Qabs_pos u) by (apply Qlt_le_weak; exact P). rewrite U1 in L.
    assert (H' : (Qabs (inject_Z z - q / u) <= 1 # 2)%Q) by (first [exact H|rewrite Qabs_Qminus; exact H]).
    assert (S : (Qabs (inject_Z z - q / u) * u <= (1 # 2) * u)%Q) by (apply Qmult_le_compat_r; [exact H'|apply Qlt_le_weak; exact P]).
    assert (W : ((1 # 2) * u <= (1 # 2 ^ 53) * Qabs q)%Q).
    { apply Qle_trans with ((1 # 2 ^ 53) * (u * inject_Z (2 ^ 52)))%Q.
      - assert (K : ((1 # 2 ^ 53) * (u * inject_Z (2 ^ 52)) == (1 # 2) * u)%Q).
        { rewrite (Qmult_comm u), Qmult_assoc. apply Qmult_comp; [reflexivity|reflexivity]. } rewrite K. apply Qle_refl.
      - rewrite (Qmult_comm (1 # 2 ^ 53) (u * _)), (Qmult_comm (1 # 2 ^ 53) (Qabs q)). apply Qmult_le_compat_r; [exact L|discriminate]. }
    apply Qle_trans with ((1 # 2 ^ 53) * Qabs q)%Q; [eapply Qle_trans; eassumption|].
    rewrite <- (Qplus_0_r ((1 # 2 ^ 53) * Qabs q)) at 1. apply Qplus_le_compat; [apply Qle_refl|discriminate].
Qed.
