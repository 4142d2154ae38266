(** Rounding errors of detector geometry. *)

From Coq Require Import QArith Qround Qabs Lqa Qpower.
From Verif Require Import Base L_Base M_Geom M_GeomFloat S_Geom S_GeomFloat L_Geom1 L_Geom2.

Set Implicit Arguments.
Unset Strict Implicit.

Local Open Scope Z_scope.
Local Open Scope list_scope.

(** ** Rounding to integers *)

Lemma around_near : forall e x y, (0 <= e)%Q -> (Qabs (x - y) <= e)%Q -> clear_of_half e y -> np_around x = np_around y.
Proof.
  intros e x y E H C. pose proof (np_around_half_even y) as [N _]. set (z := np_around y) in *.
  eapply half_even_unique; [apply np_around_half_even|]. unfold nearest in N. apply Qabs_Qle_condition in N. apply Qabs_Qle_condition in H.
  pose proof (C z) as C1. pose proof (C (z - 1)) as C2. unfold Z.sub in C2. rewrite inject_Z_plus in C2. change (inject_Z (-1)) with (-1)%Q in C2.
  change (inject_Z (- (1))) with (-1)%Q in C2.
  assert (D1 : (e < - (y - (inject_Z z + (1 # 2))))%Q).
  { eapply Qlt_le_trans; [exact C1|]. apply Qabs_case; intros; lra. }
  assert (D2 : (e < y - (inject_Z z + -1 + (1 # 2)))%Q).
  { eapply Qlt_le_trans; [exact C2|]. apply Qabs_case; intros; lra. }
  clear C1 C2.
  assert (L : (Qabs (x - inject_Z z) < 1 # 2)%Q) by (apply Qabs_case; intros; lra).
  split; [unfold nearest; lra|]. intros X. rewrite X in L. lra.
Qed.

Lemma whole_clear : forall e z q, (e < 1 # 2)%Q -> (q == inject_Z z)%Q -> clear_of_half e q.
Proof.
  intros e z q E H w. assert (X : (q - (inject_Z w + (1 # 2)) == inject_Z (z - w) - (1 # 2))%Q).
  { rewrite H. unfold Z.sub. rewrite inject_Z_plus, inject_Z_opp. ring. }
  rewrite X. destruct (Z.le_gt_cases (z - w) 0) as [L|L].
  - rewrite Zle_Qle in L. change (inject_Z 0) with 0%Q in L. rewrite Qabs_neg by lra. lra.
  - assert (L' : 1 <= z - w) by lia. rewrite Zle_Qle in L'. change (inject_Z 1) with 1%Q in L'. rewrite Qabs_pos by lra. lra.
Qed.

(** ** Errors *)

(** [x] is the computed number, [y] the exact one. *)
Definition near (e M x y : Q) : Prop := (Qabs (x - y) <= e /\ Qabs y <= M)%Q.

Lemma near_nonneg : forall e M x y, near e M x y -> (0 <= e /\ 0 <= M)%Q.
Proof. intros e M x y [A B]. pose proof (Qabs_nonneg (x - y)). pose proof (Qabs_nonneg y). split; lra. Qed.

Lemma near_exact : forall M y, (Qabs y <= M)%Q -> near 0 M y y.
Proof. intros M y H. split; [|exact H]. setoid_replace (y - y)%Q with 0%Q by ring. apply Qle_refl. Qed.

Lemma near_weaken : forall e M x y e' M', near e M x y -> (e <= e')%Q -> (M <= M')%Q -> near e' M' x y.
Proof. intros e M x y e' M' [A B] C D. split; lra. Qed.

Lemma near_ext : forall e M x x' y y', near e M x y -> (x == x')%Q -> (y == y')%Q -> near e M x' y'.
Proof. intros e M x x' y y' [A B] E1 E2. split; [rewrite <- E1, <- E2; exact A|rewrite <- E2; exact B]. Qed.

Definition U : Q := 2 # 10 ^ 16.
Definition T : Q := 1 # 10 ^ 30.

Section Fl.
Variable fl : Q -> Q.
Hypothesis F : float64 fl.

Lemma fl_error : forall q, (Qabs q <= 10 ^ 30)%Q -> (Qabs (fl q - q) <= U * Qabs q + T)%Q.
Proof.
  intros q H. assert (B : (Qabs q <= inject_Z (2 ^ 1000))%Q).
  { eapply Qle_trans; [exact H|]. vm_compute. discriminate. }
  pose proof (F B) as E. pose proof (Qabs_nonneg q) as N.
  assert (C1 : ((1 # 2 ^ 53) <= U)%Q) by (vm_compute; discriminate).
  assert (C2 : ((1 # 2 ^ 1075) <= T)%Q) by (vm_compute; discriminate).
  eapply Qle_trans; [exact E|]. apply Qplus_le_compat; [|exact C2]. apply Qmult_le_compat_r; assumption.
Qed.

Lemma near_fl : forall e M x y, near e M x y -> (M <= 10 ^ 29)%Q -> (e <= 10 ^ 29)%Q -> near (e + U * (e + M) + T) M (fl x) y.
Proof.
  intros e M x y [A B] HM He.
  assert (X : (Qabs x <= e + M)%Q).
  { setoid_replace x with ((x - y) + y)%Q by ring. eapply Qle_trans; [apply Qabs_triangle|]. lra. }
  split; [|exact B]. setoid_replace (fl x - y)%Q with ((fl x - x) + (x - y))%Q by ring.
  eapply Qle_trans; [apply Qabs_triangle|].
  assert (E : (Qabs (fl x - x) <= U * Qabs x + T)%Q).
  { apply fl_error. eapply Qle_trans; [exact X|]. assert (C : (10 ^ 29 + 10 ^ 29 <= 10 ^ 30)%Q) by (vm_compute; discriminate). lra. }
  assert (E2 : (U * Qabs x <= U * (e + M))%Q).
  { rewrite !(Qmult_comm U). apply Qmult_le_compat_r; [exact X|]. vm_compute. discriminate. }
  lra.
Qed.

Lemma near_add : forall e1 M1 x1 y1 e2 M2 x2 y2 e M, near e1 M1 x1 y1 -> near e2 M2 x2 y2 ->
  (M1 + M2 <= 10 ^ 29)%Q -> (e1 + e2 <= 10 ^ 29)%Q -> (e1 + e2 + U * (e1 + e2 + (M1 + M2)) + T <= e)%Q -> (M1 + M2 <= M)%Q ->
  near e M (fadd fl x1 x2) (y1 + y2).
Proof.
  intros e1 M1 x1 y1 e2 M2 x2 y2 e M [A1 B1] [A2 B2] HM He E1 E2. eapply near_weaken; [|exact E1|exact E2]. unfold fadd. apply near_fl; try assumption.
  split.
  - setoid_replace (x1 + x2 - (y1 + y2))%Q with ((x1 - y1) + (x2 - y2))%Q by ring. eapply Qle_trans; [apply Qabs_triangle|]. lra.
  - eapply Qle_trans; [apply Qabs_triangle|]. lra.
Qed.

Lemma near_opp : forall e M x y, near e M x y -> near e M (- x) (- y).
Proof.
  intros e M x y [A B]. split; [|rewrite Qabs_opp; exact B].
  setoid_replace (- x - - y)%Q with (- (x - y))%Q by ring. rewrite Qabs_opp. exact A.
Qed.

Lemma near_sub : forall e1 M1 x1 y1 e2 M2 x2 y2 e M, near e1 M1 x1 y1 -> near e2 M2 x2 y2 ->
  (M1 + M2 <= 10 ^ 29)%Q -> (e1 + e2 <= 10 ^ 29)%Q -> (e1 + e2 + U * (e1 + e2 + (M1 + M2)) + T <= e)%Q -> (M1 + M2 <= M)%Q ->
  near e M (fsub fl x1 x2) (y1 - y2).
Proof. intros. apply near_opp in H0. exact (near_add H H0 H1 H2 H3 H4). Qed.

Lemma near_mul : forall e1 M1 x1 y1 e2 M2 x2 y2 e M, near e1 M1 x1 y1 -> near e2 M2 x2 y2 ->
  let d := (e1 * M2 + e2 * M1 + e1 * e2)%Q in
  (M1 * M2 <= 10 ^ 29)%Q -> (d <= 10 ^ 29)%Q -> (d + U * (d + M1 * M2) + T <= e)%Q -> (M1 * M2 <= M)%Q ->
  near e M (fmul fl x1 x2) (y1 * y2).
Proof.
  intros e1 M1 x1 y1 e2 M2 x2 y2 e M N1 N2 d HM Hd E1 E2. eapply near_weaken; [|exact E1|exact E2]. unfold fmul. apply near_fl; try assumption.
  pose proof (near_nonneg N1) as [P1 P2]. pose proof (near_nonneg N2) as [P3 P4]. destruct N1 as [A1 B1], N2 as [A2 B2].
  assert (MM : forall a b p q, (Qabs a <= p -> Qabs b <= q -> 0 <= p -> Qabs (a * b) <= p * q)%Q).
  { intros a b p q Ha Hb Hp. rewrite Qabs_Qmult. apply Qle_trans with (p * Qabs b)%Q.
    - apply Qmult_le_compat_r; [exact Ha|apply Qabs_nonneg].
    - rewrite !(Qmult_comm p). apply Qmult_le_compat_r; assumption. }
  split; [|apply MM; assumption].
  setoid_replace (x1 * x2 - y1 * y2)%Q with ((x1 - y1) * y2 + (x2 - y2) * y1 + (x1 - y1) * (x2 - y2))%Q by ring.
  eapply Qle_trans; [apply Qabs_triangle|]. unfold d. apply Qplus_le_compat; [|apply MM; assumption].
  eapply Qle_trans; [apply Qabs_triangle|]. apply Qplus_le_compat; apply MM; assumption.
Qed.

(** Division by a number which is known to within a tenth. *)
Lemma near_div : forall e1 M1 x1 y1 ep p1 p e M, near e1 M1 x1 y1 -> (0 < p)%Q -> (Qabs (p1 - p) <= ep)%Q -> (ep <= (1 # 10) * p)%Q ->
  let d := ((e1 * p + M1 * ep) * (2 / (p * p)))%Q in
  (M1 / p <= 10 ^ 29)%Q -> (d <= 10 ^ 29)%Q -> (d + U * (d + M1 / p) + T <= e)%Q -> (M1 / p <= M)%Q ->
  near e M (fdiv fl x1 p1) (y1 / p).
Proof.
  intros e1 M1 x1 y1 ep p1 p e M N1 Pp Hp Hep d HM Hd E1 E2. eapply near_weaken; [|exact E1|exact E2]. unfold fdiv. apply near_fl; try assumption.
  pose proof (near_nonneg N1) as [P1 P2]. destruct N1 as [A1 B1].
  assert (Hp' := Hp). apply Qabs_Qle_condition in Hp'. assert (P1' : ((1 # 2) * p <= p1)%Q) by lra. assert (P1p : (0 < p1)%Q) by lra.
  split.
  - assert (X : (x1 / p1 - y1 / p == ((x1 - y1) * p - y1 * (p1 - p)) / (p1 * p))%Q) by (field; split; lra).
    rewrite X. unfold Qdiv. rewrite Qabs_Qmult.
    assert (I : (0 < / (p1 * p))%Q). { apply Qinv_lt_0_compat. apply Qmult_lt_0_compat; lra. }
    rewrite (Qabs_pos (/ (p1 * p))) by lra.
    assert (A : (Qabs ((x1 - y1) * p - y1 * (p1 - p)) <= e1 * p + M1 * ep)%Q).
    { eapply Qle_trans; [apply Qabs_triangle|]. rewrite Qabs_opp, !Qabs_Qmult, (Qabs_pos p) by lra. apply Qplus_le_compat.
      - apply Qmult_le_compat_r; lra.
      - apply Qle_trans with (M1 * Qabs (p1 - p))%Q; [apply Qmult_le_compat_r; [exact B1|apply Qabs_nonneg]|].
        rewrite !(Qmult_comm M1). apply Qmult_le_compat_r; assumption. }
    assert (B : (/ (p1 * p) <= 2 / (p * p))%Q).
    { apply Qle_shift_div_l; [apply Qmult_lt_0_compat; lra|].
      setoid_replace (/ (p1 * p) * (p * p))%Q with (p / p1)%Q by (field; split; lra).
      apply Qle_shift_div_r; [exact P1p|]. lra. }
    unfold d. apply Qle_trans with ((e1 * p + M1 * ep) * / (p1 * p))%Q; [apply Qmult_le_compat_r; [exact A|lra]|].
    rewrite !(Qmult_comm (e1 * p + M1 * ep)). apply Qmult_le_compat_r; [exact B|].
    assert (0 <= ep)%Q by (pose proof (Qabs_nonneg (p1 - p)); lra).
    apply Qle_trans with (0 + 0)%Q; [lra|]. apply Qplus_le_compat; apply Qmult_le_0_compat; lra.
  - unfold Qdiv. rewrite Qabs_Qmult. assert (I : (0 < / p)%Q) by (apply Qinv_lt_0_compat; exact Pp). rewrite (Qabs_pos (/ p)) by lra.
    apply Qmult_le_compat_r; lra.
Qed.

(** A position times the length of its unit, which is a number of the program text. *)
Lemma near_scale : forall q w M, (1 # 10 ^ 6 <= w)%Q -> (w <= 1)%Q -> (Qabs (q * w) <= M)%Q -> (M <= 1000)%Q ->
  near ((1 # 10 ^ 15) * M + (1 # 10 ^ 19)) M (fmul fl q (fl w)) (q * w).
Proof.
  intros q w M W1 W2 H HM. assert (W0 : (0 < w)%Q) by (assert (0 < 1 # 10 ^ 6)%Q by reflexivity; lra).
  assert (Q1 : (Qabs q * w <= M)%Q). { rewrite Qabs_Qmult in H. rewrite (Qabs_pos w) in H by lra. exact H. }
  assert (Q2 : (Qabs q * (1 # 10 ^ 6) <= M)%Q).
  { apply Qle_trans with (Qabs q * w)%Q; [|exact Q1]. rewrite !(Qmult_comm (Qabs q)). apply Qmult_le_compat_r; [exact W1|apply Qabs_nonneg]. }
  assert (M0 : (0 <= M)%Q) by (pose proof (Qabs_nonneg (q * w)); lra).
  assert (Q3 : (Qabs q <= 10 ^ 9)%Q).
  { change (10 ^ 9)%Q with (1000000000 # 1)%Q. change (10 ^ 6)%positive with 1000000%positive in *. lra. }
  assert (E : (Qabs (fl w - w) <= U * w + T)%Q).
  { pose proof (@fl_error w) as E. rewrite (Qabs_pos w) in E by lra. apply E. apply Qle_trans with 1%Q; [exact W2|vm_compute; discriminate]. }
  eapply near_weaken; [apply near_fl with (e := (U * M + (1 # 10 ^ 20))%Q) (M := M)| |apply Qle_refl].
  - split; [|exact H]. setoid_replace (q * fl w - q * w)%Q with (q * (fl w - w))%Q by ring. rewrite Qabs_Qmult.
    apply Qle_trans with (Qabs q * (U * w + T))%Q; [rewrite !(Qmult_comm (Qabs q)); apply Qmult_le_compat_r; [exact E|apply Qabs_nonneg]|].
    setoid_replace (Qabs q * (U * w + T))%Q with (U * (Qabs q * w) + T * Qabs q)%Q by ring.
    assert (X1 : (U * (Qabs q * w) <= U * M)%Q) by (rewrite !(Qmult_comm U); apply Qmult_le_compat_r; [exact Q1|vm_compute; discriminate]).
    assert (X2 : (T * Qabs q <= T * 10 ^ 9)%Q) by (rewrite !(Qmult_comm T); apply Qmult_le_compat_r; [exact Q3|vm_compute; discriminate]).
    assert (X3 : (T * 10 ^ 9 <= 1 # 10 ^ 20)%Q) by (vm_compute; discriminate). lra.
  - apply Qle_trans with 1000%Q; [exact HM|vm_compute; discriminate].
  - apply Qle_trans with 1000%Q; [|vm_compute; discriminate]. unfold U.
    change (10 ^ 16)%positive with 10000000000000000%positive. change (10 ^ 20)%positive with 100000000000000000000%positive. lra.
  - unfold U, T. change (10 ^ 16)%positive with 10000000000000000%positive. change (10 ^ 20)%positive with 100000000000000000000%positive.
    change (10 ^ 30)%positive with 1000000000000000000000000000000%positive. change (10 ^ 15)%positive with 1000000000000000%positive.
    change (10 ^ 19)%positive with 10000000000000000000%positive. lra.
Qed.

Lemma near_ps : forall d, (Qabs (pixel_size_fl fl d - pixel_size d) <= 2 # 10 ^ 19)%Q.
Proof.
  intros d. unfold pixel_size_fl. eapply Qle_trans; [apply fl_error; destruct d; vm_compute; discriminate|].
  destruct d; vm_compute; discriminate.
Qed.

Lemma near_px : forall d, (Qabs (fst (pixel_shape_fl fl d) - pixel_size d) <= 5 # 10 ^ 19)%Q.
Proof.
  intros d. cbn [pixel_shape_fl fst]. unfold fmul.
  assert (N : near (2 # 10 ^ 19) (1 # 1000) (1 * pixel_size_fl fl d) (pixel_size d)).
  { apply near_ext with (pixel_size_fl fl d) (pixel_size d); [split; [apply near_ps|destruct d; vm_compute; discriminate]|ring|ring]. }
  apply near_fl in N; try (vm_compute; discriminate). destruct N as [N _]. eapply Qle_trans; [exact N|]. vm_compute. discriminate.
Qed.
End Fl.
