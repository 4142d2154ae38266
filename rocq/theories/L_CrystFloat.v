(** Lemmas on rounding errors with CrystFEL geometry files: numbers. *)

From Coq Require Import QArith Qabs Lqa.
From Verif Require Import Base PyStr M_Geom M_GeomFloat M_Crystfel M_CrystFloat S_Geom S_GeomFloat S_CrystFloat L_GeomFloat L_GeomFloat2 L_GeomFloat3 L_GeomFloat6.

Set Implicit Arguments.
Unset Strict Implicit.
Local Open Scope Z_scope.
Local Open Scope list_scope.

Ltac ev := change (10 ^ 14)%positive with 100000000000000%positive in *; change (10 ^ 15)%positive with 1000000000000000%positive in *; change (10 ^ 16)%positive with 10000000000000000%positive in *; change (10 ^ 17)%positive with 100000000000000000%positive in *; change (10 ^ 24)%positive with 1000000000000000000000000%positive in *; change (10 ^ 30)%positive with 1000000000000000000000000000000%positive in *.
Ltac lr := ev; lra.
Ltac nr := ev; nra.

Definition qrel (x' x : Q) : Prop := (Qabs (x' - x) <= (1 # 10 ^ 15) * Qabs x + (1 # 10 ^ 24))%Q.

Lemma qrel_refl : forall x, qrel x x.
Proof.
  intros x. unfold qrel. setoid_replace (x - x)%Q with 0%Q by ring. pose proof (Qabs_nonneg x). change (Qabs 0) with 0%Q.
  assert (0 < 1 # 10 ^ 15)%Q by reflexivity. assert (0 < 1 # 10 ^ 24)%Q by reflexivity. nr.
Qed.
Lemma qrel_ext : forall x' x y' y, (x' == y')%Q -> (x == y)%Q -> qrel x' x -> qrel y' y.
Proof. intros x' x y' y H K. unfold qrel. rewrite H, K. auto. Qed.

Lemma id64 : float64 (fun q => q).
Proof.
  intros q _. setoid_replace (q - q)%Q with 0%Q by ring. pose proof (Qabs_nonneg q). change (Qabs 0) with 0%Q.
  assert (A : (0 < 1 # 2 ^ 53)%Q) by reflexivity. assert (B : (0 < 1 # 2 ^ 1075)%Q) by reflexivity.
  generalize dependent (1 # 2 ^ 53)%Q. generalize dependent (1 # 2 ^ 1075)%Q. intros. nr.
Qed.

Lemma abs_mult_pos : forall a b, (0 < b)%Q -> (Qabs (a * b) == Qabs a * b)%Q.
Proof. intros a b H. rewrite Qabs_Qmult, (Qabs_pos b) by lr. reflexivity. Qed.

Section Fl.
Variable fl : Q -> Q.
Hypothesis F : float64 fl.

(** A number of the file, rounded. *)
Lemma read_error : forall x' x, qrel x' x -> (Qabs x <= 10 ^ 12)%Q -> (Qabs (fl x' - x) <= (13 # 10 ^ 16) * Qabs x + (2 # 10 ^ 24))%Q.
Proof.
  intros x' x H B. unfold qrel in H. pose proof (Qabs_nonneg x) as N.
  assert (X : (Qabs x' <= Qabs x + ((1 # 10 ^ 15) * Qabs x + (1 # 10 ^ 24)))%Q).
  { setoid_replace x' with ((x' - x) + x)%Q at 1 by ring. eapply Qle_trans; [apply Qabs_triangle|]. lr. }
  assert (E : (Qabs (fl x' - x') <= U * Qabs x' + T)%Q).
  { apply (fl_error F). eapply Qle_trans; [exact X|]. assert (C1 : (10 ^ 12 + (10 ^ 12 + 1) <= 10 ^ 30)%Q) by num. assert (C2 : ((1 # 10 ^ 15) * Qabs x <= Qabs x)%Q) by lr. lr. }
  setoid_replace (fl x' - x)%Q with ((fl x' - x') + (x' - x))%Q by ring. eapply Qle_trans; [apply Qabs_triangle|].
  unfold U, T in E. lr.
Qed.

Lemma near_read : forall x' x r' r, qrel x' x -> qrel r' r -> (1 <= r)%Q -> (r <= inject_Z (10 ^ 9))%Q -> (Qabs (x / r) <= 20)%Q ->
  near (15 # 10 ^ 14) 40 (fdiv fl (fl x') (fl r')) (x / r).
Proof.
  intros x' x r' r Hx Hr R1 R2 B. assert (P : (0 < r)%Q) by lr. assert (P' : ~ (r == 0)%Q) by lr.
  assert (R3 : (r <= 1000000000 # 1)%Q) by exact R2. clear R2.
  assert (I : (0 < / r)%Q) by (apply Qinv_lt_0_compat; exact P).
  assert (I1 : (r * / r == 1)%Q) by (field; exact P').
  assert (I2 : (/ r <= 1)%Q) by nr.
  assert (AX : (Qabs x == Qabs (x / r) * r)%Q).
  { rewrite <- abs_mult_pos by exact P. apply Qabs_wd. field. exact P'. }
  pose proof (Qabs_nonneg (x / r)) as NV. set (v := Qabs (x / r)) in *.
  assert (BX : (Qabs x <= 10 ^ 12)%Q).
  { rewrite AX. change (10 ^ 12)%Q with (1000000000000#1)%Q. nr. }
  assert (AR : (Qabs r == r)%Q) by (apply Qabs_pos; lr).
  assert (BR : (Qabs r <= 10 ^ 12)%Q).
  { rewrite AR. change (10 ^ 12)%Q with (1000000000000#1)%Q. lr. }
  pose proof (read_error Hx BX) as EX. pose proof (read_error Hr BR) as ER. rewrite AX in EX. rewrite AR in ER.
  assert (NX : near (27 # 10 ^ 15) 20 (fl x' / r) (x / r)).
  { split; [|exact B]. setoid_replace (fl x' / r - x / r)%Q with ((fl x' - x) * / r)%Q by (field; exact P').
    rewrite abs_mult_pos by exact I. eapply Qle_trans; [apply Qmult_le_compat_r; [exact EX|lr]|].
    setoid_replace (((13 # 10 ^ 16) * (v * r) + (2 # 10 ^ 24)) * / r)%Q with ((13 # 10 ^ 16) * v + (2 # 10 ^ 24) * / r)%Q by (field; exact P'). lr. }
  assert (NR : (Qabs (fl r' / r - 1) <= 14 # 10 ^ 16)%Q).
  { setoid_replace (fl r' / r - 1)%Q with ((fl r' - r) * / r)%Q by (field; exact P').
    rewrite abs_mult_pos by exact I. eapply Qle_trans; [apply Qmult_le_compat_r; [exact ER|lr]|].
    setoid_replace (((13 # 10 ^ 16) * r + (2 # 10 ^ 24)) * / r)%Q with ((13 # 10 ^ 16) + (2 # 10 ^ 24) * / r)%Q by (field; exact P'). lr. }
  assert (PR : ~ (fl r' == 0)%Q).
  { intros Z. rewrite Z in NR. assert (E0 : (0 / r - 1 == -(1))%Q) by (field; exact P'). rewrite E0 in NR. vm_compute in NR. apply NR. reflexivity. }
  assert (D : near (12 # 10 ^ 14) 20 (fdiv (fun q => q) (fl x' / r) (fl r' / r)) (x / r / 1)).
  { eapply near_div with (ep := 14 # 10 ^ 16); [exact id64|exact NX|reflexivity|exact NR|num|num|num|num|num]. }
  assert (D' : near (12 # 10 ^ 14) 20 (fl x' / fl r') (x / r)).
  { eapply near_ext; [exact D|unfold fdiv; field; split; assumption|field; exact P']. }
  unfold fdiv. eapply near_weaken; [apply (near_fl F D'); num|num|num].
Qed.

(** A coordinate in pixels, as it is written. *)
Lemma write_error : forall d v, (Qabs v <= 20)%Q -> qrel (fdiv fl v (pixel_size_fl fl d)) (v / pixel_size d).
Proof.
  intros d v B. unfold qrel, fdiv.
  pose proof (fl_error F (q := pixel_size d)) as E. fold (pixel_size_fl fl d) in E.
  assert (E' : (Qabs (pixel_size_fl fl d - pixel_size d) <= (21 # 10 ^ 17) * pixel_size d)%Q).
  { eapply Qle_trans; [apply E; destruct d; num|]. destruct d; num. }
  clear E. assert (P : (0 < pixel_size d)%Q) by (destruct d; reflexivity). assert (PH : (1 # 10000 <= pixel_size d)%Q) by (destruct d; num).
  set (p := pixel_size d) in *. set (p' := pixel_size_fl fl d) in *. clearbody p p'. apply Qabs_Qle_condition in E'.
  assert (P' : (0 < p')%Q) by lr. assert (N : ~ (p == 0)%Q) by lr. assert (N' : ~ (p' == 0)%Q) by lr.
  set (w := (v / p)%Q). assert (Ew : (v / p' - w == w * ((p - p') * / p'))%Q) by (unfold w; field; split; assumption).
  assert (I : (0 < / p')%Q) by (apply Qinv_lt_0_compat; exact P'). assert (I1 : (p' * / p' == 1)%Q) by (field; exact N').
  assert (S : (Qabs ((p - p') * / p') <= 22 # 10 ^ 17)%Q).
  { apply Qabs_Qle_condition. assert (p * / p' <= 101 # 100)%Q by nr. split; nr. }
  assert (A : (Qabs (v / p' - w) <= (22 # 10 ^ 17) * Qabs w)%Q).
  { rewrite Ew, Qabs_Qmult, Qmult_comm. apply Qmult_le_compat_r; [exact S|apply Qabs_nonneg]. }
  pose proof (Qabs_nonneg w) as NW.
  assert (W : (Qabs w <= 200000)%Q).
  { assert (Q1 : (Qabs v == Qabs w * p)%Q) by (rewrite <- abs_mult_pos by exact P; apply Qabs_wd; unfold w; field; exact N). nr. }
  assert (X : (Qabs (v / p') <= Qabs w + (22 # 10 ^ 17) * Qabs w)%Q).
  { setoid_replace (v / p')%Q with ((v / p' - w) + w)%Q at 1 by ring. eapply Qle_trans; [apply Qabs_triangle|]. lr. }
  assert (K : (Qabs (fl (v / p') - v / p') <= U * Qabs (v / p') + T)%Q).
  { apply (fl_error F). eapply Qle_trans; [exact X|]. assert (C1 : (10 ^ 6 <= 10 ^ 30)%Q) by num. assert (C2 : (10 ^ 6 == 1000000)%Q) by reflexivity. lr. }
  setoid_replace (fl (v / p') - w)%Q with ((fl (v / p') - v / p') + (v / p' - w))%Q by ring. eapply Qle_trans; [apply Qabs_triangle|].
  unfold U, T in K. lr.
Qed.

Variables rs s3 : Q.
Hypothesis R : root_three rs s3.

Lemma in_px : forall d x y, near (15 # 10 ^ 14) 40 x y ->
  (Qabs (fdiv fl x (fst (px_shape_fl fl s3 d)) - y / fst (pixel_shape rs d)) <= E8)%Q /\
  (Qabs (fdiv fl x (snd (px_shape_fl fl s3 d)) - y / snd (pixel_shape rs d)) <= E8)%Q.
Proof.
  intros d x y N. destruct d.
  - apply (in_pixels F); [discriminate|exact N].
  - apply (in_pixels F); [discriminate|exact N].
  - split; [apply (in_pixels_x F); exact N|apply (in_pixels_y F R); exact N].
Qed.
End Fl.
