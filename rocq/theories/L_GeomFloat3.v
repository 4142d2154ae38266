(** Rounding errors of the geometries made from quadrant positions. *)

From Coq Require Import QArith Qround Qabs Lqa.
From Verif Require Import Base L_Base M_Geom M_GeomFloat S_Geom S_GeomFloat L_Geom1 L_Geom2 L_GeomFloat L_GeomFloat2.

Set Implicit Arguments.
Unset Strict Implicit.

Local Open Scope Z_scope.
Local Open Scope list_scope.

Ltac num := vm_compute; discriminate.

Lemma Ok_eq : forall A (x y : A), Ok x = Ok y -> x = y.
Proof. intros A x y H. congruence. Qed.

Section Fl.
Variable fl : Q -> Q.
Hypothesis F : float64 fl.

Lemma in_pixels : forall rs d x y, d <> DSSC -> near (15 # 10 ^ 14) 40 x y ->
  (Qabs (fdiv fl x (fst (pixel_shape_fl fl d)) - y / fst (pixel_shape rs d)) <= E8)%Q /\
  (Qabs (fdiv fl x (snd (pixel_shape_fl fl d)) - y / snd (pixel_shape rs d)) <= E8)%Q.
Proof.
  intros rs d x y D N. change (snd (pixel_shape_fl fl d)) with (fst (pixel_shape_fl fl d)).
  assert (S : snd (pixel_shape rs d) = fst (pixel_shape rs d)) by (destruct d; [reflexivity|reflexivity|congruence]). rewrite S.
  assert (X : near E8 (10 ^ 9) (fdiv fl x (fst (pixel_shape_fl fl d))) (y / fst (pixel_shape rs d))).
  { destruct d; [| |congruence];
    (eapply near_div with (ep := 5 # 10 ^ 19); [exact F|exact N|reflexivity|apply (near_px F)| | | | |]; num). }
  destruct X as [X _]. split; exact X.
Qed.

Lemma near_int : forall z b, Z.abs z <= b -> near 0 (inject_Z b) (inject_Z z) (inject_Z z).
Proof. intros z b H. apply near_exact. rewrite Zle_Qle in H. exact H. Qed.

Lemma near_unit : forall z w, Z.abs z <= 1 -> (0 <= w)%Q -> (w <= 1)%Q -> near (1 # 10 ^ 14) 2 (fmul fl (inject_Z z) (fl w)) (w * inject_Z z).
Proof.
  intros z w H W0 W1. eapply near_ext; [|reflexivity|apply Qmult_comm].
  assert (E : (Qabs (fl w - w) <= 1 # 10 ^ 15)%Q).
  { eapply Qle_trans; [apply (fl_error F)|]; rewrite (Qabs_pos w W0).
    - apply Qle_trans with 1%Q; [exact W1|num].
    - unfold U, T. change (10 ^ 16)%positive with 10000000000000000%positive. change (10 ^ 30)%positive with 1000000000000000000000000000000%positive.
      change (10 ^ 15)%positive with 1000000000000000%positive. lra. }
  assert (N : near (1 # 10 ^ 15) 1 (fl w) w) by (split; [exact E|rewrite (Qabs_pos w W0); exact W1]).
  eapply near_mul; [exact F|exact (near_int H)|exact N| | | |]; num.
Qed.
End Fl.

Section Agipd.
Variable fl : Q -> Q.
Hypothesis F : float64 fl.
Let ps := pixel_size AGIPD.
Let psf := pixel_size_fl fl AGIPD.

(** A gap of up to 5000 pixels. *)
Lemma near_gap : forall gap z, (Qabs gap <= 5000)%Q -> 0 <= z <= 128 ->
  near (1 # 10 ^ 14) 2 (fmul fl (fadd fl (inject_Z z) (fdiv fl (fmul fl gap psf) psf)) psf) ((inject_Z z + gap * ps / ps) * ps).
Proof.
  intros gap z G Z.
  assert (N0 : near (11 # 10 ^ 16) 1 (fmul fl gap psf) (gap * ps)).
  { assert (X : (Qabs (gap * ps) <= 1)%Q).
    { rewrite Qabs_Qmult. change (Qabs ps) with (2 # 10000)%Q. lra. }
    eapply near_weaken; [apply (near_scale F) with (w := ps) (M := 1%Q)| |apply Qle_refl]; first [exact X|num]. }
  assert (N1 : near (3 # 10 ^ 11) 5000 (fdiv fl (fmul fl gap psf) psf) (gap * ps / ps)).
  { eapply near_div with (ep := 2 # 10 ^ 19); [exact F|exact N0|reflexivity|apply (near_ps F)| | | | |]; num. }
  assert (N2 : near (4 # 10 ^ 11) 5128 (fadd fl (inject_Z z) (fdiv fl (fmul fl gap psf) psf)) (inject_Z z + gap * ps / ps)).
  { eapply near_add; [exact F|apply (near_int (z := z) (b := 128)); lia|exact N1| | | |]; num. }
  assert (N3 : near (2 # 10 ^ 19) (2 # 10000) psf ps) by (split; [apply (near_ps F)|num]).
  eapply near_mul; [exact F|exact N2|exact N3| | | |]; num.
Qed.

Lemma agipd_close : forall rs quad_pos ag pg g,
  (forall q, In q quad_pos -> Qabs (fst q) <= 100000 /\ Qabs (snd q) <= 100000)%Q -> (Qabs ag <= 5000)%Q -> (Qabs pg <= 5000)%Q ->
  agipd_from_quad_positions quad_pos ag pg ps = Ok g ->
  exists g', agipd_from_quad_positions_fl fl quad_pos ag pg psf = Ok g' /\
    Forall2 (Forall2 (close fl (pixel_shape_fl fl AGIPD) (pixel_shape rs AGIPD))) g' g.
Proof.
  intros rs quad_pos ag pg g HQ HA HP E. eapply mapM_related; [exact E|]. clear E. intros p md Hp E. cbv beta zeta in E |- *.
  fold ps psf in E |- *.
  destruct (py_index quad_pos (p / 4)) as [qc|] eqn:E1; [|discriminate]. cbn [bind] in *.
  destruct (py_index [1; 1; -1; -1] (p / 4)) as [xo|] eqn:E2; [|discriminate]. cbn [bind] in *.
  destruct (py_index [-1; -1; 1; 1] (p / 4)) as [yo|] eqn:E3; [|discriminate]. cbn [bind] in *.
  apply Ok_eq in E. subst md. eexists. split; [reflexivity|].
  apply py_index_in in E1. destruct (HQ qc E1) as [Q1 Q2].
  apply py_index_in in E2. assert (X : Z.abs xo <= 1) by (repeat destruct E2 as [<-|E2]; try lia; destruct E2). clear E2.
  apply py_index_in in E3. assert (Y : Z.abs yo <= 1) by (repeat destruct E3 as [<-|E3]; try lia; destruct E3). clear E3.
  assert (SC : forall q, (Qabs q <= 100000)%Q -> near (21 # 10 ^ 15) 20 (fmul fl q psf) (q * ps)).
  { intros q Hq. assert (A : (Qabs (q * ps) <= 20)%Q) by (rewrite Qabs_Qmult; change (Qabs ps) with (2 # 10000)%Q; lra).
    eapply near_weaken; [apply (near_scale F) with (w := ps) (M := 20%Q)| |apply Qle_refl]; first [exact A|num]. }
  assert (M4 : 0 <= p mod 4 < 4) by (apply Z.mod_pos_bound; lia).
  assert (NY : near (15 # 10 ^ 14) 40
     (fsub fl (fmul fl (snd qc) psf) (fmul fl (inject_Z (p mod 4)) (fmul fl (fadd fl (inject_Z (frag_fs AGIPD)) (fdiv fl (fmul fl pg psf) psf)) psf)))
     (snd qc * ps - inject_Z (p mod 4) * ((inject_Z (frag_fs AGIPD) + pg * ps / ps) * ps))).
  { eapply near_sub with (e2 := 5 # 10 ^ 14) (M2 := 8%Q); [exact F|exact (SC _ Q2)| |num|num|num|num].
    eapply near_mul; [exact F|apply (near_int (z := p mod 4) (b := 3)); lia|apply (near_gap (z := 128) HP); lia| | | |]; num. }
  assert (ZR : forall a, In a (zr 8) -> 0 <= a < 8).
  { intros a Ha. unfold zr in Ha. apply in_map_iff in Ha as (n & <- & Hn). apply in_seq in Hn. lia. }
  induction (zr 8) as [|a l IH]; cbn [map]; constructor; [|apply IH; intros b Hb; apply ZR; right; exact Hb].
  specialize (ZR a (or_introl eq_refl)). clear IH.
  assert (NX : near (15 # 10 ^ 14) 40
     (fadd fl (fmul fl (fst qc) psf) (fmul fl (fmul fl (inject_Z xo) (fmul fl (fadd fl (inject_Z (frag_ss AGIPD)) (fdiv fl (fmul fl ag psf) psf)) psf)) (inject_Z a)))
     (fst qc * ps + inject_Z xo * ((inject_Z (frag_ss AGIPD) + ag * ps / ps) * ps) * inject_Z a)).
  { eapply near_add with (e2 := 11 # 10 ^ 14) (M2 := 16%Q); [exact F|exact (SC _ Q1)| |num|num|num|num].
    eapply near_mul with (e1 := 15 # 10 ^ 15) (M1 := 2%Q); [exact F| |apply (near_int (z := a) (b := 7)); lia|num|num|num|num].
    eapply near_mul; [exact F|exact (near_int X)|apply (near_gap (z := 64) HA); lia| | | |]; num. }
  assert (W1 : (0 <= ps)%Q) by num. assert (W2 : (ps <= 1)%Q) by num.
  assert (UN : forall z, Z.abs z <= 1 -> near (15 # 10 ^ 14) 40 (fmul fl (inject_Z z) psf) (ps * inject_Z z)).
  { intros z Hz. eapply near_weaken; [exact (near_unit F Hz W1 W2)|num|num]. }
  assert (D : AGIPD <> DSSC) by discriminate.
  unfold close. cbn [t_corner t_ss t_fs t_ss_px t_fs_px vx vy vz fvmul vmul].
  split; [reflexivity|]. split; [reflexivity|].
  split; [exact (proj1 (in_pixels F rs D NX))|]. split; [exact (proj2 (in_pixels F rs D NY))|].
  split; [exact (proj1 (in_pixels F rs D (UN xo X)))|]. split; [apply (proj2 (in_pixels F rs D (UN 0 ltac:(lia))))|].
  split; [apply (proj1 (in_pixels F rs D (UN 0 ltac:(lia))))|apply (proj2 (in_pixels F rs D (UN yo Y)))].
Qed.
End Agipd.
