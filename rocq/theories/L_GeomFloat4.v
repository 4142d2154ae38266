(** Rounding errors of LPD geometries. *)

From Coq Require Import QArith Qround Qabs Lqa.
From Verif Require Import Base L_Base M_Geom M_GeomFloat S_Geom S_GeomFloat L_Geom1 L_Geom2 L_GeomFloat L_GeomFloat2 L_GeomFloat3.

Set Implicit Arguments.
Unset Strict Implicit.

Local Open Scope Z_scope.
Local Open Scope list_scope.

Section Lpd.
Variable fl : Q -> Q.
Hypothesis F : float64 fl.
Let ps := pixel_size LPD.
Let psf := pixel_size_fl fl LPD.

Lemma near_psf : near (2 # 10 ^ 19) (5 # 10000) psf ps.
Proof. split; [apply (near_ps F)|num]. Qed.

Lemma near_mul_comm : forall e1 M1 x1 y1 e2 M2 x2 y2 e M, near e1 M1 x1 y1 -> near e2 M2 x2 y2 ->
  let d := (e1 * M2 + e2 * M1 + e1 * e2)%Q in
  (M1 * M2 <= 10 ^ 29)%Q -> (d <= 10 ^ 29)%Q -> (d + U * (d + M1 * M2) + T <= e)%Q -> (M1 * M2 <= M)%Q ->
  near e M (fmul fl x1 x2) (y2 * y1).
Proof. intros. eapply near_ext; [exact (near_mul F H H0 H1 H2 H3 H4)|reflexivity|apply Qmult_comm]. Qed.

(** The length of the unit. *)
Lemma near_w : forall w, (1 # 10000 <= w)%Q -> (w <= 1 # 100)%Q -> near (21 # 10 ^ 19) (1 # 100) (fl w) w.
Proof.
  intros w W1 W2. assert (W0 : (0 <= w)%Q) by lra. split; [|rewrite (Qabs_pos w W0); exact W2].
  eapply Qle_trans; [apply (fl_error F)|]; rewrite (Qabs_pos w W0).
  - apply Qle_trans with (1 # 100)%Q; [exact W2|num].
  - unfold U, T. change (10 ^ 16)%positive with 10000000000000000%positive. change (10 ^ 30)%positive with 1000000000000000000000000000000%positive.
    change (10 ^ 19)%positive with 10000000000000000000%positive. lra.
Qed.

Definition small_gap (o : option Q) : Prop := match o with None => True | Some g => (Qabs g <= 100)%Q end.

Lemma near_gap_px : forall w o, (1 # 10000 <= w)%Q -> (w <= 1 # 100)%Q -> small_gap o ->
  near (4 # 10 ^ 12) 2000 (match o with None => 4%Q | Some g => fmul fl g (fdiv fl (fl w) psf) end) (match o with None => 4%Q | Some g => (g * (w / ps))%Q end).
Proof.
  intros w o W1 W2 G. destruct o as [g|]; cbn in G.
  - assert (N : near (3 # 10 ^ 14) 20 (fdiv fl (fl w) psf) (w / ps)).
    { eapply near_div with (ep := 2 # 10 ^ 19); [exact F|exact (near_w W1 W2)|reflexivity|apply (near_ps F)|num|num|num|num|num]. }
    eapply near_mul; [exact F|exact (near_exact G)|exact N|num|num|num|num].
  - apply near_weaken with 0%Q 4%Q; [apply near_exact; num|num|num].
Qed.

Lemma near_size : forall x y z b, near (5 # 10 ^ 11) 17000 x y -> Z.abs z <= b -> 0 <= b <= 1 ->
  near (4 # 10 ^ 14) 9 (fmul fl (inject_Z z) (fmul fl x psf)) (inject_Z z * (y * ps)).
Proof.
  intros x y z b N Hz Hb. assert (Hz' : Z.abs z <= 1) by lia.
  eapply near_mul with (e2 := 33 # 10 ^ 15) (M2 := (17 # 2)%Q); [exact F|exact (near_int Hz')| |num|num|num|num].
  eapply near_mul; [exact F|exact N|exact near_psf|num|num|num|num].
Qed.

Lemma near_tile_size : forall c x y z, 0 <= c <= 128 -> near (4 # 10 ^ 12) 2000 x y -> Z.abs z <= 7 ->
  near (4 # 10 ^ 14) 8 (fmul fl (inject_Z z) (fmul fl (fadd fl (inject_Z c) x) psf)) ((inject_Z c + y) * ps * inject_Z z).
Proof.
  intros c x y z Hc N Hz.
  eapply near_mul_comm with (e2 := 4 # 10 ^ 15) (M2 := (11 # 10)%Q); [exact (near_int Hz)| |num|num|num|num].
  eapply near_mul with (e1 := 5 # 10 ^ 12) (M1 := 2128%Q); [exact F| |exact near_psf|num|num|num|num].
  eapply near_add; [exact F|apply (near_int (z := c) (b := 128)); lia|exact N|num|num|num|num].
Qed.

Lemma near_tile_size1 : forall c x y z, 0 <= c <= 128 -> near (4 # 10 ^ 12) 2000 x y -> Z.abs z <= 1 ->
  near (1 # 10 ^ 14) (11 # 10) (fmul fl (inject_Z z) (fmul fl (fadd fl (inject_Z c) x) psf)) ((inject_Z c + y) * ps * inject_Z z).
Proof.
  intros c x y z Hc N Hz.
  eapply near_mul_comm with (e2 := 4 # 10 ^ 15) (M2 := (11 # 10)%Q); [exact (near_int Hz)| |num|num|num|num].
  eapply near_mul with (e1 := 5 # 10 ^ 12) (M1 := 2128%Q); [exact F| |exact near_psf|num|num|num|num].
  eapply near_add; [exact F|apply (near_int (z := c) (b := 128)); lia|exact N|num|num|num|num].
Qed.

Lemma near_zero : forall x y, near (1 # 10 ^ 11) 10 x y -> near (1 # 10 ^ 29) 0 (fmul fl 0 x) (y * 0).
Proof.
  intros x y N. assert (Z0 : Z.abs 0 <= 0) by lia. eapply near_mul_comm; [exact (near_int Z0)|exact N|num|num|num|num].
Qed.

Lemma lpd_close : forall rs quad_pos w ag pg g,
  (1 # 10000 <= w)%Q -> (w <= 1 # 100)%Q ->
  (forall q, In q quad_pos -> Qabs (fst q * w) <= 20 /\ Qabs (snd q * w) <= 20)%Q -> small_gap ag -> small_gap pg ->
  lpd_from_quad_positions quad_pos w ag pg = Ok g ->
  exists g', lpd_from_quad_positions_fl fl quad_pos (fl w) ag pg = Ok g' /\
    Forall2 (Forall2 (close fl (pixel_shape_fl fl LPD) (pixel_shape rs LPD))) g' g.
Proof.
  intros rs quad_pos w ag pg g W1 W2 HQ HA HP E. eapply mapM_related; [exact E|]. clear E. intros p md Hp E. cbv beta zeta in E |- *.
  fold ps psf in E |- *. pose proof (near_gap_px W1 W2 HA) as NA. pose proof (near_gap_px W1 W2 HP) as NP.
  set (agf := match ag with None => 4%Q | Some _ => _ end) in NA |- *. set (pgf := match pg with None => 4%Q | Some _ => _ end) in NP |- *.
  set (age := match ag with None => 4%Q | Some _ => _ end) in NA, E. set (pge := match pg with None => 4%Q | Some _ => _ end) in NP, E.
  clearbody agf pgf age pge.
  destruct (py_index quad_pos (p / 4)) as [qc|] eqn:E1; [|discriminate]. cbn [bind] in *.
  destruct (py_index [-1; -1; 0; 0] (p mod 4)) as [pa|] eqn:E2; [|discriminate]. cbn [bind] in *.
  destruct (py_index [0; -1; -1; 0] (p mod 4)) as [pu|] eqn:E3; [|discriminate]. cbn [bind] in *.
  apply Ok_eq in E. subst md. eexists. split; [reflexivity|].
  apply py_index_in in E1. destruct (HQ qc E1) as [Q1 Q2].
  apply py_index_in in E2. assert (X : Z.abs pa <= 1) by (destruct E2 as [<-|[<-|[<-|[<-|[]]]]]; lia). clear E2.
  apply py_index_in in E3. assert (Y : Z.abs pu <= 1) by (destruct E3 as [<-|[<-|[<-|[<-|[]]]]]; lia). clear E3.
  assert (SC : forall q, (Qabs (q * w) <= 20)%Q -> near (21 # 10 ^ 15) 20 (fmul fl q (fl w)) (q * w)).
  { intros q Hq. assert (W3 : (1 # 10 ^ 6 <= w)%Q) by (apply Qle_trans with (1 # 10000)%Q; [num|exact W1]). assert (W4 : (w <= 1)%Q) by lra.
    eapply near_weaken; [apply (near_scale F W3 W4 Hq); num|num|num]. }
  assert (O1 : 0 <= 1 <= 1) by lia.
  assert (NW : near (5 # 10 ^ 11) 17000 (fadd fl (fadd fl 256 agf) pgf) (256 + age + pge)).
  { eapply near_add with (e1 := 5 # 10 ^ 12) (M1 := 2256%Q); [exact F| |exact NP|num|num|num|num].
    eapply near_add; [exact F|apply (near_int (z := 256) (b := 256)); lia|exact NA|num|num|num|num]. }
  assert (NH : near (5 # 10 ^ 11) 17000 (fadd fl (fadd fl 256 (fmul fl 7 agf)) pgf) (256 + 7 * age + pge)).
  { eapply near_add with (e1 := 34 # 10 ^ 12) (M1 := 14256%Q); [exact F| |exact NP|num|num|num|num].
    eapply near_add with (e2 := 31 # 10 ^ 12) (M2 := 14000%Q); [exact F|apply (near_int (z := 256) (b := 256)); lia| |num|num|num|num].
    eapply near_mul; [exact F|apply (near_int (z := 7) (b := 7)); lia|exact NA|num|num|num|num]. }
  assert (NX0 : near (7 # 10 ^ 14) 29 (fadd fl (fmul fl (fst qc) (fl w)) (fmul fl (inject_Z pa) (fmul fl (fadd fl (fadd fl 256 agf) pgf) psf)))
     (fst qc * w + inject_Z pa * ((256 + age + pge) * ps))).
  { eapply near_add; [exact F|exact (SC _ Q1)|exact (near_size NW X O1)|num|num|num|num]. }
  assert (NY0 : near (7 # 10 ^ 14) 29 (fadd fl (fmul fl (snd qc) (fl w)) (fmul fl (inject_Z pu) (fmul fl (fadd fl (fadd fl 256 (fmul fl 7 agf)) pgf) psf)))
     (snd qc * w + inject_Z pu * ((256 + 7 * age + pge) * ps))).
  { eapply near_add; [exact F|exact (SC _ Q2)|exact (near_size NH Y O1)|num|num|num|num]. }
  set (px' := fadd fl (fmul fl (fst qc) (fl w)) _) in *. set (py' := fadd fl (fmul fl (snd qc) (fl w)) _) in *.
  set (px := (fst qc * w + _)%Q) in *. set (py := (snd qc * w + _)%Q) in *. clearbody px' py' px py. clear NW NH.
  assert (Tw : near (1 # 10 ^ 11) 10 (fmul fl (fadd fl (inject_Z (frag_fs LPD)) agf) psf) ((inject_Z (frag_fs LPD) + age) * ps)).
  { eapply near_mul with (e1 := 5 # 10 ^ 12) (M1 := 2128%Q); [exact F| |exact near_psf|num|num|num|num].
    eapply near_add; [exact F|apply (near_int (z := 128) (b := 128)); lia|exact NA|num|num|num|num]. }
  assert (Th : near (1 # 10 ^ 11) 10 (fmul fl (fadd fl (inject_Z (frag_ss LPD)) agf) psf) ((inject_Z (frag_ss LPD) + age) * ps)).
  { eapply near_mul with (e1 := 5 # 10 ^ 12) (M1 := 2128%Q); [exact F| |exact near_psf|num|num|num|num].
    eapply near_add; [exact F|apply (near_int (z := 32) (b := 32)); lia|exact NA|num|num|num|num]. }
  assert (TS : forall c, 0 <= c <= 128 -> near (1 # 10 ^ 15) (1 # 10) (fmul fl (inject_Z c) psf) (inject_Z c * ps)).
  { intros c Hc. eapply near_mul; [exact F|apply (near_int (z := c) (b := 128)); lia|exact near_psf|num|num|num|num]. }
  assert (ZR : forall a, In a (zr 16) -> 0 <= a < 16).
  { intros a Ha. unfold zr in Ha. apply in_map_iff in Ha as (n & <- & Hn). apply in_seq in Hn. lia. }
  clear Hp. induction (zr 16) as [|a l IH]; cbn [map]; constructor; [|apply IH; intros b Hb; apply ZR; right; exact Hb].
  specialize (ZR a (or_introl eq_refl)). clear IH.
  assert (Up : Z.abs (if a <? 8 then - a else - (15 - a)) <= 7) by (destruct (Z.ltb_spec a 8); lia).
  assert (Ac : Z.abs (if a <? 8 then -1 else 0) <= 1) by (destruct (a <? 8); lia).
  set (up := if a <? 8 then - a else - (15 - a)) in *. set (across := if a <? 8 then -1 else 0) in *. clearbody up across.
  assert (D : LPD <> DSSC) by discriminate.
  assert (NX : near (15 # 10 ^ 14) 40
    (fsub fl (fadd fl (fadd fl px' (fmul fl (inject_Z across) (fmul fl (fadd fl (inject_Z (frag_fs LPD)) agf) psf))) (fmul fl 0 (fmul fl (fadd fl (inject_Z (frag_ss LPD)) agf) psf)))
       (fmul fl (inject_Z (frag_fs LPD)) psf))
    (px + (inject_Z (frag_fs LPD) + age) * ps * inject_Z across + (inject_Z (frag_ss LPD) + age) * ps * 0 - inject_Z (frag_fs LPD) * ps)).
  { eapply near_sub with (e1 := 11 # 10 ^ 14) (M1 := 31%Q); [exact F| |apply (TS 128); lia|num|num|num|num].
    eapply near_add with (e1 := 9 # 10 ^ 14) (M1 := 31%Q); [exact F| |exact (near_zero Th)|num|num|num|num].
    eapply near_add; [exact F|exact NX0|apply (near_tile_size1 (c := 128)); [lia|exact NA|exact Ac]|num|num|num|num]. }
  assert (NY : near (15 # 10 ^ 14) 40
    (fsub fl (fadd fl (fadd fl py' (fmul fl 0 (fmul fl (fadd fl (inject_Z (frag_fs LPD)) agf) psf))) (fmul fl (inject_Z up) (fmul fl (fadd fl (inject_Z (frag_ss LPD)) agf) psf)))
       (fmul fl (inject_Z (frag_ss LPD)) psf))
    (py + (inject_Z (frag_fs LPD) + age) * ps * 0 + (inject_Z (frag_ss LPD) + age) * ps * inject_Z up - inject_Z (frag_ss LPD) * ps)).
  { eapply near_sub with (e1 := 13 # 10 ^ 14) (M1 := 38%Q); [exact F| |apply (TS 32); lia|num|num|num|num].
    eapply near_add with (e1 := 8 # 10 ^ 14) (M1 := 29%Q); [exact F| |apply (near_tile_size (c := 32)); [lia|exact NA|exact Up]|num|num|num|num].
    eapply near_add; [exact F|exact NY0|exact (near_zero Tw)|num|num|num|num]. }
  assert (W0 : (0 <= ps)%Q) by num. assert (W5 : (ps <= 1)%Q) by num.
  assert (UN : forall z, Z.abs z <= 1 -> near (15 # 10 ^ 14) 40 (fmul fl (inject_Z z) psf) (ps * inject_Z z)).
  { intros z Hz. eapply near_weaken; [exact (near_unit F Hz W0 W5)|num|num]. }
  unfold close. cbn [t_corner t_ss t_fs t_ss_px t_fs_px vx vy vz fvmul vmul fvadd vadd fvsub vsub].
  split; [reflexivity|]. split; [reflexivity|].
  split; [exact (proj1 (in_pixels F rs D NX))|]. split; [exact (proj2 (in_pixels F rs D NY))|].
  split; [apply (proj1 (in_pixels F rs D (UN 0 ltac:(lia))))|]. split; [apply (proj2 (in_pixels F rs D (UN 1 ltac:(lia))))|].
  split; [apply (proj1 (in_pixels F rs D (UN 1 ltac:(lia))))|apply (proj2 (in_pixels F rs D (UN 0 ltac:(lia))))].
Qed.

(** Each of the positions added is at most 1000 units. *)
Definition small_pair (q : Q * Q) : Prop := (Qabs (fst q) <= 1000 /\ Qabs (snd q) <= 1000)%Q.

Lemma near_place : forall w a b c, (1 # 10000 <= w)%Q -> (w <= 1 # 100)%Q -> (Qabs a <= 1000)%Q -> (Qabs b <= 1000)%Q -> (Qabs c <= 1000)%Q ->
  near (5 # 10 ^ 14) 30 (fmul fl (fadd fl (fadd fl a b) c) (fl w)) (w * (a + b + c)).
Proof.
  intros w a b c W1 W2 A B C. eapply near_mul_comm with (e1 := 2 # 10 ^ 12) (M1 := 3000%Q); [|exact (near_w W1 W2)|num|num|num|num].
  eapply near_add with (e1 := 1 # 10 ^ 12) (M1 := 2000%Q); [exact F| |exact (near_exact C)|num|num|num|num].
  eapply near_add; [exact F|exact (near_exact A)|exact (near_exact B)|num|num|num|num].
Qed.

Lemma lpd_h5_close : forall rs f quad_pos w g,
  (1 # 10000 <= w)%Q -> (w <= 1 # 100)%Q -> (forall q, In q quad_pos -> small_pair q) ->
  (forall q m p, h5_module f q m = Some p -> small_pair p) -> (forall q m t p, h5_tile f q m t = Some p -> small_pair p) ->
  lpd_from_h5 f quad_pos w = Ok g ->
  exists g', lpd_from_h5_fl fl f quad_pos (fl w) = Ok g' /\
    Forall2 (Forall2 (close fl (pixel_shape_fl fl LPD) (pixel_shape rs LPD))) g' g.
Proof.
  intros rs f quad_pos w g W1 W2 HQ HM HT E. unfold lpd_from_h5 in E. unfold lpd_from_h5_fl.
  destruct (negb (Nat.eqb (List.length quad_pos) 4)); [discriminate|]. cbv zeta in E |- *.
  eapply mapM_related; [exact E|]. clear E. intros [q m] md Hp E. cbv beta iota zeta in E |- *. fold ps psf in E |- *.
  destruct (py_index quad_pos (q - 1)) as [qc|] eqn:E1; [|discriminate]. cbn [bind] in *.
  destruct (h5_module f q m) as [mo|] eqn:E2; [|discriminate]. cbn [get_key bind] in *.
  eapply mapM_related; [exact E|]. clear E. intros t tl Ht E. cbv beta zeta in E |- *.
  destruct (h5_tile f q m t) as [to|] eqn:E3; [|discriminate]. cbn [get_key bind] in *.
  apply Ok_eq in E. subst tl. eexists. split; [reflexivity|].
  apply py_index_in in E1. destruct (HQ qc E1) as [Q1 Q2]. destruct (HM _ _ _ E2) as [M1 M2]. destruct (HT _ _ _ _ E3) as [T1 T2].
  assert (D : LPD <> DSSC) by discriminate.
  assert (W0 : (0 <= ps)%Q) by num. assert (W5 : (ps <= 1)%Q) by num.
  assert (UN : forall z, Z.abs z <= 1 -> near (15 # 10 ^ 14) 40 (fmul fl (inject_Z z) psf) (ps * inject_Z z)).
  { intros z Hz. eapply near_weaken; [exact (near_unit F Hz W0 W5)|num|num]. }
  assert (UN' : forall z, Z.abs z <= 1 -> near (5 # 10 ^ 19) (5 # 10000) (fmul fl (inject_Z z) psf) (ps * inject_Z z)).
  { intros z Hz. eapply near_mul_comm; [exact (near_int Hz)|exact near_psf|num|num|num|num]. }
  assert (ST : forall c z, 0 <= c <= 128 -> Z.abs z <= 1 ->
    near (1 # 10 ^ 15) (1 # 10) (fmul fl (fmul fl (inject_Z z) psf) (inject_Z c)) (inject_Z c * (ps * inject_Z z))).
  { intros c z Hc Hz. eapply near_mul_comm; [exact (UN' z Hz)|apply (near_int (z := c) (b := 128)); lia|num|num|num|num]. }
  assert (CO : forall x y zs zf, Z.abs zs <= 1 -> Z.abs zf <= 1 -> near (5 # 10 ^ 14) 30 x y ->
    near (15 # 10 ^ 14) 40
      (fsub fl (fsub fl x (fmul fl (fmul fl (inject_Z zs) psf) (inject_Z (frag_ss LPD)))) (fmul fl (fmul fl (inject_Z zf) psf) (inject_Z (frag_fs LPD))))
      (y - inject_Z (frag_ss LPD) * (ps * inject_Z zs) - inject_Z (frag_fs LPD) * (ps * inject_Z zf))).
  { intros x y zs zf H1 H2 N. eapply near_sub with (e1 := 7 # 10 ^ 14) (M1 := 31%Q); [exact F| |apply (ST 128 zf); [lia|exact H2]|num|num|num|num].
    eapply near_sub; [exact F|exact N|apply (ST 32 zs); [lia|exact H1]|num|num|num|num]. }
  pose proof (CO _ _ 0 1 ltac:(lia) ltac:(lia) (near_place W1 W2 Q1 M1 T1)) as NX.
  pose proof (CO _ _ 1 0 ltac:(lia) ltac:(lia) (near_place W1 W2 Q2 M2 T2)) as NY.
  unfold close. cbn [t_corner t_ss t_fs t_ss_px t_fs_px vx vy vz fvmul vmul fvadd vadd fvsub vsub].
  split; [reflexivity|]. split; [reflexivity|].
  split; [exact (proj1 (in_pixels F rs D NX))|]. split; [exact (proj2 (in_pixels F rs D NY))|].
  split; [apply (proj1 (in_pixels F rs D (UN 0 ltac:(lia))))|]. split; [apply (proj2 (in_pixels F rs D (UN 1 ltac:(lia))))|].
  split; [apply (proj1 (in_pixels F rs D (UN 1 ltac:(lia))))|apply (proj2 (in_pixels F rs D (UN 0 ltac:(lia))))].
Qed.
End Lpd.
