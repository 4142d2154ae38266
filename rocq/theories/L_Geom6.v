(** The canvas of the assembly with interpolation. *)
From Coq Require Import QArith Qround Lqa.
From Verif Require Import Base L_Base M_Geom S_Geom L_Geom3.
Set Implicit Arguments.
Unset Strict Implicit.
Local Open Scope Z_scope.
Local Open Scope list_scope.

Lemma trunc_close : forall q, (inject_Z (trunc q) - 1 < q /\ q < inject_Z (trunc q) + 1)%Q.
Proof.
  intros [n d]. unfold trunc, Qlt, Qminus, Qplus, Qopp, inject_Z. cbn [Qnum Qden].
  pose proof (Z.quot_rem' n (Zpos d)) as E. pose proof (Z.rem_bound_abs n (Zpos d) ltac:(lia)) as B. rewrite !Pos2Z.inj_mul. nia.
Qed.
Lemma qmax_spec : forall a b, (a <= qmax a b /\ b <= qmax a b)%Q /\ (qmax a b = a \/ qmax a b = b).
Proof.
  intros a b. unfold qmax. destruct (Qle_bool a b) eqn:E.
  - apply Qle_bool_iff in E. split; [split; [exact E|apply Qle_refl]|right; reflexivity].
  - split; [|left; reflexivity]. split; [apply Qle_refl|].
    destruct (Qlt_le_dec b a) as [L|L]; [apply Qlt_le_weak; exact L|]. apply Qle_bool_iff in L. congruence.
Qed.
Lemma qmax_list_spec : forall l z, (forall x, In x (z :: l) -> (x <= fold_left qmax l z)%Q) /\ In (fold_left qmax l z) (z :: l).
Proof.
  induction l as [|a l IH]; intros z; cbn [fold_left].
  - split; [intros x [<-|[]]; apply Qle_refl|left; reflexivity].
  - destruct (IH (qmax z a)) as [H1 H2]. destruct (qmax_spec z a) as [[Q1 Q2] Q3]. split.
    + intros x [<-|[<-|Hx]].
      * eapply Qle_trans; [exact Q1|apply H1; left; reflexivity].
      * eapply Qle_trans; [exact Q2|apply H1; left; reflexivity].
      * apply H1. right. exact Hx.
    + destruct H2 as [H2|H2]; [|right; right; exact H2]. rewrite <- H2.
      destruct Q3 as [-> | ->]; [left|right; left]; reflexivity.
Qed.
(** A linear function on a rectangle is bounded by its values at the corners. *)
Lemma canvas_between : forall (lo hi c s f A B a b : Q), (0 <= a <= A -> 0 <= b <= B ->
  lo <= c -> lo <= c + B * f -> lo <= c + A * s + B * f -> lo <= c + A * s ->
  c <= hi -> c + B * f <= hi -> c + A * s + B * f <= hi -> c + A * s <= hi ->
  lo <= c + a * s + b * f <= hi)%Q.
Proof.
  intros lo hi c s f A B a b [A0 A1] [B0 B1] L1 L2 L3 L4 H1 H2 H3 H4.
  assert (S : ((0 <= a * s /\ a * s <= A * s) \/ (A * s <= a * s /\ a * s <= 0))%Q).
  { destruct (Qlt_le_dec s 0) as [N|P]; [right|left]; split; nra. }
  assert (F : ((0 <= b * f /\ b * f <= B * f) \/ (B * f <= b * f /\ b * f <= 0))%Q).
  { destruct (Qlt_le_dec f 0) as [N|P]; [right|left]; split; nra. }
  set (as_ := (a * s)%Q) in *. set (As := (A * s)%Q) in *. set (bf := (b * f)%Q) in *. set (Bf := (B * f)%Q) in *. clearbody as_ As bf Bf.
  destruct S as [[S1 S2]|[S1 S2]], F as [[F1 F2]|[F1 F2]]; split; lra.
Qed.
Lemma canvas_numbers : forall mn mx s cc, mx + 1 - (mn - 1) = s -> - (mn - 1) = cc -> (inject_Z cc == 1 - inject_Z mn)%Q /\ (inject_Z s == inject_Z mx - inject_Z mn + 2)%Q.
Proof.
  intros mn mx s cc <- <-. split.
  - replace (- (mn - 1)) with (1 + - mn) by lia. rewrite inject_Z_plus, inject_Z_opp. reflexivity.
  - replace (mx + 1 - (mn - 1)) with (mx + - mn + 2) by lia. rewrite !inject_Z_plus, inject_Z_opp. reflexivity.
Qed.
Lemma canvas_tile g m t tl : tile_at g m t = Some tl -> In tl (List.concat g).
Proof.
  unfold tile_at. destruct ((0 <=? m) && (0 <=? t))%bool; [|discriminate]. destruct (nth_error g (Z.to_nat m)) as [md|] eqn:E; [|discriminate].
  intros H. apply in_concat. exists md. split; eapply nth_error_In; eassumption.
Qed.
Lemma canvas_edges (g : geometry) sy sx cy cx : agipd_dimensions g = Ok ((sy, sx), (cy, cx)) ->
  (forall tl v, In tl (List.concat g) -> In v (tile_corners tl) ->
     (1 - 1 < vy v / pixel_size AGIPD + inject_Z cy /\ vy v / pixel_size AGIPD + inject_Z cy < inject_Z sy /\
      1 - 1 < vx v / pixel_size AGIPD + inject_Z cx /\ vx v / pixel_size AGIPD + inject_Z cx < inject_Z sx)%Q).
Proof.
  unfold agipd_dimensions. set (ps := pixel_size AGIPD). destruct (map _ (flat_map tile_corners (List.concat g))) as [|c cs] eqn:EC; [discriminate|].
  intros E tl v Ht Hv. injection E as E1 E2 E3 E4.
  assert (HIn : In (vx v / ps, vy v / ps)%Q (c :: cs)).
  { rewrite <- EC. apply in_map_iff. exists v. split; [reflexivity|]. apply in_flat_map. eauto. }
  assert (HX : In (vx v / ps)%Q (fst c :: map fst cs)) by (change (In (fst (vx v / ps, vy v / ps)%Q) (map fst (c :: cs))); now apply in_map).
  assert (HY : In (vy v / ps)%Q (snd c :: map snd cs)) by (change (In (snd (vx v / ps, vy v / ps)%Q) (map snd (c :: cs))); now apply in_map).
  destruct (qmin_list_spec (map fst cs) (fst c)) as [X1 _]. destruct (qmin_list_spec (map snd cs) (snd c)) as [Y1 _].
  destruct (qmax_list_spec (map fst cs) (fst c)) as [X2 _]. destruct (qmax_list_spec (map snd cs) (snd c)) as [Y2 _].
  specialize (X1 _ HX). specialize (X2 _ HX). specialize (Y1 _ HY). specialize (Y2 _ HY). unfold qmin_list in X1, Y1.
  set (x := (vx v / ps)%Q) in *. set (y := (vy v / ps)%Q) in *. clearbody x y.
  set (mnx := fold_left qmin (map fst cs) (fst c)) in *. set (mny := fold_left qmin (map snd cs) (snd c)) in *.
  set (mxx := fold_left qmax (map fst cs) (fst c)) in *. set (mxy := fold_left qmax (map snd cs) (snd c)) in *. clearbody mnx mny mxx mxy.
  destruct (trunc_close mnx) as [Ax _]. destruct (trunc_close mny) as [Ay _]. destruct (trunc_close mxx) as [_ Bx]. destruct (trunc_close mxy) as [_ By].
  destruct (canvas_numbers E2 E4) as [Ex Fx]. destruct (canvas_numbers E1 E3) as [Ey Fy].
  rewrite Ex, Ey, Fx, Fy. repeat split; lra.
Qed.
Lemma canvas_tight (g : geometry) sy sx cy cx : agipd_dimensions g = Ok ((sy, sx), (cy, cx)) ->
  forall axis : bool, exists tl v tl' v', In tl (List.concat g) /\ In v (tile_corners tl) /\ In tl' (List.concat g) /\ In v' (tile_corners tl') /\
    ((if axis then vy v else vx v) / pixel_size AGIPD + inject_Z (if axis then cy else cx) < 2 /\
     inject_Z (if axis then sy else sx) - 2 < (if axis then vy v' else vx v') / pixel_size AGIPD + inject_Z (if axis then cy else cx))%Q.
Proof.
  unfold agipd_dimensions. set (ps := pixel_size AGIPD). destruct (map _ (flat_map tile_corners (List.concat g))) as [|c cs] eqn:EC; [discriminate|].
  intros E. injection E as E1 E2 E3 E4.
  assert (G : forall (pr : Q * Q -> Q) (w : vec -> Q), (forall v, pr (vx v / ps, vy v / ps)%Q = (w v / ps)%Q) ->
    exists tl v tl' v', In tl (List.concat g) /\ In v (tile_corners tl) /\ In tl' (List.concat g) /\ In v' (tile_corners tl') /\
      (w v / ps)%Q = fold_left qmin (map pr cs) (pr c) /\ (w v' / ps)%Q = fold_left qmax (map pr cs) (pr c)).
  { intros pr w HW. assert (G : forall q, In q (pr c :: map pr cs) -> exists tl v, In tl (List.concat g) /\ In v (tile_corners tl) /\ (w v / ps)%Q = q).
    { intros q Hq. change (In q (map pr (c :: cs))) in Hq. rewrite <- EC in Hq. apply in_map_iff in Hq. destruct Hq as (x & <- & Hw). apply in_map_iff in Hw. destruct Hw as (v & <- & Hv).
      apply in_flat_map in Hv. destruct Hv as (tl & Ht & Hv). exists tl, v. auto. }
    destruct (qmin_list_spec (map pr cs) (pr c)) as [_ M1]. destruct (qmax_list_spec (map pr cs) (pr c)) as [_ M2]. unfold qmin_list in M1.
    destruct (G _ M1) as (tl & v & Ht & Hv & Ev). destruct (G _ M2) as (tl' & v' & Ht' & Hv' & Ev'). exists tl, v, tl', v'. auto 10. }
  intros [|].
  - destruct (G snd vy (fun _ => eq_refl)) as (tl & v & tl' & v' & H1 & H2 & H3 & H4 & Ev & Ev'). exists tl, v, tl', v'. do 4 (split; [assumption|]). rewrite Ev, Ev'.
    destruct (canvas_numbers E1 E3) as [-> ->]. destruct (trunc_close (fold_left qmin (map snd cs) (snd c))) as [_ A]. destruct (trunc_close (fold_left qmax (map snd cs) (snd c))) as [B _]. split; lra.
  - destruct (G fst vx (fun _ => eq_refl)) as (tl & v & tl' & v' & H1 & H2 & H3 & H4 & Ev & Ev'). exists tl, v, tl', v'. do 4 (split; [assumption|]). rewrite Ev, Ev'.
    destruct (canvas_numbers E2 E4) as [-> ->]. destruct (trunc_close (fold_left qmin (map fst cs) (fst c))) as [_ A]. destruct (trunc_close (fold_left qmax (map fst cs) (fst c))) as [B _]. split; lra.
Qed.
Lemma in_tile_at g tl : In tl (List.concat g) -> exists m t, tile_at g m t = Some tl.
Proof.
  intros H. apply in_concat in H. destruct H as (md & H1 & H2). apply In_nth_error in H1. destruct H1 as (m & H1). apply In_nth_error in H2. destruct H2 as (t & H2).
  exists (Z.of_nat m), (Z.of_nat t). unfold tile_at. assert (E : ((0 <=? Z.of_nat m) && (0 <=? Z.of_nat t))%bool = true) by (apply andb_true_iff; split; apply Z.leb_le; lia).
  rewrite E, !Nat2Z.id, H1. exact H2.
Qed.
(** A point of a tile. *)
Definition canvas_on (tl : tile) (a b : Q) : Prop := (0 <= a <= inject_Z (t_ss_px tl) /\ 0 <= b <= inject_Z (t_fs_px tl))%Q.
Lemma canvas_corner tl v : 0 <= t_ss_px tl -> 0 <= t_fs_px tl -> In v (tile_corners tl) -> exists a b, canvas_on tl a b /\ (vx v == vx (point tl a b))%Q /\ (vy v == vy (point tl a b))%Q.
Proof.
  intros A B. assert (A' : (0 <= inject_Z (t_ss_px tl))%Q) by (change 0%Q with (inject_Z 0); now rewrite <- Zle_Qle). assert (B' : (0 <= inject_Z (t_fs_px tl))%Q) by (change 0%Q with (inject_Z 0); now rewrite <- Zle_Qle).
  unfold canvas_on. intros [<-|[<-|[<-|[<-|[]]]]]; [exists 0%Q, 0%Q|exists 0%Q, (inject_Z (t_fs_px tl))|exists (inject_Z (t_ss_px tl)), (inject_Z (t_fs_px tl))|exists (inject_Z (t_ss_px tl)), 0%Q];
    unfold point, vadd, vmul; cbn [vx vy]; (split; [split; split; (assumption || apply Qle_refl)|]); split; ring.
Qed.
Lemma canvas_inside (g : geometry) sy sx cy cx m t tl a b : agipd_dimensions g = Ok ((sy, sx), (cy, cx)) -> tile_at g m t = Some tl -> canvas_on tl a b ->
  (0 < vy (point tl a b) / pixel_size AGIPD + inject_Z cy < inject_Z sy /\ 0 < vx (point tl a b) / pixel_size AGIPD + inject_Z cx < inject_Z sx)%Q.
Proof.
  intros E Ht [Ha Hb]. pose proof (fun v => canvas_edges E (v := v) (canvas_tile Ht)) as K. set (ps := pixel_size AGIPD) in *. assert (P : (0 < / ps)%Q) by (unfold ps; reflexivity).
  assert (K1 := K _ (or_introl eq_refl)). assert (K2 := K _ (or_intror (or_introl eq_refl))). assert (K3 := K _ (or_intror (or_intror (or_introl eq_refl)))).
  assert (K4 := K _ (or_intror (or_intror (or_intror (or_introl eq_refl))))). unfold vadd, vmul, Qdiv in *. cbn [vx vy point] in *. clear K E.
  set (k := (/ ps)%Q) in *. clearbody k. clear ps. set (SY := inject_Z sy) in *. set (SX := inject_Z sx) in *. set (CY := inject_Z cy) in *. set (CX := inject_Z cx) in *. clearbody SY SX CY CX.
  destruct K1 as (Y1 & Y1' & X1 & X1'). destruct K2 as (Y2 & Y2' & X2 & X2'). destruct K3 as (Y3 & Y3' & X3 & X3'). destruct K4 as (Y4 & Y4' & X4 & X4').
  assert (G : forall c s f C S : Q, (1 - 1 < c * k + C -> c * k + C < S -> 1 - 1 < (c + inject_Z (t_fs_px tl) * f) * k + C -> (c + inject_Z (t_fs_px tl) * f) * k + C < S ->
      1 - 1 < (c + inject_Z (t_ss_px tl) * s + inject_Z (t_fs_px tl) * f) * k + C -> (c + inject_Z (t_ss_px tl) * s + inject_Z (t_fs_px tl) * f) * k + C < S ->
      1 - 1 < (c + inject_Z (t_ss_px tl) * s) * k + C -> (c + inject_Z (t_ss_px tl) * s) * k + C < S -> 0 < (c + a * s + b * f) * k + C < S)%Q).
  { clear - Ha Hb. intros c s f C S. set (A := inject_Z (t_ss_px tl)) in *. set (B := inject_Z (t_fs_px tl)) in *. clearbody A B. intros H1 H2 H3 H4 H5 H6 H7 H8.
    set (lo := qmin (qmin (c * k + C) ((c + B * f) * k + C)) (qmin ((c + A * s + B * f) * k + C) ((c + A * s) * k + C))).
    set (hi := qmax (qmax (c * k + C) ((c + B * f) * k + C)) (qmax ((c + A * s + B * f) * k + C) ((c + A * s) * k + C))).
    assert (L : (0 < lo)%Q) by (unfold lo, qmin; repeat match goal with |- context [Qle_bool ?x ?y] => destruct (Qle_bool x y) end; lra).
    assert (H : (hi < S)%Q) by (unfold hi, qmax; repeat match goal with |- context [Qle_bool ?x ?y] => destruct (Qle_bool x y) end; lra).
    assert (M : (lo <= (c * k + C) + a * (s * k) + b * (f * k) <= hi)%Q).
    { set (p1 := (c * k + C)%Q) in *. set (p2 := ((c + B * f) * k + C)%Q) in *. set (p3 := ((c + A * s + B * f) * k + C)%Q) in *. set (p4 := ((c + A * s) * k + C)%Q) in *.
      assert (R2 : (p2 == p1 + B * (f * k))%Q) by (unfold p1, p2; ring). assert (R3 : (p3 == p1 + A * (s * k) + B * (f * k))%Q) by (unfold p1, p3; ring). assert (R4 : (p4 == p1 + A * (s * k))%Q) by (unfold p1, p4; ring).
      destruct (qmin_spec p1 p2) as [[M1 M2] _]. destruct (qmin_spec p3 p4) as [[M3 M4] _]. destruct (qmin_spec (qmin p1 p2) (qmin p3 p4)) as [[M5 M6] _]. fold lo in M5, M6.
      destruct (qmax_spec p1 p2) as [[N1 N2] _]. destruct (qmax_spec p3 p4) as [[N3 N4] _]. destruct (qmax_spec (qmax p1 p2) (qmax p3 p4)) as [[N5 N6] _]. fold hi in N5, N6.
      clearbody lo hi p1 p2 p3 p4. generalize dependent (qmin p1 p2). generalize dependent (qmin p3 p4). generalize dependent (qmax p1 p2). generalize dependent (qmax p3 p4). intros.
      apply canvas_between with (A := A) (B := B); try assumption; lra. }
    split; lra. }
  split; apply G; assumption.
Qed.
