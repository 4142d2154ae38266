(** Rounding errors of detector geometries in metres: the bounds of L_GeomFloat3, 4 and 6 before
    they are divided by the size of a pixel. *)

From Coq Require Import QArith Qround Qabs Lqa.
From Verif Require Import Base L_Base M_Geom M_GeomFloat S_Geom S_GeomFloat L_Geom1 L_Geom2 L_GeomFloat L_GeomFloat2 L_GeomFloat3 L_GeomFloat4 L_GeomFloat6.

Set Implicit Arguments.
Unset Strict Implicit.

Local Open Scope Z_scope.
Local Open Scope list_scope.

Definition mclose (t' t : tile) : Prop :=
  t_ss_px t' = t_ss_px t /\ t_fs_px t' = t_fs_px t /\
  near (15 # 10 ^ 14) 40 (vx (t_corner t')) (vx (t_corner t)) /\ near (15 # 10 ^ 14) 40 (vy (t_corner t')) (vy (t_corner t)) /\
  near (15 # 10 ^ 14) 40 (vx (t_ss t')) (vx (t_ss t)) /\ near (15 # 10 ^ 14) 40 (vy (t_ss t')) (vy (t_ss t)) /\
  near (15 # 10 ^ 14) 40 (vx (t_fs t')) (vx (t_fs t)) /\ near (15 # 10 ^ 14) 40 (vy (t_fs t')) (vy (t_fs t)).

Section Agipd.
Variable fl : Q -> Q.
Hypothesis F : float64 fl.
Let ps := pixel_size AGIPD.
Let psf := pixel_size_fl fl AGIPD.
Lemma agipd_metres : forall quad_pos ag pg g,
  (forall q, In q quad_pos -> Qabs (fst q) <= 100000 /\ Qabs (snd q) <= 100000)%Q -> (Qabs ag <= 5000)%Q -> (Qabs pg <= 5000)%Q ->
  agipd_from_quad_positions quad_pos ag pg ps = Ok g ->
  exists g', agipd_from_quad_positions_fl fl quad_pos ag pg psf = Ok g' /\
    Forall2 (Forall2 mclose) g' g.
Proof.
  intros quad_pos ag pg g HQ HA HP E. eapply mapM_related; [exact E|]. clear E. intros p md Hp E. cbv beta zeta in E |- *.
  fold ps psf in E |- *.
  destruct (py_index quad_pos (p / 4)) as [qc|] eqn:E1; [|discriminate]. cbn [bind] in *.
  destruct (py_index [1; 1; -1; -1] (p / 4)) as [xo|] eqn:E2; [|discriminate]. cbn [bind] in *.
  destruct (py_index [-1; -1; 1; 1] (p / 4)) as [yo|] eqn:E3; [|discriminate]. cbn [bind] in *.
  apply Ok_eq in E. subst md. eexists. split; [reflexivity|].
  apply py_index_in in E1. destruct (HQ qc E1) as [Q1 Q2].
  apply py_index_in in E2. assert (X : Z.abs xo <= 1) by (repeat destruct E2 as [<-|E2]; try lia; destruct E2). clear E2.
  apply py_index_in in E3. assert (Y : Z.abs yo <= 1) by (repeat destruct E3 as [<-|E3]; try lia; destruct E3). clear E3.
  assert (SC : forall q, (Qabs q <= 100000)%Q -> near (21 # 10 ^ 15) 20 (fmul fl q psf) (q * ps)).
  { intros q Hq. assert (A : (Qabs (q * ps) <= 20)%Q) by (rewrite Qabs_Qmult; change (Qabs ps) with (2 # 10000)%Q; lra).
    eapply near_weaken; [apply (near_scale F) with (w := ps) (M := 20%Q)| |apply Qle_refl]; first [exact A|num]. }
  assert (M4 : 0 <= p mod 4 < 4) by (apply Z.mod_pos_bound; lia).
  assert (NY : near (15 # 10 ^ 14) 40
     (fsub fl (fmul fl (snd qc) psf) (fmul fl (inject_Z (p mod 4)) (fmul fl (fadd fl (inject_Z (frag_fs AGIPD)) (fdiv fl (fmul fl pg psf) psf)) psf)))
     (snd qc * ps - inject_Z (p mod 4) * ((inject_Z (frag_fs AGIPD) + pg * ps / ps) * ps))).
  { eapply near_sub with (e2 := 5 # 10 ^ 14) (M2 := 8%Q); [exact F|exact (SC _ Q2)| |num|num|num|num].
    eapply near_mul; [exact F|apply (near_int (z := p mod 4) (b := 3)); lia|apply (near_gap F (z := 128) HP); lia| | | |]; num. }
  assert (ZR : forall a, In a (zr 8) -> 0 <= a < 8).
  { intros a Ha. unfold zr in Ha. apply in_map_iff in Ha as (n & <- & Hn). apply in_seq in Hn. lia. }
  induction (zr 8) as [|a l IH]; cbn [map]; constructor; [|apply IH; intros b Hb; apply ZR; right; exact Hb].
  specialize (ZR a (or_introl eq_refl)). clear IH.
  assert (NX : near (15 # 10 ^ 14) 40
     (fadd fl (fmul fl (fst qc) psf) (fmul fl (fmul fl (inject_Z xo) (fmul fl (fadd fl (inject_Z (frag_ss AGIPD)) (fdiv fl (fmul fl ag psf) psf)) psf)) (inject_Z a)))
     (fst qc * ps + inject_Z xo * ((inject_Z (frag_ss AGIPD) + ag * ps / ps) * ps) * inject_Z a)).
  { eapply near_add with (e2 := 11 # 10 ^ 14) (M2 := 16%Q); [exact F|exact (SC _ Q1)| |num|num|num|num].
    eapply near_mul with (e1 := 15 # 10 ^ 15) (M1 := 2%Q); [exact F| |apply (near_int (z := a) (b := 7)); lia|num|num|num|num].
    eapply near_mul; [exact F|exact (near_int X)|apply (near_gap F (z := 64) HA); lia| | | |]; num. }
  assert (W1 : (0 <= ps)%Q) by num. assert (W2 : (ps <= 1)%Q) by num.
  assert (UN : forall z, Z.abs z <= 1 -> near (15 # 10 ^ 14) 40 (fmul fl (inject_Z z) psf) (ps * inject_Z z)).
  { intros z Hz. eapply near_weaken; [exact (near_unit F Hz W1 W2)|num|num]. }
  assert (D : AGIPD <> DSSC) by discriminate.
  unfold mclose. cbn [t_corner t_ss t_fs t_ss_px t_fs_px vx vy vz fvmul vmul].
  split; [reflexivity|]. split; [reflexivity|].
  split; [apply NX|]. split; [apply NY|].
  split; [apply (UN xo X)|]. split; [apply (UN 0 ltac:(lia))|].
  split; [apply (UN 0 ltac:(lia))|apply (UN yo Y)].
Qed.
End Agipd.

Section Lpd.
Variable fl : Q -> Q.
Hypothesis F : float64 fl.
Let ps := pixel_size LPD.
Let psf := pixel_size_fl fl LPD.

Lemma lpd_metres : forall quad_pos w ag pg g,
  (1 # 10000 <= w)%Q -> (w <= 1 # 100)%Q ->
  (forall q, In q quad_pos -> Qabs (fst q * w) <= 20 /\ Qabs (snd q * w) <= 20)%Q -> small_gap ag -> small_gap pg ->
  lpd_from_quad_positions quad_pos w ag pg = Ok g ->
  exists g', lpd_from_quad_positions_fl fl quad_pos (fl w) ag pg = Ok g' /\
    Forall2 (Forall2 mclose) g' g.
Proof.
  intros quad_pos w ag pg g W1 W2 HQ HA HP E. eapply mapM_related; [exact E|]. clear E. intros p md Hp E. cbv beta zeta in E |- *.
  fold ps psf in E |- *. pose proof (near_gap_px F W1 W2 HA) as NA. pose proof (near_gap_px F W1 W2 HP) as NP.
  set (agf := match ag with None => 4%Q | Some _ => _ end) in NA |- *. set (pgf := match pg with None => 4%Q | Some _ => _ end) in NP |- *.
  set (age := match ag with None => 4%Q | Some _ => _ end) in NA, E. set (pge := match pg with None => 4%Q | Some _ => _ end) in NP, E.
  clearbody agf pgf age pge.
  destruct (py_index quad_pos (p / 4)) as [qc|] eqn:E1; [|discriminate]. cbn [bind] in *.
  destruct (py_index [-1; -1; 0; 0] (p mod 4)) as [pa|] eqn:E2; [|discriminate]. cbn [bind] in *.
  destruct (py_index [0; -1; -1; 0] (p mod 4)) as [pu|] eqn:E3; [|discriminate]. cbn [bind] in *.
  apply Ok_eq in E. subst md. eexists. split; [reflexivity|].
  apply py_index_in in E1. destruct (HQ qc E1) as [Q1 Q2].
  apply py_index_in in E2. assert (X : Z.abs pa <= 1) by (destruct E2 as [<-|[<-|[<-|[<-|[]]]]]; lia). clear E2.
  apply py_index_in in E3. assert (Y : Z.abs pu <= 1) by (destruct E3 as [<-|[<-|[<-|[<-|[]]]]]; lia). clear E3.
  assert (SC : forall q, (Qabs (q * w) <= 20)%Q -> near (21 # 10 ^ 15) 20 (fmul fl q (fl w)) (q * w)).
  { intros q Hq. assert (W3 : (1 # 10 ^ 6 <= w)%Q) by (apply Qle_trans with (1 # 10000)%Q; [num|exact W1]). assert (W4 : (w <= 1)%Q) by lra.
    eapply near_weaken; [apply (near_scale F W3 W4 Hq); num|num|num]. }
  assert (O1 : 0 <= 1 <= 1) by lia.
  assert (NW : near (5 # 10 ^ 11) 17000 (fadd fl (fadd fl 256 agf) pgf) (256 + age + pge)).
  { eapply near_add with (e1 := 5 # 10 ^ 12) (M1 := 2256%Q); [exact F| |exact NP|num|num|num|num].
    eapply near_add; [exact F|apply (near_int (z := 256) (b := 256)); lia|exact NA|num|num|num|num]. }
  assert (NH : near (5 # 10 ^ 11) 17000 (fadd fl (fadd fl 256 (fmul fl 7 agf)) pgf) (256 + 7 * age + pge)).
  { eapply near_add with (e1 := 34 # 10 ^ 12) (M1 := 14256%Q); [exact F| |exact NP|num|num|num|num].
    eapply near_add with (e2 := 31 # 10 ^ 12) (M2 := 14000%Q); [exact F|apply (near_int (z := 256) (b := 256)); lia| |num|num|num|num].
    eapply near_mul; [exact F|apply (near_int (z := 7) (b := 7)); lia|exact NA|num|num|num|num]. }
  assert (NX0 : near (7 # 10 ^ 14) 29 (fadd fl (fmul fl (fst qc) (fl w)) (fmul fl (inject_Z pa) (fmul fl (fadd fl (fadd fl 256 agf) pgf) psf)))
     (fst qc * w + inject_Z pa * ((256 + age + pge) * ps))).
  { eapply near_add; [exact F|exact (SC _ Q1)|exact (near_size F NW X O1)|num|num|num|num]. }
  assert (NY0 : near (7 # 10 ^ 14) 29 (fadd fl (fmul fl (snd qc) (fl w)) (fmul fl (inject_Z pu) (fmul fl (fadd fl (fadd fl 256 (fmul fl 7 agf)) pgf) psf)))
     (snd qc * w + inject_Z pu * ((256 + 7 * age + pge) * ps))).
  { eapply near_add; [exact F|exact (SC _ Q2)|exact (near_size F NH Y O1)|num|num|num|num]. }
  set (px' := fadd fl (fmul fl (fst qc) (fl w)) _) in *. set (py' := fadd fl (fmul fl (snd qc) (fl w)) _) in *.
  set (px := (fst qc * w + _)%Q) in *. set (py := (snd qc * w + _)%Q) in *. clearbody px' py' px py. clear NW NH.
  assert (Tw : near (1 # 10 ^ 11) 10 (fmul fl (fadd fl (inject_Z (frag_fs LPD)) agf) psf) ((inject_Z (frag_fs LPD) + age) * ps)).
  { eapply near_mul with (e1 := 5 # 10 ^ 12) (M1 := 2128%Q); [exact F| |exact (near_psf F)|num|num|num|num].
    eapply near_add; [exact F|apply (near_int (z := 128) (b := 128)); lia|exact NA|num|num|num|num]. }
  assert (Th : near (1 # 10 ^ 11) 10 (fmul fl (fadd fl (inject_Z (frag_ss LPD)) agf) psf) ((inject_Z (frag_ss LPD) + age) * ps)).
  { eapply near_mul with (e1 := 5 # 10 ^ 12) (M1 := 2128%Q); [exact F| |exact (near_psf F)|num|num|num|num].
    eapply near_add; [exact F|apply (near_int (z := 32) (b := 32)); lia|exact NA|num|num|num|num]. }
  assert (TS : forall c, 0 <= c <= 128 -> near (1 # 10 ^ 15) (1 # 10) (fmul fl (inject_Z c) psf) (inject_Z c * ps)).
  { intros c Hc. eapply near_mul; [exact F|apply (near_int (z := c) (b := 128)); lia|exact (near_psf F)|num|num|num|num]. }
  assert (ZR : forall a, In a (zr 16) -> 0 <= a < 16).
  { intros a Ha. unfold zr in Ha. apply in_map_iff in Ha as (n & <- & Hn). apply in_seq in Hn. lia. }
  clear Hp. induction (zr 16) as [|a l IH]; cbn [map]; constructor; [|apply IH; intros b Hb; apply ZR; right; exact Hb].
  specialize (ZR a (or_introl eq_refl)). clear IH.
  assert (Up : Z.abs (if a <? 8 then - a else - (15 - a)) <= 7) by (destruct (Z.ltb_spec a 8); lia).
  assert (Ac : Z.abs (if a <? 8 then -1 else 0) <= 1) by (destruct (a <? 8); lia).
  set (up := if a <? 8 then - a else - (15 - a)) in *. set (across := if a <? 8 then -1 else 0) in *. clearbody up across.
  assert (D : LPD <> DSSC) by discriminate.
  assert (NX : near (15 # 10 ^ 14) 40
    (fsub fl (fadd fl (fadd fl px' (fmul fl (inject_Z across) (fmul fl (fadd fl (inject_Z (frag_fs LPD)) agf) psf))) (fmul fl 0 (fmul fl (fadd fl (inject_Z (frag_ss LPD)) agf) psf)))
       (fmul fl (inject_Z (frag_fs LPD)) psf))
    (px + (inject_Z (frag_fs LPD) + age) * ps * inject_Z across + (inject_Z (frag_ss LPD) + age) * ps * 0 - inject_Z (frag_fs LPD) * ps)).
  { eapply near_sub with (e1 := 11 # 10 ^ 14) (M1 := 31%Q); [exact F| |apply (TS 128); lia|num|num|num|num].
    eapply near_add with (e1 := 9 # 10 ^ 14) (M1 := 31%Q); [exact F| |exact (near_zero F Th)|num|num|num|num].
    eapply near_add; [exact F|exact NX0|apply (near_tile_size1 F (c := 128)); [lia|exact NA|exact Ac]|num|num|num|num]. }
  assert (NY : near (15 # 10 ^ 14) 40
    (fsub fl (fadd fl (fadd fl py' (fmul fl 0 (fmul fl (fadd fl (inject_Z (frag_fs LPD)) agf) psf))) (fmul fl (inject_Z up) (fmul fl (fadd fl (inject_Z (frag_ss LPD)) agf) psf)))
       (fmul fl (inject_Z (frag_ss LPD)) psf))
    (py + (inject_Z (frag_fs LPD) + age) * ps * 0 + (inject_Z (frag_ss LPD) + age) * ps * inject_Z up - inject_Z (frag_ss LPD) * ps)).
  { eapply near_sub with (e1 := 13 # 10 ^ 14) (M1 := 38%Q); [exact F| |apply (TS 32); lia|num|num|num|num].
    eapply near_add with (e1 := 8 # 10 ^ 14) (M1 := 29%Q); [exact F| |apply (near_tile_size F (c := 32)); [lia|exact NA|exact Up]|num|num|num|num].
    eapply near_add; [exact F|exact NY0|exact (near_zero F Tw)|num|num|num|num]. }
  assert (W0 : (0 <= ps)%Q) by num. assert (W5 : (ps <= 1)%Q) by num.
  assert (UN : forall z, Z.abs z <= 1 -> near (15 # 10 ^ 14) 40 (fmul fl (inject_Z z) psf) (ps * inject_Z z)).
  { intros z Hz. eapply near_weaken; [exact (near_unit F Hz W0 W5)|num|num]. }
  unfold mclose. cbn [t_corner t_ss t_fs t_ss_px t_fs_px vx vy vz fvmul vmul fvadd vadd fvsub vsub].
  split; [reflexivity|]. split; [reflexivity|].
  split; [apply NX|]. split; [apply NY|].
  split; [apply (UN 0 ltac:(lia))|]. split; [apply (UN 1 ltac:(lia))|].
  split; [apply (UN 1 ltac:(lia))|apply (UN 0 ltac:(lia))].
Qed.

Lemma lpd_h5_metres : forall f quad_pos w g,
  (1 # 10000 <= w)%Q -> (w <= 1 # 100)%Q -> (forall q, In q quad_pos -> small_pair q) ->
  (forall q m p, h5_module f q m = Some p -> small_pair p) -> (forall q m t p, h5_tile f q m t = Some p -> small_pair p) ->
  lpd_from_h5 f quad_pos w = Ok g ->
  exists g', lpd_from_h5_fl fl f quad_pos (fl w) = Ok g' /\
    Forall2 (Forall2 mclose) g' g.
Proof.
  intros f quad_pos w g W1 W2 HQ HM HT E. unfold lpd_from_h5 in E. unfold lpd_from_h5_fl.
  destruct (negb (Nat.eqb (List.length quad_pos) 4)); [discriminate|]. cbv zeta in E |- *.
  eapply mapM_related; [exact E|]. clear E. intros [q m] md Hp E. cbv beta iota zeta in E |- *. fold ps psf in E |- *.
  destruct (py_index quad_pos (q - 1)) as [qc|] eqn:E1; [|discriminate]. cbn [bind] in *.
  destruct (h5_module f q m) as [mo|] eqn:E2; [|discriminate]. cbn [get_key bind] in *.
  eapply mapM_related; [exact E|]. clear E. intros t tl Ht E. cbv beta zeta in E |- *.
  destruct (h5_tile f q m t) as [to|] eqn:E3; [|discriminate]. cbn [get_key bind] in *.
  apply Ok_eq in E. subst tl. eexists. split; [reflexivity|].
  apply py_index_in in E1. destruct (HQ qc E1) as [Q1 Q2]. destruct (HM _ _ _ E2) as [M1 M2]. destruct (HT _ _ _ _ E3) as [T1 T2].
  assert (D : LPD <> DSSC) by discriminate.
  assert (W0 : (0 <= ps)%Q) by num. assert (W5 : (ps <= 1)%Q) by num.
  assert (UN : forall z, Z.abs z <= 1 -> near (15 # 10 ^ 14) 40 (fmul fl (inject_Z z) psf) (ps * inject_Z z)).
  { intros z Hz. eapply near_weaken; [exact (near_unit F Hz W0 W5)|num|num]. }
  assert (UN' : forall z, Z.abs z <= 1 -> near (5 # 10 ^ 19) (5 # 10000) (fmul fl (inject_Z z) psf) (ps * inject_Z z)).
  { intros z Hz. eapply (near_mul_comm F); [exact (near_int Hz)|exact (near_psf F)|num|num|num|num]. }
  assert (ST : forall c z, 0 <= c <= 128 -> Z.abs z <= 1 ->
    near (1 # 10 ^ 15) (1 # 10) (fmul fl (fmul fl (inject_Z z) psf) (inject_Z c)) (inject_Z c * (ps * inject_Z z))).
  { intros c z Hc Hz. eapply (near_mul_comm F); [exact (UN' z Hz)|apply (near_int (z := c) (b := 128)); lia|num|num|num|num]. }
  assert (CO : forall x y zs zf, Z.abs zs <= 1 -> Z.abs zf <= 1 -> near (5 # 10 ^ 14) 30 x y ->
    near (15 # 10 ^ 14) 40
      (fsub fl (fsub fl x (fmul fl (fmul fl (inject_Z zs) psf) (inject_Z (frag_ss LPD)))) (fmul fl (fmul fl (inject_Z zf) psf) (inject_Z (frag_fs LPD))))
      (y - inject_Z (frag_ss LPD) * (ps * inject_Z zs) - inject_Z (frag_fs LPD) * (ps * inject_Z zf))).
  { intros x y zs zf H1 H2 N. eapply near_sub with (e1 := 7 # 10 ^ 14) (M1 := 31%Q); [exact F| |apply (ST 128 zf); [lia|exact H2]|num|num|num|num].
    eapply near_sub; [exact F|exact N|apply (ST 32 zs); [lia|exact H1]|num|num|num|num]. }
  pose proof (CO _ _ 0 1 ltac:(lia) ltac:(lia) (near_place F W1 W2 Q1 M1 T1)) as NX.
  pose proof (CO _ _ 1 0 ltac:(lia) ltac:(lia) (near_place F W1 W2 Q2 M2 T2)) as NY.
  unfold mclose. cbn [t_corner t_ss t_fs t_ss_px t_fs_px vx vy vz fvmul vmul fvadd vadd fvsub vsub].
  split; [reflexivity|]. split; [reflexivity|].
  split; [apply NX|]. split; [apply NY|].
  split; [apply (UN 0 ltac:(lia))|]. split; [apply (UN 1 ltac:(lia))|].
  split; [apply (UN 1 ltac:(lia))|apply (UN 0 ltac:(lia))].
Qed.
End Lpd.

Section Dssc.
Variable fl : Q -> Q.
Hypothesis F : float64 fl.
Variable rs s3 : Q.
Hypothesis R : root_three rs s3.
Let ps := pixel_size DSSC.
Let psf := pixel_size_fl fl DSSC.

Lemma dssc_h5_metres : forall f quad_pos w g,
  (1 # 10000 <= w)%Q -> (w <= 1 # 100)%Q -> (forall q, In q quad_pos -> small_pair q) ->
  (forall q m p, h5_module f q m = Some p -> small_pair p) -> (forall q m t p, h5_tile f q m t = Some p -> small_pair p) ->
  dssc_from_h5 rs f quad_pos w = Ok g ->
  exists g', dssc_from_h5_fl fl s3 f quad_pos (fl w) = Ok g' /\
    Forall2 (Forall2 mclose) g' g.
Proof.
  intros f quad_pos w g W1 W2 HQ HM HT E. unfold dssc_from_h5 in E. unfold dssc_from_h5_fl.
  destruct (negb (Nat.eqb (List.length quad_pos) 4)); [discriminate|]. cbv zeta in E |- *.
  eapply mapM_related; [exact E|]. clear E. intros [q m] md Hp E. cbv beta iota zeta in E |- *. fold ps psf in E |- *.
  destruct (py_index quad_pos (q - 1)) as [qc|] eqn:E1; [|discriminate]. cbn [bind] in *.
  destruct (h5_module f q m) as [mo|] eqn:E2; [|discriminate]. cbn [get_key bind] in *.
  destruct (py_index [-1; -1; 1; 1] (q - 1)) as [xo|] eqn:E4; [|discriminate]. cbn [bind] in *.
  destruct (py_index [1; 1; -1; -1] (q - 1)) as [yo|] eqn:E5; [|discriminate]. cbn [bind] in *.
  eapply mapM_related; [exact E|]. clear E. intros t tl Ht E. cbv beta zeta in E |- *.
  destruct (h5_tile f q m t) as [to|] eqn:E3; [|discriminate]. cbn [get_key bind] in *.
  apply Ok_eq in E. subst tl. eexists. split; [reflexivity|].
  apply py_index_in in E1. destruct (HQ qc E1) as [Q1 Q2]. destruct (HM _ _ _ E2) as [M1 M2]. destruct (HT _ _ _ _ E3) as [T1 T2].
  apply py_index_in in E4. assert (X : Z.abs xo <= 1) by (destruct E4 as [<-|[<-|[<-|[<-|[]]]]]; lia). clear E4.
  apply py_index_in in E5. assert (Y : Z.abs yo <= 1) by (destruct E5 as [<-|[<-|[<-|[<-|[]]]]]; lia). clear E5.
  pose proof (near_place F W1 W2 Q1 M1 T1) as NX. pose proof (near_place F W1 W2 Q2 M2 T2) as NY.
  assert (ST : forall c x y, 0 <= c <= 256 -> near (2 # 10 ^ 18) (3 # 10000) x y -> near (1 # 10 ^ 15) (1 # 10) (fmul fl x (inject_Z c)) (inject_Z c * y)).
  { intros c x y Hc N. eapply (near_mul_comm F); [exact N|apply (near_int (z := c) (b := 256)); lia|num|num|num|num]. }
  assert (CO : forall x y x' y', near (5 # 10 ^ 14) 30 x y -> near (1 # 10 ^ 15) (1 # 10) x' y' -> near (15 # 10 ^ 14) 40 (fsub fl x x') (y - y')).
  { intros x y x' y' N N'. eapply near_sub; [exact F|exact N|exact N'|num|num|num|num]. }
  assert (W : forall x y, near (2 # 10 ^ 18) (3 # 10000) x y -> near (15 # 10 ^ 14) 40 x y).
  { intros x y N. eapply near_weaken; [exact N|num|num]. }
  assert (Z0 : Z.abs 0 <= 1) by lia.
  unfold mclose. destruct (xo =? -1); cbn [t_corner t_ss t_fs t_ss_px t_fs_px vx vy vz fvmul fvdiv vmul fvadd vadd fvsub vsub].
  - split; [reflexivity|]. split; [reflexivity|].
    split; [apply CO; [exact NX|apply ST; [cbn; lia|exact (near_fs F X)]]|].
    split; [apply CO; [exact NY|apply ST; [cbn; lia|exact (near_fs F Z0)]]|].
    split; [apply W; exact (near_ss F R Z0)|]. split; [apply W; exact (near_ss F R Y)|].
    split; [apply W; exact (near_fs F X)|apply W; exact (near_fs F Z0)].
  - split; [reflexivity|]. split; [reflexivity|].
    split; [apply CO; [exact NX|apply ST; [cbn; lia|exact (near_ss F R Z0)]]|].
    split; [apply CO; [exact NY|apply ST; [cbn; lia|exact (near_ss F R Y)]]|].
    split; [apply W; exact (near_ss F R Z0)|]. split; [apply W; exact (near_ss F R Y)|].
    split; [apply W; exact (near_fs F X)|apply W; exact (near_fs F Z0)].
Qed.
End Dssc.
