(** Distortion arrays. *)

From Coq Require Import QArith Qround Qabs Lqa.
From Verif Require Import Base L_Base M_Geom S_Geom L_Geom1.

Set Implicit Arguments.
Unset Strict Implicit.

Local Open Scope Z_scope.
Local Open Scope list_scope.

Lemma fold_left_foldM : forall X S (f : S -> X -> S) l s, foldM (fun o x => Ok (f o x)) s l = Ok (fold_left f l s).
Proof. induction l as [|a l IH]; intros s; [reflexivity|]. cbn [foldM fold_left bind]. apply IH. Qed.

Definition dist_write (d : detector) (pix : positions) (e : Z * (Z * tile)) (k : Z * Z * nat) : option (Q * Q * Q) :=
  let '(m, (t, tl)) := e in
  let '(r, c, n) := k in
  let '(sss, sfs) := distortion_slice d m t in
  if in_slice sss r && in_slice sfs c then
    match nth_error (pixel_corners d) n with
    | Some (cs, cf) =>
        let q := vadd (vadd (pix (r / mod_ss d) (r mod mod_ss d) c) (vmul cs (t_ss tl))) (vmul cf (t_fs tl)) in
        Some (vz q, vy q, vx q)
    | None => None
    end
  else None.

Lemma distort_writes : forall d pix e,
  writes (fun (o : distortion) k => let '(r, c, n) := k in o r c n) (dist_write d pix)
    (fun out e => Ok (distort_tile d pix (fst e) out (snd e))) e.
Proof.
  intros d pix (m & t & tl) o. eexists. split; [reflexivity|]. intros [[r c] n]. cbn [fst snd].
  unfold distort_tile, dist_write. destruct (distortion_slice d m t) as [sss sfs].
  destruct (in_slice sss r && in_slice sfs c); [|reflexivity].
  destruct (nth_error (pixel_corners d) n) as [[cs cf]|]; reflexivity.
Qed.


Lemma outline_corners : forall d n, match nth_error (pixel_corners d) n, nth_error (outline d) n with
  | Some (a, b), Some (a', b') => (a == a' /\ b == b')%Q
  | None, None => True
  | _, _ => False
  end.
Proof.
  intros d n. destruct d; cbn; do 6 (destruct n as [|n]; cbn; [split; reflexivity|]); try exact I.
  all: destruct n; exact I.
Qed.

Lemma mod_ss_pos : forall d, 0 < mod_ss d.
Proof. intros []; cbn; lia. Qed.

Lemma distortion_row : forall d m t r c, 0 <= t < n_tiles d ->
  let '(sss, sfs) := distortion_slice d m t in
  in_slice sss r && in_slice sfs c = true ->
  exists s f, in_tile d s f /\ r = m * mod_ss d + fst (data_pixel d t s f) /\ c = snd (data_pixel d t s f).
Proof.
  intros d m t r c Ht. unfold distortion_slice.
  pose proof (fun ss => @tile_slice_spec d t ss c Ht) as S. destruct (tile_slice d t) as [[a b] sfs]. cbn [fst snd] in *.
  intros H. apply andb_prop in H. destruct H as [H1 H2]. unfold in_slice in H1. cbn [fst snd] in H1.
  rewrite andb_true_iff, Z.leb_le, Z.ltb_lt in H1.
  specialize (S (r - m * mod_ss d)).
  destruct S as [S1 S2].
  { rewrite H2. unfold in_slice. cbn [fst snd]. rewrite (proj2 (Z.leb_le _ _)), (proj2 (Z.ltb_lt _ _)) by lia. reflexivity. }
  eexists _, _. split; [exact S1|]. rewrite S2. cbn. split; [lia|reflexivity].
Qed.

Lemma distortion_row_pixel : forall d m t s f, 0 <= t < n_tiles d -> in_tile d s f ->
  let '(sss, sfs) := distortion_slice d m t in
  in_slice sss (m * mod_ss d + fst (data_pixel d t s f)) && in_slice sfs (snd (data_pixel d t s f)) = true.
Proof.
  intros d m t s f Ht Hp. pose proof (tile_slice_pixel Ht Hp) as P. unfold distortion_slice.
  destruct (tile_slice d t) as [[a b] sfs]. destruct (data_pixel d t s f) as [ss fs]. cbn [fst snd] in *.
  destruct P as (P & _ & _). apply andb_prop in P. destruct P as [P1 P2]. rewrite P2, andb_true_r.
  unfold in_slice in *. cbn [fst snd] in *. rewrite andb_true_iff, Z.leb_le, Z.ltb_lt in *. lia.
Qed.

Lemma row_unique : forall d m m' ss ss', 0 <= ss < mod_ss d -> 0 <= ss' < mod_ss d ->
  m * mod_ss d + ss = m' * mod_ss d + ss' -> m = m' /\ ss = ss'.
Proof. intros d m m' ss ss' H H' E. assert (m = m') by nia. subst. lia. Qed.

Definition raw_distortion (d : detector) (g : geometry) (pix : positions) : distortion :=
  fold_left (fun out mi => fold_left (distort_tile d pix (fst mi)) (zenum (snd mi)) out) (zenum g) (fun _ _ _ => (0, 0, 0)%Q).

Lemma raw_distortion_spec : forall d g, fits d g -> exists pix, get_pixel_positions d g false = Ok pix /\
  (forall m t tl s f n o, tile_at g m t = Some tl -> in_tile d s f -> nth_error (outline d) n = Some o ->
     let v := corner_point d tl s f o in
     teq (raw_distortion d g pix (m * mod_ss d + fst (data_pixel d t s f)) (snd (data_pixel d t s f)) n) (vz v, vy v, vx v)) /\
  (forall r c n, (forall m t tl s f, tile_at g m t = Some tl -> in_tile d s f ->
        r = m * mod_ss d + fst (data_pixel d t s f) -> c <> snd (data_pixel d t s f)) ->
     raw_distortion d g pix r c n = (0, 0, 0)%Q).
Proof.
  intros d g F. destruct (@positions_spec d g false F) as (pix & Ep & Hp & _). exists pix. split; [exact Ep|].
  destruct (@foldM_writes distortion (Z * (Z * tile)) (Z * Z * nat) (Q * Q * Q)
              (fun o k => let '(r, c, n) := k in o r c n) (dist_write d pix)
              (fun out e => Ok (distort_tile d pix (fst e) out (snd e))) (entries g) (fun _ _ _ => (0, 0, 0)%Q)) as (a & Ea & W).
  { intros e _. apply distort_writes. }
  rewrite fold_left_foldM in Ea. injection Ea as Ea.
  unfold raw_distortion. rewrite fold_left_entries, Ea. split.
  - intros m t tl s f n o Ht Hi Hn. set (v := corner_point d tl s f o).
    destruct (fits_at F Ht) as (Hm & Htr & _).
    pose proof (data_pixel_in Htr Hi) as [Din _].
    set (r := m * mod_ss d + fst (data_pixel d t s f)) in *. set (c := snd (data_pixel d t s f)) in *.
    assert (Er : r / mod_ss d = m /\ r mod mod_ss d = fst (data_pixel d t s f)).
    { pose proof (mod_ss_pos d). unfold r. rewrite Z.add_comm, Z.div_add, Z.mod_add by lia.
      rewrite Z.div_small, Z.mod_small by lia. lia. }
    assert (Wt : exists e, dist_write d pix (m, (t, tl)) (r, c, n) = Some e /\ teq e (vz v, vy v, vx v)).
    { unfold dist_write. pose proof (@distortion_row_pixel d m t s f Htr Hi) as P. fold r c in P.
      destruct (distortion_slice d m t) as [sss sfs]. rewrite P.
      pose proof (outline_corners d n) as O. rewrite Hn in O.
      destruct (nth_error (pixel_corners d) n) as [[cs cf]|]; [|destruct O]. destruct o as [os of_]. destruct O as [O1 O2].
      eexists. split; [reflexivity|]. destruct Er as [-> ->].
      unfold c. rewrite (Hp _ _ _ _ _ Ht Hi).
      destruct (@adjust_corner d s f (proj1 (proj1 Hi))) as [J1 J2].
      unfold v, corner_point. destruct (pixel_origin d s f) as [u w]. cbn [fst snd] in *.
      unfold teq, d_z, d_y, d_x, tile_point, point, vadd, vmul. cbn [vx vy vz fst snd]. rewrite O1, O2, J1, J2.
      repeat split; ring. }
    destruct Wt as (e0 & We & Te).
    destruct (W (r, c, n)) as [(l1 & (m' & t' & tl') & l2 & El & Hw & _)|[Hno _]].
    + assert (Hin : In (m', (t', tl')) (entries g)) by (rewrite El; apply in_or_app; right; left; reflexivity).
      apply entries_In in Hin. rewrite <- tile_at_at in Hin. destruct (fits_at F Hin) as (_ & Htr' & _).
      assert (Same : m' = m /\ t' = t).
      { unfold dist_write in Hw. pose proof (@distortion_row d m' t' r c Htr') as P.
        destruct (distortion_slice d m' t') as [sss sfs]. destruct (in_slice sss r && in_slice sfs c); [|discriminate].
        destruct (P eq_refl) as (s' & f' & Hi' & E1 & E2).
        pose proof (data_pixel_in Htr' Hi') as [Din' _].
        unfold r in E1. destruct (row_unique Din Din' E1) as [-> E3].
        destruct (@data_pixel_inj d t s f t' s' f' Htr Hi Htr' Hi') as (-> & _); [|auto].
        unfold c in E2. destruct (data_pixel d t s f), (data_pixel d t' s' f'); cbn in *; congruence. }
      destruct Same as [-> ->]. rewrite Ht in Hin. injection Hin as <-.
      rewrite We in Hw. injection Hw as <-. exact Te.
    + exfalso. rewrite Hno in We; [discriminate|]. apply entries_In. exact Ht.
  - intros r c n Hnone.
    destruct (W (r, c, n)) as [(l1 & (m' & t' & tl') & l2 & El & Hw & _)|[_ He]]; [|exact He].
    exfalso. assert (Hin : In (m', (t', tl')) (entries g)) by (rewrite El; apply in_or_app; right; left; reflexivity).
    apply entries_In in Hin. rewrite <- tile_at_at in Hin. destruct (fits_at F Hin) as (_ & Htr' & _).
    unfold dist_write in Hw. pose proof (@distortion_row d m' t' r c Htr') as P.
    destruct (distortion_slice d m' t') as [sss sfs]. destruct (in_slice sss r && in_slice sfs c); [|discriminate].
    destruct (P eq_refl) as (s' & f' & Hi' & E1 & E2).
    exact (Hnone _ _ _ _ _ Hin Hi' E1 E2).
Qed.

(** ** Minimum *)

Lemma qmin_spec : forall a b, (qmin a b <= a /\ qmin a b <= b)%Q /\ (qmin a b = a \/ qmin a b = b).
Proof.
  intros a b. unfold qmin. destruct (Qle_bool a b) eqn:E.
  - apply Qle_bool_iff in E. split; [split; [apply Qle_refl|exact E]|left; reflexivity].
  - split; [|right; reflexivity]. split; [|apply Qle_refl].
    destruct (Qlt_le_dec b a) as [L|L]; [apply Qlt_le_weak; exact L|]. apply Qle_bool_iff in L. congruence.
Qed.

Lemma qmin_list_spec : forall l z, (forall x, In x (z :: l) -> (qmin_list l z <= x)%Q) /\ In (qmin_list l z) (z :: l).
Proof.
  unfold qmin_list. induction l as [|a l IH]; intros z; cbn [fold_left].
  - split; [intros x [<-|[]]; apply Qle_refl|left; reflexivity].
  - destruct (IH (qmin z a)) as [H1 H2]. destruct (qmin_spec z a) as [[Q1 Q2] Q3]. split.
    + intros x [<-|[<-|Hx]].
      * eapply Qle_trans; [apply H1; left; reflexivity|exact Q1].
      * eapply Qle_trans; [apply H1; left; reflexivity|exact Q2].
      * apply H1. right. exact Hx.
    + destruct H2 as [H2|H2]; [|right; right; exact H2]. rewrite <- H2.
      destruct Q3 as [-> | ->]; [left|right; left]; reflexivity.
Qed.


Lemma outline_length : forall d, List.length (pixel_corners d) = List.length (outline d).
Proof. intros []; reflexivity. Qed.

Lemma distortion_entries_In : forall d a e, In e (distortion_entries d a) <-> exists r c n, in_array d r c n /\ e = a r c n.
Proof.
  intros d a e. unfold distortion_entries, in_array. rewrite in_flat_map. split.
  - intros (r & Hr & H). apply in_flat_map in H. destruct H as (c & Hc & H). apply in_map_iff in H. destruct H as (n & <- & Hn).
    apply in_seq in Hr, Hc, Hn. exists (Z.of_nat r), (Z.of_nat c), n. rewrite <- outline_length.
    pose proof (mod_ss_pos d). split; [|reflexivity].
    unfold n_modules in *. change (Z.to_nat 16) with 16%nat in Hr. repeat split; lia.
  - intros (r & c & n & (Hr & Hc & Hn) & ->). rewrite <- outline_length in Hn. pose proof (mod_ss_pos d).
    exists (Z.to_nat r). split; [apply in_seq; unfold n_modules in *; change (Z.to_nat 16) with 16%nat; lia|].
    apply in_flat_map. exists (Z.to_nat c). split; [apply in_seq; lia|].
    apply in_map_iff. exists n. rewrite !Z2Nat.id by lia. split; [reflexivity|]. apply in_seq. lia.
Qed.

Lemma distortion_spec : forall d g allow, fits d g -> exists a dy dx, to_distortion_array d g allow = Ok a /\
  (forall m t tl s f n o, tile_at g m t = Some tl -> in_tile d s f -> nth_error (outline d) n = Some o ->
     let v := corner_point d tl s f o in
     teq (a (m * mod_ss d + fst (data_pixel d t s f)) (snd (data_pixel d t s f)) n) (vz v, vy v - dy, vx v - dx)%Q) /\
  (allow = true -> dy = 0%Q /\ dx = 0%Q) /\
  (allow = false ->
     (forall r c n, in_array d r c n -> (0 <= d_y (a r c n) /\ 0 <= d_x (a r c n))%Q) /\
     (exists r c n, in_array d r c n /\ (d_y (a r c n) == 0)%Q) /\
     (exists r c n, in_array d r c n /\ (d_x (a r c n) == 0)%Q)).
Proof.
  intros d g allow F. destruct (raw_distortion_spec F) as (pix & Ep & R & _).
  set (a0 := raw_distortion d g pix) in *.
  destruct allow.
  - exists a0, 0%Q, 0%Q. split.
    + unfold to_distortion_array. rewrite Ep. reflexivity.
    + split; [|split; [auto|discriminate]]. intros m t tl s f n o Ht Hi Hn v.
      destruct (R m t tl s f n o Ht Hi Hn) as (R1 & R2 & R3). fold v in R1, R2, R3. repeat split; cbn in *.
      * exact R1. * rewrite R2. ring. * rewrite R3. ring.
  - destruct (distortion_entries d a0) as [|e es] eqn:Ee.
    { exfalso. assert (In (a0 0 0 0%nat) (distortion_entries d a0)).
      { apply distortion_entries_In. exists 0, 0, 0%nat. split; [|reflexivity]. unfold in_array. destruct d; cbn; lia. }
      rewrite Ee in H. destruct H. }
    set (miny := qmin_list (map d_y es) (d_y e)). set (minx := qmin_list (map d_x es) (d_x e)).
    exists (fun r c k => let v := a0 r c k in (d_z v, d_y v - miny, d_x v - minx)%Q), miny, minx. split.
    { unfold to_distortion_array. rewrite Ep. cbn [bind]. fold (raw_distortion d g pix). fold a0. cbv zeta. rewrite Ee. reflexivity. }
    split; [|split; [discriminate|]].
    + intros m t tl s f n o Ht Hi Hn v.
      destruct (R m t tl s f n o Ht Hi Hn) as (R1 & R2 & R3). fold v in R1, R2, R3. unfold teq in *. cbv zeta.
      unfold d_z, d_y, d_x in *. cbn [fst snd] in *. rewrite R1, R2, R3. repeat split; reflexivity.
    + intros _. destruct (qmin_list_spec (map d_y es) (d_y e)) as [Y1 Y2]. fold miny in Y1, Y2.
      destruct (qmin_list_spec (map d_x es) (d_x e)) as [X1 X2]. fold minx in X1, X2.
      change (d_y e :: map d_y es) with (map d_y (e :: es)) in Y1, Y2. change (d_x e :: map d_x es) with (map d_x (e :: es)) in X1, X2.
      rewrite <- Ee in *. split; [|split].
      * intros r c n Hin. cbv zeta. unfold d_y at 1, d_x at 2. cbn [fst snd].
        assert (I : In (a0 r c n) (distortion_entries d a0)) by (apply distortion_entries_In; eauto).
        specialize (Y1 _ (in_map d_y _ _ I)). specialize (X1 _ (in_map d_x _ _ I)). split; [lra|].
        unfold d_x in *. cbn [snd]. lra.
      * apply in_map_iff in Y2. destruct Y2 as (e' & Ey & I). apply distortion_entries_In in I. destruct I as (r & c & n & Hin & ->).
        exists r, c, n. split; [exact Hin|]. cbv zeta. unfold d_y at 1. cbn [fst snd]. rewrite Ey. ring.
      * apply in_map_iff in X2. destruct X2 as (e' & Ey & I). apply distortion_entries_In in I. destruct I as (r & c & n & Hin & ->).
        exists r, c, n. split; [exact Hin|]. cbv zeta. unfold d_x at 1. cbn [fst snd]. rewrite Ey. ring.
Qed.

(** ** Neighbouring pixels share corners *)

Lemma shared_corners : forall d t s f k ds df k' o o', In (k, (ds, df), k') (shared d s) ->
  nth_error (outline d) k = Some o -> nth_error (outline d) k' = Some o' ->
  veq (corner_point d t s f o) (corner_point d t (s + ds) (f + df) o').
Proof.
  intros d t s f k ds df k' o o' H Ho Ho'.
  assert (G : (fst (pixel_origin d s f) + fst o == fst (pixel_origin d (s + ds) (f + df)) + fst o' /\
               snd (pixel_origin d s f) + snd o == snd (pixel_origin d (s + ds) (f + df)) + snd o')%Q).
  { destruct d; cbn [shared] in H; cbn [outline] in Ho, Ho'.
    - repeat (destruct H as [H|H]; [injection H as <- <- <- <-; cbn in Ho, Ho'; injection Ho as <-; injection Ho' as <-;
        cbn [pixel_origin fst snd]; rewrite !inject_Z_plus; cbn; split; ring|]). destruct H.
    - repeat (destruct H as [H|H]; [injection H as <- <- <- <-; cbn in Ho, Ho'; injection Ho as <-; injection Ho' as <-;
        cbn [pixel_origin fst snd]; rewrite !inject_Z_plus; cbn; split; ring|]). destruct H.
    - assert (O0 : Z.odd (s + 0) = Z.odd s) by (rewrite Z.add_0_r; reflexivity).
      assert (O1 : Z.odd (s + 1) = negb (Z.odd s)) by (rewrite Z.odd_add; destruct (Z.odd s); reflexivity).
      destruct (Z.odd s) eqn:Os; cbv zeta in H;
      repeat (destruct H as [H|H]; [injection H as <- <- <- <-; cbn in Ho, Ho'; injection Ho as <-; injection Ho' as <-;
        cbn [pixel_origin fst snd]; rewrite ?O0, ?O1, ?Os, !inject_Z_plus; cbn; split; ring|]); destruct H. }
  unfold corner_point. destruct (pixel_origin d s f) as [a b]. destruct (pixel_origin d (s + ds) (f + df)) as [a' b']. cbn [fst snd] in G.
  destruct G as [G1 G2]. unfold veq, point. cbn. rewrite G1, G2. repeat split; reflexivity.
Qed.
