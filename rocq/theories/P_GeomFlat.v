(** Detector geometries made with rounded arithmetic lie in one plane: C106. *)

From Coq Require Import QArith Qround Qabs.
From Verif Require Import Base L_Base M_Geom M_GeomFloat S_Geom S_GeomFloat L_GeomFloat3 P_Geom P_GeomFloat.

Local Open Scope Z_scope.
Local Open Scope list_scope.

(** A position or direction with no part along the beam. *)
Definition in_plane (v : vec) : Prop := (vz v == 0)%Q.
Definition tile_in_plane (t : tile) : Prop := in_plane (t_corner t) /\ in_plane (t_ss t) /\ in_plane (t_fs t).

Lemma mapM_all : forall A B (f : A -> res B) (P : B -> Prop) l r, (forall a b, f a = Ok b -> P b) -> mapM f l = Ok r -> Forall P r.
Proof.
  intros A B f P l. induction l as [|a l IH]; cbn [mapM]; intros r H E; [injection E as <-; constructor|].
  apply bind_ok in E as (b & E1 & E). apply bind_ok in E as (bs & E2 & E). injection E as <-. constructor; [exact (H _ _ E1)|exact (IH _ H E2)].
Qed.
Lemma tile_of_all : forall (P : tile -> Prop) g m t tl, Forall (Forall P) g -> tile_at g m t = Some tl -> P tl.
Proof.
  intros P g m t tl F H. unfold tile_at in H. destruct ((0 <=? m) && (0 <=? t)); [|discriminate].
  destruct (nth_error g (Z.to_nat m)) as [md|] eqn:E; [|discriminate]. apply nth_error_In in E, H.
  rewrite Forall_forall in F. specialize (F _ E). rewrite Forall_forall in F. exact (F _ H).
Qed.

Section Flat.
Variable fl : Q -> Q.
Hypothesis Z0 : forall q, (q == 0)%Q -> (fl q == 0)%Q.
Lemma p_mul : forall v q, in_plane v -> in_plane (fvmul fl v q).
Proof. intros v q H. apply Z0. unfold in_plane in H. rewrite H. ring. Qed.
Lemma p_div : forall v q, in_plane v -> in_plane (fvdiv fl v q).
Proof. intros v q H. apply Z0. unfold in_plane in H. rewrite H. unfold Qdiv. ring. Qed.
Lemma p_add : forall v w, in_plane v -> in_plane w -> in_plane (fvadd fl v w).
Proof. intros v w H K. apply Z0. unfold in_plane in *. rewrite H, K. ring. Qed.
Lemma p_sub : forall v w, in_plane v -> in_plane w -> in_plane (fvsub fl v w).
Proof. intros v w H K. apply Z0. unfold in_plane in *. rewrite H, K. ring. Qed.
Lemma p_mk : forall x y, in_plane (mk_vec x y 0).
Proof. reflexivity. Qed.
Ltac plane := repeat first [apply p_mk | apply p_sub | apply p_add | apply p_mul | apply p_div].

Lemma agipd_flat : forall qp ag pg u g, agipd_from_quad_positions_fl fl qp ag pg u = Ok g -> Forall (Forall tile_in_plane) g.
Proof.
  intros qp ag pg u g E. eapply mapM_all; [|exact E]. cbv beta. intros p b H.
  apply bind_ok in H as (? & _ & H). apply bind_ok in H as (? & _ & H). apply bind_ok in H as (? & _ & H). rewrite <- (L_GeomFloat3.Ok_eq H).
  apply Forall_forall. intros t I. apply in_map_iff in I as (a & <- & _). repeat split; cbn [t_corner t_ss t_fs]; plane.
Qed.
Lemma lpd_flat : forall qp u ag pg g, lpd_from_quad_positions_fl fl qp u ag pg = Ok g -> Forall (Forall tile_in_plane) g.
Proof.
  intros qp u ag pg g E. eapply mapM_all; [|exact E]. cbv beta. intros p b H.
  apply bind_ok in H as (? & _ & H). apply bind_ok in H as (? & _ & H). apply bind_ok in H as (? & _ & H). rewrite <- (L_GeomFloat3.Ok_eq H).
  apply Forall_forall. intros t I. apply in_map_iff in I as (a & <- & _). repeat split; cbn [t_corner t_ss t_fs]; plane.
Qed.
Lemma lpd_h5_flat : forall f qp u g, lpd_from_h5_fl fl f qp u = Ok g -> Forall (Forall tile_in_plane) g.
Proof.
  intros f qp u g E. unfold lpd_from_h5_fl in E. destruct (negb _); [discriminate|].
  eapply mapM_all; [|exact E]. cbv beta. intros [q m] b H.
  apply bind_ok in H as (? & _ & H). apply bind_ok in H as (? & _ & H). eapply mapM_all; [|exact H]. cbv beta. intros t tl K.
  apply bind_ok in K as (? & _ & K). injection K as <-. repeat split; cbn [t_corner t_ss t_fs]; plane.
Qed.
Lemma dssc_flat : forall s3 f qp u g, dssc_from_h5_fl fl s3 f qp u = Ok g -> Forall (Forall tile_in_plane) g.
Proof.
  intros s3 f qp u g E. unfold dssc_from_h5_fl in E. destruct (negb _); [discriminate|].
  eapply mapM_all; [|exact E]. cbv beta. intros [q m] b H.
  apply bind_ok in H as (? & _ & H). apply bind_ok in H as (? & _ & H). apply bind_ok in H as (xo & _ & H). apply bind_ok in H as (? & _ & H).
  eapply mapM_all; [|exact H]. cbv beta. intros t tl K.
  apply bind_ok in K as (? & _ & K). injection K as <-. repeat split; cbn [t_corner t_ss t_fs]; try (destruct (xo =? -1)); plane.
Qed.
End Flat.

(** Whatever the quadrant positions, gaps, unit and file are, every tile of an AGIPD,
    LPD or DSSC geometry has its corner and both directions in the plane z = 0, with any
    arithmetic in which zero is exact. *)
Theorem C106_flat : forall fl g, (forall q, q == 0 -> fl q == 0)%Q ->
  (exists qp ag pg u, agipd_from_quad_positions_fl fl qp ag pg u = Ok g) \/
  (exists qp u ag pg, lpd_from_quad_positions_fl fl qp u ag pg = Ok g) \/
  (exists f qp u, lpd_from_h5_fl fl f qp u = Ok g) \/
  (exists s3 f qp u, dssc_from_h5_fl fl s3 f qp u = Ok g) ->
  forall m t tl, tile_at g m t = Some tl -> (vz (t_corner tl) == 0 /\ vz (t_ss tl) == 0 /\ vz (t_fs tl) == 0)%Q.
Proof.
  intros fl g Z0 H m t tl. apply (tile_of_all tile_in_plane). destruct H as [H|[H|[H|H]]].
  - destruct H as (qp & ag & pg & u & H). exact (agipd_flat fl Z0 _ _ _ _ _ H).
  - destruct H as (qp & u & ag & pg & H). exact (lpd_flat fl Z0 _ _ _ _ _ H).
  - destruct H as (f & qp & u & H). exact (lpd_h5_flat fl Z0 _ _ _ _ H).
  - destruct H as (s3 & f & qp & u & H). exact (dssc_flat fl Z0 _ _ _ _ _ H).
Qed.
Print Assumptions C106_flat.

(** binary64 is such arithmetic, and the DSSC geometry of the other examples is made with it. *)
Example C106_flat_example : (forall q, q == 0 -> binary64 q == 0)%Q /\
  exists g tl, dssc_from_h5_fl binary64 ex_s3 ex_h5 lpd_quads (binary64 (1 # 1000)) = Ok g /\ tile_at g 15 1 = Some tl /\
               ~ (vx (t_corner tl) == 0)%Q.
Proof.
  split; [intros q H; unfold binary64; apply Qeq_bool_iff in H; rewrite H; reflexivity|].
  eexists. eexists. split; [vm_compute; reflexivity|]. split; [vm_compute; reflexivity|]. vm_compute. discriminate.
Qed.
