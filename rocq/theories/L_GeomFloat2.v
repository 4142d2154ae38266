(** Images from rounded geometries. *)

From Coq Require Import QArith Qround Qabs Lqa.
From Verif Require Import Base L_Base M_Geom M_GeomFloat S_Geom S_GeomFloat L_Geom1 L_Geom2 L_GeomFloat.

Set Implicit Arguments.
Unset Strict Implicit.

Local Open Scope Z_scope.
Local Open Scope list_scope.

Lemma mapM_eq2 : forall A B C (f : A -> res C) (g : B -> res C) la lb,
  Forall2 (fun a b => f a = g b) la lb -> mapM f la = mapM g lb.
Proof. intros A B C f g la lb H. induction H as [|a b la lb H HF IH]; [reflexivity|]. cbn [mapM]. rewrite H, IH. reflexivity. Qed.

Lemma mapM_related : forall A B C (R : C -> B -> Prop) (f : A -> res B) (f' : A -> res C) l ys, mapM f l = Ok ys ->
  (forall x y, In x l -> f x = Ok y -> exists y', f' x = Ok y' /\ R y' y) -> exists ys', mapM f' l = Ok ys' /\ Forall2 R ys' ys.
Proof.
  intros A B C R f f' l. induction l as [|a l IH]; intros ys E H; cbn [mapM] in *.
  - injection E as <-. exists []. split; [reflexivity|constructor].
  - destruct (f a) as [y|] eqn:Ea; [|discriminate]. cbn [bind] in E. destruct (mapM f l) as [ys0|] eqn:El; [|discriminate]. injection E as <-.
    destruct (H a y (or_introl eq_refl) Ea) as (y' & E1 & R1).
    destruct (IH ys0 eq_refl) as (ys' & E2 & R2); [intros x z Hx; apply H; right; exact Hx|].
    exists (y' :: ys'). rewrite E1. cbn [bind]. rewrite E2. split; [reflexivity|constructor; assumption].
Qed.

Definition E8 : Q := 1 # 10 ^ 8.

(** A tile as computed and as it should be, in pixels. *)
Definition close (fl : Q -> Q) (px' px : Q * Q) (t' t : tile) : Prop :=
  t_ss_px t' = t_ss_px t /\ t_fs_px t' = t_fs_px t /\
  (Qabs (fdiv fl (vx (t_corner t')) (fst px') - vx (t_corner t) / fst px) <= E8)%Q /\
  (Qabs (fdiv fl (vy (t_corner t')) (snd px') - vy (t_corner t) / snd px) <= E8)%Q /\
  (Qabs (fdiv fl (vx (t_ss t')) (fst px') - vx (t_ss t) / fst px) <= E8)%Q /\
  (Qabs (fdiv fl (vy (t_ss t')) (snd px') - vy (t_ss t) / snd px) <= E8)%Q /\
  (Qabs (fdiv fl (vx (t_fs t')) (fst px') - vx (t_fs t) / fst px) <= E8)%Q /\
  (Qabs (fdiv fl (vy (t_fs t')) (snd px') - vy (t_fs t) / snd px) <= E8)%Q.

Definition clear_tile (px : Q * Q) (t : tile) : Prop :=
  clear_of_half E8 (vx (t_corner t) / fst px) /\ clear_of_half E8 (vy (t_corner t) / snd px) /\
  clear_of_half E8 (vx (t_ss t) / fst px) /\ clear_of_half E8 (vy (t_ss t) / snd px) /\
  clear_of_half E8 (vx (t_fs t) / fst px) /\ clear_of_half E8 (vy (t_fs t) / snd px).

Lemma snap_close : forall fl px' px t' t, close fl px' px t' t -> clear_tile px t -> snap_fl fl px' t' = snap px t.
Proof.
  intros fl px' px t' t (H1 & H2 & A1 & A2 & A3 & A4 & A5 & A6) (C1 & C2 & C3 & C4 & C5 & C6).
  assert (E0 : (0 <= E8)%Q) by (vm_compute; discriminate). unfold snap_fl, snap, round_xy_fl, round_xy.
  rewrite (around_near E0 A1 C1), (around_near E0 A2 C2), (around_near E0 A3 C3), (around_near E0 A4 C4), (around_near E0 A5 C5), (around_near E0 A6 C6), H1, H2.
  reflexivity.
Qed.

Lemma image_close : forall A fl (nan : A) px' rs d g' g shape data out,
  Forall2 (Forall2 (close fl px' (pixel_shape rs d))) g' g -> (forall md tl, In md g -> In tl md -> clear_tile (pixel_shape rs d) tl) ->
  position_modules_fast_fl fl nan px' d g' shape data out = position_modules_fast nan rs d g shape data out.
Proof.
  intros A fl nan px' rs d g' g shape data out H C. unfold position_modules_fast_fl, position_modules_fast, snap_geometry_fl, snap_geometry.
  rewrite (@mapM_eq2 _ _ _ (mapM (snap_fl fl px')) (mapM (snap (pixel_shape rs d))) g' g); [reflexivity|].
  assert (C' : forall md tl, In md g -> In tl md -> clear_tile (pixel_shape rs d) tl) by exact C. clear C.
  induction H as [|md' md g' g H HF IH]; constructor.
  - apply mapM_eq2. assert (C : forall tl, In tl md -> clear_tile (pixel_shape rs d) tl) by (intros; eapply C'; [left; reflexivity|assumption]).
    clear C' IH HF. induction H as [|t' t md' md Ht HF IH]; constructor.
    + apply (snap_close Ht). apply C. left. reflexivity.
    + apply IH. intros tl Hl. apply C. right. exact Hl.
  - apply IH. intros m tl Hm. apply C'. right. exact Hm.
Qed.

Lemma near_close : forall e M x y, near e M x y -> (e <= E8)%Q -> (Qabs (x - y) <= E8)%Q.
Proof. intros e M x y [H _] E. lra. Qed.

Lemma py_index_in : forall A (l : list A) i x, py_index l i = Ok x -> In x l.
Proof.
  intros A l i x H. unfold py_index in H. repeat match type of H with context [if ?b then _ else _] => destruct b; try discriminate end;
  unfold nth_res in H; destruct (nth_error l _) eqn:E in H; try discriminate; injection H as <-; eapply nth_error_In; eassumption.
Qed.
