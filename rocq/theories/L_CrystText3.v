(** Lemmas on reading CrystFEL geometry files: lines with equal numbers give equal geometries. *)

From Coq Require Import QArith.
From Verif Require Import Base PyStr M_Stacking S_Stacking S_Open L_Base M_Cxi L_Cxi7 M_Geom S_Geom L_Geom1 L_Geom4 M_Crystfel S_Crystfel L_Crystfel L_Crystfel2
  M_Repr M_InfoText M_CrystText S_CrystText.

Set Implicit Arguments.
Unset Strict Implicit.
Local Open Scope string_scope.
Local Open Scope Z_scope.
Local Open Scope list_scope.

Definition drel {B} (R : B -> B -> Prop) (d e : list (string * B)) : Prop := Forall2 (fun a b => fst a = fst b /\ R (snd a) (snd b)) d e.
Lemma drel_get : forall B (R : B -> B -> Prop) k d e, drel R d e ->
  match dict_get k d, dict_get k e with Some a, Some b => R a b | None, None => True | _, _ => False end.
Proof.
  intros B R k d e H. induction H as [|[a x] [b y] d e [H1 H2] H IH]; cbn in *; [exact I|]. subst b. now destruct (String.eqb k a).
Qed.
Lemma drel_set : forall B (R : B -> B -> Prop) k x y d e, drel R d e -> R x y -> drel R (dict_set k x d) (dict_set k y e).
Proof.
  intros B R k x y d e H Hxy. induction H as [|[a u] [b v] d e [H1 H2] H IH]; cbn in *; [constructor; [auto|constructor]|]. subst b.
  destruct (String.eqb k a); constructor; cbn; auto.
Qed.
Definition cf_rel (g h : cf_geom) : Prop :=
  drel same_value (cf_default g) (cf_default h) /\ drel (drel same_value) (cf_panels g) (cf_panels h) /\ cf_groups g = cf_groups h.
Lemma set_vec_rel : forall d e p v w, drel same_value d e -> same_value v w -> drel same_value (set_vec d p v) (set_vec e p w).
Proof.
  intros d e p v w H S. destruct v as [s|z|q|x y z], w as [s'|z'|q'|x' y' z']; cbn in S |- *; try contradiction; try assumption. destruct S as (S1 & S2 & S3).
  repeat (apply drel_set; [|]); try assumption. cbn. destruct z, z'; try contradiction; [exact S3|reflexivity].
Qed.
Lemma set_field_rel : forall d e k v w, drel same_value d e -> same_value v w -> drel same_value (set_field d k v) (set_field e k w).
Proof.
  intros d e k v w H S. unfold set_field. destruct (String.eqb k "fs"); [now apply set_vec_rel|]. destruct (String.eqb k "ss"); [now apply set_vec_rel|].
  destruct (String.eqb k "corner_x"); [now apply drel_set|]. destruct (String.eqb k "corner_y"); now apply drel_set.
Qed.
Lemma load_line_rel : forall g h k v w, cf_rel g h -> same_value v w -> cf_rel (load_line g (k, v)) (load_line h (k, w)).
Proof.
  intros g h k v w (H1 & H2 & H3) S. unfold load_line. destruct (py_partition slash k) as [[n sep] fld].
  assert (T : text_of v = text_of w) by (destruct v, w; cbn in *; try contradiction; congruence).
  destruct sep as [|c sep].
  - destruct (starts_with "rigid_group" n).
    + split; [exact H1|]. split; [exact H2|]. cbn. now rewrite H3, T.
    + split; [now apply set_field_rel|]. split; assumption.
  - split; [exact H1|]. split; [|exact H3]. cbn [cf_panels]. apply drel_set; [exact H2|]. apply set_field_rel; [|exact S].
    assert (P := @drel_get cf_dict (drel same_value) n _ _ H2). destruct (dict_get n (cf_panels g)), (dict_get n (cf_panels h)); try contradiction; [exact P|exact H1].
Qed.
Lemma load_rel : forall f f', same_lines f f' -> cf_rel (load_crystfel f) (load_crystfel f').
Proof.
  assert (K : forall f f', same_lines f f' -> forall g h, cf_rel g h -> cf_rel (fold_left load_line f g) (fold_left load_line f' h)).
  { intros f f' H. induction H as [|[k v] [k' w] f f' [H1 H2] H IH]; intros g h R; cbn in *; [exact R|]. subst k'. apply IH. now apply load_line_rel. }
  intros f f' H. apply K; [exact H|]. repeat split; constructor.
Qed.
Definition rrel {A} (R : A -> A -> Prop) (x y : res A) : Prop := match x, y with Ok a, Ok b => R a b | Err e, Err e' => e = e' | _, _ => False end.
Lemma bind_rel : forall A B (R : A -> A -> Prop) (S : B -> B -> Prop) x y f g, rrel R x y -> (forall a b, R a b -> rrel S (f a) (g b)) -> rrel S (bind x f) (bind y g).
Proof. intros A B R S [a|e] [b|e'] f g H K; cbn in *; try contradiction; auto. Qed.
Lemma get_num_rel : forall d e k, drel same_value d e -> rrel Qeq (get_num d k) (get_num e k).
Proof.
  intros d e k H. assert (P := drel_get k H). unfold get_num. destruct (dict_get k d) as [[]|], (dict_get k e) as [[]|]; cbn in *; try contradiction; try reflexivity; try assumption. now subst.
Qed.
Lemma get_int_rel : forall d e k, drel same_value d e -> rrel eq (get_int d k) (get_int e k).
Proof.
  intros d e k H. assert (P := drel_get k H). unfold get_int. destruct (dict_get k d) as [[]|], (dict_get k e) as [[]|]; cbn in *; try contradiction; try reflexivity; try assumption.
Qed.
Lemma panel_rel : forall d e, drel same_value d e -> rrel same_tile (from_panel_dict d) (from_panel_dict e).
Proof.
  intros d e H. unfold from_panel_dict.
  do 10 (eapply bind_rel; [apply get_num_rel; exact H|intros ? ? ?]). do 4 (eapply bind_rel; [apply get_int_rel; exact H|intros ? ? ->]).
  cbn [rrel]. unfold same_tile, veq, vdiv. cbn [t_corner t_ss t_fs t_ss_px t_fs_px vx vy vz].
  repeat match goal with K : (_ == _)%Q |- _ => rewrite K; clear K end. repeat split; reflexivity.
Qed.
Lemma mapM_rel : forall A B (R : B -> B -> Prop) (f g : A -> res B) l, (forall a, rrel R (f a) (g a)) -> rrel (Forall2 R) (mapM f l) (mapM g l).
Proof.
  intros A B R f g l H. induction l as [|x l IH]; [constructor|]. cbn [mapM]. eapply bind_rel; [apply H|]. intros a b Hab. eapply bind_rel; [exact IH|]. intros a' b' Hab'. cbn. now constructor.
Qed.
Lemma from_rel : forall d f f', same_lines f f' -> rrel (Forall2 (Forall2 same_tile)) (from_crystfel d f) (from_crystfel d f').
Proof.
  intros d f f' H. unfold from_crystfel. cbv zeta. apply mapM_rel. intros p. apply mapM_rel. intros a. destruct (load_rel H) as (_ & P & _). assert (Q := @drel_get cf_dict (drel same_value) (panel_name p a) _ _ P).
  destruct (dict_get (panel_name p a) (cf_panels (load_crystfel f))), (dict_get (panel_name p a) (cf_panels (load_crystfel f'))); try contradiction; [now apply panel_rel|reflexivity].
Qed.
Lemma F2_nth : forall A (R : A -> A -> Prop) l l' n, Forall2 R l l' -> match nth_error l n, nth_error l' n with Some a, Some b => R a b | None, None => True | _, _ => False end.
Proof. intros A R l l' n H. revert n. induction H as [|a b l l' H1 H IH]; intros [|n]; cbn; auto. apply IH. Qed.
Lemma same_geom_rel : forall g h, Forall2 (Forall2 same_tile) g h -> same_geometry g h.
Proof.
  intros g h H m t. unfold tile_at. destruct ((0 <=? m) && (0 <=? t)); [|exact I]. assert (P := F2_nth (Z.to_nat m) H).
  destruct (nth_error g (Z.to_nat m)), (nth_error h (Z.to_nat m)); try contradiction; [|exact I]. exact (F2_nth (Z.to_nat t) P).
Qed.
Lemma same_tile_trans : forall a b c, same_tile a b -> same_tile b c -> same_tile a c.
Proof.
  assert (V : forall x y z, veq x y -> veq y z -> veq x z) by (intros x y z Hx Hy; exact (veq_trans Hx Hy)).
  intros a b c (A1 & A2 & A3 & A4 & A5) (B1 & B2 & B3 & B4 & B5). split; [exact (V _ _ _ A1 B1)|]. split; [exact (V _ _ _ A2 B2)|]. split; [exact (V _ _ _ A3 B3)|]. split; congruence.
Qed.
Lemma same_geometry_trans : forall a b c, same_geometry a b -> same_geometry b c -> same_geometry a c.
Proof.
  intros a b c H1 H2 m t. specialize (H1 m t). specialize (H2 m t). destruct (tile_at a m t), (tile_at b m t), (tile_at c m t); try contradiction; auto. eapply same_tile_trans; eassumption.
Qed.
Lemma same_geometry_sym : forall a b, same_geometry a b -> same_geometry b a.
Proof.
  intros a b H m t. specialize (H m t). destruct (tile_at a m t), (tile_at b m t); auto. destruct H as (H1 & H2 & H3 & H4 & H5). repeat split; try congruence; apply Qeq_sym; first [apply H1|apply H2|apply H3].
Qed.
