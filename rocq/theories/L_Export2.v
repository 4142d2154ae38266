(** Lemmas on packing, and on what the client reads. *)
From Verif Require Import Base PyStr M_Export S_Export L_Base L_Export1.
Set Implicit Arguments.
Unset Strict Implicit.
Local Open Scope string_scope.
Local Open Scope list_scope.

(** Induction on Python values. *)
Section Ind.
Variable P : pval -> Prop.
Hypothesis Hnone : P PNone.
Hypothesis Hbool : forall b, P (PBool b).
Hypothesis Hint : forall z, P (PInt z).
Hypothesis Hfloat : forall b, P (PFloat b).
Hypothesis Hstr : forall s, P (PStr s).
Hypothesis Hbytes : forall l, P (PBytes l).
Hypothesis Hlist : forall l, Forall P l -> P (PList l).
Hypothesis Htuple : forall l, Forall P l -> P (PTuple l).
Hypothesis Hdict : forall d, Forall (fun p => P (snd p)) d -> P (PDict d).
Hypothesis Hnp : forall n, P (PNp n).
Hypothesis Hnpb : forall b, P (PNpBool b).
Hypothesis Harr : forall a, P (PArr a).
Hypothesis Hother : P POther.
Fixpoint pval_ind' (v : pval) : P v :=
  match v with
  | PNone => Hnone | PBool b => Hbool b | PInt z => Hint z | PFloat b => Hfloat b | PStr s => Hstr s | PBytes l => Hbytes l
  | PList l => Hlist ((fix go (l : list pval) : Forall P l :=
                         match l with [] => Forall_nil P | x :: r => Forall_cons x (pval_ind' x) (go r) end) l)
  | PTuple l => Htuple ((fix go (l : list pval) : Forall P l :=
                         match l with [] => Forall_nil P | x :: r => Forall_cons x (pval_ind' x) (go r) end) l)
  | PDict d => Hdict ((fix go (d : list (string * pval)) : Forall (fun p => P (snd p)) d :=
                         match d with [] => Forall_nil _ | p :: r => Forall_cons p (pval_ind' (snd p)) (go r) end) d)
  | PNp n => Hnp n | PNpBool b => Hnpb b | PArr a => Harr a | POther => Hother
  end.
End Ind.

Section Export.
Variable isize : string -> nat.
Notation pack := (pack isize).
Notation got := (got isize).

(** [pack] with named loops. *)
Definition pack_item np m (p : string * pval) : res (string * wval) :=
  let* w := pack np m (snd p) in Ok (fst p, w).

Lemma pack_list np m l : pack np m (PList l) = let* ws := mapM (pack np m) l in Ok (WArray ws).
Proof.
  cbn [M_Export.pack]. f_equal. induction l as [|x r IH]; [reflexivity|]. cbn [mapM]. now rewrite <- IH.
Qed.
Lemma pack_tuple np m l : pack np m (PTuple l) = let* ws := mapM (pack np m) l in Ok (WArray ws).
Proof. rewrite <- pack_list. reflexivity. Qed.
Lemma pack_dict np m d : pack np m (PDict d) = let* ws := mapM (pack_item np m) d in Ok (WMap ws).
Proof.
  cbn [M_Export.pack]. f_equal. induction d as [|[k x] r IH]; [reflexivity|]. cbn [mapM]. unfold pack_item at 1.
  cbn [fst snd]. rewrite <- IH. destruct (pack np m x); reflexivity.
Qed.

Lemma mapM_Forall2 {A B} (f : A -> res B) l : forall r, mapM f l = Ok r -> Forall2 (fun x y => f x = Ok y) l r.
Proof.
  induction l as [|x l IH]; intros r H; cbn [mapM] in H; [injection H as <-; constructor|].
  destruct (f x) as [y|] eqn:Ex; [|discriminate]. cbn [bind] in H. destruct (mapM f l) as [ys|]; [|discriminate].
  injection H as <-. constructor; auto.
Qed.

(** What is unpacked is what was packed. *)
Lemma pack_got np m v : forall w, pack np m v = Ok w -> got np m v (unpack w).
Proof.
  induction v as [|b|z|b|s|l|l IH|l IH|d IH|n|b|a|] using pval_ind'; intros w H.
  1-6: cbn [M_Export.pack] in H.
  1,2,4,5,6: injection H as <-; constructor.
  - destruct (_ && _) in H; [|discriminate]. injection H as <-. constructor.
  - rewrite pack_list in H. destruct (mapM _ l) as [ws|] eqn:E; [|discriminate]. injection H as <-.
    cbn [unpack]. constructor. apply mapM_Forall2 in E. revert IH. induction E as [|x w l ws Hx E IHE]; intros IH; cbn [List.map]; [constructor|].
    inversion IH; subst. constructor; auto.
  - rewrite pack_tuple in H. destruct (mapM _ l) as [ws|] eqn:E; [|discriminate]. injection H as <-.
    cbn [unpack]. constructor. apply mapM_Forall2 in E. revert IH. induction E as [|x w l ws Hx E IHE]; intros IH; cbn [List.map]; [constructor|].
    inversion IH; subst. constructor; auto.
  - rewrite pack_dict in H. destruct (mapM _ d) as [ws|] eqn:E; [|discriminate]. injection H as <-.
    cbn [unpack]. constructor. apply mapM_Forall2 in E. revert IH. induction E as [|x w l ws Hx E IHE]; intros IH; cbn [List.map]; [constructor|].
    inversion IH; subst. constructor; auto. unfold pack_item in Hx. destruct (pack np m (snd x)) eqn:Ep; [|discriminate].
    injection Hx as <-. cbn [fst snd]. auto.
  - cbn [M_Export.pack] in H. destruct n as [k z|k b|k re im].
    + destruct np; [|discriminate]. injection H as <-. now constructor.
    + destruct (string_dec k "float64") as [-> | Hk].
      * injection H as <-. cbn [unpack]. constructor. now right.
      * assert (H' : (if np then Ok (WNp (NFloat k b)) else Err ETypeError) = Ok w).
        { revert H. repeat (destruct k as [|[[] [] [] [] [] [] [] []] k]; try exact (fun x => x)). congruence. }
        destruct np; [|discriminate]. injection H' as <-. now constructor.
    + destruct np; [|discriminate]. injection H as <-. now constructor.
  - cbn [M_Export.pack] in H. destruct np; [|discriminate]. injection H as <-. now constructor.
  - cbn [M_Export.pack] in H. destruct np; [|discriminate]. injection H as <-. cbn [unpack]. constructor. apply tobytes_got.
  - discriminate.
Qed.

Lemma mapM_Forall {A B} (f : A -> res B) l : Forall (fun x => exists y, f x = Ok y) l -> exists r, mapM f l = Ok r.
Proof.
  induction 1 as [|x l (y & Hy) _ (r & IH)]; cbn [mapM]; [eauto|]. rewrite Hy. cbn [bind]. rewrite IH. cbn [bind]. eauto.
Qed.

Lemma pack_float64 np m b : pack np m (PNp (NFloat "float64" b)) = Ok (WFloat b).
Proof. reflexivity. Qed.

Lemma pack_packable np m v : packable v -> exists w, pack np m v = Ok w.
Proof.
  induction v as [|b|z|b|s|l|l IH|l IH|d IH|n|b|a|] using pval_ind'; intros H; inversion H; subst; try (eexists; reflexivity).
  - cbn [M_Export.pack]. replace ((- 2 ^ 63 <=? z) && (z <? 2 ^ 64))%Z with true; [eauto|].
    symmetry. apply andb_true_iff. split; [apply Z.leb_le|apply Z.ltb_lt]; lia.
  - rewrite pack_list. destruct (@mapM_Forall _ _ (pack np m) l) as (r & ->); [|cbn [bind]; eauto].
    rewrite Forall_forall in *. intros x Hx. auto.
  - rewrite pack_tuple. destruct (@mapM_Forall _ _ (pack np m) l) as (r & ->); [|cbn [bind]; eauto].
    rewrite Forall_forall in *. intros x Hx. auto.
  - rewrite pack_dict. destruct (@mapM_Forall _ _ (pack_item np m) d) as (r & ->); [|cbn [bind]; eauto].
    rewrite Forall_forall in *. intros x Hx. unfold pack_item. destruct (IH x Hx (H1 x Hx)) as (w & ->). cbn [bind]. eauto.
Qed.

(** Without the hook for numpy, only these. *)
Lemma pack_only m v : forall w, pack false m v = Ok w -> packable v.
Proof.
  induction v as [|b|z|b|s|l|l IH|l IH|d IH|n|b|a|] using pval_ind'; intros w H; try constructor; try discriminate.
  - cbn [M_Export.pack] in H. destruct (_ && _) eqn:E in H; [|discriminate]. apply andb_true_iff in E as [E1 E2].
    apply Z.leb_le in E1. apply Z.ltb_lt in E2. lia.
  - rewrite pack_list in H. destruct (mapM _ l) as [ws|] eqn:E; [|discriminate]. apply mapM_Forall2 in E.
    clear H. revert IH. induction E; intros IH; [constructor|]. inversion IH; subst. constructor; eauto.
  - rewrite pack_tuple in H. destruct (mapM _ l) as [ws|] eqn:E; [|discriminate]. apply mapM_Forall2 in E.
    clear H. revert IH. induction E; intros IH; [constructor|]. inversion IH; subst. constructor; eauto.
  - rewrite pack_dict in H. destruct (mapM _ d) as [ws|] eqn:E; [|discriminate]. apply mapM_Forall2 in E.
    clear H. revert IH. induction E as [|x y d ys Hx E IHE]; intros IH; [constructor|]. inversion IH; subst. constructor; [|eauto].
    unfold pack_item in Hx. destruct (pack false m (snd x)) eqn:Ep; [|discriminate]. eauto.
  - cbn [M_Export.pack] in H. destruct n as [k z|k b|k re im]; try discriminate.
    destruct (string_dec k "float64") as [-> | Hk]; [constructor|]. exfalso.
    revert H. repeat (destruct k as [|[[] [] [] [] [] [] [] []] k]; try discriminate). congruence.
Qed.
End Export.
