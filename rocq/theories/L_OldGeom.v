(** Lemmas on the deprecated LPD geometry. *)
From Coq Require Import QArith Qround.
From Verif Require Import Base L_Base L_Crystfel M_Cxi M_OldGeom S_OldGeom.
Set Implicit Arguments.
Unset Strict Implicit.
Local Open Scope string_scope.
Local Open Scope Z_scope.
Local Open Scope list_scope.

Section FragInd.
Variable P : frag -> Prop.
Hypothesis H : forall o cs, (forall n c, In (n, c) cs -> P c) -> P (Frag o cs).
Fixpoint frag_ind2 (g : frag) : P g.
Proof.
  destruct g as [o cs]. apply H.
  exact ((fix go (l : list (string * frag)) : forall n c, In (n, c) l -> P c :=
    match l with
    | [] => fun n c (h : In (n, c) []) => match h with end
    | (n0, c0) :: r => fun n c (h : In (n, c) ((n0, c0) :: r)) =>
        match h with
        | or_introl e => eq_ind c0 P (frag_ind2 c0) c (f_equal snd e)
        | or_intror h' => go r n c h'
        end
    end) cs).
Defined.
End FragInd.

Lemma dict_get_unique : forall A (l : list (string * A)) n a, NoDup (map fst l) -> In (n, a) l -> dict_get n l = Some a.
Proof.
  intros A l n a. induction l as [|[k x] l IH]; intros N H; [destruct H|]. inversion N as [|? ? N1 N2]; subst. cbn [dict_get].
  destruct H as [H|H].
  - injection H as -> ->. now rewrite String.eqb_refl.
  - destruct (String.eqb_spec n k) as [->|]; [|auto]. exfalso. apply N1. apply in_map_iff. exists (k, a). auto.
Qed.

Lemma reaches_offset : forall g p h s, well_named g -> reaches g p h s -> find_offset g p = Ok s.
Proof.
  intros g p h s W R. induction R as [g|o cs n child p h s HIn R IH]; cbn [find_offset]; [reflexivity|].
  inversion W as [o' cs' N HW]; subst. cbn [fr_children fr_offset]. rewrite (dict_get_unique N HIn).
  rewrite (IH (HW n child HIn)). reflexivity.
Qed.

Lemma iter_unfold : forall o cs, iter_leaf_paths (Frag o cs) =
  match map (fun kv => (fst kv, iter_leaf_paths (snd kv))) cs with
  | [] => [[]]
  | subs => flat_map (fun ks => map (cons (fst ks)) (snd ks)) (isort (fun a b => String.leb (fst a) (fst b)) subs)
  end.
Proof. intros o cs. cbn [iter_leaf_paths]. destruct (map (fun kv : string * frag => (fst kv, iter_leaf_paths (snd kv))) cs); reflexivity. Qed.

Lemma iter_In : forall o cs p, cs <> [] ->
  (In p (iter_leaf_paths (Frag o cs)) <-> exists n c p', p = n :: p' /\ In (n, c) cs /\ In p' (iter_leaf_paths c)).
Proof.
  intros o cs p Hne. rewrite iter_unfold. destruct (map (fun kv : string * frag => (fst kv, iter_leaf_paths (snd kv))) cs) as [|sub subs] eqn:E.
  { destruct cs; [congruence|discriminate]. }
  rewrite <- E. rewrite in_flat_map. split.
  - intros (x & H1 & H2). apply (Permutation_in _ (Permutation_sym (isort_perm _ _))) in H1.
    apply in_map_iff in H1 as ([n c] & <- & H1). cbn [fst snd] in H2. apply in_map_iff in H2 as (p' & <- & H2). exists n, c, p'. auto.
  - intros (n & c & p' & -> & H1 & H2). exists (n, iter_leaf_paths c). split; [|cbn [fst snd]; now apply in_map].
    apply (Permutation_in _ (isort_perm _ _)). apply in_map_iff. exists (n, c). auto.
Qed.

Lemma leaf_paths_spec : forall g p, In p (iter_leaf_paths g) <-> exists s, leaf_at g p s.
Proof.
  induction g as [o cs IH] using frag_ind2. intros p. destruct cs as [|c0 cs].
  - cbn. split.
    + intros [<-|[]]. exists o, o. exact (reaches_here (Frag o [])).
    + intros (s & o' & R). inversion R as [|? ? ? ? ? ? ? HIn]; subst; [now left|destruct HIn].
  - rewrite iter_In by discriminate. split.
    + intros (n & c & p' & -> & H1 & H2). destruct (proj1 (IH n c H1 p') H2) as (s & o' & R).
      eexists. exists o'. eapply reaches_down; eassumption.
    + intros (s & o' & R). inversion R as [|? ? n child p' h s' HIn R']; subst. exists n, child, p'. split; [reflexivity|].
      split; [assumption|]. apply (IH n child HIn). exists s', o'. exact R'.
Qed.

(** ** Dimensions *)
Local Open Scope Q_scope.
Lemma qmin2_le : forall a b, qmin2 a b <= a /\ qmin2 a b <= b.
Proof.
  intros a b. unfold qmin2. destruct (Qle_bool a b) eqn:E.
  - apply Qle_bool_iff in E. split; [apply Qle_refl|assumption].
  - split; [|apply Qle_refl]. apply Qlt_le_weak, Qnot_le_lt. intros H. apply Qle_bool_iff in H. congruence.
Qed.
Lemma qmax2_ge : forall a b, a <= qmax2 a b /\ b <= qmax2 a b.
Proof.
  intros a b. unfold qmax2. destruct (Qle_bool b a) eqn:E.
  - apply Qle_bool_iff in E. split; [apply Qle_refl|assumption].
  - split; [|apply Qle_refl]. apply Qlt_le_weak, Qnot_le_lt. intros H. apply Qle_bool_iff in H. congruence.
Qed.
Lemma fold_qmin : forall l z, fold_left qmin2 l z <= z /\ forall x, In x l -> fold_left qmin2 l z <= x.
Proof.
  induction l as [|y l IH]; intros z; cbn [fold_left]; [split; [apply Qle_refl|intros x []]|].
  destruct (IH (qmin2 z y)) as [H1 H2]. destruct (qmin2_le z y) as [H3 H4]. split; [eapply Qle_trans; eassumption|].
  intros x [<-|H]; [eapply Qle_trans; eassumption|auto].
Qed.
Lemma fold_qmax : forall l z, z <= fold_left qmax2 l z /\ forall x, In x l -> x <= fold_left qmax2 l z.
Proof.
  induction l as [|y l IH]; intros z; cbn [fold_left]; [split; [apply Qle_refl|intros x []]|].
  destruct (IH (qmax2 z y)) as [H1 H2]. destruct (qmax2_ge z y) as [H3 H4]. split; [eapply Qle_trans; eassumption|].
  intros x [<-|H]; [eapply Qle_trans; eassumption|auto].
Qed.
Local Open Scope Z_scope.
Lemma to_px_mono : forall a b, (a <= b)%Q -> to_px a <= to_px b.
Proof. intros a b H. unfold to_px. apply Qfloor_resp_le. unfold Qdiv. apply Qmult_le_compat_r; [assumption|]. unfold old_pixel_size. discriminate. Qed.
Lemma to_px_floor : forall q, to_px q = Qfloor (q / (1 # 2000)).
Proof. intros q. unfold to_px. apply Qfloor_comp. unfold old_pixel_size. field. Qed.

Theorem dimensions_spec : forall g, well_named g -> exists sx sy cx cy, plotting_dimensions g = Ok ((sx, sy), (cx, cy)) /\
  20 <= cx /\ 20 <= cy /\ cx + 148 <= sx /\ cy + 52 <= sy /\
  forall p s, leaf_at g p s -> 20 <= to_px (fst s) + cx /\ to_px (fst s) + cx + 128 <= sx - 20 /\
                               20 <= to_px (snd s) + cy /\ to_px (snd s) + cy + 32 <= sy - 20.
Proof.
  intros g W. unfold plotting_dimensions.
  destruct (@mapM_total _ _ (find_offset g) (iter_leaf_paths g)) as [offs E].
  { intros p Hp. apply leaf_paths_spec in Hp as (s & o & R). exists s. eapply reaches_offset; eassumption. }
  assert (HF := E). apply mapM_ok_iff in HF. rewrite E. cbn [bind]. clear E.
  assert (HO : forall p s, leaf_at g p s -> In s offs).
  { intros p s (o & R). assert (Hp : In p (iter_leaf_paths g)) by (apply leaf_paths_spec; exists s, o; exact R).
    clear -HF Hp R W. induction HF as [|p' s' ps ss H1 H2 IH]; [destruct Hp|]. destruct Hp as [->|Hp]; [|right; auto].
    rewrite (reaches_offset W R) in H1. injection H1 as ->. now left. }
  do 4 eexists. split; [reflexivity|].
  assert (Z0 : to_px 0 = 0) by reflexivity.
  destruct (fold_qmin (map fst offs) 0) as [A1 A2]. destruct (fold_qmax (map fst offs) 0) as [B1 B2].
  destruct (fold_qmin (map snd offs) 0) as [C1 C2]. destruct (fold_qmax (map snd offs) 0) as [D1 D2].
  apply to_px_mono in A1, B1, C1, D1. rewrite Z0 in *.
  split; [lia|]. split; [lia|]. split; [lia|]. split; [lia|].
  intros p s Hs. apply HO in Hs.
  assert (X1 := to_px_mono (A2 (fst s) (in_map fst _ _ Hs))). assert (X2 := to_px_mono (B2 (fst s) (in_map fst _ _ Hs))).
  assert (X3 := to_px_mono (C2 (snd s) (in_map snd _ _ Hs))). assert (X4 := to_px_mono (D2 (snd s) (in_map snd _ _ Hs))).
  lia.
Qed.

(** ** Placing *)
Lemma block_start_ok : forall n a len, 0 <= a -> 0 <= len -> a + len <= n -> block_start n a len = Ok a.
Proof.
  intros n a len H1 H2 H3. unfold block_start, slice_bound.
  replace (a <? 0) with false by lia. replace (a + len <? 0) with false by lia.
  rewrite (Z.min_l (a + len) n), (Z.min_l a n) by lia. replace (a + len - a =? len) with true by lia. reflexivity.
Qed.

Section Place.
Context {A : Type}.
Variables (g : frag) (size centre : Z * Z).
Hypothesis W : well_named g.
Definition fits (p : list string) : Prop := exists s, leaf_at g p s /\
  0 <= to_px (fst s) + fst centre /\ to_px (fst s) + fst centre + 128 <= fst size /\
  0 <= to_px (snd s) + snd centre /\ to_px (snd s) + snd centre + 32 <= snd size.
Definition cov (p : list string) (y x : Z) (r k : Z) : Prop := exists s, leaf_at g p s /\
  0 <= r < 32 /\ 0 <= k < 128 /\ y = to_px (snd s) + snd centre + 31 - r /\ x = to_px (fst s) + fst centre + 127 - k.

Lemma leaf_at_fun : forall p s s', leaf_at g p s -> leaf_at g p s' -> s = s'.
Proof. intros p s s' (o & R) (o' & R'). apply (reaches_offset W) in R. apply (reaches_offset W) in R'. congruence. Qed.

Lemma place_spec : forall p (tile out : Z -> Z -> A), fits p -> exists out', place_old g size centre p tile out = Ok out' /\
  (forall y x r k, cov p y x r k -> out' y x = tile r k) /\
  (forall y x, (forall r k, ~ cov p y x r k) -> out' y x = out y x).
Proof.
  intros p tile out (s & L & F1 & F2 & F3 & F4). unfold place_old.
  assert (L' := L). destruct L' as (o & R). rewrite (reaches_offset W R). cbn [bind].
  rewrite (@block_start_ok (snd size)) by lia. cbn [bind]. rewrite (@block_start_ok (fst size)) by lia. cbn [bind].
  eexists. split; [reflexivity|]. cbv beta. set (y0 := to_px (snd s) + snd centre) in *. set (x0 := to_px (fst s) + fst centre) in *. split.
  - intros y x r k (s' & L' & Hr & Hk & Hy & Hx). rewrite <- (leaf_at_fun L L') in *. fold y0 in Hy. fold x0 in Hx.
    replace ((y0 <=? y) && (y <? y0 + 32) && (x0 <=? x) && (x <? x0 + 128)) with true by lia.
    f_equal; lia.
  - intros y x N. destruct ((y0 <=? y) && (y <? y0 + 32) && (x0 <=? x) && (x <? x0 + 128)) eqn:E; [|reflexivity]. exfalso.
    apply (N (31 - (y - y0)) (127 - (x - x0))). exists s. split; [assumption|]. fold y0 x0. lia.
Qed.

Lemma place_all : forall (L : list (list string * (Z -> Z -> A))) out0, (forall p t, In (p, t) L -> fits p) ->
  exists out, foldM (fun out pt => place_old g size centre (fst pt) (snd pt) out) out0 L = Ok out /\
  (forall pre p t post y x r k, L = pre ++ (p, t) :: post -> cov p y x r k ->
     (forall p' t' r' k', In (p', t') post -> ~ cov p' y x r' k') -> out y x = t r k) /\
  (forall y x, (forall p t r k, In (p, t) L -> ~ cov p y x r k) -> out y x = out0 y x).
Proof.
  induction L as [|[p t] L IH]; intros out0 HF; cbn [foldM].
  - exists out0. split; [reflexivity|]. split; [intros pre p t post y x r k E; destruct pre; discriminate|reflexivity].
  - destruct (@place_spec p t out0 (HF p t (or_introl eq_refl))) as (out1 & E1 & S1 & S2). cbn [fst snd]. rewrite E1. cbn [bind].
    destruct (IH out1 (fun p' t' H => HF p' t' (or_intror H))) as (out & E & T1 & T2). exists out. split; [exact E|]. split.
    + intros pre p' t' post y x r k EL Hc Hn. destruct pre as [|e pre]; cbn [app] in EL.
      * injection EL as -> -> ->. rewrite T2; [now apply S1|]. intros p2 t2 r2 k2 H2. exact (Hn p2 t2 r2 k2 H2).
      * injection EL as _ ->. exact (T1 pre p' t' post y x r k eq_refl Hc Hn).
    + intros y x N. rewrite T2; [apply S2; intros r k; exact (N p t r k (or_introl eq_refl))|].
      intros p2 t2 r2 k2 H2. exact (N p2 t2 r2 k2 (or_intror H2)).
Qed.
End Place.

(** ** The list of all tiles *)
Definition tile_list : list (Z * Z) := flat_map (fun c => map (pair c) (py_range 1 17 1)) (py_range 0 16 1).
Definition tile_data {A} (data : Z -> Z -> Z -> A) (ct : Z * Z) : list string * (Z -> Z -> A) :=
  (tile_names (fst ct) (snd ct), fun r k => data (fst ct) (tile_row (snd ct) r) (tile_col (snd ct) k)).
Lemma all_tiles_list : forall A (data : Z -> Z -> Z -> A), all_tiles data = map (tile_data data) tile_list.
Proof. intros A data. vm_compute. reflexivity. Qed.
Definition pair_lt (a b : Z * Z) : Prop := fst a < fst b \/ (fst a = fst b /\ snd a < snd b).
Definition pair_ltb (a b : Z * Z) : bool := (fst a <? fst b) || ((fst a =? fst b) && (snd a <? snd b)).
Fixpoint sortedb (l : list (Z * Z)) : bool :=
  match l with [] => true | x :: r => forallb (pair_ltb x) r && sortedb r end.
Lemma sortedb_ok : forall l, sortedb l = true -> StronglySorted pair_lt l.
Proof.
  induction l as [|x l IH]; intros H; [constructor|]. cbn [sortedb] in H. apply andb_true_iff in H as [H1 H2].
  constructor; [auto|]. apply Forall_forall. intros y Hy. apply (proj1 (forallb_forall _ _) H1) in Hy. unfold pair_ltb in Hy. unfold pair_lt. lia.
Qed.
Lemma tile_list_sorted : StronglySorted pair_lt tile_list.
Proof. apply sortedb_ok. vm_compute. reflexivity. Qed.
Lemma tile_list_In : forall c t, In (c, t) tile_list <-> tile_number c t.
Proof.
  intros c t. unfold tile_list, tile_number. rewrite in_flat_map. split.
  - intros (c' & H1 & H2). apply in_map_iff in H2 as (t' & E & H2). injection E as -> ->.
    change (py_range 0 16 1) with [0;1;2;3;4;5;6;7;8;9;10;11;12;13;14;15] in H1.
    change (py_range 1 17 1) with [1;2;3;4;5;6;7;8;9;10;11;12;13;14;15;16] in H2. cbn [In] in H1, H2. lia.
  - intros [H1 H2]. exists c. split; [|apply in_map].
    + change (py_range 0 16 1) with [0;1;2;3;4;5;6;7;8;9;10;11;12;13;14;15]. cbn [In]. lia.
    + change (py_range 1 17 1) with [1;2;3;4;5;6;7;8;9;10;11;12;13;14;15;16]. cbn [In]. lia.
Qed.
Lemma sorted_split : forall l (x : Z * Z), StronglySorted pair_lt l -> In x l -> exists pre post, l = pre ++ x :: post /\ forall y, In y post -> pair_lt x y.
Proof.
  intros l x S HIn. apply in_split in HIn as (pre & post & ->). exists pre, post. split; [reflexivity|].
  induction pre as [|z pre IH]; cbn [app] in S; inversion S as [|? ? S1 S2]; subst; [now rewrite Forall_forall in S2|auto].
Qed.

Theorem assembled : forall A (nan : A) g data, well_named g -> lpd_tree g ->
  exists out sy sx centre, position_all_modules nan true g (16, 256, 256) data = Ok (out, (sy, sx), centre) /\
    (20 <= fst centre <= sx - 148 /\ 20 <= snd centre <= sy - 52) /\
    (forall c t, tile_number c t -> exists x0 y0, tile_start g centre c t x0 y0 /\ 20 <= x0 /\ x0 + 128 <= sx - 20 /\ 20 <= y0 /\ y0 + 32 <= sy - 20) /\
    (forall c t x0 y0 r k, tile_number c t -> tile_start g centre c t x0 y0 -> 0 <= r < 32 -> 0 <= k < 128 ->
       (forall c' t', tile_number c' t' -> later c t c' t' -> ~ covers g centre c' t' (y0 + 31 - r) (x0 + 127 - k)) ->
       out (y0 + 31 - r) (x0 + 127 - k) = data c (tile_row t r) (tile_col t k)) /\
    (forall y x, (forall c t, tile_number c t -> ~ covers g centre c t y x) -> out y x = nan).
Proof.
  intros A nan g data W T. unfold position_all_modules. cbn [Z.eqb Pos.eqb andb negb].
  destruct (dimensions_spec W) as (sx & sy & cx & cy & E & C1 & C2 & C3 & C4 & HL). rewrite E. cbn [bind]. cbv beta iota.
  rewrite all_tiles_list.
  assert (HS : forall c t x0 y0, tile_start g (cx, cy) c t x0 y0 <-> exists s, leaf_at g (tile_names c t) s /\ x0 = to_px (fst s) + cx /\ y0 = to_px (snd s) + cy).
  { intros c t x0 y0. unfold tile_start. cbn [fst snd]. split; intros (s & S1 & S2 & S3); exists s; rewrite ?to_px_floor in *; auto. }
  assert (HC : forall c t y x, covers g (cx, cy) c t y x <-> exists r k, cov g (cx, cy) (tile_names c t) y x r k).
  { intros c t y x. unfold covers, cov. cbn [fst snd]. split.
    - intros (x0 & y0 & S & H1 & H2). apply HS in S as (s & S1 & -> & ->). exists (31 - (y - (to_px (snd s) + cy))), (127 - (x - (to_px (fst s) + cx))), s.
      split; [assumption|]. lia.
    - intros (r & k & s & S1 & H1 & H2 & -> & ->). exists (to_px (fst s) + cx), (to_px (snd s) + cy). split; [apply HS; eauto|]. lia. }
  destruct (@place_all A g (sx, sy) (cx, cy) W (map (tile_data data) tile_list) (fun _ _ => nan)) as (out & Eo & P1 & P2).
  { intros p t Hp. apply in_map_iff in Hp as ([c t'] & Ep & Hp). injection Ep as <- _. apply tile_list_In in Hp.
    destruct (T c t' Hp) as [s L]. exists s. split; [assumption|]. destruct (HL _ _ L). cbn [fst snd]. lia. }
  rewrite Eo. cbn [bind]. exists out, sy, sx, (cx, cy). split; [reflexivity|]. cbn [fst snd]. split; [lia|]. split; [|split].
  - intros c t Hn. destruct (T c t Hn) as [s L]. destruct (HL _ _ L) as (H1 & H2 & H3 & H4). do 2 eexists. split; [apply HS; exists s; split; [exact L|auto]|]. lia.
  - intros c t x0 y0 r k Hn S Hr Hk Hlater. apply HS in S as (s & L & -> & ->).
    destruct (sorted_split tile_list_sorted (proj2 (tile_list_In c t) Hn)) as (pre & post & EL & HP).
    rewrite (P1 (map (tile_data data) pre) (tile_names c t) (fun r k => data c (tile_row t r) (tile_col t k)) (map (tile_data data) post) _ _ r k); [reflexivity| | |].
    + rewrite EL, map_app. reflexivity.
    + exists s. cbn [fst snd]. split; [assumption|]. lia.
    + intros p' t' r' k' Hin Hcov. apply in_map_iff in Hin as ([c2 t2] & E2 & Hin). injection E2 as <- _.
      apply (Hlater c2 t2); [| |apply HC; eauto].
      * apply tile_list_In. rewrite EL. apply in_or_app. right. now right.
      * exact (HP (c2, t2) Hin).
  - intros y x N. apply P2. intros p t r k Hin Hcov. apply in_map_iff in Hin as ([c2 t2] & E2 & Hin). injection E2 as <- _.
    apply (N c2 t2); [now apply tile_list_In|]. apply HC. eauto.
Qed.

(** ** Reading *)
Lemma from_group_unfold : forall unit p gs, from_h5_group unit (HGroup p gs) =
  let* children := mapM (fun nh => let* c := from_h5_group default_unit (snd nh) in Ok (fst nh, c)) gs in
  match p with None => Err EKeyError | Some p => Ok (Frag (fst p * unit, snd p * unit)%Q children) end.
Proof.
  intros unit p gs. cbn [from_h5_group]. f_equal.
  induction gs as [|[n h] gs IH]; [reflexivity|]. cbn [mapM fst snd]. destruct (from_h5_group default_unit h); [|reflexivity]. cbn [bind].
  rewrite IH. reflexivity.
Qed.

Section GroupInd.
Variable P : hgroup -> Prop.
Hypothesis H : forall p gs, (forall n c, In (n, c) gs -> P c) -> P (HGroup p gs).
Fixpoint hgroup_ind2 (g : hgroup) : P g.
Proof.
  destruct g as [p gs]. apply H.
  exact ((fix go (l : list (string * hgroup)) : forall n c, In (n, c) l -> P c :=
    match l with
    | [] => fun n c (h : In (n, c) []) => match h with end
    | (n0, c0) :: r => fun n c (h : In (n, c) ((n0, c0) :: r)) =>
        match h with
        | or_introl e => eq_ind c0 P (hgroup_ind2 c0) c (f_equal snd e)
        | or_intror h' => go r n c h'
        end
    end) gs).
Defined.
End GroupInd.

Lemma mapM_names : forall A B (f : A -> res B) (l : list (string * A)) ys,
  mapM (fun nh => let* c := f (snd nh) in Ok (fst nh, c)) l = Ok ys -> map fst ys = map fst l /\
  (forall n a, In (n, a) l -> exists b, f a = Ok b /\ In (n, b) ys) /\ (forall n b, In (n, b) ys -> exists a, In (n, a) l /\ f a = Ok b).
Proof.
  intros A B f l ys H. apply mapM_ok_iff in H. induction H as [|[n a] [n' b] l ys H1 H2 (I1 & I2 & I3)].
  - split; [reflexivity|]. split; intros ? ? [].
  - cbn [fst snd] in H1. apply bind_ok in H1 as (b' & H1 & H1'). injection H1' as <- ->. cbn [map fst]. split; [now rewrite I1|]. split.
    + intros n0 a0 [E|Hin]; [injection E as <- <-; exists b; split; [assumption|now left]|].
      destruct (I2 n0 a0 Hin) as (b0 & B1 & B2). exists b0. split; [assumption|now right].
    + intros n0 b0 [E|Hin]; [injection E as <- <-; exists a; split; [now left|assumption]|].
      destruct (I3 n0 b0 Hin) as (a0 & A1 & A2). exists a0. split; [now right|assumption].
Qed.
Lemma from_group_named : forall g unit fr, group_named g -> from_h5_group unit g = Ok fr -> well_named fr.
Proof.
  induction g as [p gs IH] using hgroup_ind2. intros unit fr G E. rewrite from_group_unfold in E. apply bind_ok in E as (cs & E1 & E2).
  destruct p as [p|]; [|discriminate]. injection E2 as <-. inversion G as [p' gs' N HG]; subst.
  destruct (mapM_names E1) as (M1 & M2 & M3). constructor; [now rewrite M1|]. intros n c Hc. destruct (M3 n c Hc) as (h & Hh & Eh).
  eapply IH; [exact Hh|exact (HG n h Hh)|exact Eh].
Qed.

Lemma qname_inj : forall a b, 0 <= a -> 0 <= b -> qname a = qname b -> a = b.
Proof. intros a b Ha Hb E. unfold qname in E. cbn [append] in E. injection E as E. now apply str_of_int_inj in E. Qed.

Definition item_frag (unit : Q) (it : hitem) : res frag := match it with HG g => from_h5_group unit g | HD => Err EAttributeError end.
Lemma quadrants_spec : forall file unit positions n qs, 0 <= n ->
  (forall q items, dict_get q file = Some items -> NoDup (map fst items) /\ forall m g, In (m, HG g) items -> group_named g) ->
  quadrants file unit n positions = Ok qs ->
  NoDup (map fst qs) /\ (forall q c, In (q, c) qs -> well_named c /\ exists i, n <= i /\ q = qname i) /\
  forall j p, nth_error positions j = Some p -> exists items mods, dict_get (qname (n + Z.of_nat j)) file = Some items /\
    In (qname (n + Z.of_nat j), Frag (fst p * unit, snd p * unit)%Q mods) qs /\
    forall m g, In (m, HG g) items -> exists fr, from_h5_group unit g = Ok fr /\ In (m, fr) mods.
Proof.
  intros file unit positions. induction positions as [|p positions IH]; intros n qs Hn HF E; cbn [quadrants] in E.
  - injection E as <-. split; [constructor|]. split; [intros q c []|]. intros [|j] p H; discriminate.
  - destruct (dict_get (qname n) file) as [items|] eqn:Ei; [|discriminate].
    apply bind_ok in E as (mods & E1 & E). apply bind_ok in E as (rest & E2 & E). injection E as <-.
    destruct (HF _ _ Ei) as [Nit Git].
    assert (E1' : mapM (fun nh => let* c := item_frag unit (snd nh) in Ok (fst nh, c)) items = Ok mods).
    { rewrite <- E1. clear. induction items as [|[m [g|]] items IH]; cbn [mapM fst snd item_frag]; [reflexivity| |reflexivity].
      destruct (from_h5_group unit g); [|reflexivity]. cbn [bind]. now rewrite IH. }
    destruct (mapM_names E1') as (M1 & M2 & M3).
    destruct (IH (n + 1) rest ltac:(lia) HF E2) as (I1 & I2 & I3). split; [|split].
    + cbn [map fst]. constructor; [|assumption]. intros Hin. apply in_map_iff in Hin as ([q c] & Eq & Hin). cbn [fst] in Eq. subst q.
      destruct (I2 _ _ Hin) as (_ & i & Hi & Ei2). apply qname_inj in Ei2; lia.
    + intros q c [Hq|Hq].
      * injection Hq as <- <-. split; [|exists n; split; [lia|reflexivity]]. constructor; [now rewrite M1|].
        intros m fr Hm. destruct (M3 m fr Hm) as ([g|] & A1 & A2); [|discriminate]. eapply from_group_named; [exact (Git m g A1)|exact A2].
      * destruct (I2 q c Hq) as (Q1 & i & Q2 & Q3). split; [assumption|]. exists i. split; [lia|assumption].
    + intros [|j] p' Hp.
      * injection Hp as <-. replace (n + Z.of_nat 0) with n by lia. exists items, mods. split; [assumption|]. split; [now left|].
        intros m g Hg. destruct (M2 m (HG g) Hg) as (fr & F1 & F2). eauto.
      * cbn [nth_error] in Hp. destruct (I3 j p' Hp) as (items' & mods' & J1 & J2 & J3). replace (n + Z.of_nat (S j)) with (n + 1 + Z.of_nat j) by lia.
        exists items', mods'. split; [assumption|]. split; [now right|assumption].
Qed.

Theorem read_geometry : forall file positions unit g,
  (forall q items, dict_get q file = Some items -> NoDup (map fst items) /\ forall m h, In (m, HG h) items -> group_named h) ->
  from_h5_file_and_quad_positions file positions unit = Ok g ->
  well_named g /\
  forall c t q m p, 0 <= c -> nth_error positions (Z.to_nat (c / 4)) = Some q -> file_tile file c t m p ->
    exists s, leaf_at g (tile_names c t) s /\
      (fst s == unit * (fst q + fst m) + fst p * (1 # 1000))%Q /\ (snd s == unit * (snd q + snd m) + snd p * (1 # 1000))%Q.
Proof.
  intros file positions unit g HF E. unfold from_h5_file_and_quad_positions in E. apply bind_ok in E as (qs & E & E'). injection E' as <-.
  destruct (quadrants_spec (n := 1) ltac:(lia) HF E) as (Q1 & Q2 & Q3). split.
  { constructor; [assumption|]. intros n c Hc. exact (proj1 (Q2 n c Hc)). }
  intros c t q m p Hc Hq (items & tiles & T1 & T2 & T3).
  destruct (Q3 _ _ Hq) as (items' & mods & R1 & R2 & R3).
  assert (Hd : 0 <= c / 4) by (apply Z.div_pos; lia).
  replace (1 + Z.of_nat (Z.to_nat (c / 4))) with (c / 4 + 1) in R1, R2 by lia. rewrite T1 in R1. injection R1 as <-.
  destruct (R3 _ _ T2) as (fr & F1 & F2). rewrite from_group_unfold in F1. apply bind_ok in F1 as (cs & F1 & F3). injection F3 as <-.
  destruct (mapM_names F1) as (_ & M2 & _). destruct (M2 _ _ T3) as (tf & G1 & G2). rewrite from_group_unfold in G1. cbn [mapM bind] in G1. injection G1 as <-.
  eexists. split.
  - exists (fst p * default_unit, snd p * default_unit)%Q. unfold tile_names. eapply reaches_down; [exact R2|]. eapply reaches_down; [exact F2|].
    eapply reaches_down; [exact G2|]. apply reaches_here.
  - cbn [fst snd fr_offset]. unfold default_unit. split; ring.
Qed.
