(** Lemmas on rounding errors with CrystFEL geometry files: the files. *)

From Coq Require Import QArith Qabs Lqa.
From Verif Require Import Base PyStr M_Stacking S_Stacking S_Open L_Base M_Cxi L_Cxi7 M_Geom M_GeomFloat M_Crystfel M_CrystFloat S_Geom S_GeomFloat S_Crystfel S_CrystFloat
  L_Geom1 L_Geom4 L_Geom5 L_Geom6 L_Crystfel L_Crystfel2 L_CrystText3 L_GeomFloat L_GeomFloat2 L_GeomFloat5 L_CrystFloat.

Set Implicit Arguments.
Unset Strict Implicit.
Local Open Scope string_scope.
Local Open Scope Z_scope.
Local Open Scope list_scope.

Definition zpart (z : option Q) : Q := match z with Some q => q | None => 0%Q end.
Definition vrel (v w : cfval) : Prop :=
  match v, w with
  | CText s, CText s' => s = s'
  | CInt z, CInt z' => z = z'
  | CNum q, CNum q' => qrel q q'
  | CVec x y z, CVec x' y' z' => qrel x x' /\ qrel y y' /\ qrel (zpart z) (zpart z')
  | _, _ => False
  end.
Lemma vrel_refl : forall v, vrel v v.
Proof. intros []; cbn; repeat split; apply qrel_refl. Qed.
Lemma drel_refl : forall f, drel vrel f f.
Proof. induction f as [|a f IH]; constructor; [split; [reflexivity|apply vrel_refl]|exact IH]. Qed.

(** ** Reading files with related numbers *)

Definition cfr (g h : cf_geom) : Prop :=
  drel vrel (cf_default g) (cf_default h) /\ drel (drel vrel) (cf_panels g) (cf_panels h) /\ cf_groups g = cf_groups h.
Lemma set_vec_r : forall d e p v w, drel vrel d e -> vrel v w -> drel vrel (set_vec d p v) (set_vec e p w).
Proof.
  intros d e p v w H S. destruct v as [s|z|q|x y z], w as [s'|z'|q'|x' y' z']; cbn in S |- *; try contradiction; try assumption. destruct S as (S1 & S2 & S3).
  repeat (apply drel_set; [|]); assumption.
Qed.
Lemma set_field_r : forall d e k v w, drel vrel d e -> vrel v w -> drel vrel (set_field d k v) (set_field e k w).
Proof.
  intros d e k v w H S. unfold set_field. destruct (String.eqb k "fs"); [now apply set_vec_r|]. destruct (String.eqb k "ss"); [now apply set_vec_r|].
  destruct (String.eqb k "corner_x"); [now apply drel_set|]. destruct (String.eqb k "corner_y"); now apply drel_set.
Qed.
Lemma load_line_r : forall g h k v w, cfr g h -> vrel v w -> cfr (load_line g (k, v)) (load_line h (k, w)).
Proof.
  intros g h k v w (H1 & H2 & H3) S. unfold load_line. destruct (py_partition slash k) as [[n sep] fld].
  assert (T : text_of v = text_of w) by (destruct v, w; cbn in *; try contradiction; congruence).
  destruct sep as [|c sep].
  - destruct (starts_with "rigid_group" n).
    + split; [exact H1|]. split; [exact H2|]. cbn. now rewrite H3, T.
    + split; [now apply set_field_r|]. split; assumption.
  - split; [exact H1|]. split; [|exact H3]. cbn [cf_panels]. apply drel_set; [exact H2|]. apply set_field_r; [|exact S].
    assert (P := @drel_get cf_dict (drel vrel) n _ _ H2). destruct (dict_get n (cf_panels g)), (dict_get n (cf_panels h)); try contradiction; [exact P|exact H1].
Qed.
Lemma load_r : forall f f', drel vrel f f' -> cfr (load_crystfel f) (load_crystfel f').
Proof.
  assert (K : forall f f', drel vrel f f' -> forall g h, cfr g h -> cfr (fold_left load_line f g) (fold_left load_line f' h)).
  { intros f f' H. induction H as [|[k v] [k' w] f f' [H1 H2] H IH]; intros g h R; cbn in *; [exact R|]. subst k'. apply IH. now apply load_line_r. }
  intros f f' H. apply K; [exact H|]. repeat split; constructor.
Qed.
Lemma get_num_r : forall d e k, drel vrel d e -> rrel qrel (get_num d k) (get_num e k).
Proof.
  intros d e k H. assert (P := drel_get k H). unfold get_num. destruct (dict_get k d) as [[]|], (dict_get k e) as [[]|]; cbn in *; try contradiction; try reflexivity; try assumption. subst. apply qrel_refl.
Qed.
Lemma get_int_r : forall d e k, drel vrel d e -> rrel eq (get_int d k) (get_int e k).
Proof.
  intros d e k H. assert (P := drel_get k H). unfold get_int. destruct (dict_get k d) as [[]|], (dict_get k e) as [[]|]; cbn in *; try contradiction; try reflexivity; try assumption.
Qed.

Definition tile_within (b : Q) (tl : tile) : Prop := vec_within b (t_corner tl) /\ vec_within b (t_ss tl) /\ vec_within b (t_fs tl).

Section Fl.
Variable fl : Q -> Q.
Hypothesis F : float64 fl.
Variables rs s3 : Q.
Hypothesis R3 : root_three rs s3.
Variable d : detector.
Let px' := px_shape_fl fl s3 d.
Let px := pixel_shape rs d.

Definition read_close (t' t : tile) : Prop := tile_within 20 t -> close fl px' px t' t.

Lemma get_num_flr : forall D E k, drel vrel D E -> rrel (fun a b => exists a0, a = fl a0 /\ qrel a0 b) (get_num_fl fl D k) (get_num E k).
Proof.
  intros D E k H. unfold get_num_fl. assert (P := get_num_r k H). destruct (get_num D k), (get_num E k); cbn in *; try contradiction; [eauto|exact P].
Qed.

Lemma panel_r : forall D E, drel vrel D E -> (forall r, get_num E "res" = Ok r -> 1 <= r <= inject_Z (10 ^ 9))%Q ->
  rrel read_close (from_panel_dict_fl fl D) (from_panel_dict E).
Proof.
  intros D E H HR. unfold from_panel_dict, from_panel_dict_fl.
  apply bind_rel with (R := fun a b => (exists a0, a = fl a0 /\ qrel a0 b) /\ (1 <= b <= inject_Z (10 ^ 9))%Q).
  { pose proof (get_num_flr "res" H) as P. destruct (get_num_fl fl D "res"), (get_num E "res"); cbn in *; try contradiction; [split; [exact P|apply HR; reflexivity]|exact P]. }
  intros r' r [(r0 & -> & Hr) [R1 R2]].
  do 9 (eapply bind_rel; [apply get_num_flr; exact H|intros ? ? (? & -> & ?)]). do 4 (eapply bind_rel; [apply get_int_r; exact H|intros ? ? ->]).
  cbn [rrel]. intros (W1 & W2 & W3). unfold vec_within in *. cbn [t_corner t_ss t_fs vdiv vx vy vz] in W1, W2, W3.
  destruct W1 as (A1 & A2 & _), W2 as (A3 & A4 & _), W3 as (A5 & A6 & _). unfold close. cbn [t_corner t_ss t_fs t_ss_px t_fs_px vdiv fvdiv vx vy vz].
  split; [reflexivity|]. split; [reflexivity|].
  unfold px', px. repeat split;
    (first [refine (proj1 (@in_px fl F rs s3 R3 d _ _ _)) | refine (proj2 (@in_px fl F rs s3 R3 d _ _ _))]; apply (near_read F); assumption).
Qed.

Definition used_res (f : cffile) : Prop := forall p a pd r, 0 <= p < n_modules d -> 0 <= a < n_tiles d ->
  dict_get (panel_name p a) (cf_panels (load_crystfel f)) = Some pd -> get_num pd "res" = Ok r -> (1 <= r <= inject_Z (10 ^ 9))%Q.

Lemma mapM_rel_in : forall A B (R : B -> B -> Prop) (f g : A -> res B) l, (forall a, In a l -> rrel R (f a) (g a)) -> rrel (Forall2 R) (mapM f l) (mapM g l).
Proof.
  intros A B R f g l H. induction l as [|x l IH]; [constructor|]. cbn [mapM]. eapply bind_rel; [apply H; left; reflexivity|]. intros a b Hab.
  eapply bind_rel; [apply IH; intros; apply H; right; assumption|]. intros a' b' Hab'. cbn. now constructor.
Qed.

Lemma from_r : forall f f', drel vrel f f' -> used_res f' -> rrel (Forall2 (Forall2 read_close)) (from_crystfel_fl fl d f) (from_crystfel d f').
Proof.
  intros f f' H U. unfold from_crystfel, from_crystfel_fl. cbv zeta. apply mapM_rel_in. intros p Hp. apply mapM_rel_in. intros a Ha.
  destruct (load_r H) as (_ & P & _). assert (Q := @drel_get cf_dict (drel vrel) (panel_name p a) _ _ P).
  apply zr_In in Hp. apply zr_In in Ha.
  destruct (dict_get (panel_name p a) (cf_panels (load_crystfel f))) as [x|], (dict_get (panel_name p a) (cf_panels (load_crystfel f'))) as [y|] eqn:Ey; try contradiction; [|reflexivity].
  apply panel_r; [exact Q|]. intros r Hr. assert (N1 : 0 < n_modules d) by (destruct d; reflexivity). assert (N2 : 0 < n_tiles d) by (destruct d; reflexivity).
  apply (U p a y r); [lia|lia|exact Ey|exact Hr].
Qed.

Lemma in_tile : forall g md (tl : tile), In md g -> In tl md -> exists m t, tile_at g m t = Some tl.
Proof. intros g md tl H1 H2. apply in_tile_at. apply in_concat. eauto. Qed.

Lemma within_close : forall g' g, Forall2 (Forall2 read_close) g' g -> within 20 g -> Forall2 (Forall2 (close fl px' px)) g' g.
Proof.
  intros g' g H W. assert (K : forall md tl, In md g -> In tl md -> tile_within 20 tl).
  { intros md tl H1 H2. destruct (in_tile H1 H2) as (m & t & Ht). exact (W _ _ _ Ht). }
  clear W. induction H as [|md' md g' g H HF IH]; constructor; [|apply IH; intros; eapply K; [right|]; eassumption].
  assert (K' : forall tl, In tl md -> tile_within 20 tl) by (intros tl; apply K; left; reflexivity). clear K IH HF.
  induction H as [|t' t md' md H HF IH]; constructor; [apply H, K'; left; reflexivity|apply IH; intros; apply K'; right; assumption].
Qed.

Lemma clear_tiles : forall g, numbers_clear E8 px g -> forall md tl, In md g -> In tl md -> clear_tile px tl.
Proof.
  intros g C md tl H1 H2. destruct (in_tile H1 H2) as (m & t & Ht). destruct (C _ _ _ Ht) as ((C1 & C2) & (C3 & C4) & (C5 & C6)). repeat (split; [assumption|]). assumption.
Qed.

(** ** The file which is written *)

Lemma div_vec_r : forall v, vec_within 20 v ->
  let w' := fvdiv fl v (pixel_size_fl fl d) in let w := vdiv v (pixel_size d) in
  qrel (vx w') (vx w) /\ qrel (vy w') (vy w) /\ qrel (vz w') (vz w).
Proof. intros v (H1 & H2 & H3). cbn. repeat split; apply (write_error F); assumption. Qed.

Lemma format_vec_r : forall v w, qrel (vx v) (vx w) /\ qrel (vy v) (vy w) /\ qrel (vz v) (vz w) -> vrel (format_vec v) (format_vec w).
Proof.
  intros v w (H1 & H2 & H3). cbn. split; [exact H1|]. split; [exact H2|].
  assert (Z0 : forall q, (q == zpart (if Qeq_bool q 0 then None else Some q))%Q).
  { intros q. destruct (Qeq_bool q 0) eqn:E; [apply Qeq_bool_iff in E; exact E|reflexivity]. }
  eapply qrel_ext; [apply Z0|apply Z0|exact H3].
Qed.

Lemma frag_r : forall t p a ss fs dims, tile_within 20 t ->
  drel vrel (frag_to_crystfel_fl fl t p a ss fs dims (pixel_size_fl fl d)) (frag_to_crystfel t p a ss fs dims (pixel_size d)).
Proof.
  intros t p a ss fs dims (W1 & W2 & W3). unfold frag_to_crystfel_fl, frag_to_crystfel. apply Forall2_app.
  - induction dims as [|x dims IH]; constructor; [split; [reflexivity|apply vrel_refl]|exact IH].
  - destruct (div_vec_r W1) as (C1 & C2 & C3).
    repeat (constructor; [split; [reflexivity|]; cbn [snd]; first [exact C1|exact C2|exact C3|reflexivity|apply format_vec_r, div_vec_r; assumption]|]). constructor.
Qed.

Lemma flat_map_r : forall A (f g : A -> cffile) l, (forall a, In a l -> drel vrel (f a) (g a)) -> drel vrel (flat_map f l) (flat_map g l).
Proof.
  intros A f g l H. induction l as [|a l IH]; [constructor|]. cbn. apply Forall2_app; [apply H; left; reflexivity|apply IH; intros; apply H; right; assumption].
Qed.

Lemma write_r : forall g dims args, within 20 g -> rrel (drel vrel) (write_crystfel_fl fl d g dims args) (write_crystfel d g dims args).
Proof.
  intros g dims args W. unfold write_crystfel_fl, write_crystfel. destruct (filter _ (zenum dims)) as [|fr frs]; [reflexivity|]. cbv zeta.
  destruct (get_rigid_groups _ _ _) as [groups|e]; [|reflexivity]. cbn [bind rrel].
  apply Forall2_app; [apply drel_refl|]. apply Forall2_app; [apply drel_refl|].
  apply Forall2_app.
  { constructor; [split; reflexivity|]. constructor; [|constructor]. split; [reflexivity|]. cbn [snd vrel]. apply (write_error F). discriminate. }
  do 4 (apply Forall2_app; [apply drel_refl|]).
  apply flat_map_r. intros [m md] Hm. apply flat_map_r. intros [t tl] Ht. cbn [fst snd] in *.
  apply zenum_In in Hm. destruct Hm as [_ Hm]. apply zenum_In in Ht. destruct Ht as [_ Ht].
  destruct (tile_slice d t) as [ss fs]. apply frag_r. destruct (in_tile (nth_error_In _ _ Hm) (nth_error_In _ _ Ht)) as (m0 & t0 & H0). exact (W _ _ _ H0).
Qed.

Lemma fields_res : forall t p ss fs dims ps D, 
  dict_get "res" (fold_left (fun d fv => set_field d (fst fv) (snd fv)) (frag_fields t p ss fs dims ps) D) = dict_get "res" D.
Proof.
  intros t p ss fs dims ps D. unfold frag_fields. rewrite fold_left_app. cbn [fold_left fst snd].
  rewrite !(@set_field_other _ _ _ "res") by discriminate. apply dims_keep; [reflexivity| | | | | | | |]; discriminate.
Qed.

Lemma read_res : forall g dims args f m t tl, write_crystfel d g dims args = Ok f -> tile_at g m t = Some tl ->
  exists pd, dict_get (panel_name m t) (cf_panels (load_crystfel f)) = Some pd /\ get_num pd "res" = Ok (1 / pixel_size d)%Q.
Proof.
  intros g dims args f m t tl Hw Ht.
  assert (HF : In DFrame dims).
  { destruct (in_dec (fun a b : dim => ltac:(decide equality; apply Z.eq_dec) : {a = b} + {a <> b}) DFrame dims) as [I|N]; [exact I|].
    exfalso. unfold write_crystfel in Hw. apply no_frame in N. rewrite N in Hw. discriminate. }
  destruct (@write_shape d g dims args HF) as (groups & fr & Hg & Hfr & _ & E). rewrite E in Hw. apply Ok_eq in Hw. subst f.
  assert (I : In (m, (t, tl)) (entries g)) by (apply entries_In; exact Ht).
  apply in_split in I. destruct I as (E1 & E2 & Esp).
  unfold load_crystfel. rewrite fold_left_app. destruct (header_state args Hg Hfr) as [P1 P2]. set (st := fold_left load_line (header d fr args groups) _) in *.
  rewrite Esp.
  assert (L1 := @load_one _ entry_name (entry_fields d dims) E1 (m, (t, tl)) E2 st).
  change (panel_name m t) with (entry_name (m, (t, tl))).
  assert (NN : forall e', In e' (E1 ++ (m, (t, tl)) :: E2) -> 0 <= fst e' /\ 0 <= fst (snd e')) by (intros e' He'; apply entries_nonneg with (g := g); rewrite Esp; exact He').
  rewrite L1; clear L1.
  - eexists. split; [reflexivity|]. unfold get_num, entry_fields. destruct (frag_of d dims (fst (m, (t, tl))) _) as [ss fs]. rewrite fields_res, P2. reflexivity.
  - intros e' He'. destruct (NN e' He'). apply panel_name_no; [assumption|assumption|reflexivity|discriminate|discriminate].
  - intros e' He' En. apply (entries_unique Esp He'). unfold entry_name in En.
    assert (I' : In e' (E1 ++ (m, (t, tl)) :: E2)) by (apply in_or_app; destruct He'; [left|right; right]; assumption).
    destruct (NN e' I'). destruct (NN (m, (t, tl))) as [Nm Nt]; [apply in_or_app; right; left; reflexivity|].
    apply panel_name_inj in En; assumption.
  - unfold entry_fields. destruct (frag_of d dims (fst (m, (t, tl))) _) as [ss fs]. unfold frag_fields. intros X. apply app_eq_nil in X. destruct X as [_ X]. discriminate.
  - exact P1.
Qed.

Lemma written_res : forall g dims args f, full d g -> write_crystfel d g dims args = Ok f -> used_res f.
Proof.
  intros g dims args f HF Hw p a pd r Hp Ha E Er. assert (Hp' : 0 <= p < 16) by (destruct d; exact Hp).
  destruct (full_at HF Hp' Ha) as [tl Htl]. destruct (read_res Hw Htl) as (pd' & E' & Er'). rewrite E in E'. injection E' as <-. rewrite Er in Er'. injection Er' as ->.
  destruct d; split; vm_compute; discriminate.
Qed.

(** ** Equal geometries *)

Lemma close_ext : forall t' t u, same_tile t u -> close fl px' px t' u -> close fl px' px t' t.
Proof.
  intros t' t u ((X1 & Y1 & _) & (X2 & Y2 & _) & (X3 & Y3 & _) & S4 & S5) (K1 & K2 & A1 & A2 & A3 & A4 & A5 & A6).
  unfold close. rewrite X1, Y1, X2, Y2, X3, Y3. split; [congruence|]. split; [congruence|]. repeat (split; [assumption|]). assumption.
Qed.

Lemma F2_of_nth : forall A B (R : A -> B -> Prop) l l', List.length l = List.length l' ->
  (forall n a b, nth_error l n = Some a -> nth_error l' n = Some b -> R a b) -> Forall2 R l l'.
Proof.
  intros A B R l. induction l as [|a l IH]; intros [|b l'] L H; cbn in L; try discriminate; constructor.
  - apply (H 0%nat); reflexivity.
  - apply IH; [congruence|]. intros n. exact (H (Datatypes.S n)).
Qed.

Lemma F2_length : forall A B (R : A -> B -> Prop) l l', Forall2 R l l' -> List.length l = List.length l'.
Proof. intros A B R l l' H. induction H; cbn; congruence. Qed.

Lemma close_same : forall g' g2 g, Forall2 (Forall2 (close fl px' px)) g' g2 -> same_geometry g g2 ->
  List.length g2 = List.length g -> (forall n md2 md, nth_error g2 n = Some md2 -> nth_error g n = Some md -> List.length md2 = List.length md) ->
  Forall2 (Forall2 (close fl px' px)) g' g.
Proof.
  intros g' g2 g H S L L2. apply F2_of_nth; [rewrite (F2_length H); exact L|]. intros n md' md E' E.
  destruct (nth_error g2 n) as [md2|] eqn:E2; [|apply nth_error_None in E2; assert (n < List.length g)%nat by (apply nth_error_Some; congruence); lia].
  assert (HF : Forall2 (close fl px' px) md' md2).
  { clear - H E' E2. revert n E' E2. induction H as [|a b g' g2 H HF IH]; intros [|n] E' E2; cbn in *; try discriminate; [congruence|eauto]. }
  apply F2_of_nth; [rewrite (F2_length HF); eauto|]. intros k t' t T' Tk.
  assert (B : exists u, nth_error md2 k = Some u /\ close fl px' px t' u).
  { clear - HF T'. revert k T'. induction HF as [|a b md' md2 H HF IH]; intros [|k] T'; cbn in *; try discriminate; [injection T' as <-; eauto|eauto]. }
  destruct B as (u & Tu & C). apply close_ext with u; [|exact C]. specialize (S (Z.of_nat n) (Z.of_nat k)). unfold tile_at in S.
  assert (N1 : (0 <=? Z.of_nat n) && (0 <=? Z.of_nat k) = true) by (apply andb_true_iff; split; apply Z.leb_le; lia).
  rewrite N1, !Nat2Z.id, E, E2, Tk, Tu in S. exact S.
Qed.
End Fl.
