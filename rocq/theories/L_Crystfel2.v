(** Lemmas on CrystFEL geometry files: writing and reading back. *)

From Coq Require Import QArith.
From Verif Require Import Base PyStr M_Stacking S_Open S_Stacking L_Base L_GetArray M_Cxi L_Cxi7 M_Geom S_Geom L_Geom1 L_Geom4 M_Crystfel S_Crystfel L_Crystfel.

Set Implicit Arguments.
Unset Strict Implicit.
Local Open Scope string_scope.
Local Open Scope Z_scope.
Local Open Scope list_scope.

Lemma Ok_eq : forall A (a b : A), Ok a = Ok b -> a = b.
Proof. intros A a b H. injection H. auto. Qed.

(** ** Blocks of lines *)

Definition block (n : string) (es : list (string * cfval)) : cffile := map (fun fv => ((n ++ "/" ++ fst fv)%string, snd fv)) es.

Definition frag_fields (t : tile) (p : Z) (ss fs : Z * Z) (dims : list (Z * dim)) (ps : Q) : list (string * cfval) :=
  map (fun nd => (("dim" ++ str_of_int (fst nd))%string, dim_value p (snd nd))) dims ++
  [ ("min_fs", CInt (fst fs)); ("min_ss", CInt (fst ss)); ("max_fs", CInt (snd fs - 1)); ("max_ss", CInt (snd ss - 1));
    ("fs", format_vec (vdiv (t_fs t) ps)); ("ss", format_vec (vdiv (t_ss t) ps));
    ("corner_x", CNum (vx (vdiv (t_corner t) ps))); ("corner_y", CNum (vy (vdiv (t_corner t) ps))); ("coffset", CNum (vz (vdiv (t_corner t) ps))) ].

Lemma frag_block : forall t p a ss fs dims ps, frag_to_crystfel t p a ss fs dims ps = block (panel_name p a) (frag_fields t p ss fs dims ps).
Proof. intros. unfold frag_to_crystfel, block, frag_fields. rewrite map_app, map_map. reflexivity. Qed.

Lemma load_panel_line : forall st n f v, ~ has_char slash n ->
  load_line st ((n ++ "/" ++ f)%string, v) =
  mk_cf_geom (cf_default st)
    (dict_set n (set_field (match dict_get n (cf_panels st) with Some p => p | None => cf_default st end) f v) (cf_panels st)) (cf_groups st).
Proof. intros st n f v H. unfold load_line. change (n ++ "/" ++ f)%string with (n ++ String slash f)%string. rewrite partition_app by exact H. reflexivity. Qed.

Lemma load_block : forall es n st, ~ has_char slash n ->
  let st' := fold_left load_line (block n es) st in
  cf_default st' = cf_default st /\
  forall m, dict_get m (cf_panels st') =
    if String.eqb m n
    then match es with
         | [] => dict_get n (cf_panels st)
         | _ => Some (fold_left (fun d fv => set_field d (fst fv) (snd fv)) es
                        (match dict_get n (cf_panels st) with Some p => p | None => cf_default st end))
         end
    else dict_get m (cf_panels st).
Proof.
  induction es as [|[f v] es IH]; intros n st H; cbv zeta.
  - cbn. split; [reflexivity|]. intros m. destruct (String.eqb_spec m n) as [->|]; reflexivity.
  - cbn [block map fold_left fst snd]. rewrite load_panel_line by exact H.
    match goal with |- context [fold_left load_line ?b ?s] => set (st1 := s); change b with (block n es) end.
    destruct (IH n st1 H) as [A B]. split; [rewrite A; reflexivity|]. intros m. rewrite B. unfold st1. cbn [cf_panels cf_default].
    rewrite !dict_get_set, String.eqb_refl. destruct (String.eqb m n); [|reflexivity]. destruct es; reflexivity.
Qed.

Lemma load_blocks : forall A (nm : A -> string) (fl : A -> list (string * cfval)) E st,
  (forall e, In e E -> ~ has_char slash (nm e)) ->
  let st' := fold_left load_line (flat_map (fun e => block (nm e) (fl e)) E) st in
  cf_default st' = cf_default st /\
  forall m, (forall e, In e E -> nm e <> m) -> dict_get m (cf_panels st') = dict_get m (cf_panels st).
Proof.
  induction E as [|e E IH]; intros st H; cbv zeta; [split; reflexivity|].
  cbn [flat_map]. rewrite fold_left_app.
  destruct (load_block (fl e) st (H e (or_introl eq_refl))) as [A1 B1].
  destruct (IH (fold_left load_line (block (nm e) (fl e)) st)) as [A2 B2]; [intros; apply H; right; assumption|].
  split; [rewrite A2; exact A1|]. intros m Hm. rewrite B2 by (intros; apply Hm; right; assumption). rewrite B1.
  destruct (String.eqb_spec m (nm e)) as [->|N]; [exfalso; exact (Hm e (or_introl eq_refl) eq_refl)|reflexivity].
Qed.

Lemma load_one : forall A (nm : A -> string) (fl : A -> list (string * cfval)) E1 e E2 st,
  (forall e', In e' (E1 ++ e :: E2) -> ~ has_char slash (nm e')) ->
  (forall e', In e' E1 \/ In e' E2 -> nm e' <> nm e) -> fl e <> [] -> cf_panels st = [] ->
  dict_get (nm e) (cf_panels (fold_left load_line (flat_map (fun e => block (nm e) (fl e)) (E1 ++ e :: E2)) st))
  = Some (fold_left (fun d fv => set_field d (fst fv) (snd fv)) (fl e) (cf_default st)).
Proof.
  intros A nm fl E1 e E2 st H1 H2 Hf Hp.
  rewrite flat_map_app, fold_left_app. cbn [flat_map]. rewrite fold_left_app.
  set (st1 := fold_left load_line (flat_map (fun e => block (nm e) (fl e)) E1) st).
  destruct (@load_blocks A nm fl E1 st) as [A1 B1]; [intros; apply H1; apply in_or_app; auto|]. fold st1 in A1, B1.
  destruct (load_block (fl e) st1 (H1 e ltac:(apply in_or_app; right; left; reflexivity))) as [A2 B2].
  match goal with |- dict_get _ (cf_panels (fold_left load_line _ ?s)) = _ => destruct (@load_blocks A nm fl E2 s) as [A3 B3]; [intros; apply H1; apply in_or_app; right; right; assumption|] end.
  rewrite B3 by (intros; apply H2; auto). rewrite B2, String.eqb_refl.
  rewrite B1 by (intros; apply H2; auto). rewrite Hp, A1. cbn [dict_get]. destruct (fl e); [congruence|reflexivity].
Qed.

(** ** Header *)

Lemma set_field_other : forall d f v k, f <> k -> k <> "fsx" -> k <> "fsy" -> k <> "fsz" -> k <> "ssx" -> k <> "ssy" -> k <> "ssz" ->
  k <> "cnx" -> k <> "cny" -> dict_get k (set_field d f v) = dict_get k d.
Proof.
  intros d f v k N F1 F2 F3 S1 S2 S3 C1 C2. unfold set_field, set_vec.
  assert (X : forall k' (v' : cfval) d', k' <> k -> dict_get k (dict_set k' v' d') = dict_get k d').
  { intros k' v' d' Hk. rewrite dict_get_set. destruct (String.eqb_spec k k') as [E|E]; [congruence|reflexivity]. }
  destruct (String.eqb f "fs"); [destruct v; try reflexivity; rewrite !X by (cbn [append]; congruence); reflexivity|].
  destruct (String.eqb f "ss"); [destruct v; try reflexivity; rewrite !X by (cbn [append]; congruence); reflexivity|].
  destruct (String.eqb f "corner_x"); [apply X; congruence|].
  destruct (String.eqb f "corner_y"); [apply X; congruence|].
  apply X. exact N.
Qed.

Lemma load_header : forall ls st, (forall k v, In (k, v) ls -> ~ has_char slash k /\ k <> "res") ->
  let st' := fold_left load_line ls st in
  cf_panels st' = cf_panels st /\ dict_get "res" (cf_default st') = dict_get "res" (cf_default st).
Proof.
  induction ls as [|[k v] ls IH]; intros st H; cbv zeta; [split; reflexivity|]. cbn [fold_left].
  destruct (H k v (or_introl eq_refl)) as [H1 H2].
  assert (X : cf_panels (load_line st (k, v)) = cf_panels st /\ dict_get "res" (cf_default (load_line st (k, v))) = dict_get "res" (cf_default st)).
  { unfold load_line. rewrite partition_none by exact H1. destruct (starts_with "rigid_group" k); cbn [cf_panels cf_default]; [auto|]. split; [reflexivity|].
    apply set_field_other; [exact H2|discriminate..]. }
  destruct (IH (load_line st (k, v))) as [A B]; [intros; apply H with v0; right; assumption|].
  rewrite A, B. exact X.
Qed.

(** ** One panel *)

Definition frag_of (d : detector) (dims : list dim) (m t : Z) : (Z * Z) * (Z * Z) :=
  let '(ss, fs) := tile_slice d t in
  (if existsb is_modno dims then ss else let off := m * mod_ss d in (fst ss + off, snd ss + off), fs).

Lemma dims_keep : forall p dims D k, starts_with "dim" k = false -> k <> "fsx" -> k <> "fsy" -> k <> "fsz" -> k <> "ssx" -> k <> "ssy" -> k <> "ssz" ->
  k <> "cnx" -> k <> "cny" ->
  dict_get k (fold_left (fun d fv => set_field d (fst fv) (snd fv)) (map (fun nd => (("dim" ++ str_of_int (fst nd))%string, dim_value p (snd nd))) dims) D) = dict_get k D.
Proof.
  intros p. induction dims as [|nd dims IH]; intros D k H F1 F2 F3 S1 S2 S3 C1 C2; [reflexivity|]. cbn [map fold_left fst snd]. rewrite IH by assumption.
  apply set_field_other; try assumption. intros <-. discriminate H.
Qed.

Lemma read_panel : forall t p ss fs dims ps D, ~ (ps == 0)%Q -> dict_get "res" D = Some (CNum (1 / ps)) ->
  exists t', from_panel_dict (fold_left (fun d fv => set_field d (fst fv) (snd fv)) (frag_fields t p ss fs dims ps) D) = Ok t' /\
  veq (t_corner t') (t_corner t) /\ veq (t_ss t') (t_ss t) /\ veq (t_fs t') (t_fs t) /\ t_ss_px t' = snd ss - fst ss /\ t_fs_px t' = snd fs - fst fs.
Proof.
  intros t p ss fs dims ps D Hps HD. unfold frag_fields. rewrite fold_left_app.
  pose proof (@dims_keep p dims D "res" eq_refl ltac:(discriminate) ltac:(discriminate) ltac:(discriminate) ltac:(discriminate) ltac:(discriminate) ltac:(discriminate) ltac:(discriminate) ltac:(discriminate)) as K.
  match type of K with dict_get _ ?x = _ => set (D1 := x) in * end. rewrite HD in K.
  cbn [fold_left fst snd].
  repeat match goal with |- context [set_field ?d ?k ?v] =>
    lazymatch d with context [set_field _ _ _] => fail | _ => idtac end;
    let y := eval cbv [set_field set_vec format_vec String.eqb Ascii.eqb Bool.eqb append] in (set_field d k v) in change (set_field d k v) with y end.
  match goal with |- context [from_panel_dict ?x] => set (D2 := x) end.
  assert (G : forall k, dict_get k D2 = dict_get k D2) by reflexivity.
  unfold D2 in G at 2.
  assert (Gr : get_num D2 "res" = Ok (1 / ps)%Q).
  { unfold get_num. rewrite G, !dict_get_set. cbn [String.eqb Ascii.eqb Bool.eqb]. rewrite K. reflexivity. }
  Ltac look G := unfold get_num, get_int; rewrite G, !dict_get_set; cbn [String.eqb Ascii.eqb Bool.eqb]; reflexivity.
  assert (G1 : get_num D2 "cnx" = Ok (vx (vdiv (t_corner t) ps))) by look G.
  assert (G2 : get_num D2 "cny" = Ok (vy (vdiv (t_corner t) ps))) by look G.
  assert (G3 : get_num D2 "coffset" = Ok (vz (vdiv (t_corner t) ps))) by look G.
  assert (G4 : get_num D2 "ssx" = Ok (vx (vdiv (t_ss t) ps))) by look G.
  assert (G5 : get_num D2 "ssy" = Ok (vy (vdiv (t_ss t) ps))) by look G.
  assert (G6 : get_num D2 "ssz" = Ok (match (if Qeq_bool (vz (vdiv (t_ss t) ps)) 0 then None else Some (vz (vdiv (t_ss t) ps))) with Some q => q | None => 0%Q end)) by look G.
  assert (G7 : get_num D2 "fsx" = Ok (vx (vdiv (t_fs t) ps))) by look G.
  assert (G8 : get_num D2 "fsy" = Ok (vy (vdiv (t_fs t) ps))) by look G.
  assert (G9 : get_num D2 "fsz" = Ok (match (if Qeq_bool (vz (vdiv (t_fs t) ps)) 0 then None else Some (vz (vdiv (t_fs t) ps))) with Some q => q | None => 0%Q end)) by look G.
  assert (Ga : get_int D2 "max_ss" = Ok (snd ss - 1)) by look G.
  assert (Gb : get_int D2 "min_ss" = Ok (fst ss)) by look G.
  assert (Gc : get_int D2 "max_fs" = Ok (snd fs - 1)) by look G.
  assert (Gd : get_int D2 "min_fs" = Ok (fst fs)) by look G.
  clearbody D2. unfold from_panel_dict. rewrite Gr, G1, G2, G3, G4, G5, G6, G7, G8, G9, Ga, Gb, Gc, Gd. cbn [bind].
  eexists. split; [reflexivity|]. cbn [t_corner t_ss t_fs t_ss_px t_fs_px].
  assert (Z0 : forall q, ((match (if Qeq_bool q 0 then None else Some q) with Some q' => q' | None => 0 end) == q)%Q).
  { intros q. destruct (Qeq_bool q 0) eqn:E; [apply Qeq_bool_iff in E; rewrite E; reflexivity|reflexivity]. }
  assert (D0 : forall q, (q / ps / (1 / ps) == q)%Q) by (intros q; field; exact Hps).
  unfold veq, vdiv. cbn [vx vy vz]. rewrite !Z0, !D0. repeat split; try reflexivity; lia.
Qed.

(** ** The whole file *)

Lemma flat_map_entries : forall A B (F : Z -> Z * A -> list B) (g : list (list A)),
  flat_map (fun mi => flat_map (F (fst mi)) (zenum (snd mi))) (zenum g) = flat_map (fun e => F (fst e) (snd e)) (entries g).
Proof.
  intros A B F g. unfold entries. generalize (zenum g). intros l. induction l as [|[m md] l IH]; [reflexivity|].
  cbn [flat_map fst snd]. rewrite flat_map_app, IH. f_equal. generalize (zenum md). intros ts. induction ts as [|t ts IHt]; [reflexivity|].
  cbn [flat_map map]. rewrite IHt. reflexivity.
Qed.

Definition tile_dims (dims : list dim) : list (Z * dim) := filter (fun nd => negb (is_frame (snd nd))) (zenum dims).

Definition entry_name (e : Z * (Z * tile)) : string := panel_name (fst e) (fst (snd e)).
Definition entry_fields (d : detector) (dims : list dim) (e : Z * (Z * tile)) : list (string * cfval) :=
  let '(ss, fs) := frag_of d dims (fst e) (fst (snd e)) in
  frag_fields (snd (snd e)) (fst e) ss fs (tile_dims dims) (pixel_size d).

Definition header (d : detector) (fr : Z) (args : cf_args) (groups : cffile) : cffile :=
  [("data", CText (ca_data args))] ++
  match ca_mask args with None => [] | Some "" => [] | Some m => [("mask", CText m)] end ++
  [(("dim" ++ str_of_int fr)%string, CText "%"); ("res", CNum (1 / pixel_size d))] ++
  opt_line "photon_energy" CNum (ca_energy args) ++ opt_line "clen" CNum (ca_clen args) ++ opt_line "adu_per_eV" CNum (ca_adu args) ++ groups.

Lemma no_frame : forall dims, ~ In DFrame dims <-> filter (fun nd => is_frame (snd nd)) (zenum dims) = [].
Proof.
  intros dims. split.
  - intros H. destruct (filter _ (zenum dims)) as [|[i x] r] eqn:E; [reflexivity|]. exfalso.
    assert (I : In (i, x) (filter (fun nd => is_frame (snd nd)) (zenum dims))) by (rewrite E; left; reflexivity).
    apply filter_In in I. destruct I as [I1 I2]. cbn in I2. destruct x; try discriminate. apply zenum_In in I1. apply H. eapply nth_error_In. apply I1.
  - intros H I. apply In_nth_error in I. destruct I as [k Hk].
    assert (I : In (Z.of_nat k, DFrame) (filter (fun nd => is_frame (snd nd)) (zenum dims))).
    { apply filter_In. split; [|reflexivity]. apply zenum_In. rewrite Nat2Z.id. split; [lia|exact Hk]. }
    rewrite H in I. exact I.
Qed.

Lemma last_In : forall A (l : list A) x, In (List.last l x) (x :: l).
Proof.
  induction l as [|a l IH]; intros x; [left; reflexivity|]. destruct l as [|b l]; [right; left; reflexivity|].
  change (List.last (a :: b :: l) x) with (List.last (b :: l) x). destruct (IH x) as [H|H]; [left; exact H|right; right; exact H].
Qed.

Lemma write_shape : forall d g dims args, In DFrame dims -> exists groups fr,
  get_rigid_groups (n_modules d) (n_tiles d) 4 = Ok groups /\
  0 <= fr /\ nth_error dims (Z.to_nat fr) = Some DFrame /\
  write_crystfel d g dims args = Ok (header d fr args groups ++ flat_map (fun e => block (entry_name e) (entry_fields d dims e)) (entries g)).
Proof.
  intros d g dims args H. unfold write_crystfel.
  destruct (filter (fun nd => is_frame (snd nd)) (zenum dims)) as [|fr frs] eqn:E.
  { apply no_frame in E. contradiction. }
  destruct (@rigid_ok (n_modules d) (n_tiles d) 4) as [gr Hg]; [destruct d; reflexivity|reflexivity|].
  exists gr, (fst (List.last frs fr)). split; [exact Hg|].
  assert (I : In (List.last frs fr) (filter (fun nd => is_frame (snd nd)) (zenum dims))) by (rewrite E; apply last_In).
  destruct (List.last frs fr) as [i x]. apply filter_In in I. destruct I as [I1 I2]. cbn in I2. destruct x; try discriminate.
  apply zenum_In in I1. split; [apply I1|]. split; [apply I1|]. cbv zeta. rewrite Hg. cbn [bind fst]. f_equal.
  unfold header. rewrite <- !app_assoc. do 6 f_equal.
  rewrite (@flat_map_entries tile _ (fun m ti => let '(ss, fs) := tile_slice d (fst ti) in
          frag_to_crystfel (snd ti) m (fst ti) (if existsb is_modno dims then ss else (fst ss + m * mod_ss d, snd ss + m * mod_ss d)) fs (filter (fun nd => negb (is_frame (snd nd))) (zenum dims)) (pixel_size d))).
  f_equal. apply flat_map_ext. intros [m [t tl]]. unfold entry_name, entry_fields, frag_of. cbn [fst snd].
  destruct (tile_slice d t) as [ss fs]. rewrite frag_block. reflexivity.
Qed.

Lemma groups_keys : forall nm nt nq f k v, get_rigid_groups nm nt nq = Ok f -> In (k, v) f -> ~ has_char slash k /\ starts_with "rigid_group" k = true.
Proof.
  intros nm nt nq f k v H Hin. unfold get_rigid_groups in H.
  destruct (np_array_split _ nq) as [qs|]; [|discriminate]. cbn [bind] in H. destruct (np_array_split _ nm) as [ps|]; [|discriminate]. cbn [bind] in H.
  injection H as <-. rewrite !in_app_iff, !in_map_iff in Hin.
  assert (X : forall (pre : string) z, 0 <= z -> ~ has_char slash pre -> ~ has_char slash (pre ++ str_of_int z)%string).
  { intros pre z Hz Hp Hc. apply has_char_app in Hc. destruct Hc as [Hc|Hc]; [tauto|]. revert Hc. apply digits_no; [reflexivity|exact Hz]. }
  destruct Hin as [((i & part) & E & Hin)|[((i & part) & E & Hin)|[E|[E|[]]]]]; apply pair_equal_spec in E; destruct E as [<- _].
  - apply zenum_In in Hin. split; [|reflexivity]. apply (X "rigid_group_q"); [apply Hin|]. unfold slash. cbn. intuition discriminate.
  - apply zenum_In in Hin. split; [|reflexivity]. apply (X "rigid_group_p"); [apply Hin|]. unfold slash. cbn. intuition discriminate.
  - split; [|reflexivity]. unfold slash. cbn. intuition discriminate.
  - split; [|reflexivity]. unfold slash. cbn. intuition discriminate.
Qed.

Lemma header_state : forall d fr args groups, get_rigid_groups (n_modules d) (n_tiles d) 4 = Ok groups -> 0 <= fr ->
  let st := fold_left load_line (header d fr args groups) (mk_cf_geom [] [] []) in
  cf_panels st = [] /\ dict_get "res" (cf_default st) = Some (CNum (1 / pixel_size d)).
Proof.
  intros d fr args groups Hg Hfr. cbv zeta.
  set (pre := [("data", CText (ca_data args))] ++ match ca_mask args with None => [] | Some "" => [] | Some m => [("mask", CText m)] end ++ [(("dim" ++ str_of_int fr)%string, CText "%")]).
  set (post := opt_line "photon_energy" CNum (ca_energy args) ++ opt_line "clen" CNum (ca_clen args) ++ opt_line "adu_per_eV" CNum (ca_adu args) ++ groups).
  replace (header d fr args groups) with (pre ++ ("res", CNum (1 / pixel_size d)) :: post) by (unfold header, pre, post; rewrite <- !app_assoc; reflexivity).
  rewrite fold_left_app. cbn [fold_left].
  assert (P1 : forall k v, In (k, v) pre -> ~ has_char slash k /\ k <> "res").
  { intros k v H. unfold pre in H. rewrite !in_app_iff in H. destruct H as [[H|[]]|[H|[H|[]]]].
    - apply pair_equal_spec in H. destruct H as [<- _]. split; [unfold slash; cbn; intuition discriminate|discriminate].
    - destruct (ca_mask args) as [[|c s]|]; [destruct H| |destruct H]. destruct H as [H|[]]. apply pair_equal_spec in H. destruct H as [<- _]. split; [unfold slash; cbn; intuition discriminate|discriminate].
    - apply pair_equal_spec in H. destruct H as [<- _]. split; [|discriminate]. intros Hc. apply has_char_app in Hc. destruct Hc as [Hc|Hc]; [unfold slash in Hc; cbn in Hc; intuition discriminate|].
      revert Hc. apply digits_no; [reflexivity|exact Hfr]. }
  assert (P2 : forall k v, In (k, v) post -> ~ has_char slash k /\ k <> "res").
  { intros k v H. unfold post in H. cbn [app] in H. rewrite !in_app_iff in H. unfold opt_line in H.
    destruct H as [H|[H|[H|H]]].
    - destruct (ca_energy args); [destruct H as [H|[]]; apply pair_equal_spec in H; destruct H as [<- _]; split; [unfold slash; cbn; intuition discriminate|discriminate]|destruct H].
    - destruct (ca_clen args); [destruct H as [H|[]]; apply pair_equal_spec in H; destruct H as [<- _]; split; [unfold slash; cbn; intuition discriminate|discriminate]|destruct H].
    - destruct (ca_adu args); [destruct H as [H|[]]; apply pair_equal_spec in H; destruct H as [<- _]; split; [unfold slash; cbn; intuition discriminate|discriminate]|destruct H].
    - destruct (groups_keys Hg H) as [A B]. split; [exact A|]. intros ->. discriminate B. }
  destruct (@load_header pre (mk_cf_geom [] [] []) P1) as [A1 B1].
  set (st1 := fold_left load_line pre _) in *.
  assert (R : load_line st1 ("res", CNum (1 / pixel_size d)) = mk_cf_geom (dict_set "res" (CNum (1 / pixel_size d)) (cf_default st1)) (cf_panels st1) (cf_groups st1)) by reflexivity.
  rewrite R. destruct (@load_header post (mk_cf_geom (dict_set "res" (CNum (1 / pixel_size d)) (cf_default st1)) (cf_panels st1) (cf_groups st1)) P2) as [A2 B2].
  rewrite A2, B2. cbn [cf_panels cf_default]. rewrite dict_get_set. split; [exact A1|reflexivity].
Qed.

Lemma entries_nonneg : forall A (g : list (list A)) e, In e (entries g) -> 0 <= fst e /\ 0 <= fst (snd e).
Proof.
  intros A g [m [t a]] H. apply entries_In in H. unfold at_ in H. cbn [fst snd].
  destruct (0 <=? m) eqn:P1; [|discriminate]. destruct (0 <=? t) eqn:Q1; [|discriminate]. apply Z.leb_le in P1. apply Z.leb_le in Q1. auto.
Qed.

Lemma entries_unique : forall A (g : list (list A)) E1 e E2, entries g = E1 ++ e :: E2 ->
  forall e', In e' E1 \/ In e' E2 -> ~ (fst e' = fst e /\ fst (snd e') = fst (snd e)).
Proof.
  intros A g E1 e E2 E e' Hin [H1 H2]. pose proof (entries_sorted g) as S. rewrite E in S. clear E.
  assert (X : after (fst e) (fst (snd e)) (fst e') (fst (snd e')) \/ after (fst e') (fst (snd e')) (fst e) (fst (snd e))).
  { induction E1 as [|x E1 IH].
    - destruct Hin as [[]|Hin]. inversion S; subst. rewrite Forall_forall in H4. right. apply H4. exact Hin.
    - inversion S; subst. destruct Hin as [[->|Hin]|Hin]; [|apply IH; auto|apply IH; auto].
      rewrite Forall_forall in H4. left. apply H4. apply in_or_app. right. left. reflexivity. }
  unfold after in X. lia.
Qed.

Lemma ps_pos : forall d, ~ (pixel_size d == 0)%Q.
Proof. intros [] H; vm_compute in H; discriminate. Qed.

Lemma read_tile : forall d g dims args f m t tl, write_crystfel d g dims args = Ok f -> tile_at g m t = Some tl ->
  exists pd tl', dict_get (panel_name m t) (cf_panels (load_crystfel f)) = Some pd /\ from_panel_dict pd = Ok tl' /\
    veq (t_corner tl') (t_corner tl) /\ veq (t_ss tl') (t_ss tl) /\ veq (t_fs tl') (t_fs tl) /\ t_ss_px tl' = frag_ss d /\ t_fs_px tl' = frag_fs d.
Proof.
  intros d g dims args f m t tl Hw Ht.
  assert (HF : In DFrame dims).
  { destruct (in_dec (fun a b : dim => ltac:(decide equality; apply Z.eq_dec) : {a = b} + {a <> b}) DFrame dims) as [I|N]; [exact I|].
    exfalso. unfold write_crystfel in Hw. apply no_frame in N. rewrite N in Hw. discriminate. }
  destruct (@write_shape d g dims args HF) as (groups & fr & Hg & Hfr & _ & E). rewrite E in Hw. apply Ok_eq in Hw. subst f.
  assert (I : In (m, (t, tl)) (entries g)) by (apply entries_In; exact Ht).
  apply in_split in I. destruct I as (E1 & E2 & Esp).
  unfold load_crystfel. rewrite fold_left_app. destruct (header_state args Hg Hfr) as [P1 P2]. set (st := fold_left load_line (header d fr args groups) _) in *.
  rewrite Esp.
  assert (L1 := @load_one _ entry_name (entry_fields d dims) E1 (m, (t, tl)) E2 st).
  change (panel_name m t) with (entry_name (m, (t, tl))).
  assert (NN : forall e', In e' (E1 ++ (m, (t, tl)) :: E2) -> 0 <= fst e' /\ 0 <= fst (snd e')) by (intros e' He'; apply entries_nonneg with (g := g); rewrite Esp; exact He').
  rewrite L1; clear L1.
  - assert (Fe : entry_fields d dims (m, (t, tl)) = let '(ss, fs) := frag_of d dims m t in frag_fields tl m ss fs (tile_dims dims) (pixel_size d)) by reflexivity.
    rewrite Fe. clear Fe. pose proof (tile_slice_size d t) as Sz. unfold frag_of. destruct (tile_slice d t) as [ss fs].
    set (ss' := if existsb is_modno dims then ss else _).
    destruct (@read_panel tl m ss' fs (tile_dims dims) (pixel_size d) (cf_default st) (@ps_pos d) P2) as (tl' & R & V1 & V2 & V3 & V4 & V5).
    eexists. exists tl'. split; [reflexivity|]. split; [exact R|]. repeat (split; [assumption|]). rewrite V4, V5. unfold ss'.
    destruct (existsb is_modno dims); cbn [fst snd]; lia.
  - intros e' He'. destruct (NN e' He'). apply panel_name_no; [assumption|assumption|reflexivity|discriminate|discriminate].
  - intros e' He' En. apply (entries_unique Esp He'). unfold entry_name in En.
    assert (I' : In e' (E1 ++ (m, (t, tl)) :: E2)) by (apply in_or_app; destruct He'; [left|right; right]; assumption).
    destruct (NN e' I'). destruct (NN (m, (t, tl))) as [Nm Nt]; [apply in_or_app; right; left; reflexivity|].
    apply panel_name_inj in En; assumption.
  - unfold entry_fields. destruct (frag_of d dims (fst (m, (t, tl))) _) as [ss fs]. unfold frag_fields. intros X. apply app_eq_nil in X. destruct X as [_ X]. discriminate.
  - exact P1.
Qed.

Lemma crystfel_inverse : forall d g dims args, full d g -> In DFrame dims ->
  exists f g', write_crystfel d g dims args = Ok f /\ from_crystfel d f = Ok g' /\ same_geometry g g'.
Proof.
  intros d g dims args Hfull HF. destruct (@write_shape d g dims args HF) as (groups & fr & _ & _ & _ & E).
  eexists. set (f := header d fr args groups ++ _) in *.
  assert (R : forall m t, 0 <= m < 16 -> 0 <= t < n_tiles d -> exists tl', 
    (match dict_get (panel_name m t) (cf_panels (load_crystfel f)) with None => Err EKeyError | Some pd => from_panel_dict pd end) = Ok tl' /\
    exists tl, tile_at g m t = Some tl /\ same_tile tl tl').
  { intros m t Hm Ht. destruct (full_at Hfull Hm Ht) as [tl Htl]. destruct (read_tile E Htl) as (pd & tl' & D & P & V1 & V2 & V3 & V4 & V5).
    exists tl'. rewrite D. split; [exact P|]. exists tl. split; [exact Htl|]. destruct (fits_at (proj1 Hfull) Htl) as (_ & _ & S1 & S2).
    unfold same_tile. repeat split; try congruence; try (apply Qeq_sym; first [apply V1|apply V2|apply V3]). }
  set (rd := fun m t => match dict_get (panel_name m t) (cf_panels (load_crystfel f)) with None => Err EKeyError | Some pd => from_panel_dict pd end) in *.
  set (h := fun m t => match rd m t with Ok tl => tl | Err _ => mk_tile vzero vzero vzero 0 0 end).
  exists (map (fun p => map (h p) (zr (Z.to_nat (n_tiles d)))) (zr 16)). split; [exact E|].
  assert (Hn : 0 < n_tiles d) by (destruct d; reflexivity).
  split.
  - unfold from_crystfel. replace (n_modules d) with 16 by (destruct d; reflexivity). change (Z.to_nat 16) with 16%nat.
    apply mapM_pure. intros m Hm. apply zr_In in Hm. apply mapM_pure. intros t Ht. apply zr_In in Ht.
    destruct (R m t) as (tl' & P & _); [lia|lia|]. change (rd m t = Ok (h m t)). unfold h. change (rd m t = Ok tl') in P. rewrite P. reflexivity.
  - intros m t. destruct (tile_at g m t) as [tl|] eqn:Et.
    + destruct (fits_at (proj1 Hfull) Et) as (Hm & Ht & _). destruct (R m t Hm Ht) as (tl' & P & tl0 & T0 & S). rewrite Et in T0. injection T0 as <-.
      assert (X : tile_at (map (fun p => map (h p) (zr (Z.to_nat (n_tiles d)))) (zr 16)) m t = Some (h m t)) by (apply table_at; repeat split; lia).
      rewrite X. unfold h. change (rd m t = Ok tl') in P. rewrite P. exact S.
    + destruct (tile_at (map _ (zr 16)) m t) as [tl'|] eqn:E'; [|exact I]. apply table_at in E'. destruct E' as (Hm & Ht & _).
      destruct (@full_at d g m t Hfull) as [tl Htl]; [lia|lia|]. congruence.
Qed.

(** ** Where the panels' data are *)

Lemma block_key : forall n n' k k', ~ has_char slash n -> ~ has_char slash n' -> (n ++ "/" ++ k)%string = (n' ++ "/" ++ k')%string -> n = n' /\ k = k'.
Proof.
  intros n n' k k' H H' E. change (n ++ "/" ++ k)%string with (n ++ String slash k)%string in E. change (n' ++ "/" ++ k')%string with (n' ++ String slash k')%string in E.
  assert (X : py_partition slash (n ++ String slash k)%string = py_partition slash (n' ++ String slash k')%string) by congruence.
  rewrite !partition_app in X by assumption. injection X as -> ->. auto.
Qed.

Lemma panel_line_iff : forall d g dims args f m t tl k v, write_crystfel d g dims args = Ok f -> tile_at g m t = Some tl ->
  (panel_line f (panel_name m t) k v <-> In (k, v) (entry_fields d dims (m, (t, tl)))).
Proof.
  intros d g dims args f m t tl k v Hw Ht.
  assert (HF : In DFrame dims).
  { destruct (in_dec (fun a b : dim => ltac:(decide equality; apply Z.eq_dec) : {a = b} + {a <> b}) DFrame dims) as [I|N]; [exact I|].
    exfalso. unfold write_crystfel in Hw. apply no_frame in N. rewrite N in Hw. discriminate. }
  destruct (@write_shape d g dims args HF) as (groups & fr & Hg & Hfr & _ & E). rewrite E in Hw. apply Ok_eq in Hw. subst f.
  assert (I : In (m, (t, tl)) (entries g)) by (apply entries_In; exact Ht).
  pose proof (entries_nonneg I) as NN. cbn [fst snd] in NN.
  assert (Ns : ~ has_char slash (panel_name m t)) by (apply panel_name_no; [apply NN|apply NN|reflexivity|discriminate|discriminate]).
  unfold panel_line. rewrite in_app_iff. split.
  - intros [H|H].
    + exfalso. assert (S : has_char slash (panel_name m t ++ "/" ++ k)%string) by (apply has_char_app; right; left; reflexivity).
      unfold header in H. cbn [app] in H. destruct H as [H|H]; [apply pair_equal_spec in H; destruct H as [H _]; rewrite <- H in S; unfold slash in S; cbn in S; intuition discriminate|].
      rewrite in_app_iff in H. destruct H as [H|[H|[H|H]]].
      * destruct (ca_mask args) as [[|c s]|]; [destruct H| |destruct H]. destruct H as [H|[]]. apply pair_equal_spec in H. destruct H as [H _]. rewrite <- H in S. unfold slash in S; cbn in S; intuition discriminate.
      * apply pair_equal_spec in H. destruct H as [H _]. rewrite <- H in S. apply has_char_app in S. destruct S as [S|S]; [unfold slash in S; cbn in S; intuition discriminate|].
        revert S. apply digits_no; [reflexivity|exact Hfr].
      * apply pair_equal_spec in H. destruct H as [H _]. rewrite <- H in S. unfold slash in S; cbn in S; intuition discriminate.
      * rewrite !in_app_iff in H. unfold opt_line in H. destruct H as [H|[H|[H|H]]].
        -- destruct (ca_energy args); [destruct H as [H|[]]; apply pair_equal_spec in H; destruct H as [H _]; rewrite <- H in S; unfold slash in S; cbn in S; intuition discriminate|destruct H].
        -- destruct (ca_clen args); [destruct H as [H|[]]; apply pair_equal_spec in H; destruct H as [H _]; rewrite <- H in S; unfold slash in S; cbn in S; intuition discriminate|destruct H].
        -- destruct (ca_adu args); [destruct H as [H|[]]; apply pair_equal_spec in H; destruct H as [H _]; rewrite <- H in S; unfold slash in S; cbn in S; intuition discriminate|destruct H].
        -- destruct (groups_keys Hg H) as [A _]. contradiction.
    + apply in_flat_map in H. destruct H as ([m' [t' tl']] & I' & H). pose proof (entries_nonneg I') as NN'. cbn [fst snd] in NN'.
      unfold block in H. apply in_map_iff in H. destruct H as ((k' & v') & X & H). apply pair_equal_spec in X. cbn [fst snd] in X. destruct X as [X <-].
      apply block_key in X; [|apply panel_name_no; [apply NN'|apply NN'|reflexivity|discriminate|discriminate]|exact Ns]. destruct X as [X ->].
      unfold entry_name in X. cbn [fst snd] in X. apply panel_name_inj in X; try tauto. destruct X as [-> ->].
      apply entries_In in I'. change (at_ g m t) with (tile_at g m t) in I'. rewrite Ht in I'. injection I' as <-. exact H.
  - intros H. right. apply in_flat_map. exists (m, (t, tl)). split; [exact I|]. unfold block. apply in_map_iff. exists (k, v). split; [reflexivity|exact H].
Qed.

Lemma NoDup_zenum_dims : forall p (dims : list dim), NoDup (map fst (map (fun nd : Z * dim => (("dim" ++ str_of_int (fst nd))%string, dim_value p (snd nd))) (tile_dims dims))).
Proof.
  intros p dims. rewrite map_map. cbn [fst]. unfold tile_dims.
  pose proof (zenum_sorted dims) as S. assert (P : forall x, In x (zenum dims) -> 0 <= fst x) by (intros [i x] H; apply zenum_In in H; apply H).
  induction S as [|x l S IH Hf]; [constructor|]. cbn [filter]. destruct (negb (is_frame (snd x))); [|apply IH; intros; apply P; right; assumption].
  cbn [map]. constructor; [|apply IH; intros; apply P; right; assumption].
  intros H. apply in_map_iff in H. destruct H as (y & E & H). apply filter_In in H. destruct H as [H _].
  rewrite Forall_forall in Hf. specialize (Hf y H). injection E as E. apply str_of_int_inj in E; [lia|apply P; right; exact H|apply P; left; reflexivity].
Qed.

Lemma fields_fun : forall t p ss fs dims ps k v v', In (k, v) (frag_fields t p ss fs (tile_dims dims) ps) -> In (k, v') (frag_fields t p ss fs (tile_dims dims) ps) -> v = v'.
Proof.
  intros t p ss fs dims ps k v v' H H'.
  assert (N : NoDup (map fst (frag_fields t p ss fs (tile_dims dims) ps))).
  { unfold frag_fields. rewrite map_app. apply NoDup_app_intro; [apply NoDup_zenum_dims| |].
    - repeat (constructor; [cbn; intuition discriminate|]). constructor.
    - intros x Hx Hy. rewrite map_map in Hx. apply in_map_iff in Hx. destruct Hx as (nd & <- & _). cbn in Hy. intuition discriminate. }
  revert N H H'. generalize (frag_fields t p ss fs (tile_dims dims) ps). intros l N. induction l as [|[a b] l IH]; intros H H'; [destruct H|].
  cbn [map fst] in N. inversion N as [|? ? N1 N2]; subst. destruct H as [H|H], H' as [H'|H'].
  - congruence.
  - injection H as <- <-. exfalso. apply N1. apply in_map_iff. exists (a, v'). auto.
  - injection H' as <- <-. exfalso. apply N1. apply in_map_iff. exists (a, v). auto.
  - apply IH; assumption.
Qed.

Lemma panel_line_fun : forall d g dims args f m t tl k v v', write_crystfel d g dims args = Ok f -> tile_at g m t = Some tl ->
  panel_line f (panel_name m t) k v -> panel_line f (panel_name m t) k v' -> v = v'.
Proof.
  intros d g dims args f m t tl k v v' Hw Ht H H'. apply (panel_line_iff k v Hw Ht) in H. apply (panel_line_iff k v' Hw Ht) in H'.
  unfold entry_fields in H, H'. destruct (frag_of d dims (fst (m, (t, tl))) (fst (snd (m, (t, tl))))) as [ss fs]. eapply fields_fun; eassumption.
Qed.

Lemma panel_data : forall d g dims args f m t tl, fits d g -> write_crystfel d g dims args = Ok f -> tile_at g m t = Some tl ->
  exists a b, panel_line f (panel_name m t) "min_ss" (CInt a) /\ panel_line f (panel_name m t) "max_ss" (CInt (a + frag_ss d - 1)) /\
    panel_line f (panel_name m t) "min_fs" (CInt b) /\ panel_line f (panel_name m t) "max_fs" (CInt (b + frag_fs d - 1)) /\
    forall s fs, in_tile d s fs ->
      data_pixel d t s fs = (a + s - (if existsb is_modno dims then 0 else m * mod_ss d), b + fs).
Proof.
  intros d g dims args f m t tl Hfit Hw Ht. destruct (fits_at Hfit Ht) as (Hm & Ht' & _).
  pose proof (tile_slice_size d t) as Sz. pose proof (fun s fs H => @tile_slice_pixel d t s fs Ht' H) as Px.
  destruct (frag_of d dims m t) as [ss fs] eqn:Ef.
  assert (Fe : entry_fields d dims (m, (t, tl)) = frag_fields tl m ss fs (tile_dims dims) (pixel_size d)) by (unfold entry_fields; cbn [fst snd]; rewrite Ef; reflexivity).
  unfold frag_of in Ef. destruct (tile_slice d t) as [ss0 fs0]. injection Ef as Ess <-.
  assert (Inr : forall k v, In (k, v) [ ("min_fs", CInt (fst fs0)); ("min_ss", CInt (fst ss)); ("max_fs", CInt (snd fs0 - 1)); ("max_ss", CInt (snd ss - 1)) ] -> panel_line f (panel_name m t) k v).
  { intros k v H. apply (panel_line_iff k v Hw Ht). rewrite Fe. unfold frag_fields. apply in_or_app. right. cbn in H |- *. intuition. }
  assert (Es : snd ss - fst ss = frag_ss d) by (rewrite <- Ess; destruct (existsb is_modno dims); cbn [fst snd]; lia).
  exists (fst ss), (fst fs0). repeat split.
  - apply Inr. cbn. auto.
  - apply Inr. replace (fst ss + frag_ss d - 1) with (snd ss - 1) by lia. cbn. auto 6.
  - apply Inr. cbn. auto.
  - apply Inr. replace (fst fs0 + frag_fs d - 1) with (snd fs0 - 1) by lia. cbn. auto 6.
  - intros s f' Hin. specialize (Px s f' Hin). destruct (data_pixel d t s f') as [x y]. destruct Px as (_ & P1 & P2).
    rewrite <- Ess. destruct (existsb is_modno dims); cbn [fst snd]; apply f_equal2; lia.
Qed.

Lemma panel_dims : forall d g dims args f m t tl n x, write_crystfel d g dims args = Ok f -> tile_at g m t = Some tl ->
  0 <= n -> nth_error dims (Z.to_nat n) = Some x -> x <> DFrame -> panel_line f (panel_name m t) ("dim" ++ str_of_int n)%string (dim_value m x).
Proof.
  intros d g dims args f m t tl n x Hw Ht Hn Hx Nx. apply (panel_line_iff _ _ Hw Ht). unfold entry_fields.
  destruct (frag_of d dims (fst (m, (t, tl))) (fst (snd (m, (t, tl))))) as [ss fs]. unfold frag_fields. apply in_or_app. left.
  apply in_map_iff. exists (n, x). split; [reflexivity|]. unfold tile_dims. apply filter_In. split; [apply zenum_In; auto|]. destruct x; try reflexivity. congruence.
Qed.
