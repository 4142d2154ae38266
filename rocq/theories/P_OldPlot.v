(** C96: plots and the printed form of the deprecated LPD geometry. *)
From Coq Require Import QArith Qround.
From Verif Require Import Base L_Base M_Cxi S_Info L_Info M_OldGeom S_OldGeom L_OldGeom M_OldPlot P_OldGeom.
Local Open Scope string_scope.
Local Open Scope Z_scope.
Local Open Scope list_scope.

(** The pixel at which a module starts. *)
Definition module_start (g : frag) (centre : Z * Z) (c x0 y0 : Z) : Prop :=
  exists h s, reaches g [qname (c / 4 + 1); mname (c mod 4 + 1)] h s /\
    x0 = Qfloor (fst s / (1 # 2000)) + fst centre /\ y0 = Qfloor (snd s / (1 # 2000)) + snd centre.
(** Two lines through the centre, r pixels to either side. *)
Definition cross_at (cx cy r : Z) : list ((Z * Z) * (Z * Z)) := [((cx - r, cy), (cx + r, cy)); ((cx, cy - r), (cx, cy + r))].

(** plot_data draws the image of position_all_modules and a cross at its centre; data with more than three dimensions
    cannot be drawn. *)
Theorem C96_plot_data : forall A (nan : A) g data, well_named g -> lpd_tree g ->
  exists out sy sx cx cy, position_all_modules nan true g (16, 256, 256) data = Ok (out, (sy, sx), (cx, cy)) /\
    plot_data nan true g [] (16, 256, 256) data = Ok (mk_data_plot out (sy, sx) (cross_at cx cy 20)) /\
    forall d extra, plot_data nan true g (d :: extra) (16, 256, 256) data = Err ETypeError.
Proof.
  intros A nan g data W T. destruct (C75_assembled A nan g data W T) as (out & sy & sx & [cx cy] & E & [B1 _] & _). exists out, sy, sx, cx, cy.
  split; [exact E|]. unfold plot_data. rewrite E. cbn [bind fst snd] in *. split; [reflexivity|]. intros d [|e extra]; [|reflexivity].
  replace (sx =? 3) with false by lia. replace (sx =? 4) with false by lia. reflexivity.
Qed.
Print Assumptions C96_plot_data.
(** What cannot be assembled cannot be drawn. *)
Theorem C96_plot_data_error : forall A (nan : A) floating g extra shape data e, position_all_modules nan floating g shape data = Err e ->
  plot_data nan floating g extra shape data = Err e.
Proof. intros A nan floating g extra shape data e E. unfold plot_data. rewrite E. reflexivity. Qed.
Print Assumptions C96_plot_data_error.

Section Inspect.
Variables (g : frag) (size centre : Z * Z).
Definition off (p : list string) : Q * Q := match find_offset g p with Ok s => s | Err _ => (0, 0)%Q end.
Definition tile_text (q m t : Z) : list ((Z * Z) * string) :=
  if z_in t [1; 8; 9] then [(at_pixel centre (off [qname q; mname m; tname t]), str_of_int t)] else [].
Definition tile_cell (q m t y x : Z) : Prop :=
  let p := at_pixel centre (off [qname q; mname m; tname t]) in in_slice (fst size) (snd p) 32 y = true /\ in_slice (snd size) (fst p) 128 x = true.
Lemma tiles_inspect : forall q m ts acc, (forall t, In t ts -> exists s, find_offset g [qname q; mname m; tname t] = Ok s) ->
  exists bg, foldM (inspect_tile g size centre q m) acc ts = Ok (bg, snd acc ++ flat_map (tile_text q m) ts) /\
    forall y x, bg y x = true <-> fst acc y x = true \/ exists t, In t ts /\ tile_cell q m t y x.
Proof.
  intros q m. induction ts as [|t ts IH]; intros [bg0 txt] H.
  - exists bg0. cbn. rewrite app_nil_r. split; [reflexivity|]. intros y x. split; [auto|]. intros [K|(t & [] & _)]. exact K.
  - destruct (H t (or_introl eq_refl)) as [s Hs]. cbn [foldM]. unfold inspect_tile at 1. rewrite Hs. cbn [bind fst snd].
    destruct (IH (fill size (at_pixel centre s) bg0, if z_in t [1; 8; 9] then txt ++ [(at_pixel centre s, str_of_int t)] else txt)) as (bg & E & B); [intros t' I; apply H; now right|].
    exists bg. cbn [fst snd] in *. rewrite E. split.
    + f_equal. f_equal. cbn [flat_map]. unfold tile_text at 2, off. rewrite Hs. destruct (z_in t [1; 8; 9]); [now rewrite <- app_assoc|reflexivity].
    + intros y x. rewrite B. unfold fill. rewrite orb_true_iff, andb_true_iff. assert (O : off [qname q; mname m; tname t] = s) by (unfold off; now rewrite Hs). split.
      * intros [[K|K]|(t' & I & K)]; [right; exists t; split; [now left|unfold tile_cell; rewrite O; exact K]|now left|right; exists t'; split; [now right|exact K]].
      * intros [K|(t' & [<-|I] & K)]; [left; now right|left; left; unfold tile_cell in K; rewrite O in K; exact K|right; exists t'; auto].
Qed.
Definition module_texts (qm : Z * Z) : list ((Z * Z) * string) :=
  (at_pixel centre (off [qname (fst qm); mname (snd qm)]), (qname (fst qm) ++ mname (snd qm))%string) :: flat_map (tile_text (fst qm) (snd qm)) (py_range 1 17 1).
Lemma modules_inspect : forall qms acc,
  (forall qm, In qm qms -> (exists s, find_offset g [qname (fst qm); mname (snd qm)] = Ok s) /\
     forall t, In t (py_range 1 17 1) -> exists s, find_offset g [qname (fst qm); mname (snd qm); tname t] = Ok s) ->
  exists bg, foldM (inspect_module g size centre) acc qms = Ok (bg, snd acc ++ flat_map module_texts qms) /\
    forall y x, bg y x = true <-> fst acc y x = true \/ exists qm t, In qm qms /\ In t (py_range 1 17 1) /\ tile_cell (fst qm) (snd qm) t y x.
Proof.
  induction qms as [|qm qms IH]; intros [bg0 txt] H.
  - exists bg0. cbn [foldM flat_map snd fst]. rewrite app_nil_r. split; [reflexivity|]. intros y x. split; [auto|]. intros [K|(? & ? & [] & _)]. exact K.
  - destruct (H qm (or_introl eq_refl)) as [[s Hs] Ht]. cbn [foldM]. unfold inspect_module at 1. rewrite Hs. cbn [bind fst snd].
    destruct (tiles_inspect (fst qm) (snd qm) (py_range 1 17 1) (bg0, txt ++ [(at_pixel centre s, (qname (fst qm) ++ mname (snd qm))%string)]) Ht) as (bg1 & E1 & B1).
    cbn [fst snd] in E1, B1. rewrite E1. cbn [bind].
    destruct (IH (bg1, (txt ++ [(at_pixel centre s, (qname (fst qm) ++ mname (snd qm))%string)]) ++ flat_map (tile_text (fst qm) (snd qm)) (py_range 1 17 1))) as (bg & E & B); [intros qm' I; apply H; now right|].
    exists bg. cbn [fst snd] in *. rewrite E. split.
    + f_equal. f_equal. cbn [flat_map]. unfold module_texts at 2, off. rewrite Hs. rewrite <- !app_assoc. reflexivity.
    + intros y x. rewrite B, B1. split.
      * intros [[K|(t & I & K)]|(qm' & t & I1 & I2 & K)]; [now left|right; exists qm, t; split; [now left|auto]|right; exists qm', t; split; [now right|auto]].
      * intros [K|(qm' & t & [<-|I1] & I2 & K)]; [left; now left|left; right; eauto|right; eauto].
Qed.
End Inspect.

Lemma pair_eq : forall A B (a a' : A) (b b' : B), (a, b) = (a', b') -> a = a' /\ b = b'.
Proof. intros A B a a' b b' E. injection E as E1 E2. auto. Qed.
Lemma quads_modules_In : forall q m, In (q, m) quads_modules <-> 1 <= q <= 4 /\ 1 <= m <= 4.
Proof.
  intros q m. unfold quads_modules. rewrite in_flat_map. change (py_range 1 5 1) with [1; 2; 3; 4]. split.
  - intros (q' & I & J). apply in_map_iff in J as (m' & E & J). injection E as -> ->. cbn [In] in I, J. lia.
  - intros [Hq Hm]. exists q. split; [cbn [In]; lia|]. apply in_map_iff. exists m. split; [reflexivity|cbn [In]; lia].
Qed.
Lemma range16 : forall t, In t (py_range 1 17 1) <-> 1 <= t <= 16.
Proof. intros t. change (py_range 1 17 1) with [1; 2; 3; 4; 5; 6; 7; 8; 9; 10; 11; 12; 13; 14; 15; 16]. cbn [In]. lia. Qed.
Lemma leaf_module : forall g a b c s, leaf_at g [a; b; c] s -> exists h s', reaches g [a; b] h s'.
Proof.
  intros g a b c s (o & R). inversion R as [|o1 cs1 n1 c1 p1 h1 s1 I1 R1]; subst. inversion R1 as [|o2 cs2 n2 c2 p2 h2 s2 I2 R2]; subst.
  eexists. eexists. eapply reaches_down; [exact I1|]. eapply reaches_down; [exact I2|]. constructor.
Qed.

(** inspect fills exactly the cells at which position_all_modules puts data, in an image of the same size with the same
    centre; modules are named at their positions, and tiles 1, 8 and 9 of each numbered where they start. *)
Theorem C96_inspect : forall g, well_named g -> lpd_tree g ->
  exists p sy sx cx cy, inspect g = Ok p /\ lp_size p = (sy, sx) /\ lp_cross p = cross_at cx cy 100 /\
    (forall A (nan : A) data, exists out, position_all_modules nan true g (16, 256, 256) data = Ok (out, (sy, sx), (cx, cy))) /\
    (forall y x, lp_filled p y x = true <-> exists c t, tile_number c t /\ S_OldGeom.covers g (cx, cy) c t y x) /\
    (forall x y s, In ((x, y), s) (lp_texts p) <->
       (exists c, 0 <= c < 16 /\ module_start g (cx, cy) c x y /\ s = (qname (c / 4 + 1) ++ mname (c mod 4 + 1))%string) \/
       (exists c t, tile_number c t /\ (t = 1 \/ t = 8 \/ t = 9) /\ tile_start g (cx, cy) c t x y /\ s = str_of_int t)) /\
    List.length (lp_texts p) = 64%nat.
Proof.
  intros g W T. destruct (@dimensions_spec g W) as (sx & sy & cx & cy & E & D1 & D2 & D3 & D4 & D).
  assert (N : forall q m, 1 <= q <= 4 -> 1 <= m <= 4 -> exists c, 0 <= c < 16 /\ c / 4 + 1 = q /\ c mod 4 + 1 = m).
  { intros q m Hq Hm. exists (4 * (q - 1) + (m - 1)). replace (4 * (q - 1) + (m - 1)) with ((q - 1) * 4 + (m - 1)) by lia.
    rewrite Z.div_add_l, Z.add_comm, Z.mod_add, Z.div_small, Z.mod_small by lia. lia. }
  assert (N' : forall c, 0 <= c < 16 -> 1 <= c / 4 + 1 <= 4 /\ 1 <= c mod 4 + 1 <= 4).
  { intros c Hc. pose proof (Z.mod_pos_bound c 4 ltac:(lia)). assert (0 <= c / 4 < 4) by (split; [apply Z.div_pos; lia|apply Z.div_lt_upper_bound; lia]). lia. }
  destruct (modules_inspect g (sy, sx) (cx, cy) quads_modules (fun _ _ => false, [])) as (bg & F & B).
  { intros [q m] I. apply quads_modules_In in I as [Hq Hm]. destruct (N q m Hq Hm) as (c & Hc & <- & <-). cbn [fst snd]. split.
    - destruct (T c 1) as (s & L); [unfold tile_number; lia|]. destruct (leaf_module _ _ _ _ _ L) as (h & s' & R). exists s'. eapply reaches_offset; eassumption.
    - intros t It. apply range16 in It. destruct (T c t) as (s & o & R); [unfold tile_number; lia|]. exists s. eapply reaches_offset; eassumption. }
  cbn [fst snd app] in F, B.
  exists (mk_layout_plot (sy, sx) bg (centre_cross (cx, cy) 100) (flat_map (module_texts g (cx, cy)) quads_modules) "LPD detector geometry"), sy, sx, cx, cy.
  split; [unfold inspect; rewrite E; cbn [bind fst snd]; rewrite F; reflexivity|]. split; [reflexivity|]. split; [reflexivity|]. cbn [lp_filled lp_texts].
  assert (TS : forall c t, tile_number c t -> exists s, leaf_at g (tile_names c t) s /\ off g (tile_names c t) = s /\
     forall x y, at_pixel (cx, cy) s = (x, y) <-> tile_start g (cx, cy) c t x y).
  { intros c t Tn. destruct (T c t Tn) as (s & o & R). exists s. split; [exists o; exact R|]. split; [unfold off; now rewrite (@reaches_offset _ _ _ _ W R)|].
    intros x y. unfold at_pixel. rewrite !to_px_floor. cbn [fst snd]. split.
    - intros K. injection K as <- <-. exists s. split; [exists o; exact R|auto].
    - intros (s' & L' & -> & ->). destruct L' as (o' & R'). apply (@reaches_offset _ _ _ _ W) in R. apply (@reaches_offset _ _ _ _ W) in R'. assert (s' = s) as -> by congruence. reflexivity. }
  split; [|split; [|split]].
  - intros A nan data. destruct (C75_assembled A nan g data W T) as (out & sy' & sx' & ce & EA & _). exists out. rewrite EA. f_equal.
    unfold position_all_modules in EA. cbn [Z.eqb Pos.eqb andb negb] in EA. rewrite E in EA. cbn [bind] in EA. cbn [negb] in EA. apply bind_ok in EA as (o1 & _ & EA). cbn [fst snd] in EA. congruence.
  - intros y x. rewrite B. split.
    + intros [K|([q m] & t & I1 & I2 & K)]; [discriminate|]. apply quads_modules_In in I1 as [Hq Hm]. apply range16 in I2. destruct (N q m Hq Hm) as (c & Hc & <- & <-).
      exists c, t. assert (Tn : tile_number c t) by (unfold tile_number; lia). split; [exact Tn|]. destruct (TS c t Tn) as (s & L & O & P).
      unfold tile_cell in K. cbn [fst snd] in K. unfold tile_names in O. rewrite O in K. destruct (at_pixel (cx, cy) s) as [x0 y0] eqn:AP. exists x0, y0. split; [now apply P|].
      unfold at_pixel in AP. cbn [fst snd] in *. injection AP as A1 A2. destruct (D _ _ L) as (G1 & G2 & G3 & G4). destruct K as [K1 K2]. unfold in_slice, slice_bound in K1, K2.
      replace (y0 <? 0) with false in K1 by lia. replace (y0 + 32 <? 0) with false in K1 by lia. replace (x0 <? 0) with false in K2 by lia. replace (x0 + 128 <? 0) with false in K2 by lia. lia.
    + intros (c & t & Tn & x0 & y0 & ST & Hy & Hx). right. exists (c / 4 + 1, c mod 4 + 1), t. destruct Tn as [Hc Ht] eqn:TE. destruct (N' c Hc). split; [apply quads_modules_In; lia|]. split; [apply range16; lia|].
      destruct (TS c t Tn) as (s & L & O & P). apply P in ST. unfold tile_cell. cbn [fst snd]. unfold tile_names in O. rewrite O, ST.
      unfold at_pixel in ST. cbn [fst snd] in *. injection ST as A1 A2. destruct (D _ _ L) as (G1 & G2 & G3 & G4). unfold in_slice, slice_bound.
      replace (y0 <? 0) with false by lia. replace (y0 + 32 <? 0) with false by lia. replace (x0 <? 0) with false by lia. replace (x0 + 128 <? 0) with false by lia. lia.
  - assert (MS : forall c x y, 0 <= c < 16 -> at_pixel (cx, cy) (off g [qname (c / 4 + 1); mname (c mod 4 + 1)]) = (x, y) <-> module_start g (cx, cy) c x y).
    { intros c x y Hc. destruct (T c 1) as (s & L); [unfold tile_number; lia|]. destruct (leaf_module _ _ _ _ _ L) as (h & s' & R). unfold off. rewrite (@reaches_offset _ _ _ _ W R).
      unfold at_pixel. rewrite !to_px_floor. cbn [fst snd]. split.
      - intros K. injection K as <- <-. exists h, s'. auto.
      - intros (h2 & s2 & R2 & -> & ->). apply (@reaches_offset _ _ _ _ W) in R. apply (@reaches_offset _ _ _ _ W) in R2. assert (s2 = s') as -> by congruence. reflexivity. }
    intros x y s. rewrite in_flat_map. split.
    + intros ([q m] & I & J). apply quads_modules_In in I as [Hq Hm]. destruct (N q m Hq Hm) as (c & Hc & <- & <-). unfold module_texts in J. cbn [fst snd] in J. destruct J as [J|J].
      * left. exists c. apply pair_eq in J as [J1 J2]. split; [exact Hc|]. split; [exact (proj1 (MS c x y Hc) J1)|now symmetry].
      * right. apply in_flat_map in J as (t & It & J). apply range16 in It. unfold tile_text in J. destruct (z_in t [1; 8; 9]) eqn:Z; [|destruct J]. destruct J as [J|[]]. apply pair_eq in J as [J1 J2].
        apply z_in_iff in Z. cbn [In] in Z. assert (Tn : tile_number c t) by (unfold tile_number; lia). exists c, t. split; [exact Tn|]. split; [lia|]. destruct (TS c t Tn) as (s0 & L & O & P).
        unfold tile_names in O. rewrite O in J1. split; [now apply P|now symmetry].
    + intros [(c & Hc & M & ->)|(c & t & Tn & Ht & ST & ->)].
      * exists (c / 4 + 1, c mod 4 + 1). destruct (N' c Hc). split; [apply quads_modules_In; lia|]. left. cbn [fst snd]. f_equal. exact (proj2 (MS c x y Hc) M).
      * destruct Tn as [Hc Ht'] eqn:TE. exists (c / 4 + 1, c mod 4 + 1). destruct (N' c Hc). split; [apply quads_modules_In; lia|]. right. apply in_flat_map. exists t. split; [apply range16; lia|].
        unfold tile_text. cbn [fst snd]. replace (z_in t [1; 8; 9]) with true by (symmetry; apply z_in_iff; cbn [In]; lia). left. destruct (TS c t Tn) as (s0 & L & O & P). unfold tile_names in O. rewrite O. f_equal. now apply P.
  - assert (K : forall l, List.length (flat_map (module_texts g (cx, cy)) l) = (4 * List.length l)%nat).
    { induction l as [|[q m] l IH]; [reflexivity|]. cbn [flat_map]. rewrite app_length, IH. change (List.length (module_texts g (cx, cy) (q, m))) with 4%nat. cbn [List.length]. lia. }
    rewrite K. reflexivity.
Qed.
Print Assumptions C96_inspect.

(** *** The printed form *)
(** Names and numbers of one line: printable ASCII characters. *)
Fixpoint printable (s : string) : Prop :=
  match s with EmptyString => True | String c r => (32 <= nat_of_ascii c < 127)%nat /\ printable r end.
Inductive printable_names : frag -> Prop :=
| pn_intro : forall o cs, (forall n c, In (n, c) cs -> printable n /\ printable_names c) -> printable_names (Frag o cs).
(** The fragments below [g], each with its depth, name and offset: the children in the order of their names, each followed
    by what is below it. *)
Inductive outline (d : nat) : frag -> list (nat * string * (Q * Q)) -> Prop :=
| outline_intro : forall o cs cs' ls, Permutation cs cs' -> StronglySorted (fun a b => name_lt (fst a) (fst b)) cs' ->
    outlines d cs' ls -> outline d (Frag o cs) ls
with outlines (d : nat) : list (string * frag) -> list (nat * string * (Q * Q)) -> Prop :=
| outlines_nil : outlines d [] []
| outlines_cons : forall n c cs l ls, outline (S d) c l -> outlines d cs ls -> outlines d ((n, c) :: cs) ((d, n, fr_offset c) :: l ++ ls).
(** Two spaces for each level, the name and the offset. *)
Fixpoint spaces (d : nat) : string := match d with O => "" | S d => ("  " ++ spaces d)%string end.
Definition printed_line (show : Q * Q -> string) (e : nat * string * (Q * Q)) : string :=
  let '(d, n, o) := e in (spaces d ++ n ++ ": " ++ show o)%string.

Lemma printable_app : forall a b, printable a -> printable b -> printable (a ++ b).
Proof. induction a as [|c a IH]; intros b Ha Hb; [exact Hb|]. destruct Ha as [H1 H2]. split; auto. Qed.
Lemma printable_no_break : forall c, (32 <= nat_of_ascii c < 127)%nat -> is_break c = false.
Proof. intros c H. unfold is_break. apply not_true_iff_false. intros K. apply z_in_iff in K. cbn [In] in K. lia. Qed.
Lemma app_assoc_s : forall a b c : string, ((a ++ b) ++ c = a ++ b ++ c)%string.
Proof. induction a as [|x a IH]; intros b c; [reflexivity|]. cbn. now rewrite IH. Qed.
Lemma app_nil_s : forall a : string, (a ++ "" = a)%string.
Proof. induction a as [|x a IH]; [reflexivity|]. cbn. now rewrite IH. Qed.
Lemma split_line : forall l cur rest, printable l -> splitlines_from cur (l ++ rest) = splitlines_from (cur ++ l) rest.
Proof.
  induction l as [|c l IH]; intros cur rest H; [now rewrite app_nil_s|]. destruct H as [H1 H2]. cbn [append splitlines_from].
  rewrite (printable_no_break _ H1), IH by assumption. now rewrite app_assoc_s.
Qed.
Lemma split_join : forall ls, (forall l, In l ls -> printable l /\ l <> "") -> splitlines (String.concat newline ls) = ls.
Proof.
  unfold splitlines. induction ls as [|l ls IH]; intros H; [reflexivity|]. destruct (H l (or_introl eq_refl)) as [P N].
  destruct ls as [|l2 ls].
  - cbn [String.concat]. rewrite <- (app_nil_s l) at 1. rewrite split_line by assumption. cbn [append splitlines_from]. apply String.eqb_neq in N. now rewrite N.
  - change (String.concat newline (l :: l2 :: ls)) with (l ++ newline ++ String.concat newline (l2 :: ls))%string. rewrite split_line by assumption. cbn [append].
    unfold newline at 1. cbn [append splitlines_from]. change (is_break (ascii_of_nat 10)) with true. cbv iota. f_equal.
    rewrite <- IH at 2 by (intros l' I; apply H; now right). destruct (String.concat newline (l2 :: ls)) as [|c r]; [reflexivity|].
    change (Ascii.eqb (ascii_of_nat 10) (ascii_of_nat 13)) with false. reflexivity.
Qed.
Lemma blank_colon : forall a b, blank (a ++ ":" ++ b) = false.
Proof. induction a as [|c a IH]; intros b; [reflexivity|]. cbn [append blank]. cbn [append] in IH. rewrite IH. apply andb_false_r. Qed.
Lemma spaces_printable : forall d, printable (spaces d).
Proof. induction d as [|d IH]; [exact I|]. cbn [spaces append printable]. repeat split; try (cbn; lia). exact IH. Qed.

Lemma str_lines_unfold : forall show o cs, str_lines show (Frag o cs) =
  flat_map (fun ks => (fst ks ++ ": " ++ show (fst (snd ks)))%string :: indent_lines (String.concat newline (snd (snd ks))))
    (isort (fun a b => String.leb (fst a) (fst b)) (map (fun kv => (fst kv, (fr_offset (snd kv), str_lines show (snd kv)))) cs)).
Proof. reflexivity. Qed.
Lemma insert_map : forall A B (f : A -> B) la lb x l, (forall a b, lb (f a) (f b) = la a b) -> insert_sorted lb (f x) (map f l) = map f (insert_sorted la x l).
Proof. intros A B f la lb x l H. induction l as [|y l IH]; [reflexivity|]. cbn. rewrite H. destruct (la x y); [reflexivity|]. cbn. now rewrite IH. Qed.
Lemma isort_map : forall A B (f : A -> B) la lb l, (forall a b, lb (f a) (f b) = la a b) -> isort lb (map f l) = map f (isort la l).
Proof. intros A B f la lb l H. induction l as [|x l IH]; [reflexivity|]. unfold isort in *. cbn [map fold_right]. rewrite IH. now apply insert_map. Qed.
Lemma sorted_names : forall (cs : list (string * frag)), NoDup (map fst cs) ->
  StronglySorted (fun a b => name_lt (fst a) (fst b)) (isort (fun a b => String.leb (fst a) (fst b)) cs).
Proof.
  intros cs N. set (l := isort (fun a b => String.leb (fst a) (fst b)) cs).
  assert (N' : NoDup (map fst l)) by (eapply Permutation_NoDup; [apply Permutation_map, isort_perm|exact N]).
  assert (S0 : Sorted (fun a b : string * frag => String.leb (fst a) (fst b) = true) l) by (apply isort_Sorted; intros a b; apply String.leb_total).
  apply Sorted_StronglySorted in S0; [|intros a b c; apply name_le_trans]. clearbody l. induction S0 as [|x l S0 IH R]; constructor.
  - apply IH. now inversion N'.
  - inversion N' as [|? ? N1 N2]; subst. rewrite Forall_forall in *. intros y I. split; [now apply R|]. intros E. apply N1. rewrite E. now apply in_map.
Qed.

(** Printing a geometry gives one line for each fragment below it, in this order. *)
Definition printed (show : Q * Q -> string) (g : frag) : Prop :=
  forall d, exists l, outline d g l /\ (forall e, In e l -> printable (printed_line show e) /\ printed_line show e <> "") /\
    map (fun s => spaces d ++ s)%string (str_lines show g) = map (printed_line show) l.

Lemma spaces_app : forall d s, (spaces d ++ "  " ++ s = spaces (S d) ++ s)%string.
Proof. induction d as [|d IH]; intros s; [reflexivity|]. cbn [spaces append] in *. now rewrite IH. Qed.
Lemma printed_all : forall show, (forall o, printable (show o)) -> forall g, well_named g -> printable_names g -> printed show g.
Proof.
  intros show PS. induction g as [o cs IH] using frag_ind2. intros W PN d. inversion W as [o' cs0 N HW]; subst. inversion PN as [o' cs0 HP]; subst.
  rewrite str_lines_unfold. rewrite (@isort_map _ _ (fun kv => (fst kv, (fr_offset (snd kv), str_lines show (snd kv)))) (fun a b => String.leb (fst a) (fst b))) by reflexivity.
  set (cs' := isort (fun a b => String.leb (fst a) (fst b)) cs).
  assert (PM : Permutation cs cs') by apply isort_perm. assert (SO : StronglySorted (fun a b => name_lt (fst a) (fst b)) cs') by (apply sorted_names; exact N).
  assert (K : forall l', incl l' cs -> exists ls, outlines d l' ls /\ (forall e, In e ls -> printable (printed_line show e) /\ printed_line show e <> "") /\
    map (fun s => spaces d ++ s)%string (flat_map (fun ks => (fst ks ++ ": " ++ show (fst (snd ks)))%string :: indent_lines (String.concat newline (snd (snd ks))))
      (map (fun kv => (fst kv, (fr_offset (snd kv), str_lines show (snd kv)))) l')) = map (printed_line show) ls).
  { induction l' as [|[n c] l' IHl]; intros I; [exists []; split; [constructor|split; [intros e []|reflexivity]]|].
    destruct IHl as (ls & O & P & E); [intros x Hx; apply I; now right|]. assert (Hc : In (n, c) cs) by (apply I; now left). destruct (HP n c Hc) as [Pn Pc].
    pose proof (IH n c Hc (HW n c Hc) Pc) as PR. destruct (PR (S d)) as (lc & Oc & Qc & Ec). destruct (PR 0%nat) as (l0 & _ & Q0 & E0).
    assert (E0' : str_lines show c = map (printed_line show) l0) by (rewrite <- E0, map_ext with (g := fun s => s) by reflexivity; now rewrite map_id).
    exists ((d, n, fr_offset c) :: lc ++ ls). split; [now constructor|]. split.
    - intros e [<-|J]; [|apply in_app_or in J as [J|J]; [now apply Qc|now apply P]]. cbn [printed_line]. split.
      + apply printable_app; [apply spaces_printable|]. apply printable_app; [exact Pn|]. apply printable_app; [cbn; lia|apply PS].
      + destruct d; cbn [spaces append]; [|discriminate]. destruct n; discriminate.
    - cbn [map flat_map app fst snd]. f_equal. rewrite !map_app, E. f_equal. rewrite <- Ec. unfold indent_lines. rewrite split_join.
      + rewrite map_map. apply map_ext_in. intros s J. rewrite E0' in J. apply in_map_iff in J as ([[d' n'] o'] & <- & _). cbn [printed_line].
        assert (BL : blank (spaces d' ++ n' ++ ": " ++ show o')%string = false) by (rewrite <- app_assoc_s; apply (blank_colon (spaces d' ++ n') (" " ++ show o'))).
        rewrite BL. apply spaces_app.
      + intros s J. rewrite E0' in J. apply in_map_iff in J as (e & <- & J). now apply Q0. }
  destruct (K cs') as (ls & O & P & E); [intros x Hx; eapply Permutation_in; [symmetry; exact PM|exact Hx]|].
  exists ls. split; [econstructor; eassumption|]. split; assumption.
Qed.
Theorem C96_printed : forall show g, (forall o, printable (show o)) -> well_named g -> printable_names g ->
  exists l, outline 0 g l /\ frag_str show g = String.concat newline (map (printed_line show) l).
Proof.
  intros show g PS W PN. destruct (printed_all show PS g W PN 0%nat) as (l & O & _ & E). exists l. split; [exact O|]. unfold frag_str. f_equal.
  rewrite <- E. rewrite map_ext with (g := fun s => s) by reflexivity. now rewrite map_id.
Qed.
Print Assumptions C96_printed.

(** *** The geometry of a file *)
Example C96_example : well_named ex_geom /\ lpd_tree ex_geom /\
  match inspect ex_geom with
  | Ok p => Some (lp_size p, lp_filled p 33 65, lp_filled p 10 10, firstn 3 (lp_texts p))
  | Err _ => None
  end = Some ((1160, 1082), true, false, [((24, 20), "Q1M1"); ((24, 54), "1"); ((24, 20), "8")]).
Proof. split; [apply ex_geom_tree|]. split; [apply ex_geom_tree|]. vm_compute. reflexivity. Qed.
Definition ex_small : frag := Frag (0, 0)%Q [("Q2", Frag (1, 1)%Q []); ("Q1", Frag (2, 1)%Q [("M1", Frag (1, 0)%Q [("T01", Frag (0, 0)%Q [])])])].
Example C96_example_printed : well_named ex_small /\ printable_names ex_small /\
  frag_str (fun _ => "[x y]") ex_small = String.concat newline ["Q1: [x y]"; "  M1: [x y]"; "    T01: [x y]"; "Q2: [x y]"].
Proof.
  split; [|split; [|reflexivity]]; unfold ex_small.
  - repeat (constructor; [apply nodupb_ok; reflexivity|]; intros ? ? H; repeat (destruct H as [H|H]; [injection H as <- <-|]); try (destruct H; fail)).
  - repeat (constructor; intros ? ? H; repeat (destruct H as [H|H]; [injection H as <- <-; split; [cbn; lia|]|]); try (destruct H; fail)).
Qed.
