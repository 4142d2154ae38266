(** C75: the deprecated LPD geometry. *)
From Coq Require Import QArith Qround.
From Verif Require Import Base L_Base M_Geom M_OldGeom S_OldGeom L_OldGeom.
Local Open Scope string_scope.
Local Open Scope Z_scope.
Local Open Scope list_scope.

(** ** C75 *)

(** find_offset adds up the offsets on the way. *)
Theorem C75_find_offset : forall g p h s, well_named g -> reaches g p h s -> find_offset g p = Ok s.
Proof. exact reaches_offset. Qed.
Print Assumptions C75_find_offset.
(** A path which leads nowhere is a KeyError. *)
Theorem C75_no_fragment : forall g p, (forall h s, ~ reaches g p h s) -> find_offset g p = Err EKeyError.
Proof.
  intros g p. revert g. induction p as [|n p IH]; intros [o cs] H; cbn [find_offset]; [destruct (H _ _ (reaches_here _))|]. cbn [fr_children].
  destruct (dict_get n cs) as [c|] eqn:E; [|reflexivity]. rewrite IH; [reflexivity|]. intros h s R. eapply H, reaches_down; [apply dict_get_In; exact E|exact R].
Qed.
Print Assumptions C75_no_fragment.

(** iter_leaf_paths gives exactly the ways to the fragments without children. *)
Theorem C75_leaf_paths : forall g p, In p (iter_leaf_paths g) <-> exists s, leaf_at g p s.
Proof. exact leaf_paths_spec. Qed.
Print Assumptions C75_leaf_paths.

(** The names of quadrants, modules and tiles in a file. *)
Theorem C75_labels : map qname [1; 2; 3; 4] = ["Q1"; "Q2"; "Q3"; "Q4"] /\ map mname [1; 2; 3; 4] = ["M1"; "M2"; "M3"; "M4"] /\
  map tname [1; 2; 3; 4; 5; 6; 7; 8; 9; 10; 11; 12; 13; 14; 15; 16] =
    ["T01"; "T02"; "T03"; "T04"; "T05"; "T06"; "T07"; "T08"; "T09"; "T10"; "T11"; "T12"; "T13"; "T14"; "T15"; "T16"].
Proof. vm_compute. auto. Qed.
Print Assumptions C75_labels.

(** Reading a geometry file: tile t of module c is at the position of the quadrant plus that of the module, in [unit]s, plus
    that of the tile in millimetres. *)
Theorem C75_read : forall file positions unit g,
  (forall q items, dict_get q file = Some items -> NoDup (map fst items) /\ forall m h, In (m, HG h) items -> group_named h) ->
  from_h5_file_and_quad_positions file positions unit = Ok g ->
  well_named g /\
  forall c t q m p, 0 <= c -> nth_error positions (Z.to_nat (c / 4)) = Some q -> file_tile file c t m p ->
    exists s, leaf_at g (tile_names c t) s /\
      (fst s == unit * (fst q + fst m) + fst p * (1 # 1000))%Q /\ (snd s == unit * (snd q + snd m) + snd p * (1 # 1000))%Q.
Proof. exact read_geometry. Qed.
Print Assumptions C75_read.
(** A file without one of the quadrants for which positions are given cannot be read. *)
Theorem C75_no_quadrant : forall file positions unit, positions <> [] -> dict_get (qname 1) file = None ->
  from_h5_file_and_quad_positions file positions unit = Err EKeyError.
Proof. intros file [|p r] unit NE E; [congruence|]. unfold from_h5_file_and_quad_positions. cbn [quadrants]. now rewrite E. Qed.
Print Assumptions C75_no_quadrant.
Theorem C75_all_quadrants : forall file positions unit g k, (k < List.length positions)%nat -> from_h5_file_and_quad_positions file positions unit = Ok g ->
  dict_get (qname (Z.of_nat k + 1)) file <> None.
Proof.
  intros file positions unit g k L E. unfold from_h5_file_and_quad_positions in E. destruct (quadrants file unit 1 positions) as [qs|] eqn:EQ; [|discriminate]. clear E g.
  assert (K : forall positions n qs k, (k < List.length positions)%nat -> quadrants file unit n positions = Ok qs -> dict_get (qname (Z.of_nat k + n)) file <> None).
  { clear. induction positions as [|p r IH]; intros n qs k L E; cbn [List.length quadrants] in *; [lia|]. destruct (dict_get (qname n) file) as [items|] eqn:D; [|discriminate].
    destruct k as [|k]; [change (Z.of_nat 0 + n) with n; rewrite D; discriminate|]. destruct (mapM _ items) as [ms|]; [|discriminate]. cbn [bind] in E. destruct (quadrants file unit (n + 1) r) as [q|] eqn:E2; [|discriminate].
    replace (Z.of_nat (S k) + n) with (Z.of_nat k + (n + 1)) by lia. eapply IH; [lia|exact E2]. }
  eapply K; eassumption.
Qed.
Print Assumptions C75_all_quadrants.

(** position_all_modules: for every geometry with all tiles it succeeds; every tile lies inside the image, 20 pixels or more
    from the edge; each pixel of each tile is found, turned by 180 degrees, at the place of the tile unless a later tile
    covers it; everything else is NaN. *)
Theorem C75_assembled : forall A (nan : A) g data, well_named g -> lpd_tree g ->
  exists out sy sx centre, position_all_modules nan true g (16, 256, 256) data = Ok (out, (sy, sx), centre) /\
    (20 <= fst centre <= sx - 148 /\ 20 <= snd centre <= sy - 52) /\
    (forall c t, tile_number c t -> exists x0 y0, tile_start g centre c t x0 y0 /\ 20 <= x0 /\ x0 + 128 <= sx - 20 /\ 20 <= y0 /\ y0 + 32 <= sy - 20) /\
    (forall c t x0 y0 r k, tile_number c t -> tile_start g centre c t x0 y0 -> 0 <= r < 32 -> 0 <= k < 128 ->
       (forall c' t', tile_number c' t' -> later c t c' t' -> ~ covers g centre c' t' (y0 + 31 - r) (x0 + 127 - k)) ->
       out (y0 + 31 - r) (x0 + 127 - k) = data c (tile_row t r) (tile_col t k)) /\
    (forall y x, (forall c t, tile_number c t -> ~ covers g centre c t y x) -> out y x = nan).
Proof. exact assembled. Qed.
Print Assumptions C75_assembled.

(** Data of another shape are refused; data which cannot hold NaN (raw detector data are integers) cannot be assembled. *)
Theorem C75_shape : forall A (nan : A) floating g shape data, shape <> (16, 256, 256) ->
  position_all_modules nan floating g shape data = Err EAssertionError.
Proof.
  intros A nan floating g [[n ss] fs] data H. unfold position_all_modules.
  destruct (Z.eqb_spec n 16) as [->|]; [|reflexivity]. destruct (Z.eqb_spec ss 256) as [->|]; [|reflexivity].
  destruct (Z.eqb_spec fs 256) as [->|]; [congruence|reflexivity].
Qed.
Print Assumptions C75_shape.
Theorem C75_integers_refuted : forall A (nan : A) g data, well_named g -> lpd_tree g ->
  position_all_modules nan false g (16, 256, 256) data = Err EValueError.
Proof.
  intros A nan g data W T. unfold position_all_modules. cbn [Z.eqb Pos.eqb andb negb].
  destruct (dimensions_spec W) as (sx & sy & cx & cy & E & _). rewrite E. reflexivity.
Qed.
Print Assumptions C75_integers_refuted.

(** The tiles of a module in clockwise order, and the same tiles as the new geometry code; the other order is column by column. *)
Theorem C75_tiles : forall A (a : Z -> Z -> A) t r k, 1 <= t <= 16 -> 0 <= r < 32 -> 0 <= k < 128 ->
  (exists tile, nth_error (split_channel a true) (Z.to_nat (t - 1)) = Some tile /\ tile r k = a (tile_row t r) (tile_col t k)) /\
  (exists tile, nth_error (split_channel a false) (Z.to_nat (t - 1)) = Some tile /\
     tile r k = a (32 * ((t - 1) mod 8) + r) (128 * ((t - 1) / 8) + k)) /\
  List.length (split_channel a true) = 16%nat /\ List.length (split_channel a false) = 16%nat.
Proof.
  intros A a t r k Ht Hr Hk.
  assert (X : t = 1 \/ t = 2 \/ t = 3 \/ t = 4 \/ t = 5 \/ t = 6 \/ t = 7 \/ t = 8 \/ t = 9 \/ t = 10 \/ t = 11 \/ t = 12 \/ t = 13 \/ t = 14 \/ t = 15 \/ t = 16) by lia.
  repeat (destruct X as [->|X]); try subst t; (split; [eexists; split; reflexivity|]; split; [eexists; split; reflexivity|]; split; reflexivity).
Qed.
Print Assumptions C75_tiles.
Theorem C75_same_tiles : forall A (a : Z -> Z -> A) i, (i < 16)%nat -> exists t t', nth_error (split_channel a true) i = Some t /\
  nth_error (split_tiles LPD a) i = Some t' /\ forall r k, t r k = t' r k.
Proof.
  intros A a i Hi.
  do 16 (destruct i as [|i]; [eexists; eexists; split; [reflexivity|]; split; [reflexivity|]; intros r k; reflexivity|]). lia.
Qed.
Print Assumptions C75_same_tiles.

(** *** A file *)
Definition mm (x y : Z) : Q * Q := (inject_Z x, inject_Z y).
Definition ex_tiles : list (string * hgroup) :=
  map (fun t => (tname t, HGroup (Some (mm (if t <=? 8 then 0 else 65) (17 * (t mod 8)))) [])) [1;2;3;4;5;6;7;8;9;10;11;12;13;14;15;16].
Definition ex_file : list (string * list (string * hitem)) :=
  map (fun q => (qname q, map (fun m => (mname m, HG (HGroup (Some (mm (130 * m) 0)) ex_tiles))) [1;2;3;4])) [1;2;3;4].
Definition ex_quads : list (Q * Q) := [mm (-300) (-280); mm (-301) (-140); mm (-300) 3; mm (-302) 145].
Definition ex_geom : frag := match from_h5_file_and_quad_positions ex_file ex_quads (1 # 1000) with Ok g => g | Err _ => Frag (0, 0)%Q [] end.

Fixpoint nodupb (l : list string) : bool := match l with [] => true | x :: r => negb (str_in x r) && nodupb r end.
Lemma nodupb_ok : forall l, nodupb l = true -> NoDup l.
Proof.
  induction l as [|x l IH]; intros H; [constructor|]. cbn [nodupb] in H. apply andb_true_iff in H as [H1 H2]. constructor; [|auto].
  apply negb_true_iff in H1. now apply str_in_false.
Qed.
Lemma ex_file_named : forall q items, dict_get q ex_file = Some items -> NoDup (map fst items) /\ forall m h, In (m, HG h) items -> group_named h.
Proof.
  intros q items H.
  assert (E : items = map (fun m => (mname m, HG (HGroup (Some (mm (130 * m) 0)) ex_tiles))) [1;2;3;4]).
  { unfold ex_file in H. cbn [map dict_get] in H. repeat (match type of H with (if ?b then _ else _) = _ => destruct b; [injection H as <-; reflexivity|] end). discriminate. }
  subst items. split; [apply nodupb_ok; vm_compute; reflexivity|].
  intros m h Hin. apply in_map_iff in Hin as (m' & E & _). injection E as _ <-. constructor; [apply nodupb_ok; vm_compute; reflexivity|].
  intros n g Hg. unfold ex_tiles in Hg. apply in_map_iff in Hg as (t & Et & _). injection Et as _ <-. constructor; [constructor|]. intros n' g' [].
Qed.
Lemma ex_read : from_h5_file_and_quad_positions ex_file ex_quads (1 # 1000) = Ok ex_geom.
Proof. vm_compute. reflexivity. Qed.
Lemma ex_tile : forall c t, tile_number c t -> exists m p q, file_tile ex_file c t m p /\ nth_error ex_quads (Z.to_nat (c / 4)) = Some q.
Proof.
  intros c t [Hc Ht].
  assert (Hq : exists q, nth_error ex_quads (Z.to_nat (c / 4)) = Some q).
  { destruct (nth_error ex_quads (Z.to_nat (c / 4))) eqn:E; [eauto|]. apply nth_error_None in E. cbn [List.length ex_quads] in E.
    assert (c / 4 < 4) by (apply Z.div_lt_upper_bound; lia). lia. }
  destruct Hq as [q Hq]. exists (mm (130 * (c mod 4 + 1)) 0), (mm (if t <=? 8 then 0 else 65) (17 * (t mod 8))), q. split; [|assumption].
  assert (Hm : 0 <= c mod 4 < 4) by (apply Z.mod_pos_bound; lia). assert (Hd : 0 <= c / 4 < 4) by (split; [apply Z.div_pos; lia|apply Z.div_lt_upper_bound; lia]).
  eexists. exists ex_tiles. split.
  - assert (X : c / 4 = 0 \/ c / 4 = 1 \/ c / 4 = 2 \/ c / 4 = 3) by lia. destruct X as [->|[->|[->| ->]]]; reflexivity.
  - split.
    + apply in_map_iff. exists (c mod 4 + 1). split; [reflexivity|]. assert (X : c mod 4 = 0 \/ c mod 4 = 1 \/ c mod 4 = 2 \/ c mod 4 = 3) by lia.
      destruct X as [->|[->|[->| ->]]]; cbn [In]; lia.
    + apply in_map_iff. exists t. split; [reflexivity|]. cbn [In]. lia.
Qed.
Lemma ex_geom_tree : well_named ex_geom /\ lpd_tree ex_geom.
Proof.
  destruct (C75_read _ _ _ _ ex_file_named ex_read) as [W H]. split; [exact W|].
  intros c t Hn. destruct (ex_tile c t Hn) as (m & p & q & F & N). destruct (H c t q m p (proj1 (proj1 Hn)) N F) as (s & L & _). eauto.
Qed.

Definition ex_data (c r k : Z) : option (Z * Z * Z) := Some (c, r, k).
Example C75_example : well_named ex_geom /\ lpd_tree ex_geom /\
  match position_all_modules None true ex_geom (16, 256, 256) ex_data with
  | Ok (out, size, centre) => Some (size, centre, out 10 10, out 33 65)
  | Err _ => None
  end = Some ((1160, 1082), (364, 580), None, Some (0, 18, 86)).
Proof. split; [apply ex_geom_tree|]. split; [apply ex_geom_tree|]. vm_compute. reflexivity. Qed.

(** The unit given is not used for the tiles: a file in metres, read with unit=1, is misread. *)
Theorem C75_unit_refuted : exists file positions unit g c t q m p s,
  (forall q items, dict_get q file = Some items -> NoDup (map fst items) /\ forall m h, In (m, HG h) items -> group_named h) /\
  from_h5_file_and_quad_positions file positions unit = Ok g /\ nth_error positions (Z.to_nat (c / 4)) = Some q /\ file_tile file c t m p /\
  leaf_at g (tile_names c t) s /\ ~ (fst s == unit * (fst q + fst m + fst p))%Q.
Proof.
  destruct (from_h5_file_and_quad_positions ex_file ex_quads 1) as [g|] eqn:E; [|vm_compute in E; discriminate].
  destruct (C75_read _ _ _ _ ex_file_named E) as [W H].
  assert (F : file_tile ex_file 0 9 (mm 130 0) (mm 65 17)).
  { eexists. exists ex_tiles. split; [reflexivity|]. split; [left; reflexivity|]. vm_compute. do 8 right. left. reflexivity. }
  destruct (H 0 9 (mm (-300) (-280)) (mm 130 0) (mm 65 17) ltac:(lia) eq_refl F) as (s & L & S1 & S2).
  exists ex_file, ex_quads, 1%Q, g, 0, 9, (mm (-300) (-280)), (mm 130 0), (mm 65 17), s.
  split; [exact ex_file_named|]. split; [exact E|]. split; [reflexivity|]. split; [exact F|]. split; [exact L|].
  intros X. rewrite S1 in X. vm_compute in X. discriminate.
Qed.
Print Assumptions C75_unit_refuted.
