(** The layout of a CXI file. *)
From Verif Require Import Base PyStr M_Files M_Machinery M_Reader M_Select M_Components M_Cxi M_CxiFile S_Reader S_Coll S_Components S_Cxi S_CxiFile
  L_Base L_Cxi3 L_Cxi6 L_Cxi7 L_Components7 L_Components12.
Set Implicit Arguments.
Unset Strict Implicit.
Local Open Scope string_scope.
Local Open Scope list_scope.

Section L.
Context {V : Type}.
Notation layout := (layout V).

Lemma fill_item (m : mpx V) p q : fill_layout m p = Ok q -> fst q = fst p /\ ly_item (snd q) = ly_item (snd p).
Proof.
  intros H. unfold fill_layout in H. apply bind_ok in H as (l & H & E). injection E as <-. split; [reflexivity|].
  exact (proj2 (layout_item H)).
Qed.

(** The parts of the contents. *)
Definition rest_ok (item : list Z) (rest : list (string * layout)) : Prop :=
  rest = [] \/ (exists lg, rest = [("gain", lg)] /\ ly_item lg = item) \/
  (exists lg lm, rest = [("gain", lg); ("mask", lm)] /\ ly_item lg = item /\ ly_item lm = item).
Lemma cxi_parts (pulse : V -> Z) (m : mpx V) shape c : write_virtual_cxi pulse m shape = Ok c ->
  exists ld rest lc, cx_layouts_of c = ("data", ld) :: rest ++ [("cellId", lc)] /\ ly_item lc = [] /\ rest_ok (ly_item ld) rest /\
    data_gain (ly_item ld) = Ok (cx_data_gain c).
Proof.
  intros H. unfold write_virtual_cxi in H. apply bind_ok in H as (pulses & _ & H). apply bind_ok in H as (ls & Hl & H). apply bind_ok in H as (dg & Hd & H).
  injection H as <-. cbn [cx_layouts_of cx_data_gain].
  unfold collect_data in Hl. apply bind_ok in Hl as (ls0 & H0 & Hl).
  assert (X : exists ld rest lc, ls0 = ("data", ld) :: rest ++ [("cellId", lc)] /\ ly_item lc = [] /\ rest_ok (ly_item ld) rest).
  { unfold cxi_layouts in H0. destruct (mx_modules m) as [|[src n] r]; [discriminate|]. destruct (source_files _ _) as [|f fs]; [discriminate|].
    apply bind_ok in H0 as (data & _ & H0). apply bind_ok in H0 as (l & Hg & H0). apply bind_ok in H0 as (cell & _ & H0). injection H0 as <-.
    destruct (fa_dataset f (ds_path "INSTRUMENT" src ("image." ++ "gain"))) as [gain|] in Hg; injection Hg as <-.
    - destruct (fa_dataset f (ds_path "INSTRUMENT" src "image.mask")) as [mask|].
      + exists (empty_layout (ds_dtype data) shape), [("gain", empty_layout (ds_dtype gain) shape); ("mask", empty_layout (ds_dtype mask) shape)], (empty_layout (ds_dtype cell) []).
        split; [reflexivity|]. split; [reflexivity|]. right; right. do 2 eexists. split; [reflexivity|]. auto.
      + exists (empty_layout (ds_dtype data) shape), [("gain", empty_layout (ds_dtype gain) shape)], (empty_layout (ds_dtype cell) []).
        split; [reflexivity|]. split; [reflexivity|]. right; left. eexists. split; reflexivity.
    - exists (empty_layout (ds_dtype data) (ds_item data)), [], (empty_layout (ds_dtype cell) []).
      split; [reflexivity|]. split; [reflexivity|]. now left. }
  destruct X as (ld0 & rest0 & lc0 & -> & C & R). apply mapM_ok_iff in Hl. inversion Hl as [|? q ? ls' F0 F']; subst. clear Hl.
  apply fill_item in F0 as [A1 A2]. destruct q as [nd ld]. cbn [fst snd] in A1, A2. subst nd.
  assert (Y : exists rest lc, ls' = rest ++ [("cellId", lc)] /\ ly_item lc = [] /\ rest_ok (ly_item ld) rest).
  { rewrite A2. destruct R as [->|[(lg & -> & G)|(lg & lm & -> & G & M)]]; cbn [app] in F'.
    - inversion F' as [|? [n1 l1] ? ? B1 T1]; subst. inversion T1; subst. apply fill_item in B1 as [N1 I1]. cbn [fst snd] in *. subst n1.
      exists [], l1. split; [reflexivity|]. split; [congruence|]. now left.
    - inversion F' as [|? [n1 l1] ? ? B1 T1]; subst. inversion T1 as [|? [n2 l2] ? ? B2 T2]; subst. inversion T2; subst. apply fill_item in B1 as [N1 I1]. apply fill_item in B2 as [N2 I2].
      cbn [fst snd] in *. subst n1 n2. exists [("gain", l1)], l2. split; [reflexivity|]. split; [congruence|]. right; left. exists l1. split; congruence.
    - inversion F' as [|? [n1 l1] ? ? B1 T1]; subst. inversion T1 as [|? [n2 l2] ? ? B2 T2]; subst. inversion T2 as [|? [n3 l3] ? ? B3 T3]; subst. inversion T3; subst.
      apply fill_item in B1 as [N1 I1]. apply fill_item in B2 as [N2 I2]. apply fill_item in B3 as [N3 I3].
      cbn [fst snd] in *. subst n1 n2 n3. exists [("gain", l1); ("mask", l2)], l3. split; [reflexivity|]. split; [congruence|]. right; right. exists l1, l2. split; [reflexivity|]. split; congruence. }
  destruct Y as (rest & lc & -> & C' & R'). exists ld, rest, lc. split; [reflexivity|]. split; [exact C'|]. split; [exact R'|].
  cbn [dict_get String.eqb] in Hd. exact Hd.
Qed.
End L.

Section D.
Context {V : Type}.
Context (pulse : V -> Z) (tag : string) (d : dcoll V) (nmo : option string) (modules : option (list Z)) (min : Z) (m : mpx V).
Context (HD : detector_of tag d nmo modules min m).
Context (shape : list Z) (c : cxi V) (Hc : write_virtual_cxi pulse m shape = Ok c).
Lemma cxi_lengths : len (cx_experiment_id c) = cxi_nframes m /\ len (cx_pulse_id c) = cxi_nframes m /\ len (cx_train_id c) = cxi_nframes m.
Proof.
  assert (T := cxi_train_length HD Hc). unfold write_virtual_cxi in Hc. apply bind_ok in Hc as (pulses & Hp & H). apply bind_ok in H as (ls & Hl & H). apply bind_ok in H as (dg & Hd & H).
  injection H as <-. cbn [cx_train_id cx_pulse_id cx_experiment_id] in *.
  unfold collect_pulse_ids in Hp. apply bind_ok in Hp as (t & _ & Hp). destruct (existsb _ _) in Hp; [discriminate|]. destruct (existsb _ _) in Hp; [discriminate|]. injection Hp as <-.
  unfold len, pulse_rows. rewrite !map_length, combine_length, !map_length, seq_length, T. 
  destruct (fpt_pos (detector_made HD)) as [F0 FE]. unfold cxi_nframes. split; [|split]; nia.
Qed.
End D.

(** The names of the axes. *)
Definition names4 := ["experiment_identifier"; "module_identifier"; "y"; "x"].
Definition names5 := ["experiment_identifier"; "module_identifier"; "data_gain"; "y"; "x"].
Definition names2 := ["experiment_identifier"; "module_identifier"].
Lemma names_ok : axes_names "experiment_identifier:module_identifier:y:x" names4 /\
  axes_names "experiment_identifier:module_identifier:data_gain:y:x" names5 /\ axes_names "experiment_identifier:module_identifier" names2.
Proof.
  assert (X : forall n, (existsb (Ascii.eqb ":"%char) (list_ascii_of_string n) = false) -> ~ In ":"%char (list_ascii_of_string n)).
  { intros n H I. apply not_true_iff_false in H. apply H. apply existsb_exists. exists ":"%char. split; [assumption|reflexivity]. }
  repeat split; try discriminate; repeat constructor; apply X; vm_compute; reflexivity.
Qed.

Ltac step H := inversion H; subst; clear H; cbn [dict_get] in *;
  repeat match goal with
  | E : (if String.eqb ?a ?b then _ else _) = Some _ |- _ => destruct (String.eqb_spec a b); [subst a|]
  | E : Some _ = Some _ |- _ => injection E as E; subst
  | E : None = Some _ |- _ => discriminate E
  end.

Section T.
Context {V : Type}.
Notation node := (node V).
Context (nframes : Z) (c : cxi V) (ld lc : layout V) (rest : list (string * layout V)).
Context (HL : cx_layouts_of c = ("data", ld) :: rest ++ [("cellId", lc)]) (HR : rest_ok (ly_item ld) rest).

(** The members of the detector group, and those of entry_1. *)
Definition det_members : list (string * node) :=
  match cx_data_gain c with Some _ => [("data_gain", SoftLink ["entry_1"; "data_gain"])] | None => [] end ++
  ("data", virtual nframes (axes_of c) ld) :: map (fun p => (fst p, virtual nframes (axes_of c) (snd p))) rest ++
  [("experiment_identifier", SoftLink ["entry_1"; "experiment_identifier"]);
   ("module_identifier", Dataset [len (cx_module_id c)] None (CNumbers (cx_module_id c)))].
Definition entry_members : list (string * node) :=
  [("experiment_identifier", Dataset [len (cx_experiment_id c)] None (CTexts (cx_experiment_id c)));
   ("pulseId", Dataset [len (cx_pulse_id c)] None (CNumbers (cx_pulse_id c)));
   ("trainId", Dataset [len (cx_train_id c)] None (CNumbers (cx_train_id c)));
   ("cellId", virtual nframes "experiment_identifier:module_identifier" lc);
   ("instrument_1", Group [("detector_1", Group det_members)])] ++
  match cx_data_gain c with Some l => [("data_gain", Dataset [len l] None (CTexts l))] | None => [] end ++
  [("data_1", SoftLink det_path)].
Definition the_file : node := Group [("cxi_version", Dataset [1%Z] None (CNumbers [150%Z])); ("entry_1", Group entry_members)].
Lemma tree_eq : cxi_tree nframes c = Ok the_file.
Proof.
  unfold cxi_tree, cxi_objects, the_file, entry_members, det_members, axes_of. rewrite HL.
  destruct HR as [E|[(lg & E & _)|(lg & lm & E & _ & _)]]; rewrite E; destruct (cx_data_gain c); reflexivity.
Qed.

Notation obj := (object (the_file)).
Lemma entry_obj x rest_ o : leads the_file (Group entry_members) (x :: rest_) o -> obj ("entry_1" :: x :: rest_) o.
Proof. intros H. unfold object. unfold the_file at 2. eapply leads_member; [reflexivity|exact H]. Qed.
Lemma det_obj p o : leads the_file (Group det_members) p o <-> obj (det_path ++ p) o.
Proof.
  split.
  - intros H. apply entry_obj. eapply leads_member; [reflexivity|]. eapply leads_member; [reflexivity|exact H].
  - unfold object, det_path. intros H. cbn [app] in H. inversion H as [|? ? s1 ? ? E1 H1|]; subst; clear H. injection E1 as <-.
    inversion H1 as [|? ? s2 ? ? E2 H2|]; subst; clear H1. injection E2 as <-. inversion H2 as [|? ? s3 ? ? E3 H3|]; subst; clear H2. injection E3 as <-. exact H3.
Qed.
Lemma data_1 p o : obj (["entry_1"; "data_1"] ++ p) o <-> obj (det_path ++ p) o.
Proof.
  assert (E : dict_get "data_1" entry_members = Some (SoftLink det_path)) by (unfold entry_members; destruct (cx_data_gain c); reflexivity).
  split.
  - unfold object. intros H. cbn [app] in H. inversion H as [|? ? s1 ? ? E1 H1|]; subst; clear H. injection E1 as <-.
    inversion H1 as [|? ? s2 ? ? E2 H2|]; subst; clear H1. rewrite E in E2. injection E2 as <-. inversion H2; subst; [exfalso; eapply H; reflexivity|assumption].
  - intros H. apply entry_obj. eapply leads_member; [exact E|]. apply leads_link. exact H.
Qed.
Lemma ds_here root sh a (ct : content V) : leads root (Dataset sh a ct) [] (Dataset sh a ct).
Proof. constructor. discriminate. Qed.
Lemma entry_ds x sh a ct : dict_get x entry_members = Some (Dataset sh a ct) -> obj ["entry_1"; x] (Dataset sh a ct).
Proof. intros H. apply entry_obj. eapply leads_member; [exact H|]. apply ds_here. Qed.
Lemma det_ds x sh a ct : dict_get x det_members = Some (Dataset sh a ct) -> obj (det_path ++ [x]) (Dataset sh a ct).
Proof. intros H. apply det_obj. eapply leads_member; [exact H|]. apply ds_here. Qed.
Lemma det_link x y sh a ct : dict_get x det_members = Some (SoftLink ["entry_1"; y]) -> dict_get y entry_members = Some (Dataset sh a ct) -> obj (det_path ++ [x]) (Dataset sh a ct).
Proof. intros H E. apply det_obj. eapply leads_member; [exact H|]. apply leads_link. cbn [app]. exact (entry_ds E). Qed.

(** Where the virtual datasets are. *)
Lemma in_layouts nm ly : In (nm, ly) (cx_layouts_of c) -> nm = "cellId" /\ ly = lc \/ nm = "data" /\ ly = ld \/ In (nm, ly) rest.
Proof.
  rewrite HL. cbn [In]. intros [E|H]; [injection E as <- <-; auto|]. apply in_app_iff in H as [H|[E|[]]]; [auto|]. injection E as <- <-. auto.
Qed.
Lemma rest_names nm ly : In (nm, ly) rest -> (nm = "gain" \/ nm = "mask") /\ ly_item ly = ly_item ld.
Proof.
  destruct HR as [->|[(lg & -> & G)|(lg & lm & -> & G & M)]]; cbn [In]; [tauto| |].
  - intros [E|[]]. injection E as <- <-. auto.
  - intros [E|[E|[]]]; injection E as <- <-; auto.
Qed.
Lemma det_virtual nm ly : In (nm, ly) (cx_layouts_of c) -> nm <> "cellId" -> dict_get nm det_members = Some (virtual nframes (axes_of c) ly).
Proof.
  intros H N. apply in_layouts in H as [[-> _]|[[-> ->]|H]]; [congruence| |].
  - unfold det_members. destruct (cx_data_gain c); reflexivity.
  - unfold det_members. destruct HR as [E|[(lg & E & G)|(lg & lm & E & G & M)]]; rewrite E in H; cbn [In] in H; [tauto| |].
    + destruct H as [X|[]]. injection X as <- <-. rewrite E. destruct (cx_data_gain c); reflexivity.
    + destruct H as [X|[X|[]]]; injection X as <- <-; rewrite E; destruct (cx_data_gain c); reflexivity.
Qed.
Lemma entry_cell : dict_get "cellId" entry_members = Some (virtual nframes "experiment_identifier:module_identifier" lc).
Proof. unfold entry_members. destruct (cx_data_gain c); reflexivity. Qed.
(** Each dataset with axes is one of them. *)
Lemma leads_nil root (o o' : node) : leads root o [] o' -> (forall t, o <> SoftLink t) -> o' = o.
Proof. intros H N. inversion H; subst; [reflexivity|exfalso; eapply N; reflexivity]. Qed.
Lemma leads_ds root sh a (ct : content V) p o : leads root (Dataset sh a ct) p o -> p = [] /\ o = Dataset sh a ct.
Proof. intros H. inversion H; subst; auto. Qed.
Lemma entry_plain x s p sh a ct : dict_get x entry_members = Some s -> leads the_file s p (Dataset sh (Some a) ct) ->
  (x = "cellId" /\ p = [] /\ Dataset sh (Some a) ct = virtual nframes "experiment_identifier:module_identifier" lc) \/
  (exists q, x = "instrument_1" /\ p = "detector_1" :: q /\ leads the_file (Group det_members) q (Dataset sh (Some a) ct)) \/ x = "data_1".
Proof.
  unfold entry_members. intros E H. cbn [app dict_get] in E.
  destruct (String.eqb_spec x "experiment_identifier"). { injection E as <-. apply leads_ds in H as [_ H]. discriminate H. }
  destruct (String.eqb_spec x "pulseId"). { injection E as <-. apply leads_ds in H as [_ H]. discriminate H. }
  destruct (String.eqb_spec x "trainId"). { injection E as <-. apply leads_ds in H as [_ H]. discriminate H. }
  destruct (String.eqb_spec x "cellId"). { injection E as <-. apply leads_ds in H as [-> H]. left. auto. }
  destruct (String.eqb_spec x "instrument_1").
  { injection E as <-. right; left. inversion H as [|? ? s1 ? ? E1 H1|]; subst; clear H. cbn [dict_get] in E1.
    destruct (String.eqb_spec x0 "detector_1"); [|discriminate]. injection E1 as <-. subst. eauto. }
  destruct (cx_data_gain c) as [l|]; cbn [app dict_get] in E.
  - destruct (String.eqb_spec x "data_gain"). { injection E as <-. apply leads_ds in H as [_ H]. discriminate H. }
    destruct (String.eqb_spec x "data_1"); [auto|discriminate].
  - destruct (String.eqb_spec x "data_1"); [auto|discriminate].
Qed.
Lemma links_plain y p sh a ct : y = "data_gain" \/ y = "experiment_identifier" -> ~ obj ("entry_1" :: y :: p) (Dataset sh (Some a) ct).
Proof.
  intros Y H. unfold object in H. inversion H as [|? ? s1 ? ? E1 H1|]; subst; clear H. injection E1 as <-.
  inversion H1 as [|? ? s2 ? ? E2 H2|]; subst; clear H1. destruct (entry_plain E2 H2) as [(E & _)|[(q & E & _)|E]]; subst; destruct Y; discriminate.
Qed.
Lemma det_axes q sh a ct : leads the_file (Group det_members) q (Dataset sh (Some a) ct) ->
  exists nm ly, q = [nm] /\ nm <> "cellId" /\ In (nm, ly) (cx_layouts_of c) /\ Dataset sh (Some a) ct = virtual nframes (axes_of c) ly.
Proof.
  intros H. inversion H as [|? x s ? ? E H1|]; subst; clear H. unfold det_members in E.
  assert (X : (x = "data_gain" /\ s = SoftLink ["entry_1"; "data_gain"]) \/
              dict_get x (("data", virtual nframes (axes_of c) ld) :: map (fun p => (fst p, virtual nframes (axes_of c) (snd p))) rest ++
                [("experiment_identifier", SoftLink ["entry_1"; "experiment_identifier"]);
                 ("module_identifier", Dataset [len (cx_module_id c)] None (CNumbers (cx_module_id c)))]) = Some s).
  { destruct (cx_data_gain c); cbn [app dict_get] in E |- *; [|auto]. destruct (String.eqb_spec x "data_gain"); [injection E as <-; auto|auto]. }
  clear E. destruct X as [[-> ->]|E].
  { inversion H1 as [| |t rest1 o1 H2]; subst. exfalso. eapply links_plain; [left; reflexivity|]. exact H2. }
  cbn [dict_get] in E. destruct (String.eqb_spec x "data") as [->|].
  { injection E as <-. apply leads_ds in H1 as [-> H1]. exists "data", ld. split; [reflexivity|]. split; [discriminate|]. split; [rewrite HL; now left|exact H1]. }
  assert (X : (exists ly, In (x, ly) rest /\ s = virtual nframes (axes_of c) ly) \/ (x = "experiment_identifier" /\ s = SoftLink ["entry_1"; "experiment_identifier"]) \/
     s = Dataset [len (cx_module_id c)] None (CNumbers (cx_module_id c))).
  { clear -E HR. destruct HR as [->|[(lg & -> & _)|(lg & lm & -> & _ & _)]]; cbn [map app dict_get fst snd In] in *.
    - destruct (String.eqb_spec x "experiment_identifier"); [injection E as <-; auto|]. destruct (String.eqb _ _) in E; [injection E as <-; auto|discriminate].
    - destruct (String.eqb_spec x "gain"); [injection E as <-; subst; left; eauto|].
      destruct (String.eqb_spec x "experiment_identifier"); [injection E as <-; auto|]. destruct (String.eqb _ _) in E; [injection E as <-; auto|discriminate].
    - destruct (String.eqb_spec x "gain"); [injection E as <-; subst; left; eauto|]. destruct (String.eqb_spec x "mask"); [injection E as <-; subst; left; eauto|].
      destruct (String.eqb_spec x "experiment_identifier"); [injection E as <-; auto|]. destruct (String.eqb _ _) in E; [injection E as <-; auto|discriminate]. }
  destruct X as [(ly & I & ->)|[[-> ->]| ->]].
  - apply leads_ds in H1 as [-> H1]. exists x, ly. split; [reflexivity|]. destruct (rest_names I) as [N _]. split; [destruct N; subst; discriminate|].
    split; [rewrite HL; right; apply in_app_iff; auto|exact H1].
  - exfalso. inversion H1 as [| |t rest1 o1 H2]; subst. eapply links_plain; [right; reflexivity|]. exact H2.
  - apply leads_ds in H1 as [_ H1]. discriminate.
Qed.
Lemma all_axes path sh a ct : obj path (Dataset sh (Some a) ct) ->
  (path = ["entry_1"; "cellId"] /\ Dataset sh (Some a) ct = virtual nframes "experiment_identifier:module_identifier" lc) \/
  (exists nm ly, (path = det_path ++ [nm] \/ path = ["entry_1"; "data_1"] ++ [nm]) /\ nm <> "cellId" /\ In (nm, ly) (cx_layouts_of c) /\
     Dataset sh (Some a) ct = virtual nframes (axes_of c) ly).
Proof.
  intros H. unfold object in H. inversion H as [|? x s ? ? E1 H1|]; subst; clear H. cbn [dict_get] in E1.
  destruct (String.eqb_spec x "cxi_version"). { injection E1 as <-. apply leads_ds in H1 as [_ H1]. discriminate. }
  destruct (String.eqb_spec x "entry_1") as [->|]; [|discriminate]. injection E1 as <-.
  inversion H1 as [|? x s rest2 ? E2 H2|]; subst; clear H1. destruct (entry_plain E2 H2) as [(-> & -> & E)|[(q & -> & -> & Hq)| ->]].
  - left. auto.
  - right. destruct (det_axes Hq) as (nm & ly & -> & N & I & E). exists nm, ly. auto.
  - right. assert (X : obj (["entry_1"; "data_1"] ++ rest2) (Dataset sh (Some a) ct)) by (apply entry_obj; eapply leads_member; eassumption).
    apply data_1 in X. apply det_obj in X. destruct (det_axes X) as (nm & ly & -> & N & I & E). exists nm, ly. auto.
Qed.
End T.
