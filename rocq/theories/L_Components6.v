(** Making the detector object. *)
From Verif Require Import Base PyStr M_Files M_Machinery M_Reader M_Glob M_Select M_Series M_Stacking M_Components
  S_Reader S_Coll S_Glob S_Select S_Avail S_Series S_Stacking S_Components
  L_Base L_Machinery L_Reader L_GetArray L_Select L_Trains L_SelTrains L_Array2 L_Glob L_Sel2 L_Sel3 L_Hist L_Series L_Stacking L_Writer5.
Set Implicit Arguments. Unset Strict Implicit.
Local Open Scope string_scope.
Local Open Scope list_scope.

(** *** Names *)
Lemma module_of_spec : forall name s n, module_of name s = Some n <-> module_source name s n.
Proof.
  intros name s n. unfold module_of, module_source. split.
  - destruct (strip_prefix name s) as [r|] eqn:E; [|discriminate]. apply strip_prefix_spec in E. subst s.
    intros H. apply match_module_spec in H as (ds & b & -> & H). exists ds, b. auto.
  - intros (ds & b & -> & H). rewrite (proj2 (strip_prefix_spec name _ _) eq_refl). apply match_module_spec. exists ds, b. auto.
Qed.
Lemma substring_split : forall s n, (n <= String.length s)%nat ->
  s = (substring 0 n s ++ substring n (String.length s - n) s)%string /\ String.length (substring 0 n s) = n.
Proof.
  induction s as [|c s IH]; intros n H; simpl in H.
  - destruct n; [|lia]. split; reflexivity.
  - destruct n as [|n].
    + simpl. split; [|reflexivity]. f_equal. clear. induction s as [|c s IH]; simpl; [reflexivity|now rewrite <- IH].
    + simpl. destruct (IH n ltac:(lia)) as [I1 I2]. split; [f_equal; exact I1|now rewrite I2].
Qed.
Lemma substring_app : forall p r, substring 0 (String.length p) (p ++ r)%string = p /\
  substring (String.length p) (String.length (p ++ r) - String.length p) (p ++ r)%string = r.
Proof.
  induction p as [|c p IH]; intros r; simpl.
  - split; [destruct r; reflexivity|]. rewrite Nat.sub_0_r. induction r as [|c r IH]; simpl; [reflexivity|now rewrite IH].
  - destruct (IH r) as [I1 I2]. split; [now rewrite I1|exact I2].
Qed.
Lemma contains_spec : forall tag s, contains tag s = true <-> exists x y, s = (x ++ tag ++ y)%string.
Proof.
  intros tag; induction s as [|c s IH]; cbn [contains]; rewrite orb_true_iff, starts_with_spec.
  - split.
    + intros [(r & E)|E]; [exists "", r; exact E|discriminate].
    + intros (x & y & E). left. exists y. destruct x; [exact E|discriminate].
  - rewrite IH. split.
    + intros [(r & E)|(x & y & ->)]; [exists "", r; exact E|exists (String c x), y; reflexivity].
    + intros ([|c' x] & y & E); [left; exists y; exact E|]. injection E as -> ->. right. eauto.
Qed.
Lemma detname_ok_spec : forall tag p, detname_ok tag p = true <-> exists c x y, p = String c (x ++ tag ++ y)%string.
Proof.
  intros tag [|c p]; simpl; [split; [discriminate|intros (c & x & y & E); discriminate]|].
  rewrite contains_spec. split; [intros (x & y & ->); eauto|intros (c' & x & y & E); injection E as -> ->; eauto].
Qed.
Lemma prefix_test : forall tag s n, (n <= String.length s)%nat ->
  (detname_ok tag (substring 0 n s) && (match match_module (substring n (String.length s - n) s) with Some _ => true | None => false end) = true
   <-> det_prefix tag s (substring 0 n s)).
Proof.
  intros tag s n H. destruct (substring_split H) as [E L]. rewrite andb_true_iff, detname_ok_spec. unfold det_prefix.
  set (p := substring 0 n s) in *. set (r := substring n (String.length s - n) s) in *. rewrite (and_comm (exists c x y, _)).
  assert (X : match match_module r with Some _ => true | None => false end = true <-> exists k, module_source p s k); [|now rewrite X].
  split.
  - destruct (match_module r) as [k|] eqn:Em; [|discriminate]. intros _. exists k. apply match_module_spec in Em as (ds & b & Er & H1).
    exists ds, b. rewrite E, Er. auto.
  - intros (k & Hk). apply module_of_spec in Hk. unfold module_of in Hk.
    rewrite (proj2 (strip_prefix_spec p s r) E) in Hk. now rewrite Hk.
Qed.
Lemma detname_upto_spec : forall tag s n, (n <= String.length s)%nat ->
  match detname_upto tag s n with
  | Some p => det_prefix tag s p /\ forall p', det_prefix tag s p' -> (String.length p' <= n)%nat -> (String.length p' <= String.length p)%nat
  | None => forall p', det_prefix tag s p' -> (n < String.length p')%nat
  end.
Proof.
  intros tag s.
  assert (Pref : forall p', det_prefix tag s p' -> substring 0 (String.length p') s = p').
  { intros p' ((k & ds & b & -> & _) & _). apply substring_app. }
  induction n as [|n IH]; intros H.
  - cbn [detname_upto]. pose proof (@prefix_test tag s 0 H) as T.
    destruct (_ && _) eqn:E.
    + split; [now apply T|]. intros p' _ Hl. lia.
    + intros p' Hp'. destruct (String.length p') eqn:El; [|lia]. exfalso.
      pose proof (Pref p' Hp') as Q. rewrite El in Q. rewrite <- Q in Hp'. apply T in Hp'. discriminate.
  - cbn [detname_upto]. pose proof (@prefix_test tag s (S n) H) as T. destruct (_ && _) eqn:E.
    + split; [now apply T|]. intros p' _ Hl. destruct (substring_split H) as [_ L]. now rewrite L.
    + specialize (IH ltac:(lia)).
      assert (Hn : forall p', det_prefix tag s p' -> String.length p' <> S n).
      { intros p' Hp' El. pose proof (Pref p' Hp') as Q. rewrite El in Q. rewrite <- Q in Hp'. apply T in Hp'. discriminate. }
      destruct (detname_upto tag s n) as [p|].
      * destruct IH as [I1 I2]. split; [assumption|]. intros p' Hp' Hl. specialize (Hn p' Hp'). apply I2; [assumption|lia].
      * intros p' Hp'. specialize (IH p' Hp'). specialize (Hn p' Hp'). lia.
Qed.
Lemma match_detname_spec : forall tag s p, match_detname tag s = Some p <-> det_name tag s p.
Proof.
  intros tag s p. unfold match_detname. pose proof (@detname_upto_spec tag s (String.length s) (le_n _)) as T.
  assert (Pref : forall p', det_prefix tag s p' -> substring 0 (String.length p') s = p' /\ (String.length p' <= String.length s)%nat).
  { intros p' ((k & ds & b & -> & _) & _). split; [apply substring_app|]. generalize ("/DET/" ++ ds ++ "CH" ++ b)%string. intros r. clear. induction p' as [|x p' IH]; simpl; lia. }
  unfold det_name. destruct (detname_upto tag s (String.length s)) as [q|].
  - destruct T as [T1 T2]. split.
    + intros H. injection H as ->. split; [assumption|]. intros p' Hp'. apply T2; [assumption|]. now apply Pref.
    + intros [H1 H2]. specialize (H2 q T1). specialize (T2 p H1 (proj2 (Pref p H1))).
      destruct (Pref p H1) as [P1 _]. destruct (Pref q T1) as [P2 _]. f_equal. rewrite <- P1, <- P2. f_equal. lia.
  - split; [discriminate|]. intros [H _]. specialize (T p H). destruct (Pref p H). lia.
Qed.

(** *** Patterns *)
Lemma plain_valid : forall s, plain_name s -> valid_pattern s.
Proof.
  intros s H. unfold valid_pattern, plain_name in *. induction (list_ascii_of_string s) as [|c l IH]; [constructor|].
  apply a_char.
  - intros E. exfalso. apply (H c (or_introl eq_refl)). exact E.
  - apply IH. intros c' Hc'. apply H. now right.
Qed.
Lemma plain_glob : forall p s, plain_name p -> (glob p s <-> s = p).
Proof.
  intros p s H. unfold glob, plain_name in *.
  assert (G : forall l l', (forall c, In c l -> c <> "*"%char /\ c <> "?"%char /\ c <> "["%char) -> (matches l l' <-> l' = l)).
  { clear. induction l as [|c l IH]; intros l' H.
    - split; [intros X; inversion X; reflexivity|intros ->; constructor].
    - destruct (H c (or_introl eq_refl)) as (H1 & H2 & H3). split.
      + intros X. inversion X; subst; try congruence. f_equal. apply IH; [|assumption]. intros; apply H; now right.
      + intros ->. apply m_char; [assumption|assumption|congruence|]. apply IH; [|reflexivity]. intros; apply H; now right. }
  rewrite (G _ _ H). split; [|intros ->; reflexivity].
  intros E. rewrite <- (string_of_list_ascii_of_string s), E. apply string_of_list_ascii_of_string.
Qed.
Lemma star_valid : valid_pattern "*".
Proof. apply glob_compile_iff. eexists. reflexivity. Qed.

Section C.
Context {V : Type}.
Notation faccess := (faccess V).
Notation dcoll := (dcoll V).

Definition module_list (d : dcoll) (name : string) (modules : option (list Z)) : list (string * Z) :=
  let l := flat_map (fun s => match module_of name s with Some n => [(s, n)] | None => [] end) (dc_inst d) in
  match modules with Some ms => filter (fun p => z_in (snd p) ms) l | None => l end.
Lemma module_list_In : forall (d : dcoll) name modules s n, In (s, n) (module_list d name modules) <-> is_module_of d name modules s n.
Proof.
  intros d name modules s n. unfold module_list, is_module_of.
  assert (L : In (s, n) (flat_map (fun s => match module_of name s with Some n => [(s, n)] | None => [] end) (dc_inst d)) <->
    In s (dc_inst d) /\ module_source name s n).
  { rewrite in_flat_map. split.
    - intros (x & Hx & H). destruct (module_of name x) as [k|] eqn:E; [|destruct H]. destruct H as [H|[]]. injection H as -> ->.
      split; [assumption|]. now apply module_of_spec.
    - intros [Hs H]. exists s. split; [assumption|]. apply module_of_spec in H. rewrite H. now left. }
  destruct modules as [ms|]; [|tauto]. rewrite filter_In, L. simpl. rewrite z_in_iff. tauto.
Qed.
Lemma module_list_nodup : forall (d : dcoll) name modules, reachable d -> NoDup (map fst (module_list d name modules)).
Proof.
  intros d name modules R. destruct (sources_nodup R) as [_ HN]. unfold module_list.
  set (l := flat_map _ _).
  assert (Hl : NoDup (map fst l)).
  { unfold l. clear -HN. induction (dc_inst d) as [|s r IH]; simpl; [constructor|]. inversion HN; subst.
    destruct (module_of name s) as [n|]; simpl; [|auto]. constructor; [|auto].
    intros H. apply in_map_iff in H as ([s' n'] & E & H). simpl in E. subst s'. apply in_flat_map in H as (x & Hx & H).
    destruct (module_of name x); [|destruct H]. destruct H as [H|[]]. injection H as -> _. contradiction. }
  destruct modules as [ms|]; [|exact Hl]. clear -Hl. induction l as [|p l IH]; simpl; [constructor|].
  inversion Hl; subst. destruct (z_in (snd p) ms); simpl; [|auto]. constructor; [|auto].
  intros H. apply H1. apply in_map_iff in H as (q & E & H). rewrite <- E. apply filter_In in H as [H _]. now apply in_map.
Qed.
Lemma identify_spec : forall (d : dcoll) name modules, identify_sources d name modules =
  match module_list d name modules with [] => Err ESourceNameError | l => Ok l end.
Proof. intros. unfold identify_sources. fold (module_list d name modules). destruct (module_list d name modules); reflexivity. Qed.

(** *** The counts *)
Lemma file_count_fun : forall (f : h5file V) c s k t x y, file_count f c s k t x -> file_count f c s k t y -> x = y.
Proof.
  intros f c s k t x y (raw & p & g & A1 & A2 & A3 & A4 & A5) (raw' & p' & g' & B1 & B2 & B3 & B4 & B5).
  rewrite A1 in B1. injection B1 as <-. rewrite A4 in B4. injection B4 as <-.
  assert (p = p').
  { destruct (Nat.lt_trichotomy p p') as [H|[H|H]]; [|assumption|]; exfalso; [exact (B3 p H A2)|exact (A3 p' H B2)]. }
  subst. congruence.
Qed.

Context (d : dcoll) (name : string) (modules : option (list Z)).
Context (R : reachable d) (K : distinct_kinds d) (G : good_files d) (C : countable d name modules).
Let srcs := module_list d name modules.

Lemma open_select : srcs <> [] -> exists data, select d (SelGlobs (map (fun p => (fst p, "*")) srcs)) = Ok data /\
  reachable data /\ narrower d data /\ dc_tids data = dc_tids d /\
  (forall s, In s (dc_sources data) <-> In s (map fst srcs)) /\
  (forall s, In s (map fst srcs) -> In s (dc_inst data) /\ check_field data s "image.data" = Ok tt) /\
  distinct_kinds data /\ good_files data.
Proof.
  intros Hne. destruct (reachable_inv R) as [Hb Ho].
  assert (Hsrc : forall s, In s (map fst srcs) -> exists n, is_module_of d name modules s n).
  { intros s Hs. apply in_map_iff in Hs as ([s' n] & <- & H). exists n. now apply module_list_In. }
  assert (HV : Forall valid_pair (map (fun p => (fst p, "*")) srcs)).
  { apply Forall_map, Forall_forall. intros p Hp. split; [|exact star_valid]. simpl. apply plain_valid.
    destruct (Hsrc (fst p)) as [n Hn]; [now apply in_map|]. exact (proj1 (C Hn)). }
  assert (Hin : forall s, In s (map fst srcs) -> In s (dc_sources d)).
  { intros s Hs. destruct (Hsrc s Hs) as (n & H & _). apply set_union_In. now right. }
  assert (Hhit : forall p s, In p (map (fun p : string * Z => (fst p, "*")) srcs) -> (hits_source d p s <-> s = fst p)).
  { intros p s Hp. apply in_map_iff in Hp as (q & <- & Hq). simpl. unfold hits_source. simpl.
    destruct (Hsrc (fst q)) as [n Hn]; [now apply in_map|]. rewrite (plain_glob s (proj1 (C Hn))). split; [tauto|].
    intros ->. split; [|auto]. apply Hin. now apply in_map. }
  destruct (@select_globs_spec V d (map (fun p => (fst p, "*")) srcs) R HV) as [_ H].
  destruct H as (data & Hsel & Ht & Hs & Hav & _).
  { intros p Hp. exists (fst p). now apply Hhit. }
  exists data. split; [assumption|].
  assert (R' : reachable data) by (eapply reach_select; eassumption). split; [assumption|].
  assert (N : narrower d data) by (eapply select_narrower; eassumption). split; [assumption|]. split; [assumption|].
  assert (Hs' : forall s, In s (dc_sources data) <-> In s (map fst srcs)).
  { intros s. rewrite Hs. split.
    - intros (p & Hp & H). apply Hhit in H; [|assumption]. subst s. apply in_map_iff in Hp as (q & <- & Hq). simpl. now apply in_map.
    - intros H. apply in_map_iff in H as (q & <- & Hq). exists (fst q, "*"). split; [apply in_map_iff; eauto|].
      apply Hhit; [apply in_map_iff; eauto|reflexivity]. }
  split; [exact Hs'|]. destruct N as (N1 & N2 & N3 & N4). destruct (reachable_inv R') as [Hb' Ho'].
  assert (K' : distinct_kinds data) by (intros f f' s H1 H2; apply K; auto).
  assert (G' : good_files data).
  { unfold good_files in *. rewrite Forall_forall in *. auto. }
  split; [|auto]. intros s Hm. destruct (Hsrc s Hm) as [n Hn]. assert (Hsd := proj2 (Hs' s) Hm). split.
  - destruct (kind_split s Hb' K' Hsd) as [(E1 & E2 & Hall)|(E1 & E2 & _)]; [|now apply str_in_iff].
    exfalso. apply (dc_sources_In s Hb') in Hsd as (_ & f & Hf & Hsf). destruct (Hall f Hf Hsf) as [Hc _].
    destruct Hn as [Hi _]. destruct (kind_split s Hb K (Hin s Hm)) as [(F1 & F2 & _)|(F1 & F2 & Hall2)].
    + apply str_in_iff in Hi. congruence.
    + apply (Hall2 f (N1 f Hf) Hsf). exact Hc.
  - unfold check_field. rewrite (proj2 (str_in_iff s (dc_sources data)) Hsd). cbn [negb].
    assert (Ha : available data s "image.data").
    { apply Hav; [|split; [now apply Hin|exact (proj1 (proj2 (C Hn)))]].
      apply in_map_iff in Hm as (q & Eq & Hq). exists (fst q, "*"). split; [apply in_map_iff; eauto|]. split; [reflexivity|].
      simpl. subst s. apply plain_glob; [exact (proj1 (C Hn))|reflexivity]. }
    destruct Ha as (_ & ks & -> & Hk). cbn [bind]. now rewrite (proj2 (str_in_iff _ ks) Hk).
Qed.

Lemma open_counts : forall data, srcs <> [] -> select d (SelGlobs (map (fun p => (fst p, "*")) srcs)) = Ok data ->
  exists sers, mapM (fun p => get_data_counts data (fst p) "image.data") srcs = Ok sers /\
    Forall2 (fun p ser => NoDup (map fst ser) /\ forall t c, In (t, c) ser <-> In t (dc_tids d) /\ frames_in d (fst p) t c) srcs sers.
Proof.
  intros data Hne Hsel. destruct (open_select Hne) as (data' & Hsel' & R' & N & Ht & Hs & Hi & K' & G').
  rewrite Hsel in Hsel'. injection Hsel' as <-. destruct N as (N1 & N2 & N3 & N4).
  destruct (reachable_inv R') as [Hb' Ho'].
  assert (One : forall p, In p srcs -> exists ser, get_data_counts data (fst p) "image.data" = Ok ser /\
     NoDup (map fst ser) /\ forall t c, In (t, c) ser <-> In t (dc_tids d) /\ frames_in d (fst p) t c).
  { intros [s n] Hp. cbn [fst]. assert (Hm : In s (map fst srcs)) by (apply (in_map fst) in Hp; exact Hp).
    destruct (Hi s Hm) as [Hin Hcf]. apply module_list_In in Hp. destruct (C Hp) as (_ & _ & Hfiles).
    destruct (inst_not_ctrl Hb' K' Hin) as [Hnc Hsrc].
    destruct (@get_data_counts_correct V data s "image.data" R' K' G' Hin) as (ser & E & HN & HI).
    - intros f Hf Hsf. rewrite Hnc. destruct (Hfiles f (N1 f Hf) Hsf) as [_ Hg]. exact Hg.
    - exact Hcf.
    - intros f Hf Hsf. apply (Hfiles f (N1 f Hf) Hsf).
    - exists ser. split; [assumption|]. split; [assumption|]. intros t c. rewrite HI, Ht. split.
      + intros (H1 & f & H2 & H3). split; [assumption|]. exists f. split; [|assumption]. apply N4; [exact Hsrc|now rewrite Ht|exact H2].
      + intros (H1 & f & H2 & H3). split; [assumption|]. exists f. split; [|assumption]. apply N4; [exact Hsrc|now rewrite Ht|exact H2]. }
  destruct (@mapM_total _ _ (fun p : string * Z => get_data_counts data (fst p) "image.data") srcs) as [sers Hsers].
  { intros p Hp. destruct (One p Hp) as (ser & E & _). eauto. }
  exists sers. split; [assumption|]. apply mapM_ok_iff in Hsers. clear -Hsers One.
  assert (One' := One). clear One. induction Hsers as [|p ser l sers Hp H IH]; constructor.
  - destruct (One' p (or_introl eq_refl)) as (ser' & E & H1). rewrite Hp in E. injection E as <-. exact H1.
  - apply IH. intros q Hq. apply One'. now right.
Qed.

(** Counts are not negative, and determined. *)
Lemma frames_in_fun : forall s n t x y, is_module_of d name modules s n -> frames_in d s t x -> frames_in d s t y -> x = y.
Proof.
  intros s n t x y Hm (f & Hf & Hx) (f' & Hf' & Hy). destruct (reachable_inv R) as [Hb Ho].
  assert (f = f').
  { destruct Hf as (A1 & A2 & A3), Hf' as (B1 & B2 & B3).
    apply (@flat_unique _ (@fa_tids V) (source_files (dc_files d) s) f f' t); try assumption.
    - now apply source_files_nodup.
    - now apply source_files_In.
    - now apply source_files_In. }
  subst. eapply file_count_fun; eassumption.
Qed.
Lemma frames_in_nonneg : forall s n t c, is_module_of d name modules s n -> frames_in d s t c -> (0 <= c)%Z.
Proof.
  intros s n t c Hm (f & (H1 & H2 & H3) & (raw & p & g & A1 & A2 & A3 & A4 & A5)).
  destruct (C Hm) as (_ & _ & Hf). destruct (Hf f H1 H2) as (_ & g' & Hg & Hr). rewrite A4 in Hg. injection Hg as <-.
  destruct (reachable_inv R) as [Hb Ho]. rewrite Forall_forall in Ho. unfold good_files in G. rewrite Forall_forall in G.
  apply In_nth_error in H3 as [q Hq]. destruct (@raw_position V f q t (Ho f H1) (G f H1) Hq) as (raw' & B1 & B2 & B3).
  rewrite A1 in B1. injection B1 as <-.
  assert (p = q).
  { destruct (Nat.lt_trichotomy p q) as [H|[H|H]]; [|assumption|]; exfalso; [exact (B3 p H A2)|exact (A3 q H B2)]. }
  subst q. destruct Hr as (_ & Hex). destruct (Hex p (nth_error_Some_lt _ _ Hq)) as (a & c' & _ & Hc & _ & Hcr).
  rewrite A5 in Hc. injection Hc as <-. unfold u64_range in Hcr. lia.
Qed.
End C.
