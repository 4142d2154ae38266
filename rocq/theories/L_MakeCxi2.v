(** Proofs about karabo-data-make-virtual-cxi: what is read and written. *)
From Verif Require Import Base PyStr M_Files M_Reader M_Select M_Series M_Stacking M_Components M_Cxi M_OpenRun M_MakeCxi
  S_Open S_Stacking S_OpenRun S_Glob S_Reader S_Coll S_Components S_MakeCxi L_Base L_Stacking L_Glob L_Open L_OpenRun L_Lsxfel
  L_Select L_SelTrains L_Components6 L_Components7 L_Components12 L_MakeCxi.
Set Implicit Arguments.
Unset Strict Implicit.
Local Open Scope string_scope.
Local Open Scope list_scope.

Lemma plan_spec : forall C a R F, Forall name_ok C -> usual_args C a ->
  cxi_plan (path_of C) a = Ok (Some (R, F)) <-> designates C a R F.
Proof.
  intros C a R F HC (Ho & Hne & _ & Hroot). unfold cxi_plan.
  set (by_number := match ca_run_number a with Some s => negb (String.eqb s "") | None => false end).
  destruct by_number eqn:Eb; unfold by_number in Eb; clear by_number.
  - destruct (ca_run_number a) as [s|] eqn:Es; [|discriminate]. apply negb_true_iff in Eb. apply String.eqb_neq in Eb.
    assert (J : forall n, path_join (path_join (ca_run_dir a) "proc") ("r" ++ format_0d 4 n) = path_join (ca_run_dir a) ("proc/" ++ "r" ++ format_0d 4 n)).
    { intros n. rewrite join3; auto; [discriminate|cbn; intuition discriminate|intros [q X]; discriminate]. }
    assert (J' : forall n, path_join (path_join (ca_run_dir a) "scratch") (("r" ++ format_0d 4 n) ++ "_detectors_virt.cxi") = path_join (ca_run_dir a) ("scratch/" ++ ("r" ++ format_0d 4 n) ++ "_detectors_virt.cxi")).
    { intros n. rewrite join3; auto; [discriminate|cbn; intuition discriminate|intros [q X]; discriminate]. }
    split.
    + intros H. apply bind_ok in H as (n & Hn & H). apply py_int_spec in Hn. cbv zeta in H. injection H as <- <-.
      eapply by_run_number with (n := n) (r := ("r" ++ format_0d 4 n)%string); [exact Es|exact Eb|exact Hn|now apply format_run| |].
      * apply join_inside; [exact Hne|intros [q X]; discriminate|]. apply J.
      * destruct (ca_output a) as [o|]; [reflexivity|]. apply join_inside; [exact Hne|intros [q X]; discriminate|]. apply J'.
    + intros D. destruct D as [s' n r R F E1 _ Hn Hr HR HF|cs F [E|E] _ _]; rewrite ?Es in *; [|discriminate|congruence].
      injection E1 as <-. apply py_int_spec in Hn. rewrite Hn. cbn [bind]. apply format_run in Hr. subst r.
      apply join_inside in HR; [|exact Hne|intros [q X]; discriminate]. rewrite <- J in HR. rewrite <- HR. do 3 f_equal.
      destruct (ca_output a) as [o|]; [now symmetry|]. apply join_inside in HF; [|exact Hne|intros [q X]; discriminate]. rewrite <- J' in HF. now symmetry.
  - assert (En : ca_run_number a = None \/ ca_run_number a = Some "").
    { destruct (ca_run_number a) as [s|]; [|now left]. apply negb_false_iff in Eb. apply String.eqb_eq in Eb. subst s. now right. }
    destruct (abspath_spec HC Ho) as (cs & E & Hcs & Hl). rewrite E. split.
    + destruct (ca_output a) as [o|] eqn:Eo.
      * intros H. injection H as <- <-. eapply by_directory; [exact En|now apply Hl|]. now rewrite Eo.
      * destruct (match_run (path_of cs)) as [[[p k] r]|] eqn:Em; [|discriminate]. apply (match_run_spec _ _ _ Hcs) in Em as (l & d & E1 & -> & Hk & Hd & Ld & ->).
        intros H. assert (X : R = path_of cs /\ F = path_join (path_join (below l) "scratch") (String "r" d ++ "_" ++ k ++ "_detectors_virt.cxi")) by (split; congruence).
        clear H. destruct X as [-> ->].
        eapply by_directory; [exact En|now apply Hl|]. rewrite Eo. exists l, k, d. repeat (split; [assumption|]).
        destruct l as [|x l]; [exfalso; apply (Hroot eq_refl k (String "r" d)); apply Hl; symmetry; exact E1|].
        rewrite join3; [|discriminate|discriminate|cbn; intuition discriminate|intros [q X]; discriminate].
        unfold path_join. cbn [starts_with append]. change (Ascii.eqb "/" "s") with false. cbn [andb].
        assert (Hf : Forall name_ok (x :: l)) by (rewrite E1 in Hcs; apply Forall_app in Hcs; tauto).
        destruct (ends_with "/" (below (x :: l))) eqn:Ee; [apply ends_slash in Ee as [q Eq]; destruct (below_no_slash Hf Eq)|].
        destruct (String.eqb_spec (below (x :: l)) ""); [discriminate|]. reflexivity.
    + intros D. destruct D as [s' n r R F E1 N1 _ _ _ _|cs' F _ Hl' HF]; [destruct En as [En|En]; rewrite En in E1; congruence|].
      apply Hl in Hl'. subst cs'. destruct (ca_output a) as [o|] eqn:Eo; [now subst|].
      destruct HF as (l & k & d & E1 & Hk & Hd & Ld & ->). rewrite (proj2 (match_run_spec (below l) k (String "r" d) Hcs)) by (exists l, d; auto 10).
      do 3 f_equal. destruct l as [|x l]; [exfalso; apply (Hroot eq_refl k (String "r" d)); apply Hl; symmetry; exact E1|].
      rewrite join3; [|discriminate|discriminate|cbn; intuition discriminate|intros [q X]; discriminate].
      unfold path_join. cbn [starts_with append]. change (Ascii.eqb "/" "s") with false. cbn [andb].
      assert (Hf : Forall name_ok (x :: l)) by (rewrite E1 in Hcs; apply Forall_app in Hcs; tauto).
      destruct (ends_with "/" (below (x :: l))) eqn:Ee; [apply ends_slash in Ee as [q Eq]; destruct (below_no_slash Hf Eq)|].
      destruct (String.eqb_spec (below (x :: l)) ""); [discriminate|]. reflexivity.
Qed.

(** When nothing is designated. *)
Lemma plan_none : forall C a, Forall name_ok C -> usual_args C a -> (forall R F, ~ designates C a R F) ->
  cxi_plan (path_of C) a = Ok None \/ cxi_plan (path_of C) a = Err EValueError.
Proof.
  intros C a HC HU HN. destruct (cxi_plan (path_of C) a) as [[[R F]|]|e] eqn:E.
  - apply (plan_spec _ _ HC HU) in E. destruct (HN _ _ E).
  - now left.
  - right. f_equal. unfold cxi_plan in E.
    destruct (match ca_run_number a with Some s => negb (String.eqb s "") | None => false end).
    + destruct (py_int _) as [n|e'] eqn:En; [discriminate|]. cbn in E. injection E as ->. exact (py_int_err En).
    + destruct (ca_output a); [discriminate|]. destruct (match_run _) as [[[? ?] ?]|]; discriminate.
Qed.

(** The directory whose access is checked. *)
Lemma folder_spec : forall C F, Forall name_ok C -> ordinary F -> forall dir, folder C F dir <-> dir = dirname (abspath (path_of C) F).
Proof.
  intros C F HC HO dir. destruct (abspath_spec HC HO) as (cs & -> & Hcs & Hl). rewrite dirname_spec by exact Hcs. unfold folder. split.
  - intros (cs' & H & ->). apply Hl in H. now subst.
  - intros ->. exists cs. split; [now apply Hl|reflexivity].
Qed.

(** The default files are ordinary paths. *)
Lemma ordinary_app : forall p b, ordinary p -> p <> "" -> (forall q, p = "/" -> b <> String "/" q) -> ordinary (p ++ b).
Proof.
  intros p b O Hp Hb q H. destruct p as [|c [|c' p]]; [congruence| |].
  - cbn in H. injection H as -> H. destruct (Hb q eq_refl H).
  - cbn in H. injection H as -> -> H. destruct (O p eq_refl) as [r ->]. cbn in H. rewrite <- H. eexists. reflexivity.
Qed.
Lemma below_ordinary : forall cs b, Forall name_ok cs -> cs <> [] -> ordinary (below cs ++ b).
Proof.
  intros [|c cs] b H Hne q E; [congruence|]. exfalso. inversion H as [|? ? (N1 & _ & _ & N4) _]; subst. cbn in E. injection E as E.
  destruct c as [|x c]; [congruence|]. cbn in E. injection E as -> _. apply N4. now left.
Qed.
Lemma designates_ordinary : forall C a R F, Forall name_ok C -> usual_args C a -> designates C a R F -> ordinary F.
Proof.
  intros C a R F HC (Ho & Hne & Hout & Hroot) D. destruct D as [s n r R F _ _ _ _ _ HF|cs F _ Hl HF].
  - destruct (ca_output a) as [o|] eqn:Eo; [subst; now apply Hout|]. destruct HF as [(q & _ & ->)|(_ & HN & ->)].
    + apply ordinary_app; [assumption|assumption|]. intros; discriminate.
    + apply ordinary_app; [assumption|assumption|]. intros q E _. exact (HN "" E).
  - destruct (ca_output a) as [o|] eqn:Eo; [subst; now apply Hout|]. destruct HF as (l & k & d & E1 & Hk & Hd & Ld & ->).
    destruct (abspath_spec HC Ho) as (cs' & _ & Hcs & Hl'). apply Hl' in Hl as Hl2. subst cs'.
    destruct l as [|x l]; [exfalso; apply (Hroot eq_refl k (String "r" d)); cbn in E1; now rewrite <- E1|].
    apply below_ordinary; [|discriminate]. rewrite E1 in Hcs. apply Forall_app in Hcs. tauto.
Qed.

Section D.
Context {V : Type}.
Variable pulse : V -> Z.

(** Opening the detector of a run which has sources of its kind never looks like there were none. *)
Lemma open_no_source : forall tag (d : dcoll V) min, tag = "_AGIPD1M" \/ tag = "_LPD1M" -> sound_run d ->
  mpx_open tag d None None min = Err ESourceNameError <-> ~ has_detector tag d.
Proof.
  intros tag d min Htag (HR & HK & HG & HCt). unfold mpx_open. pose proof (find_name_spec tag d) as F. cbv zeta in F. split.
  - intros H (s & p & Hin & Hp). destruct (find_detector_name tag d) as [nm|e] eqn:En.
    + destruct F as [(s' & Hin' & Hp') F2]. cbn [bind] in H.
      assert (Hc : countable d nm None) by exact (HCt tag s' nm Htag Hin' Hp').
      assert (Hne : module_list d nm None <> []).
      { intros E. destruct Hp' as [[[n Hn] _] _]. assert (X : is_module_of d nm None s' n) by (repeat split; assumption).
        apply module_list_In in X. rewrite E in X. destruct X. }
      destruct (open_main HR HK HG Hc tag min Hne) as (data & ser & _ & Hsel & E). unfold mpx_open in E. cbn [bind] in E. rewrite E in H. clear E.
      destruct (frames_per_train _) as [c|e] eqn:Ef; cbn [bind] in H.
      * unfold mx_select_trains in H. destruct (trains_with_modules _ _) as [|t l]; [discriminate|].
        destruct (select_trains data (ByIdList (t :: l))) as [d1|e] eqn:Es; cbn [bind] in H.
        -- destruct (z_unique _); discriminate.
        -- assert (Hrd : reachable data) by (eapply reach_select; eassumption).
           destruct (new_train_ids (dc_tids data) (ByIdList (t :: l))) as [r|e'] eqn:Er.
           ++ destruct (select_trains_ok Hrd Er) as (d1 & X & _). congruence.
           ++ unfold select_trains in Es. rewrite Er in Es. cbn [bind] in Es. clear -H Es Er. cbn [new_train_ids] in Er. revert Er. destruct (zsort_set (filter (fun t0 => z_in t0 (t :: l)) (dc_tids data))); congruence.
      * unfold frames_per_train in Ef. destruct (zdedup _) as [|? [|? ?]]; congruence.
    + destruct F as [[_ F]|[-> _]]; [exact (F p (ex_intro _ s (conj Hin Hp)))|discriminate].
  - intros H. destruct (find_detector_name tag d) as [nm|e].
    + destruct F as [(s & Hin & Hp) _]. exfalso. apply H. exists s, nm. now split.
    + destruct F as [[-> _]|[_ (p & q & (s & Hin & Hp) & _)]]; [reflexivity|]. exfalso. apply H. exists s, p. now split.
Qed.

Lemma exn_eq_dec : forall x y : exn, {x = y} + {x <> y}.
Proof. decide equality. Defined.
Lemma get_detector_spec : forall (d : dcoll V) min m shape, sound_run d ->
  get_detector d min = Ok (Some (m, shape)) <-> picked d min m shape.
Proof.
  intros d min m shape HS. unfold get_detector, picked. rewrite <- (open_no_source min (or_introl eq_refl) HS).
  destruct (mpx_open "_AGIPD1M" d None None min) as [m1|e1] eqn:E1.
  - split; [intros H; left; split; congruence|]. intros [[H ->]|[H _]]; congruence.
  - destruct (exn_eq_dec e1 ESourceNameError) as [->|N].
    + destruct (mpx_open "_LPD1M" d None None min) as [m2|e2] eqn:E2.
      * split; [intros H; right; repeat split; congruence|]. intros [[H _]|(_ & H & ->)]; congruence.
      * split; [destruct e2; discriminate|]. intros [[H _]|(_ & H & _)]; discriminate.
    + split; [destruct e1; congruence|]. intros [[H _]|(H & _)]; congruence.
Qed.
Lemma picked_made : forall (d : dcoll V) min m shape, sound_run d -> picked d min m shape ->
  exists tag, (tag = "_AGIPD1M" \/ tag = "_LPD1M") /\ detector_of tag d None None min m.
Proof.
  intros d min m shape (HR & HK & HG & HCt) H.
  assert (X : forall tag, tag = "_AGIPD1M" \/ tag = "_LPD1M" -> mpx_open tag d None None min = Ok m -> detector_of tag d None None min m).
  { intros tag Ht Ho. split; [exact HR|]. split; [exact HK|]. split; [exact HG|]. split; [|exact Ho].
    destruct (detector_named Ho) as (_ & _ & Hn). specialize (Hn eq_refl). pose proof (find_name_spec tag d) as F. cbv zeta in F. rewrite Hn in F.
    destruct F as [(s & Hs & Hp) _]. exact (HCt tag s _ Ht Hs Hp). }
  destruct H as [[H _]|(_ & H & _)]; [exists "_AGIPD1M"|exists "_LPD1M"]; auto.
Qed.
Lemma get_detector_none : forall (d : dcoll V) min, sound_run d ->
  get_detector d min = Ok None <-> ~ has_detector "_AGIPD1M" d /\ ~ has_detector "_LPD1M" d.
Proof.
  intros d min HS. unfold get_detector. rewrite <- (open_no_source min (or_introl eq_refl) HS), <- (open_no_source min (or_intror eq_refl) HS).
  destruct (mpx_open "_AGIPD1M" d None None min) as [m1|e1]; [split; [discriminate|intros [? _]; discriminate]|].
  destruct (exn_eq_dec e1 ESourceNameError) as [->|N].
  - destruct (mpx_open "_LPD1M" d None None min) as [m2|e2]; [split; [discriminate|intros [_ ?]; discriminate]|].
    split; [destruct e2; try discriminate; auto|]. intros [_ H]. injection H as ->. reflexivity.
  - split; [destruct e1; congruence|]. intros [H _]; congruence.
Qed.

Context (E : cxi_env V) (C : list string) (HC : Forall name_ok C) (HE : en_cwd E = path_of C).

Theorem writes_spec : forall a R F c, usual_args C a -> (forall d, en_run E R = Ok d -> sound_run d) ->
  make_virtual_cxi pulse E a = Wrote R F c <->
  designates C a R F /\ en_read E R = true /\ (exists dir, folder C F dir /\ en_write E dir = true) /\
  exists d m shape, en_run E R = Ok d /\ picked d (min_modules_of a) m shape /\ write_virtual_cxi pulse m shape = Ok c.
Proof.
  intros a R F c HU HS. unfold make_virtual_cxi. rewrite HE. split.
  - destruct (cxi_plan (path_of C) a) as [[[R' F']|]|e] eqn:Ep; try discriminate. apply (plan_spec _ _ HC HU) in Ep.
    assert (HO := designates_ordinary HC HU Ep). pose proof (folder_spec HC HO) as Hf.
    destruct (en_read E R') eqn:Er; [|discriminate]. cbn [negb]. destruct (en_write E (dirname _)) eqn:Ew; [|discriminate]. cbn [negb].
    destruct (en_run E R') as [d|e] eqn:Ed; cbn [bind]; [|discriminate].
    destruct (get_detector d (min_modules_of a)) as [[[m shape]|]|e] eqn:Eg; try discriminate.
    destruct (write_virtual_cxi pulse m shape) as [c'|e] eqn:Ec; [|discriminate]. intros H. injection H as -> -> ->.
    split; [exact Ep|]. split; [exact Er|]. split; [eexists; split; [now apply Hf|exact Ew]|].
    exists d, m, shape. split; [exact Ed|]. split; [|exact Ec]. apply get_detector_spec; [now apply HS|exact Eg].
  - intros (Hd & Hr & (dir & Hdir & Hw) & d & m & shape & Ed & Hp & Ec). assert (HO := designates_ordinary HC HU Hd).
    apply (plan_spec _ _ HC HU) in Hd. rewrite Hd. rewrite Hr. cbn [negb]. apply (folder_spec HC HO) in Hdir. rewrite <- Hdir, Hw. cbn [negb].
    rewrite Ed. cbn [bind]. apply (get_detector_spec _ _ _ (HS d Ed)) in Hp. rewrite Hp, Ec. reflexivity.
Qed.

Theorem refusals : forall a, usual_args C a ->
  ((forall R F, ~ designates C a R F) -> make_virtual_cxi pulse E a = NoPattern \/ make_virtual_cxi pulse E a = Raised EValueError) /\
  (forall R F, designates C a R F ->
    (en_read E R = false -> make_virtual_cxi pulse E a = NoRead R) /\
    (forall dir, en_read E R = true -> folder C F dir -> en_write E dir = false -> make_virtual_cxi pulse E a = NoWrite dir) /\
    (forall dir d, en_read E R = true -> folder C F dir -> en_write E dir = true -> en_run E R = Ok d -> sound_run d ->
       ~ has_detector "_AGIPD1M" d -> ~ has_detector "_LPD1M" d -> make_virtual_cxi pulse E a = NoDetector R)).
Proof.
  intros a HU. unfold make_virtual_cxi. rewrite HE. split.
  - intros H. destruct (plan_none HC HU H) as [-> | ->]; auto.
  - intros R F Hd. assert (HO := designates_ordinary HC HU Hd). pose proof (folder_spec HC HO) as Hf. apply (plan_spec _ _ HC HU) in Hd. rewrite Hd. split; [|split].
    + intros ->. reflexivity.
    + intros dir -> Hdir Hw. apply Hf in Hdir. subst dir. cbn [negb]. rewrite Hw. reflexivity.
    + intros dir d -> Hdir Hw Hrun HS N1 N2. apply Hf in Hdir. subst dir. cbn [negb]. rewrite Hw, Hrun. cbn [bind negb].
      rewrite (proj2 (get_detector_none (min_modules_of a) HS)) by (now split). reflexivity.
Qed.
End D.

(** ** Different runs have different default files *)
Lemma app_cancel : forall a b c : string, (a ++ b)%string = (a ++ c)%string -> b = c.
Proof. induction a as [|x a IH]; intros b c H; [exact H|]. cbn in H. injection H as H. auto. Qed.
Lemma cut_underscore : forall a a' b b', ~ has_char "_" a -> ~ has_char "_" a' -> (a ++ String "_" b)%string = (a' ++ String "_" b')%string -> a = a' /\ b = b'.
Proof.
  induction a as [|x a IH]; intros [|y a'] b b' N N' H; cbn in H.
  - injection H as ->. auto.
  - injection H as <- _. exfalso. apply N'. now left.
  - injection H as -> _. exfalso. apply N. now left.
  - injection H as -> H. destruct (IH a' b b') as [-> ->]; auto; intros X; [apply N|apply N']; now right.
Qed.
Lemma run_dir_name_chars : forall n r, run_dir_name n r -> ~ has_char "_" r /\ ~ has_char "/" r.
Proof.
  assert (D : forall d c, all_digits d -> is_digit c = false -> ~ has_char c d).
  { intros d c H Hc X. apply char_in_iff in X. rewrite (digits_has H Hc) in X. discriminate. }
  intros n r (s & [(_ & ((_ & Hd & _) & _) & ->)|(_ & ((_ & Hd & _) & _) & ->)]); split; cbn; intros X; repeat (destruct X as [X|X]; [discriminate|]); revert X; now apply D.
Qed.
(** The two kinds of default names. *)
Lemma inside_split : forall p x r R, inside p (x ++ "/" ++ r) R -> exists q, R = (q ++ x ++ String "/" r)%string /\ forall y s S, inside p (y ++ "/" ++ s) S <-> S = (q ++ y ++ String "/" s)%string.
Proof.
  intros p x r R [(q & -> & ->)|(Hp & HN & ->)].
  - exists (q ++ "/")%string. split; [reflexivity|]. intros y s S. split.
    + intros [(q' & _ & ->)|(_ & H & _)]; [reflexivity|destruct (H q eq_refl)].
    + intros ->. left. exists q. split; reflexivity.
  - exists (p ++ "/")%string. split; [rewrite append_assoc_s; reflexivity|]. intros y s S. split.
    + intros [(q' & -> & _)|(_ & _ & ->)]; [destruct (HN q' eq_refl)|]. rewrite append_assoc_s. reflexivity.
    + intros ->. right. split; [exact Hp|]. split; [exact HN|]. rewrite append_assoc_s. reflexivity.
Qed.
Lemma app_tail_inj : forall a b c : string, (a ++ c)%string = (b ++ c)%string -> a = b.
Proof.
  intros a b c H. assert (L := f_equal String.length H). rewrite !length_app_s in L.
  destruct (@last_n_app (String.length c) a c eq_refl) as [_ E1]. destruct (@last_n_app (String.length c) b c eq_refl) as [_ E2]. rewrite H in E1. congruence.
Qed.

Theorem default_distinct : forall C a a' R R' F, Forall name_ok C -> usual_args C a -> usual_args C a' -> ca_output a = None -> ca_output a' = None ->
  designates C a R F -> designates C a' R' F -> R = R'.
Proof.
  assert (Dir : forall l k d, (below l ++ "/scratch/r" ++ d ++ "_" ++ k ++ "_detectors_virt.cxi")%string =
     ((below l ++ "/scratch") ++ String "/" (String "r" d ++ String "_" (k ++ "_detectors_virt.cxi")))%string).
  { intros l k d. rewrite append_assoc_s. reflexivity. }
  assert (DirN : forall k d, (k = "raw" \/ k = "proc") -> all_digits d -> ~ has_char "/" (String "r" d ++ String "_" (k ++ "_detectors_virt.cxi")) /\ ~ has_char "_" (String "r" d)).
  { intros k d Hk Hd. split.
    - rewrite has_app. intros [[X|X]|X]; [discriminate|exact (digits_no_slash Hd X)|]. destruct Hk as [-> | ->]; cbn in X; intuition discriminate.
    - intros [X|X]; [discriminate|]. apply char_in_iff in X. rewrite (@digits_has "_" d Hd eq_refl) in X. discriminate. }
  assert (Num : forall q r, (q ++ "scratch" ++ String "/" (r ++ "_detectors_virt.cxi"))%string = ((q ++ "scratch") ++ String "/" (r ++ String "_" "detectors_virt.cxi"))%string).
  { intros q r. rewrite append_assoc_s. reflexivity. }
  assert (NumN : forall n r, run_dir_name n r -> ~ has_char "/" (r ++ String "_" "detectors_virt.cxi")).
  { intros n r H. apply run_dir_name_chars in H as [_ H]. rewrite has_app. intros [X|X]; [exact (H X)|]. cbn in X. intuition discriminate. }
  assert (Cross : forall q n r l k d, run_dir_name n r -> (k = "raw" \/ k = "proc") -> all_digits d ->
     (q ++ "scratch" ++ String "/" (r ++ "_detectors_virt.cxi"))%string = (below l ++ "/scratch/r" ++ d ++ "_" ++ k ++ "_detectors_virt.cxi")%string -> False).
  { intros q n r l k d Hr Hk Hd H. rewrite Num, Dir in H. destruct (DirN k d Hk Hd) as [X1 X2]. apply app_slash_inj in H as [_ H]; [|exact (NumN n r Hr)|exact X1].
    apply run_dir_name_chars in Hr as [Hr _]. destruct (cut_underscore Hr X2 H) as [_ H']. destruct Hk as [-> | ->]; discriminate. }
  intros C a a' R R' F HC HU HU' Ho Ho' D D'.
  destruct D as [s n r R F _ _ _ Hr HR HF|cs F _ Hl HF]; rewrite Ho in HF.
  - apply inside_split with (x := "proc") in HR as (q & -> & Hq). apply (Hq "scratch" (r ++ "_detectors_virt.cxi")%string) in HF. subst F.
    inversion D' as [s' n' r' R0 F0 _ _ _ Hr' HR' HF' EE1 EE2|cs' F0 _ Hl' HF' EE1 EE2]; rewrite Ho' in HF'; subst.
    + apply inside_split with (x := "proc") in HR' as (q' & -> & Hq'). apply (Hq' "scratch" (r' ++ "_detectors_virt.cxi")%string) in HF'.
      rewrite !Num in HF'. apply app_slash_inj in HF' as [E1 E2]; [|exact (NumN n r Hr)|exact (NumN n' r' Hr')].
      apply app_tail_inj in E1, E2. subst. reflexivity.
    + exfalso. destruct HF' as (l & k & d & _ & Hk & Hd & _ & E). exact (Cross q n r l k d Hr Hk Hd E).
  - destruct HF as (l & k & d & -> & Hk & Hd & _ & ->).
    inversion D' as [s' n' r' R0 F0 _ _ _ Hr' HR' HF' EE1 EE2|cs' F0 _ Hl' HF' EE1 EE2]; rewrite Ho' in HF'; subst.
    + exfalso. apply inside_split with (x := "proc") in HR' as (q' & -> & Hq'). apply (Hq' "scratch" (r' ++ "_detectors_virt.cxi")%string) in HF'.
      exact (Cross q' n' r' l k d Hr' Hk Hd (eq_sym HF')).
    + destruct HF' as (l' & k' & d' & -> & Hk' & Hd' & _ & E). rewrite !Dir in E. destruct (DirN k d Hk Hd) as [X1 X2]. destruct (DirN k' d' Hk' Hd') as [X3 X4].
      apply app_slash_inj in E as [E1 E2]; [|exact X1|exact X3]. apply app_tail_inj in E1. destruct (cut_underscore X2 X4 E2) as [E3 E4]. apply app_tail_inj in E4.
      injection E3 as <-. subst k'. f_equal. f_equal.
      destruct HU as (O1 & _). destruct HU' as (O2 & _). destruct (abspath_spec HC O1) as (c1 & _ & N1 & L1). destruct (abspath_spec HC O2) as (c2 & _ & N2 & L2).
      apply L1 in Hl. apply L2 in Hl'. subst c1 c2. apply Forall_app in N1 as [N1 _]. apply Forall_app in N2 as [N2 _].
      clear -E1 N1 N2. assert (X := f_equal (fun x => py_split slash (x ++ String slash "")) E1). cbn beta in X. rewrite (split_below N1), (split_below N2) in X.
      injection X as X. now apply app_inv_tail in X.
Qed.
