(** Which files are opened or validated. *)
From Verif Require Import Base PyStr M_Files M_Machinery M_Reader M_Glob M_OpenRun M_MakeCxi M_Validation M_Validate S_Glob S_Report
  S_OpenRun S_MakeCxi S_Open L_Base L_Glob L_Open L_Lsxfel L_OpenRun L_MakeCxi L_Report.
Set Implicit Arguments.
Unset Strict Implicit.
Local Open Scope string_scope.
Local Open Scope list_scope.

Lemma fnmatch_ok names pat l : fnmatch_filter names pat = Ok l -> forall x, In x l <-> In x names /\ glob pat x.
Proof.
  intros H x. unfold fnmatch_filter in H. apply bind_ok in H as (ts & Ht & H). injection H as <-. rewrite filter_In, (glob_compile_spec x Ht). reflexivity.
Qed.
Lemma fnmatch_total names pat : valid_pattern pat -> exists l, fnmatch_filter names pat = Ok l.
Proof. intros H. apply glob_compile_iff in H as [ts H]. unfold fnmatch_filter. rewrite H. cbn [bind]. eauto. Qed.
Lemma fnmatch_bad names pat : ~ valid_pattern pat -> exists e, fnmatch_filter names pat = Err e.
Proof.
  intros H. unfold fnmatch_filter. destruct (glob_compile pat) as [ts|e] eqn:E; [|cbn [bind]; eauto]. exfalso. apply H. apply glob_compile_iff. eauto.
Qed.
Theorem run_files_ok fs path include names : ls_names fs path = Some names ->
  (valid_pattern include -> (exists name, In name names /\ ends ".h5" name /\ glob include name) ->
     exists files, run_directory_files fs path include = Ok files /\
       forall p, In p files <-> exists name, p = path_join path name /\ In name names /\ ends ".h5" name /\ glob include name) /\
  (valid_pattern include -> (forall name, In name names -> ends ".h5" name -> ~ glob include name) -> run_directory_files fs path include = Err EException) /\
  (~ valid_pattern include -> exists e, run_directory_files fs path include = Err e).
Proof.
  intros HN. unfold run_directory_files. rewrite HN. split; [|split].
  - intros HV (nm & H1 & H2 & H3). destruct (fnmatch_total (filter (ends_with ".h5") names) HV) as [l Hl]. rewrite Hl. cbn [bind].
    assert (I := fnmatch_ok Hl). destruct l as [|x l].
    { exfalso. apply (proj2 (I nm)). split; [|exact H3]. apply filter_In. split; [exact H1|]. now apply ends_with_iff. }
    eexists. split; [reflexivity|]. intros p. rewrite in_map_iff. split.
    + intros (y & <- & Hy). apply I in Hy as [Hy G]. apply filter_In in Hy as [Hy E]. apply ends_with_iff in E. exists y. auto.
    + intros (y & -> & Hy & E & G). exists y. split; [reflexivity|]. apply I. split; [|exact G]. apply filter_In. split; [exact Hy|]. now apply ends_with_iff.
  - intros HV Hno. destruct (fnmatch_total (filter (ends_with ".h5") names) HV) as [l Hl]. rewrite Hl. cbn [bind]. assert (I := fnmatch_ok Hl).
    destruct l as [|x l]; [reflexivity|]. exfalso. destruct (proj1 (I x) (or_introl eq_refl)) as [Hx G]. apply filter_In in Hx as [Hx E].
    apply ends_with_iff in E. exact (Hno x Hx E G).
  - intros HV. destruct (fnmatch_bad (filter (ends_with ".h5") names) HV) as [e ->]. cbn [bind]. eauto.
Qed.

(** ** glob *)
Lemma star_h5 x : glob "*.h5" x <-> ends ".h5" x.
Proof.
  rewrite <- (@glob_compile_spec "*.h5" [GStar; GChar "."; GChar "h"; GChar "5"] x eq_refl). unfold glob_match. rewrite gmatch_star. split.
  - intros (s1 & s2 & E & H).
    assert (X : s2 = ["."; "h"; "5"]%char).
    { destruct s2 as [|a [|b [|c [|d s2]]]]; cbn [gmatch tok_match] in H; rewrite ?andb_false_r in H; try discriminate.
      apply andb_true_iff in H as [A H]. apply andb_true_iff in H as [B H]. apply andb_true_iff in H as [C _].
      apply Ascii.eqb_eq in A, B, C. subst. reflexivity. }
    subst s2. exists (string_of_list_ascii s1). assert (Y := f_equal string_of_list_ascii E). unfold chars in Y. rewrite string_of_list_ascii_of_string in Y. rewrite Y.
    clear. induction s1 as [|c s IH]; [reflexivity|]. cbn. f_equal. exact IH.
  - intros (p & ->). exists (chars p), ["."; "h"; "5"]%char. split; [|reflexivity]. unfold chars. induction p as [|c p IH]; [reflexivity|]. cbn. f_equal. exact IH.
Qed.
Lemma char_in_app c a b : char_in c (a ++ b)%string = char_in c a || char_in c b.
Proof. induction a as [|x a IH]; [reflexivity|]. cbn [append char_in]. rewrite IH. apply orb_assoc. Qed.
Lemma has_magic_app a b : has_magic (a ++ b)%string = has_magic a || has_magic b.
Proof. unfold has_magic. rewrite !char_in_app. destruct (char_in "*" a), (char_in "*" b), (char_in "?" a), (char_in "?" b), (char_in "[" a), (char_in "[" b); reflexivity. Qed.
Lemma substring_app a b : substring (String.length a) (String.length b) (a ++ b)%string = b.
Proof. induction a as [|c a IH]; cbn [append String.length substring]; [|exact IH]. induction b as [|c b IH]; [reflexivity|]. cbn. now rewrite IH. Qed.
Lemma basename_spec a b : ~ has_char "/" b -> basename (a ++ String slash b) = b.
Proof.
  intros H. unfold basename. rewrite head_of_spec by exact H. replace (a ++ String slash b)%string with ((a ++ "/") ++ b)%string by (rewrite append_assoc_s; reflexivity).
  replace (String.length ((a ++ "/") ++ b) - String.length (a ++ "/"))%nat with (String.length b).
  - apply substring_app.
  - assert (X : forall u v, String.length (u ++ v)%string = (String.length u + String.length v)%nat) by (induction u as [|c u IH]; intros v; cbn; [reflexivity|now rewrite IH]).
    rewrite (X (a ++ "/")%string b). lia.
Qed.
Lemma slashes_end k : str_repeat "/" (S k) = (str_repeat "/" k ++ "/")%string.
Proof. induction k as [|k IH]; [reflexivity|]. cbn [str_repeat append] in *. f_equal. exact IH. Qed.
Lemma rstrip_slashes_repeat d k : rstrip_slashes (d ++ str_repeat "/" k) = rstrip_slashes d.
Proof.
  induction k as [|k IH]; [cbn; now rewrite app_nil_s|]. rewrite slashes_end, <- append_assoc_s, rstrip_slash_end. exact IH.
Qed.
Lemma plain_magic d : plain_dir d -> has_magic d = false.
Proof.
  intros (_ & _ & H). unfold has_magic. destruct (char_in "*" d) eqn:E1; [apply char_in_iff in E1; destruct (H "*"%char); cbn; auto|].
  destruct (char_in "?" d) eqn:E2; [apply char_in_iff in E2; destruct (H "?"%char); cbn; auto|].
  destruct (char_in "[" d) eqn:E3; [apply char_in_iff in E3; destruct (H "["%char); cbn; auto|]. reflexivity.
Qed.
Lemma pattern_of d k : plain_dir d -> path_join (d ++ str_repeat "/" k) "*.h5" = (d ++ str_repeat "/" (Nat.pred k) ++ String slash "*.h5")%string.
Proof.
  intros (N1 & N2 & _). unfold path_join. change (starts_with "/" "*.h5") with false. destruct k as [|k].
  - cbn [str_repeat Nat.pred]. rewrite !app_nil_s. destruct (String.eqb_spec d ""); [contradiction|]. cbn [orb].
    destruct (ends_with "/" d) eqn:E; [|reflexivity]. apply ends_slash in E as [q E]. destruct (N2 q E).
  - assert (E : ends_with "/" (d ++ str_repeat "/" (S k)) = true).
    { apply ends_slash. rewrite slashes_end. exists (d ++ str_repeat "/" k)%string. now rewrite append_assoc_s. }
    rewrite E, orb_true_r. rewrite slashes_end. cbn [Nat.pred]. rewrite !append_assoc_s. reflexivity.
Qed.
Lemma str_length_app u v : String.length (u ++ v)%string = (String.length u + String.length v)%nat.
Proof. induction u as [|c u IH]; cbn; [reflexivity|now rewrite IH]. Qed.
Theorem validated_ok fs d k names : plain_dir d -> ls_names fs d = Some names ->
  validated_files fs (d ++ str_repeat "/" k) = Ok (map (path_join d) (filter (fun x => negb (starts_with "." x) && ends_with ".h5" x) names)).
Proof.
  intros HP HN. unfold validated_files. rewrite (pattern_of k HP). set (pat := (d ++ str_repeat "/" (Nat.pred k) ++ String slash "*.h5")%string).
  assert (NS : ~ has_char "/" "*.h5") by (cbn; intuition discriminate).
  assert (HD : dirname pat = d).
  { unfold pat, dirname. rewrite <- append_assoc_s, head_of_spec by exact NS. rewrite rstrip_slash_end, rstrip_slashes_repeat.
    destruct HP as (N1 & N2 & _). rewrite (rstrip_id N2). destruct d; [contradiction|reflexivity]. }
  assert (HB : basename pat = "*.h5") by (unfold pat; rewrite <- append_assoc_s; apply basename_spec; exact NS).
  assert (HM : has_magic pat = true) by (unfold pat; rewrite !has_magic_app; apply orb_true_iff; right; apply orb_true_iff; right; reflexivity).
  cbn [glob_glob]. rewrite HD, HB, HM. cbn [negb]. rewrite (plain_magic HP), andb_false_r. cbn [bind mapM].
  change (has_magic "*.h5") with true. cbn [bind]. unfold glob1. rewrite HN. change (hidden "*.h5") with false. cbv iota.
  unfold fnmatch_filter. change (glob_compile "*.h5") with (Ok [GStar; GChar "."; GChar "h"; GChar "5"]). cbn [bind List.concat]. rewrite app_nil_r. do 2 f_equal.
  transitivity (filter (fun x => negb (hidden x) && glob_match [GStar; GChar "."; GChar "h"; GChar "5"] x) names).
  - clear. induction names as [|x l IH]; [reflexivity|]. cbn [filter]. destruct (negb (hidden x)); cbn [andb filter]; [|exact IH].
    destruct (glob_match _ x); [f_equal|]; exact IH.
  - apply filter_ext. intros x. unfold hidden. f_equal. apply eq_true_iff_eq. rewrite ends_with_iff, <- star_h5. apply (@glob_compile_spec "*.h5" [GStar; GChar "."; GChar "h"; GChar "5"] x eq_refl).
Qed.

Lemma starts_dot x : starts_with "." x = false <-> forall q, x <> ("." ++ q)%string.
Proof.
  destruct x as [|c x]; [split; [intros _ q; discriminate|reflexivity]|]. cbn [starts_with]. destruct (Ascii.eqb_spec "." c) as [<-|N].
  - split; [discriminate|]. intros H. destruct (H x). reflexivity.
  - split; [|reflexivity]. intros _ q E. injection E as E _. congruence.
Qed.
Theorem validated_files_are fs d k names : plain_dir d -> ls_names fs d = Some names ->
  exists files, validated_files fs (d ++ str_repeat "/" k) = Ok files /\ (forall p, In p files <-> dir_file fs d p) /\
    (NoDup names -> (forall x, In x names -> ~ has_char "/" x) -> NoDup files).
Proof.
  intros HP HN. eexists. split; [exact (validated_ok k HP HN)|]. split.
  - intros p. rewrite in_map_iff. split.
    + intros (x & <- & Hx). apply filter_In in Hx as [Hx B]. apply andb_true_iff in B as [B1 B2]. apply negb_true_iff in B1. exists names, x.
      split; [exact HN|]. split; [exact Hx|]. split; [now apply ends_with_iff|]. split; [now apply starts_dot|reflexivity].
    + intros (ns & x & E & Hx & H1 & H2 & ->). rewrite HN in E. injection E as <-. exists x. split; [reflexivity|]. apply filter_In. split; [exact Hx|].
      apply andb_true_iff. split; [apply negb_true_iff; now apply starts_dot|now apply ends_with_iff].
  - intros ND NS. destruct HP as (N1 & N2 & _).
    assert (PJ : forall x, ~ has_char "/" x -> path_join d x = (d ++ String "/" x)%string).
    { intros x Hx. unfold path_join. destruct (starts_with "/" x) eqn:E.
      - exfalso. apply Hx. destruct x as [|c x]; [discriminate|]. cbn [starts_with] in E. destruct (Ascii.eqb_spec "/" c) as [<-|]; [now left|discriminate].
      - destruct (String.eqb_spec d ""); [contradiction|]. cbn [orb]. destruct (ends_with "/" d) eqn:E2; [|reflexivity]. apply ends_slash in E2 as [q E2]. destruct (N2 q E2). }
    assert (NF := NoDup_filter (fun x => negb (starts_with "." x) && ends_with ".h5" x) ND).
    assert (SF : forall x, In x (filter (fun x => negb (starts_with "." x) && ends_with ".h5" x) names) -> ~ has_char "/" x) by (intros x Hx; apply filter_In in Hx as [Hx _]; now apply NS).
    revert NF SF. generalize (filter (fun x => negb (starts_with "." x) && ends_with ".h5" x) names). clear - PJ. induction l as [|x l IH]; intros NF SF; [constructor|].
    inversion NF as [|? ? Nx Nl]; subst. cbn [map]. constructor.
    + intros H. apply in_map_iff in H as (y & E & Hy). rewrite !PJ in E by (apply SF; cbn; auto).
      assert (y = x); [|congruence]. apply (app_slash_inj (a:=d) (a':=d)); [apply SF; now right|apply SF; now left|exact E].
    + apply IH; [exact Nl|]. intros y Hy. apply SF. now right.
Qed.

(** ** The command *)
Lemma outcome_ok ps : let '(lines, status) := outcome ps in
  (status = 0%Z <-> ps = []) /\ (status = 0%Z \/ status = 1%Z) /\ (In LNoProblems lines <-> ps = []) /\ (In LFailed lines <-> ps <> []) /\
  forall rp, In (LProblem rp) lines <-> In rp ps.
Proof.
  destruct ps as [|p ps]; cbn [outcome].
  - split; [tauto|]. split; [auto|]. split; [cbn; tauto|]. split; [cbn; split; [intros [H|[]]; discriminate|congruence]|]. intros rp. cbn. split; [intros [H|[]]; discriminate|tauto].
  - split; [split; discriminate|]. split; [auto|]. split; [|split].
    + split; [|discriminate]. intros [H|H]; [discriminate|]. apply in_map_iff in H as (x & H & _). discriminate.
    + split; [discriminate|]. intros _. now left.
    + intros rp. split.
      * intros [H|H]; [discriminate|]. apply in_map_iff in H as (x & H & Hx). injection H as <-. exact Hx.
      * intros H. right. apply in_map_iff. eauto.
Qed.
Section C.
Context {V : Type}.
Variables (fs : listing) (open : string -> res (faccess V)) (cache : string -> string -> map_entry).
Theorem command_dir d k names files c : plain_dir d -> ls_names fs d = Some names -> ls_names fs (d ++ str_repeat "/" k) = Some names ->
  validated_files fs (d ++ str_repeat "/" k) = Ok files -> mk_collection (usable (map open files)) None None = Ok c ->
  (forall p f, dir_file fs d p -> open p = Ok f -> checkable f /\ cache (d ++ str_repeat "/" k)%string (h5_name (fa_file f)) <> None) ->
  exists lines status, validate_command fs open cache (d ++ str_repeat "/" k) = Ok (lines, status) /\
    (status = 0%Z \/ status = 1%Z) /\
    (status = 0%Z <-> forall rp, ~ dir_wrong fs open (cache (d ++ str_repeat "/" k)%string) d rp) /\
    (In LNoProblems lines <-> status = 0%Z) /\ (In LFailed lines <-> status = 1%Z) /\
    (forall rp, In (LProblem rp) lines <-> dir_wrong fs open (cache (d ++ str_repeat "/" k)%string) d rp).
Proof.
  intros HP HN HN' HF HC HK. set (path := (d ++ str_repeat "/" k)%string) in *. destruct (validated_files_are k HP HN) as (fl & E & I & _). fold path in E. rewrite HF in E. injection E as <-.
  assert (IP : forall p r, In (p, r) (map (fun p => (p, open p)) files) <-> dir_file fs d p /\ open p = r).
  { intros p r. rewrite in_map_iff, <- I. split; [intros (x & E & Hx); injection E as -> <-; auto|]. intros (Hp & <-). exists p. auto. }
  destruct (@run_reports V (map (fun p => (p, open p)) files) (cache path) c) as (ps & Eps & R).
  { rewrite map_map. exact HC. }
  { intros p f H. apply IP in H as [H1 H2]. exact (HK p f H1 H2). }
  assert (R' : forall rp, In rp ps <-> dir_wrong fs open (cache path) d rp).
  { intros rp. rewrite R. destruct rp as [p e| |q|nm]; cbn [dir_wrong].
    - apply IP.
    - split; intros H p f; [intros H1 H2; apply (H p f); now apply IP|]. intros H1. apply IP in H1 as [H1 H2]. exact (H p f H1 H2).
    - split; intros (p & f & H & X); exists p, f; [apply IP in H as [H1 H2]; auto|]. destruct X as (H2 & X). split; [apply IP; auto|exact X].
    - split; intros (p & f & H & X); exists p, f; [apply IP in H as [H1 H2]; auto|]. destruct X as (H2 & X). split; [apply IP; auto|exact X]. }
  unfold validate_command, ls_isdir. rewrite HN', HF. cbn [bind]. rewrite Eps. cbn [bind]. assert (O := outcome_ok ps). destruct (outcome ps) as [lines status]. cbn [fst snd].
  destruct O as (O1 & O2 & O3 & O4 & O5). do 2 eexists. split; [reflexivity|]. split; [exact O2|]. split; [|split; [|split]].
  - rewrite O1. split; [intros -> rp H; apply R' in H; destruct H|]. intros H. destruct ps as [|p ps]; [reflexivity|]. destruct (H p). apply R'. now left.
  - rewrite O1, <- O3. cbn. split; [intros [H|H]; [discriminate|exact H]|auto].
  - transitivity (In LFailed lines); [cbn; split; [intros [H|H]; [discriminate|exact H]|auto]|]. rewrite O4. split.
    + intros H. destruct O2 as [O2|O2]; [apply O1 in O2; contradiction|exact O2].
    + intros H X. apply O1 in X. lia.
  - intros rp. rewrite <- R', <- O5. cbn. split; [intros [H|H]; [discriminate|exact H]|auto].
Qed.
Theorem command_file path fa c : ls_names fs path = None -> open path = Ok fa -> mk_collection [fa] None None = Ok c -> checkable fa ->
  exists lines status, validate_command fs open cache path = Ok (lines, status) /\
    (status = 0%Z \/ status = 1%Z) /\
    (status = 0%Z <-> forall pk, ~ is_wrong fa pk) /\
    (In LNoProblems lines <-> status = 0%Z) /\ (In LFailed lines <-> status = 1%Z) /\
    (forall rp, In (LProblem rp) lines <-> exists pk, rp = RFileProblem (mk_problem (h5_name (fa_file fa)) pk) /\ is_wrong fa pk).
Proof.
  intros HN HO HC HK. destruct (reports_right HK) as (ps & Eps & R).
  assert (R' : forall rp, In rp (map RFileProblem ps) <-> exists pk, rp = RFileProblem (mk_problem (h5_name (fa_file fa)) pk) /\ is_wrong fa pk).
  { intros rp. rewrite in_map_iff. split.
    - intros ([n pk] & <- & H). apply R in H as [H1 H2]. cbn in H1, H2. subst n. eauto.
    - intros (pk & -> & H). eexists. split; [reflexivity|]. apply R. auto. }
  unfold validate_command, ls_isdir. rewrite HN, HO. cbn [bind]. rewrite HC. cbn [bind]. rewrite Eps. cbn [bind]. assert (O := outcome_ok (map RFileProblem ps)).
  destruct (outcome (map RFileProblem ps)) as [lines status]. cbn [fst snd].
  destruct O as (O1 & O2 & O3 & O4 & O5). do 2 eexists. split; [reflexivity|]. split; [exact O2|]. split; [|split; [|split]].
  - rewrite O1. split; [intros E pk H|].
    + assert (X : In (RFileProblem (mk_problem (h5_name (fa_file fa)) pk)) (map RFileProblem ps)) by (apply R'; eauto). rewrite E in X. destruct X.
    + intros H. destruct (map RFileProblem ps) as [|rp l]; [reflexivity|]. destruct (proj1 (R' rp) (or_introl eq_refl)) as (pk & _ & X). destruct (H pk X).
  - rewrite O1, <- O3. cbn. split; [intros [H|H]; [discriminate|exact H]|auto].
  - transitivity (In LFailed lines); [cbn; split; [intros [H|H]; [discriminate|exact H]|auto]|]. rewrite O4. split.
    + intros H. destruct O2 as [O2|O2]; [apply O1 in O2; contradiction|exact O2].
    + intros H X. apply O1 in X. lia.
  - intros rp. rewrite <- R', <- O5. cbn. split; [intros [H|H]; [discriminate|exact H]|auto].
Qed.
End C.

(** ** Checkable files by computation *)
From Verif Require Import S_Reader S_Validation L_Check L_Validation L_Validation2.
Section K.
Context {V : Type}.
Local Open Scope Z_scope.
Definition smallb (g : ix_group) : bool :=
  forallb (fun a => (0 <=? a) && (a <? 2 ^ 52)) (ix_first g) &&
  match ix_more g with
  | IxCount c => forallb (fun a => (0 <=? a) && (a <? 2 ^ 52)) c
  | IxLastStatus l s => forallb (fun p => match entry_count g p with Some c => (0 <=? c) && (c <? 2 ^ 52) | None => true end) (seq 0 (List.length l))
  end.
Definition evenb (n : nat) (g : ix_group) : bool :=
  match ix_more g with
  | IxCount c => Nat.eqb (Nat.min n (List.length c)) (Nat.min n (List.length (ix_first g)))
  | IxLastStatus l st => Nat.eqb (Nat.min n (List.length l)) (Nat.min n (List.length (ix_first g))) && Nat.eqb (Nat.min n (List.length st)) (Nat.min n (List.length (ix_first g)))
  end.
Definition checkableb (fa : faccess V) : bool :=
  let n := List.length (fa_tids fa) in
  match h5_trainid (fa_file fa) with Some _ => true | None => false end &&
  forallb (fun s => match fa_get_keys fa s with
     | Ok ks => forallb (fun k => match dict_get (index_key false s k) (h5_index (fa_file fa)), dict_get (data_key false s k) (h5_data (fa_file fa)) with
         | Some g, Some _ => (0 <? n)%nat && negb (Nat.eqb (List.length (ix_first g)) 0) && evenb n g && smallb g && typedb g
         | _, _ => false
         end) ks
     | Err _ => false
     end) (fa_inst fa).
Lemma smallb_ok g : smallb g = true -> small_index g.
Proof.
  intros H. apply andb_true_iff in H as [H1 H2]. rewrite forallb_forall in H1.
  assert (R : forall a, (0 <=? a) && (a <? 2 ^ 52) = true -> 0 <= a < 2 ^ 52) by (intros a H; apply andb_true_iff in H as [A B]; apply Z.leb_le in A; apply Z.ltb_lt in B; lia).
  split.
  - intros p a Ha. apply R, H1. now apply nth_error_In in Ha.
  - intros p c Hc. apply R. unfold entry_count in *. destruct (ix_more g) as [cs|l s]; rewrite forallb_forall in H2.
    + apply H2. now apply nth_error_In in Hc.
    + destruct (nth_error l p) as [x|] eqn:E; [|discriminate]. specialize (H2 p). rewrite in_seq in H2. pose proof (nth_error_Some_lt _ _ E). specialize (H2 ltac:(lia)). rewrite E, Hc in H2. exact H2.
Qed.
Lemma checkableb_ok fa : checkableb fa = true -> checkable fa.
Proof.
  intros H. apply andb_true_iff in H as [H1 H2]. split; [destruct (h5_trainid (fa_file fa)); [eauto|discriminate]|]. rewrite forallb_forall in H2.
  intros s Hs. specialize (H2 s Hs). destruct (fa_get_keys fa s) as [ks|] eqn:E; [|discriminate]. exists ks. split; [reflexivity|]. intros k Hk.
  rewrite forallb_forall in H2. specialize (H2 k Hk). destruct (dict_get (index_key false s k) (h5_index (fa_file fa))) as [g|] eqn:Eg; [|discriminate].
  destruct (dict_get (data_key false s k) (h5_data (fa_file fa))) as [ds|] eqn:Ed; [|discriminate].
  apply andb_true_iff in H2 as [H2 A5]. apply andb_true_iff in H2 as [H2 A4]. apply andb_true_iff in H2 as [H2 A3]. apply andb_true_iff in H2 as [A1 A2].
  exists g, ds. split; [split; [exact Hs|]; split; [exists ks; auto|]; split; assumption|]. split; [now apply Nat.ltb_lt in A1|].
  split; [intros X; rewrite X in A2; discriminate|]. split; [|split; [now apply smallb_ok|now apply typedb_ok]].
  unfold evenb in A3. unfold even_index. destruct (ix_more g); [now apply Nat.eqb_eq|]. apply andb_true_iff in A3 as [A3 A6]. split; now apply Nat.eqb_eq.
Qed.
End K.
