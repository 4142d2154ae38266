(** Proofs about lsxfel, continued: files, proposals and exit codes. *)
From Verif Require Import Base PyStr M_Files M_Reader M_FilesMap M_Stacking M_Info M_OpenRun M_Lsxfel S_Glob S_Open S_Stacking S_Info S_Lsxfel
  L_Base L_Stacking L_Open L_OpenRun L_FilesMap2 L_Glob L_Info L_Array2 L_Lsxfel L_Lsxfel2.
Set Implicit Arguments.
Unset Strict Implicit.
Local Open Scope string_scope.
Local Open Scope list_scope.

Lemma wbind_ok : forall A B (m : W A) (f : A -> W B) o b, wbind m f = (o, Ok b) -> exists o1 a o2, m = (o1, Ok a) /\ f a = (o2, Ok b) /\ o = o1 ++ o2.
Proof.
  intros A B [o1 [a|e]] f o b H; cbn in H; [|discriminate]. destruct (f a) as [o2 r] eqn:E. injection H as <- ->. exists o1, a, o2. now split.
Qed.

Lemma each_ok : forall A (f : A -> W unit) l o, each f l = (o, Ok tt) -> exists os, Forall2 (fun x o => f x = (o, Ok tt)) l os /\ o = List.concat os.
Proof.
  intros A f. induction l as [|x l IH]; intros o H; cbn [each] in H.
  - injection H as <-. exists []. now split.
  - apply wbind_ok in H as (o1 & [] & o2 & H1 & H2 & ->). destruct (IH _ H2) as (os & F & ->). exists (o1 :: os). now split; [constructor|].
Qed.

Lemma run_dir_name_iff : forall f, run_dir_name f = true <-> run_like f.
Proof.
  intros f. unfold run_dir_name, run_like. split.
  - destruct (strip_prefix "r" f) as [r|] eqn:E; [|discriminate]. apply strip_prefix_spec in E. subst f. destruct (take_digits r) as [d t] eqn:E.
    apply take_digits_spec in E as (-> & H1 & _). destruct d as [|c d]; [discriminate|]. intros _. exists (String c d), t. repeat split; [discriminate|apply H1|apply H1].
  - intros (num & rest & -> & N & D). replace (strip_prefix "r" ("r" ++ num ++ rest)%string) with (Some (num ++ rest)%string) by (symmetry; now apply strip_prefix_spec).
    destruct num as [|c num]; [congruence|]. destruct D as [D _]. cbn [append take_digits]. rewrite D. destruct (take_digits (num ++ rest)). reflexivity.
Qed.

Lemma existsb_h5 : forall l, existsb (ends_with ".h5") l = true <-> exists f, In f l /\ h5_name_like f.
Proof. intros l. rewrite existsb_exists. split; intros (f & I & H); exists f; (split; [exact I|]); apply ends_with_iff; exact H. Qed.
Lemma existsb_run : forall l, existsb run_dir_name l = true <-> exists f, In f l /\ run_like f.
Proof. intros l. rewrite existsb_exists. split; intros (f & I & H); exists f; (split; [exact I|]); apply run_dir_name_iff; exact H. Qed.
Lemma false_iff : forall b (P : Prop), (b = true <-> P) -> b = false -> ~ P.
Proof. intros b P H E X. apply H in X. congruence. Qed.

Section Ls.
Context {V : Type}.
Variable pop : list Z -> Z.
Variable pick_one : list string -> string.
Variable E : env (V := V).

Lemma summarise_runs_ok : forall dir contents o, summarise_runs E dir contents = (o, Ok tt) ->
  exists lines, Forall2 (fun f l => summarise_run E (path_join dir f) "  " = (l, Ok tt)) (filter (fun f => run_dir_name f && e_isdir E (path_join dir f)) contents) lines /\ o = List.concat lines.
Proof.
  intros dir. unfold summarise_runs. induction contents as [|f l IH]; intros o H; cbn [each] in H.
  - injection H as <-. exists []. split; [constructor|reflexivity].
  - apply wbind_ok in H as (o1 & [] & o2 & H1 & H2 & ->). destruct (IH _ H2) as (ls & F & ->). cbn [filter].
    cbv beta in H1. revert H1. destruct (run_dir_name f && e_isdir E (path_join dir f)); intros H1.
    + exists (o1 :: ls). split; [constructor; assumption|reflexivity].
    + injection H1 as <-. exists ls. split; [exact F|reflexivity].
Qed.

Lemma sorted_filter : forall b (l : list string), StronglySorted name_le l -> StronglySorted name_le (filter b l).
Proof.
  intros b l H. induction H as [|a l H IH F]; cbn; [constructor|]. destruct (b a); [|exact IH]. constructor; [exact IH|].
  rewrite Forall_forall in *. intros x X. apply filter_In in X as [X _]. exact (F _ X).
Qed.

Lemma runs_members : forall dir l f, In f (filter (fun f => run_dir_name f && e_isdir E (path_join dir f)) l) <-> In f l /\ run_like f /\ e_isdir E (path_join dir f) = true.
Proof. intros dir l f. rewrite filter_In, andb_true_iff, run_dir_name_iff. reflexivity. Qed.

Lemma summarise_runs_listed : forall dir o, summarise_runs E dir (e_list E dir) = (o, Ok tt) -> runs_listed E dir o.
Proof. intros dir o H. destruct (summarise_runs_ok H) as (ls & F & ->). eexists _, ls. split; [intros f; apply runs_members|]. now split. Qed.

Lemma summarise_runs_order : forall dir o, summarise_runs E dir (str_sort (e_list E dir)) = (o, Ok tt) -> runs_listed_in_order E dir o.
Proof.
  intros dir o H. destruct (summarise_runs_ok H) as (ls & F & ->). eexists _, ls. split; [apply sorted_filter, str_sort_sorted|]. split; [|split; [exact F|reflexivity]].
  intros f. rewrite runs_members, in_str_sort. reflexivity.
Qed.

Lemma one_of_many_ok : forall p o bad, one_of_many pop pick_one E p = (o, Ok bad) -> printed_for pop pick_one E p o /\ (bad = true <-> ~ recognised E p).
Proof.
  intros p o bad H. unfold one_of_many in H. unfold printed_for, recognised.
  destruct (e_isdir E p) eqn:Ed.
  - destruct (existsb (ends_with ".h5") (e_list E p)) eqn:E1.
    + apply wbind_ok in H as (o1 & [] & o2 & H1 & H2 & ->). injection H2 as <- <-. apply existsb_h5 in E1. rewrite app_nil_r. split.
      * exists (basename p). split; [apply basename_spec|]. left. auto.
      * split; [discriminate|]. intros N. destruct N. left. destruct E1 as (f & I & X). split; [reflexivity|]. eauto.
    + apply (false_iff (existsb_h5 _)) in E1. destruct (existsb run_dir_name (e_list E p)) eqn:E2.
      * apply existsb_run in E2. apply wbind_ok in H as (o1 & [] & o2 & H1 & H2 & ->). injection H1 as <-. apply wbind_ok in H2 as (o3 & [] & o4 & H3 & H4 & ->).
        injection H4 as <- <-. rewrite app_nil_r. split.
        -- exists (basename p). split; [apply basename_spec|]. right. left. repeat (split; [assumption || reflexivity|]). exists o3. split; [reflexivity|]. now apply summarise_runs_listed.
        -- split; [discriminate|]. intros N. destruct N. left. destruct E2 as (f & I & X). split; [reflexivity|]. eauto.
      * apply (false_iff (existsb_run _)) in E2. apply wbind_ok in H as (o1 & [] & o2 & H1 & H2 & ->). injection H1 as <-. injection H2 as <- <-. split.
        -- exists (basename p). split; [apply basename_spec|]. right. right. left. auto.
        -- split; [|reflexivity]. intros _ [(_ & f & I & [X|X])|(X & _)]; [apply E1; eauto|apply E2; eauto|discriminate].
  - destruct (e_isfile E p) eqn:Ef.
    + destruct (ends_with ".h5" p) eqn:E1.
      * apply ends_with_iff in E1. apply wbind_ok in H as (o1 & [] & o2 & H1 & H2 & ->). injection H2 as <- <-. rewrite app_nil_r. split.
        -- exists (basename p). split; [apply basename_spec|]. right. right. right. left. auto.
        -- split; [discriminate|]. intros N. destruct N. right. auto.
      * apply (false_iff (ends_with_iff _ _)) in E1. apply wbind_ok in H as (o1 & [] & o2 & H1 & H2 & ->). injection H1 as <-. injection H2 as <- <-. split.
        -- exists (basename p). split; [apply basename_spec|]. do 4 right. left. auto.
        -- split; [|reflexivity]. intros _ [(X & _)|(_ & _ & X)]; [discriminate|exact (E1 X)].
    + apply wbind_ok in H as (o1 & [] & o2 & H1 & H2 & ->). injection H1 as <-. injection H2 as <- <-. split.
      * exists (basename p). split; [apply basename_spec|]. do 5 right. auto.
      * split; [|reflexivity]. intros _ [(X & _)|(_ & X & _)]; discriminate.
Qed.

Lemma main_many_ok : forall paths code o c, main_many pop pick_one E code paths = (o, Ok c) ->
  (exists outs, Forall2 (printed_for pop pick_one E) paths outs /\ o = List.concat outs) /\
  ((c = 2%Z /\ exists p, In p paths /\ ~ recognised E p) \/ (c = code /\ forall p, In p paths -> ~ ~ recognised E p)).
Proof.
  induction paths as [|p r IH]; intros code o c H; cbn [main_many] in H.
  - injection H as <- <-. split; [exists []; now split|]. right. split; [reflexivity|contradiction].
  - apply wbind_ok in H as (o1 & bad & o2 & H1 & H2 & ->). apply one_of_many_ok in H1 as [P1 P2]. destruct (IH _ _ _ H2) as [(outs & F & ->) C]. split.
    + exists (o1 :: outs). now split; [constructor|].
    + destruct C as [(-> & q & I & N)|(-> & A)].
      * left. split; [reflexivity|]. exists q. split; [now right|exact N].
      * destruct bad.
        -- left. split; [reflexivity|]. exists p. split; [now left|]. now apply P2.
        -- right. split; [reflexivity|]. intros q [<-|I]; [|exact (A _ I)]. intros X. apply P2 in X. discriminate.
Qed.

Lemma recognised_dec : forall p, ~ ~ recognised E p -> recognised E p.
Proof.
  intros p N. unfold recognised in *. destruct (e_isdir E p) eqn:Ed.
  - left. split; [reflexivity|]. destruct (existsb (fun f => ends_with ".h5" f || run_dir_name f) (e_list E p)) eqn:X.
    + apply existsb_exists in X as (f & I & X). exists f. split; [exact I|]. apply orb_true_iff in X as [X|X]; [left; now apply ends_with_iff|right; now apply run_dir_name_iff].
    + exfalso. apply N. intros [(_ & f & I & Y)|(Y & _)]; [|discriminate].
      assert (Z : existsb (fun f => ends_with ".h5" f || run_dir_name f) (e_list E p) = true); [|congruence]. apply existsb_exists. exists f. split; [exact I|].
      apply orb_true_iff. destruct Y as [Y|Y]; [left; now apply ends_with_iff|right; now apply run_dir_name_iff].
  - right. split; [reflexivity|]. destruct (e_isfile E p); [|exfalso; apply N; intros [(Y & _)|(_ & Y & _)]; discriminate]. split; [reflexivity|].
    destruct (ends_with ".h5" p) eqn:X; [now apply ends_with_iff|]. exfalso. apply N. intros [(Y & _)|(_ & _ & Y)]; [discriminate|]. apply ends_with_iff in Y. congruence.
Qed.

Lemma main_many_spec : forall cwd p q r o c, main pop pick_one E cwd (p :: q :: r) = (o, Ok c) ->
  (exists outs, Forall2 (printed_for pop pick_one E) (p :: q :: r) outs /\ o = List.concat outs) /\
  (c = 0 \/ c = 2)%Z /\ (c = 0%Z <-> forall x, In x (p :: q :: r) -> recognised E x).
Proof.
  intros cwd p q r o c H. cbn [main] in H. destruct (main_many_ok H) as [P C]. split; [exact P|]. destruct C as [(-> & x & I & N)|(-> & A)].
  - split; [now right|]. split; [discriminate|]. intros X. destruct (N (X _ I)).
  - split; [now left|]. split; [|reflexivity]. intros _ x I. exact (recognised_dec (A _ I)).
Qed.

(** ** A single path *)
Lemma main_one_ok : forall p o c, main_one pop pick_one E p = (o, Ok c) -> printed_alone pop pick_one E p o c.
Proof.
  intros p o c H. unfold main_one in H. unfold printed_alone. cbn zeta in H |- *. set (b := basename (e_abspath E (rstrip_slash p))) in *.
  exists b. split; [apply basename_spec|]. destruct (e_isdir E p) eqn:Ed.
  - destruct (existsb (ends_with ".h5") (str_sort (e_list E p))) eqn:E1.
    + apply wbind_ok in H as (o1 & [] & o2 & H1 & H2 & ->). injection H2 as <- <-. apply existsb_h5 in E1 as (f & I & X). apply (proj1 (in_str_sort _ _)) in I. left. repeat (split; [assumption || reflexivity || eauto|]).
      unfold describe_run in H1. apply wbind_ok in H1 as (o3 & [] & o4 & H3 & H4 & ->). injection H3 as <-. apply wbind_ok in H4 as (o5 & d & o6 & H5 & H6 & ->).
      apply wbind_ok in H6 as (o7 & i & o8 & H7 & H8 & ->). injection H5 as <- H5. injection H7 as <- H7. injection H8 as <-. exists (basename p), d, i. split; [apply basename_spec|]. auto.
    + apply (false_iff (existsb_h5 _)) in E1. assert (N1 : ~ exists f, In f (e_list E p) /\ h5_name_like f) by (intros (f & I & X); apply E1; exists f; split; [now apply in_str_sort|exact X]).
      destruct (existsb run_dir_name (str_sort (e_list E p))) eqn:E2.
      * apply existsb_run in E2 as (f & I & X). apply (proj1 (in_str_sort _ _)) in I. apply wbind_ok in H as (o1 & [] & o2 & H1 & H2 & ->). injection H1 as <-. apply wbind_ok in H2 as (o3 & [] & o4 & H3 & H4 & ->).
        injection H4 as <- <-. rewrite app_nil_r. right. left. repeat (split; [assumption || reflexivity || eauto|]). exists o3. split; [reflexivity|]. now apply summarise_runs_order.
      * apply (false_iff (existsb_run _)) in E2. assert (N2 : ~ exists f, In f (e_list E p) /\ run_like f) by (intros (f & I & X); apply E2; exists f; split; [now apply in_str_sort|exact X]).
        destruct (e_isdir E (path_join p "raw")) eqn:Er.
        -- apply wbind_ok in H as (o1 & [] & o2 & H1 & H2 & ->). injection H1 as <-. apply wbind_ok in H2 as (o3 & [] & o4 & H3 & H4 & ->). injection H3 as <-.
           apply wbind_ok in H4 as (o5 & [] & o6 & H5 & H6 & ->). injection H6 as <- <-. rewrite app_nil_r. do 2 right. left. repeat (split; [assumption || reflexivity|]).
           exists o5. split; [reflexivity|]. now apply summarise_runs_order.
        -- apply wbind_ok in H as (o1 & [] & o2 & H1 & H2 & ->). injection H1 as <-. injection H2 as <- <-. do 3 right. left. auto 10.
  - destruct (e_isfile E p) eqn:Ef.
    + destruct (ends_with ".h5" p) eqn:E1.
      * apply ends_with_iff in E1. apply wbind_ok in H as (o1 & [] & o2 & H1 & H2 & ->). injection H2 as <- <-. rewrite app_nil_r. do 4 right. left. auto.
      * apply (false_iff (ends_with_iff _ _)) in E1. apply wbind_ok in H as (o1 & [] & o2 & H1 & H2 & ->). injection H1 as <-. injection H2 as <- <-. do 5 right. left. auto.
    + apply wbind_ok in H as (o1 & [] & o2 & H1 & H2 & ->). injection H1 as <-. injection H2 as <- <-. do 6 right. auto.
Qed.

(** ** Files *)
Lemma describe_file_ok : forall path o, describe_file pop pick_one E path = (o, Ok tt) ->
  exists b k r s g i d, file_name path b /\ four_parts b k r s g /\ info_of b k s i /\ e_h5 E path = Ok d /\
    ((detector_file b /\ exists src di x y, src = pick_one (detector_sources d) /\ detector_sources d <> [] /\ detector_info pop d src = Ok di /\ di_dims di = [x; y] /\
       o = [LName b (fn_descr i); LTrains (List.length (dc_tids d)); LPixels x y; LFrames (di_frames di) (di_total di)]) \/
     (~ detector_file b /\ o = [LName b (fn_descr i); LTrains (List.length (dc_tids d)); LInst (str_sort (dc_inst d)); LCtrl (str_sort (dc_ctrl d))])).
Proof.
  intros path o H. unfold describe_file in H. apply wbind_ok in H as (o1 & i & o2 & H1 & H & ->). injection H1 as <- H1.
  apply wbind_ok in H as (o3 & [] & o4 & H3 & H & ->). injection H3 as <-. apply wbind_ok in H as (o5 & d & o6 & H5 & H & ->). injection H5 as <- H5.
  apply wbind_ok in H as (o7 & [] & o8 & H7 & H & ->). injection H7 as <-.
  pose proof (basename_spec path) as B. assert (Hb : basename (basename path) = basename path) by (apply basename_id; apply B).
  pose proof (detector_iff H1) as D. destruct (filename_ok H1) as (k & r & s & g & F & I). rewrite Hb in *.
  exists (basename path), k, r, s, g, i, d. repeat (split; [assumption|]). destruct (fn_detector i).
  - left. split; [now apply D|]. apply wbind_ok in H as (o9 & src & o10 & H9 & H & ->). injection H9 as <- H9. apply wbind_ok in H as (o11 & di & o12 & H11 & H & ->). injection H11 as <- H11.
    unfold first_detector in H9. destruct (detector_sources d) as [|z zs] eqn:Ez; [discriminate|]. apply Ok_inj in H9. exists src, di.
    destruct (di_dims di) as [|x [|y [|w l]]] eqn:Edim; try discriminate. exists x, y.
    apply wbind_ok in H as (o13 & [] & o14 & H13 & H & ->). injection H13 as <-. injection H as <-. repeat (split; [congruence || discriminate || assumption|]). reflexivity.
  - right. split; [intros X; apply D in X; discriminate|]. apply wbind_ok in H as (o9 & [] & o10 & H9 & H & ->). injection H9 as <-. injection H as <-. reflexivity.
Qed.

Lemma summarise_file_ok : forall path o, summarise_file pop pick_one E path = (o, Ok tt) ->
  exists b k r s g i d, file_name path b /\ four_parts b k r s g /\ info_of b k s i /\ e_h5 E path = Ok d /\
    detector_file b /\ exists src di, src = pick_one (detector_sources d) /\ detector_sources d <> [] /\ detector_info pop d src = Ok di /\
       o = [LName b (fn_descr i); LSumDet (List.length (dc_tids d)) (di_frames di) (di_total di)].
Proof.
  intros path o H. unfold summarise_file in H. apply wbind_ok in H as (o1 & i & o2 & H1 & H & ->). injection H1 as <- H1.
  apply wbind_ok in H as (o3 & [] & o4 & H3 & H & ->). injection H3 as <-. apply wbind_ok in H as (o5 & d & o6 & H5 & H & ->). injection H5 as <- H5.
  pose proof (basename_spec path) as B. assert (Hb : basename (basename path) = basename path) by (apply basename_id; apply B).
  pose proof (detector_iff H1) as D. destruct (filename_ok H1) as (k & r & s & g & F & I). rewrite Hb in *.
  exists (basename path), k, r, s, g, i, d. repeat (split; [assumption|]). destruct (fn_detector i); [|discriminate].
  split; [now apply D|]. apply wbind_ok in H as (o9 & src & o10 & H9 & H & ->). injection H9 as <- H9. apply wbind_ok in H as (o11 & di & o12 & H11 & H & ->). injection H11 as <- H11.
  unfold first_detector in H9. destruct (detector_sources d) as [|z zs] eqn:Ez; [discriminate|]. apply Ok_inj in H9. exists src, di. injection H as <-.
  repeat (split; [congruence || discriminate || assumption|]). reflexivity.
Qed.

Lemma summarise_file_other : forall path b d, file_name path b -> (exists k r s g, four_parts b k r s g) -> ~ detector_file b -> e_h5 E path = Ok d ->
  snd (summarise_file pop pick_one E path) = Err EAttributeError.
Proof.
  intros path b d B (k & r & s & g & F) N H. assert (b = basename path) by (apply (file_name_fun B), basename_spec). subst b.
  assert (Hb : basename (basename path) = basename path) by (apply basename_id; apply B).
  rewrite <- Hb in F. destruct (filename_total F) as [i Hi]. unfold summarise_file. rewrite Hi. cbn [wbind lift emit]. rewrite H. cbn [wbind lift].
  pose proof (detector_iff Hi) as D. rewrite Hb in D. destruct (fn_detector i) eqn:X; [destruct (N (proj1 D eq_refl))|]. reflexivity.
Qed.

(** ** All trains *)
Lemma same_trains : forall path indent o, NoDup (e_list E path) -> Forall (fun f => ~ has_char "/" f) (e_list E path) ->
  summarise_run E path indent = (o, Ok tt) ->
  (forall g g' f f' t, in_sequence E path g f -> train_in E path f t -> in_sequence E path g' f' -> exists f'', in_sequence E path g' f'' /\ train_in E path f'' t) ->
  exists b n d k, o = [LRun indent b n d k] /\ how_many (fun t => exists f, In f (e_list E path) /\ data_file f /\ train_in E path f t) n.
Proof.
  clear pop pick_one.
  intros path indent o N F H Same. destruct (summarise_run_ok N F H) as (n & d & k & b & -> & _ & (g & m & (l & Nl & Il & Hm) & Pm & _ & (ts & Nt & It & Hn)) & _).
  exists b, n, d, k. split; [reflexivity|]. exists ts. split; [exact Nt|]. split; [|exact Hn]. intros t. rewrite It. split.
  - intros (f & [I S] & T). exists f. split; [exact I|]. split; [exists g; exact S|exact T].
  - intros (f & I & [g' S] & T). destruct l as [|f0 l]; [cbn in Hm; lia|]. apply (Same g' g f f0 t); [now split|exact T|]. apply Il. now left.
Qed.
End Ls.
