(** C90: the listing hdf5_paths prints; C91: the image hdf5_to_cbf converts. *)
From Verif Require Import Base PyStr M_Files M_Nd M_Roi M_Utils S_Utils L_Base L_Utils.
Local Open Scope string_scope.
Local Open Scope list_scope.

(** The lines printed are the names of the objects which can be reached through the first [m] members of each group, each
    indented by four more spaces than the group it is in. *)
Theorem C90_lines : forall (m i : nat) ms, (forall p, ~ at_first m (HGroup ms) p HBroken) ->
  exists lines, hdf5_paths (Z.of_nat m) i (HGroup ms) = (lines, None) /\
    forall x, In x lines <-> exists p n c, at_first m (HGroup ms) (p ++ [n]) c /\ x = (spaces (i + 4 * List.length p) ++ n)%string.
Proof. intros m i ms H. apply paths_ok; eauto. Qed.
Print Assumptions C90_lines.

(** It fails exactly if a broken link is among them, and then with KeyError. *)
Theorem C90_broken : forall (m i : nat) ms,
  ((exists p, at_first m (HGroup ms) p HBroken) <-> snd (hdf5_paths (Z.of_nat m) i (HGroup ms)) <> None) /\
  forall e, snd (hdf5_paths (Z.of_nat m) i (HGroup ms)) = Some e -> e = EKeyError.
Proof.
  intros m i ms. split; [|intros e; apply paths_keyerror; eauto]. split.
  - intros (p & H). destruct (@paths_error m (HGroup ms) i p) as (o & E); [eauto|exact H|]. rewrite E. discriminate.
  - intros E.
    assert (D : (exists p, at_first m (HGroup ms) p HBroken) \/ (forall p, ~ at_first m (HGroup ms) p HBroken)).
    { clear. generalize (HGroup ms). intros t. clear ms. induction t as [ms IH| |] using h5tree_ind2.
      - assert (K : forall l, incl l ms -> (exists n c p, In (n, c) l /\ at_first m c p HBroken) \/ (forall n c p, In (n, c) l -> ~ at_first m c p HBroken)).
        { induction l as [|[n c] l IHl]; intros HI; [right; intros ? ? ? []|]. destruct IHl as [(n' & c' & p & A & B)|N]; [intros x Hx; apply HI; now right|left; exists n', c', p; split; [now right|exact B]|].
          destruct (IH n c (HI _ (or_introl eq_refl))) as [(p & Hp)|Np]; [left; exists n, c, p; split; [now left|exact Hp]|].
          right. intros n' c' p [E|Hin]; [injection E as <- <-; apply Np|eapply N; exact Hin]. }
        destruct (K (firstn m ms)) as [(n & c & p & A & B)|N]; [intros x Hx; rewrite <- (firstn_skipn m ms); apply in_or_app; now left|left; exists (n :: p); econstructor; eauto|].
        right. intros p Hp. inversion Hp; subst. eapply N; eauto.
      - right. intros p Hp. inversion Hp.
      - left. exists []. constructor. }
    destruct D as [D|D]; [exact D|]. destruct (C90_lines m i ms D) as (o' & E' & _). rewrite E' in E. now destruct E.
Qed.
Print Assumptions C90_broken.

(** The order: members one after the other, each followed by what is in it. *)
Theorem C90_order : forall (m i : nat),
  (forall a b oa ob, (List.length (a ++ b) <= m)%nat -> hdf5_paths (Z.of_nat m) i (HGroup a) = (oa, None) -> hdf5_paths (Z.of_nat m) i (HGroup b) = (ob, None) ->
     hdf5_paths (Z.of_nat m) i (HGroup (a ++ b)) = (oa ++ ob, None)) /\
  (forall n ms o, (0 < m)%nat -> hdf5_paths (Z.of_nat m) (i + 4) (HGroup ms) = (o, None) ->
     hdf5_paths (Z.of_nat m) i (HGroup [(n, HGroup ms)]) = ((spaces i ++ n)%string :: o, None)).
Proof.
  intros m i. split.
  - intros a b oa ob L. rewrite app_length in L. rewrite !paths_first, !firstn_all2 by (rewrite ?app_length; lia). clear L. revert oa.
    induction a as [|[n c] a IH]; intros oa; cbn [List.length members app]; [intros E; injection E as <-; auto|].
    destruct c as [mc| |]; [| |discriminate].
    + destruct (hdf5_paths (Z.of_nat m) (i + 4) (HGroup mc)) as [o1 [e|]]; [discriminate|]. destruct (members (Z.of_nat m) i (List.length a) a) as [o [e|]]; [discriminate|].
      intros E Eb. injection E as <-. rewrite (IH o eq_refl Eb). cbn [app]. now rewrite app_assoc.
    + destruct (members (Z.of_nat m) i (List.length a) a) as [o [e|]]; [discriminate|]. intros E Eb. injection E as <-. now rewrite (IH o eq_refl Eb).
  - intros n ms o L E. rewrite paths_first, firstn_all2 by (cbn; lia). cbn [List.length members]. rewrite E. now rewrite app_nil_r.
Qed.
Print Assumptions C90_order.

(** The names, the nesting and the kinds of all objects can be read from the text, if no group has more than [m] members
    and no name begins with a space or has a line break: two files with the same listing have the same objects. *)
Theorem C90_unambiguous : forall (m i : nat) ms ms' o o', tidy m (HGroup ms) -> tidy m (HGroup ms') ->
  hdf5_paths (Z.of_nat m) i (HGroup ms) = (o, None) -> hdf5_paths (Z.of_nat m) i (HGroup ms') = (o', None) -> printed o = printed o' -> ms = ms'.
Proof.
  intros m i ms ms' o o' T T' E E' P. rewrite (@paths_lines m (HGroup ms) i) in E by eauto. rewrite (@paths_lines m (HGroup ms') i) in E' by eauto.
  injection E as <-. injection E' as <-. pose proof (@lines_neat m _ i T) as N. pose proof (@lines_neat m _ i T') as N'.
  assert (B : forall l, Forall neat l -> forall x, In x (map show l) -> ~ In "010"%char (list_ascii_of_string x)).
  { intros l F x Hx. apply in_map_iff in Hx. destruct Hx as (y & <- & Hy). apply show_line. rewrite Forall_forall in F. auto. }
  apply printed_inj in P; [|apply B; assumption..]. apply show_inj in P; [|assumption..].
  destruct (@forest_inj m (HGroup ms) (HGroup ms') i [] []) as [H _]; eauto; [exact I|exact I|now rewrite !app_nil_r|]. now injection H.
Qed.
Print Assumptions C90_unambiguous.

(** Without these conditions it cannot: the members after the first hundred are missing without notice, and a name with
    spaces looks like a member of the group before. *)
Theorem C90_all_members_refuted : exists ms ms', ms <> ms' /\ NoDup (map fst ms) /\ NoDup (map fst ms') /\
  hdf5_paths 2 0 (HGroup ms) = hdf5_paths 2 0 (HGroup ms') /\ snd (hdf5_paths 2 0 (HGroup ms)) = None.
Proof.
  exists [("a", HOther); ("b", HGroup [])], [("a", HOther); ("b", HGroup []); ("c", HOther)]. split; [discriminate|]. split; [|split; [|split; reflexivity]]; repeat constructor; cbn; intuition discriminate.
Qed.
Print Assumptions C90_all_members_refuted.
Theorem C90_spaces_refuted : exists ms ms', ms <> ms' /\ NoDup (map fst ms) /\ NoDup (map fst ms') /\
  hdf5_paths 100 0 (HGroup ms) = hdf5_paths 100 0 (HGroup ms') /\ snd (hdf5_paths 100 0 (HGroup ms)) = None.
Proof.
  exists [("a", HGroup [("b", HOther)])], [("a", HGroup []); ("    b", HOther)]. split; [discriminate|]. split; [|split; [|split; reflexivity]]; repeat constructor; cbn; intuition discriminate.
Qed.
Print Assumptions C90_spaces_refuted.

(** Datasets are printed twice. *)
Definition small : list (string * h5tree) := [("INDEX", HGroup [("trainId", HOther)]); ("METADATA", HGroup []); ("x", HOther)].
Example C90_example : tidy 100 (HGroup small) /\ (forall p, ~ at_first 100 (HGroup small) p HBroken) /\
  hdf5_paths 100 0 (HGroup small) = (["INDEX"; "    trainId"; "    trainId"; "METADATA"; "x"; "x"], None).
Proof.
  assert (PL : forall n, In n ["INDEX"; "trainId"; "METADATA"; "x"] -> plain_name n).
  { intros n [<-|[<-|[<-|[<-|[]]]]]; (split; [cbn; intuition discriminate|discriminate]). }
  split; [|split; [|reflexivity]].
  - intros p ms H. inversion H as [|? n c q ? Hin H']; subst.
    + split; [cbn; lia|]. split; [repeat constructor; cbn; intuition discriminate|]. intros n c [E|[E|[E|[]]]]; injection E as <- <-; (split; [apply PL; cbn; tauto|discriminate]).
    + destruct Hin as [E|[E|[E|[]]]]; injection E as <- <-.
      * inversion H' as [|? n c r ? Hin H2]; subst.
        -- split; [cbn; lia|]. split; [repeat constructor; cbn; intuition discriminate|]. intros n c [E|[]]; injection E as <- <-; (split; [apply PL; cbn; tauto|discriminate]).
        -- destruct Hin as [E|[]]. injection E as <- <-. inversion H2.
      * inversion H' as [|? n c r ? Hin H2]; subst; [|destruct Hin]. split; [cbn; lia|]. split; [constructor|intros ? ? []].
      * inversion H'.
  - intros p H. inversion H as [|? n c q ? Hin H']; subst. destruct Hin as [E|[E|[E|[]]]]; injection E as <- <-.
    + inversion H' as [|? n c r ? Hin H2]; subst. destruct Hin as [E|[]]. injection E as <- <-. inversion H2.
    + inversion H' as [|? n c r ? Hin H2]; subst. destruct Hin.
    + inversion H'.
Qed.

(** ** C91 *)
Section Cbf.
Context {V : Type}.
Lemma ends_with_iff suf s : ends_with suf s = true <-> exists r, s = (r ++ suf)%string.
Proof.
  unfold ends_with. rewrite andb_true_iff, Nat.leb_le, String.eqb_eq.
  assert (LA : forall a b, String.length (a ++ b)%string = (String.length a + String.length b)%nat) by (induction a; intros; cbn; congruence).
  assert (SA : forall a b, substring (String.length a) (String.length b) (a ++ b)%string = b).
  { induction a as [|x a IH]; intros b; cbn [String.length append]; [|exact (IH b)]. induction b; cbn; congruence. }
  split.
  - intros [L E]. exists (substring 0 (String.length s - String.length suf) s). transitivity (substring 0 (String.length s - String.length suf) s ++ substring (String.length s - String.length suf) (String.length suf) s)%string; [|now rewrite E]. revert L. generalize (String.length suf) as k. intros k L. clear E.
    assert (G : forall n s, (n <= String.length s)%nat -> s = (substring 0 n s ++ substring n (String.length s - n) s)%string).
    { induction n as [|n IH]; intros t H.
      - destruct t; [reflexivity|]. cbn [substring append]. rewrite Nat.sub_0_r. clear. f_equal. cbn. f_equal. induction t; cbn; congruence.
      - destruct t as [|c t]; [cbn in H; lia|]. cbn [substring append String.length Nat.sub]. f_equal. apply IH. cbn in H. lia. }
    rewrite (G (String.length s - k)%nat s) at 1 by lia. f_equal. f_equal. lia.
  - intros (r & ->). rewrite LA. split; [lia|]. replace (String.length r + String.length suf - String.length suf)%nat with (String.length r) by lia. apply SA.
Qed.

Lemma h5_row_iff : forall (d : @dataset V) k v, h5_row d k = Ok v <-> (- Z.of_nat (List.length (ds_rows d)) <= k < Z.of_nat (List.length (ds_rows d)))%Z /\ nth_error (ds_rows d) (Z.to_nat (k mod Z.of_nat (List.length (ds_rows d)))) = Some v.
Proof.
  intros d k v. unfold h5_row, h5_axis. set (n := Z.of_nat (List.length (ds_rows d))). set (z := (if (k <? 0)%Z then k + n else k)%Z).
    assert (Z0 : (0 <= z < n)%Z <-> (- n <= k < n)%Z) by (unfold z; destruct (Z.ltb_spec k 0); unfold n; lia).
    destruct (Z.leb_spec 0 z); cbn [andb]; [destruct (Z.ltb_spec z n)|].
    - assert (R : (- n <= k < n)%Z) by (apply Z0; lia). assert (M : (k mod n = z)%Z).
      { unfold z. destruct (Z.ltb_spec k 0); [|apply Z.mod_small; lia]. symmetry. apply (Z.mod_unique k n (-1)); lia. }
      rewrite M. destruct (nth_error (ds_rows d) (Z.to_nat z)) as [w|]; split; intros A; try discriminate; [injection A as ->; auto|destruct A as [_ A]; injection A as ->; reflexivity|destruct A; discriminate].
    - split; [discriminate|]. intros [A _]. apply Z0 in A. lia.
    - split; [discriminate|]. intros [A _]. apply Z0 in A. lia.
Qed.
(** A CBF file is written exactly if the file can be opened, has METADATA/dataSourceId, a source in it whose name ends in
    "image" with a dataset "data", and this has the index; it then has the image with this index (counted from the end if
    negative) of the first such source, under the name given. *)
Theorem C91_converts : forall (f : option (@h5file V)) name index header out,
  hdf5_to_cbf f name index header = Ok out <->
  exists file before src after images,
    f = Some file /\ h5_sources05 file = Some (before ++ src :: after) /\
    (forall s, In s before -> ~ exists r, s = (r ++ "image")%string) /\ (exists r, src = (r ++ "image")%string) /\
    dict_get (src ++ "/data") (h5_data file) = Some images /\
    (- Z.of_nat (List.length (ds_rows images)) <= index < Z.of_nat (List.length (ds_rows images)))%Z /\
    nth_error (ds_rows images) (Z.to_nat (index mod Z.of_nat (List.length (ds_rows images)))) = Some (cbf_data out) /\
    cbf_name out = name /\ cbf_header out = [].
Proof.
  assert (FI : forall l, match filter (ends_with "image") l with
                         | [] => forall s, In s l -> ends_with "image" s = false
                         | src :: _ => exists before after, l = before ++ src :: after /\ ends_with "image" src = true /\ forall s, In s before -> ends_with "image" s = false end).
  { induction l as [|s l IH]; cbn [filter]; [intros ? []|]. destruct (ends_with "image" s) eqn:E.
    - exists [], l. split; [reflexivity|]. split; [exact E|intros ? []].
    - destruct (filter (ends_with "image") l) as [|src q].
      + intros x [<-|Hx]; auto.
      + destruct IH as (b & a & -> & A & B). exists (s :: b), a. split; [reflexivity|]. split; [exact A|]. intros x [<-|Hx]; auto. }
  pose proof h5_row_iff as RW.
  intros f name index header out. unfold hdf5_to_cbf. split.
  - destruct f as [file|]; [|discriminate]. destruct (h5_sources05 file) as [paths|] eqn:EP; [|discriminate]. specialize (FI paths).
    destruct (filter (ends_with "image") paths) as [|src q]; [discriminate|]. destruct FI as (b & a & -> & A & B).
    destruct (dict_get (src ++ "/data") (h5_data file)) as [images|] eqn:ED; [|discriminate]. unfold numpy_to_cbf. destruct (h5_row images index) as [v|] eqn:ER; [|discriminate]. cbn [bind]. intros H. injection H as <-.
    apply RW in ER. destruct ER as [R1 R2]. exists file, b, src, a, images. repeat split; try assumption; try lia.
    + intros s Hs Hx. apply ends_with_iff in Hx. rewrite (B s Hs) in Hx. discriminate.
    + now apply ends_with_iff.
  - intros (file & b & src & a & images & -> & EP & B & A & ED & R1 & R2 & <- & HH). rewrite EP. apply ends_with_iff in A.
    assert (EF : exists q, filter (ends_with "image") (b ++ src :: a) = src :: q).
    { rewrite filter_app. cbn [filter]. rewrite A. assert (EB : filter (ends_with "image") b = []). { clear - B. induction b as [|s b IH]; [reflexivity|]. cbn [filter]. destruct (ends_with "image" s) eqn:E; [exfalso; apply (B s); [now left|now apply ends_with_iff]|]. apply IH. intros x Hx. apply B. now right. }
      rewrite EB. cbn. eauto. }
    destruct EF as (q & ->). rewrite ED. unfold numpy_to_cbf. assert (ER : h5_row images index = Ok (cbf_data out)) by (apply RW; auto). rewrite ER. cbn [bind]. destruct out as [n h d]. cbn in *. subst h. reflexivity.
Qed.

(** numpy_to_cbf: the frame with the index, counted from the end if it is negative, and the header which is passed. *)
Theorem C91_numpy : forall (images : @dataset V) index header name out,
  numpy_to_cbf images index header name = Ok out <->
  (- Z.of_nat (List.length (ds_rows images)) <= index < Z.of_nat (List.length (ds_rows images)))%Z /\
  nth_error (ds_rows images) (Z.to_nat (index mod Z.of_nat (List.length (ds_rows images)))) = Some (cbf_data out) /\
  cbf_name out = name /\ (header = None -> cbf_header out = []) /\ (forall h, header = Some h -> cbf_header out = h).
Proof.
  intros images index header name out. unfold numpy_to_cbf. split.
  - intros H. apply bind_ok in H as (v & E & H). injection H as <-. apply h5_row_iff in E as [E1 E2]. cbn. repeat split; try lia; try assumption; [now intros ->|now intros h ->].
  - intros (R & N & <- & H1 & H2). assert (E : h5_row images index = Ok (cbf_data out)) by (apply h5_row_iff; auto). rewrite E. cbn [bind]. destruct out as [n h v]. cbn in *.
    f_equal. f_equal. destruct header as [h'|]; [symmetry; now apply H2|symmetry; now apply H1].
Qed.
(** Files of format 1.0 keep their sources elsewhere and cannot be converted. *)
Theorem C91_new_format : forall (file : @h5file V) name index header, h5_sources05 file = None -> hdf5_to_cbf (Some file) name index header = Err EKeyError.
Proof. intros file name index header E. unfold hdf5_to_cbf. now rewrite E. Qed.
(** What is raised if there is nothing to convert. *)
Theorem C91_errors : forall (f : option (@h5file V)) name index header e, hdf5_to_cbf f name index header = Err e <->
  (f = None /\ e = EOSError) \/
  exists file, f = Some file /\
    ((h5_sources05 file = None /\ e = EKeyError) \/
     exists srcs, h5_sources05 file = Some srcs /\
       (((forall s, In s srcs -> ~ exists r, s = (r ++ "image")%string) /\ e = EIndexError) \/
        exists before src after, srcs = before ++ src :: after /\ (forall s, In s before -> ~ exists r, s = (r ++ "image")%string) /\ (exists r, src = (r ++ "image")%string) /\
          ((dict_get (src ++ "/data") (h5_data file) = None /\ e = EKeyError) \/
           exists images, dict_get (src ++ "/data") (h5_data file) = Some images /\
             ~ (- Z.of_nat (List.length (ds_rows images)) <= index < Z.of_nat (List.length (ds_rows images)))%Z /\ e = EValueError))).
Proof.
  assert (FI : forall l, match filter (ends_with "image") l with
                         | [] => forall s, In s l -> ~ exists r, s = (r ++ "image")%string
                         | src :: _ => exists before after, l = before ++ src :: after /\ (forall s, In s before -> ~ exists r, s = (r ++ "image")%string) /\ (exists r, src = (r ++ "image")%string) end).
  { induction l as [|s l IH]; cbn [filter]; [intros ? []|]. destruct (ends_with "image" s) eqn:E.
    - exists [], l. split; [reflexivity|]. split; [intros ? []|]. now apply ends_with_iff.
    - assert (N : ~ exists r, s = (r ++ "image")%string) by (intros X; apply ends_with_iff in X; congruence).
      destruct (filter (ends_with "image") l) as [|src q].
      + intros x [<-|Hx]; auto.
      + destruct IH as (b & a & -> & B & A). exists (s :: b), a. split; [reflexivity|]. split; [|exact A]. intros x [<-|Hx]; auto. }
  assert (U : forall l b src a, l = b ++ src :: a -> (forall s, In s b -> ~ exists r, s = (r ++ "image")%string) -> (exists r, src = (r ++ "image")%string) -> exists q, filter (ends_with "image") l = src :: q).
  { intros l b src a -> B A. apply ends_with_iff in A. rewrite filter_app. cbn [filter]. rewrite A. assert (EB : filter (ends_with "image") b = []).
    { clear - B. induction b as [|s b IH]; [reflexivity|]. cbn [filter]. destruct (ends_with "image" s) eqn:E; [exfalso; apply (B s); [now left|now apply ends_with_iff]|]. apply IH. intros x Hx. apply B. now right. }
    rewrite EB. cbn. eauto. }
  assert (RV : forall (images : @dataset V) k e, h5_row images k = Err e -> e = EValueError).
  { intros images k e H. unfold h5_row, h5_axis in H. destruct ((0 <=? _) && _)%Z; [|congruence]. destruct (nth_error _ _); congruence. }
  assert (RE : forall (images : @dataset V) k e, h5_row images k = Err e <-> ~ (- Z.of_nat (List.length (ds_rows images)) <= k < Z.of_nat (List.length (ds_rows images)))%Z /\ e = EValueError).
  { intros images k e. split.
    - intros H. split; [|exact (RV _ _ _ H)]. intros R. set (n := Z.of_nat (List.length (ds_rows images))) in *.
      destruct (nth_error (ds_rows images) (Z.to_nat (k mod n))) as [v|] eqn:E.
      + assert (X : h5_row images k = Ok v) by (apply h5_row_iff; split; [exact R|exact E]). congruence.
      + apply nth_error_None in E. assert (B := Z.mod_pos_bound k n ltac:(lia)). lia.
    - intros [R ->]. destruct (h5_row images k) as [v|e] eqn:E; [apply h5_row_iff in E; tauto|]. now rewrite (RV _ _ _ E). }
  intros f name index header e. unfold hdf5_to_cbf, numpy_to_cbf. split.
  - destruct f as [file|]; [|intros H; left; split; congruence]. intros H. right. exists file. split; [reflexivity|]. destruct (h5_sources05 file) as [srcs|] eqn:ES; [|left; split; congruence].
    right. exists srcs. split; [reflexivity|]. specialize (FI srcs). destruct (filter (ends_with "image") srcs) as [|src q]; [left; split; [exact FI|congruence]|].
    right. destruct FI as (b & a & E & B & A). exists b, src, a. split; [exact E|]. split; [exact B|]. split; [exact A|]. destruct (dict_get _ _) as [images|]; [|left; split; congruence].
    right. exists images. split; [reflexivity|]. apply RE. destruct (h5_row images index); cbn [bind] in H; [discriminate H|injection H as ->; reflexivity].
  - intros [[-> ->]|(file & -> & [[-> ->]|(srcs & -> & [[N ->]|(b & src & a & E & B & A & D)])])]; try reflexivity.
    + specialize (FI srcs). destruct (filter (ends_with "image") srcs) as [|src q]; [reflexivity|]. destruct FI as (b & a & -> & _ & A). exfalso. apply (N src); [apply in_app_iff; right; now left|exact A].
    + destruct (U _ _ _ _ E B A) as (q & ->). destruct D as [[-> ->]|(images & -> & D)]; [reflexivity|]. apply RE in D. now rewrite D.
Qed.
End Cbf.
Print Assumptions C91_errors.
Print Assumptions C91_converts.
Print Assumptions C91_numpy.
Print Assumptions C91_new_format.

(** The header which is passed is not written. *)
Definition one : @h5file Z :=
  mk_h5 "f.h5" (Some [1]%Z) None (Some ["CONTROL/M"; "INSTRUMENT/D/DET/0:xtdf/image"]) None [] [("INSTRUMENT/D/DET/0:xtdf/image/data", mk_ds "u2" [] [10; 20; 30]%Z)].
Theorem C91_header_refuted : exists (f : option (@h5file Z)) header out, header <> [] /\ hdf5_to_cbf f "i.cbf" 1 (Some header) = Ok out /\ cbf_header out <> header.
Proof. exists (Some one), [("k", "v")]. eexists. split; [discriminate|]. split; [reflexivity|discriminate]. Qed.
Print Assumptions C91_header_refuted.
Example C91_example : hdf5_to_cbf (Some one) "i.cbf" (-1) None = Ok (mk_cbf "i.cbf" [] 30%Z) /\ hdf5_to_cbf (Some one) "i.cbf" 3 None = Err EValueError.
Proof. split; reflexivity. Qed.
Example C91_numpy_example : exists out, numpy_to_cbf (mk_ds "u2" [] [10; 20; 30]%Z) (-2) (Some [("k", "v")]) "i.cbf" = Ok out /\ cbf_data out = 20%Z /\ cbf_header out = [("k", "v")].
Proof. eexists. split; [reflexivity|split; reflexivity]. Qed.
