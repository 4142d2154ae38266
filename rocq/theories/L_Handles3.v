(** Histories of reading and closing. *)
From Verif Require Import Base PyStr M_Files M_Machinery M_Reader M_Series M_Handles S_Handles L_Base L_GetArray L_Handles L_Handles2.
Set Implicit Arguments.
Unset Strict Implicit.
Local Open Scope string_scope.
Local Open Scope list_scope.

Section W.
Context {V : Type}.
Notation faccess := (faccess V).
Notation dcoll := (dcoll V).
Variable isz : string -> Z.
Variable U : list faccess.
Hypothesis HU : one_each U.

Definition progress (es : list (event V)) (log : list (event V * reply V)) (i : nat) (it : iter V) : Prop :=
  let d := it_data it in let all := trains d (it_all it) in
  (exists n m, (n <= List.length all)%nat /\ items i log = map Some (firstn n all) ++ repeat None m /\ (m = 0%nat \/ it_left it = []) /\
     it_loop d (it_all it) (it_left it) (erase (it_objs it)) = skipn n all) \/
  (it_left it = [] /\ exists n m e, (n <= List.length all)%nat /\ items i log = map Some (firstn n all) ++ Some (Err e) :: repeat None m /\
     ((e = EOSError /\ lost es d) \/ (e = EValueError /\ closed_meanwhile es d))).
Definition iter_ok (es : list (event V)) (log : list (event V * reply V)) (st : hst) (i : nat) (it : iter V) : Prop :=
  nth_error (iters_made es) i = Some (it_data it, it_all it) /\ incl (dc_files (it_data it)) U /\ okc (it_data it) (it_objs it) /\
  (stale (it_objs it) st -> closed_meanwhile es (it_data it)) /\ progress es log i it.
Definition lazy_ok (es : list (event V)) (log : list (event V * reply V)) (st : hst) (i : nat) (parts : list lazy_part) : Prop :=
  exists d s k, nth_error (lazies_made log) i = Some (d, s, k) /\ incl (dc_files d) U /\
    get_dask_array isz d s k = Ok (List.concat (map (fun p => ds_slice (do_ds (lp_obj p)) (lp_first p) (lp_first p + lp_rows p)) parts)) /\
    forall p, In p parts -> (exists f, In f (dc_files d) /\ do_name (lp_obj p) = fname f) /\ (valid_obj st (lp_obj p) = true \/ closed_meanwhile es d).
Record winv (es : list (event V)) (log : list (event V * reply V)) (w : world V) : Prop := {
  wi_good : good U (w_h w);
  wi_there : forall f, In f U -> h_there (w_h w) (fname f) = false -> In (EvRemove (fname f)) es;
  wi_nit : List.length (w_iters w) = List.length (iters_made es);
  wi_it : forall i it, nth_error (w_iters w) i = Some it -> iter_ok es log (w_h w) i it;
  wi_none : forall i, (List.length (w_iters w) <= i)%nat -> items i log = [];
  wi_nlz : List.length (w_lazy w) = List.length (lazies_made log);
  wi_lz : forall i p, nth_error (w_lazy w) i = Some p -> lazy_ok es log (w_h w) i p }.

Lemma made_app es e : iters_made (es ++ [e]) = iters_made (V:=V) es ++ match e with EvIter d ra => [(d, ra)] | _ => [] end.
Proof. unfold iters_made. rewrite flat_map_app. cbn. now rewrite app_nil_r. Qed.
Lemma lazies_app (log : list (event V * reply V)) p : lazies_made (log ++ [p]) = lazies_made log ++ match p with (EvLazy d s k, RMade (Ok _)) => [(d, s, k)] | _ => [] end.
Proof. unfold lazies_made. rewrite flat_map_app. cbn. now rewrite app_nil_r. Qed.
Lemma items_app i (log : list (event V * reply V)) p : items i (log ++ [p]) = items i log ++ match p with (EvNext j, RItem r) => if Nat.eqb j i then [r] else [] | _ => [] end.
Proof. unfold items. rewrite flat_map_app. cbn [flat_map]. now rewrite app_nil_r. Qed.
Lemma items_app' i (log : list (event V * reply V)) p : items i (log ++ [p]) = items i log ++ items i [p].
Proof. unfold items. apply flat_map_app. Qed.
Lemma lost_app es e (d : dcoll) : lost es d -> lost (es ++ [e]) d.
Proof. intros (f & H1 & H2). exists f. split; [exact H1|]. apply in_or_app. now left. Qed.
Lemma closed_app es e (d : dcoll) : closed_meanwhile es d -> closed_meanwhile (es ++ [e]) d.
Proof. intros (f & d' & H1 & H2 & H3). exists f, d'. split; [exact H1|]. split; [exact H2|]. apply in_or_app. now left. Qed.
Lemma unav_lost es log w (d : dcoll) : winv es log w -> incl (dc_files d) U -> unav (dc_files d) (w_h w) -> lost es d.
Proof. intros W I (f & Hf & _ & H). exists f. split; [exact Hf|]. exact (wi_there W (I f Hf) H). Qed.
Lemma nth_error_snoc A (l : list A) x i y : nth_error l i = Some y -> nth_error (l ++ [x]) i = Some y.
Proof. intros H. rewrite nth_error_app1; [exact H|]. apply nth_error_Some. congruence. Qed.
Lemma nth_error_ext A (l l' : list A) i y : nth_error l i = Some y -> nth_error (l ++ l') i = Some y.
Proof. intros H. rewrite nth_error_app1; [exact H|]. apply nth_error_Some. congruence. Qed.

(** Events which are not about iterator [i] leave it as it is. *)
Lemma iter_ok_step es log st st' i it e y : mono st st' -> iter_ok es log st i it -> items i [(e, y)] = [] -> iter_ok (es ++ [e]) (log ++ [(e, y)]) st' i it.
Proof.
  intros M (H1 & H2 & H3 & H4 & H5) N. split; [rewrite made_app; now apply nth_error_ext|]. split; [exact H2|]. split; [exact H3|]. split; [intros S; apply closed_app, H4; exact (stale_mono M S)|].
  assert (E : items i (log ++ [(e, y)]) = items i log) by (unfold items in *; rewrite flat_map_app, N; apply app_nil_r). unfold progress in *. rewrite E.
  destruct H5 as [H5|(H5 & n & m & x & A & B & H6)]; [left; exact H5|right]. split; [exact H5|]. exists n, m, x. split; [exact A|]. split; [exact B|].
  destruct H6 as [[H6 H7]|[H6 H7]]; [left|right]; (split; [exact H6|]); [now apply lost_app|now apply closed_app].
Qed.
Lemma lazy_ok_step es log st st' i p e y : mono st st' -> lazy_ok es log st i p -> lazy_ok (es ++ [e]) (log ++ [(e, y)]) st' i p.
Proof.
  intros M (d & s & k & H1 & H2 & H3 & H4). exists d, s, k. split; [rewrite lazies_app; now apply nth_error_ext|]. split; [exact H2|]. split; [exact H3|].
  intros q Hq. destruct (H4 q Hq) as [A [B|B]]; (split; [exact A|]); [left; exact (valid_mono M B)|right; now apply closed_app].
Qed.
(** An event which only reads. *)
Lemma winv_read es log w st' e y : winv es log w -> good U st' -> mono (w_h w) st' ->
  (forall d ra, e <> EvIter d ra) -> (forall i, items i [(e, y)] = []) -> lazies_made [(e, y)] = [] ->
  winv (es ++ [e]) (log ++ [(e, y)]) (mk_w st' (w_iters w) (w_lazy w)).
Proof.
  intros W G M NI NN NL. split; cbn [w_h w_iters w_lazy].
  - exact G.
  - intros f Hf H. rewrite (proj2 M) in H. apply in_or_app. left. exact (wi_there W Hf H).
  - rewrite made_app, (wi_nit W). destruct e; try (rewrite app_nil_r; reflexivity). destruct (NI d ra eq_refl).
  - intros i it H. apply (iter_ok_step M (wi_it W H)). apply NN.
  - intros i H. rewrite items_app', (wi_none W H). apply NN.
  - rewrite (wi_nlz W). unfold lazies_made in *. rewrite flat_map_app, NL, app_nil_r. reflexivity.
  - intros i p H. exact (lazy_ok_step e y M (wi_lz W H)).
Qed.

Lemma set_nth_other A (l : list A) i j a : i <> j -> nth_error (set_nth l i a) j = nth_error l j.
Proof. revert i j. induction l as [|x l IH]; intros [|i] [|j] N; cbn; try reflexivity; [congruence|apply IH; congruence]. Qed.
Lemma set_nth_same A (l : list A) i a x : nth_error l i = Some x -> nth_error (set_nth l i a) i = Some a.
Proof. revert i. induction l as [|y l IH]; intros [|i] H; cbn in *; try discriminate; [reflexivity|now apply IH]. Qed.
Lemma set_nth_length A (l : list A) i a : List.length (set_nth l i a) = List.length l.
Proof. revert i. induction l as [|y l IH]; intros [|i]; cbn; try reflexivity. now rewrite IH. Qed.

(** What the answer to one event may be, given what happened before. *)
Definition answer (es : list (event V)) (log : list (event V * reply V)) (e : event V) (y : reply V) : Prop :=
  match e, y with
  | EvTrain d t, RTrain r => r = train_from_id d t \/ (r = Err EOSError /\ lost es d)
  | EvArray d s k, RArray r => r = get_array d s k \/ (r = Err EOSError /\ lost es d)
  | EvLazy d s k, RMade r => (r = bind (get_dask_array isz d s k) (fun _ => Ok tt)) \/ (r = Err EOSError /\ lost es d)
  | EvCompute i, RRows r => exists d s k, nth_error (lazies_made log) i = Some (d, s, k) /\ (r = get_dask_array isz d s k \/ (r = Err EValueError /\ closed_meanwhile es d))
  | EvCompute i, RMade _ => (List.length (lazies_made log) <= i)%nat
  | EvNext i, RItem _ => (i < List.length (iters_made es))%nat
  | EvNext i, RMade _ => (List.length (iters_made es) <= i)%nat
  | EvIter _ _, RMade r | EvExit _ _, RMade r | EvRemove _, RMade r => r = Ok tt
  | EvEnter _ ctx, RMade r => r = if ctx then Ok tt else Err EException
  | _, _ => False
  end.
Lemma close_open (l : list faccess) st n : h_open (fold_left (fun s f => close_h f s) l st) n = if existsb (fun f => String.eqb n (fname f)) l then None else h_open st n.
Proof.
  revert st. induction l as [|f l IH]; intros st; [reflexivity|]. cbn [fold_left existsb]. rewrite IH. unfold close_h, upd. cbn [h_open]. destruct (String.eqb n (fname f)); cbn [orb]; destruct (existsb _ l); reflexivity.
Qed.
Lemma close_rest (l : list faccess) st : h_there (fold_left (fun s f => close_h f s) l st) = h_there st /\ h_caches (fold_left (fun s f => close_h f s) l st) = h_caches st.
Proof. revert st. induction l as [|f l IH]; intros st; [auto|]. cbn [fold_left]. destruct (IH (close_h f st)) as [A B]. rewrite A, B. auto. Qed.
Lemma firstn_snoc A (l : list A) n x r : skipn n l = x :: r -> firstn (S n) l = firstn n l ++ [x] /\ skipn (S n) l = r /\ (S n <= List.length l)%nat.
Proof.
  revert l. induction n as [|n IH]; intros l H.
  - cbn in H. subst l. cbn. split; [reflexivity|]. split; [reflexivity|lia].
  - destruct l as [|a l]; [discriminate|]. cbn [skipn] in H. destruct (IH l H) as (E1 & E2 & E3). split; [change (a :: firstn (S n) l = (a :: firstn n l) ++ [x]); now rewrite E1|]. split; [exact E2|cbn [List.length]; lia].
Qed.
Lemma repeat_snoc A (x : A) n : repeat x n ++ [x] = repeat x (S n).
Proof. induction n as [|n IH]; [reflexivity|]. cbn [repeat app]. rewrite IH. reflexivity. Qed.

Lemma close_valid (l : list faccess) st (o : @dsobj V) : (forall f, In f l -> fname f <> do_name o) -> valid_obj (fold_left (fun s f => close_h f s) l st) o = valid_obj st o.
Proof.
  intros N. unfold valid_obj. rewrite close_open. replace (existsb _ l) with false; [reflexivity|]. symmetry. apply not_true_iff_false. intros H. apply existsb_exists in H. destruct H as (f & Hf & E).
  apply String.eqb_eq in E. destruct (N f Hf). congruence.
Qed.
Lemma close_gone (l : list faccess) st (o : @dsobj V) : valid_obj (fold_left (fun s f => close_h f s) l st) o = false -> valid_obj st o = false \/ exists f, In f l /\ fname f = do_name o.
Proof.
  intros H. destruct (existsb (fun f => String.eqb (do_name o) (fname f)) l) eqn:E.
  - right. apply existsb_exists in E. destruct E as (f & Hf & E). apply String.eqb_eq in E. eauto.
  - left. unfold valid_obj in *. rewrite close_open, E in H. exact H.
Qed.
Lemma compute_all parts st : (forall p : lazy_part, In p parts -> valid_obj st (lp_obj p) = true) ->
  compute_h parts st = (Ok (List.concat (map (fun p => ds_slice (do_ds (lp_obj p)) (lp_first p) (lp_first p + lp_rows p)) parts)) : res (list V), st).
Proof.
  intros H. unfold compute_h. assert (X : mapH (fun p : lazy_part => use_h (lp_obj p) (fun ds => Ok (ds_slice ds (lp_first p) (lp_first p + lp_rows p)))) parts st =
    (Ok (map (fun p => ds_slice (do_ds (lp_obj p)) (lp_first p) (lp_first p + lp_rows p)) parts), st)).
  { induction parts as [|p l IH]; [reflexivity|]. cbn [mapH map]. unfold hbind at 1, use_h at 1. rewrite (H p (or_introl eq_refl)). unfold hbind. rewrite IH by (intros q Hq; apply H; now right). reflexivity. }
  unfold hbind. rewrite X. reflexivity.
Qed.
Lemma compute_some parts st : exists r : res (list V), compute_h parts st = (r, st) /\
  (r = Ok (List.concat (map (fun p => ds_slice (do_ds (lp_obj p)) (lp_first p) (lp_first p + lp_rows p)) parts)) \/
   (r = Err EValueError /\ exists p, In p parts /\ valid_obj st (lp_obj p) = false)).
Proof.
  unfold compute_h. assert (X : exists r, mapH (fun p : lazy_part => use_h (lp_obj p) (fun ds => Ok (ds_slice ds (lp_first p) (lp_first p + lp_rows p)))) parts st = (r, st) /\
    (r = Ok (map (fun p => ds_slice (do_ds (lp_obj p)) (lp_first p) (lp_first p + lp_rows p)) parts) \/ (r = Err EValueError /\ exists p, In p parts /\ valid_obj st (lp_obj p) = false))).
  { induction parts as [|p l IH]; [eexists; split; [reflexivity|now left]|]. cbn [mapH map]. unfold hbind at 1, use_h at 1. destruct (valid_obj st (lp_obj p)) eqn:E.
    - unfold hbind. destruct IH as (r & -> & [->|[-> (q & Hq & H)]]); [eexists; split; [reflexivity|now left]|]. eexists. split; [reflexivity|]. right. split; [reflexivity|]. exists q. split; [now right|exact H].
    - eexists. split; [reflexivity|]. right. split; [reflexivity|]. exists p. split; [now left|exact E]. }
  destruct X as (r & E & H). unfold hbind. rewrite E. destruct H as [->|[-> H]]; eexists; (split; [reflexivity|]); [now left|right; split; [reflexivity|exact H]].
Qed.

Lemma step_ok es log w e y w' : winv es log w -> (forall d, In d (event_data e) -> incl (dc_files d) U) -> wstep isz w e = (y, w') ->
  winv (es ++ [e]) (log ++ [(e, y)]) w' /\ answer es log e y.
Proof.
  intros W HI. destruct e as [d t|d s k|d ra|i|d s k|i|d ctx|d ctx|nm]; cbn [wstep]; intros H.
  - assert (I : incl (dc_files d) U) by (apply HI; now left). assert (X := train_ok HU I t (wi_good W)). destruct (train_from_id_h d t (w_h w)) as [r st']. injection H as <- <-.
    destruct X as (G & M & X). split; [apply winv_read; try assumption; try reflexivity; discriminate|]. cbn. destruct X as [X|[X1 X2]]; [left|right; split; [exact X1|exact (unav_lost W I X2)]].
    destruct r, (train_from_id d t); try contradiction; congruence.
  - assert (I : incl (dc_files d) U) by (apply HI; now left). assert (X := array_ok HU I s k (wi_good W)). destruct (get_array_h d s k (w_h w)) as [r st']. injection H as <- <-.
    destruct X as (G & M & X). split; [apply winv_read; try assumption; try reflexivity; discriminate|]. cbn. destruct X as [X|[X1 X2]]; [left|right; split; [exact X1|exact (unav_lost W I X2)]].
    destruct r, (get_array d s k); try contradiction; congruence.
  - assert (I : incl (dc_files d) U) by (apply HI; now left). injection H as <- <-. split; [|reflexivity]. split; cbn [w_h w_iters w_lazy].
    + exact (wi_good W).
    + intros f Hf H. apply in_or_app. left. exact (wi_there W Hf H).
    + rewrite made_app, !app_length, (wi_nit W). reflexivity.
    + intros i it H. destruct (Nat.lt_ge_cases i (List.length (w_iters w))) as [L|L].
      * rewrite nth_error_app1 in H by exact L. apply (iter_ok_step (mono_refl _) (wi_it W H)). reflexivity.
      * rewrite nth_error_app2 in H by exact L. destruct (i - List.length (w_iters w))%nat as [|j] eqn:EJ; [|destruct j; discriminate]. injection H as <-.
        assert (Ei : i = List.length (w_iters w)) by lia. split; [|split; [|split; [|split]]]; cbn [it_data it_all it_objs it_left].
        -- rewrite made_app, Ei, (wi_nit W), nth_error_app2, Nat.sub_diag by lia. reflexivity.
        -- exact I.
        -- intros x [].
        -- intros (x & [] & _).
        -- left. exists 0%nat, 0%nat. split; [lia|]. cbn [it_data it_all it_left it_objs]. split; [|split; [now left|reflexivity]].
           rewrite items_app', (wi_none W L). reflexivity.
    + intros i H. rewrite app_length in H. rewrite items_app', (wi_none W); [reflexivity|lia].
    + rewrite lazies_app, app_nil_r. exact (wi_nlz W).
    + intros i p H. exact (lazy_ok_step _ _ (mono_refl _) (wi_lz W H)).
  - destruct (nth_error (w_iters w) i) as [it|] eqn:E.
    2:{ injection H as <- <-. split.
        - assert (X := @winv_read es log w (w_h w) (EvNext i) (RMade (Err EIndexError)) W (wi_good W) (mono_refl _)). destruct w as [w1 w2 w3]; cbn [w_h w_iters w_lazy] in *. apply X; try reflexivity; discriminate.
        - cbn. rewrite <- (wi_nit W). now apply nth_error_None. }
    assert (K := wi_it W E). destruct K as (K1 & K2 & K3 & K4 & K5).
    assert (N := @next_ok V U HU (it_data it) K2 (it_all it) (it_left it) (it_objs it) (w_h w) (wi_good W) K3).
    assert (N0 : it_left it = [] -> it_next (it_data it) (it_all it) (it_left it) (it_objs it) (w_h w) = (None, ([], it_objs it), w_h w)) by (intros ->; reflexivity).
    destruct (it_next _ _ _ _ _) as [[r [tids' c']] st']. injection H as <- <-. destruct N as (G & M & C & S & N).
    split; [|cbn; rewrite <- (wi_nit W); apply nth_error_Some; congruence].
    split; cbn [w_h w_iters w_lazy].
    + exact G.
    + intros f Hf H. rewrite (proj2 M) in H. apply in_or_app. left. exact (wi_there W Hf H).
    + rewrite made_app, app_nil_r, set_nth_length. exact (wi_nit W).
    + intros j it' H. destruct (Nat.eq_dec i j) as [<-|NE].
      2:{ rewrite set_nth_other in H by exact NE. apply (iter_ok_step M (wi_it W H)). cbn. now rewrite (proj2 (Nat.eqb_neq i j) NE). }
      rewrite (set_nth_same _ E) in H. injection H as <-. split; [|split; [|split; [|split]]]; cbn [it_data it_all it_objs it_left].
      * rewrite made_app, app_nil_r. exact K1.
      * exact K2.
      * exact C.
      * intros X. apply closed_app, K4, S, X.
      * unfold progress in *. cbn [it_data it_all it_objs it_left]. rewrite items_app, Nat.eqb_refl. destruct K5 as [(n & m & L & I & ML & Q)|(L0 & n & m & x & L & I & X)].
        -- rewrite I. destruct N as [N|(-> & N)].
           ++ rewrite Q in N. destruct (skipn n (trains (it_data it) (it_all it))) as [|x rest] eqn:SK.
              ** destruct N as [-> ->]. left. exists n, (Datatypes.S m). split; [exact L|]. split; [rewrite <- app_assoc, repeat_snoc; reflexivity|]. split; [now right|]. rewrite SK. reflexivity.
              ** destruct N as [-> N2]. left. assert (m = 0%nat) as ->. { destruct ML as [ML|ML]; [exact ML|]. rewrite ML in Q. discriminate. }
                 destruct (firstn_snoc SK) as (F1 & F2 & F3). exists (Datatypes.S n), 0%nat. split; [exact F3|]. split; [|split; [now left|rewrite F2; exact N2]].
                 rewrite F1, map_app. cbn [map repeat]. rewrite !app_nil_r. reflexivity.
           ++ right. split; [reflexivity|]. assert (m = 0%nat) as ->. { destruct ML as [ML|ML]; [exact ML|]. specialize (N0 ML). injection N0 as -> _ _. destruct N as [[N _]|[N _]]; discriminate. }
              exists n, 0%nat. destruct N as [[-> N]|[-> N]].
              ** exists EOSError. split; [exact L|]. split; [cbn [repeat]; rewrite app_nil_r; reflexivity|]. left. split; [reflexivity|]. apply lost_app. exact (unav_lost W K2 N).
              ** exists EValueError. split; [exact L|]. split; [cbn [repeat]; rewrite app_nil_r; reflexivity|]. right. split; [reflexivity|]. apply closed_app, K4, N.
        -- specialize (N0 L0). injection N0 as -> -> -> ->. right. split; [reflexivity|]. exists n, (Datatypes.S m), x. split; [exact L|]. split; [rewrite I, <- app_assoc; cbn [app]; rewrite repeat_snoc; reflexivity|].
           destruct X as [[X1 X2]|[X1 X2]]; [left|right]; (split; [exact X1|]); [now apply lost_app|now apply closed_app].
    + intros j H. rewrite set_nth_length in H. rewrite items_app', (wi_none W H). cbn. assert (i <> j) by (assert (i < List.length (w_iters w))%nat by (apply nth_error_Some; congruence); lia).
      now rewrite (proj2 (Nat.eqb_neq i j) H0).
    + rewrite lazies_app, app_nil_r. exact (wi_nlz W).
    + intros j p H. exact (lazy_ok_step _ _ M (wi_lz W H)).
  - assert (I : incl (dc_files d) U) by (apply HI; now left). assert (X := dask_ok HU I isz s k (wi_good W)). destruct (get_dask_h isz d s k (w_h w)) as [r st']. destruct X as (G & M & X).
    destruct r as [parts|e].
    + injection H as <- <-. assert (X' : match get_dask_array isz d s k with Ok rows => (forall p, In p parts -> exists q, lazy_is d st' p q) /\ List.concat (map (fun p => ds_slice (do_ds (lp_obj p)) (lp_first p) (lp_first p + lp_rows p)) parts) = rows | Err _ => False end).
      { destruct X as [X|[X _]]; [|discriminate]. destruct (get_dask_array isz d s k); [exact X|contradiction]. }
      clear X. destruct (get_dask_array isz d s k) as [rows|] eqn:ED; [|contradiction]. destruct X' as [X1 X2].
      split; [|cbn; rewrite ED; now left]. split; cbn [w_h w_iters w_lazy].
      * exact G.
      * intros f Hf H. rewrite (proj2 M) in H. apply in_or_app. left. exact (wi_there W Hf H).
      * rewrite made_app, app_nil_r. exact (wi_nit W).
      * intros i it H. apply (iter_ok_step M (wi_it W H)). reflexivity.
      * intros i H. rewrite items_app', (wi_none W H). reflexivity.
      * rewrite lazies_app, !app_length, (wi_nlz W). reflexivity.
      * intros i p H. destruct (Nat.lt_ge_cases i (List.length (w_lazy w))) as [L|L].
        -- rewrite nth_error_app1 in H by exact L. exact (lazy_ok_step _ _ M (wi_lz W H)).
        -- rewrite nth_error_app2 in H by exact L. destruct (i - List.length (w_lazy w))%nat as [|j] eqn:EJ; [|destruct j; discriminate]. injection H as <-.
           assert (Ei : i = List.length (w_lazy w)) by lia. exists d, s, k. split; [rewrite lazies_app, Ei, (wi_nlz W), nth_error_app2, Nat.sub_diag by lia; reflexivity|]. split; [exact I|]. split; [rewrite ED, X2; reflexivity|].
           intros p Hp. destruct (X1 p Hp) as (q & (ds & O1 & _ & O2) & _). split; [exact O2|left; exact O1].
    + injection H as <- <-. split; [apply winv_read; try assumption; try reflexivity; discriminate|]. cbn. destruct X as [X|[X1 X2]].
      * left. destruct (get_dask_array isz d s k); [contradiction|]. cbn. now subst.
      * right. injection X1 as ->. split; [reflexivity|exact (unav_lost W I X2)].
  - destruct (nth_error (w_lazy w) i) as [parts|] eqn:E.
    + destruct (compute_some parts (w_h w)) as (r & EC & X). rewrite EC in H. injection H as <- <-. split.
      * assert (Y := @winv_read es log w (w_h w) (EvCompute i) (RRows r) W (wi_good W) (mono_refl _)). apply Y; try reflexivity; discriminate.
      * cbn. destruct (wi_lz W E) as (d & s & k & L1 & L2 & L3 & L4). exists d, s, k. split; [exact L1|]. rewrite L3. destruct X as [->|[-> (p & Hp & H)]]; [now left|right; split; [reflexivity|]].
        destruct (L4 p Hp) as [_ [L|L]]; [congruence|exact L].
    + injection H as <- <-. split.
      * assert (X := @winv_read es log w (w_h w) (EvCompute i) (RMade (Err EIndexError)) W (wi_good W) (mono_refl _)). destruct w as [w1 w2 w3]; cbn [w_h w_iters w_lazy] in *. apply X; try reflexivity; discriminate.
      * cbn. rewrite <- (wi_nlz W). now apply nth_error_None.
  - injection H as <- <-. split; [|destruct ctx; reflexivity].
    assert (X := @winv_read es log w (w_h w) (EvEnter d ctx) (RMade (if ctx then Ok tt else Err EException)) W (wi_good W) (mono_refl _)). destruct w as [w1 w2 w3]; cbn [w_h w_iters w_lazy] in *. apply X; try reflexivity; discriminate.
  - injection H as <- <-. split; [|reflexivity]. destruct ctx.
    2:{ assert (X := @winv_read es log w (w_h w) (EvExit d false) (RMade (Ok tt)) W (wi_good W) (mono_refl _)). apply X; try reflexivity; discriminate. }
    assert (I : incl (dc_files d) U) by (apply HI; now left). destruct (close_rest (dc_files d) (w_h w)) as [C1 C2].
    assert (CL : forall (d' : dcoll) (o : @dsobj V) f, incl (dc_files d') U -> In f (dc_files d') -> do_name o = fname f -> valid_obj (fold_left (fun s f => close_h f s) (dc_files d) (w_h w)) o = false ->
       valid_obj (w_h w) o = false \/ closed_meanwhile (es ++ [EvExit d true]) d').
    { intros d' o f I' Hf En Hv. destruct (close_gone Hv) as [Hv'|(g & Hg & Eg)]; [now left|]. right. exists g, d. assert (g = f) as -> by (apply HU; [now apply I|now apply I'|congruence]).
      split; [exact Hf|]. split; [exact Hg|]. apply in_or_app. right. now left. }
    split; cbn [w_h w_iters w_lazy].
    + intros f Hf. rewrite C2. exact (wi_good W Hf).
    + intros f Hf H. rewrite C1 in H. apply in_or_app. left. exact (wi_there W Hf H).
    + rewrite made_app, app_nil_r. exact (wi_nit W).
    + intros i it H. destruct (wi_it W H) as (K1 & K2 & K3 & K4 & K5).
      assert (K := @iter_ok_step es log (w_h w) (w_h w) i it (EvExit d true) (RMade (Ok tt)) (mono_refl _) (wi_it W H) eq_refl). destruct K as (J1 & J2 & J3 & J4 & J5).
      split; [exact J1|]. split; [exact J2|]. split; [exact J3|]. split; [|exact J5]. intros (x & Hx & Hv). destruct (K3 x Hx) as [O1 O2].
      destruct (CL (it_data it) (snd (snd x)) (fst (snd x)) K2 O1 O2 Hv) as [V1|V1]; [|exact V1]. apply J4. exists x. auto.
    + intros i H. rewrite items_app', (wi_none W H). reflexivity.
    + rewrite lazies_app, app_nil_r. exact (wi_nlz W).
    + intros i p H. destruct (@lazy_ok_step es log (w_h w) (w_h w) i p (EvExit d true) (RMade (Ok tt)) (mono_refl _) (wi_lz W H)) as (d' & s & k & L1 & L2 & L3 & L4).
      exists d', s, k. split; [exact L1|]. split; [exact L2|]. split; [exact L3|]. intros q Hq. destruct (L4 q Hq) as ((f & F1 & F2) & L5). split; [eauto|]. destruct L5 as [L5|L5]; [|now right].
      destruct (valid_obj (fold_left _ _ _) (lp_obj q)) eqn:EV; [now left|]. destruct (CL d' (lp_obj q) f L2 F1 F2 EV) as [V1|V1]; [congruence|now right].
  - injection H as <- <-. split; [|reflexivity]. split; cbn [w_h w_iters w_lazy].
    + exact (wi_good W).
    + intros f Hf H. cbn [h_there] in H. unfold upd in H. destruct (String.eqb (fname f) nm) eqn:E; [apply String.eqb_eq in E; apply in_or_app; right; left; congruence|]. apply in_or_app. left. exact (wi_there W Hf H).
    + rewrite made_app, app_nil_r. exact (wi_nit W).
    + intros i it H. destruct (@iter_ok_step es log (w_h w) (w_h w) i it (EvRemove nm) (RMade (Ok tt)) (mono_refl _) (wi_it W H) eq_refl) as (J1 & J2 & J3 & J4 & J5).
      split; [exact J1|]. split; [exact J2|]. split; [exact J3|]. split; [exact J4|exact J5].
    + intros i H. rewrite items_app', (wi_none W H). reflexivity.
    + rewrite lazies_app, app_nil_r. exact (wi_nlz W).
    + intros i p H. exact (@lazy_ok_step es log (w_h w) (w_h w) i p (EvRemove nm) (RMade (Ok tt)) (mono_refl _) (wi_lz W H)).
Qed.

Lemma wrun_snoc (w : world V) es e : wrun isz w (es ++ [e]) = (let '(l, w1) := wrun isz w es in let '(y, w2) := wstep isz w1 e in (l ++ [(e, y)], w2)).
Proof.
  revert w. induction es as [|x es IH]; intros w.
  - cbn. destruct (wstep isz w e). reflexivity.
  - cbn [app wrun]. destruct (wstep isz w x) as [y w1]. rewrite IH. destruct (wrun isz w1 es) as [l w2]. destruct (wstep isz w2 e) as [y2 w3]. reflexivity.
Qed.
Lemma run_ok opened there numbers next es : (forall f, In f U -> there (fname f) = true) -> within U es ->
  let '(log, w) := wrun isz (fresh_world (V:=V) opened there numbers next) es in winv es log w.
Proof.
  intros HT. induction es as [|e es IH] using rev_ind; intros HW.
  - cbn. split; cbn; try reflexivity.
    + intros f _. split; cbn; discriminate.
    + intros f Hf H. rewrite (HT f Hf) in H. discriminate.
    + intros [|]; discriminate.
    + intros [|]; discriminate.
  - rewrite wrun_snoc. assert (HW' : within U es) by (intros x d Hx; apply HW; apply in_or_app; now left). specialize (IH HW'). destruct (wrun isz _ es) as [log w]. destruct (wstep isz w e) as [y w'] eqn:ES.
    apply (@step_ok es log w e y w' IH); [|exact ES]. intros d Hd. apply (HW e); [apply in_or_app; right; now left|exact Hd].
Qed.
Lemma answer_ok opened there numbers next before e : (forall f, In f U -> there (fname f) = true) -> within U (before ++ [e]) ->
  let '(log, w) := wrun isz (fresh_world (V:=V) opened there numbers next) before in answer before log e (fst (wstep isz w e)).
Proof.
  intros HT HW. assert (HW' : within U before) by (intros x d Hx; apply HW; apply in_or_app; now left). assert (R := run_ok opened numbers next HT HW'). destruct (wrun isz _ before) as [log w].
  destruct (wstep isz w e) as [y w'] eqn:ES. apply (@step_ok before log w e y w' R); [|exact ES]. intros d Hd. apply (HW e); [apply in_or_app; right; now left|exact Hd].
Qed.

(** ** Closed handles stay closed *)
Definition bounded (st : hst) : Prop := forall n h, h_open st n = Some h -> (h < h_next st)%nat.
Definition dead (st : hst) (o : @dsobj V) : Prop := (do_handle o < h_next st)%nat /\ valid_obj st o = false.
Lemma grows_bounded st st' : grows st st' -> bounded st -> bounded st'.
Proof. intros [L G] B n h H. destruct (G n h H) as [H1|H1]; [specialize (B n h H1); lia|lia]. Qed.
Lemma grows_dead st st' o : grows st st' -> dead st o -> dead st' o.
Proof.
  intros [L G] [D1 D2]. split; [lia|]. unfold valid_obj in *. destruct (h_open st' (do_name o)) as [h|] eqn:E; [|reflexivity]. apply Nat.eqb_neq. intros ->.
  destruct (G _ _ E) as [H|H]; [|lia]. rewrite H, Nat.eqb_refl in D2. discriminate.
Qed.
Lemma close_grows (l : list faccess) st : grows st (fold_left (fun s f => close_h f s) l st).
Proof.
  assert (N : h_next (fold_left (fun s f => close_h f s) l st) = h_next st) by (revert st; induction l as [|f l IH]; intros st; [reflexivity|]; cbn [fold_left]; rewrite IH; reflexivity).
  split; [lia|]. intros n h H. rewrite close_open in H. destruct (existsb _ l); [discriminate|now left].
Qed.
Lemma step_grows es log w e y w' : winv es log w -> (forall d, In d (event_data e) -> incl (dc_files d) U) -> wstep isz w e = (y, w') ->
  grows (w_h w) (w_h w') /\ exists more, w_lazy w' = w_lazy w ++ more.
Proof.
  intros W HI. destruct e as [d t|d s k|d ra|i|d s k|i|d ctx|d ctx|nm]; cbn [wstep]; intros H.
  - assert (I : incl (dc_files d) U) by (apply HI; now left). assert (X := train_ok HU I t (wi_good W)). destruct (train_from_id_h d t (w_h w)) as [r st']. injection H as <- <-. destruct X as (_ & M & _).
    split; [exact (proj2 (proj1 M))|exists []; now rewrite app_nil_r].
  - assert (I : incl (dc_files d) U) by (apply HI; now left). assert (X := array_ok HU I s k (wi_good W)). destruct (get_array_h d s k (w_h w)) as [r st']. injection H as <- <-. destruct X as (_ & M & _).
    split; [exact (proj2 (proj1 M))|exists []; now rewrite app_nil_r].
  - injection H as <- <-. split; [apply grows_refl|exists []; now rewrite app_nil_r].
  - destruct (nth_error (w_iters w) i) as [it|] eqn:E; [|injection H as <- <-; split; [apply grows_refl|exists []; now rewrite app_nil_r]].
    destruct (wi_it W E) as (K1 & K2 & K3 & K4 & K5). assert (N := @next_ok V U HU (it_data it) K2 (it_all it) (it_left it) (it_objs it) (w_h w) (wi_good W) K3).
    destruct (it_next _ _ _ _ _) as [[r [tids' c']] st']. injection H as <- <-. destruct N as (_ & M & _). split; [exact (proj2 (proj1 M))|exists []; now rewrite app_nil_r].
  - assert (I : incl (dc_files d) U) by (apply HI; now left). assert (X := dask_ok HU I isz s k (wi_good W)). destruct (get_dask_h isz d s k (w_h w)) as [r st']. destruct X as (_ & M & _).
    destruct r as [parts|e]; injection H as <- <-; (split; [exact (proj2 (proj1 M))|]); [exists [parts]; reflexivity|exists []; now rewrite app_nil_r].
  - destruct (nth_error (w_lazy w) i) as [parts|] eqn:E; [|injection H as <- <-; split; [apply grows_refl|exists []; now rewrite app_nil_r]].
    destruct (compute_some parts (w_h w)) as (r & EC & X). rewrite EC in H. injection H as <- <-. split; [apply grows_refl|exists []; now rewrite app_nil_r].
  - injection H as <- <-. split; [apply grows_refl|exists []; now rewrite app_nil_r].
  - injection H as <- <-. split; [destruct ctx; [apply close_grows|apply grows_refl]|exists []; now rewrite app_nil_r].
  - injection H as <- <-. split; [split; [cbn; lia|intros n h H; now left]|exists []; now rewrite app_nil_r].
Qed.
Lemma wrun_grows w es more log : winv es log w -> within U (es ++ more) ->
  let '(log', w') := wrun isz w more in winv (es ++ more) (log ++ log') w' /\ ((h_next (w_h w) <= h_next (w_h w'))%nat /\ (bounded (w_h w) -> bounded (w_h w'))) /\ (forall o, dead (w_h w) o -> dead (w_h w') o) /\ exists l, w_lazy w' = w_lazy w ++ l.
Proof.
  revert w es log. induction more as [|e more IH]; intros w es log W HW.
  - cbn. rewrite !app_nil_r. split; [exact W|]. split; [split; [lia|auto]|]. split; [auto|]. exists []. now rewrite app_nil_r.
  - cbn [wrun]. destruct (wstep isz w e) as [y w1] eqn:E. assert (HI : forall d, In d (event_data e) -> incl (dc_files d) U) by (intros d Hd; apply (HW e); [apply in_or_app; right; now left|exact Hd]).
    destruct (step_ok W HI E) as [W1 _]. destruct (step_grows W HI E) as [G1 (l1 & L1)]. specialize (IH w1 (es ++ [e]) (log ++ [(e, y)]) W1). rewrite <- app_assoc in IH. specialize (IH HW).
    destruct (wrun isz w1 more) as [l2 w2]. destruct IH as (W2 & B2 & D2 & (l3 & L3)). rewrite <- app_assoc in W2. split; [exact W2|].
    split; [split; [destruct B2, G1; lia|intros B; apply (proj2 B2); exact (grows_bounded G1 B)]|]. split; [intros o D; apply D2; exact (grows_dead G1 D)|]. exists (l1 ++ l3). rewrite L3, L1, app_assoc. reflexivity.
Qed.
Lemma wrun_app (w : world V) a b : wrun isz w (a ++ b) = (let '(l, w1) := wrun isz w a in let '(l2, w2) := wrun isz w1 b in (l ++ l2, w2)).
Proof.
  revert w. induction a as [|x a IH]; intros w.
  - cbn. destruct (wrun isz w b). reflexivity.
  - cbn [app wrun]. destruct (wstep isz w x) as [y w1]. rewrite IH. destruct (wrun isz w1 a) as [l w2]. destruct (wrun isz w2 b). reflexivity.
Qed.
Lemma wrun_length (w : world V) es : List.length (fst (wrun isz w es)) = List.length es.
Proof. revert w. induction es as [|e es IH]; intros w; [reflexivity|]. cbn [wrun]. destruct (wstep isz w e) as [y w1]. specialize (IH w1). destruct (wrun isz w1 es). cbn in *. now rewrite IH. Qed.

(** An array made, its block left: never computed again. *)
Lemma dead_lazy w es log d s k mid after : winv es log w -> bounded (w_h w) -> within U (es ++ EvLazy d s k :: mid ++ EvExit d true :: after) ->
  let '(l, w') := wrun isz w (EvLazy d s k :: mid ++ EvExit d true :: after) in
  snd (hd (EvLazy d s k, RMade (Err EIndexError)) l) = RMade (Ok tt) ->
  fst (wstep isz w' (EvCompute (List.length (w_lazy w)))) = RRows (Err EValueError).
Proof.
  intros W B HW. assert (I : incl (dc_files d) U) by (apply (HW (EvLazy d s k)); [apply in_or_app; right; now left|now left]).
  cbn [wrun]. destruct (wstep isz w (EvLazy d s k)) as [y w1] eqn:E1. rewrite wrun_app.
  assert (HW1 : within U ((es ++ [EvLazy d s k]) ++ mid)).
  { intros e x He. apply HW. rewrite <- app_assoc in He. apply in_app_or in He. apply in_or_app. destruct He as [He|He]; [now left|right]. destruct He as [He|He]; [now left|right]. apply in_or_app. now left. }
  assert (HI : forall x, In x (event_data (EvLazy d s k)) -> incl (dc_files x) U) by (intros x [<-|[]]; exact I).
  destruct (step_ok W HI E1) as [W1 _]. destruct (step_grows W HI E1) as [G1 _]. assert (B1 := grows_bounded G1 B).
  assert (R := wrun_grows W1 HW1). destruct (wrun isz w1 mid) as [l2 w2]. destruct R as (W2 & [NXT B2] & _ & (x2 & L2)).
  cbn [wrun]. destruct (wstep isz w2 (EvExit d true)) as [y3 w3] eqn:E3. 
  assert (HI3 : forall x, In x (event_data (EvExit d true)) -> incl (dc_files x) U) by (intros x [<-|[]]; exact I).
  destruct (step_ok W2 HI3 E3) as [W3 _]. destruct (step_grows W2 HI3 E3) as [_ (x3 & L3)].
  assert (HW3 : within U ((((es ++ [EvLazy d s k]) ++ mid) ++ [EvExit d true]) ++ after)) by (rewrite <- !app_assoc; exact HW).
  assert (R := wrun_grows W3 HW3). destruct (wrun isz w3 after) as [l4 w4] eqn:E4. destruct R as (W4 & _ & D4 & (x4 & L4)).
  cbn [hd snd]. intros ->.
  (* the parts of the array *)
  cbn [wstep] in E1. assert (X := dask_ok HU I isz s k (wi_good W)). destruct (get_dask_h isz d s k (w_h w)) as [r st1] eqn:EG. destruct X as (_ & _ & X). destruct r as [parts|]; [|discriminate].
  injection E1 as <-. cbn [w_lazy w_h] in *. destruct X as [X|[X _]]; [|discriminate]. destruct (get_dask_array isz d s k) as [rows|] eqn:ED; [|contradiction]. destruct X as [X1 X2].
  assert (NE : parts <> []). { intros ->. revert EG. unfold get_dask_h, hbind, hret. destruct (sorted_chunks_h d s k (w_h w)) as [[c|] q]; [|discriminate]. destruct (mapH _ c q) as [[[|a r]|] q2]; try discriminate. destruct (forallb _ r); discriminate. }
  assert (NT : nth_error (w_lazy w4) (List.length (w_lazy w)) = Some parts).
  { rewrite L4, L3, L2. rewrite <- !app_assoc. rewrite nth_error_app2, Nat.sub_diag by lia. reflexivity. }
  cbn [wstep]. rewrite NT. destruct (compute_some parts (w_h w4)) as (r & EC & H). rewrite EC. cbn [fst]. f_equal.
  destruct H as [->|[-> _]]; [|reflexivity]. exfalso.
  destruct parts as [|p ps]; [now apply NE|]. destruct (X1 p (or_introl eq_refl)) as (q & (ds & O1 & _ & (f & Hf & On)) & _).
  assert (D : dead (w_h w4) (lp_obj p)).
  { apply D4. cbn [wstep] in E3. injection E3 as _ <-. cbn [w_h]. split.
    - assert (N : forall l st, h_next (fold_left (fun (s : hst) (f : faccess) => close_h f s) l st) = h_next st) by (induction l as [|g l IH]; intros st; [reflexivity|]; cbn [fold_left]; rewrite IH; reflexivity).
      rewrite N. assert (GB : bounded st1) by exact B1. unfold valid_obj in O1. destruct (h_open st1 (do_name (lp_obj p))) as [h|] eqn:EO; [|discriminate]. apply Nat.eqb_eq in O1. specialize (GB _ _ EO). 
      assert (NX : (h_next st1 <= h_next (w_h w2))%nat) by exact NXT. lia.
    - unfold valid_obj. rewrite close_open. replace (existsb _ (dc_files d)) with true; [reflexivity|]. symmetry. apply existsb_exists. exists f. split; [exact Hf|]. rewrite On. apply String.eqb_refl. }
  (* computing needs every part *)
  revert EC. unfold compute_h, hbind. cbn [mapH]. unfold hbind, use_h. rewrite (proj2 D). discriminate.
Qed.
End W.
