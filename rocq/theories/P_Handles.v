(** C83: leaving a 'with' block closes the files; they can be read again afterwards, and always give the same data.
    Objects handed out earlier (iterators, lazy arrays) give the same data or fail. *)
From Verif Require Import Base PyStr M_Files M_Machinery M_Reader M_Series M_Select M_Handles S_Handles L_Base L_Handles L_Handles2 L_Handles3 Ex_Files.
Local Open Scope string_scope.
Local Open Scope list_scope.

(** Whatever was done before - reading other data, iterating, closing, removing files - a train or an array read from a
    collection is the one its files hold, or opening a file which was removed fails. *)
Theorem C83_train : forall (V : Type) (isz : string -> Z) (U : list (faccess V)) opened there numbers next before d t log w,
  one_each U -> (forall f, In f U -> there (fname f) = true) -> within U (before ++ [EvTrain d t]) ->
  wrun isz (fresh_world opened there numbers next) before = (log, w) ->
  fst (wstep isz w (EvTrain d t)) = RTrain (train_from_id d t) \/
  (fst (wstep isz w (EvTrain d t)) = RTrain (Err EOSError) /\ lost before d).
Proof.
  intros V isz U opened there numbers next before d t log w HU HT HW E. assert (A := answer_ok isz HU opened numbers next HT HW). rewrite E in A. cbn [wstep] in *.
  destruct (train_from_id_h d t (w_h w)) as [r st']. cbn in *. destruct A as [->|[-> A]]; [left; reflexivity|right; split; [reflexivity|exact A]].
Qed.
Theorem C83_array : forall (V : Type) (isz : string -> Z) (U : list (faccess V)) opened there numbers next before d s k log w,
  one_each U -> (forall f, In f U -> there (fname f) = true) -> within U (before ++ [EvArray d s k]) ->
  wrun isz (fresh_world opened there numbers next) before = (log, w) ->
  fst (wstep isz w (EvArray d s k)) = RArray (get_array d s k) \/
  (fst (wstep isz w (EvArray d s k)) = RArray (Err EOSError) /\ lost before d).
Proof.
  intros V isz U opened there numbers next before d s k log w HU HT HW E. assert (A := answer_ok isz HU opened numbers next HT HW). rewrite E in A. cbn [wstep] in *.
  destruct (get_array_h d s k (w_h w)) as [r st']. cbn in *. destruct A as [->|[-> A]]; [left; reflexivity|right; split; [reflexivity|exact A]].
Qed.

(** The calls of next() on the i-th iterator, over the whole history: the trains of the collection, in order and without
    repetition, then StopIteration; or an error in between, only if a file was removed, or a block for one of these files
    was left. *)
Theorem C83_iterator : forall (V : Type) (isz : string -> Z) (U : list (faccess V)) opened there numbers next es log w i d ra,
  one_each U -> (forall f, In f U -> there (fname f) = true) -> within U es ->
  wrun isz (fresh_world opened there numbers next) es = (log, w) -> nth_error (iters_made es) i = Some (d, ra) ->
  exists n m, (n <= List.length (trains d ra))%nat /\
   ((items i log = map Some (firstn n (trains d ra)) ++ repeat None m /\ (m = 0%nat \/ n = List.length (trains d ra))) \/
    (exists e, items i log = map Some (firstn n (trains d ra)) ++ Some (Err e) :: repeat None m /\
       ((e = EOSError /\ lost es d) \/ (e = EValueError /\ closed_meanwhile es d)))).
Proof.
  intros V isz U opened there numbers next es log w i d ra HU HT HW E HI. assert (R := run_ok isz HU opened numbers next HT HW). rewrite E in R.
  destruct (nth_error (w_iters w) i) as [it|] eqn:EI.
  2:{ apply nth_error_None in EI. rewrite (wi_nit R) in EI. apply nth_error_None in EI. congruence. }
  destruct (wi_it R EI) as (K1 & _ & _ & _ & K5). rewrite HI in K1. injection K1 as -> ->. destruct K5 as [(n & m & L & I & M & Q)|(L0 & n & m & e & L & I & X)].
  - exists n, m. split; [exact L|]. left. split; [exact I|]. destruct M as [M|M]; [now left|right]. rewrite M in Q. cbn in Q. symmetry in Q.
    assert (LL := skipn_length n (trains (it_data it) (it_all it))). rewrite Q in LL. cbn in LL. lia.
  - exists n, m. split; [exact L|]. right. exists e. split; [exact I|exact X].
Qed.
(** Nothing removed and no block left: the iterator is never disturbed. *)
Theorem C83_iterator_undisturbed : forall (V : Type) (isz : string -> Z) (U : list (faccess V)) opened there numbers next es log w i d ra,
  one_each U -> (forall f, In f U -> there (fname f) = true) -> within U es ->
  wrun isz (fresh_world opened there numbers next) es = (log, w) -> nth_error (iters_made es) i = Some (d, ra) ->
  ~ lost es d -> ~ closed_meanwhile es d ->
  items i log = map (nth_error (trains d ra)) (seq 0 (List.length (items i log))).
Proof.
  intros V isz U opened there numbers next es log w i d ra HU HT HW E HI NL NC.
  destruct (C83_iterator V isz U opened there numbers next es log w i d ra HU HT HW E HI) as (n & m & L & [[I M]|(e & I & [[_ X]|[_ X]])]); [|contradiction|contradiction].
  rewrite I. apply nth_ext with (d := None) (d' := None).
  - rewrite map_length, seq_length. reflexivity.
  - intros j Hj. rewrite (nth_indep (map (nth_error (trains d ra)) _) None (nth_error (trains d ra) 0)) by (rewrite map_length, seq_length; exact Hj).
    rewrite (map_nth (nth_error (trains d ra))). rewrite seq_nth by exact Hj. rewrite Nat.add_0_l.
    assert (LF : List.length (map Some (firstn n (trains d ra))) = n) by (rewrite map_length, firstn_length; lia).
    destruct (Nat.lt_ge_cases j n) as [J|J].
    + rewrite app_nth1 by lia. rewrite <- (firstn_skipn n (trains d ra)) at 2. rewrite nth_error_app1 by (rewrite firstn_length; lia).
      destruct (nth_error (firstn n (trains d ra)) j) as [x|] eqn:EX.
      * apply nth_error_nth with (d := None). now apply map_nth_error.
      * apply nth_error_None in EX. rewrite firstn_length in EX. lia.
    + rewrite app_nth2 by lia. destruct M as [->|M]; [rewrite app_length, LF in Hj; cbn in Hj; lia|].
      rewrite (proj2 (nth_error_None (trains d ra) j)) by lia. apply nth_repeat.
Qed.

(** Lazy arrays: making one, and computing the i-th one made. *)
Theorem C83_lazy : forall (V : Type) (isz : string -> Z) (U : list (faccess V)) opened there numbers next before d s k log w,
  one_each U -> (forall f, In f U -> there (fname f) = true) -> within U (before ++ [EvLazy d s k]) ->
  wrun isz (fresh_world opened there numbers next) before = (log, w) ->
  fst (wstep isz w (EvLazy d s k)) = RMade (match get_dask_array isz d s k with Ok _ => Ok tt | Err e => Err e end) \/
  (fst (wstep isz w (EvLazy d s k)) = RMade (Err EOSError) /\ lost before d).
Proof.
  intros V isz U opened there numbers next before d s k log w HU HT HW E. assert (A := answer_ok isz HU opened numbers next HT HW). rewrite E in A. cbn [wstep] in *.
  destruct (get_dask_h isz d s k (w_h w)) as [[parts|e] st']; cbn in *; (destruct A as [A|[A1 A2]]; [left; f_equal; destruct (get_dask_array isz d s k); exact A|]); try discriminate.
  right. injection A1 as ->. split; [reflexivity|exact A2].
Qed.
Theorem C83_compute : forall (V : Type) (isz : string -> Z) (U : list (faccess V)) opened there numbers next before i d s k log w,
  one_each U -> (forall f, In f U -> there (fname f) = true) -> within U before ->
  wrun isz (fresh_world opened there numbers next) before = (log, w) -> nth_error (lazies_made log) i = Some (d, s, k) ->
  fst (wstep isz w (EvCompute i)) = RRows (get_dask_array isz d s k) \/
  (fst (wstep isz w (EvCompute i)) = RRows (Err EValueError) /\ closed_meanwhile before d).
Proof.
  intros V isz U opened there numbers next before i d s k log w HU HT HW E HL.
  assert (HW' : within U (before ++ [EvCompute i])) by (intros e x He Hx; apply in_app_or in He; destruct He as [He|[<-|[]]]; [exact (HW e x He Hx)|destruct Hx]).
  assert (A := answer_ok isz HU opened numbers next HT HW'). rewrite E in A. cbn [wstep] in *.
  destruct (nth_error (w_lazy w) i) as [parts|].
  - destruct (compute_h parts (w_h w)) as [r st']. cbn in *. destruct A as (d' & s' & k' & A1 & A2). rewrite HL in A1. injection A1 as <- <- <-. destruct A2 as [->|[-> A]]; [left; reflexivity|right; split; [reflexivity|exact A]].
  - cbn in A. apply nth_error_None in A. congruence.
Qed.

(** 'with' blocks: refused for a collection which does not own its files; leaving one closes every file of the collection. *)
Theorem C83_with : forall (V : Type) (isz : string -> Z) (w : world V) d,
  wstep isz w (EvEnter d false) = (RMade (Err EException), w) /\ wstep isz w (EvEnter d true) = (RMade (Ok tt), w) /\
  wstep isz w (EvExit d false) = (RMade (Ok tt), w) /\
  (forall y w', wstep isz w (EvExit d true) = (y, w') ->
     y = RMade (Ok tt) /\ (forall f, In f (dc_files d) -> h_open (w_h w') (fname f) = None) /\
     (forall n, (forall f, In f (dc_files d) -> fname f <> n) -> h_open (w_h w') n = h_open (w_h w) n)).
Proof.
  intros V isz w d. split; [reflexivity|]. split; [reflexivity|]. split; [destruct w; reflexivity|]. intros y w' H. cbn [wstep] in H. injection H as <- <-. split; [reflexivity|]. cbn [w_h]. split.
  - intros f Hf. rewrite close_open. replace (existsb _ (dc_files d)) with true; [reflexivity|]. symmetry. apply existsb_exists. exists f. split; [exact Hf|]. apply String.eqb_refl.
  - intros n N. rewrite close_open. replace (existsb _ (dc_files d)) with false; [reflexivity|]. symmetry. apply not_true_iff_false. intros H. apply existsb_exists in H. destruct H as (f & Hf & H).
    apply String.eqb_eq in H. apply (N f Hf). congruence.
Qed.
(** A lazy array made before its block is left cannot be computed afterwards, whatever else is done. *)
Theorem C83_lazy_closed : forall (V : Type) (isz : string -> Z) (U : list (faccess V)) opened there numbers next before d s k mid after log w log' w',
  one_each U -> (forall f, In f U -> there (fname f) = true) -> (forall n, opened n = true -> (numbers n < next)%nat) ->
  within U (before ++ EvLazy d s k :: mid ++ EvExit d true :: after) ->
  wrun isz (fresh_world opened there numbers next) before = (log, w) ->
  fst (wstep isz w (EvLazy d s k)) = RMade (Ok tt) ->
  wrun isz (fresh_world opened there numbers next) (before ++ EvLazy d s k :: mid ++ EvExit d true :: after) = (log', w') ->
  nth_error (lazies_made log') (List.length (lazies_made log)) = Some (d, s, k) /\
  fst (wstep isz w' (EvCompute (List.length (lazies_made log)))) = RRows (Err EValueError).
Proof.
  intros V isz U opened there numbers next before d s k mid after log w log' w' HU HT HN HW E1 E2 E3.
  assert (HW1 : within U before) by (intros e x He; apply HW; apply in_or_app; now left).
  assert (R := run_ok isz HU opened numbers next HT HW1). rewrite E1 in R. rewrite wrun_app, E1 in E3.
  assert (B : bounded (w_h w)).
  { assert (R0 := run_ok (V:=V) isz HU opened numbers next HT (es := [])). cbn in R0. assert (W0 : within U (@nil (event V))) by (intros e x []). specialize (R0 W0).
    assert (G := wrun_grows (es := []) (more := before) HU R0). cbn [app] in G. specialize (G HW1). rewrite E1 in G. destruct G as (_ & [_ G] & _). apply G. intros n h H. cbn in *. destruct (opened n) eqn:EO; [|discriminate]. injection H as <-. now apply HN. }
  assert (D := dead_lazy HU R B HW). destruct (wrun isz w _) as [l w2] eqn:EW. injection E3 as <- <-.
  cbn [wrun] in EW. destruct (wstep isz w (EvLazy d s k)) as [y w1] eqn:ES. cbn in E2. subst y. destruct (wrun isz w1 _) as [l3 w3]. injection EW as <- <-. cbn [hd snd] in D. specialize (D eq_refl).
  rewrite (wi_nlz R) in D. split; [|exact D]. unfold lazies_made at 1. rewrite flat_map_app. cbn [flat_map app]. rewrite nth_error_app2 by reflexivity. unfold lazies_made. rewrite Nat.sub_diag. reflexivity.
Qed.

(** An iterator used over the end of a block fails, although the same train can still be read; and reading after the
    block has left the files open again. *)
Definition all_files : list (faccess Z) := dc_files run.
Definition start : world Z := fresh_world (fun _ => true) (fun _ => true) (fun n => if String.eqb n "seq0.h5" then 0%nat else if String.eqb n "seq1.h5" then 1%nat else 2%nat) 3.
Definition size4 : string -> Z := fun _ => 4%Z.
Theorem C83_iterator_survives_refuted :
  exists es log w, one_each all_files /\ within all_files es /\ wrun size4 start es = (log, w) /\
    iters_made es = [(run, false)] /\ (2 <= List.length (trains run false))%nat /\
    items 0 log = [nth_error (trains run false) 0; Some (Err EValueError); None] /\
    fst (wstep size4 w (EvTrain run 11)) = RTrain (train_from_id run 11) /\ (exists x, train_from_id run 11 = Ok x) /\
    h_open (w_h (snd (wstep size4 w (EvTrain run 11)))) "seq0.h5" <> None.
Proof.
  exists [EvEnter run true; EvIter run false; EvNext 0; EvExit run true; EvNext 0; EvNext 0].
  destruct (wrun size4 start [EvEnter run true; EvIter run false; EvNext 0; EvExit run true; EvNext 0; EvNext 0]) as [log w] eqn:E. exists log, w.
  split; [|split; [|split; [reflexivity|]]].
  - intros f g Hf Hg. vm_compute in Hf, Hg. destruct Hf as [<-|[<-|[<-|[]]]], Hg as [<-|[<-|[<-|[]]]]; intros H; try reflexivity; vm_compute in H; discriminate.
  - intros e d He Hd. assert (d = run) as ->; [|apply incl_refl]. destruct He as [<-|[<-|[<-|[<-|[<-|[<-|[]]]]]]]; cbn in Hd; try (now destruct Hd); (destruct Hd as [Hd|Hd]; [now rewrite <- Hd|destruct Hd]).
  - split; [reflexivity|]. split; [vm_compute; lia|]. vm_compute in E. injection E as <- <-. split; [vm_compute; reflexivity|]. split; [vm_compute; reflexivity|]. split; [vm_compute; eexists; reflexivity|]. vm_compute. discriminate.
Qed.
Print Assumptions C83_train.
Print Assumptions C83_array.
Print Assumptions C83_iterator.
Print Assumptions C83_iterator_undisturbed.
Print Assumptions C83_lazy.
Print Assumptions C83_compute.
Print Assumptions C83_with.
Print Assumptions C83_lazy_closed.
Print Assumptions C83_iterator_survives_refuted.

(** A history with all of this: read, iterate, leave the block, read again, remove a file. *)
Definition story : list (event Z) :=
  [EvEnter run true; EvIter run false; EvNext 0; EvLazy run "XGM" "beam.pos"; EvCompute 0; EvArray run "DET:out" "image.data"; EvExit run true;
   EvArray run "DET:out" "image.data"; EvCompute 0; EvNext 0; EvIter run true; EvNext 1; EvExit run true; EvRemove "seq0.h5"].
Example C83_example :
  one_each all_files /\ (forall f, In f all_files -> (fun _ : string => true) (fname f) = true) /\ within all_files story /\
  (let '(log, w) := wrun size4 start story in
   map snd (firstn 2 (skipn 3 log)) = [RMade (Ok tt); RRows (Ok [100; 101; 102; 103; 104]%Z)] /\
   nth_error log 7 = Some (EvArray run "DET:out" "image.data", RArray (get_array run "DET:out" "image.data")) /\ (exists a, get_array run "DET:out" "image.data" = Ok a) /\
   map snd (firstn 2 (skipn 8 log)) = [RRows (Err EValueError); RItem (Some (Err EValueError))] /\
   items 1 log = [nth_error (trains run true) 0] /\
   fst (wstep size4 w (EvTrain run 10)) = RTrain (Err EOSError) /\ lost story run).
Proof.
  split; [|split; [reflexivity|split]].
  - intros f g Hf Hg. vm_compute in Hf, Hg. destruct Hf as [<-|[<-|[<-|[]]]], Hg as [<-|[<-|[<-|[]]]]; intros H; try reflexivity; vm_compute in H; discriminate.
  - intros e d He Hd. assert (d = run) as ->; [|apply incl_refl]. unfold story in He. repeat (destruct He as [<-|He]; [cbn in Hd; try (now destruct Hd); (destruct Hd as [Hd|Hd]; [now rewrite <- Hd|destruct Hd])|]). destruct He.
  - destruct (wrun size4 start story) as [log w] eqn:E. vm_compute in E. injection E as <- <-. split; [reflexivity|]. split; [vm_compute; reflexivity|]. split; [vm_compute; eexists; reflexivity|]. split; [reflexivity|].
    split; [vm_compute; reflexivity|]. split; [vm_compute; reflexivity|]. exists (hd (mk_fa file1 [] [] []) all_files). split; [vm_compute; now left|]. unfold story. vm_compute. tauto.
Qed.
