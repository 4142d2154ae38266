(** C55: open_run, C56: QuickView, C57: representation of slices. *)

From Verif Require Import Base L_Base PyStr S_Open S_Stacking M_Cxi M_OpenRun S_OpenRun L_OpenRun M_QuickView L_QuickView M_Repr S_Repr L_Repr.

Local Open Scope string_scope.
Local Open Scope Z_scope.
Local Open Scope list_scope.

(** ** C55 *)

(** For a proposal number and a run number in any of the accepted forms, the run
    directory is DIR/data/rNNNN, DIR being the first directory found with the name
    pNNNNNN; no such directory is an error. *)
Theorem C55_directory : forall glob n m p r data, 0 <= n -> 0 <= m -> stands_for "p" 6 n p -> stands_for "r" 4 m r ->
  exists ps rs, padded 6 ps n /\ padded 4 rs m /\
  open_run_path glob p r data =
    match glob ("/gpfs/exfel/exp/*/*/p" ++ ps)%string with
    | [] => Err EException
    | d :: _ => Ok (path_join (path_join d data) ("r" ++ rs))
    end.
Proof. intros glob n m p r data H1 H2 H3 H4. exact (@open_run_spec glob n m p r data H1 H2 H3 H4). Qed.
Print Assumptions C55_directory.

(** All forms of the same numbers open the same run. *)
Theorem C55_forms : forall A glob (run_directory : string -> string -> res A) n m p r p' r' data include, 0 <= n -> 0 <= m ->
  stands_for "p" 6 n p -> stands_for "r" 4 m r -> stands_for "p" 6 n p' -> stands_for "r" 4 m r' ->
  open_run glob run_directory p r data include = open_run glob run_directory p' r' data include.
Proof.
  intros A glob rd n m p r p' r' data include Hn Hm H1 H2 H3 H4. unfold open_run.
  destruct (@open_run_spec glob n m p r data Hn Hm H1 H2) as (ps & rs & P1 & R1 & E1).
  destruct (@open_run_spec glob n m p' r' data Hn Hm H3 H4) as (ps' & rs' & P2 & R2 & E2).
  rewrite E1, E2, (padded_fun P1 P2), (padded_fun R1 R2). reflexivity.
Qed.
Print Assumptions C55_forms.

(** Different numbers have different names. *)
Theorem C55_distinct : forall w s n m, padded w s n -> padded w s m -> n = m.
Proof. exact padded_inj. Qed.
Print Assumptions C55_distinct.

(** A proposal given as a path is used as it is. *)
Theorem C55_path : forall glob s r data, has_char "/" s ->
  open_run_path glob (ArgStr s) r data = Ok (path_join (path_join s data) (run_arg r)).
Proof.
  intros glob s r data H. unfold open_run_path, find_proposal. cbn [proposal_arg]. apply char_in_iff in H. fold slash in H.
  rewrite H. cbn [negb andb]. rewrite H. reflexivity.
Qed.
Print Assumptions C55_path.

(** A number with the letter but without the zeros is not completed, so it stands
    for another directory. *)
Theorem C55_unpadded_refuted : forall n s t, 0 <= n -> numeral s n -> (String.length s < 6)%nat -> padded 6 t n ->
  proposal_arg (ArgStr ("p" ++ s)) <> ("p" ++ t)%string.
Proof.
  intros n s t Hn (N & A & D) L (_ & L' & _) E. cbn [proposal_arg] in E. cbn [append] in E.
  cbn [starts_with] in E. rewrite Ascii.eqb_refl in E. cbn [andb negb] in E. rewrite andb_false_r in E. injection E as ->. lia.
Qed.
Print Assumptions C55_unpadded_refuted.

Definition glob_ex (pat : string) : list string :=
  if String.eqb pat "/gpfs/exfel/exp/*/*/p002012" then ["/gpfs/exfel/exp/SPB/201701/p002012"] else [].
Example C55_example :
  stands_for "p" 6 2012 (ArgStr "2012") /\ stands_for "p" 6 2012 (ArgStr "02012") /\ stands_for "p" 6 2012 (ArgStr "p002012") /\
  stands_for "r" 4 243 (ArgStr "r0243") /\
  open_run_path glob_ex (ArgStr "2012") (ArgInt 243) "raw" = Ok "/gpfs/exfel/exp/SPB/201701/p002012/raw/r0243" /\
  open_run_path glob_ex (ArgInt 2012) (ArgStr "243") "proc" = Ok "/gpfs/exfel/exp/SPB/201701/p002012/proc/r0243" /\
  open_run_path glob_ex (ArgStr "p2012") (ArgInt 243) "raw" = Err EException /\
  numeral "2012" 2012 /\ padded 6 "002012" 2012.
Proof.
  assert (N : forall s n, match s with EmptyString => false | _ => true end = true -> (all_digits s /\ decimal s = n) -> numeral s n).
  { intros [|c s] n H [A B]; [discriminate|]. repeat split; auto; try apply A. discriminate. }
  assert (N1 : numeral "2012" 2012) by (apply N; cbn; auto 10).
  assert (N2 : numeral "002012" 2012) by (apply N; cbn; auto 10).
  repeat split; try reflexivity; try discriminate.
  - apply sf_numeral; [exact N1|left; cbn; lia].
  - apply sf_numeral; [apply N; cbn; auto 10|left; cbn; lia].
  - apply (sf_name "p" 6 2012 "002012"). split; [exact N2|]. split; [cbn; lia|left; reflexivity].
  - apply (sf_name "r" 4 243 "0243"). split; [apply N; cbn; auto 10|]. split; [cbn; lia|left; reflexivity].
  - cbn; lia.
Qed.

(** ** C56 *)

(** The position never leaves the data by more than one, whatever was called. *)
Theorem C56_range : forall A (ops : list (qv_op A)) l, qv_data (qv_run ops) = Some l ->
  0 <= qv_index (qv_run ops) <= Z.of_nat (List.length l).
Proof. intros A ops l E. pose proof (run_within ops) as W. unfold within in W. rewrite E in W. exact W. Qed.
Print Assumptions C56_range.

(** Only next at the last frame leaves the data (or setting data without frames). *)
Theorem C56_only_next : forall A (q : qview A) o l, qv_data q = Some l -> 0 <= qv_index q < Z.of_nat (List.length l) ->
  (o = QNext -> qv_index q <> Z.of_nat (List.length l) - 1) -> o <> QSetData (Frames []) ->
  exists l', qv_data (fst (qv_step q o)) = Some l' /\ 0 <= qv_index (fst (qv_step q o)) < Z.of_nat (List.length l').
Proof.
  intros A q o l E H HN HD. apply step_inside; [exists l; auto| |exact HD].
  intros X l' E'. rewrite E in E'. injection E' as <-. exact (HN X).
Qed.
Print Assumptions C56_only_next.

(** next does go past the end: for every data it gives an IndexError and leaves the
    position behind the last frame. *)
Theorem C56_past_end_refuted : forall A (l : list A), l <> [] ->
  exists ops q, qv_run ops = q /\ qv_data q = Some l /\ qv_index q = Z.of_nat (List.length l) - 1 /\
  snd (qv_step q QNext) = Err EIndexError /\ qv_index (fst (qv_step q QNext)) = Z.of_nat (List.length l).
Proof.
  intros A l N. exists (QSetData (Frames l) :: repeat QNext (List.length l - 1)).
  assert (S0 : exists s, fst (qv_step (qv_new (A := A)) (QSetData (Frames l))) = mk_qview (Some l) 0 s).
  { cbn [qv_step qv_set_data]. unfold qv_display. cbn [qv_data qv_index]. destruct (py_index l 0); eexists; reflexivity. }
  destruct S0 as [s S0]. destruct (@nexts A l s (List.length l - 1)) as [s' E]; [lia|].
  assert (L : Z.of_nat (List.length l - 1) = Z.of_nat (List.length l) - 1) by (destruct l; [congruence|cbn [List.length]; lia]).
  unfold qv_run. cbn [fold_left]. rewrite S0, E. eexists. split; [reflexivity|]. split; [reflexivity|]. split; [exact L|].
  cbn [qv_step]. unfold qv_next. cbn [qv_data qv_index]. rewrite L. replace (Z.of_nat (List.length l) - 1 <? Z.of_nat (List.length l)) with true by (symmetry; apply Z.ltb_lt; lia).
  unfold qv_display. cbn [qv_data qv_index]. rewrite Z.sub_add, py_index_end. auto.
Qed.
Print Assumptions C56_past_end_refuted.

(** When next or prev moves to a position inside the data, the frame of that
    position is shown. *)
Theorem C56_shown : forall A (q : qview A) o l, qv_data q = Some l -> o = QNext \/ o = QPrev ->
  qv_index (fst (qv_step q o)) <> qv_index q -> 0 <= qv_index (fst (qv_step q o)) < Z.of_nat (List.length l) ->
  snd (qv_step q o) = Ok tt /\ exists f, nth_error l (Z.to_nat (qv_index (fst (qv_step q o)))) = Some f /\
  qv_shown (fst (qv_step q o)) = Some (qv_index (fst (qv_step q o)), f).
Proof.
  intros A q o l E O D H.
  assert (K : exists i, qv_step q o = qv_display (mk_qview (Some l) i (qv_shown q)) None).
  { destruct O as [-> | ->]; cbn [qv_step] in *.
    - unfold qv_next in *. rewrite E in *. destruct (qv_index q <? _); [eauto|cbn [fst] in D; congruence].
    - unfold qv_prev in *. rewrite E in *. destruct (0 <? qv_index q); [eauto|cbn [fst] in D; congruence]. }
  destruct K as [i K]. rewrite K in *. destruct (display_same (mk_qview (Some l) i (qv_shown q)) None) as [_ X]. rewrite X in *. cbn [qv_index] in *.
  unfold qv_display. cbn [qv_data qv_index]. destruct (py_index_ok H) as (f & Hf & Ef). rewrite Ef. cbn [fst snd qv_shown]. eauto.
Qed.
Print Assumptions C56_shown.

(** display(i) shows frame i, counted from the end if i is negative, under the title i, and does not move; an index out of
    range is an IndexError and shows nothing new.  New data are shown from frame 0 on. *)
Theorem C56_display : forall A (q : qview A) i l, qv_data q = Some l ->
  let q' := fst (qv_step q (QDisplay (Some i))) in
  qv_data q' = qv_data q /\ qv_index q' = qv_index q /\
  (- Z.of_nat (List.length l) <= i < Z.of_nat (List.length l) ->
     snd (qv_step q (QDisplay (Some i))) = Ok tt /\
     exists f, nth_error l (Z.to_nat (if i <? 0 then i + Z.of_nat (List.length l) else i)) = Some f /\ qv_shown q' = Some (i, f)) /\
  (~ (- Z.of_nat (List.length l) <= i < Z.of_nat (List.length l)) ->
     snd (qv_step q (QDisplay (Some i))) = Err EIndexError /\ qv_shown q' = qv_shown q).
Proof.
  intros A q i l E. cbv zeta. cbn [qv_step]. destruct (display_same q (Some i)) as [D1 D2]. split; [exact D1|]. split; [exact D2|]. unfold qv_display. rewrite E.
  unfold py_index. cbv zeta. set (j := if i <? 0 then i + Z.of_nat (List.length l) else i).
  assert (J : (- Z.of_nat (List.length l) <= i < Z.of_nat (List.length l)) <-> (0 <= j < Z.of_nat (List.length l))) by (subst j; destruct (Z.ltb_spec i 0); lia).
  rewrite J. clearbody j. split; intros H.
  - replace ((0 <=? j) && (j <? Z.of_nat (List.length l))) with true by (symmetry; apply andb_true_intro; split; [apply Z.leb_le|apply Z.ltb_lt]; lia).
    destruct (nth_error l (Z.to_nat j)) as [f|] eqn:F; [cbn; eauto|apply nth_error_None in F; lia].
  - replace ((0 <=? j) && (j <? Z.of_nat (List.length l))) with false; [auto|]. symmetry. apply andb_false_iff. rewrite Z.leb_gt, Z.ltb_ge. lia.
Qed.
Print Assumptions C56_display.
(** Without data nothing can be displayed: TypeError, and nothing changes. *)
Theorem C56_no_data : forall A (q : qview A) i, qv_data q = None -> qv_step q (QDisplay i) = (q, Err ETypeError).
Proof. intros A q i E. cbn [qv_step]. unfold qv_display. now rewrite E. Qed.
Print Assumptions C56_no_data.
Theorem C56_new_data : forall A (q : qview A) f l,
  qv_step q (QSetData (Frames (f :: l))) = (mk_qview (Some (f :: l)) 0 (Some (0, f)), Ok tt).
Proof. intros A q f l. cbn [qv_step qv_set_data]. unfold qv_display. cbn [qv_data qv_index]. reflexivity. Qed.
Print Assumptions C56_new_data.

(** Setting pos always raises an error if there are data, also for a valid position,
    which is set; another position is a ValueError and changes nothing. *)
Theorem C56_pos_refuted : forall A (q : qview A) l z, qv_data q = Some l ->
  exists e, snd (qv_step q (QSetPos z)) = Err e /\
    (0 <= z < Z.of_nat (List.length l) -> e = EAttributeError /\ qv_index (fst (qv_step q (QSetPos z))) = z) /\
    (~ 0 <= z < Z.of_nat (List.length l) -> e = EValueError /\ fst (qv_step q (QSetPos z)) = q).
Proof.
  intros A q l z E. cbn [qv_step]. unfold qv_set_pos. rewrite E. destruct ((0 <=? z) && (z <? _)) eqn:C.
  - eexists. split; [reflexivity|]. split; [auto|]. intros H. exfalso. apply andb_true_iff in C. rewrite Z.leb_le, Z.ltb_lt in C. lia.
  - eexists. split; [reflexivity|]. split; [|auto]. intros H. exfalso. apply andb_false_iff in C. rewrite Z.leb_gt, Z.ltb_ge in C. lia.
Qed.
Print Assumptions C56_pos_refuted.

(** Giving the data to the constructor, as documented, fails for every array with
    more than one element. *)
Theorem C56_constructor_refuted : forall A size truth (l : list A), 1 < size -> qv_init size truth l = Err EValueError.
Proof. intros A size truth l H. unfold qv_init. apply Z.ltb_lt in H. rewrite H. reflexivity. Qed.
Print Assumptions C56_constructor_refuted.
(** Of one element: it is shown if it is not zero; an array which is zero or empty is ignored. *)
Theorem C56_constructor_small : forall A (x : A) (l : list A),
  (exists q, qv_init 1 true [x] = Ok q /\ qv_data q = Some [x] /\ qv_index q = 0 /\ qv_shown q = Some (0, x)) /\
  (exists q, qv_init 1 false l = Ok q /\ qv_data q = None /\ qv_shown q = None) /\
  (forall truth, exists q, qv_init 0 truth l = Ok q /\ qv_data q = None /\ qv_shown q = None).
Proof.
  intros A x l. split; [eexists; repeat split|]. split; [eexists; repeat split|]. intros truth. eexists. repeat split.
Qed.
Print Assumptions C56_constructor_small.

Example C56_example :
  let q := qv_run [QSetData (Frames ["f0"; "f1"; "f2"]); QNext; QNext; QPrev] in
  qv_data q = Some ["f0"; "f1"; "f2"] /\ qv_index q = 1 /\ qv_shown q = Some (1, "f1") /\
  qv_index (qv_run [QSetData (Frames ["f0"; "f1"]); QNext; QNext; QNext]) = 2.
Proof. repeat split. Qed.

(** ** C57 *)

(** What is printed is an expression for the object (a tuple needs two elements to have one). *)
Theorem C57_expression : forall c v, match v with VOne _ => True | VTuple l => (2 <= List.length l)%nat end -> slice_expr c v (slice_repr c v).
Proof. exact repr_expr. Qed.
Print Assumptions C57_expression.

(** What stands between the brackets, a tuple counting as its elements, and the
    name can be read off the representation. *)
Theorem C57_unambiguous : forall c c' v v', slice_repr c v = slice_repr c' v' ->
  c = c' /\ match v with VOne i => [i] | VTuple l => l end = match v' with VOne i => [i] | VTuple l => l end.
Proof. exact repr_inj. Qed.
Print Assumptions C57_unambiguous.

(** A tuple of one element is written like the element. *)
Theorem C57_one_tuple_refuted : forall c i, slice_repr c (VTuple [i]) = slice_repr c (VOne i).
Proof. reflexivity. Qed.
Print Assumptions C57_one_tuple_refuted.

Example C57_example :
  slice_repr ByIndex (VTuple [ISlice None (Some 5) (Some (-2)); IEllipsis; IInt (-1); IList [1; 2]]) = "by_index[:5:-2, ..., -1, [1, 2]]" /\
  slice_repr ById (VOne (ISlice (Some 100) None None)) = "by_id[100:]".
Proof. split; reflexivity. Qed.
