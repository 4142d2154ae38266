(** Properties of stacking detector modules (C36-C38). *)
From Verif Require Import Base PyStr M_Nd M_Stacking S_Stacking L_Stacking L_Stacking2 L_Stacking3 L_Stacking4.
Set Implicit Arguments.
Local Open Scope string_scope.
Local Open Scope list_scope.

(** ** C36: stack_detector_data *)
Theorem C36_module_number : forall dev n, find_module dev = Some n <-> module_number dev n.
Proof. exact find_module_iff. Qed.
Print Assumptions C36_module_number.
Theorem C36_accepts : forall (V : Type) (cast : string -> V -> V) (train : @train_data V) key axis modules fill,
  (exists r, stack_detector_data cast train key axis modules fill = Ok r) <->
  exists shape dt k, stackable train key axis modules shape dt k.
Proof. intros. apply stack_accepts. Qed.
Print Assumptions C36_accepts.
Theorem C36_result : forall (V : Type) (cast : string -> V -> V) (train : @train_data V) key axis modules fill r shape dt k,
  stack_detector_data cast train key axis modules fill = Ok r -> stackable train key axis modules shape dt k ->
  nd_dtype r = dt /\ nd_shape r = insert_at k (Z.to_nat modules) shape /\
  forall m idx, (m < Z.to_nat modules)%nat -> in_range shape idx ->
    shown cast train key shape dt fill (Z.of_nat m) idx (nd_at r (insert_at k m idx)).
Proof. intros V cast train key axis modules fill r shape dt k. apply stack_result. Qed.
Print Assumptions C36_result.
Theorem C36_errors : forall (V : Type) (cast : string -> V -> V) (train : @train_data V) key axis modules fill,
  (train = [] -> stack_detector_data cast train key axis modules fill = Err EValueError) /\
  (forall dev ks, In (dev, ks) train -> find_module dev = None -> stack_detector_data cast train key axis modules fill = Err EValueError) /\
  (forall a b, In a (arrays_of train key) -> In b (arrays_of train key) -> nd_dtype a <> nd_dtype b ->
     stack_detector_data cast train key axis modules fill = Err EValueError) /\
  (forall shape dt, (forall dev keys, In (dev, keys) train -> exists m, find_module dev = Some m) ->
     (forall a, In a (arrays_of train key) -> nd_dtype a = dt /\ (nd_shape a = shape \/ empty_of shape (nd_shape a))) ->
     (exists m a, is_module train key m a /\ nd_shape a = shape /\ (modules <= m)%Z) ->
     stack_detector_data cast train key axis modules fill = Err EIndexError).
Proof. intros. apply stack_errors. Qed.
Print Assumptions C36_errors.
(** More than two shapes cannot be stacked, whichever they are. *)
Theorem C36_three_shapes : forall (V : Type) (cast : string -> V -> V) (train : @train_data V) key axis modules fill a b c,
  In a (arrays_of train key) -> In b (arrays_of train key) -> In c (arrays_of train key) ->
  nd_shape a <> nd_shape b -> nd_shape b <> nd_shape c -> nd_shape a <> nd_shape c ->
  stack_detector_data cast train key axis modules fill = Err EValueError.
Proof. intros V cast train key axis modules fill a b c. apply stack_three_shapes. Qed.
Print Assumptions C36_three_shapes.

Lemma ok_run : forall A B (x : res A) (f : A -> B) b, (match x with Ok a => Some (f a) | Err _ => None end) = Some b -> exists a, x = Ok a /\ f a = b.
Proof. intros A B [a|] f b H; [|discriminate]. injection H as H. eauto. Qed.
(** Examples: module 3 missing the key, module 2 without rows, module 1 given twice. *)
Definition ex_arr (shape : list nat) (b : Z) : nd Z := mk_nd "f4" shape (fun idx => (b + fold_left (fun acc i => (10 * acc + Z.of_nat i)%Z) idx 0%Z)%Z).
Definition ex_cast (dt : string) (x : Z) : Z := x.
Definition ex_train : @train_data Z :=
  [("SPB/DET/1CH0:xtdf", [("image.data", ex_arr [2; 3; 4]%nat 1000)]);
   ("SPB/DET/2CH0:xtdf", [("image.data", ex_arr [0; 3; 4]%nat 0)]);
   ("SPB/DET/3CH0:xtdf", [("other", ex_arr [5]%nat 0)]);
   ("SPB/DET/0CH0:xtdf", [("image.data", ex_arr [2; 3; 4]%nat 2000)]);
   ("MID/DET/1CH0:xtdf", [("image.data", ex_arr [2; 3; 4]%nat 3000)])].
Example C36_example : exists r, stack_detector_data ex_cast ex_train "image.data" (-3) 5 (-1)%Z = Ok r /\
  nd_shape r = [2; 5; 3; 4]%nat /\ nd_at r [1; 1; 2; 3]%nat = 3123%Z /\ nd_at r [1; 0; 2; 3]%nat = 2123%Z /\ nd_at r [1; 2; 2; 3]%nat = (-1)%Z /\ nd_at r [1; 4; 0; 0]%nat = (-1)%Z.
Proof.
  destruct (ok_run (stack_detector_data ex_cast ex_train "image.data" (-3) 5 (-1)%Z)
    (fun r => (nd_shape r, nd_at r [1; 1; 2; 3]%nat, nd_at r [1; 0; 2; 3]%nat, nd_at r [1; 2; 2; 3]%nat, nd_at r [1; 4; 0; 0]%nat))
    (b := ([2; 5; 3; 4]%nat, 3123, 2123, -1, -1)%Z)) as (r & H1 & H2); [vm_compute; reflexivity|].
  exists r. split; [exact H1|]. injection H2 as -> -> -> -> ->. auto.
Qed.
Example C36_example_stackable : exists shape dt k, stackable ex_train "image.data" (-3) 5 shape dt k.
Proof. apply (C36_accepts ex_cast ex_train "image.data" (-3) 5 (-1)%Z). destruct C36_example as (r & H & _). exists r. exact H. Qed.
Example C36_example_number : module_number "SPB_DET_AGIPD1M-1/DET/13CH0:xtdf" 13.
Proof. apply C36_module_number. reflexivity. Qed.
Example C36_example_error : stack_detector_data ex_cast ex_train "image.data" (-3) 1 (-1)%Z = Err EIndexError /\
  stack_detector_data ex_cast (("SPB/XTD9:output", []) :: ex_train) "image.data" (-3) 5 (-1)%Z = Err EValueError.
Proof. split; vm_compute; reflexivity. Qed.

(** ** C37: the lazy view *)
Theorem C37_views_good : forall (V : Type) (train : @train_data V) key axis modules fill v, stack_detector_view train key axis modules fill = Ok v ->
  (- Z.of_nat (sv_ndim v) <= axis < Z.of_nat (sv_ndim v))%Z -> good_view v.
Proof. intros V. apply (views_good (fun _ (x : V) => x)). Qed.
Print Assumptions C37_views_good.
(** One module: the same array, and the view goes on standing for the same array. *)
Theorem C37_one_module : forall (V : Type) (cast : string -> V -> V) (v : sview (V := V)) ixs real full z, good_view v -> asarray cast v = Ok real ->
  np_expand (sv_ndim v) ixs = Ok full -> nth_error full (Z.to_nat (sv_axis v)) = Some (IInt z) -> (- sv_n v <= z)%Z ->
  match view_getitem cast v ixs, nd_index real ixs with
  | Ok (VArray a, v'), Ok b => nd_same a b /\ good_view v' /\ exists real', asarray cast v' = Ok real' /\ nd_same real' real
  | Err _, Err _ => True
  | _, _ => False
  end.
Proof. intros V cast v ixs real full z. apply view_single. Qed.
Print Assumptions C37_one_module.
(** All modules, with two axes kept after the module axis: a view standing for the same array. *)
Theorem C37_all_modules : forall (V : Type) (cast : string -> V -> V) (v : sview (V := V)) ixs real full, good_view v -> asarray cast v = Ok real ->
  np_expand (sv_ndim v) ixs = Ok full -> nth_error full (Z.to_nat (sv_axis v)) = Some full_slice ->
  kept (skipn (S (Z.to_nat (sv_axis v))) full) = 2%nat ->
  match view_getitem cast v ixs, nd_index real ixs with
  | Ok (VView u, v'), Ok b => v' = v /\ good_view u /\ exists r, asarray cast u = Ok r /\ nd_same r b
  | Err _, Err _ => True
  | _, _ => False
  end.
Proof. intros V cast v ixs real full. apply view_all. Qed.
Print Assumptions C37_all_modules.

(** Neither one module nor all of them: refused, whatever numpy would do. *)
Theorem C37_some_modules : forall (V : Type) (cast : string -> V -> V) (v : sview (V := V)) ixs full s, good_view v ->
  np_expand (sv_ndim v) ixs = Ok full -> nth_error full (Z.to_nat (sv_axis v)) = Some (ISlice s) -> s <> mk_slice None None None ->
  view_getitem cast v ixs = Err EException.
Proof.
  intros V cast v ixs full s Hv He Hi Hs. rewrite (@view_getitem_eq _ cast _ _ _ _ Hv He Hi). cbn zeta. unfold is_full_slice.
  destruct s as [[a|] [b|] [c|]]; try reflexivity. now destruct Hs.
Qed.
Print Assumptions C37_some_modules.

Definition ex_view : sview (V := Z) := make_view [(1, ex_arr [2; 3; 4]%nat 1000); (0, ex_arr [2; 3; 4]%nat 2000)]%Z 3 [2; 3; 4]%nat "f4" (-1)%Z (-3).
Lemma ex_view_good : good_view ex_view.
Proof.
  split; [simpl; lia|]. split; [repeat constructor; simpl; intuition lia|]. split; [discriminate|].
  simpl. intros m a [E|[E|[]]]; injection E as <- <-; repeat split; lia.
Qed.
Example C37_example : exists real full, asarray ex_cast ex_view = Ok real /\ np_expand (sv_ndim ex_view) [IEllipsis; ISlice (mk_slice (Some 1%Z) None None); full_slice] = Ok full /\
  nth_error full (Z.to_nat (sv_axis ex_view)) = Some full_slice /\ kept (skipn (S (Z.to_nat (sv_axis ex_view))) full) = 2%nat.
Proof.
  destruct (ok_run (asarray ex_cast ex_view) (fun _ => tt) (b := tt)) as (r & H1 & _); [vm_compute; reflexivity|].
  exists r. eexists. split; [exact H1|]. repeat split.
Qed.
Example C37_example_some : view_getitem ex_cast ex_view [IEllipsis; ISlice (mk_slice (Some 0%Z) (Some 2%Z) None); full_slice; full_slice] = Err EException.
Proof. eapply C37_some_modules; [exact ex_view_good|reflexivity|reflexivity|discriminate]. Qed.
Example C37_example_one : exists a v', view_getitem ex_cast ex_view [IInt 1; IInt (-3); IInt 2] = Ok (VArray a, v') /\ nd_shape a = [4]%nat /\ nd_at a [3]%nat = 2123%Z.
Proof.
  destruct (ok_run (view_getitem ex_cast ex_view [IInt 1; IInt (-3); IInt 2]) (fun p => match fst p with VArray a => Some (nd_shape a, nd_at a [3]%nat) | _ => None end)
    (b := Some ([4]%nat, 2123%Z))) as ([[a|] v'] & H1 & H2); [vm_compute; reflexivity| |discriminate].
  exists a, v'. split; [exact H1|]. injection H2 as -> ->. auto.
Qed.
(** What view and array give for an index expression. *)
Definition two_shapes (v : sview (V := Z)) (ixs : list npix) : option (list nat * list nat) :=
  match asarray ex_cast v, view_getitem ex_cast v ixs with
  | Ok real, Ok (VView u, _) => match nd_index real ixs, asarray ex_cast u with Ok b, Ok r => Some (nd_shape r, nd_shape b) | _, _ => None end
  | _, _ => None end.
Lemma two_shapes_differ : forall v ixs s1 s2, two_shapes v ixs = Some (s1, s2) -> s1 <> s2 -> exists u v' real b r, asarray ex_cast v = Ok real /\
  view_getitem ex_cast v ixs = Ok (VView u, v') /\ nd_index real ixs = Ok b /\ asarray ex_cast u = Ok r /\ nd_shape r <> nd_shape b.
Proof.
  intros v ixs s1 s2 H Hn. unfold two_shapes in H. destruct (asarray ex_cast v) as [real|]; [|discriminate].
  destruct (view_getitem ex_cast v ixs) as [[[a|u] v']|]; try discriminate. destruct (nd_index real ixs) as [b|] eqn:Eb; [|discriminate].
  destruct (asarray ex_cast u) as [r|] eqn:Er; [|discriminate]. injection H as <- <-. exists u, v', real, b, r. auto.
Qed.

(** Another module axis: v[...] moves the module axis. *)
Theorem C37_other_axis_refuted : exists (v u v' : sview (V := Z)) real b r, good_view v /\ asarray ex_cast v = Ok real /\
  view_getitem ex_cast v [IEllipsis] = Ok (VView u, v') /\ nd_index real [IEllipsis] = Ok b /\ asarray ex_cast u = Ok r /\ nd_shape r <> nd_shape b.
Proof.
  set (v := make_view [(0, ex_arr [2; 3; 4]%nat 1000)]%Z 3 [2; 3; 4]%nat "f4" (-1)%Z 0).
  destruct (@two_shapes_differ v [IEllipsis] [2; 3; 3; 4]%nat [3; 2; 3; 4]%nat) as (u & v' & real & b & r & H); [vm_compute; reflexivity|discriminate|].
  exists v, u, v', real, b, r. split; [|exact H].
  split; [simpl; lia|]. split; [repeat constructor; simpl; intuition lia|]. split; [discriminate|]. simpl. intros m a [E|[]]; injection E as <- <-; repeat split; lia.
Qed.
Print Assumptions C37_other_axis_refuted.
(** An integer on one of the last two axes: the module axis moves too. *)
Theorem C37_last_axes_refuted : exists (v u v' : sview (V := Z)) real b r, good_view v /\ asarray ex_cast v = Ok real /\
  view_getitem ex_cast v [IEllipsis; IInt 0] = Ok (VView u, v') /\ nd_index real [IEllipsis; IInt 0] = Ok b /\ asarray ex_cast u = Ok r /\ nd_shape r <> nd_shape b.
Proof.
  destruct (@two_shapes_differ ex_view [IEllipsis; IInt 0] [3; 2; 3]%nat [2; 3; 3]%nat) as (u & v' & real & b & r & H); [vm_compute; reflexivity|discriminate|].
  exists ex_view, u, v', real, b, r. split; [exact ex_view_good|exact H].
Qed.
Print Assumptions C37_last_axes_refuted.
(** A module number below -n is accepted, and afterwards the view stands for another array. *)
Theorem C37_negative_refuted : exists (v v' : sview (V := Z)) a real real' idx, good_view v /\ asarray ex_cast v = Ok real /\
  view_getitem ex_cast v [IInt 0; IInt (-5)] = Ok (VArray a, v') /\ nd_index real [IInt 0; IInt (-5)] = Err EIndexError /\
  asarray ex_cast v' = Ok real' /\ in_range (nd_shape real) idx /\ nd_at real' idx <> nd_at real idx.
Proof.
  destruct (ok_run (asarray ex_cast ex_view) (fun r => (nd_shape r, nd_at r [0; 1; 0; 0]%nat, nd_index r [IInt 0; IInt (-5)]))
    (b := ([2; 3; 3; 4]%nat, 1000, Err EIndexError)%Z)) as (real & H1 & H2); [vm_compute; reflexivity|].
  destruct (ok_run (view_getitem ex_cast ex_view [IInt 0; IInt (-5)]) (fun p => match fst p, asarray ex_cast (snd p) with VArray _, Ok r => Some (nd_at r [0; 1; 0; 0]%nat) | _, _ => None end)
    (b := Some (-1)%Z)) as ([[a|u] v'] & H3 & H4); [vm_compute; reflexivity| |discriminate].
  cbn [fst snd] in H4. destruct (asarray ex_cast v') as [real'|] eqn:E; [|discriminate].
  exists ex_view, v', a, real, real', [0; 1; 0; 0]%nat. injection H2 as K1 K2 K3. injection H4 as H4. rewrite K1.
  split; [exact ex_view_good|]. repeat (split; [assumption|]). split; [repeat constructor|]. rewrite H4, K2. discriminate.
Qed.
Print Assumptions C37_negative_refuted.
(** Two Ellipses are accepted. *)
Theorem C37_two_ellipses_refuted : exists (v u v' : sview (V := Z)) real, good_view v /\ asarray ex_cast v = Ok real /\
  view_getitem ex_cast v [IEllipsis; IEllipsis] = Ok (VView u, v') /\ nd_index real [IEllipsis; IEllipsis] = Err EIndexError.
Proof.
  destruct (ok_run (asarray ex_cast ex_view) (fun r => nd_index r [IEllipsis; IEllipsis]) (b := Err EIndexError)) as (real & H1 & H2); [vm_compute; reflexivity|].
  destruct (ok_run (view_getitem ex_cast ex_view [IEllipsis; IEllipsis]) (fun p => match fst p with VArray _ => false | VView _ => true end) (b := true)) as ([[a|u] v'] & H3 & H4);
    [vm_compute; reflexivity|discriminate|].
  exists ex_view, u, v', real. split; [exact ex_view_good|]. auto.
Qed.
Print Assumptions C37_two_ellipses_refuted.

(** ** C38: stack_data *)
Theorem C38_order : forall (V : Type) (train : @train_data V) key axis xcept r, NoDup (map fst train) -> stack_data train key axis xcept = Ok r ->
  exists devs arrays shape k, to_stack train key xcept devs arrays /\ devs <> [] /\
    (forall a, In a arrays -> nd_shape a = shape /\ nd_dtype a = nd_dtype r) /\
    (k <= List.length shape)%nat /\ (axis = Z.of_nat k \/ axis + Z.of_nat (S (List.length shape)) = Z.of_nat k)%Z /\
    nd_shape r = insert_at k (List.length devs) shape /\
    forall i idx a, nth_error arrays i = Some a -> in_range shape idx -> nd_at r (insert_at k i idx) = nd_at a idx.
Proof. intros V train key axis xcept r. apply stack_data_ok. Qed.
Print Assumptions C38_order.
Theorem C38_accepts : forall (V : Type) (train : @train_data V) key axis xcept, NoDup (map fst train) ->
  ((exists r, stack_data train key axis xcept = Ok r) <->
   (exists d, In d (map fst train) /\ ~ In d xcept) /\
   exists shape dt, (forall d ks, In (d, ks) train -> ~ In d xcept -> exists a, dict_get key ks = Some a /\ nd_shape a = shape /\ nd_dtype a = dt) /\
     (- Z.of_nat (S (List.length shape)) <= axis <= Z.of_nat (List.length shape))%Z).
Proof. intros V train key axis xcept. apply stack_data_accepts. Qed.
Print Assumptions C38_accepts.
Theorem C38_errors : forall (V : Type) (train : @train_data V) key axis xcept e, NoDup (map fst train) -> stack_data train key axis xcept = Err e ->
  (e = EKeyError /\ exists d ks, In (d, ks) train /\ ~ In d xcept /\ dict_get key ks = None) \/
  (e = EValueError /\ forall d ks, In (d, ks) train -> ~ In d xcept -> dict_get key ks <> None).
Proof. intros V train key axis xcept e. apply stack_data_errors. Qed.
Print Assumptions C38_errors.
(** The numbers in a name are well defined. *)
Theorem C38_numbers : forall s, exists l, digit_groups s l /\ forall l', digit_groups s l' -> l' = l.
Proof. intros s. exists (name_numbers s). split; [apply name_numbers_spec|]. intros l'. apply digit_groups_fun. Qed.
Print Assumptions C38_numbers.

Definition ex_named : @train_data Z :=
  [("A_12_1", [("d", ex_arr [2; 2]%nat 100)]); ("A_12_0", [("d", ex_arr [2; 2]%nat 200)]); ("slow", []); ("B_7_0", [("d", ex_arr [2; 2]%nat 300)])].
Example C38_example : exists r, stack_data ex_named "d" (-3) ["slow"] = Ok r /\ nd_shape r = [3; 2; 2]%nat /\
  nd_at r [0; 1; 1]%nat = 311%Z /\ nd_at r [1; 1; 1]%nat = 211%Z /\ nd_at r [2; 0; 0]%nat = 100%Z.
Proof.
  destruct (ok_run (stack_data ex_named "d" (-3) ["slow"]) (fun r => (nd_shape r, nd_at r [0; 1; 1]%nat, nd_at r [1; 1; 1]%nat, nd_at r [2; 0; 0]%nat))
    (b := ([3; 2; 2]%nat, 311, 211, 100)%Z)) as (r & H1 & H2); [vm_compute; reflexivity|].
  exists r. split; [exact H1|]. injection H2 as -> -> -> ->. auto.
Qed.
Example C38_example_key : stack_data ex_named "d" (-3) [] = Err EKeyError /\ NoDup (map fst ex_named).
Proof. split; [reflexivity|]. repeat constructor; simpl; intuition discriminate. Qed.
