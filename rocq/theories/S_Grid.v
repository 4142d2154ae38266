(** Specification vocabulary for the arrays with module, train and pulse axes. *)
From Verif Require Import Base M_Files M_Reader M_Select M_Components M_Grid S_Reader S_Coll S_Avail S_Series S_Stacking S_Components.
Set Implicit Arguments.
Local Open Scope string_scope.
Local Open Scope list_scope.

Section S.
Context {V : Type}.
Context (first : V -> V) (pulse : V -> Z).
(** Module [n] has the frame [v] in train [t] for pulse [p], it is one of the frames asked for and [t] is a train of the
    detector. *)
Definition det_frame (d : dcoll V) (m : mpx V) (modules : option (list Z)) (k : string) (arg : pulse_arg) (n t p : Z) (v : V) : Prop :=
  exists s f pulses rows i,
    is_module_of d (mx_name m) modules s n /\ In t (mx_train_ids m) /\ holds d f s t /\
    train_frames first pulse f s k t pulses rows /\
    nth_error pulses i = Some p /\ nth_error rows i = Some v /\ chosen arg i p.

(** The value at position [i, j, l], None if this is outside the array. *)
Definition cell3 (c : list (list (list (option V)))) (i j l : nat) : option (option V) :=
  match nth_error c i with
  | Some r => match nth_error r j with Some q => nth_error q l | None => None end
  | None => None
  end.
Definition cell2 (c : list (list (option V))) (i j : nat) : option (option V) :=
  match nth_error c i with Some r => nth_error r j | None => None end.
(** Lengths of the axes. *)
Definition has_shape3 (c : list (list (list (option V)))) (a b e : nat) : Prop :=
  List.length c = a /\ forall r, In r c -> List.length r = b /\ forall q, In q r -> List.length q = e.
Definition has_shape2 (c : list (list (option V))) (a b : nat) : Prop :=
  List.length c = a /\ forall r, In r c -> List.length r = b.
End S.
