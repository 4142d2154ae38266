(** Specification vocabulary for the dimensions of detector arrays. *)
From Verif Require Import Base M_Files M_Reader M_Select M_Components S_Reader S_Coll S_Avail S_Series S_Stacking S_Components.
Set Implicit Arguments.
Local Open Scope string_scope.
Local Open Scope list_scope.

(** The names of the dimensions of a frame. *)
Definition frame_names (rank : nat) (names : list string) : Prop :=
  (rank = 0%nat /\ names = []) \/
  (rank = 2%nat /\ names = ["slow_scan"; "fast_scan"]) \/
  (rank = 3%nat /\ names = ["data_gain"; "slow_scan"; "fast_scan"]).

(** The shape of a frame whose row has the shape [item]. *)
Definition frame_item (item : list Z) : list Z := match item with 1%Z :: r => r | _ => item end.
(** Where the pixel [idx] of a frame is in a row of shape [item]: a dimension of length 1 in front is left out of frames. *)
Definition row_index (item : list Z) (idx : list nat) : list nat :=
  match item with 1%Z :: _ => 0%nat :: idx | _ => idx end.

Section S.
Context {V : Type}.
Context (pulse : V -> Z).
(** Module [n] has, in train [t] for pulse [p], the row [v] of a dataset whose rows have the shape [item]; it is one of the frames
    asked for, and [t] is a train of the detector. *)
Definition det_row (d : dcoll V) (m : mpx V) (modules : option (list Z)) (k : string) (arg : pulse_arg) (n t p : Z) (item : list Z) (v : V) : Prop :=
  exists s f prows rows ds i,
    is_module_of d (mx_name m) modules s n /\ In t (mx_train_ids m) /\ holds d f s t /\
    file_rows (fa_file f) false s (pulse_key k) t prows /\ file_rows (fa_file f) false s k t rows /\
    dict_get (data_key false s k) (h5_data (fa_file f)) = Some ds /\ item = ds_item ds /\
    nth_error (List.map pulse prows) i = Some p /\ nth_error rows i = Some v /\ chosen arg i p.
End S.
