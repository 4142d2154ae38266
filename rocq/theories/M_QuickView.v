(** Model of utils.QuickView (utils.py 17-114).

    A 3D array is the list of its frames (its entries along the first axis).  The
    displayed image is the title's number and the frame; nothing else of
    matplotlib is modelled. *)

From Verif Require Import Base.

Set Implicit Arguments.
Local Open Scope Z_scope.
Local Open Scope list_scope.

Section QuickView.
Variable A : Type.

(** utils.py 49-51 *)
Record qview := mk_qview { qv_data : option (list A); qv_index : Z; qv_shown : option (Z * A) }.

Definition qv_new : qview := mk_qview None 0 None.

(** An object given as data: a 3D numpy array or anything else. *)
Inductive qv_arg := Frames (l : list A) | Other.

(** utils.py 94-108: display.  data[index, :, :] counts from the end for a negative
    index; None cannot be indexed. *)
Definition qv_display (q : qview) (index : option Z) : qview * res unit :=
  let i := match index with Some i => i | None => qv_index q end in
  match qv_data q with
  | None => (q, Err ETypeError)
  | Some l =>
      match py_index l i with
      | Ok frame => (mk_qview (qv_data q) (qv_index q) (Some (i, frame)), Ok tt)
      | Err e => (q, Err e)
      end
  end.

(** utils.py 75-82: the setter of data *)
Definition qv_set_data (q : qview) (a : qv_arg) : qview * res unit :=
  match a with
  | Other => (q, Err ETypeError)
  | Frames l => qv_display (mk_qview (Some l) 0 (qv_shown q)) None
  end.

(** utils.py 61-69: the setter of pos.  There is no method show: AttributeError. *)
Definition qv_set_pos (q : qview) (pos : Z) : qview * res unit :=
  match qv_data q with
  | None => (q, Ok tt)
  | Some l =>
      if (0 <=? pos) && (pos <? Z.of_nat (List.length l))
      then (mk_qview (qv_data q) pos (qv_shown q), Err EAttributeError)
      else (q, Err EValueError)
  end.

(** utils.py 84-87 and 110-111: next, __next__.  len() without data: AttributeError. *)
Definition qv_next (q : qview) : qview * res unit :=
  match qv_data q with
  | None => (q, Err EAttributeError)
  | Some l =>
      if qv_index q <? Z.of_nat (List.length l)
      then qv_display (mk_qview (qv_data q) (qv_index q + 1) (qv_shown q)) None
      else (q, Ok tt)
  end.

(** utils.py 89-92: prev *)
Definition qv_prev (q : qview) : qview * res unit :=
  if 0 <? qv_index q
  then qv_display (mk_qview (qv_data q) (qv_index q - 1) (qv_shown q)) None
  else (q, Ok tt).

(** utils.py 53-55: __init__ with an array of [size] elements; [truth]: whether its
    only element is true.  The truth value of a larger array is an error. *)
Definition qv_init (size : Z) (truth : bool) (l : list A) : res qview :=
  if 1 <? size then Err EValueError
  else if (size =? 1) && truth then
    let '(q, r) := qv_set_data qv_new (Frames l) in let* _ := r in Ok q
  else Ok qv_new.

Inductive qv_op := QNext | QPrev | QSetPos (z : Z) | QSetData (a : qv_arg) | QDisplay (i : option Z).

Definition qv_step (q : qview) (o : qv_op) : qview * res unit :=
  match o with
  | QNext => qv_next q
  | QPrev => qv_prev q
  | QSetPos z => qv_set_pos q z
  | QSetData a => qv_set_data q a
  | QDisplay i => qv_display q i
  end.

(** The object after a history of calls; exceptions are caught by the caller. *)
Definition qv_run (ops : list qv_op) : qview := fold_left (fun q o => fst (qv_step q o)) ops qv_new.
End QuickView.
Arguments Other {A}.
Arguments QNext {A}. Arguments QPrev {A}. Arguments QSetPos {A} _. Arguments QDisplay {A} _.
Arguments qv_new {A}.
