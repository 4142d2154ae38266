(** Listing the members of an HDF5 file and converting an image to CBF (karabo_data/utils.py 117-143). *)
From Verif Require Import Base PyStr M_Files M_Nd M_Roi.
Set Implicit Arguments.
Local Open Scope string_scope.
Local Open Scope list_scope.

(** What h5py shows of a file: groups with their members in the order of keys(); datasets and committed types, which are
    not Groups; links which lead nowhere.  Loops of links are left out: on them hdf5_paths ends with RecursionError, as it
    does on more than about a thousand levels. *)
Inductive h5tree := HGroup (ms : list (string * h5tree)) | HOther | HBroken.

(** " " * indent *)
Fixpoint spaces (n : nat) : string := match n with O => "" | S n => String " " (spaces n) end.
(** The number of elements of l[:maxlen]. *)
Definition prefix_len (maxlen : Z) (len : nat) : nat :=
  if (maxlen <? 0)%Z then Z.to_nat (Z.of_nat len + maxlen) else Nat.min (Z.to_nat maxlen) len.

(** utils.py 117-125: the lines printed, and the exception if one ends it.  h5py raises KeyError for ds[k] on a broken link. *)
Fixpoint hdf5_paths (maxlen : Z) (indent : nat) (ds : h5tree) : list string * option exn :=
  match ds with
  | HGroup ms =>
      (fix go (n : nat) (l : list (string * h5tree)) {struct l} : list string * option exn :=
         match l, n with
         | (k, c) :: r, S n =>
             let line := (spaces indent ++ k)%string in
             match c with
             | HBroken => ([line], Some EKeyError)
             | HGroup _ =>
                 let '(o1, e1) := hdf5_paths maxlen (indent + 4) c in
                 match e1 with
                 | Some _ => (line :: o1, e1)
                 | None => let '(o, e) := go n r in (line :: o1 ++ o, e)
                 end
             | HOther => let '(o, e) := go n r in (line :: line :: o, e)
             end
         | _, _ => ([], None)
         end) (prefix_len maxlen (List.length ms)) ms
  | _ => ([], Some EAttributeError)
  end.

(** What print writes. *)
Definition printed (lines : list string) : string := String.concat "" (map (fun l => (l ++ String "010" "")%string) lines).

Section Cbf.
Context {V : Type}.
(** A CBF image file: name, header, data. *)
Record cbf := mk_cbf { cbf_name : string; cbf_header : list (string * string); cbf_data : V }.

(** np_array[index, ...] on an h5py dataset: an integer along the first axis, everything else.  A dataset without axes:
    too many indices, TypeError; it has no rows in [dataset], so that this is not distinguished from an empty one. *)
Definition h5_row (d : @dataset V) (index : Z) : res V :=
  match h5_axis (List.length (ds_rows d)) (IInt index) with
  | Ok (Fix k) => match nth_error (ds_rows d) k with Some v => Ok v | None => Err EValueError end
  | Ok (Take _) => Err ETypeError
  | Err e => Err e
  end.
(** utils.py 128-132; [header or {}]. *)
Definition numpy_to_cbf (d : @dataset V) (index : Z) (header : option (list (string * string))) (name : string) : res cbf :=
  let* v := h5_row d index in Ok (mk_cbf name (match header with Some h => h | None => [] end) v).

(** str.endswith *)
Definition ends_with (suffix s : string) : bool :=
  let n := String.length s in let k := String.length suffix in
  ((k <=? n)%nat && String.eqb (substring (n - k) k s) suffix)%bool.

(** utils.py 135-143: the file written, if any.  [None]: the file cannot be opened.  The header argument is not passed on.
    h5py raises KeyError for a path which is not there. *)
Definition hdf5_to_cbf (f : option (@h5file V)) (cbf_filename : string) (index : Z) (header : option (list (string * string))) : res cbf :=
  match f with
  | None => Err EOSError
  | Some f =>
      match h5_sources05 f with
      | None => Err EKeyError
      | Some paths =>
          match filter (ends_with "image") paths with
          | [] => Err EIndexError
          | image_path :: _ =>
              match dict_get (image_path ++ "/data") (h5_data f) with
              | None => Err EKeyError
              | Some images => numpy_to_cbf images index None cbf_filename
              end
          end
      end
  end.
End Cbf.
