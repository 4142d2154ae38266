(** Model of karabo_data/stacking.py. *)
From Verif Require Import Base PyStr M_Nd.
Set Implicit Arguments.
Local Open Scope string_scope.
Local Open Scope list_scope.

(** ** Numbers in source names (ASCII names) *)
Definition is_digit (c : ascii) : bool := (48 <=? nat_of_ascii c)%nat && (nat_of_ascii c <=? 57)%nat.
Definition digit_val (c : ascii) : Z := Z.of_nat (nat_of_ascii c - 48).
(** The leading digits and the rest. *)
Fixpoint take_digits (s : string) : string * string :=
  match s with
  | EmptyString => ("", "")
  | String c r => if is_digit c then let '(d, t) := take_digits r in (String c d, t) else ("", s)
  end.
(** int(s) for a string of digits. *)
Fixpoint int_from (acc : Z) (s : string) : Z :=
  match s with EmptyString => acc | String c r => int_from (10 * acc + digit_val c)%Z r end.
Definition int_of (s : string) : Z := int_from 0 s.

(** stacking.py 91: re.search(r'/DET/(\d+)CH', device), the number found. *)
Definition match_module (s : string) : option Z :=
  match strip_prefix "/DET/" s with
  | None => None
  | Some r => let '(d, t) := take_digits r in
      match d with
      | EmptyString => None
      | _ => if starts_with "CH" t then Some (int_of d) else None
      end
  end.
Fixpoint find_module (s : string) : option Z :=
  match match_module s with
  | Some n => Some n
  | None => match s with EmptyString => None | String _ r => find_module r end
  end.
(** stacking.py 45: map(int, re.findall(r'\d+', d)): the maximal groups of digits; [acc] is the value of the group
    being read. *)
Fixpoint groups (acc : option Z) (s : string) : list Z :=
  match s with
  | EmptyString => match acc with Some z => [z] | None => [] end
  | String c r =>
      if is_digit c then groups (Some (10 * (match acc with Some z => z | None => 0 end) + digit_val c)%Z) r
      else match acc with Some z => z :: groups None r | None => groups None r end
  end.
Definition name_numbers (s : string) : list Z := groups None s.
(** Python comparison of lists of integers, <=. *)
Fixpoint zlist_leb (a b : list Z) : bool :=
  match a, b with
  | [], _ => true
  | _ :: _, [] => false
  | x :: a', y :: b' => if (x <? y)%Z then true else if (y <? x)%Z then false else zlist_leb a' b'
  end.
Fixpoint nlist_leb (a b : list nat) : bool :=
  match a, b with
  | [], _ => true
  | _ :: _, [] => false
  | x :: a', y :: b' => if (x <? y)%nat then true else if (y <? x)%nat then false else nlist_leb a' b'
  end.

Section Stack.
Context {V : Type}.
(** Converting the fill value to an element type (numpy). *)
Variable cast : string -> V -> V.
Notation nd := (nd V).
(** The data of a train: for each source, its keys. *)
Definition train_data := list (string * list (string * nd)).

(** stacking.py 38-53: [stack_data]. *)
Definition stack_data (train : train_data) (data : string) (axis : Z) (xcept : list string) : res nd :=
  let devices := filter (fun d => negb (str_in d xcept)) (dict_keys train) in
  match devices with
  | [] => Err EValueError
  | _ =>
      let* arrays := mapM (fun d => match dict_get d train with
                                    | Some keys => match dict_get data keys with Some a => Ok a | None => Err EKeyError end
                                    | None => Err EKeyError end)
                          (isort (fun a b => zlist_leb (name_numbers a) (name_numbers b)) devices) in
      if (1 <? List.length (nodup string_dec (map (@nd_dtype V) arrays)))%nat then Err EValueError
      else np_stack arrays axis
  end.

(** Dictionaries with integer keys. *)
Fixpoint zd_get (k : Z) (d : list (Z * nd)) : option nd :=
  match d with [] => None | (k', v) :: r => if (k =? k')%Z then Some v else zd_get k r end.
Fixpoint zd_set (k : Z) (v : nd) (d : list (Z * nd)) : list (Z * nd) :=
  match d with [] => [(k, v)] | (k', v') :: r => if (k =? k')%Z then (k, v) :: r else (k', v') :: zd_set k v r end.

(** stacking.py 129-147: a StackView.  [l[:k]] and [l[k:]] for any integer [k]. *)
Definition py_upto {A} (l : list A) (k : Z) : list A :=
  firstn (Z.to_nat (if k <? 0 then Z.max 0 (k + Z.of_nat (List.length l)) else k)%Z) l.
Definition py_from {A} (l : list A) (k : Z) : list A :=
  skipn (Z.to_nat (if k <? 0 then Z.max 0 (k + Z.of_nat (List.length l)) else k)%Z) l.
Record sview := mk_view {
  sv_data : list (Z * nd);
  sv_n : Z;
  sv_mod_shape : list nat;
  sv_dtype : string;
  sv_fill : V;
  sv_axis : Z
}.
Definition sv_ndim (v : sview) : nat := S (List.length (sv_mod_shape v)).
Definition make_view (data : list (Z * nd)) (n : Z) (shape : list nat) (dtype : string) (fill : V) (axis : Z) : sview :=
  mk_view data n shape dtype fill (if axis <? 0 then axis + Z.of_nat (S (List.length shape)) else axis)%Z.
Definition sv_shape (v : sview) : list nat :=
  py_upto (sv_mod_shape v) (sv_axis v) ++ Z.to_nat (sv_n v) :: py_from (sv_mod_shape v) (sv_axis v).

(** stacking.py 88-102: the loop over the devices. *)
Definition collect_modules (train : train_data) (data : string) : res (list (Z * nd) * list nd) :=
  foldM (fun acc dev =>
    match find_module (fst dev) with
    | None => Err EValueError
    | Some n => match dict_get data (snd dev) with
                | None => Ok acc
                | Some a => Ok (zd_set n a (fst acc), snd acc ++ [a])
                end
    end) ([], []) train.
(** stacking.py 85-126: [stack_detector_data], the StackView it makes. *)
Definition stack_detector_view (train : train_data) (data : string) (axis modules : Z) (fill : V) : res sview :=
  match train with
  | [] => Err EValueError
  | _ =>
      let* p := collect_modules train data in
      let '(mods, arrays) := p in
      let dtypes := nodup string_dec (map (@nd_dtype V) arrays) in
      let shapes := nodup (list_eq_dec Nat.eq_dec) (map (@nd_shape V) arrays) in
      if (1 <? List.length dtypes)%nat then Err EValueError
      else
        let* q :=
          (if (1 <? List.length shapes)%nat then
             match isort nlist_leb shapes with
             | s1 :: s2 :: _ =>
                 if (2 <? List.length shapes)%nat then Err EValueError
                 else match s1 with
                      | [] => Err EIndexError       (* s1[0] *)
                      | d :: t => if negb (d =? 0)%nat || negb (nat_list_eqb t (tl s2)) then Err EValueError
                                  else Ok (filter (fun m => negb (nat_list_eqb (nd_shape (snd m)) s1)) mods,
                                           filter (fun s => negb (nat_list_eqb s s1)) shapes)
                      end
             | _ => Err EException                  (* not reached *)
             end
           else Ok (mods, shapes)) in
        let '(mods, shapes) := q in
        match mods with
        | [] => Err EValueError                     (* max() of an empty sequence *)
        | _ =>
            if (modules <=? fold_right Z.max 0 (map fst mods))%Z then Err EIndexError
            else match dtypes, shapes with
                 | dt :: _, sh :: _ => Ok (make_view mods modules sh dt fill axis)
                 | _, _ => Err EKeyError            (* pop from an empty set *)
                 end
        end
  end.

(** stacking.py 200-210: [asarray]. *)
Definition asarray (v : sview) : res nd :=
  let arr := nd_full cast (Z.to_nat (sv_n v) :: sv_mod_shape v) (sv_fill v) (sv_dtype v) in
  let* arr := foldM (fun a m => nd_set0 a (fst m) (snd m)) arr (sv_data v) in
  moveaxis0 arr (sv_axis v).
Definition stack_detector_data (train : train_data) (data : string) (axis modules : Z) (fill : V) : res nd :=
  let* v := stack_detector_view train data axis modules fill in asarray v.

(** stacking.py 181-191: [_get_single_mod]; the view remembers the filled module. *)
Definition get_single_mod (v : sview) (modno : Z) (ixs : list npix) : res (nd * sview) :=
  match zd_get modno (sv_data v) with
  | Some a => let* r := nd_index a ixs in Ok (r, v)
  | None =>
      if (sv_n v <=? modno)%Z then Err EIndexError
      else
        let a := nd_full cast (sv_mod_shape v) (sv_fill v) (sv_dtype v) in
        let v' := mk_view (zd_set modno a (sv_data v)) (sv_n v) (sv_mod_shape v) (sv_dtype v) (sv_fill v) (sv_axis v) in
        let* r := nd_index a ixs in Ok (r, v')
  end.
(** stacking.py 193-198: [_get_all_mods]; the new view has the default stack axis. *)
Definition get_all_mods (v : sview) (ixs : list npix) : res sview :=
  let* new := mapM (fun m => let* r := nd_index (snd m) ixs in Ok (fst m, r)) (sv_data v) in
  match new with
  | [] => Err EIndexError
  | (_, a) :: _ => Ok (make_view new (sv_n v) (nd_shape a) (sv_dtype v) (sv_fill v) (-3))
  end.
Inductive view_item := VArray (a : nd) | VView (u : sview).
(** stacking.py 155-179: [__getitem__], and the view afterwards. *)
Definition view_expand (ndim : nat) (ixs : list npix) : list npix :=
  if existsb is_ellipsis ixs then
    before_ellipsis ixs ++ repeat full_slice (S ndim - List.length ixs) ++ after_ellipsis ixs
  else ixs ++ repeat full_slice (ndim - List.length ixs).
Definition is_full_slice (i : npix) : bool :=
  match i with ISlice (mk_slice None None None) => true | _ => false end.
Definition view_getitem (v : sview) (ixs : list npix) : res (view_item * sview) :=
  let slices := view_expand (sv_ndim v) ixs in
  let* modno := py_index slices (sv_axis v) in
  let mod_slices := py_upto slices (sv_axis v) ++ py_from slices (sv_axis v + 1) in
  match modno with
  | IInt z => let* r := get_single_mod v (if z <? 0 then z + sv_n v else z)%Z mod_slices in Ok (VArray (fst r), snd r)
  | _ => if is_full_slice modno then let* u := get_all_mods v mod_slices in Ok (VView u, v)
         else Err EException
  end.
End Stack.
