(** Assembling several frames at once: position_modules_fast and output_array_for_position_fast (karabo_data/geometry2/__init__.py)
    for data with any number of dimensions before those of a frame. *)

From Verif Require Import Base M_Geom.
From Coq Require Import QArith.
Set Implicit Arguments.
Local Open Scope Z_scope.
Local Open Scope list_scope.

(** A numpy array: its shape and the value at each index tuple. *)
Record ndz (A : Type) := mk_ndz { nz_shape : list Z; nz_at : list Z -> A }.
Arguments mk_ndz {A} _ _. Arguments nz_shape {A} _. Arguments nz_at {A} _ _.

(** [l[-n:]] and [l[:-n]] *)
Definition lastn {B} (n : nat) (l : list B) : list B := skipn (List.length l - n) l.
Definition uptolast {B} (n : nat) (l : list B) : list B := firstn (List.length l - n) l.

Fixpoint zl_eqb (a b : list Z) : bool :=
  match a, b with
  | [], [] => true
  | x :: a, y :: b => (x =? y) && zl_eqb a b
  | _, _ => false
  end.

Section Arrays.
Context {A : Type}.

(** A view of an array, where the last two axes are indexed in another way. *)
Definition on_last2 (h w : Z) (f : Z -> Z -> Z * Z) (a : ndz A) : ndz A :=
  mk_ndz (uptolast 2 (nz_shape a) ++ [h; w])
    (fun idx => match lastn 2 idx with
                | [y; x] => nz_at a (uptolast 2 idx ++ [fst (f y x); snd (f y x)])
                | _ => nz_at a idx
                end).

(** 930: data[..., i, :, :], for i >= 0 *)
Definition nd_module (i : Z) (a : ndz A) : res (ndz A) :=
  match lastn 3 (nz_shape a) with
  | [n; h; w] =>
      if i <? n
      then Ok (mk_ndz (uptolast 3 (nz_shape a) ++ [h; w]) (fun idx => nz_at a (uptolast 2 idx ++ i :: lastn 2 idx)))
      else Err EIndexError
  | _ => Err EIndexError
  end.

(** np.split(a, n, axis=-2) and np.split(a, n, axis=-1): ValueError unless the axis can be divided *)
Definition nd_split2 (n : nat) (a : ndz A) : res (list (ndz A)) :=
  match lastn 2 (nz_shape a) with
  | [h; w] =>
      if h mod Z.of_nat n =? 0
      then Ok (map (fun i => on_last2 (h / Z.of_nat n) w (fun s f => (Z.of_nat i * (h / Z.of_nat n) + s, f)) a) (seq 0 n))
      else Err EValueError
  | _ => Err EIndexError
  end.
Definition nd_split1 (n : nat) (a : ndz A) : res (list (ndz A)) :=
  match lastn 2 (nz_shape a) with
  | [h; w] =>
      if w mod Z.of_nat n =? 0
      then Ok (map (fun i => on_last2 h (w / Z.of_nat n) (fun s f => (s, Z.of_nat i * (w / Z.of_nat n) + f)) a) (seq 0 n))
      else Err EValueError
  | _ => Err EIndexError
  end.

(** 855-858, 1221-1226, 1446-1449: split_tiles *)
Definition nd_split_tiles (d : detector) (a : ndz A) : res (list (ndz A)) :=
  match d with
  | AGIPD => nd_split2 8 a
  | LPD =>
      let* halves := nd_split1 2 a in
      match halves with
      | [half1; half2] => let* p := nd_split2 8 half1 in let* q := nd_split2 8 half2 in Ok (rev p ++ q)
      | _ => Err EValueError
      end
  | DSSC => nd_split1 2 a
  end.

(** a.swapaxes(-1, -2), and a[..., ::p, ::q] for p and q 1 or -1 *)
Definition nd_swap (a : ndz A) : res (ndz A) :=
  match lastn 2 (nz_shape a) with
  | [h; w] => Ok (on_last2 w h (fun y x => (x, y)) a)
  | _ => Err EValueError
  end.
Definition nd_flip (p q : Z) (a : ndz A) : res (ndz A) :=
  match lastn 2 (nz_shape a) with
  | [h; w] => Ok (on_last2 h w (fun y x => (flip p h y, flip q w x)) a)
  | _ => Err EIndexError
  end.

(** 100, 110: self.transform *)
Definition nd_transform (g : gfrag) (a : ndz A) : res (ndz A) :=
  if g_swap g then let* b := nd_swap a in nd_flip (g_fs_order g) (g_ss_order g) b
  else nd_flip (g_ss_order g) (g_fs_order g) a.

(** A bound of a slice, of an axis of length n *)
Definition bound (n i : Z) : Z := if i <? 0 then Z.max 0 (i + n) else Z.min i n.

(** out[..., y0:y1, x0:x1] = t.  Data of another shape than the block are refused with ValueError (numpy would stretch axes of
    length 1; tiles have none). *)
Definition nd_assign (out : ndz A) (ys xs : Z * Z) (t : ndz A) : res (ndz A) :=
  match lastn 2 (nz_shape out) with
  | [H; W] =>
      let ya := bound H (fst ys) in let yb := bound H (snd ys) in
      let xa := bound W (fst xs) in let xb := bound W (snd xs) in
      if zl_eqb (nz_shape t) (uptolast 2 (nz_shape out) ++ [Z.max 0 (yb - ya); Z.max 0 (xb - xa)]) then
        Ok (mk_ndz (nz_shape out)
              (fun idx => match lastn 2 idx with
                          | [y; x] => if in_slice (ya, yb) y && in_slice (xa, xb) x
                                      then nz_at t (uptolast 2 idx ++ [y - ya; x - xa]) else nz_at out idx
                          | _ => nz_at out idx
                          end))
      else Err EValueError
  | _ => Err EIndexError
  end.

(** 932-937 *)
Definition nd_place (centre : Z * Z) (tiles_data : list (ndz A)) (out : ndz A) (jg : Z * gfrag) : res (ndz A) :=
  let '(j, g) := jg in
  let* data := nth_res tiles_data (Z.to_nat j) in
  let y := fst (g_corner g) + fst centre in
  let x := snd (g_corner g) + snd centre in
  let '(h, w) := g_dims g in
  let* t := nd_transform g data in
  nd_assign out (y, y + h) (x, x + w) t.

(** 911-915: make_output_array; [nan] is the value np.full writes *)
Definition nd_output (nan : A) (sn : snapped) (extra : list Z) : ndz A :=
  mk_ndz (extra ++ [fst (sn_size sn); snd (sn_size sn)]) (fun _ => nan).

(** 917-939: position_modules.  The argument out is an array and whether the type of the data can safely be cast to its type. *)
Definition nd_position_modules (nan : A) (d : detector) (sn : snapped) (data : ndz A) (out : option (ndz A * bool)) : res (ndz A * (Z * Z)) :=
  if negb (zl_eqb (lastn 3 (nz_shape data)) [n_modules d; mod_ss d; mod_fs d]) then Err EAssertionError
  else
    let lead := uptolast 3 (nz_shape data) in
    let* o0 := match out with
               | None => Ok (nd_output nan sn lead)
               | Some (o, cast) =>
                   if negb (zl_eqb (nz_shape o) (lead ++ [fst (sn_size sn); snd (sn_size sn)])) then Err EAssertionError
                   else if negb cast then Err ETypeError
                   else Ok o
               end in
    let* o := foldM (fun acc im =>
                 let* m := nd_module (fst im) data in
                 let* tiles := nd_split_tiles d m in
                 foldM (nd_place (sn_centre sn) tiles) acc (zenum (snd im)))
               o0 (zenum (sn_modules sn)) in
    Ok (o, sn_centre sn).

(** 309-338: position_modules_fast *)
Definition nd_position_modules_fast (nan : A) (rs : Q) (d : detector) (g : geometry) (data : ndz A) (out : option (ndz A * bool))
  : res (ndz A * (Z * Z)) :=
  let* sn := snap_geometry rs d g in
  nd_position_modules nan d sn data out.

(** 289-307: output_array_for_position_fast *)
Definition nd_output_array (nan : A) (rs : Q) (d : detector) (g : geometry) (extra : list Z) : res (ndz A) :=
  let* sn := snap_geometry rs d g in
  Ok (nd_output nan sn extra).
End Arrays.
