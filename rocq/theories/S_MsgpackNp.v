(** Reading the messages of protocol 1.0: msgpack.unpackb(raw=False, object_hook=msgpack_numpy.decode). *)
From Verif Require Import Base M_Export S_Export S_Msgpack.
Set Implicit Arguments.
Local Open Scope string_scope.
Local Open Scope Z_scope.
Local Open Scope list_scope.

(** Types of numpy by their codes: byte order, kind, number of bytes. *)
Definition type_of_code (c : string) : string :=
  match c with
  | "|b1" => "bool" | "|i1" => "int8" | "<i2" => "int16" | "<i4" => "int32" | "<i8" => "int64"
  | "|u1" => "uint8" | "<u2" => "uint16" | "<u4" => "uint32" | "<u8" => "uint64"
  | "<f2" => "float16" | "<f4" => "float32" | "<f8" => "float64" | "<f16" => "float128"
  | "<c8" => "complex64" | "<c16" => "complex128" | "<c32" => "complex256"
  | c => c
  end.
(** How many bytes an integer type has, and whether it is signed. *)
Definition int_type (k : string) : option (bool * nat) :=
  dict_get k [("int8", (true, 1%nat)); ("int16", (true, 2%nat)); ("int32", (true, 4%nat)); ("int64", (true, 8%nat));
              ("uint8", (false, 1%nat)); ("uint16", (false, 2%nat)); ("uint32", (false, 4%nat)); ("uint64", (false, 8%nat))].
Definition float_type (k : string) : option nat :=
  dict_get k [("float16", 2%nat); ("float32", 4%nat); ("float64", 8%nat); ("float128", 16%nat)].
(** The floating point type of the parts of a complex number, and their size. *)
Definition complex_type (k : string) : option (string * nat) :=
  dict_get k [("complex64", ("float32", 4%nat)); ("complex128", ("float64", 8%nat)); ("complex256", ("float128", 16%nat))].

Section Read.
(** numpy: the floating point number of some type in some bytes, as bits of the equal float64. *)
Variable float_of : string -> list Z -> Z.

(** np.frombuffer(data, dtype)[0] *)
Definition number (code : string) (data : list Z) : option wval :=
  let k := type_of_code code in
  if String.eqb k "bool" then match data with [b] => Some (WNpBool (negb (b =? 0))) | _ => None end else
  match int_type k, float_type k, complex_type k with
  | Some (sg, n), _, _ =>
      if (List.length data =? n)%nat then Some (WNp (NInt k (if sg then signed (rev data) else unsigned (rev data)))) else None
  | _, Some n, _ => if (List.length data =? n)%nat then Some (WNp (NFloat k (float_of k data))) else None
  | _, _, Some (p, n) =>
      if (List.length data =? 2 * n)%nat then Some (WNp (NComplex k (float_of p (firstn n data)) (float_of p (skipn n data)))) else None
  | _, _, _ => None
  end.
(** Keys and values in turn. *)
Fixpoint pairs_of (l : list wval) : list (wval * wval) := match l with k :: v :: r => (k, v) :: pairs_of r | _ => [] end.
(** The value of a key of bytes, written as text. *)
Definition field (name : string) (ps : list (wval * wval)) : option wval :=
  option_map snd (find (fun p => match fst p with WBin l => String.eqb (text_of l) name | _ => false end) ps).
Fixpoint lengths (l : list wval) : option (list nat) :=
  match l with
  | [] => Some []
  | WInt z :: r => if z <? 0 then None else option_map (cons (Z.to_nat z)) (lengths r)
  | _ => None
  end.
(** A dictionary with strings as keys: a later value replaces one with the same key. *)
Fixpoint text_dict (d : list (string * wval)) (ps : list (wval * wval)) : option wval :=
  match ps with
  | [] => Some (WMap d)
  | (WStr k, v) :: r => text_dict (dict_set k v d) r
  | _ => None
  end.
(** msgpack_numpy.decode *)
Definition object (ps : list (wval * wval)) : option wval :=
  match field "nd" ps with
  | Some (WBool true) =>
      match field "type" ps, field "shape" ps, field "data" ps with
      | Some (WStr c), Some (WArray l), Some (WBin b) => option_map (fun s => WNd (type_of_code c) s b) (lengths l)
      | _, _, _ => None
      end
  | Some _ => match field "type" ps, field "data" ps with Some (WStr c), Some (WBin b) => number c b | _, _ => None end
  | None => text_dict [] ps
  end.
Definition as_object (o : option (list wval * list Z)) : option (wval * list Z) :=
  match o with Some (l, r) => option_map (fun w => (w, r)) (object (pairs_of l)) | None => None end.

(** One value and the bytes after it. *)
Fixpoint np_get (fuel : nat) (s : list Z) : option (wval * list Z) :=
  match fuel, s with
  | S f, b :: r =>
      match kind_of b with
      | KNow w => Some (w, r)
      | KUint n => opt_map (fun l => WInt (unsigned l)) (take n r)
      | KInt n => opt_map (fun l => WInt (signed l)) (take n r)
      | KFloat => opt_map (fun l => WFloat (unsigned l)) (take 8 r)
      | KStr n => opt_map (fun l => WStr (text_of l)) (take n r)
      | KStrLen n => opt_map (fun l => WStr (text_of l)) (take_len n r)
      | KBinLen n => opt_map WBin (take_len n r)
      | KArray n => opt_map WArray (np_items f n r)
      | KArrayLen n => match take n r with Some (l, r) => opt_map WArray (np_items f (unsigned l) r) | None => None end
      | KMap n => as_object (np_items f (2 * n) r)
      | KMapLen n => match take n r with Some (l, r) => as_object (np_items f (2 * unsigned l) r) | None => None end
      | KNone => None
      end
  | _, _ => None
  end
with np_items (fuel : nat) (n : Z) (s : list Z) : option (list wval * list Z) :=
  match fuel with
  | O => None
  | S f => if n <=? 0 then Some ([], s)
           else match np_get f s with
                | Some (w, r) => opt_map (cons w) (np_items f (n - 1) r)
                | None => None
                end
  end.
Definition np_unpackb (s : list Z) : option wval :=
  match np_get (2 * List.length s + 2) s with Some (w, []) => Some w | _ => None end.
End Read.

(** Numbers of numpy which there are: integers in the range of their type, and floating point numbers. *)
Definition real_number (fl : string -> Z -> Prop) (n : npnum) : Prop :=
  match n with
  | NInt k z => match int_type k with
                | Some (true, n) => - 2 ^ (8 * Z.of_nat n - 1) <= z < 2 ^ (8 * Z.of_nat n - 1)
                | Some (false, n) => 0 <= z < 2 ^ (8 * Z.of_nat n)
                | None => False
                end
  | NFloat k b => float_type k <> None /\ fl k b
  | NComplex k x y => match complex_type k with Some (p, _) => fl p x /\ fl p y | None => False end
  end.
(** What is assumed of numpy: a floating point number is read from its bytes, as many as its type has.  [fl k b]: [b] are
    the bits of a float64 which is a number of the type [k]. *)
Definition numpy_floats (fl : string -> Z -> Prop) (float_bytes : string -> Z -> list Z) (float_of : string -> list Z -> Z) : Prop :=
  forall k n b, float_type k = Some n -> fl k b -> List.length (float_bytes k b) = n /\ float_of k (float_bytes k b) = b.
(** Names of types as str(dtype) gives them: codes of types of this machine's byte order do not occur. *)
Definition type_name (d : string) : Prop := type_of_code d = d.

(** Values packed in protocol 1.0. *)
Inductive proper_n (fl : string -> Z -> Prop) : wval -> Prop :=
| pn_nil : proper_n fl WNil
| pn_bool b : proper_n fl (WBool b)
| pn_int z : - 2 ^ 63 <= z < 2 ^ 64 -> proper_n fl (WInt z)
| pn_float b : 0 <= b < 2 ^ 64 -> proper_n fl (WFloat b)
| pn_str s : proper_n fl (WStr s)
| pn_bin l : Forall byte l -> proper_n fl (WBin l)
| pn_array l : (forall w, In w l -> proper_n fl w) -> proper_n fl (WArray l)
| pn_map d : NoDup (dict_keys d) -> (forall k w, In (k, w) d -> proper_n fl w) -> proper_n fl (WMap d)
| pn_np n : real_number fl n -> proper_n fl (WNp n)
| pn_np_bool b : proper_n fl (WNpBool b)
| pn_nd d s l : type_name d -> (forall n, In n s -> Z.of_nat n < 2 ^ 64) -> proper_n fl (WNd d s l).
(** The same for the data given to feed(). *)
Inductive proper_v (fl : string -> Z -> Prop) : pval -> Prop :=
| pv_none : proper_v fl PNone
| pv_bool b : proper_v fl (PBool b)
| pv_int z : proper_v fl (PInt z)
| pv_float b : 0 <= b < 2 ^ 64 -> proper_v fl (PFloat b)
| pv_str s : proper_v fl (PStr s)
| pv_bytes l : Forall byte l -> proper_v fl (PBytes l)
| pv_list l : (forall v, In v l -> proper_v fl v) -> proper_v fl (PList l)
| pv_tuple l : (forall v, In v l -> proper_v fl v) -> proper_v fl (PTuple l)
| pv_dict d : NoDup (dict_keys d) -> (forall k v, In (k, v) d -> proper_v fl v) -> proper_v fl (PDict d)
| pv_np n : real_number fl n -> (forall k b, n = NFloat k b -> 0 <= b < 2 ^ 64) -> proper_v fl (PNp n)
| pv_np_bool b : proper_v fl (PNpBool b)
| pv_arr a : type_name (a_dtype a) -> (forall n, In n (a_shape a) -> Z.of_nat n < 2 ^ 64) -> proper_v fl (PArr a)
| pv_other : proper_v fl POther.
Definition proper_data (fl : string -> Z -> Prop) (data : sdata) : Prop :=
  NoDup (dict_keys data) /\ forall src ps, In (src, ps) data -> NoDup (dict_keys ps) /\ forall k v, In (k, v) ps -> proper_v fl v.
(** Lengths below 2^32. *)
Inductive small_n : wval -> Prop :=
| sn_nil : small_n WNil
| sn_bool b : small_n (WBool b)
| sn_int z : small_n (WInt z)
| sn_float b : small_n (WFloat b)
| sn_str s : Z.of_nat (String.length s) < 2 ^ 32 -> small_n (WStr s)
| sn_bin l : Z.of_nat (List.length l) < 2 ^ 32 -> small_n (WBin l)
| sn_array l : Z.of_nat (List.length l) < 2 ^ 32 -> (forall w, In w l -> small_n w) -> small_n (WArray l)
| sn_map d : Z.of_nat (List.length d) < 2 ^ 32 -> (forall k w, In (k, w) d -> Z.of_nat (String.length k) < 2 ^ 32 /\ small_n w) -> small_n (WMap d)
| sn_np n : small_n (WNp n)
| sn_np_bool b : small_n (WNpBool b)
| sn_nd d s l : Z.of_nat (String.length d) < 2 ^ 32 -> Z.of_nat (List.length s) < 2 ^ 32 -> Z.of_nat (List.length l) < 2 ^ 32 -> small_n (WNd d s l).
