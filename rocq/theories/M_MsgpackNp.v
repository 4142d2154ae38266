(** Model of the bytes packed in protocol 1.0: msgpack.Packer(use_bin_type=True, default=msgpack_numpy.encode).pack,
    export.py 95-100 and 136-137.  msgpack_numpy.encode makes a dictionary with bytes as keys of an array or number of
    numpy (msgpack_numpy 0.4.4; structured types and Python's complex are not modelled). *)
From Verif Require Import Base M_Export M_Msgpack.
Set Implicit Arguments.
Local Open Scope string_scope.
Local Open Scope Z_scope.
Local Open Scope list_scope.

(** numpy: str(dtype) and dtype.str, on a machine with the least significant byte first.  Types which are not listed
    (other byte orders, texts) have the same form in both. *)
Definition dtype_table : list (string * string) :=
  [("bool", "|b1"); ("int8", "|i1"); ("uint8", "|u1"); ("int16", "<i2"); ("uint16", "<u2"); ("int32", "<i4"); ("uint32", "<u4");
   ("int64", "<i8"); ("uint64", "<u8"); ("float16", "<f2"); ("float32", "<f4"); ("float64", "<f8"); ("float128", "<f16");
   ("complex64", "<c8"); ("complex128", "<c16"); ("complex256", "<c32")].
Definition dtype_str (d : string) : string := match dict_get d dtype_table with Some c => c | None => d end.

(** A dictionary with bytes as keys; its values contain nothing of numpy. *)
Fixpoint np_pairs (d : list (string * wval)) : res (list Z) :=
  match d with
  | [] => Ok []
  | (k, x) :: r => let* kb := mp_pack (WBin (utf8 k)) in let* b := mp_pack x in let* bs := np_pairs r in Ok (kb ++ b ++ bs)
  end.
Definition np_dict (d : list (string * wval)) : res (list Z) :=
  let* h := mp_map_head (Z.of_nat (List.length d)) in let* b := np_pairs d in Ok (h ++ b).

Section Pack.
(** numpy: the bytes of a floating point number of a type, given by the bits of the equal float64. *)
Variable float_bytes : string -> Z -> list Z.

(** numpy: the bytes of an integer, least significant first; of the parts of a complex number. *)
Definition int_bytes (k : string) : nat :=
  if str_in k ["int8"; "uint8"] then 1 else if str_in k ["int16"; "uint16"] then 2 else if str_in k ["int32"; "uint32"] then 4 else 8.
Definition complex_part (k : string) : string :=
  if String.eqb k "complex64" then "float32" else if String.eqb k "complex128" then "float64" else "float128".
Definition np_kind (n : npnum) : string := match n with NInt k _ | NFloat k _ | NComplex k _ _ => k end.
Definition np_data (n : npnum) : list Z :=
  match n with
  | NInt k z => rev (be (int_bytes k) (z mod 256 ^ Z.of_nat (int_bytes k)))
  | NFloat k b => float_bytes k b
  | NComplex k x y => float_bytes (complex_part k) x ++ float_bytes (complex_part k) y
  end.

(** msgpack_numpy.encode *)
Definition np_array (d : string) (shape : list nat) (data : list Z) : list (string * wval) :=
  [("nd", WBool true); ("type", WStr (dtype_str d)); ("kind", WBin []);
   ("shape", WArray (List.map (fun n => WInt (Z.of_nat n)) shape)); ("data", WBin data)].
Definition np_scalar (k : string) (data : list Z) : list (string * wval) :=
  [("nd", WBool false); ("type", WStr (dtype_str k)); ("data", WBin data)].

(** Packer._pack with default *)
Fixpoint np_pack (w : wval) : res (list Z) :=
  match w with
  | WArray l =>
      let* h := mp_array_head (Z.of_nat (List.length l)) in
      let* b := (fix go (l : list wval) : res (list Z) :=
                   match l with [] => Ok [] | x :: r => let* b := np_pack x in let* bs := go r in Ok (b ++ bs) end) l in
      Ok (h ++ b)
  | WMap d =>
      let* h := mp_map_head (Z.of_nat (List.length d)) in
      let* b := (fix go (d : list (string * wval)) : res (list Z) :=
                   match d with
                   | [] => Ok []
                   | (k, x) :: r => let* kb := mp_str k in let* b := np_pack x in let* bs := go r in Ok (kb ++ b ++ bs)
                   end) d in
      Ok (h ++ b)
  | WNp n => np_dict (np_scalar (np_kind n) (np_data n))
  | WNpBool b => np_dict (np_scalar "bool" [if b then 1 else 0])
  | WNd d s data => np_dict (np_array d s data)
  | w => mp_pack w
  end.

(** export.py 138-139: the message has one part. *)
Definition message_bytes_v1 (msg : list frame) : res (list (list Z)) :=
  mapM (fun f => match f with FMsg w => np_pack w | FView _ _ _ => Err ETypeError end) msg.
End Pack.
