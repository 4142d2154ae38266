(** Model of the bytes msgpack.Packer(use_bin_type=True).pack makes, export.py 95-102 (msgpack-python, pack.h and
    pack_template.h).  Bytes are integers from 0 to 255.  A string of the model stands for its UTF-8 encoding.

    Not modelled: the limit of 511 nested containers (ValueError); the dictionaries msgpack_numpy makes, which occur
    in protocol 1.0 only, are in M_MsgpackNp. *)
From Verif Require Import Base M_Export.
Set Implicit Arguments.
Local Open Scope string_scope.
Local Open Scope Z_scope.
Local Open Scope list_scope.

(** [n] bytes, the most significant one first. *)
Fixpoint be (n : nat) (z : Z) : list Z :=
  match n with O => [] | S k => z / 256 ^ Z.of_nat k mod 256 :: be k z end.
Fixpoint utf8 (s : string) : list Z :=
  match s with EmptyString => [] | String c r => Z.of_nat (nat_of_ascii c) :: utf8 r end.

(** msgpack_pack_long_long and msgpack_pack_unsigned_long_long: the shortest format. *)
Definition mp_int (z : Z) : list Z :=
  if z <? - 2 ^ 31 then 0xd3 :: be 8 (z mod 2 ^ 64)
  else if z <? - 2 ^ 15 then 0xd2 :: be 4 (z mod 2 ^ 32)
  else if z <? - 2 ^ 7 then 0xd1 :: be 2 (z mod 2 ^ 16)
  else if z <? - 2 ^ 5 then 0xd0 :: be 1 (z mod 2 ^ 8)
  else if z <? 0 then [z + 256]
  else if z <? 2 ^ 7 then [z]
  else if z <? 2 ^ 8 then 0xcc :: be 1 z
  else if z <? 2 ^ 16 then 0xcd :: be 2 z
  else if z <? 2 ^ 32 then 0xce :: be 4 z
  else 0xcf :: be 8 z.
(** msgpack_pack_str, _bin, _array and _map: the first bytes.  Packer refuses lengths of 2^32 and more with
    ValueError. *)
Definition mp_str_head (n : Z) : res (list Z) :=
  if n <? 32 then Ok [0xa0 + n]
  else if n <? 2 ^ 8 then Ok (0xd9 :: be 1 n)
  else if n <? 2 ^ 16 then Ok (0xda :: be 2 n)
  else if n <? 2 ^ 32 then Ok (0xdb :: be 4 n)
  else Err EValueError.
Definition mp_bin_head (n : Z) : res (list Z) :=
  if n <? 2 ^ 8 then Ok (0xc4 :: be 1 n)
  else if n <? 2 ^ 16 then Ok (0xc5 :: be 2 n)
  else if n <? 2 ^ 32 then Ok (0xc6 :: be 4 n)
  else Err EValueError.
Definition mp_array_head (n : Z) : res (list Z) :=
  if n <? 16 then Ok [0x90 + n]
  else if n <? 2 ^ 16 then Ok (0xdc :: be 2 n)
  else if n <? 2 ^ 32 then Ok (0xdd :: be 4 n)
  else Err EValueError.
Definition mp_map_head (n : Z) : res (list Z) :=
  if n <? 16 then Ok [0x80 + n]
  else if n <? 2 ^ 16 then Ok (0xde :: be 2 n)
  else if n <? 2 ^ 32 then Ok (0xdf :: be 4 n)
  else Err EValueError.
Definition mp_str (s : string) : res (list Z) :=
  let* h := mp_str_head (Z.of_nat (String.length s)) in Ok (h ++ utf8 s).

(** Packer._pack *)
Fixpoint mp_pack (w : wval) : res (list Z) :=
  match w with
  | WNil => Ok [0xc0]
  | WBool b => Ok [if b then 0xc3 else 0xc2]
  | WInt z => Ok (mp_int z)
  | WFloat bits => Ok (0xcb :: be 8 bits)
  | WStr s => mp_str s
  | WBin l => let* h := mp_bin_head (Z.of_nat (List.length l)) in Ok (h ++ l)
  | WArray l =>
      let* h := mp_array_head (Z.of_nat (List.length l)) in
      let* b := (fix go (l : list wval) : res (list Z) :=
                   match l with [] => Ok [] | x :: r => let* b := mp_pack x in let* bs := go r in Ok (b ++ bs) end) l in
      Ok (h ++ b)
  | WMap d =>
      let* h := mp_map_head (Z.of_nat (List.length d)) in
      let* b := (fix go (d : list (string * wval)) : res (list Z) :=
                   match d with
                   | [] => Ok []
                   | (k, x) :: r => let* kb := mp_str k in let* b := mp_pack x in let* bs := go r in Ok (kb ++ b ++ bs)
                   end) d in
      Ok (h ++ b)
  | WNp _ | WNpBool _ | WNd _ _ _ => Err ENotImplementedError
  end.

(** The parts of a message as bytes: packed values, and the memory behind the views when they are sent (export.py
    149-172; zmq's send_multipart). *)
Definition part_bytes (m : memory) (f : frame) : res (list Z) :=
  match f with FMsg w => mp_pack w | FView b off n => Ok (read m b off n) end.
Definition message_bytes (m : memory) (msg : list frame) : res (list (list Z)) := mapM (part_bytes m) msg.
