(** Reading msgpack, after the msgpack specification (https://github.com/msgpack/msgpack, spec.md): what msgpack.unpackb(raw=False)
    does with bytes.  And a client of the Karabo bridge which only has the bytes. *)
From Verif Require Import Base M_Export S_Export.
Set Implicit Arguments.
Local Open Scope string_scope.
Local Open Scope Z_scope.
Local Open Scope list_scope.

Definition byte (b : Z) : Prop := 0 <= b < 256.
(** The number made by some bytes, the most significant first; as a signed number of [8 * n] bits. *)
Definition unsigned (l : list Z) : Z := fold_left (fun a b => 256 * a + b) l 0.
Definition signed (l : list Z) : Z :=
  let z := unsigned l in let m := 256 ^ Z.of_nat (List.length l) in if z <? m / 2 then z else z - m.
(** The next [n] bytes. *)
Definition take (n : Z) (s : list Z) : option (list Z * list Z) :=
  if n <=? Z.of_nat (List.length s) then Some (firstn (Z.to_nat n) s, skipn (Z.to_nat n) s) else None.
Definition text_of (l : list Z) : string := fold_right (fun b s => String (ascii_of_nat (Z.to_nat b)) s) "" l.

(** The first byte says what follows. *)
Inductive kind :=
| KNow (w : wval)             (* the value is in the first byte *)
| KUint (n : Z) | KInt (n : Z) | KFloat   (* a number of n bytes *)
| KStr (n : Z) | KStrLen (n : Z)      (* n bytes of text; a length of n bytes, then the text *)
| KBinLen (n : Z)
| KArray (n : Z) | KArrayLen (n : Z) | KMap (n : Z) | KMapLen (n : Z)
| KNone.                      (* other formats: not needed here *)
Definition kind_of (b : Z) : kind :=
  if b <? 0x80 then KNow (WInt b)
  else if b <? 0x90 then KMap (b - 0x80)
  else if b <? 0xa0 then KArray (b - 0x90)
  else if b <? 0xc0 then KStr (b - 0xa0)
  else if b =? 0xc0 then KNow WNil
  else if b =? 0xc2 then KNow (WBool false)
  else if b =? 0xc3 then KNow (WBool true)
  else if b =? 0xc4 then KBinLen 1 else if b =? 0xc5 then KBinLen 2 else if b =? 0xc6 then KBinLen 4
  else if b =? 0xcb then KFloat
  else if b =? 0xcc then KUint 1 else if b =? 0xcd then KUint 2 else if b =? 0xce then KUint 4 else if b =? 0xcf then KUint 8
  else if b =? 0xd0 then KInt 1 else if b =? 0xd1 then KInt 2 else if b =? 0xd2 then KInt 4 else if b =? 0xd3 then KInt 8
  else if b =? 0xd9 then KStrLen 1 else if b =? 0xda then KStrLen 2 else if b =? 0xdb then KStrLen 4
  else if b =? 0xdc then KArrayLen 2 else if b =? 0xdd then KArrayLen 4
  else if b =? 0xde then KMapLen 2 else if b =? 0xdf then KMapLen 4
  else if (0xe0 <=? b) && (b <? 256) then KNow (WInt (b - 256))
  else KNone.
(** A length of [n] bytes, then as many bytes. *)
Definition take_len (n : Z) (s : list Z) : option (list Z * list Z) :=
  match take n s with Some (l, r) => take (unsigned l) r | None => None end.
Definition opt_map {A B C} (f : A -> B) (o : option (A * C)) : option (B * C) :=
  match o with Some (a, c) => Some (f a, c) | None => None end.
(** One value and the bytes after it; None if there are too few bytes, a format which is not needed here, or a key
    which is not a string.  [fuel] bounds the recursion. *)
Fixpoint get (fuel : nat) (s : list Z) : option (wval * list Z) :=
  match fuel, s with
  | S f, b :: r =>
      match kind_of b with
      | KNow w => Some (w, r)
      | KUint n => opt_map (fun l => WInt (unsigned l)) (take n r)
      | KInt n => opt_map (fun l => WInt (signed l)) (take n r)
      | KFloat => opt_map (fun l => WFloat (unsigned l)) (take 8 r)
      | KStr n => opt_map (fun l => WStr (text_of l)) (take n r)
      | KStrLen n => opt_map (fun l => WStr (text_of l)) (take_len n r)
      | KBinLen n => opt_map WBin (take_len n r)
      | KArray n => opt_map WArray (get_items f n r)
      | KArrayLen n => match take n r with Some (l, r) => opt_map WArray (get_items f (unsigned l) r) | None => None end
      | KMap n => opt_map WMap (get_pairs f n [] r)
      | KMapLen n => match take n r with Some (l, r) => opt_map WMap (get_pairs f (unsigned l) [] r) | None => None end
      | KNone => None
      end
  | _, _ => None
  end
with get_items (fuel : nat) (n : Z) (s : list Z) : option (list wval * list Z) :=
  match fuel with
  | O => None
  | S f => if n <=? 0 then Some ([], s)
           else match get f s with
                | Some (w, r) => opt_map (cons w) (get_items f (n - 1) r)
                | None => None
                end
  end
(** Pairs go into a dictionary: a later one replaces one with the same key. *)
with get_pairs (fuel : nat) (n : Z) (d : list (string * wval)) (s : list Z) : option (list (string * wval) * list Z) :=
  match fuel with
  | O => None
  | S f => if n <=? 0 then Some (d, s)
           else match get f s with
                | Some (WStr k, r) => match get f r with
                                      | Some (w, r) => get_pairs f (n - 1) (dict_set k w d) r
                                      | None => None
                                      end
                | _ => None
                end
  end.
(** msgpack.unpackb: one value and nothing after it. *)
Definition unpackb (s : list Z) : option wval :=
  match get (2 * List.length s + 2) s with Some (w, []) => Some w | _ => None end.

Section Client.
Variable isize : string -> nat.
(** The client unpacks a header; the header says whether the next part is packed too. *)
Definition content_of (hw : wval) : option string :=
  match unpack hw with CDict h => hstr "content" h | _ => None end.
Definition bytes_step (st : client) (header payload : list Z) : option client :=
  match unpackb header with
  | None => None
  | Some hw =>
      match content_of hw with
      | Some "msgpack" => match unpackb payload with Some pw => client_step isize st (WPacked hw) (WPacked pw) | None => None end
      | _ => client_step isize st (WPacked hw) (WBytes payload)
      end
  end.
Fixpoint bytes_read (st : client) (l : list (list Z)) : option client :=
  match l with
  | [] => Some st
  | h :: p :: r => match bytes_step st h p with Some st => bytes_read st r | None => None end
  | [_] => None
  end.
End Client.

(** Wire values which msgpack can write: bits of floats and bytes in range, no key twice, integers of 64 bits. *)
Inductive proper_w : wval -> Prop :=
| pw_nil : proper_w WNil
| pw_bool b : proper_w (WBool b)
| pw_int z : - 2 ^ 63 <= z < 2 ^ 64 -> proper_w (WInt z)
| pw_float b : 0 <= b < 2 ^ 64 -> proper_w (WFloat b)
| pw_str s : proper_w (WStr s)
| pw_bin l : Forall byte l -> proper_w (WBin l)
| pw_array l : (forall w, In w l -> proper_w w) -> proper_w (WArray l)
| pw_map d : NoDup (dict_keys d) -> (forall k w, In (k, w) d -> proper_w w) -> proper_w (WMap d).
(** Lengths below 2^32. *)
Inductive small_w : wval -> Prop :=
| sw_nil : small_w WNil
| sw_bool b : small_w (WBool b)
| sw_int z : small_w (WInt z)
| sw_float b : small_w (WFloat b)
| sw_str s : Z.of_nat (String.length s) < 2 ^ 32 -> small_w (WStr s)
| sw_bin l : Z.of_nat (List.length l) < 2 ^ 32 -> small_w (WBin l)
| sw_array l : Z.of_nat (List.length l) < 2 ^ 32 -> (forall w, In w l -> small_w w) -> small_w (WArray l)
| sw_map d : Z.of_nat (List.length d) < 2 ^ 32 -> (forall k w, In (k, w) d -> Z.of_nat (String.length k) < 2 ^ 32 /\ small_w w) -> small_w (WMap d).
(** Python values: floats by their 64 bits, bytes in range, dictionaries without a key twice, everywhere inside. *)
Inductive proper_p : pval -> Prop :=
| pp_none : proper_p PNone
| pp_bool b : proper_p (PBool b)
| pp_int z : proper_p (PInt z)
| pp_float b : 0 <= b < 2 ^ 64 -> proper_p (PFloat b)
| pp_str s : proper_p (PStr s)
| pp_bytes l : Forall byte l -> proper_p (PBytes l)
| pp_list l : (forall v, In v l -> proper_p v) -> proper_p (PList l)
| pp_tuple l : (forall v, In v l -> proper_p v) -> proper_p (PTuple l)
| pp_dict d : NoDup (dict_keys d) -> (forall k v, In (k, v) d -> proper_p v) -> proper_p (PDict d)
| pp_np_int k z : proper_p (PNp (NInt k z))
| pp_np_float k b : 0 <= b < 2 ^ 64 -> proper_p (PNp (NFloat k b))
| pp_np_complex k a b : proper_p (PNp (NComplex k a b))
| pp_np_bool b : proper_p (PNpBool b)
| pp_arr a : proper_p (PArr a)
| pp_other : proper_p POther.
(** The data, metadata and time given to feed() are made of such values. *)
Definition good_data (data : sdata) : Prop :=
  forall src ps, In (src, ps) data -> NoDup (dict_keys ps) /\ forall k v, In (k, v) ps -> proper_p v.
Definition good_md (md : list (string * pval)) : Prop := forall s v, In (s, v) md -> proper_p v.
Definition given_md (metadata : option (list (string * pval))) : Prop := match metadata with Some md => good_md md | None => True end.
Definition stamp_bits (now : option (Z * string)) : Prop := match now with Some (b, _) => 0 <= b < 2 ^ 64 | None => True end.
