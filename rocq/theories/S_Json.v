(** Specification vocabulary for JSON texts. *)
From Verif Require Import Base M_Json.
Local Open Scope string_scope.
Local Open Scope Z_scope.
Local Open Scope list_scope.

Definition digit (c : Z) : Prop := 48 <= c <= 57.
Definition digits1 (t : text) : Prop := t <> [] /\ Forall digit t.
(** The text of a float: an integer without leading zeros, then a fraction, an exponent or both. *)
Definition float_literal (t : text) : Prop := exists sg ip f x, t = sg ++ ip ++ f ++ x /\
  (sg = [] \/ sg = codes "-") /\
  (ip = codes "0" \/ digits1 ip /\ hd 0 ip <> 48) /\
  (f = [] \/ exists ds, f = codes "." ++ ds /\ digits1 ds) /\
  (x = [] \/ exists e s ds, x = e ++ s ++ ds /\ (e = codes "e" \/ e = codes "E") /\ (s = [] \/ s = codes "+" \/ s = codes "-") /\ digits1 ds) /\
  (f <> [] \/ x <> []).

Definition high (c : Z) : Prop := 0xD800 <= c <= 0xDBFF.
Definition low (c : Z) : Prop := 0xDC00 <= c <= 0xDFFF.
Definition code_point (c : Z) : Prop := 0 <= c <= 0x10FFFF.
(** A string in which no high surrogate is followed by a low one. *)
Definition plain_str (s : text) : Prop := Forall code_point s /\
  forall a u v b, s = a ++ u :: v :: b -> high u -> ~ low v.

(** Values which can be written and read back: plain strings, proper floats, no key twice. *)
Inductive plain : json -> Prop :=
| plain_null : plain JNull
| plain_bool : forall b, plain (JBool b)
| plain_int : forall z, plain (JInt z)
| plain_float : forall t, float_literal t \/ t = codes "NaN" \/ t = codes "Infinity" \/ t = codes "-Infinity" -> plain (JFloat t)
| plain_string : forall s, plain_str s -> plain (JStr s)
| plain_list : forall l, (forall v, In v l -> plain v) -> plain (JList l)
| plain_dict : forall l, NoDup (map fst l) -> (forall k v, In (k, v) l -> plain_str k /\ plain v) -> plain (JDict l).

(** repr and float() of modification times: repr gives the text of a float, and float() gives the same number back. *)
Definition faithful (frepr : Z -> text) (fparse : text -> Z) : Prop :=
  forall m, float_literal (frepr m) /\ fparse (frepr m) = m.
(** [p] is the first part of the text [t], without at least its last character. *)
Definition cut_off (p t : text) : Prop := exists q, t = p ++ q /\ q <> [].

(** What the characters between the quotes of a JSON string stand for (RFC 8259, section 7). *)
Definition hex_digit (c v : Z) : Prop := (48 <= c <= 57 /\ v = c - 48) \/ (65 <= c <= 70 /\ v = c - 65 + 10) \/ (97 <= c <= 102 /\ v = c - 97 + 10).
Definition hex_number (t : text) (u : Z) : Prop := exists a b c d va vb vc vd, t = [a; b; c; d] /\
  hex_digit a va /\ hex_digit b vb /\ hex_digit c vc /\ hex_digit d vd /\ u = va * 4096 + vb * 256 + vc * 16 + vd.
Inductive spells : text -> text -> Prop :=
| sp_end : spells [] []
| sp_char : forall c r t, 32 <= c -> c <> ch """" -> c <> ch "\" -> spells r t -> spells (c :: r) (c :: t)
| sp_escape : forall e x r t, In (e, x) [(ch """", ch """"); (ch "\", ch "\"); (ch "/", ch "/"); (ch "b", 8); (ch "f", 12); (ch "n", 10); (ch "r", 13); (ch "t", 9)] ->
    spells r t -> spells (ch "\" :: e :: r) (x :: t)
| sp_unicode : forall h u r t, hex_number h u -> ~ high u -> spells r t -> spells (codes "\u" ++ h ++ r) (u :: t)
| sp_pair : forall h1 h2 u v r t, hex_number h1 u -> hex_number h2 v -> high u -> low v -> spells r t ->
    spells (codes "\u" ++ h1 ++ codes "\u" ++ h2 ++ r) (0x10000 + (u - 0xD800) * 0x400 + (v - 0xDC00) :: t).
