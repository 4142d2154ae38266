(** What a client of the Karabo bridge does with a message (protocol of karabo_bridge.Client, not part of the
    repository), and what it should get. *)
From Verif Require Import Base PyStr S_Open M_Export.
Set Implicit Arguments.
Local Open Scope string_scope.
Local Open Scope list_scope.

(** What arrives at the client: bytes.  Memory views are read when the message is sent, in the memory [m] of that time. *)
Inductive wframe := WPacked (w : wval) | WBytes (l : list Z).
Definition transmit (m : memory) (f : frame) : wframe :=
  match f with FMsg w => WPacked w | FView b off n => WBytes (read m b off n) end.

(** An array at the client, and the values in its data. *)
Record carr := mk_carr { c_dtype : string; c_shape : list nat; c_bytes : list Z }.
Inductive cval :=
| CNone | CBool (b : bool) | CInt (z : Z) | CFloat (bits : Z) | CStr (s : string) | CBytes (l : list Z)
| CList (l : list cval) | CDict (d : list (string * cval))
| CNp (n : npnum) | CNpBool (b : bool) | CArr (c : carr).
(** msgpack.unpack(raw=False) with msgpack_numpy.decode. *)
Fixpoint unpack (w : wval) : cval :=
  match w with
  | WNil => CNone | WBool b => CBool b | WInt z => CInt z | WFloat b => CFloat b | WStr s => CStr s | WBin l => CBytes l
  | WArray l => CList (List.map unpack l)
  | WMap d => CDict (List.map (fun p => (fst p, unpack (snd p))) d)
  | WNp n => CNp n | WNpBool b => CNpBool b
  | WNd d s b => CArr (mk_carr d s b)
  end.

(** The position of an element in C order. *)
Fixpoint ravel (shape idx : list nat) : nat :=
  match shape, idx with n :: r, i :: is => i * prod r + ravel r is | _, _ => 0 end.
(** The index is inside the shape. *)
Definition inside (shape idx : list nat) : Prop := Forall2 lt idx shape.

Section Client.
Variable isize : string -> nat.

Definition c_elem (c : carr) (idx : list nat) : list Z :=
  firstn (isize (c_dtype c)) (skipn (ravel (c_shape c) idx * isize (c_dtype c)) (c_bytes c)).

(** The fields of a header. *)
Definition hstr (k : string) (d : list (string * cval)) : option string :=
  match dict_get k d with Some (CStr s) => Some s | _ => None end.
Definition cnat (v : cval) : option nat := match v with CInt z => if (0 <=? z)%Z then Some (Z.to_nat z) else None | _ => None end.
Fixpoint cnats (l : list cval) : option (list nat) :=
  match l with
  | [] => Some []
  | v :: r => match cnat v, cnats r with Some n, Some ns => Some (n :: ns) | _, _ => None end
  end.
(** One header with its payload: "msgpack" starts a source, "array" adds an array to its source.  None: the client
    fails. *)
Definition client := (list (string * list (string * cval)) * list (string * cval))%type.
Definition client_step (st : client) (header payload : wframe) : option client :=
  match header with
  | WPacked hw =>
      match unpack hw with
      | CDict h =>
          match hstr "source" h, hstr "content" h with
          | Some src, Some "msgpack" =>
              match payload, dict_get "metadata" h with
              | WPacked pw, Some md =>
                  match unpack pw with CDict d => Some (dict_set src d (fst st), dict_set src md (snd st)) | _ => None end
              | _, _ => None
              end
          | Some src, Some "array" =>
              match payload, hstr "path" h, hstr "dtype" h, dict_get "shape" h, dict_get src (fst st) with
              | WBytes b, Some path, Some dtype, Some (CList l), Some d =>
                  match cnats l with
                  | Some shape => if Nat.eqb (List.length b) (prod shape * isize dtype)
                                  then Some (dict_set src (dict_set path (CArr (mk_carr dtype shape b)) d) (fst st), snd st)
                                  else None
                  | None => None
                  end
              | _, _, _, _, _ => None
              end
          | _, _ => None
          end
      | _ => None
      end
  | WBytes _ => None
  end.
Fixpoint client_read (st : client) (l : list wframe) : option client :=
  match l with
  | [] => Some st
  | h :: p :: r => match client_step st h p with Some st => client_read st r | None => None end
  | [_] => None
  end.
(** A message of protocol 1.0 has one part: the data; the metadata are those in the data. *)
Definition client_v1 (w : wframe) : option client :=
  match w with
  | WPacked pw =>
      match unpack pw with
      | CDict d =>
          let src := List.map (fun p => match snd p with CDict ps => Some (fst p, ps) | _ => None end) d in
          if forallb (fun o => match o with Some _ => true | None => false end) src
          then let data := flat_map (fun o => match o with Some p => [p] | None => [] end) src in
               Some (data, List.map (fun p => (fst p, match dict_get "metadata" (snd p) with Some v => v | None => CDict [] end)) data)
          else None
      | _ => None
      end
  | WBytes _ => None
  end.
Definition client_decode (l : list wframe) : option client :=
  match l with [w] => client_v1 w | _ => client_read ([], []) l end.

(** The client has the array, as it is in the memory [m]. *)
Definition got_array (m : memory) (a : arr) (c : carr) : Prop :=
  c_dtype c = a_dtype a /\ c_shape c = a_shape a /\
  List.length (c_bytes c) = prod (a_shape a) * isize (a_dtype a) /\
  forall idx, inside (a_shape a) idx -> c_elem c idx = elem isize m a idx.
(** What the client should get for a value: the same value, where tuples become lists.  Numbers of numpy stay the same
    in protocol 1.0 ([np]), apart from float64, and become numbers of Python in protocol 2.2.  Arrays have the same
    type, shape and elements, in the memory [m]. *)
Inductive got (np : bool) (m : memory) : pval -> cval -> Prop :=
| got_none : got np m PNone CNone
| got_bool b : got np m (PBool b) (CBool b)
| got_int z : got np m (PInt z) (CInt z)
| got_float b : got np m (PFloat b) (CFloat b)
| got_str s : got np m (PStr s) (CStr s)
| got_bytes l : got np m (PBytes l) (CBytes l)
| got_list l l' : Forall2 (got np m) l l' -> got np m (PList l) (CList l')
| got_tuple l l' : Forall2 (got np m) l l' -> got np m (PTuple l) (CList l')
| got_dict d d' : Forall2 (fun p p' => fst p = fst p' /\ got np m (snd p) (snd p')) d d' -> got np m (PDict d) (CDict d')
| got_np_int k z : np = false -> got np m (PNp (NInt k z)) (CInt z)
| got_np_float k b : np = false \/ k = "float64" -> got np m (PNp (NFloat k b)) (CFloat b)
| got_np n : np = true -> got np m (PNp n) (CNp n)
| got_np_bool b : np = true -> got np m (PNpBool b) (CNpBool b)
| got_arr a c : got_array m a c -> got np m (PArr a) (CArr c).

(** Two dictionaries with the same keys and related values. *)
Definition same_dict {A B} (R : A -> B -> Prop) (d : list (string * A)) (e : list (string * B)) : Prop :=
  NoDup (dict_keys e) /\
  forall k, match dict_get k d, dict_get k e with Some a, Some b => R a b | None, None => True | _, _ => False end.
(** The client has the data and the metadata: [md] gives the metadata of a source. *)
Definition received (np : bool) (m : memory) (data : sdata) (md : string -> props -> option pval) (c : client) : Prop :=
  same_dict (same_dict (got np m)) data (fst c) /\
  forall src ps, dict_get src data = Some ps ->
    exists x y, md src ps = Some x /\ dict_get src (snd c) = Some y /\ got np m x y.
End Client.

(** ** What can be sent *)
(** Values msgpack can pack. *)
Inductive packable : pval -> Prop :=
| pk_none : packable PNone
| pk_bool b : packable (PBool b)
| pk_int z : (- 2 ^ 63 <= z < 2 ^ 64)%Z -> packable (PInt z)
| pk_float b : packable (PFloat b)
| pk_str s : packable (PStr s)
| pk_bytes l : packable (PBytes l)
| pk_list l : Forall packable l -> packable (PList l)
| pk_tuple l : Forall packable l -> packable (PTuple l)
| pk_dict d : Forall (fun p => packable (snd p)) d -> packable (PDict d)
| pk_float64 b : packable (PNp (NFloat "float64" b)).
(** Values of a property which protocol 2.2 can send: also arrays, and integer and floating point numbers of numpy. *)
Inductive sendable : pval -> Prop :=
| sd_pack v : packable v -> sendable v
| sd_int k z : (- 2 ^ 63 <= z < 2 ^ 64)%Z -> sendable (PNp (NInt k z))
| sd_float k b : sendable (PNp (NFloat k b))
| sd_arr a : sendable (PArr a).

(** A dictionary of Python has no key twice. *)
Definition dict_ok {A} (d : list (string * A)) : Prop := NoDup (dict_keys d).
(** Arrays: a stride for each dimension, in a buffer which exists, lengths below 2^63. *)
Definition arr_ok (h : heap) (a : arr) : Prop :=
  List.length (a_strides a) = List.length (a_shape a) /\ (a_buf a < h_next h)%nat /\
  Forall (fun n => (Z.of_nat n < 2 ^ 63)%Z) (a_shape a).
(** The array is the value of a property in the data. *)
Definition array_in (data : sdata) (a : arr) : Prop :=
  exists src ps k, In (src, ps) data /\ In (k, PArr a) ps.
Definition data_ok (h : heap) (data : sdata) : Prop :=
  dict_ok data /\ (forall src ps, In (src, ps) data -> dict_ok ps) /\ (forall a, array_in data a -> arr_ok h a).
(** The metadata which belong to a source: those given, or, if there are none, those in the data. *)
Definition metadata_of (metadata : option (list (string * pval))) (src : string) (ps : props) : option pval :=
  match metadata with
  | None | Some [] => Some (match dict_get "metadata" ps with Some v => v | None => PDict [] end)
  | Some m => dict_get src m
  end.
(** From [m] to [m'], the arrays in the data and buffers made from the number [n] on were not written. *)
Definition untouched (data : sdata) (n : nat) (m m' : memory) : Prop :=
  forall b i, (exists a, array_in data a /\ a_buf a = b) \/ (n <= b)%nat -> m' b i = m b i.

(** With dummy timestamps: the entries of the metadata [d] of a source, with the time if there was none. *)
Definition stamped (bits : Z) (sec frac : string) (d : list (string * pval)) (k : string) : option pval :=
  match dict_get "timestamp" d with
  | Some _ => dict_get k d
  | None => if String.eqb k "timestamp" then Some (PFloat bits)
            else if String.eqb k "timestamp.sec" then Some (PStr sec)
            else if String.eqb k "timestamp.frac" then Some (PStr frac) else dict_get k d
  end.

(** [sec] and [frac] are the parts of the printed time before and after its only
    point; [full] has at least 18 characters and is [frac] followed by as many
    zeros as are needed for that. *)
Definition printed_time (str sec frac full : string) : Prop :=
  str = (sec ++ "." ++ frac)%string /\ ~ has_char "." sec /\ ~ has_char "." frac /\
  exists zeros, full = (frac ++ zeros)%string /\ (forall c, has_char c zeros -> c = "0"%char) /\
    String.length full = Nat.max 18 (String.length frac).
