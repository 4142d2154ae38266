(** Model of the messages of the Karabo bridge: ZMQStreamer, /repo/karabo_data/export.py lines 57-173.

    Not modelled here: the bytes of msgpack (a packed value is represented by the tree which is packed; the bytes are
    in M_Msgpack and M_MsgpackNp; limits on the depth of nesting are left out), dictionary keys which are not strings, arrays whose type has no
    buffer (object and datetime types). *)
From Verif Require Import Base PyStr M_FilesMap.
Set Implicit Arguments.
Local Open Scope string_scope.
Local Open Scope list_scope.

(** ** Memory and numpy arrays *)
(** The memory: buffers, identified by numbers, of bytes. *)
Definition memory := nat -> Z -> Z.
(** The memory and the number of the next new buffer. *)
Record heap := mk_heap { h_mem : memory; h_next : nat }.
(** A numpy array is a view of a buffer: strides and offset are in bytes. *)
Record arr := mk_arr { a_buf : nat; a_off : Z; a_dtype : string; a_shape : list nat; a_strides : list Z }.
(** Scalar numbers of numpy, with the name of their type; floats by their bits. *)
Inductive npnum := NInt (kind : string) (z : Z) | NFloat (kind : string) (bits : Z) | NComplex (kind : string) (re im : Z).
(** Python values.  [POther]: any object msgpack does not know. *)
Inductive pval :=
| PNone | PBool (b : bool) | PInt (z : Z) | PFloat (bits : Z) | PStr (s : string) | PBytes (l : list Z)
| PList (l : list pval) | PTuple (l : list pval) | PDict (d : list (string * pval))
| PNp (n : npnum) | PNpBool (b : bool) | PArr (a : arr) | POther.
(** What msgpack puts on the wire; [WNp] and [WNd] stand for the dictionaries made by msgpack_numpy.encode. *)
Inductive wval :=
| WNil | WBool (b : bool) | WInt (z : Z) | WFloat (bits : Z) | WStr (s : string) | WBin (l : list Z)
| WArray (l : list wval) | WMap (d : list (string * wval))
| WNp (n : npnum) | WNpBool (b : bool) | WNd (dtype : string) (shape : list nat) (bytes : list Z).
(** Parts of a message: packed values (bytes, made when the data are fed) or memory views (read when they are sent). *)
Inductive frame := FMsg (w : wval) | FView (buf : nat) (off : Z) (len : nat).

Definition prod (l : list nat) : nat := fold_right Nat.mul 1%nat l.
(** All indices of an array, the last one running fastest. *)
Fixpoint indices (shape : list nat) : list (list nat) :=
  match shape with
  | [] => [[]]
  | n :: r => flat_map (fun i => List.map (cons i) (indices r)) (seq 0 n)
  end.
(** numpy: the place of an element. *)
Fixpoint place (idx : list nat) (strides : list Z) : Z :=
  match idx, strides with i :: is, s :: ss => (Z.of_nat i * s + place is ss)%Z | _, _ => 0%Z end.
Definition read (m : memory) (buf : nat) (off : Z) (n : nat) : list Z :=
  List.map (fun i => m buf (off + Z.of_nat i)%Z) (seq 0 n).

Section Export.
(** numpy: the number of bytes of an element of a type. *)
Variable isize : string -> nat.

Definition elem (m : memory) (a : arr) (idx : list nat) : list Z :=
  read m (a_buf a) (a_off a + place idx (a_strides a))%Z (isize (a_dtype a)).
(** numpy: tobytes(), the elements in C order. *)
Definition tobytes (m : memory) (a : arr) : list Z := flat_map (elem m a) (indices (a_shape a)).
(** numpy: flags['C_CONTIGUOUS'] (relaxed strides: dimensions of length 1 are ignored, empty arrays are contiguous). *)
Fixpoint contig_from (dims : list (nat * Z)) (sd : Z) : bool :=
  match dims with
  | [] => true
  | (n, s) :: r => if (n =? 1)%nat then contig_from r sd else (s =? sd)%Z && contig_from r (sd * Z.of_nat n)%Z
  end.
Definition c_contiguous (a : arr) : bool :=
  existsb (Nat.eqb 0) (a_shape a)
  || contig_from (rev (combine (a_shape a) (a_strides a))) (Z.of_nat (isize (a_dtype a))).
(** numpy: strides of a new array in C order. *)
Fixpoint c_strides (shape : list nat) (item : nat) : list Z :=
  match shape with [] => [] | _ :: r => Z.of_nat (prod r * item) :: c_strides r item end.
(** numpy: ascontiguousarray() of an array which is not contiguous: a copy in a new buffer. *)
Definition ascontiguousarray (h : heap) (a : arr) : arr * heap :=
  let bytes := tobytes (h_mem h) a in
  (mk_arr (h_next h) 0 (a_dtype a) (a_shape a) (c_strides (a_shape a) (isize (a_dtype a))),
   mk_heap (fun b i => if (b =? h_next h)%nat then nth (Z.to_nat i) bytes 0%Z else h_mem h b i) (S (h_next h))).
(** numpy: [.data] of a contiguous array. *)
Definition array_data (a : arr) : frame := FView (a_buf a) (a_off a) (prod (a_shape a) * isize (a_dtype a)).

(** ** Packing *)
(** export.py 95-102: msgpack.Packer(use_bin_type=True).pack; [np]: with default=msgpack_numpy.encode.
    numpy.float64 is a subclass of float, other numpy types are unknown to msgpack. *)
Fixpoint pack (np : bool) (m : memory) (v : pval) {struct v} : res wval :=
  match v with
  | PNone => Ok WNil
  | PBool b => Ok (WBool b)
  | PInt z => if ((- 2 ^ 63 <=? z) && (z <? 2 ^ 64))%Z then Ok (WInt z) else Err EOverflowError
  | PFloat b => Ok (WFloat b)
  | PStr s => Ok (WStr s)
  | PBytes l => Ok (WBin l)
  | PList l | PTuple l =>
      let* ws := (fix go (l : list pval) : res (list wval) :=
                    match l with [] => Ok [] | x :: r => let* w := pack np m x in let* ws := go r in Ok (w :: ws) end) l in
      Ok (WArray ws)
  | PDict d =>
      let* ws := (fix go (d : list (string * pval)) : res (list (string * wval)) :=
                    match d with
                    | [] => Ok []
                    | (k, x) :: r => let* w := pack np m x in let* ws := go r in Ok ((k, w) :: ws)
                    end) d in
      Ok (WMap ws)
  | PNp (NFloat "float64" b) => Ok (WFloat b)
  | PNp n => if np then Ok (WNp n) else Err ETypeError
  | PNpBool b => if np then Ok (WNpBool b) else Err ETypeError
  | PArr a => if np then Ok (WNd (a_dtype a) (a_shape a) (tobytes m a)) else Err ETypeError
  | POther => Err ETypeError
  end.
(** numpy: [.item()] of a number. *)
Definition np_item (n : npnum) : pval :=
  match n with NInt _ z => PInt z | NFloat _ b => PFloat b | NComplex _ _ _ => POther end.

(** ** Serialisation *)
Definition props := list (string * pval).
Definition sdata := list (string * props).
(** export.py 123: metadata = {src: v.get('metadata', {}) for src, v in data.items()}. *)
Definition default_metadata (data : sdata) : list (string * pval) :=
  List.map (fun p => (fst p, match dict_get "metadata" (snd p) with Some v => v | None => PDict [] end)) data.
(** str.ljust. *)
Definition py_ljust (s : string) (n : nat) (c : ascii) : string := (s ++ str_repeat c (n - String.length s))%string.
(** export.py 125-133: the dummy timestamps, for the result of time() and its str(). *)
Definition dummy_ts (now : Z * string) : res (list (string * pval)) :=
  match py_split dot (snd now) with
  | [sec; frac] => Ok [("timestamp", PFloat (fst now)); ("timestamp.sec", PStr sec);
                       ("timestamp.frac", PStr (py_ljust frac 18 "0"))]
  | _ => Err EValueError
  end.
(** dict.update. *)
Definition dict_update {B} (d u : list (string * B)) : list (string * B) :=
  fold_left (fun d kv => dict_set (fst kv) (snd kv) d) u d.
(** export.py 135-136, for one source. *)
Definition add_ts (upd : list (string * pval)) (md : pval) : res pval :=
  match md with
  | PDict d => Ok (PDict (match dict_get "timestamp" d with Some _ => d | None => dict_update d upd end))
  | _ => Err ETypeError
  end.
(** export.py 134-136.  If the metadata were taken from the data ([derived]), the dictionaries there are the same
    objects and change too. *)
Definition stamp_source (upd : list (string * pval)) (derived : bool) (st : sdata * list (string * pval)) (src : string)
  : res (sdata * list (string * pval)) :=
  match dict_get src (snd st) with
  | None => Err EKeyError
  | Some md =>
      let* md' := add_ts upd md in
      Ok (if derived
          then List.map (fun p => if String.eqb (fst p) src
                             then (fst p, match dict_get "metadata" (snd p) with
                                          | Some _ => dict_set "metadata" md' (snd p) | None => snd p end)
                             else p) (fst st)
          else fst st,
          dict_set src md' (snd st))
  end.
(** export.py 143-152: the arrays of a source, and everything else. *)
Definition is_array (v : pval) : bool := match v with PArr _ => true | _ => false end.
Definition arrays_of (ps : props) : list (string * arr) :=
  flat_map (fun p => match snd p with PArr a => [(fst p, a)] | _ => [] end) ps.
Definition main_value (v : pval) : pval := match v with PNp n => np_item n | v => v end.
Definition main_of (ps : props) : props :=
  List.map (fun p => (fst p, main_value (snd p)))
    (filter (fun p => negb (is_array (snd p))) ps).
(** export.py 162-171: the frames of an array. *)
Definition array_frames (src : string) (h : heap) (ka : string * arr) : res (list frame * heap) :=
  let (a, h) := if c_contiguous (snd ka) then (snd ka, h) else ascontiguousarray h (snd ka) in
  let* hd := pack false (h_mem h)
               (PDict [("source", PStr src); ("content", PStr "array"); ("path", PStr (fst ka));
                       ("dtype", PStr (a_dtype a)); ("shape", PTuple (List.map (fun n => PInt (Z.of_nat n)) (a_shape a)))]) in
  Ok ([FMsg hd; array_data a], h).
Fixpoint all_array_frames (src : string) (h : heap) (l : list (string * arr)) : res (list frame * heap) :=
  match l with
  | [] => Ok ([], h)
  | ka :: r => let* (fs, h) := array_frames src h ka in
               let* (gs, h) := all_array_frames src h r in
               Ok (fs ++ gs, h)
  end.
(** export.py 142-171: the frames of a source. *)
Definition source_frames (metadata : list (string * pval)) (h : heap) (src : string) (ps : props) : res (list frame * heap) :=
  match dict_get src metadata with
  | None => Err EKeyError
  | Some md =>
      let* hd := pack false (h_mem h) (PDict [("source", PStr src); ("content", PStr "msgpack"); ("metadata", md)]) in
      let* mn := pack false (h_mem h) (PDict (main_of ps)) in
      let* (fs, h) := all_array_frames src h (arrays_of ps) in
      Ok (FMsg hd :: FMsg mn :: fs, h)
  end.
Fixpoint frames_of_sources (metadata : list (string * pval)) (h : heap) (data : sdata) : res (list frame * heap) :=
  match data with
  | [] => Ok ([], h)
  | (src, ps) :: r => let* (fs, h) := source_frames metadata h src ps in
                      let* (gs, h) := frames_of_sources metadata h r in
                      Ok (fs ++ gs, h)
  end.
Inductive protocol := V1_0 | V2_2.
(** export.py 93-103: the accepted protocol versions. *)
Definition parse_protocol (s : string) : res protocol :=
  if String.eqb s "1.0" then Ok V1_0 else if String.eqb s "2.2" then Ok V2_2 else Err EValueError.
(** export.py 121-136: the data and the metadata which are sent.  [now]: None without dummy timestamps, otherwise
    the result of time() and its str(). *)
Definition prepare (now : option (Z * string)) (data : sdata) (metadata : option (list (string * pval)))
  : res (sdata * list (string * pval)) :=
  let derived := match metadata with None | Some [] => true | _ => false end in
  let md := match metadata with None | Some [] => default_metadata data | Some m => m end in
  match now with
  | None => Ok (data, md)
  | Some now => let* upd := dummy_ts now in foldM (stamp_source upd derived) (data, md) (dict_keys data)
  end.
(** export.py 121-173: _serialize; the message, and the memory after it. *)
Definition serialize (v : protocol) (now : option (Z * string)) (h : heap) (data : sdata)
    (metadata : option (list (string * pval))) : res (list frame * heap) :=
  let* (data, md) := prepare now data metadata in
  match v with
  | V1_0 => let* w := pack true (h_mem h) (PDict (List.map (fun p => (fst p, PDict (snd p))) data)) in Ok ([FMsg w], h)
  | V2_2 => frames_of_sources md h (isort (fun a b => String.leb (fst a) (fst b)) data)
  end.
End Export.
