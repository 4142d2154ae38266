(** Words for the problems which validation reports: what is wrong with a file, in terms of its contents. *)
From Verif Require Import Base M_Files M_Validation S_Reader S_Validation.
Set Implicit Arguments.
Local Open Scope string_scope.
Local Open Scope list_scope.

(** An index with [n] trains: entry [p] has the first row [a] and [c] rows. *)
Definition index_entry (g : ix_group) (n p : nat) (a c : Z) : Prop :=
  (p < n)%nat /\ nth_error (ix_first g) p = Some a /\ entry_count g p = Some c.
(** Between entry [p] and the next one there is a gap, or they overlap. *)
Definition gap_at (g : ix_group) (n p : nat) : Prop :=
  exists a c b, index_entry g n p a c /\ (S p < n)%nat /\ nth_error (ix_first g) (S p) = Some b /\ (a + c < b)%Z.
Definition overlap_at (g : ix_group) (n p : nat) : Prop :=
  exists a c b, index_entry g n p a c /\ (S p < n)%nat /\ nth_error (ix_first g) (S p) = Some b /\ (b < a + c)%Z.
(** There are [k] positions with [P]; the first is [p]. *)
Definition counted (P : nat -> Prop) (k p : nat) : Prop :=
  exists l, StronglySorted lt (p :: l) /\ (forall q, In q (p :: l) <-> P q) /\ k = List.length (p :: l).

Section S.
Context {V : Type}.
Variable fa : faccess V.
Let n := List.length (fa_tids fa).

(** Instrument source [s] has key [k], with this index and these data. *)
Definition indexed_field (s k : string) (g : ix_group) (ds : dataset V) : Prop :=
  In s (fa_inst fa) /\ (exists ks, fa_get_keys fa s = Ok ks /\ In k ks) /\
  dict_get (index_key false s k) (h5_index (fa_file fa)) = Some g /\ dict_get (data_key false s k) (h5_data (fa_file fa)) = Some ds.

(** What each kind of report says. *)
Definition is_wrong (pk : problem_kind) : Prop :=
  match pk with
  | PZeroesBefore => exists raw i j t, h5_trainid (fa_file fa) = Some raw /\ (i < j)%nat /\
      nth_error raw i = Some 0%Z /\ nth_error raw j = Some t /\ t <> 0%Z
  | PNotIncreasing pos a b => exists raw ids, h5_trainid (fa_file fa) = Some raw /\ ids = filter (fun t => negb (Z.eqb t 0)) raw /\
      nth_error ids pos = Some a /\ nth_error ids (S pos) = Some b /\ (b <= a)%Z /\
      (forall i x y, (i < pos)%nat -> nth_error ids i = Some x -> nth_error ids (S i) = Some y -> (x < y)%Z)
  | POutside dataset e rows => exists s k g ds, indexed_field s k g ds /\ dataset = data_key false s k /\
      rows = Z.of_nat (List.length (ds_rows ds)) /\ (rows < e)%Z /\
      (exists p a c, index_entry g n p a c /\ e = (a + c)%Z) /\ (forall p a c, index_entry g n p a c -> (a + c <= e)%Z)
  | PDifferentNumber index nf nc => False
  | PWrongNumber index nf nt => exists s k g ds, indexed_field s k g ds /\ index = ("INDEX/" ++ index_key false s k)%string /\
      nf = List.length (ix_first g) /\ nt = n /\ (nf < nt)%nat
  | PNotAtZero index => exists s k g ds a, indexed_field s k g ds /\ index = ("INDEX/" ++ index_key false s k)%string /\
      nth_error (ix_first g) 0 = Some a /\ a <> 0%Z
  | PGaps index m pos a c b => exists s k g ds, indexed_field s k g ds /\ index = ("INDEX/" ++ index_key false s k)%string /\
      counted (gap_at g n) m pos /\ index_entry g n pos a c /\ nth_error (ix_first g) (S pos) = Some b
  | POverlaps index m pos a c b => exists s k g ds, indexed_field s k g ds /\ index = ("INDEX/" ++ index_key false s k)%string /\
      counted (overlap_at g n) m pos /\ index_entry g n pos a c /\ nth_error (ix_first g) (S pos) = Some b
  end.

(** The checks can be made: there are trains, every key has an index and data, each index has entries, as many first
    rows as counts (up to the number of trains), and the numbers are of their types and not
    astronomical. *)
Definition even_index (g : ix_group) : Prop :=
  match ix_more g with
  | IxCount c => Nat.min n (List.length c) = Nat.min n (List.length (ix_first g))
  | IxLastStatus l st => Nat.min n (List.length l) = Nat.min n (List.length (ix_first g)) /\ Nat.min n (List.length st) = Nat.min n (List.length (ix_first g))
  end.
Definition small_index (g : ix_group) : Prop :=
  (forall p a, nth_error (ix_first g) p = Some a -> (0 <= a < 2 ^ 52)%Z) /\ (forall p c, entry_count g p = Some c -> (0 <= c < 2 ^ 52)%Z).
Definition checkable : Prop :=
  (exists raw, h5_trainid (fa_file fa) = Some raw) /\
  forall s, In s (fa_inst fa) -> exists ks, fa_get_keys fa s = Ok ks /\ (forall k, In k ks -> exists g ds, indexed_field s k g ds /\
    (0 < n)%nat /\ ix_first g <> [] /\ even_index g /\ small_index g /\ index_typed g).
End S.

(** The entry of the cached map for a file is not what is in the file. *)
Definition entry_wrong {V} (cache : string -> map_entry) (f : faccess V) : Prop :=
  exists tids ctrl inst, cache (h5_name (fa_file f)) = Some (tids, ctrl, inst) /\
    ~ (tids = fa_tids f /\ (forall s, In s ctrl <-> In s (fa_ctrl f)) /\ (forall s, In s inst <-> In s (fa_inst f))).

(** The *.h5 files of a directory as a shell lists them: names which end in .h5 and do not start with a dot. *)
From Verif Require Import M_OpenRun M_Validate S_Open S_Glob.
Definition dir_file (fs : listing) (d p : string) : Prop :=
  exists names name, ls_names fs d = Some names /\ In name names /\ ends ".h5" name /\ (forall q, name <> ("." ++ q)%string) /\ p = path_join d name.
(** What is wrong with the files of a directory. *)
Definition dir_wrong {V} (fs : listing) (open : string -> res (faccess V)) (cache : string -> map_entry) (d : string) (rp : run_problem) : Prop :=
  match rp with
  | RNotOpened p e => dir_file fs d p /\ open p = Err e
  | RNoUsableFiles => forall p f, dir_file fs d p -> open p <> Ok f
  | RFileProblem q => exists p f, dir_file fs d p /\ open p = Ok f /\ pr_file q = h5_name (fa_file f) /\ is_wrong f (pr_kind q)
  | RCacheWrong nm => exists p f, dir_file fs d p /\ open p = Ok f /\ nm = h5_name (fa_file f) /\ entry_wrong cache f
  end.
(** The name of a directory: not empty, no slash at the end, none of the characters with a meaning in patterns. *)
Definition plain_dir (d : string) : Prop :=
  d <> "" /\ (forall q, d <> (q ++ "/")%string) /\ forall c, In c ["*"; "?"; "["]%char -> ~ has_char c d.
