(** Specification vocabulary for the deprecated LPD geometry. *)
From Coq Require Import QArith Qround.
From Verif Require Import Base M_OldGeom.
Local Open Scope string_scope.
Local Open Scope Z_scope.
Local Open Scope list_scope.

(** Following the names [p] from [g] one comes to [h], and the offsets on the way, with that of [h], add up to (x, y). *)
Inductive reaches : frag -> list string -> frag -> Q * Q -> Prop :=
| reaches_here : forall g, reaches g [] g (fr_offset g)
| reaches_down : forall o cs n child p h s, In (n, child) cs -> reaches child p h s ->
    reaches (Frag o cs) (n :: p) h (fst o + fst s, snd o + snd s)%Q.
(** The same for a fragment without children. *)
Definition leaf_at (g : frag) (p : list string) (s : Q * Q) : Prop := exists o, reaches g p (Frag o []) s.

(** No fragment has two children of the same name. *)
Inductive well_named : frag -> Prop :=
| wn_intro : forall o cs, NoDup (map fst cs) -> (forall n c, In (n, c) cs -> well_named c) -> well_named (Frag o cs).

(** Module number c (0 to 15) is module c mod 4 + 1 of quadrant c / 4 + 1, tiles are numbered from 1 to 16. *)
Definition tile_names (c t : Z) : list string := [qname (c / 4 + 1); mname (c mod 4 + 1); tname t].
Definition tile_number (c t : Z) : Prop := 0 <= c < 16 /\ 1 <= t <= 16.
(** All the tiles of an LPD are there, and tiles have no parts. *)
Definition lpd_tree (g : frag) : Prop := forall c t, tile_number c t -> exists s, leaf_at g (tile_names c t) s.

(** The pixel at which a tile starts: (x, y) in units of half a millimetre, from the centre. *)
Definition tile_start (g : frag) (centre : Z * Z) (c t x0 y0 : Z) : Prop :=
  exists s, leaf_at g (tile_names c t) s /\ x0 = Qfloor (fst s / (1 # 2000)) + fst centre /\ y0 = Qfloor (snd s / (1 # 2000)) + snd centre.
Definition covers (g : frag) (centre : Z * Z) (c t y x : Z) : Prop :=
  exists x0 y0, tile_start g centre c t x0 y0 /\ y0 <= y < y0 + 32 /\ x0 <= x < x0 + 128.

(** Where row r, column k of tile t are in the data of a module: tiles 1 to 8 are the left half from the last rows to the
    first, tiles 9 to 16 the right half from the first rows to the last. *)
Definition tile_row (t r : Z) : Z := (if t <=? 8 then 32 * (8 - t) else 32 * (t - 9)) + r.
Definition tile_col (t k : Z) : Z := (if t <=? 8 then 0 else 128) + k.
Definition later (c t c' t' : Z) : Prop := c < c' \/ (c = c' /\ t < t').

(** Names in a file are unique as well. *)
Inductive group_named : hgroup -> Prop :=
| gn_intro : forall p gs, NoDup (map fst gs) -> (forall n g, In (n, g) gs -> group_named g) -> group_named (HGroup p gs).
(** The module and the tile are in the file at these positions, and the tile has no groups inside. *)
Definition file_tile (file : list (string * list (string * hitem))) (c t : Z) (m p : Q * Q) : Prop :=
  exists items tiles, dict_get (qname (c / 4 + 1)) file = Some items /\
    In (mname (c mod 4 + 1), HG (HGroup (Some m) tiles)) items /\ In (tname t, HGroup (Some p) []) tiles.
