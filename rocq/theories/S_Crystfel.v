(** Specification of CrystFEL geometry files. *)

From Coq Require Import QArith.
From Verif Require Import Base PyStr S_Stacking M_Cxi M_Geom S_Geom M_Crystfel.

Local Open Scope string_scope.
Local Open Scope Z_scope.
Local Open Scope list_scope.

(** Two descriptions of the same tile. *)
Definition same_tile (a b : tile) : Prop :=
  veq (t_corner a) (t_corner b) /\ veq (t_ss a) (t_ss b) /\ veq (t_fs a) (t_fs b) /\
  t_ss_px a = t_ss_px b /\ t_fs_px a = t_fs_px b.

Definition same_geometry (g h : geometry) : Prop :=
  forall m t, match tile_at g m t, tile_at h m t with
              | Some a, Some b => same_tile a b
              | None, None => True
              | _, _ => False
              end.

(** The name of the panel for tile a of module p is "p", the number of the module,
    "a" and the number of the tile, both in decimal. *)
Definition names_panel (n : string) (p a : Z) : Prop :=
  exists sp sa, n = ("p" ++ sp ++ "a" ++ sa)%string /\ all_digits sp /\ sp <> "" /\ decimal sp = p /\
                all_digits sa /\ sa <> "" /\ decimal sa = a.

(** A member of the comma separated group with this name. *)
Definition in_group (f : cffile) (group member : string) : Prop :=
  exists v, In (group, CText v) f /\ In member (py_split "," v).

(** the value of a field of a panel as the file's lines say *)
Definition panel_line (f : cffile) (panel field : string) (v : cfval) : Prop :=
  In ((panel ++ "/" ++ field)%string, v) f.

(** The name of group k: quadrants have prefix "q", modules "p". *)
Definition group_name (prefix : string) (k : Z) : string := ("rigid_group_" ++ prefix ++ str_of_int k)%string.
