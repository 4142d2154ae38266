(** Specification of rounded arithmetic with the deprecated LPD geometry. *)
From Coq Require Import QArith Qabs.
From Verif Require Import Base M_OldGeom S_OldGeom.

(** The number is further than [e] from every whole number. *)
Definition clear_of_whole (e q : Q) : Prop := forall z : Z, (e < Qabs (q - inject_Z z))%Q.

(** The sums of the offsets to the tiles are, in pixels of half a millimetre, clear of whole numbers. *)
Definition offsets_clear (e : Q) (g : frag) : Prop :=
  forall p s, leaf_at g p s -> clear_of_whole e (fst s / (1 # 2000)) /\ clear_of_whole e (snd s / (1 # 2000)).

(** Tiles are not more than three names down, and no position in the file is more than 5 m. *)
Definition depth_three (g : frag) : Prop := forall p s, leaf_at g p s -> (List.length p <= 3)%nat.
Definition pos_small (u : Q) (p : Q * Q) : Prop := (Qabs (fst p * u) <= 5 /\ Qabs (snd p * u) <= 5)%Q.
Inductive group_small : Q -> hgroup -> Prop :=
| gs_intro : forall u p gs, (forall x, p = Some x -> pos_small u x) -> (forall n g, In (n, g) gs -> group_small (1 # 1000) g) -> group_small u (HGroup p gs).
