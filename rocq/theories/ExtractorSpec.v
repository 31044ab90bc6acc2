(** Specification of the queries of the extractor. *)

From Coq Require Import String Ascii List NArith ZArith Bool Sorted.
From Verif Require Import Base Kind Types Schema Entity DataMap DataSpec.
Import ListNotations.
Open Scope N_scope.

(** Attribute [i] is the id [n]; attribute [i] is a list with the id [n] at place [j]. *)
Definition holds_id (l : list val) (i : nat) (n : N) : Prop := nth_error l i = Some (VId n).
Definition holds_at (l : list val) (i j : nat) (n : N) : Prop :=
  exists vs, nth_error l i = Some (VList vs) /\ nth_error vs j = Some (VId n).

(** Object [n] is of kind [k] and has attributes [l]. *)
Definition is_a (m : dmap) (k : kind) (n : N) (l : list val) : Prop := lookup m n = Some (Ent k l).

(** Lexicographic order of places: relation, then place in its list. *)
Definition earlier (p q : N * nat) : Prop :=
  fst p < fst q \/ (fst p = fst q /\ (snd p < snd q)%nat).

(** [l] lists the objects at the places [P], in the order of the places: object [c]
    is listed once for each relation [r] and place [i] with [P r i c]. *)
Definition lists (P : N -> nat -> N -> Prop) (l : list N) : Prop :=
  exists ps, map snd ps = l /\ StronglySorted earlier (map fst ps) /\
    forall r i c, In ((r, i), c) ps <-> P r i c.

(** Place [i] of the aggregation [r] of [n] is [c]. *)
Definition aggregated (m : dmap) (n r : N) (i : nat) (c : N) : Prop :=
  exists l, is_a m KRelAggregates r l /\ holds_id l 4 n /\ holds_at l 5 i c.

(** Place [i] of the containment [r] in [n] is [c]. *)
Definition contained (m : dmap) (n r : N) (i : nat) (c : N) : Prop :=
  exists l, is_a m KRelContainedInSpatialStructure r l /\ holds_id l 5 n /\ holds_at l 4 i c.

(** Relation [r] says that [n] has type [t]. *)
Definition typed (m : dmap) (n r t : N) : Prop :=
  exists l, is_a m KRelDefinesByType r l /\ (exists i, holds_at l 4 i n) /\ holds_id l 5 t.

(** Relation [r] makes opening [c] a void of [n]. *)
Definition voided (m : dmap) (n r c : N) : Prop :=
  exists l, is_a m KRelVoidsElement r l /\ holds_id l 4 n /\ holds_id l 5 c.

(** Relation [r] says that [n] has material [t]. *)
Definition made_of (m : dmap) (n r t : N) : Prop :=
  exists l, is_a m KRelAssociatesMaterial r l /\ (exists i, holds_at l 4 i n) /\ holds_id l 5 t.

(** Layer [i] of the layer set of the usage that [r] relates to [n] is [c]. *)
Definition layered (m : dmap) (n r : N) (i : nat) (c : N) : Prop :=
  exists u lu s ls, made_of m n r u /\ is_a m KMaterialLayerSetUsage u lu /\ holds_id lu 0 s /\
    is_a m KMaterialLayerSet s ls /\ holds_at ls 0 i c.

(** Constituent [i] of the set that [r] relates to [n] is [c]. *)
Definition constituted (m : dmap) (n r : N) (i : nat) (c : N) : Prop :=
  exists u lu, made_of m n r u /\ is_a m KMaterialConstituentSet u lu /\ holds_at lu 2 i c.
