(** The numbers in the names of relations. *)

From Coq Require Import String Ascii List NArith Bool.
From Verif Require Import Base Prims Kind Types Entity DataMap.
Import ListNotations.
Open Scope N_scope.

(** Relations named by a word and a number. *)
Definition numbered_words : list (kind * string) :=
  [ (KRelDefinesByType, "WallTypeToWall"); (KRelDefinesByType, "SlabTypeToSlab")
  ; (KRelDefinesByType, "RoofTypeToRoof"); (KRelDefinesByType, "WindowTypeToWindow")
  ; (KRelDefinesByType, "ShadingDeviceTypeToShadingDevice")
  ; (KRelVoidsElement, "OpeningElementToWall"); (KRelVoidsElement, "OpeningElementToSlab")
  ; (KRelFillsElement, "OpeningElementToWindow") ]%string.

(** Object [n] is such a relation with number [i]. *)
Definition has_number (m : dmap) (n : N) (k : kind) (w : string) (i : N) : Prop :=
  In (k, w) numbered_words /\
  exists l, lookup m n = Some (Ent k l) /\ nth_error l 2 = Some (VStr (lit w ++ show_N i)).

(** The relations of a word stand one after the other and are counted from zero: the one
    with number zero does not follow another of this word, any other follows the one with
    the number before. *)
Definition counted (m : dmap) : Prop :=
  forall n k w i, has_number m n k w i ->
    (i = 0 /\ forall j, ~ has_number m (n - 1) k w j) \/ (0 < i /\ has_number m (n - 1) k w (i - 1)).
