(** Specification: directions of unit length, and the vectors a program gives. *)

From Coq Require Import List NArith ZArith Bool.
From Coq Require Import QArith Qpower Qabs.
From Verif Require Import Base Float Arith Kind Types Entity DataMap Builder BuilderRun ArithSpec.
Import ListNotations.

Definition coords (v : vec3) : list f64 := let '(x, y, z) := v in [x; y; z].
Definition moderate3 (v : vec3) : Prop := moderate_vector (coords v).
Definition unit3 (v : vec3) : Prop := unit_length (coords v).

(** The three axes of a transform. *)
Definition moderate_axes (t : tparam) : Prop := moderate3 (t_x t) /\ moderate3 (t_y t) /\ moderate3 (t_z t).

(** What a program gives as directions is of moderate size; a slab between two points has
    them apart; the direction of a window in a wall is a [Direction3D], which can only be
    made by normalising. *)
Definition directed (x : op) : Prop :=
  match x with
  | OWall _ _ _ (WArbitrary _ dir) _ => moderate3 dir
  | OSlab _ _ _ (SArbitrary _ dir) _ => moderate3 dir
  | OSlab _ _ _ (SVertical a b _) _ => moderate_vector [fsub (fst a) (fst b); fsub (snd a) (snd b)]
  | OWallOpening _ _ _ _ dir => moderate3 dir
  | OWallWindow _ _ _ _ _ _ dir => unit3 dir
  | OTransform t | OStoreyTransform _ _ t => moderate_axes t
  | _ => True
  end.

(** Every direction of a model is a vector of length one. *)
Definition unit_directions (m : dmap) : Prop :=
  forall n l, lookup m n = Some (Ent KDirection3D l) -> exists v, l = [vec v] /\ unit3 v.
