(** Specification: which vector a chain of calls on a [TransformParameter] leaves for
    each axis: the last one that is not zero. *)

From Coq Require Import List NArith ZArith Bool.
From Coq Require Import QArith.
From Verif Require Import Float Arith Builder Params ArithSpec DirSpec.
Import ListNotations.

(** The zero vector: three zeros, of any sign. *)
Definition zero_vector (v : vec3) : Prop :=
  exists s t u, v = (FFin s 0 (-1074), FFin t 0 (-1074), FFin u 0 (-1074)).

(** The vectors given for an axis, in the order of the calls. *)
Definition given_move (l : list setting) : list vec3 :=
  flat_map (fun s => match s with SetTranslation v => [v] | _ => [] end) l.
Definition given_x (l : list setting) : list vec3 :=
  flat_map (fun s => match s with SetX v => [v] | SetRotation q => [q v_x] | _ => [] end) l.
Definition given_y (l : list setting) : list vec3 :=
  flat_map (fun s => match s with SetY v => [v] | SetRotation q => [q v_y] | _ => [] end) l.
Definition given_z (l : list setting) : list vec3 :=
  flat_map (fun s => match s with SetZ v => [v] | SetRotation q => [q v_z] | _ => [] end) l.

(** [v] is the last vector of [l] that meets [P], or the default if there is none. *)
Definition last_such (P : vec3 -> Prop) (d : vec3) (l : list vec3) (v : vec3) : Prop :=
  (exists a b, l = a ++ v :: b /\ P v /\ forall u, In u b -> ~ P u) \/
  (v = d /\ forall u, In u l -> ~ P u).

(** Components with a representation in 64 bits: what every Rust value is. *)
Definition in_bits (v : vec3) : Prop := Forall f64_ok (coords v).
