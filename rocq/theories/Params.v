(** [TransformParameter] and its setters, /repo/ifc_rs/src/ifc_builder/transforms.rs:7-64.

    The record and its default value are in Builder.v.  A quaternion is the function it
    is used as: what [rotation * v] gives for a vector [v] (it belongs to [bevy_math]). *)

From Coq Require Import List NArith ZArith Bool.
From Verif Require Import Float Arith Builder.
Import ListNotations.

(** [v == DVec3::ZERO]: every component equals zero, which both zeros do and NaN does
    not. *)
Definition vec_is_zero (v : vec3) : bool := let '(x, y, z) := v in is_zero x && is_zero y && is_zero z.

(** Lines 16-19. *)
Definition set_translation (t : tparam) (v : vec3) : tparam := mk_tparam v (t_x t) (t_y t) (t_z t).
(** Lines 28-34. *)
Definition set_x_rotation (t : tparam) (v : vec3) : tparam :=
  if vec_is_zero v then t else mk_tparam (t_move t) v (t_y t) (t_z t).
(** Lines 37-43. *)
Definition set_y_rotation (t : tparam) (v : vec3) : tparam :=
  if vec_is_zero v then t else mk_tparam (t_move t) (t_x t) v (t_z t).
(** Lines 46-52. *)
Definition set_z_rotation (t : tparam) (v : vec3) : tparam :=
  if vec_is_zero v then t else mk_tparam (t_move t) (t_x t) (t_y t) v.
(** Lines 22-25. *)
Definition set_rotation (t : tparam) (q : vec3 -> vec3) : tparam :=
  set_z_rotation (set_y_rotation (set_x_rotation t (q v_x)) (q v_y)) (q v_z).

(** A chain of calls on [TransformParameter::default()]. *)
Inductive setting :=
| SetTranslation (v : vec3)
| SetX (v : vec3)
| SetY (v : vec3)
| SetZ (v : vec3)
| SetRotation (q : vec3 -> vec3).

Definition set_one (t : tparam) (s : setting) : tparam :=
  match s with
  | SetTranslation v => set_translation t v
  | SetX v => set_x_rotation t v
  | SetY v => set_y_rotation t v
  | SetZ v => set_z_rotation t v
  | SetRotation q => set_rotation t q
  end.
Definition params (l : list setting) : tparam := fold_left set_one l tparam_default.
