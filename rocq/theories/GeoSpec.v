(** Specification of the geometry of products in exact numbers: where a product is
    extruded to, how thick the layers of a material are together. *)

From Coq Require Import String List NArith ZArith Bool.
From Coq Require Import QArith Qpower Qabs.
From Verif Require Import Base Float Arith Kind Types Builder BuilderRun BuilderSpec ArithSpec DirSpec.
Import ListNotations.

Open Scope Q_scope.

(** ** Vectors of fractions *)

Definition qvec := (Q * Q * Q)%type.
Definition value (v : vec3) : qvec := let '(x, y, z) := v in (fv x, fv y, fv z).

Definition scalar (a b : qvec) : Q :=
  let '(x, y, z) := a in let '(x', y', z') := b in x * x' + y * y' + z * z'.

(** [d] has length one and points where [a] points: up to [2^-46] it is [a] times a
    positive factor. *)
Definition points_to (a : qvec) (d : vec3) : Prop :=
  unit3 d /\
  exists k, 0 < k /\
    let '(x, y, z) := a in let '(u, v, w) := d in
    Qabs (fv u - k * x) <= inject_Z 2 ^ (-46) /\
    Qabs (fv v - k * y) <= inject_Z 2 ^ (-46) /\
    Qabs (fv w - k * z) <= inject_Z 2 ^ (-46).

(** ** Where products are to be extruded to *)

Definition upwards : qvec := (0, 0, 1).

Definition wall_way (w : wall_shape) : qvec :=
  match w with
  | WVertical _ _ => upwards
  | WVerticalArbitrary _ => (0, 1, 0)
  | WArbitrary _ dir => value dir
  end.

(** At a right angle to the line between the two points, in the plane. *)
Definition slab_way (s : slab_shape) : qvec :=
  match s with
  | SHorizontal _ => upwards
  | SVertical (x, y) (x', y') _ => (fv y - fv y', fv x' - fv x, 0)
  | SArbitrary _ dir => value dir
  end.

(** An opening in a slab goes where the slab goes, unless it is horizontal. *)
Definition hole_way (p : opening_shape) (slab : qvec) : qvec :=
  match p with PHorizontal _ => upwards | _ => slab end.

(** The product [n] of the call, made after the calls [cs], is to be extruded to the given
    direction. *)
Inductive way (cs : list call) : call -> N -> qvec -> Prop :=
| way_wall s u ty name w v n : way cs (s, OWall u ty name w v, [n]) n (wall_way w)
| way_slab s u ty name w v n : way cs (s, OSlab u ty name w v, [n]) n (slab_way w)
| way_roof s u ty name l v n : way cs (s, ORoof u ty name l v, [n]) n upwards
| way_shading s u ty name length height v n : way cs (s, OShading u ty name length height v, [n]) n upwards
| way_space s ty name l height v n : way cs (s, OSpace ty name l height v, [n]) n upwards
| way_wall_opening s name length height v dir n :
    way cs (s, OWallOpening name length height v dir, [n]) n (value dir)
| way_slab_opening h s s' u ty nm w pl name p n :
    In (s', OSlab u ty nm w pl, [h]) cs ->
    way cs (h :: s, OSlabOpening name p, [n]) n (hole_way p (slab_way w))
| way_wall_window_hole s u ty name length height v dir n n' :
    way cs (s, OWallWindow u ty name length height v dir, [n; n']) n upwards
| way_wall_window s u ty name length height v dir n n' :
    way cs (s, OWallWindow u ty name length height v dir, [n; n']) n' (value dir)
| way_slab_window_hole h s s' u ty nm w pl u' ty' name p n n' :
    In (s', OSlab u ty nm w pl, [h]) cs ->
    way cs (h :: s, OSlabWindow u' ty' name p, [n; n']) n (hole_way p (slab_way w))
| way_slab_window h s s' u ty nm w pl u' ty' name p n n' :
    In (s', OSlab u ty nm w pl, [h]) cs ->
    way cs (h :: s, OSlabWindow u' ty' name p, [n; n']) n' (hole_way p (slab_way w)).

(** The direction of the axis of a wall: along x, or level and at a right angle to
    where the wall is extruded to. *)
Definition line_way (w : wall_shape) : qvec :=
  match w with
  | WArbitrary _ (x, y, z) => (fv y, - fv x, 0)
  | _ => (1, 0, 0)
  end.

(** A wall has such an axis unless it is extruded upwards. *)
Definition leaning (w : wall_shape) : Prop :=
  match w with WArbitrary _ (x, y, z) => moderate_vector [x; y] | _ => True end.

(** ** Thickness *)

Definition exact_sum (l : list f64) : Q := fold_right (fun d t => fv d + t) 0 l.

(** Thicknesses that add up to at most [2^999]. *)
Definition plain_layers (l : list f64) : Prop :=
  Forall (fun d => finite d /\ 0 <= fv d) l /\ exact_sum l <= inject_Z 2 ^ 999 /\
  (Z.of_nat (length l) <= 2 ^ 50)%Z.

(** The sum up to [2^-51] of it per layer. *)
Definition about_sum (l : list f64) (t : f64) : Prop :=
  finite t /\
  Qabs (fv t - exact_sum l) <= inject_Z (Z.of_nat (length l)) * (inject_Z 2 ^ (-51) * exact_sum l + inject_Z 2 ^ (-1074)).
