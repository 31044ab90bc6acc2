(** Specification of the shapes of products. *)

From Coq Require Import String List NArith ZArith Bool.
From Verif Require Import Base Prims Float Arith Kind Types Schema Entity DataMap Builder BuilderRun BuilderSpec
  HistorySpec MoveSpec.
Import ListNotations.
Open Scope N_scope.

(** ** Thickness *)

(** The sum in list order, rounded after every addition.  It starts with a zero, of
    which the version of the standard library decides the sign. *)
Definition total (neg : bool) (ds : list f64) : f64 := fold_left fadd ds (FFin neg 0 (-1074)).

(** The layers of the material (a layer set usage) [u] that the calls [cs] made have the
    thicknesses [ds]; that of a layer is its second attribute. *)
Definition layered (cs : list call) (u : N) (ds : list f64) : Prop :=
  exists s1 s2 set dir sense off ls,
    In (s1, OUsage set dir sense off, [u]) cs /\ In (s2, OLayerSet ls, [set]) cs /\
    Forall2 (fun n d => exists s name l, In (s, OLayer name l, [n]) cs /\ nth_error l 1 = Some (VReal d)) ls ds.
Definition thick (o : oracle) (cs : list call) (u : N) (t : f64) : Prop :=
  exists ds, layered cs u ds /\ t = total (o_neg_sum o) ds.

(** ** Solids *)

(** What is extruded: a rectangle with one corner at the origin, or the polygon of a
    list of points. *)
Inductive outline :=
| Rectangle (width depth : f64)
| Flat (points : list vec2)
| Spatial (points : list vec3).

(** The outline, the direction and the length of the extrusion. *)
Definition form := (outline * vec3 * f64)%type.

Definition outlined (m : dmap) (p : N) (f : outline) : Prop :=
  match f with
  | Rectangle a b => exists ax c,
      lookup m p = Some (Ent KRectangleProfileDef [VEnum 1; VOmit; VId ax; VReal a; VReal b]) /\
      lookup m ax = Some (Ent KAxis2D [VId c; VOmit]) /\
      lookup m c = Some (Ent KPoint2D [vec_2 (fmul a f_half, fmul b f_half)])
  | Flat l => exists c q,
      lookup m p = Some (Ent KArbitraryClosedProfileDef [VEnum 1; VOmit; VId c]) /\
      lookup m c = Some (Ent KIndexedPolyCurve [VId q; VOmit; VOmit]) /\
      lookup m q = Some (Ent KPointList2D [VList (map vec_2 l); VOmit])
  | Spatial l => exists c q,
      lookup m p = Some (Ent KArbitraryClosedProfileDef [VEnum 1; VOmit; VId c]) /\
      lookup m c = Some (Ent KIndexedPolyCurve [VId q; VOmit; VOmit]) /\
      lookup m q = Some (Ent KPointList3D [VList (map vec l); VOmit])
  end.

(** The representation [r] is a body (8) that is a swept solid (19) of this form. *)
Definition body (m : dmap) (r : N) (f : form) : Prop :=
  let '(out, dir, len) := f in
  exists ctx s p d,
    lookup m r = Some (Ent KShapeRepresentation [VId ctx; VEnum 8; VEnum 19; VList [VId s]]) /\
    lookup m s = Some (Ent KExtrudedAreaSolid [VId p; VOmit; VId d; VReal len]) /\
    lookup m d = Some (Ent KDirection3D [vec dir]) /\ outlined m p out.

(** The representation [r] is an axis (3) that is a curve (3): the line from the origin
    to [v]. *)
Definition axis (m : dmap) (r : N) (v : vec3) : Prop :=
  exists ctx l a b,
    lookup m r = Some (Ent KShapeRepresentation [VId ctx; VEnum 3; VEnum 3; VList [VId l]]) /\
    lookup m l = Some (Ent KPolyLine [VList [VId a; VId b]]) /\ pointed m a v_zero /\ pointed m b v.

(** A body and, for walls, an axis. *)
Definition depicts (m : dmap) (rs : list N) (f : form) (ax : option vec3) : Prop :=
  match ax with
  | None => exists r, rs = [r] /\ body m r f
  | Some v => exists r x, rs = [r; x] /\ body m r f /\ axis m x v
  end.

(** ** The forms that were asked for *)

Definition wall_form (w : wall_shape) (t : f64) : form :=
  match w with
  | WVertical length height => (Rectangle length t, v_z, height)
  | WVerticalArbitrary l => (Spatial (map (fun c => (fst c, f_zero, snd c)) l), v_y, t)
  | WArbitrary l dir => (Spatial l, vnormalize dir, t)
  end.
Definition wall_line (w : wall_shape) : vec3 :=
  match w with WArbitrary _ dir => vnormalize (vcross dir v_z) | _ => v_x end.

Definition slab_form (s : slab_shape) (t : f64) : form :=
  match s with
  | SHorizontal l => (Flat l, v_z, t)
  | SVertical (x, y) (x', y') h =>
      (Spatial [(x, y, h); (x, y, f_zero); (x', y', f_zero); (x', y', h)],
       vnormalize (vcross (vsub (x, y, f_zero) (x', y', f_zero)) v_z), t)
  | SArbitrary l dir => (Spatial l, vnormalize dir, t)
  end.

(** An opening in a slab that is extruded along [dir], and the window in it. *)
Definition hole_form (s : opening_shape) (dir : vec3) (t : f64) : form :=
  match s with
  | PRect length height _ => (Rectangle length height, dir, t)
  | PHorizontal l => (Flat l, v_z, t)
  | PArbitrary l => (Spatial l, vnormalize dir, t)
  end.

(** The form of the product [n] of the call, made after the calls [cs]. *)
Inductive form_of (o : oracle) (cs : list call) : call -> N -> form -> option vec3 -> Prop :=
| form_wall s u ty name w v n t : thick o cs u t ->
    form_of o cs (s, OWall u ty name w v, [n]) n (wall_form w t) (Some (wall_line w))
| form_slab s u ty name w v n t : thick o cs u t ->
    form_of o cs (s, OSlab u ty name w v, [n]) n (slab_form w t) None
| form_roof s u ty name l v n t : thick o cs u t ->
    form_of o cs (s, ORoof u ty name l v, [n]) n (Flat l, v_z, t) None
| form_shading s u ty name length height v n t : thick o cs u t ->
    form_of o cs (s, OShading u ty name length height v, [n]) n (Rectangle length height, v_z, t) None
| form_space s ty name l height v n :
    form_of o cs (s, OSpace ty name l height v, [n]) n (Flat l, v_z, height) None
| form_wall_opening h s s' u ty nm w pl name length height v dir n t :
    In (s', OWall u ty nm w pl, [h]) cs -> thick o cs u t ->
    form_of o cs (h :: s, OWallOpening name length height v dir, [n]) n (Rectangle length t, vnormalize dir, height) None
| form_slab_opening h s s' u ty nm w pl name p n t :
    In (s', OSlab u ty nm w pl, [h]) cs -> thick o cs u t ->
    form_of o cs (h :: s, OSlabOpening name p, [n]) n (hole_form p (snd (fst (slab_form w t))) t) None
| form_wall_window_hole h s s' u ty nm w pl u' ty' name length height v dir n n' t :
    In (s', OWall u ty nm w pl, [h]) cs -> thick o cs u t ->
    form_of o cs (h :: s, OWallWindow u' ty' name length height v dir, [n; n']) n (Rectangle length t, v_z, height) None
| form_wall_window h s s' u ty nm w pl u' ty' name length height v dir n n' t :
    In (s', OWall u ty nm w pl, [h]) cs -> thick o cs u t ->
    form_of o cs (h :: s, OWallWindow u' ty' name length height v dir, [n; n']) n' (Rectangle length t, dir, height) None
| form_slab_window_hole h s s' u ty nm w pl u' ty' name p n n' t :
    In (s', OSlab u ty nm w pl, [h]) cs -> thick o cs u t ->
    form_of o cs (h :: s, OSlabWindow u' ty' name p, [n; n']) n (hole_form p (snd (fst (slab_form w t))) t) None
| form_slab_window h s s' u ty nm w pl u' ty' name p n n' t :
    In (s', OSlab u ty nm w pl, [h]) cs -> thick o cs u t ->
    form_of o cs (h :: s, OSlabWindow u' ty' name p, [n; n']) n' (hole_form p (snd (fst (slab_form w t))) t) None.
