(** Model of reading geometry: the [mappings] functions, [PolyLine::points],
    [ShapeRepresentation::items], [items_of], [parent_context] and [Product::shapes].

    References ([&Point3D] ...) are given as the attributes of the object they point
    to.  A required attribute that does not hold an id does not exist in the code
    (its Rust type is an id); the model panics there. *)

From Coq Require Import String Ascii List NArith ZArith Bool.
From Verif Require Import Base Prims Float Kind Types Schema Entity DataMap Extractor.
Import ListNotations.
Open Scope N_scope.

(** Sequencing: a panic ends the function. *)
Definition obind {A B} (x : outcome A) (f : A -> outcome B) : outcome B :=
  match x with Done a => f a | Err => Err | Panic => Panic end.
Notation "a <~ x ; f" := (obind x (fun a => f)) (at level 60, x at next level, right associativity).

(** [option.map(f)] with a function that may panic. *)
Definition omap {A B} (f : A -> outcome B) (x : option A) : outcome (option B) :=
  match x with Some a => b <~ f a; Done (Some b) | None => Done None end.

(** [iter().map(f).collect()] with a function that may panic. *)
Fixpoint maps {A B} (f : A -> outcome B) (l : list A) : outcome (list B) :=
  match l with
  | [] => Done []
  | a :: l' => b <~ f a; bs <~ maps f l'; Done (b :: bs)
  end.

(** The id in a required attribute. *)
Definition the_id (l : list val) (i : nat) : outcome N :=
  match attr_id l i with Some n => Done n | None => Panic end.

(** The number in a required attribute. *)
Definition the_real (l : list val) (i : nat) : outcome f64 :=
  match nth_error l i with Some (VReal d) => Done d | _ => Panic end.

(** [OptionalParameter<RealPrimitive>::custom().map(|f| f.0)]. *)
Definition the_opt_real (l : list val) (i : nat) : option f64 :=
  match nth_error l i with Some (VReal d) => Some d | _ => None end.

(** The coordinates of a point or direction. *)
Definition coords (l : list val) : list f64 :=
  match l with VVec v :: _ => v | _ => [] end.

(** [data.get(id)] of a point or direction. *)
Definition get_vec (k : kind) (m : dmap) (n : N) : outcome (list f64) :=
  l <~ get k m n; Done (coords l).

(** An attribute [IdOr<T>]: an id is looked up with [data.get], an
    embedded object is taken as it is. *)
Definition id_or_get (k : kind) (m : dmap) (v : val) : outcome (list val) :=
  match v with VId n => get k m n | VEnt l => Done l | _ => Panic end.

(** [OptionalParameter<IdOr<T>>] of a point or direction,
    /repo/ifc_rs/src/geometry/transform_base.rs:63-81. *)
Definition opt_vec (k : kind) (m : dmap) (l : list val) (i : nat) : outcome (option (list f64)) :=
  match nth_error l i with
  | Some (VId n) => v <~ get_vec k m n; Done (Some v)
  | Some (VEnt a) => Done (Some (coords a))
  | _ => Done None
  end.

(** [MappedAxis2D], [MappedAxis3D] and [AxisMappings],
    /repo/ifc_rs/src/geometry/axis/mod.rs:8-34,71-84: location, then the z and x axes. *)
Inductive axis :=
| Axis2 (location : list f64) (x : option (list f64))
| Axis3 (location : list f64) (z x : option (list f64)).

(** [Axis2D::mappings], /repo/ifc_rs/src/geometry/axis/mod.rs:57-66. *)
Definition map_axis2 (m : dmap) (l : list val) : outcome axis :=
  n <~ the_id l 0; p <~ get_vec KPoint2D m n;
  x <~ omap (get_vec KDirection2D m) (attr_id l 1); Done (Axis2 p x).

(** [Axis3D::mappings], /repo/ifc_rs/src/geometry/axis/mod.rs:111-121. *)
Definition map_axis3 (m : dmap) (l : list val) : outcome axis :=
  n <~ the_id l 0; p <~ get_vec KPoint3D m n;
  z <~ omap (get_vec KDirection3D m) (attr_id l 1);
  x <~ omap (get_vec KDirection3D m) (attr_id l 2); Done (Axis3 p z x).

(** [Points], /repo/ifc_rs/src/geometry/arbitrary_closed_profile_def/mod.rs. *)
Inductive points := Points2 (l : list (list f64)) | Points3 (l : list (list f64)).

(** [PolyLine::points], /repo/ifc_rs/src/geometry/polyline/mod.rs:31-52: the first
    point decides the dimension; [unreachable!] for any other kind, an index out of
    range for an empty list. *)
Definition polyline_points (m : dmap) (l : list val) : outcome points :=
  match attr_ids l 0 with
  | [] => Panic
  | n :: ns =>
      e <~ get_untyped m n;
      match kind_of e with
      | KPoint2D => ps <~ maps (get_vec KPoint2D m) (n :: ns); Done (Points2 ps)
      | KPoint3D => ps <~ maps (get_vec KPoint3D m) (n :: ns); Done (Points3 ps)
      | _ => Panic
      end
  end.

(** The coordinates of a list of points. *)
Definition coord_list (l : list val) : list (list f64) :=
  match nth_error l 0 with
  | Some (VList vs) => flat_map (fun v => match v with VVec p => [p] | _ => [] end) vs
  | _ => []
  end.

(** The points of a curve,
    /repo/ifc_rs/src/geometry/arbitrary_closed_profile_def/mod.rs:71-89. *)
Definition curve_points (m : dmap) (n : N) : outcome points :=
  e <~ get_untyped m n;
  match e with
  | Ent KIndexedPolyCurve l =>
      p <~ the_id l 0; e' <~ get_untyped m p;
      match e' with
      | Ent KPointList2D a => Done (Points2 (coord_list a))
      | Ent KPointList3D a => Done (Points3 (coord_list a))
      | _ => Panic
      end
  | Ent KPolyLine l => polyline_points m l
  | _ => Panic
  end.

(** [MappedProfileDef], /repo/ifc_rs/src/geometry/extruded_area_solid.rs. *)
Inductive profile :=
| Rectangle (position : option axis) (x y : f64)
| Arbitrary (kind : nat) (outline : points).

(** [AxisMappings] of an object that has to be an axis; [unreachable!] otherwise,
    /repo/ifc_rs/src/geometry/rectangle_profile_def/mod.rs:77-87. *)
Definition map_axis (m : dmap) (n : N) : outcome axis :=
  e <~ get_untyped m n;
  match e with
  | Ent KAxis2D l => map_axis2 m l
  | Ent KAxis3D l => map_axis3 m l
  | _ => Panic
  end.

(** [RectangleProfileDef::mappings],
    /repo/ifc_rs/src/geometry/rectangle_profile_def/mod.rs:76-94. *)
Definition map_rectangle (m : dmap) (l : list val) : outcome profile :=
  a <~ omap (map_axis m) (attr_id l 2);
  x <~ the_real l 3; y <~ the_real l 4; Done (Rectangle a x y).

(** [ArbitraryClosedProfileDef::mappings],
    /repo/ifc_rs/src/geometry/arbitrary_closed_profile_def/mod.rs:67-91. *)
Definition map_arbitrary (m : dmap) (l : list val) : outcome profile :=
  n <~ the_id l 2; ps <~ curve_points m n;
  match nth_error l 0 with Some (VEnum i) => Done (Arbitrary i ps) | _ => Panic end.

(** [MappedExtrudedAreaSolid]. *)
Record solid := mk_solid
  { so_profile : profile; so_position : option axis; so_direction : list f64; so_depth : f64 }.

(** [ExtrudedAreaSolid::mappings],
    /repo/ifc_rs/src/geometry/extruded_area_solid.rs:76-101. *)
Definition map_solid (m : dmap) (l : list val) : outcome solid :=
  n <~ the_id l 0; e <~ get_untyped m n;
  pr <~ match e with
        | Ent KRectangleProfileDef a => map_rectangle m a
        | Ent KArbitraryClosedProfileDef a => map_arbitrary m a
        | _ => Panic
        end;
  po <~ omap (fun i => a <~ get KAxis3D m i; map_axis3 m a) (attr_id l 1);
  d <~ the_id l 2; v <~ get_vec KDirection3D m d;
  h <~ the_real l 3; Done (mk_solid pr po v h).

(** [TransformBaseMapping], [TransformMapping] and [NonUniformTransformMapping] (the
    last component): translation, axes x, y, z, scale, and the other two scales. *)
Record transform := mk_transform
  { tr_origin : option (list f64); tr_x : option (list f64); tr_y : option (list f64);
    tr_z : option (list f64); tr_scale : option f64;
    tr_scales : option (option f64 * option f64) }.

(** [Transform3DBase::mappings], /repo/ifc_rs/src/geometry/transform_base.rs:61-85,
    with the scales of the non-uniform one,
    /repo/ifc_rs/src/geometry/non_uniform_transformations.rs:76-83 and
    uniform_transformations.rs:55-59. *)
Definition map_transform (uniform : bool) (m : dmap) (l : list val) : outcome transform :=
  o <~ opt_vec KPoint3D m l 2;
  x <~ opt_vec KDirection3D m l 0;
  y <~ opt_vec KDirection3D m l 1;
  z <~ opt_vec KDirection3D m l 4;
  Done (mk_transform o x y z (the_opt_real l 3)
          (if uniform then None else Some (the_opt_real l 5, the_opt_real l 6))).

(** [MappedItem::mappings], /repo/ifc_rs/src/relations/mapped_item.rs:78-109: the axis
    of the representation map, its shape representation and the transform. *)
Definition map_item (m : dmap) (l : list val) : outcome (axis * list val * transform) :=
  mp <~ match nth_error l 0 with Some v => id_or_get KRepresentationMap m v | None => Panic end;
  o <~ match nth_error mp 0 with Some v => id_or_get KAxis3D m v | None => Panic end;
  s <~ match nth_error mp 1 with Some v => id_or_get KShapeRepresentation m v | None => Panic end;
  n <~ the_id l 1; e <~ get_untyped m n;
  t <~ match e with
       | Ent KCartesianTransformationOperator3D a => map_transform true m a
       | Ent KCartesianTransformationOperator3DnonUniform a => map_transform false m a
       | _ => Panic
       end;
  a <~ map_axis3 m o; Done (a, s, t).

(** What reading an object gives. *)
Inductive mapped :=
| MAxis (a : axis)
| MPoints (p : points)
| MProfile (p : profile)
| MSolid (s : solid)
| MTransform (t : transform)
| MItem (a : axis) (shape : list val) (t : transform).

(** All the functions above by kind; [None] for a kind without them. *)
Definition mapping (m : dmap) (k : kind) (l : list val) : option (outcome mapped) :=
  match k with
  | KAxis2D => Some (a <~ map_axis2 m l; Done (MAxis a))
  | KAxis3D => Some (a <~ map_axis3 m l; Done (MAxis a))
  | KPolyLine => Some (p <~ polyline_points m l; Done (MPoints p))
  | KRectangleProfileDef => Some (p <~ map_rectangle m l; Done (MProfile p))
  | KArbitraryClosedProfileDef => Some (p <~ map_arbitrary m l; Done (MProfile p))
  | KExtrudedAreaSolid => Some (s <~ map_solid m l; Done (MSolid s))
  | KCartesianTransformationOperator3D => Some (t <~ map_transform true m l; Done (MTransform t))
  | KCartesianTransformationOperator3DnonUniform => Some (t <~ map_transform false m l; Done (MTransform t))
  | KMappedItem => Some (r <~ map_item m l; Done (MItem (fst (fst r)) (snd (fst r)) (snd r)))
  | _ => None
  end.

(** [Product::shapes], /repo/ifc_rs/src/objects/shared/product.rs:61-74, of the
    attributes of a product. *)
Definition product_shapes (m : dmap) (l : list val) : outcome (list (list val)) :=
  match attr_id l 6 with
  | Some n => d <~ get KProductDefinitionShape m n; maps (get KShapeRepresentation m) (attr_ids d 2)
  | None => Done []
  end.

(** [ShapeRepresentation::items],
    /repo/ifc_rs/src/geometry/shape_representation/mod.rs:90-104, the whole iterator:
    every item with its id. *)
Definition shape_items (m : dmap) (l : list val) : outcome (list (N * entity)) :=
  maps (fun n => e <~ get_untyped m n; Done (n, e)) (attr_ids l 3).

(** [ShapeRepresentation::items_of::<T>],
    /repo/ifc_rs/src/geometry/shape_representation/mod.rs:106-110. *)
Definition shape_items_of (k : kind) (m : dmap) (l : list val) : outcome (list (N * list val)) :=
  collect (downcast k m) (attr_ids l 3).

(** [ShapeRepresentation::parent_context],
    /repo/ifc_rs/src/geometry/shape_representation/mod.rs:112-122. *)
Definition parent_context (m : dmap) (l : list val) : outcome (list val) :=
  n <~ the_id l 0; e <~ get_untyped m n;
  match e with
  | Ent KGeometricRepresentationSubContext a => p <~ the_id a 6; get KGeometricRepresentationContext m p
  | Ent KGeometricRepresentationContext a => Done a
  | _ => Panic
  end.
