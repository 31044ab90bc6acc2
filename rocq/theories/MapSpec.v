(** Specification of reading geometry: what the objects of a model say, and when the
    model does not say it. *)

From Coq Require Import String Ascii List NArith ZArith Bool.
From Verif Require Import Base Prims Float Kind Types Schema Entity EntitySpec DataMap Mapping.
Import ListNotations.
Open Scope N_scope.

(** ** What objects say *)

(** Object [n] is the point or direction [v]. *)
Definition vec_at (m : dmap) (k : kind) (n : N) (v : list f64) : Prop :=
  lookup m n = Some (Ent k [VVec v]).

(** An attribute that may be left out. *)
Inductive optional {A} (R : N -> A -> Prop) : val -> option A -> Prop :=
| opt_given n a : R n a -> optional R (VId n) (Some a)
| opt_omitted : optional R VOmit None
| opt_inherited : optional R VInh None.

(** An axis placement. *)
Inductive axis_is (m : dmap) : kind -> list val -> axis -> Prop :=
| axis_2d p v x d :
    vec_at m KPoint2D p v -> optional (vec_at m KDirection2D) x d ->
    axis_is m KAxis2D [VId p; x] (Axis2 v d)
| axis_3d p v z a x b :
    vec_at m KPoint3D p v -> optional (vec_at m KDirection3D) z a ->
    optional (vec_at m KDirection3D) x b ->
    axis_is m KAxis3D [VId p; z; x] (Axis3 v a b).

(** The points of a curve: those of a list of points, or of points that exist on
    their own, all of one dimension. *)
Inductive points_are (m : dmap) : kind -> list val -> points -> Prop :=
| line_2d ns ps :
    ns <> [] -> Forall2 (vec_at m KPoint2D) ns ps ->
    points_are m KPolyLine [VList (map VId ns)] (Points2 ps)
| line_3d ns ps :
    ns <> [] -> Forall2 (vec_at m KPoint3D) ns ps ->
    points_are m KPolyLine [VList (map VId ns)] (Points3 ps)
| curve_2d n ps tags segments self :
    lookup m n = Some (Ent KPointList2D [VList (map VVec ps); tags]) ->
    points_are m KIndexedPolyCurve [VId n; segments; self] (Points2 ps)
| curve_3d n ps tags segments self :
    lookup m n = Some (Ent KPointList3D [VList (map VVec ps); tags]) ->
    points_are m KIndexedPolyCurve [VId n; segments; self] (Points3 ps).

(** Object [n] says [a] in the way [R]. *)
Definition told {A} (m : dmap) (R : kind -> list val -> A -> Prop) (n : N) (a : A) : Prop :=
  exists k l, lookup m n = Some (Ent k l) /\ R k l a.

(** A profile. *)
Inductive profile_is (m : dmap) : kind -> list val -> profile -> Prop :=
| profile_rectangle t name pos a x y :
    optional (told m (axis_is m)) pos a ->
    profile_is m KRectangleProfileDef [t; name; pos; VReal x; VReal y] (Rectangle a x y)
| profile_arbitrary t name n ps :
    told m (points_are m) n ps ->
    profile_is m KArbitraryClosedProfileDef [VEnum t; name; VId n] (Arbitrary t ps).

(** The placement of a solid has three dimensions. *)
Definition axis3_at (m : dmap) (n : N) (a : axis) : Prop :=
  exists l, lookup m n = Some (Ent KAxis3D l) /\ axis_is m KAxis3D l a.

(** An extruded solid. *)
Inductive solid_is (m : dmap) : kind -> list val -> solid -> Prop :=
| solid_extruded p pr pos a d v h :
    told m (profile_is m) p pr -> optional (axis3_at m) pos a -> vec_at m KDirection3D d v ->
    solid_is m KExtrudedAreaSolid [VId p; pos; VId d; VReal h] (mk_solid pr a v h).

(** An attribute that may be left out, refer to an object or embed it. *)
Inductive optional_vec (m : dmap) (k : kind) : val -> option (list f64) -> Prop :=
| optvec_ref n v : vec_at m k n v -> optional_vec m k (VId n) (Some v)
| optvec_embedded v : optional_vec m k (VEnt [VVec v]) (Some v)
| optvec_omitted : optional_vec m k VOmit None
| optvec_inherited : optional_vec m k VInh None.

Inductive optional_real : val -> option f64 -> Prop :=
| optreal_given d : optional_real (VReal d) (Some d)
| optreal_omitted : optional_real VOmit None
| optreal_inherited : optional_real VInh None.

(** A transform: axes x and y, origin, scale, axis z, and the other two scales. *)
Inductive transform_is (m : dmap) : kind -> list val -> transform -> Prop :=
| transform_uniform x y o s z vx vy vo vs vz :
    optional_vec m KDirection3D x vx -> optional_vec m KDirection3D y vy ->
    optional_vec m KPoint3D o vo -> optional_real s vs -> optional_vec m KDirection3D z vz ->
    transform_is m KCartesianTransformationOperator3D [x; y; o; s; z]
      (mk_transform vo vx vy vz vs None)
| transform_other x y o s z sy sz vx vy vo vs vz vsy vsz :
    optional_vec m KDirection3D x vx -> optional_vec m KDirection3D y vy ->
    optional_vec m KPoint3D o vo -> optional_real s vs -> optional_vec m KDirection3D z vz ->
    optional_real sy vsy -> optional_real sz vsz ->
    transform_is m KCartesianTransformationOperator3DnonUniform [x; y; o; s; z; sy; sz]
      (mk_transform vo vx vy vz vs (Some (vsy, vsz))).

(** An attribute that refers to an object of kind [k] or embeds it. *)
Inductive given_or_embedded (m : dmap) (k : kind) : val -> list val -> Prop :=
| goe_ref n l : lookup m n = Some (Ent k l) -> given_or_embedded m k (VId n) l
| goe_embedded l : given_or_embedded m k (VEnt l) l.

(** What an object says. *)
Inductive says (m : dmap) : kind -> list val -> mapped -> Prop :=
| says_axis k l a : axis_is m k l a -> says m k l (MAxis a)
| says_line l p : points_are m KPolyLine l p -> says m KPolyLine l (MPoints p)
| says_profile k l p : profile_is m k l p -> says m k l (MProfile p)
| says_solid k l s : solid_is m k l s -> says m k l (MSolid s)
| says_transform k l t : transform_is m k l t -> says m k l (MTransform t)
| says_item src tgt o r lo lr a t :
    given_or_embedded m KRepresentationMap src [o; r] ->
    given_or_embedded m KAxis3D o lo -> axis_is m KAxis3D lo a ->
    given_or_embedded m KShapeRepresentation r lr ->
    told m (transform_is m) tgt t ->
    says m KMappedItem [src; VId tgt] (MItem a lr t).

(** ** Which objects are needed *)

(** The attributes that have to be followed, and the kinds of the objects there. *)
Definition follows (k : kind) : list (nat * list kind) :=
  match k with
  | KAxis2D => [(0%nat, [KPoint2D]); (1%nat, [KDirection2D])]
  | KAxis3D => [(0%nat, [KPoint3D]); (1%nat, [KDirection3D]); (2%nat, [KDirection3D])]
  | KPolyLine => [(0%nat, [KPoint2D; KPoint3D])]
  | KIndexedPolyCurve => [(0%nat, [KPointList2D; KPointList3D])]
  | KRectangleProfileDef => [(2%nat, [KAxis2D; KAxis3D])]
  | KArbitraryClosedProfileDef => [(2%nat, [KIndexedPolyCurve; KPolyLine])]
  | KExtrudedAreaSolid =>
      [(0%nat, [KRectangleProfileDef; KArbitraryClosedProfileDef]); (1%nat, [KAxis3D]); (2%nat, [KDirection3D])]
  | KCartesianTransformationOperator3D | KCartesianTransformationOperator3DnonUniform =>
      [(0%nat, [KDirection3D]); (1%nat, [KDirection3D]); (2%nat, [KPoint3D]); (4%nat, [KDirection3D])]
  | KMappedItem =>
      [(0%nat, [KRepresentationMap]);
       (1%nat, [KCartesianTransformationOperator3D; KCartesianTransformationOperator3DnonUniform])]
  | KRepresentationMap => [(0%nat, [KAxis3D]); (1%nat, [KShapeRepresentation])]
  | _ => []
  end.

(** The attribute [v] refers to object [n]. *)
Definition mentions (v : val) (n : N) : Prop :=
  v = VId n \/ exists l, v = VList l /\ In (VId n) l.

(** The object of kind [k] with attributes [l] has to be followed to [n], which has to
    be one of [ks]. *)
Definition leads (k : kind) (l : list val) (ks : list kind) (n : N) : Prop :=
  exists i v, In (i, ks) (follows k) /\ nth_error l i = Some v /\ mentions v n.

(** The objects that are used to read an object: itself, and those it leads to or
    embeds, if they are of a kind they have to be. *)
Inductive uses (m : dmap) : kind -> list val -> kind -> list val -> Prop :=
| uses_self k l : uses m k l k l
| uses_ref k l ks n k1 l1 k2 l2 :
    leads k l ks n -> lookup m n = Some (Ent k1 l1) -> In k1 ks -> uses m k1 l1 k2 l2 ->
    uses m k l k2 l2
| uses_embedded k l i k1 l1 k2 l2 :
    In (i, [k1]) (follows k) -> nth_error l i = Some (VEnt l1) -> uses m k1 l1 k2 l2 ->
    uses m k l k2 l2.

(** Object [n] is not one of [ks]. *)
Definition not_one_of (m : dmap) (ks : list kind) (n : N) : Prop :=
  forall k l, lookup m n = Some (Ent k l) -> ~ In k ks.

(** A polygonal line without points, or with points of different dimensions. *)
Definition uneven (m : dmap) (l : list val) : Prop :=
  (forall ks n, ~ leads KPolyLine l ks n) \/
  exists ks n n' v v', leads KPolyLine l ks n /\ leads KPolyLine l ks n' /\
    vec_at m KPoint2D n v /\ vec_at m KPoint3D n' v'.

(** Something that is needed is not what it has to be. *)
Definition lacking (m : dmap) (k : kind) (l : list val) : Prop :=
  (exists k' l' ks n, uses m k l k' l' /\ leads k' l' ks n /\ not_one_of m ks n) \/
  (exists l', uses m k l KPolyLine l' /\ uneven m l').

(** The kinds of objects that can be read. *)
Definition readable_kinds : list kind :=
  [ KAxis2D; KAxis3D; KPolyLine; KRectangleProfileDef; KArbitraryClosedProfileDef
  ; KExtrudedAreaSolid; KCartesianTransformationOperator3D
  ; KCartesianTransformationOperator3DnonUniform; KMappedItem ].

(** An embedded object is used. *)
Definition uses_an_embedded (m : dmap) (k : kind) (l : list val) : Prop :=
  exists k' l' i a, uses m k l k' l' /\ In i (map fst (follows k')) /\ nth_error l' i = Some (VEnt a).

(** An object that is needed is a line of an unknown kind. *)
Definition needs_unknown (m : dmap) (k : kind) (l : list val) : Prop :=
  exists k' l' ks n s, uses m k l k' l' /\ leads k' l' ks n /\ lookup m n = Some (EDummy s).

(** A polygonal line that is used is empty or mixed. *)
Definition needs_uneven (m : dmap) (k : kind) (l : list val) : Prop :=
  exists l', uses m k l KPolyLine l' /\ uneven m l'.

(** ** Representations *)

(** The objects of a list of ids, in the same order. *)
Definition objects_at (m : dmap) (ns : list N) (xs : list (N * entity)) : Prop :=
  map fst xs = ns /\ Forall (fun x => lookup m (fst x) = Some (snd x)) xs.

(** [c] is the representation context of a shape representation: directly, or the
    parent of its subcontext. *)
Definition context_of (m : dmap) (l c : list val) : Prop :=
  exists n, nth_error l 0 = Some (VId n) /\
    (lookup m n = Some (Ent KGeometricRepresentationContext c) \/
     exists a p, lookup m n = Some (Ent KGeometricRepresentationSubContext a) /\ nth_error a 6 = Some (VId p) /\
       lookup m p = Some (Ent KGeometricRepresentationContext c)).

(** The shapes of a product: none, or those of its definition shape, in order. *)
Inductive shapes_are (m : dmap) (l : list val) : list (list val) -> Prop :=
| no_shapes : (forall n, nth_error l 6 <> Some (VId n)) -> shapes_are m l []
| some_shapes n a b ns ss :
    nth_error l 6 = Some (VId n) ->
    lookup m n = Some (Ent KProductDefinitionShape [a; b; VList (map VId ns)]) ->
    Forall2 (fun i s => lookup m i = Some (Ent KShapeRepresentation s)) ns ss ->
    shapes_are m l ss.

(** An object is a line of an unknown kind. *)
Definition unknown_at (m : dmap) (n : N) : Prop := exists s, lookup m n = Some (EDummy s).

(** Kinds of products. *)
Definition product_kinds : list kind :=
  [ KWall; KSlab; KRoof; KShadingDevice; KSpace; KOpeningElement; KWindow; KDoor; KSite; KBuilding; KStorey ].

(** The context of a representation, or the parent of it, is unknown. *)
Definition context_unknown (m : dmap) (l : list val) : Prop :=
  exists n, nth_error l 0 = Some (VId n) /\
    (unknown_at m n \/
     exists a p, lookup m n = Some (Ent KGeometricRepresentationSubContext a) /\ nth_error a 6 = Some (VId p) /\ unknown_at m p).

(** The shape of a product, or one of its representations, is unknown. *)
Definition shape_unknown (m : dmap) (l : list val) : Prop :=
  exists n, nth_error l 6 = Some (VId n) /\
    (unknown_at m n \/ exists a b ns i, lookup m n = Some (Ent KProductDefinitionShape [a; b; VList (map VId ns)]) /\
       In i ns /\ unknown_at m i).

(** Every object of a known kind has attributes of the right types. *)
Definition well_typed (m : dmap) : Prop :=
  forall n k l, lookup m n = Some (Ent k l) -> wf_ent k l.
