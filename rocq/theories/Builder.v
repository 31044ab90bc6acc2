(** Model of the builder: /repo/ifc_rs/src/ifc_builder/*.rs and the constructors it
    calls.

    A builder call is a function on the state of the project builder that returns a
    value or panics.  What the code takes from its surroundings (random identifiers,
    the clock, the iteration order of hash tables) is taken from an oracle; every
    use asks it with the next number, so the answers can be any. *)

From Coq Require Import String Ascii List NArith ZArith Bool.
From Verif Require Import Base Prims Float Arith Kind Types Schema Entity DataMap Extractor.
Import ListNotations.
Open Scope N_scope.

(** What is not determined by the calls: [o_guid] are the identifiers of
    [Uuid::new_v4], [o_now] the seconds of [Utc::now], [o_order] the order in which a
    hash table with these keys is walked, [o_neg_sum] whether an empty sum of floats
    is [-0.0] (newer versions of the standard library) or [0.0]. *)
Record oracle := mk_oracle
  { o_guid : nat -> list N; o_now : nat -> Z; o_order : nat -> list N -> list N
  ; o_neg_sum : bool }.

(** The element classes the builder keeps separate tables for. *)
Inductive cls := CWall | CSlab | CRoof | CWindow | CShading | CSpace.

Definition cls_eqb (a b : cls) : bool :=
  match a, b with
  | CWall, CWall | CSlab, CSlab | CRoof, CRoof | CWindow, CWindow | CShading, CShading
  | CSpace, CSpace => true
  | _, _ => false
  end.

(** Key of a table of material associations: the class, whether it is the table of
    types, the material; /repo/ifc_rs/src/ifc_builder/project.rs:16-28. *)
Definition akey := (cls * bool * N)%type.
Definition akey_eqb (a b : akey) : bool :=
  cls_eqb (fst (fst a)) (fst (fst b)) && Bool.eqb (snd (fst a)) (snd (fst b)) && (snd a =? snd b).

(** [HashMap::insert] and [HashMap::get] on an association list. *)
Fixpoint hset {K V} (eqb : K -> K -> bool) (l : list (K * V)) (k : K) (v : V) : list (K * V) :=
  match l with
  | [] => [(k, v)]
  | (k', v') :: l' => if eqb k' k then (k, v) :: l' else (k', v') :: hset eqb l' k v
  end.
Fixpoint hget {K V} (eqb : K -> K -> bool) (l : list (K * V)) (k : K) : option V :=
  match l with
  | [] => None
  | (k', v') :: l' => if eqb k' k then Some v' else hget eqb l' k
  end.

(** [HashSet::insert]. *)
Definition set_add (l : list N) (n : N) : list N := if existsb (N.eqb n) l then l else l ++ [n].

(** [IfcProjectBuilder], /repo/ifc_rs/src/ifc_builder/project.rs:7-29, with the number
    of questions put to the oracle; the tables of associations are one table. *)
Record proj := mk_proj
  { p_map : dmap; p_tick : nat; p_owner : N; p_project : N; p_sites : list N
  ; p_assoc : list (akey * list val) }.

Definition set_map (m : dmap) (p : proj) : proj :=
  mk_proj m (p_tick p) (p_owner p) (p_project p) (p_sites p) (p_assoc p).
Definition set_tick (t : nat) (p : proj) : proj :=
  mk_proj (p_map p) t (p_owner p) (p_project p) (p_sites p) (p_assoc p).
Definition set_sites (l : list N) (p : proj) : proj :=
  mk_proj (p_map p) (p_tick p) (p_owner p) (p_project p) l (p_assoc p).
Definition set_assoc (l : list (akey * list val)) (p : proj) : proj :=
  mk_proj (p_map p) (p_tick p) (p_owner p) (p_project p) (p_sites p) l.

(** [TransformParameter], /repo/ifc_rs/src/ifc_builder/transforms.rs:7-12. *)
Record tparam := mk_tparam { t_move : vec3; t_x : vec3; t_y : vec3; t_z : vec3 }.

(** Lines 55-64. *)
Definition tparam_default : tparam := mk_tparam v_zero v_x v_y v_z.

(** [IfcStoreyBuilder], /repo/ifc_rs/src/ifc_builder/storey.rs:5-44: the sets of
    elements are one list with the class of each, the tables of types one table. *)
Record storey := mk_storey
  { s_id : N; s_ctx : N
  ; s_elems : list (cls * N)
  ; s_types : list (cls * N * list N)
  ; s_voids_wall : list (N * N)
  ; s_voids_slab : list (N * N)
  ; s_fills : list (N * N) }.

Definition tkey_eqb (a b : cls * N) : bool := cls_eqb (fst a) (fst b) && (snd a =? snd b).

Definition elems_of (c : cls) (st : storey) : list N :=
  map snd (filter (fun p => cls_eqb (fst p) c) (s_elems st)).
Definition types_of (c : cls) (st : storey) : list (N * list N) :=
  map (fun p => (snd (fst p), snd p)) (filter (fun p => cls_eqb (fst (fst p)) c) (s_types st)).

Definition add_elem (c : cls) (n : N) (st : storey) : storey :=
  mk_storey (s_id st) (s_ctx st)
    (if existsb (fun p => tkey_eqb p (c, n)) (s_elems st) then s_elems st else s_elems st ++ [(c, n)])
    (s_types st) (s_voids_wall st) (s_voids_slab st) (s_fills st).
Definition set_types (l : list (cls * N * list N)) (st : storey) : storey :=
  mk_storey (s_id st) (s_ctx st) (s_elems st) l (s_voids_wall st) (s_voids_slab st) (s_fills st).
Definition add_void (slab : bool) (opening host : N) (st : storey) : storey :=
  if slab
  then mk_storey (s_id st) (s_ctx st) (s_elems st) (s_types st) (s_voids_wall st)
         (hset N.eqb (s_voids_slab st) opening host) (s_fills st)
  else mk_storey (s_id st) (s_ctx st) (s_elems st) (s_types st)
         (hset N.eqb (s_voids_wall st) opening host) (s_voids_slab st) (s_fills st).
Definition add_fill (opening window : N) (st : storey) : storey :=
  mk_storey (s_id st) (s_ctx st) (s_elems st) (s_types st) (s_voids_wall st) (s_voids_slab st)
    (hset N.eqb (s_fills st) opening window).

(** [entry(t).or_default()]. *)
Definition type_entry (c : cls) (t : N) (st : storey) : storey :=
  match hget tkey_eqb (s_types st) (c, t) with
  | Some _ => st
  | None => set_types (hset tkey_eqb (s_types st) (c, t) []) st
  end.
(** [insert(t, HashSet::new())]. *)
Definition type_reset (c : cls) (t : N) (st : storey) : storey :=
  set_types (hset tkey_eqb (s_types st) (c, t) []) st.
(** [entry(t).or_default().insert(n)]. *)
Definition type_push (c : cls) (t n : N) (st : storey) : storey :=
  set_types (hset tkey_eqb (s_types st) (c, t)
               (set_add (match hget tkey_eqb (s_types st) (c, t) with Some l => l | None => [] end) n)) st.

(** Change of one attribute. *)
Fixpoint set_at (i : nat) (v : val) (l : list val) : list val :=
  match l, i with
  | [], _ => []
  | _ :: t, O => v :: t
  | x :: t, S j => x :: set_at j v t
  end.

(** [push] on a list attribute. *)
Definition push_at (i : nat) (n : N) (l : list val) : list val :=
  match nth_error l i with
  | Some (VList vs) => set_at i (VList (vs ++ [VId n])) l
  | _ => l
  end.

Definition ids (l : list N) : val := VList (map VId l).
Definition vec (v : vec3) : val := let '(x, y, z) := v in VVec [x; y; z].
Definition vec_2 (v : vec2) : val := VVec [fst v; snd v].

(** ** Calls *)

Definition B (A : Type) := proj -> outcome (A * proj).
Definition bret {A} (a : A) : B A := fun p => Done (a, p).
Definition bbind {A C} (c : B A) (f : A -> B C) : B C :=
  fun p => match c p with Done (a, p') => f a p' | Err => Err | Panic => Panic end.
Definition bpanic {A} : B A := fun _ => Panic.

Declare Scope builder_scope.
Delimit Scope builder_scope with builder.
Notation "x <-- c ;; k" := (bbind c (fun x => k))
  (at level 61, c at next level, right associativity) : builder_scope.
Notation "'letp' p <-- c ;; k" := (bbind c (fun x => match x with p => k end))
  (at level 61, p pattern, c at next level, right associativity) : builder_scope.
Open Scope builder_scope.

(** [for x in l] and [l.map(..).collect()]. *)
Fixpoint bmap {A C} (f : A -> B C) (l : list A) : B (list C) :=
  match l with
  | [] => bret []
  | a :: l' => c <-- f a ;; cs <-- bmap f l' ;; bret (c :: cs)
  end.

(** [find_map]. *)
Fixpoint bfind {A C} (f : A -> B (option C)) (l : list A) : B (option C) :=
  match l with
  | [] => bret None
  | a :: l' =>
      r <-- f a ;;
      match r with Some c => bret (Some c) | None => bfind f l' end
  end.

Definition bget : B proj := fun p => Done (p, p).
Definition bput (q : proj) : B unit := fun _ => Done (tt, q).

(** [data.insert_new]; an overflow of the id panics. *)
Definition ins (k : kind) (l : list val) : B N :=
  fun p => match insert_new (p_map p) (Ent k l) with
           | Some (m, n) => Done (n, set_map m p)
           | None => Panic
           end.

(** [data.get] with a type. *)
Definition fetch (k : kind) (n : N) : B (list val) :=
  fun p => match get k (p_map p) n with Done l => Done (l, p) | Err => Err | Panic => Panic end.

(** [data.get_untyped]. *)
Definition fetch_any (n : N) : B entity :=
  fun p => match get_untyped (p_map p) n with Done e => Done (e, p) | Err => Err | Panic => Panic end.

(** [data.get_mut] and an assignment. *)
Definition modify (k : kind) (n : N) (f : list val -> list val) : B unit :=
  fun p => match update k (p_map p) n f with
           | Done m => Done (tt, set_map m p)
           | Err => Err
           | Panic => Panic
           end.

(** [unwrap] and [expect]; also used where the type of an attribute leaves only one
    shape, so that [None] cannot happen. *)
Definition need {A} (x : option A) : B A :=
  match x with Some a => bret a | None => bpanic end.

(** The place of 'Axis' and 'Body' in the enumeration of identifiers, of 'Curve2D',
    'SweptSolid' and 'MappedRepresentation' in that of representation types
    (/repo/ifc_rs/src/geometry/shape_representation/repr_identifier.rs:9-46,
    repr_type.rs:8-96). *)
Definition id_axis : nat := 3.
Definition id_body : nat := 8.
Definition ty_curve2d : nat := 3.
Definition ty_swept : nat := 19.
Definition ty_mapped : nat := 28.

Section Builder.
Variable o : oracle.

(** A question to the oracle. *)
Definition tick : B nat := fun p => Done (p_tick p, set_tick (S (p_tick p)) p).

(** [IfcGloballyUniqueId::new_v4], /repo/ifc_rs/src/id/ifc_uuid.rs:37-39. *)
Definition fresh_guid : B val := t <-- tick ;; bret (VGuid (o_guid o t)).

(** [IfcTimestamp::now], /repo/ifc_rs/src/parser/timestamp.rs:17-19. *)
Definition now : B val := t <-- tick ;; bret (VInt (o_now o t)).

(** Walking a hash set or the keys of a hash table. *)
Definition walk (l : list N) : B (list N) := t <-- tick ;; bret (o_order o t l).

(** Walking a hash table. *)
Definition walk_pairs {A} (l : list (N * A)) : B (list (N * A)) :=
  ks <-- walk (map fst l) ;;
  bret (flat_map (fun k => match hget N.eqb l k with Some a => [(k, a)] | None => [] end) ks).

(** ** Constructors *)

(** [Root::new], /repo/ifc_rs/src/objects/shared/root.rs:42-49, and [owner_history],
    lines 51-60. *)
Definition root (name : text) : B (list val) :=
  g <-- fresh_guid ;; bret [g; VOmit; VStr name; VOmit].
Definition owned (name : text) : B (list val) :=
  g <-- fresh_guid ;; p <-- bget ;; bret [g; VId (p_owner p); VStr name; VOmit].

(** [Element::new(Product::new(Object::new(Root::new(name))))] with placement and
    representation, /repo/ifc_rs/src/objects/shared/element.rs:32-37,
    product.rs:53-59, object.rs:32-37. *)
Definition element (r : list val) (place shape : val) : list val :=
  r ++ [VOmit; place; shape; VOmit].

(** [SpatialStructureElement::new(SpatialElement::new(..))],
    /repo/ifc_rs/src/objects/shared/spatial_structure_element.rs:33-38,
    spatial_element.rs:33-38. *)
Definition spatial (r : list val) (place shape : val) : list val :=
  r ++ [VOmit; place; shape; VOmit; VOmit].

(** [ElementType::new(TypeProduct::new(TypeObject::new(..)))],
    /repo/ifc_rs/src/objects/shared/element_type.rs:36-41, type_product.rs:45-51,
    type_object.rs:49-55. *)
Definition element_type (r : list val) : list val := r ++ [VOmit; VOmit; VOmit; VOmit; VOmit].

(** [Axis3D::new], /repo/ifc_rs/src/geometry/axis/mod.rs:100-108: the point is
    inserted, the axis is not. *)
Definition axis3d (p : vec3) : B (list val) :=
  n <-- ins KPoint3D [vec p] ;; bret [VId n; VOmit; VOmit].

(** [LocalPlacement::new], /repo/ifc_rs/src/geometry/local_placement/mod.rs:37-42: the
    axis is inserted. *)
Definition placement_new (axis : list val) : B (list val) :=
  a <-- ins KAxis3D axis ;; bret [VOmit; VId a].

(** [placement_id], /repo/ifc_rs/src/traits/relative_placement.rs:7-37: attribute
    [object_placement]. *)
Definition placement_of (l : list val) : option N := attr_id l 5.

(** [LocalPlacement::new_relative], /repo/ifc_rs/src/traits/relative_placement.rs:45-57. *)
Definition new_relative (axis : list val) (k : kind) (parent : N) : B (list val) :=
  l <-- fetch k parent ;;
  r <-- need (placement_of l) ;;
  a <-- ins KAxis3D axis ;; bret [VId r; VId a].

(** [Direction3D::from(DVec3)], /repo/ifc_rs/src/geometry/direction/mod.rs:41-45. *)
Definition direction_from (v : vec3) : vec3 := vnormalize v.

(** [ShapeRepresentation::new] with its items,
    /repo/ifc_rs/src/geometry/shape_representation/mod.rs:69-88. *)
Definition shape_repr (ctx : N) (ident ty : nat) (items : list N) : list val :=
  [VId ctx; VEnum ident; VEnum ty; ids items].

(** [ProductDefinitionShape::new] with representations,
    /repo/ifc_rs/src/geometry/product_definition_shape/mod.rs:51-57,198-208. *)
Definition product_shape (reprs : list N) : list val := [VOmit; VOmit; ids reprs].

(** [ExtrudedAreaSolid::new] of a profile already inserted, and its insertion by
    [add_item] and [add_representation];
    /repo/ifc_rs/src/geometry/extruded_area_solid.rs:53-65. *)
Definition extrude (profile : N) (dir : vec3) (depth : f64) (ctx : N) : B (list val) :=
  d <-- ins KDirection3D [vec dir] ;;
  s <-- ins KExtrudedAreaSolid [VId profile; VOmit; VId d; VReal depth] ;;
  r <-- ins KShapeRepresentation (shape_repr ctx id_body ty_swept [s]) ;;
  bret (product_shape [r]).

(** [new_rectangular_shape],
    /repo/ifc_rs/src/geometry/product_definition_shape/mod.rs:59-92. *)
Definition rectangular_shape (length height thickness : f64) (dir : vec3) (ctx : N) : B (list val) :=
  c <-- ins KPoint2D [vec_2 (fmul length f_half, fmul thickness f_half)] ;;
  a <-- ins KAxis2D [VId c; VOmit] ;;
  f <-- ins KRectangleProfileDef [VEnum 1; VOmit; VId a; VReal length; VReal thickness] ;;
  extrude f dir height ctx.

(** The profile made of a list of points, lines 108-112. *)
Definition arbitrary_profile (k : kind) (coords : list val) : B N :=
  l <-- ins k [VList coords; VOmit] ;;
  c <-- ins KIndexedPolyCurve [VId l; VOmit; VOmit] ;;
  ins KArbitraryClosedProfileDef [VEnum 1; VOmit; VId c].

(** Lines 94-121 [new_horizontal_arbitrary_shape]. *)
Definition horizontal_shape (coords : list vec2) (thickness : f64) (ctx : N) : B (list val) :=
  f <-- arbitrary_profile KPointList2D (map vec_2 coords) ;;
  extrude f (direction_from v_z) thickness ctx.

(** Lines 123-156 [new_vertical_arbitrary_shape]. *)
Definition vertical_shape (coords : list vec2) (thickness : f64) (ctx : N) : B (list val) :=
  f <-- arbitrary_profile KPointList3D (map (fun c => vec (fst c, f_zero, snd c)) coords) ;;
  extrude f (direction_from v_y) thickness ctx.

(** Lines 158-186 [new_arbitrary_shape]. *)
Definition arbitrary_shape (coords : list vec3) (thickness : f64) (dir : vec3) (ctx : N) : B (list val) :=
  f <-- arbitrary_profile KPointList3D (map vec coords) ;;
  extrude f (direction_from dir) thickness ctx.

(** [add_representation] of a value, lines 198-208. *)
Definition add_representation (repr shape : list val) : B (list val) :=
  r <-- ins KShapeRepresentation repr ;; bret (push_at 2 r shape).

(** ** Materials, /repo/ifc_rs/src/ifc_builder/materials.rs *)

(** Lines 97-101; /repo/ifc_rs/src/materials/material.rs:32-38. *)
Definition material (name : text) : B N := ins KMaterial [VStr name; VOmit; VOmit].

(** Lines 4-13; [layer] is the value given by the caller. *)
Definition material_layer (name : text) (layer : list val) : B N :=
  m <-- material name ;; ins KMaterialLayer (set_at 0 (VId m) layer).

(** Lines 15-27. *)
Definition material_layer_set (l : list N) : B N := ins KMaterialLayerSet [ids l; VOmit; VOmit].

(** Lines 29-46. *)
Definition material_layer_set_usage (set : N) (dir sense : nat) (offset : f64) : B N :=
  ins KMaterialLayerSetUsage [VId set; VEnum dir; VEnum sense; VReal offset; VOmit].

(** Lines 71-80; /repo/ifc_rs/src/materials/material_constituent.rs:46-64. *)
Definition material_constituent (mname name : text) : B N :=
  m <-- material mname ;;
  ins KMaterialConstituent [VStr name; VOmit; VId m; VOmit; VOmit].

(** Lines 82-95. *)
Definition material_constituent_set (l : list N) : B N :=
  ins KMaterialConstituentSet [VOmit; VOmit; ids l].

(** [layer.layer_thickness.0]. *)
Definition layer_thickness (l : list val) : option f64 :=
  match nth_error l 1 with Some (VReal d) => Some d | _ => None end.

(** Lines 48-69 [calculate_material_layer_set_thickness]. *)
Definition thickness (usage : N) : B f64 :=
  u <-- fetch KMaterialLayerSetUsage usage ;;
  s <-- need (attr_id u 0) ;;
  l <-- fetch KMaterialLayerSet s ;;
  ds <-- bmap (fun n => y <-- fetch KMaterialLayer n ;; need (layer_thickness y)) (attr_ids l 0) ;;
  bret (fsum (FFin (o_neg_sum o) 0 (-1074)) ds).

(** Names of the associations. *)
Definition assoc_suffix (c : cls) (is_type : bool) : text :=
  match c, is_type with
  | CWall, false => lit "ToWalls"
  | CWall, true => lit "ToWallType"
  | CSlab, false => lit "ToSlab"
  | CSlab, true => lit "ToSlabType"
  | CRoof, false => lit "ToRoof"
  | CRoof, true => lit "ToRoofType"
  | CWindow, _ => lit "ToWindows"
  | CShading, false => lit "ToShadingDevices"
  | CShading, true => lit "ToShadingDeviceType"
  | CSpace, _ => []
  end.

(** [.entry(material).or_insert_with(|| RelAssociatesMaterial::new(..).owner_history(..))
    .relate_push(n)], e.g. /repo/ifc_rs/src/ifc_builder/walls.rs:307-318;
    /repo/ifc_rs/src/relations/rel_associates_material.rs:34-43. *)
Definition associate (c : cls) (is_type : bool) (m n : N) : B unit :=
  p <-- bget ;;
  rel <-- match hget akey_eqb (p_assoc p) (c, is_type, m) with
          | Some rel => bret rel
          | None =>
              r <-- owned (lit "Material" ++ show_N m ++ assoc_suffix c is_type) ;;
              bret (r ++ [VList []; VId m])
          end ;;
  q <-- bget ;;
  bput (set_assoc (hset akey_eqb (p_assoc q) (c, is_type, m) (push_at 4 n rel)) q).

(** The associations of one table. *)
Definition assocs_of (c : cls) (is_type : bool) (l : list (akey * list val)) : list (N * list val) :=
  map (fun x => (snd (fst x), snd x))
    (filter (fun x => cls_eqb (fst (fst (fst x))) c && Bool.eqb (snd (fst (fst x))) is_type) l).

(** The material of a wall or slab,
    /repo/ifc_rs/src/ifc_builder/openings.rs:86-98,195-208, windows.rs:65-78,170-182. *)
Definition host_thickness (c : cls) (n : N) : B f64 :=
  p <-- bget ;;
  l <-- walk_pairs (assocs_of c false (p_assoc p)) ;;
  m <-- need (find (fun x => in_attr (snd x) 4 n) l) ;;
  thickness (fst m).

(** ** Types *)

(** Kinds of the elements and their types. *)
Definition kind_of_cls (c : cls) : kind :=
  match c with
  | CWall => KWall | CSlab => KSlab | CRoof => KRoof | CWindow => KWindow
  | CShading => KShadingDevice | CSpace => KSpace
  end.
Definition type_kind (c : cls) : kind :=
  match c with
  | CWall => KWallType | CSlab => KSlabType | CRoof => KRoofType | CWindow => KWindowType
  | CShading => KShadingDeviceType | CSpace => KSpaceType
  end.

(** [wall_type] (walls.rs:265-292), [slab_type] (slabs.rs:201-228), [roof_type]
    (roofs.rs:46-74), [shading_device_type] (shading_devices.rs:14-43).  The attribute
    list of the type ends with its predefined type. *)
Definition new_type (c : cls) (m : N) (name : text) (predefined : nat) (st : storey) : B (N * storey) :=
  r <-- owned name ;;
  n <-- ins (type_kind c) (element_type r ++ [VEnum predefined]) ;;
  u <-- associate c true m n ;;
  bret (n, match c with CWall => type_entry c n st | _ => type_reset c n st end).

(** [window_type], windows.rs:265-282. *)
Definition new_window_type (name : text) (predefined partitioning : nat) (st : storey) : B (N * storey) :=
  r <-- owned name ;;
  n <-- ins KWindowType (element_type r ++ [VEnum predefined; VEnum partitioning; VOmit; VOmit]) ;;
  bret (n, type_reset CWindow n st).

(** [space_type], spaces.rs:53-65. *)
Definition new_space_type (name : text) (predefined : nat) (st : storey) : B (N * storey) :=
  r <-- owned name ;;
  n <-- ins KSpaceType (element_type r ++ [VEnum predefined; VOmit]) ;;
  bret (n, type_reset CSpace n st).

(** ** Elements *)

(** [PolyLine::from] of two points and [ShapeRepresentation::new(Axis, Curve2D)] with
    it, walls.rs:129-141; /repo/ifc_rs/src/geometry/polyline/mod.rs:21-29.  The
    representation itself is inserted later. *)
Definition axis_repr (to_point : vec3) (ctx : N) : B (list val) :=
  a <-- ins KPoint3D [vec v_zero] ;;
  b <-- ins KPoint3D [vec to_point] ;;
  l <-- ins KPolyLine [ids [a; b]] ;;
  bret (shape_repr ctx id_axis ty_curve2d [l]).

Inductive wall_shape :=
| WVertical (length height : f64)
| WVerticalArbitrary (coords : list vec2)
| WArbitrary (coords : list vec3) (dir : vec3).

Inductive slab_shape :=
| SHorizontal (coords : list vec2)
| SVertical (start fin : vec2) (height : f64)
| SArbitrary (coords : list vec3) (dir : vec3).

(** Attributes an element has after those of [Element]. *)
Definition elem_rest (c : cls) : list val :=
  match c with
  | CWindow => [VOmit; VOmit; VOmit; VOmit; VOmit]
  | CSpace => [VOmit; VOmit]
  | _ => [VOmit]
  end.

(** Last part of creating a wall, slab, roof or shading device: lines 158-166 and
    294-318 of walls.rs, 230-266 of slabs.rs, 35-43 and 77-101 of roofs.rs, 69-107 of
    shading_devices.rs.  Placement, then representation, then the element. *)
Definition place_element (c : cls) (m ty : N) (name : text) (position shape : list val)
    (st : storey) : B (N * storey) :=
  lp <-- new_relative position KStorey (s_id st) ;;
  r <-- owned name ;;
  pl <-- ins KLocalPlacement lp ;;
  sh <-- ins KProductDefinitionShape shape ;;
  n <-- ins (kind_of_cls c) (element r (VId pl) (VId sh) ++ elem_rest c) ;;
  u <-- associate c false m n ;;
  bret (n, type_push c ty n (add_elem c n st)).

(** Shape of a wall, walls.rs:127-151,176-198,223-247. *)
Definition wall_body (m : N) (s : wall_shape) (ctx : N) : B (list val) :=
  t <-- thickness m ;;
  match s with
  | WVertical length height =>
      x <-- axis_repr v_x ctx ;;
      b <-- rectangular_shape length height t (direction_from v_z) ctx ;;
      add_representation x b
  | WVerticalArbitrary coords =>
      x <-- axis_repr v_x ctx ;;
      b <-- vertical_shape coords t ctx ;;
      add_representation x b
  | WArbitrary coords dir =>
      x <-- axis_repr (vnormalize (vcross dir v_z)) ctx ;;
      b <-- arbitrary_shape coords t dir ctx ;;
      add_representation x b
  end.

(** walls.rs:120-263. *)
Definition new_wall (m ty : N) (name : text) (s : wall_shape) (place : vec3) (st : storey) : B (N * storey) :=
  b <-- wall_body m s (s_ctx st) ;;
  a <-- axis3d place ;;
  place_element CWall m ty name a b st.

(** slabs.rs:115-199. *)
Definition slab_body (m : N) (s : slab_shape) (ctx : N) : B (list val) :=
  t <-- thickness m ;;
  match s with
  | SHorizontal coords => horizontal_shape coords t ctx
  | SVertical start fin height =>
      arbitrary_shape [vextend start height; vextend start f_zero; vextend fin f_zero; vextend fin height]
        t (vcross (vsub (vextend start f_zero) (vextend fin f_zero)) v_z) ctx
  | SArbitrary coords dir => arbitrary_shape coords t dir ctx
  end.
Definition new_slab (m ty : N) (name : text) (s : slab_shape) (place : vec3) (st : storey) : B (N * storey) :=
  b <-- slab_body m s (s_ctx st) ;;
  a <-- axis3d place ;;
  place_element CSlab m ty name a b st.

(** roofs.rs:14-44. *)
Definition new_roof (m ty : N) (name : text) (coords : list vec2) (place : vec3) (st : storey) : B (N * storey) :=
  t <-- thickness m ;;
  b <-- horizontal_shape coords t (s_ctx st) ;;
  a <-- axis3d place ;;
  place_element CRoof m ty name a b st.

(** shading_devices.rs:45-78: the thickness of the layers is the height of the
    extrusion. *)
Definition new_shading (m ty : N) (name : text) (length height : f64) (place : vec3) (st : storey) : B (N * storey) :=
  t <-- thickness m ;;
  b <-- rectangular_shape length t height (direction_from v_z) (s_ctx st) ;;
  a <-- axis3d place ;;
  place_element CShading m ty name a b st.

(** spaces.rs:14-51: no material. *)
Definition new_space (ty : N) (name : text) (coords : list vec2) (height : f64) (place : vec3)
    (st : storey) : B (N * storey) :=
  b <-- horizontal_shape coords height (s_ctx st) ;;
  a <-- axis3d place ;;
  lp <-- new_relative a KStorey (s_id st) ;;
  r <-- owned name ;;
  pl <-- ins KLocalPlacement lp ;;
  sh <-- ins KProductDefinitionShape b ;;
  n <-- ins KSpace (spatial r (VId pl) (VId sh) ++ elem_rest CSpace) ;;
  bret (n, type_push CSpace ty n (add_elem CSpace n st)).

(** ** Openings, /repo/ifc_rs/src/ifc_builder/openings.rs *)

(** A wall or slab under construction: [IfcWallBuilder] (walls.rs:7-12) and
    [IfcSlabBuilder] (slabs.rs:9-14). *)
Record host := mk_host { h_slab : bool; h_id : N; h_tr : option tparam }.
Definition host_cls (h : host) : cls := if h_slab h then CSlab else CWall.
Definition host_kind (h : host) : kind := kind_of_cls (host_cls h).

(** End of [opening], lines 68-82 and 178-192: representation, then placement. *)
Definition place_opening (h : host) (name : text) (position shape : list val) (st : storey) : B (N * storey) :=
  lp <-- new_relative position (host_kind h) (h_id h) ;;
  r <-- owned name ;;
  sh <-- ins KProductDefinitionShape shape ;;
  pl <-- ins KLocalPlacement lp ;;
  n <-- ins KOpeningElement (element r (VId pl) (VId sh) ++ [VOmit]) ;;
  bret (n, add_void (h_slab h) n (h_id h) st).

(** Lines 46-83 [opening] of a wall; [vertical_opening], lines 29-44, is the case of
    direction Z. *)
Definition wall_opening (h : host) (name : text) (length height : f64) (place dir : vec3)
    (st : storey) : B (N * storey) :=
  a <-- axis3d place ;;
  t <-- host_thickness CWall (h_id h) ;;
  b <-- rectangular_shape length height t (direction_from dir) (s_ctx st) ;;
  place_opening h name a b st.

(** [Product::shapes], /repo/ifc_rs/src/objects/shared/product.rs:62-75. *)
Definition shapes (l : list val) : B (list (list val)) :=
  match attr_id l 6 with
  | Some n => d <-- fetch KProductDefinitionShape n ;; bmap (fetch KShapeRepresentation) (attr_ids d 2)
  | None => bret []
  end.

(** The direction of an extruded solid.  Its profile and position are looked up too
    (/repo/ifc_rs/src/geometry/extruded_area_solid.rs:76-101); that is left out. *)
Definition solid_direction (l : list val) : B vec3 :=
  d <-- need (attr_id l 2) ;;
  v <-- fetch KDirection3D d ;;
  match v with [VVec [x; y; z]] => bret (x, y, z) | _ => bpanic end.

(** [Product::direction], /repo/ifc_rs/src/objects/shared/product.rs:78-102. *)
Definition product_direction (l : list val) : B (option vec3) :=
  ss <-- shapes l ;;
  bfind (fun s =>
    bfind (fun i =>
      e <-- fetch_any i ;;
      match e with
      | Ent KExtrudedAreaSolid x => d <-- solid_direction x ;; bret (Some d)
      | Ent KMappedItem x =>
          mi <-- need (attr_id x 0) ;;
          mp <-- fetch KRepresentationMap mi ;;
          ri <-- need (attr_id mp 1) ;;
          rp <-- fetch KShapeRepresentation ri ;;
          bfind (fun j =>
            e' <-- fetch_any j ;;
            match e' with
            | Ent KExtrudedAreaSolid y => d <-- solid_direction y ;; bret (Some d)
            | _ => bret None
            end) (attr_ids rp 3)
      | _ => bret None
      end) (attr_ids s 3)) ss.

(** [slab_direction] with [expect], openings.rs:110-113, slabs.rs:277-283. *)
Definition slab_direction (n : N) : B vec3 :=
  l <-- fetch KSlab n ;; d <-- product_direction l ;; need d.

Inductive opening_shape :=
| PRect (length height : f64) (place : vec3)
| PHorizontal (coords : list vec2)
| PArbitrary (coords : list vec3).

Definition opening_place (s : opening_shape) : vec3 :=
  match s with PRect _ _ p => p | _ => v_zero end.

(** The shape of an opening in a slab, and of the window in it
    (openings.rs:102-167; windows.rs:184-262,284-370): the direction of the slab is
    used as it is for a rectangle and normalised again for a list of points. *)
Definition slab_filling (h : host) (s : opening_shape) (ctx : N) : B (list val) :=
  t <-- host_thickness CSlab (h_id h) ;;
  match s with
  | PRect length height _ =>
      d <-- slab_direction (h_id h) ;; rectangular_shape length t height d ctx
  | PHorizontal coords => horizontal_shape coords t ctx
  | PArbitrary coords => d <-- slab_direction (h_id h) ;; arbitrary_shape coords t d ctx
  end.

(** openings.rs:102-193. *)
Definition slab_opening (h : host) (name : text) (s : opening_shape) (st : storey) : B (N * storey) :=
  b <-- slab_filling h s (s_ctx st) ;;
  a <-- axis3d (opening_place s) ;;
  place_opening h name a b st.

(** ** Windows, /repo/ifc_rs/src/ifc_builder/windows.rs *)

(** Lines 372-417 [window]: placement zero plus zero, representation before
    placement. *)
Definition place_window (m ty opening : N) (name : text) (shape : list val) (st : storey) : B (N * storey) :=
  a <-- axis3d (vadd v_zero v_zero) ;;
  lp <-- new_relative a KOpeningElement opening ;;
  r <-- owned name ;;
  sh <-- ins KProductDefinitionShape shape ;;
  pl <-- ins KLocalPlacement lp ;;
  n <-- ins KWindow (element r (VId pl) (VId sh) ++ elem_rest CWindow) ;;
  u <-- associate CWindow false m n ;;
  bret (n, type_push CWindow ty n (add_fill opening n (add_elem CWindow n st))).

Definition window_opening_name (name : text) : text := lit "OpeningElementOfWindow" ++ name.

(** Lines 24-89 and 284-312: opening and window. *)
Definition wall_window (h : host) (m ty : N) (name : text) (width height : f64) (place dir : vec3)
    (st : storey) : B (N * N * storey) :=
  letp (op, st1) <-- wall_opening h (window_opening_name name) width height place v_z st ;;
  t <-- host_thickness CWall (h_id h) ;;
  b <-- rectangular_shape width height t dir (s_ctx st) ;;
  letp (n, st2) <-- place_window m ty op name b st1 ;;
  bret (op, n, st2).

(** Lines 94-262, 284-370. *)
Definition slab_window (h : host) (m ty : N) (name : text) (s : opening_shape) (st : storey) : B (N * N * storey) :=
  letp (op, st1) <-- slab_opening h (window_opening_name name) s st ;;
  b <-- slab_filling h s (s_ctx st) ;;
  letp (n, st2) <-- place_window m ty op name b st1 ;;
  bret (op, n, st2).

(** ** Transforms, /repo/ifc_rs/src/ifc_builder/transforms.rs *)

(** [Direction3D::from] and [CartesianTransformationOperator3DnonUniform::new], lines
    80-90; /repo/ifc_rs/src/geometry/transform_base.rs:38-55,
    non_uniform_transformations.rs:55-70. *)
Definition transform_object (t : tparam) : B N :=
  x <-- ins KDirection3D [vec (direction_from (t_x t))] ;;
  y <-- ins KDirection3D [vec (direction_from (t_y t))] ;;
  q <-- ins KPoint3D [vec (t_move t)] ;;
  z <-- ins KDirection3D [vec (direction_from (t_z t))] ;;
  ins KCartesianTransformationOperator3DnonUniform
    [VId x; VId y; VId q; VReal f_one; VId z; VReal f_one; VReal f_one].

(** One representation, lines 101-129 and 167-187; [keep] says whether the identifier
    of the representation is kept. *)
Definition mapped_repr (keep : bool) (ctx tr : N) (origin : vec3) (r : N) : B N :=
  ax <-- axis3d origin ;;
  a <-- ins KAxis3D ax ;;
  i <-- (if keep
         then l <-- fetch KShapeRepresentation r ;;
              bret (match nth_error l 1 with Some (VEnum i) => i | _ => id_body end)
         else bret id_body) ;;
  mp <-- ins KRepresentationMap [VId a; VId r] ;;
  it <-- ins KMappedItem [VId mp; VId tr] ;;
  ins KShapeRepresentation (shape_repr ctx i ty_mapped [it]).

(** Lines 71-134 [builder_transform], and lines 138-192 [transform] of a storey. *)
Definition transform (keep : bool) (k : kind) (n ctx : N) (t : tparam) (origin : vec3) : B unit :=
  l <-- fetch k n ;;
  match attr_id l 6 with
  | None => bret tt
  | Some sh =>
      tr <-- transform_object t ;;
      d <-- fetch KProductDefinitionShape sh ;;
      rs <-- bmap (mapped_repr keep ctx tr origin) (attr_ids d 2) ;;
      modify KProductDefinitionShape sh (set_at 2 (ids rs))
  end.

(** The kinds with [TransformableType], /repo/ifc_rs/src/traits/sub_types.rs:25 and its
    implementations. *)
Definition transformable : list kind :=
  [KDoor; KWindow; KSlab; KOpeningElement; KRoof; KShadingDevice; KWall].

(** [Product::local_placement], /repo/ifc_rs/src/objects/shared/product.rs:104-117. *)
Definition local_placement (l : list val) : B (option vec3) :=
  match attr_id l 5 with
  | None => bret None
  | Some pl =>
      lp <-- fetch KLocalPlacement pl ;;
      ai <-- need (attr_id lp 1) ;;
      e <-- fetch_any ai ;;
      match e with
      | Ent KAxis3D x =>
          q <-- need (attr_id x 0) ;;
          v <-- fetch KPoint3D q ;;
          match v with [VVec [x; y; z]] => bret (Some (x, y, z)) | _ => bpanic end
      | _ => bret None
      end
  end.

(** [transform_copy.translation -= p]. *)
Definition shift_back (t : tparam) (p : vec3) : tparam :=
  mk_tparam (vsub (t_move t) p) (t_x t) (t_y t) (t_z t).

(** Drop of a wall (walls.rs:45-99) or slab (slabs.rs:40-94). *)
Definition drop_host (h : host) (st : storey) : B unit :=
  match h_tr h with
  | None => bret tt
  | Some t =>
      u <-- transform true (host_kind h) (h_id h) (s_ctx st) t v_zero ;;
      vs <-- walk_pairs (if h_slab h then s_voids_slab st else s_voids_wall st) ;;
      ps <-- bmap (fun x => l <-- fetch KOpeningElement (fst x) ;;
                            q <-- local_placement l ;;
                            bret (match q with Some v => [(fst x, v)] | None => [] end))
               (filter (fun x => snd x =? h_id h) vs) ;;
      let ops := concat ps in
      u1 <-- bmap (fun x => transform true KOpeningElement (fst x) (s_ctx st)
                              (shift_back t (snd x)) (snd x)) ops ;;
      let ws := flat_map (fun x => match hget N.eqb (s_fills st) (fst x) with
                                   | Some w => [(w, snd x)]
                                   | None => []
                                   end) ops in
      u2 <-- bmap (fun x => transform true KWindow (fst x) (s_ctx st)
                              (shift_back t (snd x)) (snd x)) ws ;;
      bret tt
  end.

(** ** Properties, /repo/ifc_rs/src/ifc_builder/properties.rs *)

(** Lines 43-53, 107-117; /repo/ifc_rs/src/properties/single_value.rs:38-44. *)
Definition single_property (name : text) (value : val) (unit : option N) : B N :=
  ins KPropertySingleValue
    [VStr name; VOmit; value; match unit with Some u => VId u | None => VOmit end].

(** [PropertySet::new] and its insertion, lines 27-28,121-124. *)
Definition property_set (name : text) (props : list N) : B N :=
  r <-- root name ;; ins KPropertySet (r ++ [ids props]).

(** Lines 30-32, 97-100. *)
Definition relate_properties (set obj : N) : B N :=
  r <-- root (lit "PropertiesLink") ;;
  ins KRelDefinesByProperties (r ++ [ids [obj]; VId set]).

(** ** Project, sites, buildings, storeys *)

(** What [IfcProjectBuilder::new] is given: [ApplicationInfo], [OwnerInfo] and the
    name, /repo/ifc_rs/src/ifc_builder/mod.rs:24-34. *)
Record info := mk_info
  { n_developer : list val; n_version : text; n_app : text; n_short : text
  ; n_person : list val; n_org : text; n_project : text }.

(** [SiUnit::new] and its insertion, /repo/ifc_rs/src/units/si_unit.rs:33-46,
    assignment.rs:26-30. *)
Definition si_unit (ty name : nat) : B N := ins KSiUnit [VInh; VEnum ty; VOmit; VEnum name].

(** [IfcProjectBuilder::new], project.rs:33-114; the owner history and the project
    are returned. *)
Definition new_project (i : info) : B (N * N) :=
  dev <-- ins KOrganization (n_developer i) ;;
  app <-- ins KApplication [VId dev; VStr (n_version i); VStr (n_app i); VStr (n_short i)] ;;
  per <-- ins KPerson (n_person i) ;;
  org <-- ins KOrganization [VOmit; VStr (n_org i); VOmit; VOmit; VOmit] ;;
  po <-- ins KPersonAndOrganization [VId per; VId org; VOmit] ;;
  t1 <-- now ;;
  t2 <-- now ;;
  oh <-- ins KOwnerHistory [VId po; VId app; VOmit; VEnum 2; t2; VId po; VId app; t1] ;;
  u1 <-- si_unit 14 15 ;;
  u2 <-- si_unit 20 20 ;;
  u3 <-- si_unit 26 21 ;;
  ax <-- axis3d v_zero ;;
  a <-- ins KAxis3D ax ;;
  ctx <-- ins KGeometricRepresentationContext
            [VEnum id_body; VStr (lit "Model"); VEnum 2; VOmit; VId a; VOmit] ;;
  g <-- fresh_guid ;;
  ua <-- ins KUnitAssigment [ids [u1; u2; u3]] ;;
  pr <-- ins KProject
           ([g; VId oh; VStr (n_project i); VOmit] ++ [VOmit; VOmit; VOmit; ids [ctx]; VId ua]) ;;
  sub <-- ins KGeometricRepresentationSubContext
            [VEnum id_body; VStr (lit "Model"); VInh; VInh; VInh; VInh; VId ctx; VOmit; VEnum 2; VOmit] ;;
  bret (oh, pr).

(** [id_of::<GeometricRepresentationSubContext>().last().unwrap()],
    storey.rs:53-58, site.rs:24-29, building.rs:24-29. *)
Definition sub_context : B N :=
  p <-- bget ;;
  need (match rev (id_of KGeometricRepresentationSubContext (p_map p)) with n :: _ => Some n | [] => None end).

(** project.rs:116-128, with site.rs:19-38. *)
Definition new_site (name : text) (position : vec3) : B N :=
  a <-- axis3d position ;;
  lp <-- placement_new a ;;
  r <-- owned name ;;
  pl <-- ins KLocalPlacement lp ;;
  n <-- ins KSite (spatial r (VId pl) VOmit ++ [VOmit; VOmit; VOmit; VOmit; VOmit]) ;;
  p <-- bget ;;
  u <-- bput (set_sites (set_add (p_sites p) n) p) ;;
  c <-- sub_context ;;
  bret n.

(** site.rs:40-53, with building.rs:19-38. *)
Definition new_building (site : N) (name : text) (position : vec3) : B N :=
  a <-- axis3d position ;;
  lp <-- new_relative a KSite site ;;
  r <-- owned name ;;
  pl <-- ins KLocalPlacement lp ;;
  n <-- ins KBuilding (spatial r (VId pl) VOmit ++ [VOmit; VOmit; VOmit]) ;;
  c <-- sub_context ;;
  bret n.

(** building.rs:40-63, with storey.rs:48-90; 2 is the place of the real measure. *)
Definition new_storey (building : N) (name : text) (elevation : f64) : B storey :=
  a <-- axis3d (vscale v_z elevation) ;;
  lp <-- new_relative a KBuilding building ;;
  r <-- owned name ;;
  pl <-- ins KLocalPlacement lp ;;
  n <-- ins KStorey (spatial r (VId pl) VOmit ++ [VOmit]) ;;
  c <-- sub_context ;;
  q <-- single_property (lit "Storey Height") (VMeasure 2 (VReal elevation)) None ;;
  s <-- property_set (lit "StoreyProperties") [q] ;;
  bret (mk_storey n c [] [] [] [] []).

(** [RelAggregates::new] and its insertion, e.g. site.rs:57-65: no owner history. *)
Definition aggregate (name : text) (parent : N) (children : list N) : B N :=
  l <-- walk children ;;
  r <-- root name ;;
  ins KRelAggregates (r ++ [VId parent; ids l]).

(** [for (index, ..) in l.iter().enumerate()]. *)
Fixpoint bmap_index {A C} (f : N -> A -> B C) (i : N) (l : list A) : B (list C) :=
  match l with
  | [] => bret []
  | a :: l' => c <-- f i a ;; cs <-- bmap_index f (i + 1) l' ;; bret (c :: cs)
  end.

(** Relations from the types of one class to the elements, storey.rs:107-122,
    131-146,155-170,213-231,256-278. *)
Definition type_relations (c : cls) (name : text) (st : storey) : B (list N) :=
  ts <-- walk_pairs (types_of c st) ;;
  bmap_index (fun i x =>
    r <-- owned (name ++ show_N i) ;;
    l <-- walk (snd x) ;;
    ins KRelDefinesByType (r ++ [ids l; VId (fst x)])) 0 ts.

(** Relations from openings to walls or slabs, storey.rs:180-209. *)
Definition void_relations (name : text) (l : list (N * N)) : B (list N) :=
  vs <-- walk_pairs l ;;
  bmap_index (fun i x =>
    r <-- owned (name ++ show_N i) ;;
    ins KRelVoidsElement (r ++ [VId (snd x); VId (fst x)])) 0 vs.

(** Relations from openings to windows, storey.rs:234-248. *)
Definition fill_relations (st : storey) : B (list N) :=
  vs <-- walk_pairs (s_fills st) ;;
  bmap_index (fun i x =>
    r <-- owned (lit "OpeningElementToWindow" ++ show_N i) ;;
    ins KRelFillsElement (r ++ [VId (fst x); VId (snd x)])) 0 vs.

(** Drop of a storey, storey.rs:93-297. *)
Definition drop_storey (st : storey) : B unit :=
  r <-- owned (lit "StoreyToStructureElements") ;;
  u1 <-- type_relations CWall (lit "WallTypeToWall") st ;;
  walls <-- walk (elems_of CWall st) ;;
  u2 <-- type_relations CSlab (lit "SlabTypeToSlab") st ;;
  slabs <-- walk (elems_of CSlab st) ;;
  u3 <-- type_relations CRoof (lit "RoofTypeToRoof") st ;;
  roofs <-- walk (elems_of CRoof st) ;;
  u4 <-- void_relations (lit "OpeningElementToWall") (s_voids_wall st) ;;
  u5 <-- void_relations (lit "OpeningElementToSlab") (s_voids_slab st) ;;
  u6 <-- type_relations CWindow (lit "WindowTypeToWindow") st ;;
  u7 <-- fill_relations st ;;
  windows <-- walk (elems_of CWindow st) ;;
  u8 <-- type_relations CShading (lit "ShadingDeviceTypeToShadingDevice") st ;;
  shadings <-- walk (elems_of CShading st) ;;
  c <-- ins KRelContainedInSpatialStructure
          (r ++ [ids (walls ++ slabs ++ roofs ++ windows ++ shadings); VId (s_id st)]) ;;
  a <-- aggregate (lit "StoreySpacesLink") (s_id st) (elems_of CSpace st) ;;
  bret tt.

(** Drop of a building (building.rs:66-76) and of a site (site.rs:56-66). *)
Definition drop_building (n : N) (storeys : list N) : B N := aggregate (lit "BuildingStoreysLink") n storeys.
Definition drop_site (n : N) (buildings : list N) : B N := aggregate (lit "SiteBuildingsLink") n buildings.

(** The order of the tables in [build], project.rs:132-141. *)
Definition assoc_tables : list (cls * bool) :=
  [ (CWall, false); (CSlab, false); (CRoof, false); (CWindow, false); (CWall, true); (CSlab, true)
  ; (CRoof, true); (CShading, false); (CShading, true) ].

(** [IfcProjectBuilder::build], project.rs:130-154, without the printing. *)
Definition build : B unit :=
  p <-- bget ;;
  ls <-- bmap (fun t => walk_pairs (assocs_of (fst t) (snd t) (p_assoc p))) assoc_tables ;;
  u <-- bmap (fun x => ins KRelAssociatesMaterial (snd x)) (concat ls) ;;
  n <-- aggregate (lit "ProjectSitesLink") (p_project p) (p_sites p) ;;
  bret tt.

End Builder.
