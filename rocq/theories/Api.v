(** Model of the public constructors and setters of the objects.

    A function is described by the types of its parameters and by what it stores where.
    The parameter [ifc: &mut IFC] is the map of objects.  Values that are not yet in the
    model are kept in registers; using a value leaves it in its register (Rust moves
    it).  A setter replaces the value of its register by its result.  A vector of plain
    numbers, an enumeration value or a text is a [val]. *)

From Coq Require Import String Ascii List NArith ZArith Bool.
From Verif Require Import Base Prims Guid Float Kind Types Schema Entity DataMap Arith Mapping.
Import ListNotations.
Open Scope N_scope.

(** ** Traits that bound parameters *)

(** [Structure]: objects/door/mod.rs:205, window/mod.rs:184, wall/mod.rs:96, slab/mod.rs:110,
    roof/mod.rs:111, shading_device.rs:117, opening_element/mod.rs:124, space/mod.rs:130, site.rs:213,
    building.rs:155, storey.rs:157 of /repo/ifc_rs/src. *)
Definition structure_kinds : list kind :=
  [KDoor; KWindow; KWall; KSlab; KRoof; KShadingDevice; KOpeningElement; KSpace; KSite; KBuilding; KStorey].
(** [AxisPlacement]: /repo/ifc_rs/src/geometry/axis/mod.rs:69,124. *)
Definition axis_kinds : list kind := [KAxis2D; KAxis3D].
(** [Curve]: /repo/ifc_rs/src/geometry/polyline/mod.rs:56, indexed_poly_curve/mod.rs:53. *)
Definition curve_kinds : list kind := [KPolyLine; KIndexedPolyCurve].
(** [ProfileDef]: /repo/ifc_rs/src/geometry/rectangle_profile_def/mod.rs:98,
    arbitrary_closed_profile_def/mod.rs:95. *)
Definition profile_kinds : list kind := [KRectangleProfileDef; KArbitraryClosedProfileDef].
(** [ShapeItem]: /repo/ifc_rs/src/relations/mapped_item.rs:113, geometry/extruded_area_solid.rs:135,
    geometry/polyline/mod.rs:57. *)
Definition item_kinds : list kind := [KMappedItem; KExtrudedAreaSolid; KPolyLine].
(** [Transform3D]: /repo/ifc_rs/src/geometry/uniform_transformations.rs:71,
    non_uniform_transformations.rs:95. *)
Definition transform_kinds : list kind :=
  [KCartesianTransformationOperator3D; KCartesianTransformationOperator3DnonUniform].
(** [RelatableMaterial]: /repo/ifc_rs/src/materials/material.rs:80, material_constituent_set.rs:99,
    material_layer_set.rs:92, material_layer_set_usage.rs:125. *)
Definition material_kinds : list kind :=
  [KMaterial; KMaterialConstituentSet; KMaterialLayerSet; KMaterialLayerSetUsage].
(** [MaterialRelatable]: the files of these types in /repo/ifc_rs/src/objects. *)
Definition material_relatable_kinds : list kind :=
  [ KDoor; KDoorType; KWindow; KWindowType; KWall; KWallType; KSlab; KSlabType; KRoof; KRoofType
  ; KShadingDevice; KShadingDeviceType ].
(** [Address]: /repo/ifc_rs/src/objects/address/mod.rs:43,79. *)
Definition address_kinds : list kind := [KTelecomAddress; KPostalAddress].

(** ** Traits that provide setters *)

(** [ObjectBuilder] and [ProductBuilder]: the files of these types in /repo/ifc_rs/src/objects. *)
Definition element_kinds : list kind :=
  [KDoor; KWindow; KWall; KSlab; KRoof; KOpeningElement; KShadingDevice].
Definition spatial_kinds : list kind := [KBuilding; KSite; KStorey; KSpace].
Definition product_kinds : list kind := element_kinds ++ spatial_kinds.
(** [ElementTypeBuilder] and [TypeProductBuilder]. *)
Definition type_kinds : list kind :=
  [KDoorType; KWindowType; KWallType; KSlabType; KRoofType; KShadingDeviceType; KSpaceType].
(** [RootBuilder]: these, and in /repo/ifc_rs/src/relations and /repo/ifc_rs/src/properties/set.rs:55. *)
Definition root_kinds : list kind :=
  product_kinds ++ type_kinds ++
  [ KProject; KPropertySet; KRelAggregates; KRelAssociatesMaterial; KRelContainedInSpatialStructure
  ; KRelDeclares; KRelDefinesByProperties; KRelDefinesByType; KRelFillsElement; KRelVoidsElement ].

(** ** Functions *)

(** Types of parameters. *)
Inductive par :=
| PPlain (t : fty)           (* a value *)
| POption (t : fty)          (* [Option] of a value *)
| PValues (t : fty)          (* an iterator or vector of values *)
| PIdOr (ks : list kind)     (* [impl Into<IdOr<T>>], [T] one of these *)
| PIdOrs (ks : list kind)    (* an iterator of [IdOr<T>] *)
| PTyped (ks : list kind)    (* [TypedId<T>] *)
| PTypeds (ks : list kind)   (* an iterator of [TypedId<T>] *)
| PNew (ks : list kind)      (* an object, to be inserted *)
| PNews (ks : list kind)     (* an iterator of objects, to be inserted *)
| PRaw                       (* [Id] *)
| POptionRaw                 (* [Option<Id>] *)
| PRaws.                     (* an iterator of [Id] *)

(** What a constructor puts into an attribute: a new identifier, [$], [*], an empty
    list, a constant, an argument, an argument scaled to length one. *)
Inductive slot :=
| SGuid | SOmit | SInh | SEmpty | SEnum (i : nat) | SText (s : text) | SArg (i : nat) | SUnit (i : nat).

(** A constructor: the kind, the parameters, the attributes in order.  The order of the
    attributes is also the order in which the fields are written in the constructor,
    hence the order in which objects are inserted. *)
Record maker := mk_maker { mk_kind : kind; mk_pars : list par; mk_slots : list slot }.

(** What a setter does with its argument: store it in these attributes, append it to a
    list, append it to a list that may be omitted. *)
Inductive how := Put (is : list nat) | Push (i : nat) | PushOpt (i : nat).

Record method := mk_method { me_kinds : list kind; me_par : par; me_how : how }.

(** The constructors. *)
Inductive ctor :=
| Door_new | DoorType_new | Window_new | WindowType_new | Wall_new | WallType_new | Slab_new | SlabType_new
| Roof_new | RoofType_new | OpeningElement_new | ShadingDevice_new | ShadingDeviceType_new | Project_new
| Building_new | Site_new | Storey_new | Space_new | SpaceType_new | OwnerHistory_new | Person_empty
| PersonAndOrganization_new | Organization_new | Application_new | Material_new | MaterialConstituent_new
| MaterialConstituentSet_new | MaterialLayer_new | MaterialLayerSet_new | MaterialLayerSetUsage_new
| MaterialProperties_new | PropertySet_new | PropertySingleValue_new | MappedItem_new | RelAggregates_new
| RelAssociatesMaterial_new | RelContained_new | RelDeclares_new | RelDefinesByProperties_new
| RelDefinesByType_new | RelFills_new | RelVoids_new | RepresentationMap_new | ExtrudedAreaSolid_new
| NonUniform_new | Uniform_new | ArbitraryClosedProfileDef_new | Axis2D_new | Axis3D_new | Direction2D_from
| Direction3D_from | IndexedPolyCurve_new | LocalPlacement_new | Point2D_from | Point3D_from | PointList2D_new
| PointList3D_new | PolyLine_from | ProductDefinitionShape_new | RectangleProfileDef_new
| RepresentationContext_new | SubContext_derive | ShapeRepresentation_new | UnitAssigment_new | SiUnit_new.

(** What they do; files are in /repo/ifc_rs/src.  [Root::new] (objects/shared/root.rs:42-49), [Object::new]
    (object.rs:32-37), [Product::new] (product.rs:53-59), [Element::new] (element.rs:32-37), [SpatialElement::new]
    (spatial_element.rs:33-38), [SpatialStructureElement::new] (spatial_structure_element.rs:33-38), [TypeObject::new]
    (type_object.rs:49-55), [TypeProduct::new] (type_product.rs:45-51), [ElementType::new] (element_type.rs:36-41),
    [Context::new] (context.rs:54-63), [RelAssociates::new] (rel_associates.rs:32-37) and [PropertyBase::new]
    (properties/base.rs:21-26) are unfolded. *)
Definition maker_of (c : ctor) : maker :=
  match c with
  (* objects/door/mod.rs:130-139 *)
  | Door_new => mk_maker KDoor [PPlain TStr]
      [SGuid; SOmit; SArg 0; SOmit; SOmit; SOmit; SOmit; SOmit; SOmit; SOmit; SOmit; SOmit; SOmit]
  (* objects/doortype/mod.rs:64-78 *)
  | DoorType_new => mk_maker KDoorType [PPlain TStr; PPlain (TEnum enum_DoorTypeEnum); PPlain (TEnum enum_DoorOperationTypeEnum)]
      [SGuid; SOmit; SArg 0; SOmit; SOmit; SOmit; SOmit; SOmit; SOmit; SArg 1; SArg 2; SOmit; SOmit]
  (* objects/window/mod.rs:106-115 *)
  | Window_new => mk_maker KWindow [PPlain TStr]
      [SGuid; SOmit; SArg 0; SOmit; SOmit; SOmit; SOmit; SOmit; SOmit; SOmit; SOmit; SOmit; SOmit]
  (* objects/windowtype/mod.rs:69-83 *)
  | WindowType_new => mk_maker KWindowType [PPlain TStr; PPlain (TEnum enum_WindowTypeEnum); PPlain (TEnum enum_WindowPartitioningTypeEnum)]
      [SGuid; SOmit; SArg 0; SOmit; SOmit; SOmit; SOmit; SOmit; SOmit; SArg 1; SArg 2; SOmit; SOmit]
  (* objects/wall/mod.rs:34-39 *)
  | Wall_new => mk_maker KWall [PPlain TStr]
      [SGuid; SOmit; SArg 0; SOmit; SOmit; SOmit; SOmit; SOmit; SOmit]
  (* objects/walltype/mod.rs:35-42 *)
  | WallType_new => mk_maker KWallType [PPlain TStr; PPlain (TEnum enum_WallTypeEnum)]
      [SGuid; SOmit; SArg 0; SOmit; SOmit; SOmit; SOmit; SOmit; SOmit; SArg 1]
  (* objects/slab/mod.rs:54-59 *)
  | Slab_new => mk_maker KSlab [PPlain TStr]
      [SGuid; SOmit; SArg 0; SOmit; SOmit; SOmit; SOmit; SOmit; SOmit]
  (* objects/slabtype/mod.rs:51-58 *)
  | SlabType_new => mk_maker KSlabType [PPlain TStr; PPlain (TEnum enum_SlabTypeEnum)]
      [SGuid; SOmit; SArg 0; SOmit; SOmit; SOmit; SOmit; SOmit; SOmit; SArg 1]
  (* objects/roof/mod.rs:54-59 *)
  | Roof_new => mk_maker KRoof [PPlain TStr]
      [SGuid; SOmit; SArg 0; SOmit; SOmit; SOmit; SOmit; SOmit; SOmit]
  (* objects/rooftype/mod.rs:31-38 *)
  | RoofType_new => mk_maker KRoofType [PPlain TStr; PPlain (TEnum enum_RoofTypeEnum)]
      [SGuid; SOmit; SArg 0; SOmit; SOmit; SOmit; SOmit; SOmit; SOmit; SArg 1]
  (* objects/opening_element/mod.rs:72-77 *)
  | OpeningElement_new => mk_maker KOpeningElement [PPlain TStr]
      [SGuid; SOmit; SArg 0; SOmit; SOmit; SOmit; SOmit; SOmit; SOmit]
  (* objects/shading_device.rs:34-40 *)
  | ShadingDevice_new => mk_maker KShadingDevice [PPlain TStr]
      [SGuid; SOmit; SArg 0; SOmit; SOmit; SOmit; SOmit; SOmit; SOmit]
  (* objects/shading_device_type.rs:36-43 *)
  | ShadingDeviceType_new => mk_maker KShadingDeviceType [PPlain TStr; PPlain (TEnum enum_ShadingDeviceTypeEnum)]
      [SGuid; SOmit; SArg 0; SOmit; SOmit; SOmit; SOmit; SOmit; SOmit; SArg 1]
  (* objects/project.rs:29-33 *)
  | Project_new => mk_maker KProject [PPlain TStr]
      [SGuid; SOmit; SArg 0; SOmit; SOmit; SOmit; SOmit; SEmpty; SOmit]
  (* objects/building.rs:42-51 *)
  | Building_new => mk_maker KBuilding [PPlain TStr]
      [SGuid; SOmit; SArg 0; SOmit; SOmit; SOmit; SOmit; SOmit; SOmit; SOmit; SOmit; SOmit]
  (* objects/site.rs:82-93 *)
  | Site_new => mk_maker KSite [PPlain TStr]
      [SGuid; SOmit; SArg 0; SOmit; SOmit; SOmit; SOmit; SOmit; SOmit; SOmit; SOmit; SOmit; SOmit; SOmit]
  (* objects/storey.rs:72-79 *)
  | Storey_new => mk_maker KStorey [PPlain TStr]
      [SGuid; SOmit; SArg 0; SOmit; SOmit; SOmit; SOmit; SOmit; SOmit; SOmit]
  (* objects/space/mod.rs:59-67 *)
  | Space_new => mk_maker KSpace [PPlain TStr]
      [SGuid; SOmit; SArg 0; SOmit; SOmit; SOmit; SOmit; SOmit; SOmit; SOmit; SOmit]
  (* objects/spacetype/mod.rs:56-64 *)
  | SpaceType_new => mk_maker KSpaceType [PPlain TStr; PPlain (TEnum enum_SpaceTypeEnum)]
      [SGuid; SOmit; SArg 0; SOmit; SOmit; SOmit; SOmit; SOmit; SOmit; SArg 1; SOmit]
  (* objects/owner_history/mod.rs:46-57 *)
  | OwnerHistory_new => mk_maker KOwnerHistory [PPlain (TEnum enum_ChangeAction); PPlain TTime]
      [SOmit; SOmit; SOmit; SArg 0; SOmit; SOmit; SOmit; SArg 1]
  (* objects/person/mod.rs:41-52 *)
  | Person_empty => mk_maker KPerson []
      [SOmit; SOmit; SOmit; SOmit; SOmit; SOmit; SOmit; SOmit]
  (* objects/person_and_org/mod.rs:26-32 *)
  | PersonAndOrganization_new => mk_maker KPersonAndOrganization [PTyped [KPerson]; PTyped [KOrganization]]
      [SArg 0; SArg 1; SOmit]
  (* objects/organization/mod.rs:31-43 *)
  | Organization_new => mk_maker KOrganization [POption TStr; PPlain TStr; POption TStr]
      [SArg 0; SArg 1; SArg 2; SOmit; SOmit]
  (* objects/application/mod.rs:27-39 *)
  | Application_new => mk_maker KApplication [PTyped [KOrganization]; PPlain TStr; PPlain TStr; PPlain TStr]
      [SArg 0; SArg 1; SArg 2; SArg 3]
  (* materials/material.rs:32-38 *)
  | Material_new => mk_maker KMaterial [PPlain TStr]
      [SArg 0; SOmit; SOmit]
  (* materials/material_constituent.rs:46-54 *)
  | MaterialConstituent_new => mk_maker KMaterialConstituent [PTyped [KMaterial]]
      [SOmit; SOmit; SArg 0; SOmit; SOmit]
  (* materials/material_constituent_set.rs:40-46 *)
  | MaterialConstituentSet_new => mk_maker KMaterialConstituentSet []
      [SOmit; SOmit; SEmpty]
  (* materials/material_layer.rs:73-83 *)
  | MaterialLayer_new => mk_maker KMaterialLayer [PPlain TReal; PPlain TBool]
      [SOmit; SArg 0; SArg 1; SOmit; SOmit; SOmit; SOmit]
  (* materials/material_layer_set.rs:39-45 *)
  | MaterialLayerSet_new => mk_maker KMaterialLayerSet []
      [SEmpty; SOmit; SOmit]
  (* materials/material_layer_set_usage.rs:66-80 *)
  | MaterialLayerSetUsage_new => mk_maker KMaterialLayerSetUsage [PIdOr [KMaterialLayerSet]; PPlain (TEnum enum_LayerSetDirectionEnum); PPlain (TEnum enum_DirectionSenseEnum); PPlain TReal]
      [SArg 0; SArg 1; SArg 2; SArg 3; SOmit]
  (* properties/material.rs:26-35, extended_base.rs:27-33 *)
  | MaterialProperties_new => mk_maker KMaterialProperties [PPlain TStr; PTyped [KMaterial]; PRaws]
      [SArg 0; SOmit; SArg 2; SArg 1]
  (* properties/set.rs:44-52 *)
  | PropertySet_new => mk_maker KPropertySet [PPlain TStr; PTypeds [KPropertySingleValue]]
      [SGuid; SOmit; SArg 0; SOmit; SArg 1]
  (* properties/single_value.rs:38-44 *)
  | PropertySingleValue_new => mk_maker KPropertySingleValue [PPlain TStr; PPlain TValue; POptionRaw]
      [SArg 0; SOmit; SArg 1; SArg 2]
  (* relations/mapped_item.rs:60-69 *)
  | MappedItem_new => mk_maker KMappedItem [PIdOr [KRepresentationMap]; PIdOr transform_kinds]
      [SArg 0; SArg 1]
  (* relations/rel_aggregates.rs:39-49 *)
  | RelAggregates_new => mk_maker KRelAggregates [PPlain TStr; PRaw; PRaws]
      [SGuid; SOmit; SArg 0; SOmit; SArg 1; SArg 2]
  (* relations/rel_associates_material.rs:34-43 *)
  | RelAssociatesMaterial_new => mk_maker KRelAssociatesMaterial [PPlain TStr; PIdOr material_kinds]
      [SGuid; SOmit; SArg 0; SOmit; SEmpty; SArg 1]
  (* relations/rel_contained_in_spatial_structure.rs:37-47 *)
  | RelContained_new => mk_maker KRelContainedInSpatialStructure [PPlain TStr; PIdOr structure_kinds]
      [SGuid; SOmit; SArg 0; SOmit; SEmpty; SArg 1]
  (* relations/rel_declares.rs:33-43 *)
  | RelDeclares_new => mk_maker KRelDeclares [PPlain TStr; PIdOr [KProject]]
      [SGuid; SOmit; SArg 0; SOmit; SArg 1; SEmpty]
  (* relations/rel_defines_by_properties.rs:39-49 *)
  | RelDefinesByProperties_new => mk_maker KRelDefinesByProperties [PPlain TStr; PIdOr all_kinds]
      [SGuid; SOmit; SArg 0; SOmit; SEmpty; SArg 1]
  (* relations/rel_defines_by_type.rs:34-44 *)
  | RelDefinesByType_new => mk_maker KRelDefinesByType [PPlain TStr; PIdOr all_kinds]
      [SGuid; SOmit; SArg 0; SOmit; SEmpty; SArg 1]
  (* relations/rel_fills_element.rs:30-41 *)
  | RelFills_new => mk_maker KRelFillsElement [PPlain TStr; PIdOr [KOpeningElement]; PIdOr structure_kinds]
      [SGuid; SOmit; SArg 0; SOmit; SArg 1; SArg 2]
  (* relations/rel_voids_element.rs:34-45 *)
  | RelVoids_new => mk_maker KRelVoidsElement [PPlain TStr; PIdOr structure_kinds; PIdOr [KOpeningElement]]
      [SGuid; SOmit; SArg 0; SOmit; SArg 1; SArg 2]
  (* relations/representation_map.rs:46-55 *)
  | RepresentationMap_new => mk_maker KRepresentationMap [PIdOr [KAxis3D]; PIdOr [KShapeRepresentation]]
      [SArg 0; SArg 1]
  (* geometry/extruded_area_solid.rs:53-65 *)
  | ExtrudedAreaSolid_new => mk_maker KExtrudedAreaSolid [PIdOr profile_kinds; PIdOr [KDirection3D]; PPlain TReal]
      [SArg 0; SOmit; SArg 1; SArg 2]
  (* geometry/non_uniform_transformations.rs:55-70, transform_base.rs:38-55 *)
  | NonUniform_new => mk_maker KCartesianTransformationOperator3DnonUniform [PIdOr [KPoint3D]; PIdOr [KDirection3D]; PIdOr [KDirection3D]; PIdOr [KDirection3D]; PPlain TReal; PPlain TReal; PPlain TReal]
      [SArg 1; SArg 2; SArg 0; SArg 4; SArg 3; SArg 5; SArg 6]
  (* geometry/uniform_transformations.rs:36-49, transform_base.rs:38-55 *)
  | Uniform_new => mk_maker KCartesianTransformationOperator3D [PIdOr [KPoint3D]; PIdOr [KDirection3D]; PIdOr [KDirection3D]; PIdOr [KDirection3D]; PPlain TReal]
      [SArg 1; SArg 2; SArg 0; SArg 4; SArg 3]
  (* geometry/arbitrary_closed_profile_def/mod.rs:46-56 *)
  | ArbitraryClosedProfileDef_new => mk_maker KArbitraryClosedProfileDef [PPlain (TEnum enum_ProfileType); PIdOr curve_kinds]
      [SArg 0; SOmit; SArg 1]
  (* geometry/axis/mod.rs:47-54 *)
  | Axis2D_new => mk_maker KAxis2D [PNew [KPoint2D]]
      [SArg 0; SOmit]
  (* geometry/axis/mod.rs:100-108 *)
  | Axis3D_new => mk_maker KAxis3D [PNew [KPoint3D]]
      [SArg 0; SOmit; SOmit]
  (* geometry/direction/mod.rs:23-25 *)
  | Direction2D_from => mk_maker KDirection2D [PPlain TVec2]
      [SUnit 0]
  (* geometry/direction/mod.rs:42-44 *)
  | Direction3D_from => mk_maker KDirection3D [PPlain TVec3]
      [SUnit 0]
  (* geometry/indexed_poly_curve/mod.rs:41-49 *)
  | IndexedPolyCurve_new => mk_maker KIndexedPolyCurve [PNew [KPointList2D; KPointList3D]]
      [SArg 0; SOmit; SOmit]
  (* geometry/local_placement/mod.rs:37-42 *)
  | LocalPlacement_new => mk_maker KLocalPlacement [PIdOr axis_kinds]
      [SOmit; SArg 0]
  (* geometry/point/mod.rs:41-43 *)
  | Point2D_from => mk_maker KPoint2D [PPlain TVec2]
      [SArg 0]
  (* geometry/point/mod.rs:76-78 *)
  | Point3D_from => mk_maker KPoint3D [PPlain TVec3]
      [SArg 0]
  (* geometry/point_list/mod.rs:33-38 *)
  | PointList2D_new => mk_maker KPointList2D [PValues TVec2]
      [SArg 0; SOmit]
  (* geometry/point_list/mod.rs:61-66 *)
  | PointList3D_new => mk_maker KPointList3D [PValues TVec3]
      [SArg 0; SOmit]
  (* geometry/polyline/mod.rs:21-29 *)
  | PolyLine_from => mk_maker KPolyLine [PNews [KPoint2D; KPoint3D]]
      [SArg 0]
  (* geometry/product_definition_shape/mod.rs:51-57 *)
  | ProductDefinitionShape_new => mk_maker KProductDefinitionShape []
      [SOmit; SOmit; SEmpty]
  (* geometry/rectangle_profile_def/mod.rs:48-56 *)
  | RectangleProfileDef_new => mk_maker KRectangleProfileDef [PPlain (TEnum enum_ProfileType); PPlain TReal; PPlain TReal]
      [SArg 0; SOmit; SOmit; SArg 1; SArg 2]
  (* geometry/representation_context/mod.rs:51-66 *)
  | RepresentationContext_new => mk_maker KGeometricRepresentationContext [PPlain TDim; PIdOr axis_kinds]
      [SEnum 8; SText (lit "Model"); SArg 0; SOmit; SArg 1; SOmit]
  (* geometry/representation_subcontext/mod.rs:101-119 *)
  | SubContext_derive => mk_maker KGeometricRepresentationSubContext [PIdOr [KGeometricRepresentationContext]; PPlain (TEnum enum_GeometricProjection)]
      [SEnum 8; SText (lit "Model"); SInh; SInh; SInh; SInh; SArg 0; SOmit; SArg 1; SOmit]
  (* geometry/shape_representation/mod.rs:69-81 *)
  | ShapeRepresentation_new => mk_maker KShapeRepresentation [PIdOr [KGeometricRepresentationSubContext]; PPlain (TEnum enum_RepresentationIdentifier); PPlain (TEnum enum_RepresentationType)]
      [SArg 0; SArg 1; SArg 2; SEmpty]
  (* units/assignment.rs:26-30 *)
  | UnitAssigment_new => mk_maker KUnitAssigment [PIdOrs [KSiUnit]]
      [SArg 0]
  (* units/si_unit.rs:33-46 *)
  | SiUnit_new => mk_maker KSiUnit [POption (TEnum enum_IfcUnitEnum); POption (TEnum enum_IfcPrefix); PPlain (TEnum enum_IfcUnitName)]
      [SInh; SArg 0; SArg 1; SArg 2]
  end.

(** The setters. *)
Inductive setter :=
| root_owner_history | root_name | root_description | object_object_type | product_object_placement
| product_representation | element_tag | element_type_element_type | type_product_tag | spatial_long_name
| spatial_composition_type | project_object_type | project_long_name | project_phase | project_add_context
| project_unit_assignment | door_overall_height | door_overall_width | door_predefined_type
| door_operation_type | window_overall_height | window_overall_width | window_predefined_type
| window_partitioning_type | wall_predefined_type | slab_predefined_type | roof_predefined_type
| opening_predefined_type | shading_predefined_type | building_elevation_of_ref_height
| building_elevation_of_terrain | building_building_address | site_ref_latitude | site_ref_longitude
| site_ref_elevation | site_land_title_number | site_site_address | space_predefined_type
| space_elevation_with_flooring | history_owning_user | history_owning_application | history_state
| history_last_modified_date | history_last_modifying_user | history_last_modifying_application | person_id
| person_family_name | person_given_name | person_add_middle_name | person_add_suffix_title
| person_add_prefix_title | person_add_role | person_add_address | person_and_org_add_role
| organization_add_role | organization_add_address | material_description | material_category
| constituent_material | constituent_name | constituent_description | constituent_category
| constituent_fraction | constituent_set_name | constituent_set_description | constituent_set_add_constituent
| layer_material | layer_name | layer_description | layer_category | layer_priority | layer_set_name
| layer_set_description | layer_set_add_layer | usage_reference_extent | single_value_name
| single_value_description | material_properties_name | material_properties_description
| material_properties_properties | associates_relate_obj | contained_relate_structure
| declares_relate_definition | by_properties_relate_obj | by_type_relate_obj | solid_position
| arbitrary_profile_name | placement_relative_to | shape_name | shape_description | shape_add_representation
| rectangle_profile_name | rectangle_position | context_precision | context_true_north
| sub_context_target_scale | sub_context_user_defined_target_view | representation_add_item.

(** What they do; files are in /repo/ifc_rs/src. *)
Definition method_of (s : setter) : method :=
  match s with
  (* objects/shared/root.rs:55-62 *)
  | root_owner_history => mk_method root_kinds (PIdOr [KOwnerHistory]) (Put [1]%nat)
  (* objects/shared/root.rs:64-67 *)
  | root_name => mk_method root_kinds (PPlain TStr) (Put [2]%nat)
  (* objects/shared/root.rs:69-72 *)
  | root_description => mk_method root_kinds (PPlain TStr) (Put [3]%nat)
  (* objects/shared/object.rs:43-46 *)
  | object_object_type => mk_method product_kinds (PPlain TStr) (Put [4]%nat)
  (* objects/shared/product.rs:123-130 *)
  | product_object_placement => mk_method product_kinds (PIdOr [KLocalPlacement]) (Put [5]%nat)
  (* objects/shared/product.rs:132-139 *)
  | product_representation => mk_method product_kinds (PIdOr [KProductDefinitionShape]) (Put [6]%nat)
  (* objects/shared/element.rs:43-46 *)
  | element_tag => mk_method element_kinds (PPlain TStr) (Put [7]%nat)
  (* objects/shared/element_type.rs:47-50 *)
  | element_type_element_type => mk_method type_kinds (PPlain TStr) (Put [8]%nat)
  (* objects/shared/type_product.rs:63-66 *)
  | type_product_tag => mk_method type_kinds (PPlain TStr) (Put [7]%nat)
  (* objects/shared/spatial_element.rs:44-47 *)
  | spatial_long_name => mk_method spatial_kinds (PPlain TStr) (Put [7]%nat)
  (* objects/shared/spatial_structure_element.rs:44-47 *)
  | spatial_composition_type => mk_method spatial_kinds (PPlain (TEnum enum_CompositionTypeEnum)) (Put [8]%nat)
  (* objects/shared/context.rs:69-72 *)
  | project_object_type => mk_method [KProject] (PPlain TStr) (Put [4]%nat)
  (* objects/shared/context.rs:74-77 *)
  | project_long_name => mk_method [KProject] (PPlain TStr) (Put [5]%nat)
  (* objects/shared/context.rs:79-82 *)
  | project_phase => mk_method [KProject] (PPlain TStr) (Put [6]%nat)
  (* objects/shared/context.rs:84-94 *)
  | project_add_context => mk_method [KProject] (PIdOr [KGeometricRepresentationContext]) (Push 7)
  (* objects/shared/context.rs:96-103 *)
  | project_unit_assignment => mk_method [KProject] (PIdOr [KUnitAssigment]) (Put [8]%nat)
  (* objects/door/mod.rs:141-144 *)
  | door_overall_height => mk_method [KDoor] (PPlain TReal) (Put [8]%nat)
  (* objects/door/mod.rs:146-149 *)
  | door_overall_width => mk_method [KDoor] (PPlain TReal) (Put [9]%nat)
  (* objects/door/mod.rs:151-154 *)
  | door_predefined_type => mk_method [KDoor] (PPlain (TEnum enum_DoorTypeEnum)) (Put [10]%nat)
  (* objects/door/mod.rs:156-159 *)
  | door_operation_type => mk_method [KDoor] (PPlain (TEnum enum_DoorOperationTypeEnum)) (Put [11]%nat)
  (* objects/window/mod.rs:117-120 *)
  | window_overall_height => mk_method [KWindow] (PPlain TReal) (Put [8]%nat)
  (* objects/window/mod.rs:122-125 *)
  | window_overall_width => mk_method [KWindow] (PPlain TReal) (Put [9]%nat)
  (* objects/window/mod.rs:127-130 *)
  | window_predefined_type => mk_method [KWindow] (PPlain (TEnum enum_WindowTypeEnum)) (Put [10]%nat)
  (* objects/window/mod.rs:132-138 *)
  | window_partitioning_type => mk_method [KWindow] (PPlain (TEnum enum_WindowPartitioningTypeEnum)) (Put [11]%nat)
  (* objects/wall/mod.rs:41-50 *)
  | wall_predefined_type => mk_method [KWall] (PIdOr [KWallType]) (Put [8]%nat)
  (* objects/slab/mod.rs:61-64 *)
  | slab_predefined_type => mk_method [KSlab] (PPlain (TEnum enum_SlabTypeEnum)) (Put [8]%nat)
  (* objects/roof/mod.rs:61-65 *)
  | roof_predefined_type => mk_method [KRoof] (PPlain (TEnum enum_RoofTypeEnum)) (Put [8]%nat)
  (* objects/opening_element/mod.rs:79-82 *)
  | opening_predefined_type => mk_method [KOpeningElement] (PPlain (TEnum enum_OpeningElementTypeEnum)) (Put [8]%nat)
  (* objects/shading_device.rs:42-45 *)
  | shading_predefined_type => mk_method [KShadingDevice] (PPlain (TEnum enum_ShadingDeviceTypeEnum)) (Put [8]%nat)
  (* objects/building.rs:53-56 *)
  | building_elevation_of_ref_height => mk_method [KBuilding] (PPlain TReal) (Put [9]%nat)
  (* objects/building.rs:58-61 *)
  | building_elevation_of_terrain => mk_method [KBuilding] (PPlain TReal) (Put [10]%nat)
  (* objects/building.rs:63-70 *)
  | building_building_address => mk_method [KBuilding] (PIdOr [KPostalAddress]) (Put [11]%nat)
  (* objects/site.rs:95-98 *)
  | site_ref_latitude => mk_method [KSite] (PValues TInt) (Put [9]%nat)
  (* objects/site.rs:100-103 *)
  | site_ref_longitude => mk_method [KSite] (PValues TInt) (Put [10]%nat)
  (* objects/site.rs:105-108 *)
  | site_ref_elevation => mk_method [KSite] (PPlain TReal) (Put [11]%nat)
  (* objects/site.rs:110-113 *)
  | site_land_title_number => mk_method [KSite] (PPlain TStr) (Put [12]%nat)
  (* objects/site.rs:115-122 *)
  | site_site_address => mk_method [KSite] (PIdOr [KPostalAddress]) (Put [13]%nat)
  (* objects/space/mod.rs:69-73 *)
  | space_predefined_type => mk_method [KSpace] (PPlain (TEnum enum_SpaceTypeEnum)) (Put [9]%nat)
  (* objects/space/mod.rs:75-78 *)
  | space_elevation_with_flooring => mk_method [KSpace] (PPlain TReal) (Put [10]%nat)
  (* objects/owner_history/mod.rs:59-68 *)
  | history_owning_user => mk_method [KOwnerHistory] (PIdOr [KPersonAndOrganization]) (Put [0; 5]%nat)
  (* objects/owner_history/mod.rs:70-79 *)
  | history_owning_application => mk_method [KOwnerHistory] (PIdOr [KApplication]) (Put [1; 6]%nat)
  (* objects/owner_history/mod.rs:81-84 *)
  | history_state => mk_method [KOwnerHistory] (PPlain (TEnum enum_AccessState)) (Put [2]%nat)
  (* objects/owner_history/mod.rs:86-89 *)
  | history_last_modified_date => mk_method [KOwnerHistory] (PPlain TTime) (Put [4]%nat)
  (* objects/owner_history/mod.rs:91-98 *)
  | history_last_modifying_user => mk_method [KOwnerHistory] (PIdOr [KPersonAndOrganization]) (Put [5]%nat)
  (* objects/owner_history/mod.rs:100-107 *)
  | history_last_modifying_application => mk_method [KOwnerHistory] (PIdOr [KApplication]) (Put [6]%nat)
  (* objects/person/mod.rs:54-57 *)
  | person_id => mk_method [KPerson] (PPlain TStr) (Put [0]%nat)
  (* objects/person/mod.rs:59-62 *)
  | person_family_name => mk_method [KPerson] (PPlain TStr) (Put [1]%nat)
  (* objects/person/mod.rs:64-67 *)
  | person_given_name => mk_method [KPerson] (PPlain TStr) (Put [2]%nat)
  (* objects/person/mod.rs:69-81 *)
  | person_add_middle_name => mk_method [KPerson] (PPlain TStr) (PushOpt 3)
  (* objects/person/mod.rs:83-95 *)
  | person_add_suffix_title => mk_method [KPerson] (PPlain TStr) (PushOpt 5)
  (* objects/person/mod.rs:97-109 *)
  | person_add_prefix_title => mk_method [KPerson] (PPlain TStr) (PushOpt 4)
  (* objects/person/mod.rs:111-123 *)
  | person_add_role => mk_method [KPerson] (PIdOr [KActorRole]) (PushOpt 6)
  (* objects/person/mod.rs:125-137 *)
  | person_add_address => mk_method [KPerson] (PIdOr address_kinds) (PushOpt 7)
  (* objects/person_and_org/mod.rs:34-46 *)
  | person_and_org_add_role => mk_method [KPersonAndOrganization] (PIdOr [KActorRole]) (PushOpt 2)
  (* objects/organization/mod.rs:45-57 *)
  | organization_add_role => mk_method [KOrganization] (PIdOr [KActorRole]) (PushOpt 3)
  (* objects/organization/mod.rs:59-71 *)
  | organization_add_address => mk_method [KOrganization] (PIdOr address_kinds) (PushOpt 4)
  (* materials/material.rs:40-43 *)
  | material_description => mk_method [KMaterial] (PPlain TStr) (Put [1]%nat)
  (* materials/material.rs:45-48 *)
  | material_category => mk_method [KMaterial] (PPlain TStr) (Put [2]%nat)
  (* materials/material_constituent.rs:56-59 *)
  | constituent_material => mk_method [KMaterialConstituent] (PIdOr [KMaterial]) (Put [2]%nat)
  (* materials/material_constituent.rs:61-64 *)
  | constituent_name => mk_method [KMaterialConstituent] (PPlain TStr) (Put [0]%nat)
  (* materials/material_constituent.rs:66-69 *)
  | constituent_description => mk_method [KMaterialConstituent] (PPlain TStr) (Put [1]%nat)
  (* materials/material_constituent.rs:71-74 *)
  | constituent_category => mk_method [KMaterialConstituent] (PPlain TStr) (Put [4]%nat)
  (* materials/material_constituent.rs:76-79 *)
  | constituent_fraction => mk_method [KMaterialConstituent] (PPlain TReal) (Put [3]%nat)
  (* materials/material_constituent_set.rs:48-51 *)
  | constituent_set_name => mk_method [KMaterialConstituentSet] (PPlain TStr) (Put [0]%nat)
  (* materials/material_constituent_set.rs:53-56 *)
  | constituent_set_description => mk_method [KMaterialConstituentSet] (PPlain TStr) (Put [1]%nat)
  (* materials/material_constituent_set.rs:58-67 *)
  | constituent_set_add_constituent => mk_method [KMaterialConstituentSet] (PIdOr [KMaterialConstituent]) (Push 2)
  (* materials/material_layer.rs:85-88 *)
  | layer_material => mk_method [KMaterialLayer] (PIdOr [KMaterial]) (Put [0]%nat)
  (* materials/material_layer.rs:90-93 *)
  | layer_name => mk_method [KMaterialLayer] (PPlain TStr) (Put [3]%nat)
  (* materials/material_layer.rs:95-98 *)
  | layer_description => mk_method [KMaterialLayer] (PPlain TStr) (Put [4]%nat)
  (* materials/material_layer.rs:100-103 *)
  | layer_category => mk_method [KMaterialLayer] (PPlain TStr) (Put [5]%nat)
  (* materials/material_layer.rs:105-108 *)
  | layer_priority => mk_method [KMaterialLayer] (PPlain TInt) (Put [6]%nat)
  (* materials/material_layer_set.rs:47-50 *)
  | layer_set_name => mk_method [KMaterialLayerSet] (PPlain TStr) (Put [1]%nat)
  (* materials/material_layer_set.rs:52-55 *)
  | layer_set_description => mk_method [KMaterialLayerSet] (PPlain TStr) (Put [2]%nat)
  (* materials/material_layer_set.rs:57-60 *)
  | layer_set_add_layer => mk_method [KMaterialLayerSet] (PIdOr [KMaterialLayer]) (Push 0)
  (* materials/material_layer_set_usage.rs:82-85 *)
  | usage_reference_extent => mk_method [KMaterialLayerSetUsage] (PPlain TReal) (Put [4]%nat)
  (* properties/base.rs:32-35 *)
  | single_value_name => mk_method [KPropertySingleValue] (PPlain TStr) (Put [0]%nat)
  (* properties/base.rs:37-40 *)
  | single_value_description => mk_method [KPropertySingleValue] (PPlain TStr) (Put [1]%nat)
  (* properties/extended_base.rs:39-42 *)
  | material_properties_name => mk_method [KMaterialProperties] (PPlain TStr) (Put [0]%nat)
  (* properties/extended_base.rs:44-47 *)
  | material_properties_description => mk_method [KMaterialProperties] (PPlain TStr) (Put [1]%nat)
  (* properties/extended_base.rs:49-52 *)
  | material_properties_properties => mk_method [KMaterialProperties] (PRaw) (Push 2)
  (* objects/shared/rel_associates.rs:43-53 *)
  | associates_relate_obj => mk_method [KRelAssociatesMaterial] (PIdOr material_relatable_kinds) (Push 4)
  (* relations/rel_contained_in_spatial_structure.rs:49-59 *)
  | contained_relate_structure => mk_method [KRelContainedInSpatialStructure] (PIdOr structure_kinds) (Push 4)
  (* relations/rel_declares.rs:45-54 *)
  | declares_relate_definition => mk_method [KRelDeclares] (PIdOr all_kinds) (Push 5)
  (* relations/rel_defines_by_properties.rs:51-56 *)
  | by_properties_relate_obj => mk_method [KRelDefinesByProperties] (PIdOr all_kinds) (Push 4)
  (* relations/rel_defines_by_type.rs:46-51 *)
  | by_type_relate_obj => mk_method [KRelDefinesByType] (PIdOr all_kinds) (Push 4)
  (* geometry/extruded_area_solid.rs:67-70 *)
  | solid_position => mk_method [KExtrudedAreaSolid] (PIdOr [KAxis3D]) (Put [1]%nat)
  (* geometry/arbitrary_closed_profile_def/mod.rs:58-61 *)
  | arbitrary_profile_name => mk_method [KArbitraryClosedProfileDef] (PPlain TStr) (Put [1]%nat)
  (* geometry/local_placement/mod.rs:44-51 *)
  | placement_relative_to => mk_method [KLocalPlacement] (PIdOr [KLocalPlacement]) (Put [0]%nat)
  (* geometry/product_definition_shape/mod.rs:188-191 *)
  | shape_name => mk_method [KProductDefinitionShape] (PPlain TStr) (Put [0]%nat)
  (* geometry/product_definition_shape/mod.rs:193-196 *)
  | shape_description => mk_method [KProductDefinitionShape] (PPlain TStr) (Put [1]%nat)
  (* geometry/product_definition_shape/mod.rs:198-208 *)
  | shape_add_representation => mk_method [KProductDefinitionShape] (PIdOr [KShapeRepresentation]) (Push 2)
  (* geometry/rectangle_profile_def/mod.rs:58-61 *)
  | rectangle_profile_name => mk_method [KRectangleProfileDef] (PPlain TStr) (Put [1]%nat)
  (* geometry/rectangle_profile_def/mod.rs:63-70 *)
  | rectangle_position => mk_method [KRectangleProfileDef] (PIdOr axis_kinds) (Put [2]%nat)
  (* geometry/representation_context/mod.rs:68-71 *)
  | context_precision => mk_method [KGeometricRepresentationContext] (PPlain TReal) (Put [3]%nat)
  (* geometry/representation_context/mod.rs:73-80 *)
  | context_true_north => mk_method [KGeometricRepresentationContext] (PIdOr axis_kinds) (Put [5]%nat)
  (* geometry/representation_subcontext/mod.rs:121-124 *)
  | sub_context_target_scale => mk_method [KGeometricRepresentationSubContext] (PPlain TReal) (Put [7]%nat)
  (* geometry/representation_subcontext/mod.rs:126-132 *)
  | sub_context_user_defined_target_view => mk_method [KGeometricRepresentationSubContext] (PPlain TStr) (Put [9]%nat)
  (* geometry/shape_representation/mod.rs:83-88 *)
  | representation_add_item => mk_method [KShapeRepresentation] (PNew item_kinds) (Push 3)
  end.

Definition all_ctors : list ctor :=
  [Door_new ; DoorType_new ; Window_new ; WindowType_new ; Wall_new ; WallType_new ; Slab_new ; SlabType_new
; Roof_new ; RoofType_new ; OpeningElement_new ; ShadingDevice_new ; ShadingDeviceType_new ; Project_new
; Building_new ; Site_new ; Storey_new ; Space_new ; SpaceType_new ; OwnerHistory_new ; Person_empty
; PersonAndOrganization_new ; Organization_new ; Application_new ; Material_new ; MaterialConstituent_new
; MaterialConstituentSet_new ; MaterialLayer_new ; MaterialLayerSet_new ; MaterialLayerSetUsage_new
; MaterialProperties_new ; PropertySet_new ; PropertySingleValue_new ; MappedItem_new ; RelAggregates_new
; RelAssociatesMaterial_new ; RelContained_new ; RelDeclares_new ; RelDefinesByProperties_new
; RelDefinesByType_new ; RelFills_new ; RelVoids_new ; RepresentationMap_new ; ExtrudedAreaSolid_new
; NonUniform_new ; Uniform_new ; ArbitraryClosedProfileDef_new ; Axis2D_new ; Axis3D_new ; Direction2D_from
; Direction3D_from ; IndexedPolyCurve_new ; LocalPlacement_new ; Point2D_from ; Point3D_from ; PointList2D_new
; PointList3D_new ; PolyLine_from ; ProductDefinitionShape_new ; RectangleProfileDef_new
; RepresentationContext_new ; SubContext_derive ; ShapeRepresentation_new ; UnitAssigment_new ; SiUnit_new].

Definition all_setters : list setter :=
  [root_owner_history ; root_name ; root_description ; object_object_type ; product_object_placement
; product_representation ; element_tag ; element_type_element_type ; type_product_tag ; spatial_long_name
; spatial_composition_type ; project_object_type ; project_long_name ; project_phase ; project_add_context
; project_unit_assignment ; door_overall_height ; door_overall_width ; door_predefined_type
; door_operation_type ; window_overall_height ; window_overall_width ; window_predefined_type
; window_partitioning_type ; wall_predefined_type ; slab_predefined_type ; roof_predefined_type
; opening_predefined_type ; shading_predefined_type ; building_elevation_of_ref_height
; building_elevation_of_terrain ; building_building_address ; site_ref_latitude ; site_ref_longitude
; site_ref_elevation ; site_land_title_number ; site_site_address ; space_predefined_type
; space_elevation_with_flooring ; history_owning_user ; history_owning_application ; history_state
; history_last_modified_date ; history_last_modifying_user ; history_last_modifying_application ; person_id
; person_family_name ; person_given_name ; person_add_middle_name ; person_add_suffix_title
; person_add_prefix_title ; person_add_role ; person_add_address ; person_and_org_add_role
; organization_add_role ; organization_add_address ; material_description ; material_category
; constituent_material ; constituent_name ; constituent_description ; constituent_category
; constituent_fraction ; constituent_set_name ; constituent_set_description ; constituent_set_add_constituent
; layer_material ; layer_name ; layer_description ; layer_category ; layer_priority ; layer_set_name
; layer_set_description ; layer_set_add_layer ; usage_reference_extent ; single_value_name
; single_value_description ; material_properties_name ; material_properties_description
; material_properties_properties ; associates_relate_obj ; contained_relate_structure
; declares_relate_definition ; by_properties_relate_obj ; by_type_relate_obj ; solid_position
; arbitrary_profile_name ; placement_relative_to ; shape_name ; shape_description ; shape_add_representation
; rectangle_profile_name ; rectangle_position ; context_precision ; context_true_north
; sub_context_target_scale ; sub_context_user_defined_target_view ; representation_add_item].

(** ** Running *)

(** Arguments: a value, an id, an object in a register. *)
Inductive item := IPlain (v : val) | IId (n : N) | IReg (r : nat).
Inductive arg := ANone | AOne (i : item) | AMany (l : list item).

(** A value that is not in the model. *)
Definition reg : Type := kind * list val.

Definition err {A} (o : option A) : outcome A := match o with Some a => Done a | None => Err end.
Definition full {A} (o : option A) : outcome A := match o with Some a => Done a | None => Panic end.

(** [into().or_insert(ifc)] and [ifc.data.insert_new]: /repo/ifc_rs/src/id/id_or.rs:34-39.  The error
    stands for what is no program: a register that does not exist. *)
Definition store_item (rs : list reg) (m : dmap) (i : item) : outcome (val * dmap) :=
  match i with
  | IPlain v => Done (v, m)
  | IId n => Done (VId n, m)
  | IReg r => x <~ err (nth_error rs r); y <~ full (insert_new m (Ent (fst x) (snd x))); Done (VId (snd y), fst y)
  end.

Fixpoint store_items (rs : list reg) (m : dmap) (l : list item) : outcome (list val * dmap) :=
  match l with
  | [] => Done ([], m)
  | i :: l' =>
      x <~ store_item rs m i; y <~ store_items rs (snd x) l'; Done (fst x :: fst y, snd y)
  end.

Definition store (rs : list reg) (m : dmap) (a : arg) : outcome (val * dmap) :=
  match a with
  | ANone => Done (VOmit, m)
  | AOne i => store_item rs m i
  | AMany l => x <~ store_items rs m l; Done (VList (fst x), snd x)
  end.

(** [DVec2::normalize] and [DVec3::normalize], /repo/ifc_rs/src/geometry/direction/mod.rs:24,43. *)
Definition unit_vector (v : val) : val :=
  match v with
  | VVec [x; y] =>
      let f := fdiv f_one (fsqrt (fadd (fmul x x) (fmul y y))) in VVec [fmul x f; fmul y f]
  | VVec [x; y; z] =>
      let '(a, b, c) := vnormalize (x, y, z) in VVec [a; b; c]
  | _ => v
  end.

(** One attribute of a new value; [g] is the identifier. *)
Definition fill (rs : list reg) (g : list N) (args : list arg) (m : dmap) (s : slot) : outcome (val * dmap) :=
  match s with
  | SGuid => Done (VGuid g, m)
  | SOmit => Done (VOmit, m)
  | SInh => Done (VInh, m)
  | SEmpty => Done (VList [], m)
  | SEnum i => Done (VEnum i, m)
  | SText t => Done (VStr t, m)
  | SArg i => a <~ err (nth_error args i); store rs m a
  | SUnit i => a <~ err (nth_error args i); x <~ store rs m a; Done (unit_vector (fst x), snd x)
  end.

Fixpoint fills (rs : list reg) (g : list N) (args : list arg) (m : dmap) (l : list slot) : outcome (list val * dmap) :=
  match l with
  | [] => Done ([], m)
  | s :: l' =>
      x <~ fill rs g args m s; y <~ fills rs g args (snd x) l'; Done (fst x :: fst y, snd y)
  end.

(** A constructor. *)
Definition construct (c : ctor) (g : list N) (args : list arg) (rs : list reg) (m : dmap) : outcome (reg * dmap) :=
  x <~ fills rs g args m (mk_slots (maker_of c)); Done ((mk_kind (maker_of c), fst x), snd x).

Fixpoint set_nth {A} (i : nat) (a : A) (l : list A) : list A :=
  match i, l with
  | _, [] => []
  | O, _ :: l' => a :: l'
  | S i', b :: l' => b :: set_nth i' a l'
  end.

(** The attribute a setter appends to.  [OptionalParameter::is_omitted] and [custom_mut().unwrap()] of
    /repo/ifc_rs/src/parser/optional.rs:36-49 and /repo/ifc_rs/src/objects/person/mod.rs:70-78: an attribute that
    is the star is neither. *)
Definition appended (h : how) (v o : val) : outcome val :=
  match h, o with
  | PushOpt _, VOmit => Done (VList [v])
  | PushOpt _, VList l => Done (VList (l ++ [v]))
  | Push _, VList l => Done (VList (l ++ [v]))
  | PushOpt _, _ => Panic
  | _, _ => Err
  end.

(** Store [v]. *)
Definition put_value (h : how) (v : val) (l : list val) : outcome (list val) :=
  match h with
  | Put is => Done (fold_left (fun l i => set_nth i v l) is l)
  | Push i | PushOpt i => o <~ err (nth_error l i); x <~ appended h v o; Done (set_nth i x l)
  end.

(** A setter.  The argument is stored first; if appending panics there is no model left. *)
Definition modify (s : setter) (a : arg) (rs : list reg) (x : reg) (m : dmap) : outcome (reg * dmap) :=
  y <~ store rs m a; l <~ put_value (me_how (method_of s)) (fst y) (snd x); Done ((fst x, l), snd y).

(** A program: make a value, write down a value of a type with public fields, apply a
    setter, insert a value ([ifc.data.insert_new], the id is the answer), exchange a
    value with the object of an id ([std::mem::swap] with [ifc.data.get_mut(id)]). *)
Inductive stmt :=
| SNew (c : ctor) (g : list N) (args : list arg)
| SLit (k : kind) (l : list val)
| SSet (r : nat) (s : setter) (a : arg)
| SInsert (r : nat)
| SSwap (r : nat) (n : N).

Record world := mk_world { w_regs : list reg; w_map : dmap }.

Definition exec (x : stmt) (w : world) : outcome (world * option N) :=
  let rs := w_regs w in
  let m := w_map w in
  match x with
  | SNew c g args => y <~ construct c g args rs m; Done (mk_world (rs ++ [fst y]) (snd y), None)
  | SLit k l => Done (mk_world (rs ++ [(k, l)]) m, None)
  | SSet r s a =>
      v <~ err (nth_error rs r); y <~ modify s a rs v m; Done (mk_world (set_nth r (fst y) rs) (snd y), None)
  | SInsert r =>
      v <~ err (nth_error rs r); y <~ full (insert_new m (Ent (fst v) (snd v)));
      Done (mk_world rs (fst y), Some (snd y))
  | SSwap r n =>
      v <~ err (nth_error rs r); l <~ get (fst v) m n;
      Done (mk_world (set_nth r (fst v, l) rs) (put m n (Ent (fst v) (snd v))), None)
  end.

Fixpoint execs (xs : list stmt) (w : world) : outcome (world * list (option N)) :=
  match xs with
  | [] => Done (w, [])
  | x :: xs' => y <~ exec x w; z <~ execs xs' (fst y); Done (fst z, snd y :: snd z)
  end.
