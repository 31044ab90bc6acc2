(** Specification of the attributes of the kinds: the structs of /repo as they are declared,
    and what this says about the lines of a file and about the checking of references.

    In Rust the declaration of a struct, its reader ([IFCParse]), its writer ([Display]) and
    its checks ([IfcVerify]) are four pieces of code; nothing but care keeps them in step. *)

From Coq Require Import String Ascii List NArith ZArith Bool.
From Verif Require Import Base Prims Guid Float Kind Types WellTyped NameSpec.
Import ListNotations.
Open Scope N_scope.

(** ** Declarations *)

(** A Rust type: a name, or a generic type with its argument. *)
Inductive rust := T (s : string) | G (c : string) (t : rust).

(** A field of a struct: its name, the arguments of [#[ifc_types(..)]], whether it is marked
    [#[inherited]], and its type.  The field of a tuple struct is called 0. *)
Record field := mk_field
  { f_name : string; f_targets : list string; f_inherited : bool; f_type : rust }.

(** The structs, from /repo/ifc_rs/src: name, and the fields in their order. *)
Definition declarations : list (string * list field) :=
  [ (* objects/actor_role/mod.rs:20 *)
    ("ActorRole",
     [ mk_field "role" [] false (T "Role")
     ; mk_field "user_defined_role" [] false (G "OptionalParameter" (T "StringPrimitive"))
     ; mk_field "description" [] false (G "OptionalParameter" (T "StringPrimitive")) ])
  ; (* objects/address/mod.rs:49 *)
    ("PostalAddress",
     [ mk_field "purpose" [] false (G "OptionalParameter" (T "StringPrimitive"))
     ; mk_field "description" [] false (G "OptionalParameter" (T "StringPrimitive"))
     ; mk_field "user_defined_purpose" [] false (G "OptionalParameter" (T "StringPrimitive"))
     ; mk_field "internal_location" [] false (G "OptionalParameter" (T "StringPrimitive"))
     ; mk_field "address_lines" [] false (G "OptionalParameter" (G "IfcList" (T "StringPrimitive")))
     ; mk_field "postal_box" [] false (G "OptionalParameter" (T "StringPrimitive"))
     ; mk_field "town" [] false (G "OptionalParameter" (G "IfcList" (T "StringPrimitive")))
     ; mk_field "region" [] false (G "OptionalParameter" (T "StringPrimitive"))
     ; mk_field "postal_code" [] false (G "OptionalParameter" (T "StringPrimitive"))
     ; mk_field "country" [] false (G "OptionalParameter" (T "StringPrimitive")) ])
  ; (* objects/address/mod.rs:16 *)
    ("TelecomAddress",
     [ mk_field "purpose" [] false (G "OptionalParameter" (T "StringPrimitive"))
     ; mk_field "description" [] false (G "OptionalParameter" (T "StringPrimitive"))
     ; mk_field "user_defined_purpose" [] false (G "OptionalParameter" (T "StringPrimitive"))
     ; mk_field "telephone_numbers" [] false (G "OptionalParameter" (G "IfcList" (T "StringPrimitive")))
     ; mk_field "facsimile_numbers" [] false (G "OptionalParameter" (G "IfcList" (T "StringPrimitive")))
     ; mk_field "pager_number" [] false (G "OptionalParameter" (T "StringPrimitive"))
     ; mk_field "email_addresses" [] false (G "OptionalParameter" (G "IfcList" (T "StringPrimitive")))
     ; mk_field "homepage_url" [] false (G "OptionalParameter" (T "StringPrimitive")) ])
  ; (* objects/application/mod.rs:14 *)
    ("Application",
     [ mk_field "application_developer" [] false (G "TypedId" (T "Organization"))
     ; mk_field "version" [] false (T "StringPrimitive")
     ; mk_field "application_full_name" [] false (T "StringPrimitive")
     ; mk_field "application_identifier" [] false (T "StringPrimitive") ])
  ; (* objects/organization/mod.rs:16 *)
    ("Organization",
     [ mk_field "id" [] false (G "OptionalParameter" (T "StringPrimitive"))
     ; mk_field "name" [] false (T "StringPrimitive")
     ; mk_field "description" [] false (G "OptionalParameter" (T "StringPrimitive"))
     ; mk_field "roles" [] false (G "OptionalParameter" (G "IfcList" (G "TypedId" (T "ActorRole"))))
     ; mk_field "addresses" ["TelecomAddress"; "PostalAddress"] false (G "OptionalParameter" (G "IfcList" (T "Id"))) ])
  ; (* objects/owner_history/mod.rs:18 *)
    ("OwnerHistory",
     [ mk_field "owning_user" [] false (G "OptionalParameter" (G "TypedId" (T "PersonAndOrganization")))
     ; mk_field "owning_application" [] false (G "OptionalParameter" (G "TypedId" (T "Application")))
     ; mk_field "state" [] false (G "OptionalParameter" (T "AccessState"))
     ; mk_field "change_action" [] false (T "ChangeAction")
     ; mk_field "last_modified_date" [] false (G "OptionalParameter" (T "IfcTimestamp"))
     ; mk_field "last_modifying_user" [] false (G "OptionalParameter" (G "TypedId" (T "PersonAndOrganization")))
     ; mk_field "last_modifying_application" [] false (G "OptionalParameter" (G "TypedId" (T "Application")))
     ; mk_field "creation_date" [] false (T "IfcTimestamp") ])
  ; (* objects/person/mod.rs:16 *)
    ("Person",
     [ mk_field "id" [] false (G "OptionalParameter" (T "StringPrimitive"))
     ; mk_field "family_name" [] false (G "OptionalParameter" (T "StringPrimitive"))
     ; mk_field "given_name" [] false (G "OptionalParameter" (T "StringPrimitive"))
     ; mk_field "middle_names" [] false (G "OptionalParameter" (G "IfcList" (T "StringPrimitive")))
     ; mk_field "prefix_titles" [] false (G "OptionalParameter" (G "IfcList" (T "StringPrimitive")))
     ; mk_field "suffix_titles" [] false (G "OptionalParameter" (G "IfcList" (T "StringPrimitive")))
     ; mk_field "roles" [] false (G "OptionalParameter" (G "IfcList" (G "TypedId" (T "ActorRole"))))
     ; mk_field "addresses" ["TelecomAddress"; "PostalAddress"] false (G "OptionalParameter" (G "IfcList" (T "Id"))) ])
  ; (* objects/person_and_org/mod.rs:16 *)
    ("PersonAndOrganization",
     [ mk_field "the_person" [] false (G "TypedId" (T "Person"))
     ; mk_field "the_organization" [] false (G "TypedId" (T "Organization"))
     ; mk_field "roles" [] false (G "OptionalParameter" (G "IfcList" (G "TypedId" (T "ActorRole")))) ])
  ; (* objects/shared/root.rs:23 *)
    ("Root",
     [ mk_field "global_id" [] false (T "IfcGloballyUniqueId")
     ; mk_field "owner_history" [] false (G "OptionalParameter" (G "TypedId" (T "OwnerHistory")))
     ; mk_field "name" [] false (G "OptionalParameter" (T "StringPrimitive"))
     ; mk_field "description" [] false (G "OptionalParameter" (T "StringPrimitive")) ])
  ; (* objects/shared/object.rs:20 *)
    ("Object",
     [ mk_field "root" [] true (T "Root")
     ; mk_field "object_type" [] false (G "OptionalParameter" (T "StringPrimitive")) ])
  ; (* objects/shared/product.rs:29 *)
    ("Product",
     [ mk_field "object" [] true (T "Object")
     ; mk_field "object_placement" ["Axis3D"; "Point3D"; "LocalPlacement"] false (G "OptionalParameter" (T "Id"))
     ; mk_field "representation" [] false (G "OptionalParameter" (G "TypedId" (T "ProductDefinitionShape"))) ])
  ; (* objects/shared/element.rs:21 *)
    ("Element",
     [ mk_field "product" [] true (T "Product")
     ; mk_field "tag" [] false (G "OptionalParameter" (T "StringPrimitive")) ])
  ; (* objects/wall/mod.rs:23 *)
    ("Wall",
     [ mk_field "element" [] true (T "Element")
     ; mk_field "predefined_type" [] false (G "OptionalParameter" (G "IdOr" (T "WallType"))) ])
  ; (* objects/shared/type_object.rs:24 *)
    ("TypeObject",
     [ mk_field "root" [] true (T "Root")
     ; mk_field "applicable_occurence" [] false (G "OptionalParameter" (T "Id"))
     ; mk_field "has_property_sets" [] false (G "OptionalParameter" (G "IfcList" (T "Id"))) ])
  ; (* objects/shared/type_product.rs:28 *)
    ("TypeProduct",
     [ mk_field "type_object" [] true (T "TypeObject")
     ; mk_field "representation_maps" [] false (G "OptionalParameter" (G "IfcList" (G "TypedId" (T "RepresentationMap"))))
     ; mk_field "tag" [] false (G "OptionalParameter" (T "StringPrimitive")) ])
  ; (* objects/shared/element_type.rs:23 *)
    ("ElementType",
     [ mk_field "type_product" [] true (T "TypeProduct")
     ; mk_field "element_type" [] false (G "OptionalParameter" (T "StringPrimitive")) ])
  ; (* objects/walltype/mod.rs:25 *)
    ("WallType",
     [ mk_field "element_type" [] true (T "ElementType")
     ; mk_field "predefined_type" [] false (T "WallTypeEnum") ])
  ; (* objects/slab/mod.rs:40 *)
    ("Slab",
     [ mk_field "element" [] true (T "Element")
     ; mk_field "predefined_type" [] false (G "OptionalParameter" (T "SlabTypeEnum")) ])
  ; (* objects/slabtype/mod.rs:41 *)
    ("SlabType",
     [ mk_field "element_type" [] true (T "ElementType")
     ; mk_field "predefined_type" [] false (T "SlabTypeEnum") ])
  ; (* objects/roof/mod.rs:41 *)
    ("Roof",
     [ mk_field "element" [] true (T "Element")
     ; mk_field "predefined_type" [] false (G "OptionalParameter" (T "RoofTypeEnum")) ])
  ; (* objects/rooftype/mod.rs:21 *)
    ("RoofType",
     [ mk_field "element_type" [] true (T "ElementType")
     ; mk_field "predefined_type" [] false (T "RoofTypeEnum") ])
  ; (* objects/shared/spatial_element.rs:22 *)
    ("SpatialElement",
     [ mk_field "product" [] true (T "Product")
     ; mk_field "long_name" [] false (G "OptionalParameter" (T "StringPrimitive")) ])
  ; (* objects/shared/spatial_structure_element.rs:20 *)
    ("SpatialStructureElement",
     [ mk_field "spatial_element" [] true (T "SpatialElement")
     ; mk_field "composition_type" [] false (G "OptionalParameter" (T "CompositionTypeEnum")) ])
  ; (* objects/building.rs:24 *)
    ("Building",
     [ mk_field "spatial_element_structure" [] true (T "SpatialStructureElement")
     ; mk_field "elevation_of_ref_height" [] false (G "OptionalParameter" (T "RealPrimitive"))
     ; mk_field "elevation_of_terrain" [] false (G "OptionalParameter" (T "RealPrimitive"))
     ; mk_field "building_address" [] false (G "OptionalParameter" (G "TypedId" (T "PostalAddress"))) ])
  ; (* objects/storey.rs:55 *)
    ("Storey",
     [ mk_field "spatial_element_structure" [] true (T "SpatialStructureElement")
     ; mk_field "elevation" [] false (G "OptionalParameter" (T "RealPrimitive")) ])
  ; (* objects/site.rs:55 *)
    ("Site",
     [ mk_field "spatial_element_structure" [] true (T "SpatialStructureElement")
     ; mk_field "ref_latitude" [] false (G "OptionalParameter" (G "IfcList" (T "IntegerPrimitive")))
     ; mk_field "ref_longitude" [] false (G "OptionalParameter" (G "IfcList" (T "IntegerPrimitive")))
     ; mk_field "ref_elevation" [] false (G "OptionalParameter" (T "RealPrimitive"))
     ; mk_field "land_title_number" [] false (G "OptionalParameter" (T "StringPrimitive"))
     ; mk_field "site_address" [] false (G "OptionalParameter" (G "TypedId" (T "PostalAddress"))) ])
  ; (* objects/opening_element/mod.rs:61 *)
    ("OpeningElement",
     [ mk_field "element" [] true (T "Element")
     ; mk_field "predefined_type" [] false (G "OptionalParameter" (T "OpeningElementTypeEnum")) ])
  ; (* objects/window/mod.rs:75 *)
    ("Window",
     [ mk_field "element" [] true (T "Element")
     ; mk_field "overall_height" [] false (G "OptionalParameter" (T "RealPrimitive"))
     ; mk_field "overall_width" [] false (G "OptionalParameter" (T "RealPrimitive"))
     ; mk_field "predefined_type" [] false (G "OptionalParameter" (T "WindowTypeEnum"))
     ; mk_field "partitioning_type" [] false (G "OptionalParameter" (T "WindowPartitioningTypeEnum"))
     ; mk_field "user_defining_partitioning_type" [] false (G "OptionalParameter" (T "StringPrimitive")) ])
  ; (* objects/windowtype/mod.rs:44 *)
    ("WindowType",
     [ mk_field "element_type" [] true (T "ElementType")
     ; mk_field "predefined_type" [] false (T "WindowTypeEnum")
     ; mk_field "partitioning_type" [] false (T "WindowPartitioningTypeEnum")
     ; mk_field "parameter_takes_precedence" [] false (G "OptionalParameter" (T "BoolPrimitive"))
     ; mk_field "user_defined_partitioning_type" [] false (G "OptionalParameter" (T "StringPrimitive")) ])
  ; (* objects/shared/context.rs:27 *)
    ("Context",
     [ mk_field "root" [] true (T "Root")
     ; mk_field "object_type" [] false (G "OptionalParameter" (T "StringPrimitive"))
     ; mk_field "long_name" [] false (G "OptionalParameter" (T "StringPrimitive"))
     ; mk_field "phase" [] false (G "OptionalParameter" (T "StringPrimitive"))
     ; mk_field "representation_context" [] false (G "IfcList" (G "TypedId" (T "GeometricRepresentationContext")))
     ; mk_field "units_in_context" [] false (G "OptionalParameter" (G "TypedId" (T "UnitAssigment"))) ])
  ; (* objects/project.rs:23 *)
    ("Project",
     [ mk_field "context" [] true (T "Context") ])
  ; (* objects/space/mod.rs:43 *)
    ("Space",
     [ mk_field "spatial_element_structure" [] true (T "SpatialStructureElement")
     ; mk_field "predefined_type" [] false (G "OptionalParameter" (T "SpaceTypeEnum"))
     ; mk_field "elevation_with_flooring" [] false (G "OptionalParameter" (T "RealPrimitive")) ])
  ; (* objects/spacetype/mod.rs:42 *)
    ("SpaceType",
     [ mk_field "element_type" [] true (T "ElementType")
     ; mk_field "predefined_type" [] false (T "SpaceTypeEnum")
     ; mk_field "long_name" [] false (G "OptionalParameter" (T "StringPrimitive")) ])
  ; (* objects/door/mod.rs:99 *)
    ("Door",
     [ mk_field "element" [] true (T "Element")
     ; mk_field "overall_height" [] false (G "OptionalParameter" (T "RealPrimitive"))
     ; mk_field "overall_width" [] false (G "OptionalParameter" (T "RealPrimitive"))
     ; mk_field "predefined_type" [] false (G "OptionalParameter" (T "DoorTypeEnum"))
     ; mk_field "operation_type" [] false (G "OptionalParameter" (T "DoorOperationTypeEnum"))
     ; mk_field "user_defining_operation_type" [] false (G "OptionalParameter" (T "StringPrimitive")) ])
  ; (* objects/doortype/mod.rs:39 *)
    ("DoorType",
     [ mk_field "element_type" [] true (T "ElementType")
     ; mk_field "predefined_type" [] false (T "DoorTypeEnum")
     ; mk_field "operation_type" [] false (T "DoorOperationTypeEnum")
     ; mk_field "parameter_takes_precedence" [] false (G "OptionalParameter" (T "BoolPrimitive"))
     ; mk_field "user_defined_partitioning_type" [] false (G "OptionalParameter" (T "StringPrimitive")) ])
  ; (* objects/shading_device.rs:26 *)
    ("ShadingDevice",
     [ mk_field "element" [] true (T "Element")
     ; mk_field "predefined_type" [] false (G "OptionalParameter" (T "ShadingDeviceTypeEnum")) ])
  ; (* objects/shading_device_type.rs:26 *)
    ("ShadingDeviceType",
     [ mk_field "element_type" [] true (T "ElementType")
     ; mk_field "predefined_type" [] false (T "ShadingDeviceTypeEnum") ])
  ; (* geometry/arbitrary_closed_profile_def/mod.rs:31 *)
    ("ArbitraryClosedProfileDef",
     [ mk_field "profile_type" [] false (T "ProfileType")
     ; mk_field "profile_name" [] false (G "OptionalParameter" (T "StringPrimitive"))
     ; mk_field "outer_curve" ["IndexedPolyCurve"; "PolyLine"] false (T "Id") ])
  ; (* geometry/axis/mod.rs:37 *)
    ("Axis2D",
     [ mk_field "location" [] false (G "TypedId" (T "Point2D"))
     ; mk_field "local_x" [] false (G "OptionalParameter" (G "TypedId" (T "Direction2D"))) ])
  ; (* geometry/axis/mod.rs:87 *)
    ("Axis3D",
     [ mk_field "location" [] false (G "TypedId" (T "Point3D"))
     ; mk_field "local_z" [] false (G "OptionalParameter" (G "TypedId" (T "Direction3D")))
     ; mk_field "local_x" [] false (G "OptionalParameter" (G "TypedId" (T "Direction3D"))) ])
  ; (* geometry/direction/mod.rs:20 *)
    ("Direction2D",
     [ mk_field "0" [] false (T "IfcDVec2") ])
  ; (* geometry/direction/mod.rs:39 *)
    ("Direction3D",
     [ mk_field "0" [] false (T "IfcDVec3") ])
  ; (* geometry/extruded_area_solid.rs:32 *)
    ("ExtrudedAreaSolid",
     [ mk_field "swept_area" ["RectangleProfileDef"; "ArbitraryClosedProfileDef"] false (T "Id")
     ; mk_field "position" [] false (G "OptionalParameter" (G "TypedId" (T "Axis3D")))
     ; mk_field "extruded_direction" [] false (G "TypedId" (T "Direction3D"))
     ; mk_field "depth" [] false (T "RealPrimitive") ])
  ; (* geometry/indexed_poly_curve/mod.rs:19 *)
    ("IndexedPolyCurve",
     [ mk_field "points" ["PointList2D"; "PointList3D"] false (T "Id")
     ; mk_field "segments" [] false (G "OptionalParameter" (T "StringPrimitive"))
     ; mk_field "self_intersect" [] false (G "OptionalParameter" (T "BoolPrimitive")) ])
  ; (* geometry/point/mod.rs:24 *)
    ("Point2D",
     [ mk_field "0" [] false (T "IfcDVec2") ])
  ; (* geometry/point/mod.rs:59 *)
    ("Point3D",
     [ mk_field "0" [] false (T "IfcDVec3") ])
  ; (* geometry/point_list/mod.rs:27 *)
    ("PointList2D",
     [ mk_field "coord_list" [] false (G "IfcList" (T "IfcDVec2"))
     ; mk_field "tag_list" [] false (G "OptionalParameter" (G "IfcList" (T "StringPrimitive"))) ])
  ; (* geometry/point_list/mod.rs:55 *)
    ("PointList3D",
     [ mk_field "coord_list" [] false (G "IfcList" (T "IfcDVec3"))
     ; mk_field "tag_list" [] false (G "OptionalParameter" (G "IfcList" (T "StringPrimitive"))) ])
  ; (* geometry/polyline/mod.rs:14 *)
    ("PolyLine",
     [ mk_field "points" ["Point2D"; "Point3D"] false (G "IfcList" (T "Id")) ])
  ; (* geometry/product_definition_shape/mod.rs:30 *)
    ("ProductDefinitionShape",
     [ mk_field "name" [] false (G "OptionalParameter" (T "StringPrimitive"))
     ; mk_field "description" [] false (G "OptionalParameter" (T "StringPrimitive"))
     ; mk_field "representations" [] false (G "IfcList" (G "TypedId" (T "ShapeRepresentation"))) ])
  ; (* geometry/rectangle_profile_def/mod.rs:28 *)
    ("RectangleProfileDef",
     [ mk_field "profile_type" [] false (T "ProfileType")
     ; mk_field "profile_name" [] false (G "OptionalParameter" (T "StringPrimitive"))
     ; mk_field "position" ["Axis2D"; "Axis3D"] false (G "OptionalParameter" (T "Id"))
     ; mk_field "x_dim" [] false (T "RealPrimitive")
     ; mk_field "y_dim" [] false (T "RealPrimitive") ])
  ; (* geometry/representation_context/mod.rs:22 *)
    ("GeometricRepresentationContext",
     [ mk_field "context_identifier" [] false (G "OptionalParameter" (T "RepresentationIdentifier"))
     ; mk_field "context_type" [] false (G "OptionalParameter" (T "StringPrimitive"))
     ; mk_field "coord_space_dimension" [] false (T "DimensionCount")
     ; mk_field "precision" [] false (G "OptionalParameter" (T "RealPrimitive"))
     ; mk_field "world_coord_system" ["Axis2D"; "Axis3D"] false (T "Id")
     ; mk_field "true_north" ["Direction2D"; "Direction3D"] false (G "OptionalParameter" (T "Id")) ])
  ; (* geometry/representation_subcontext/mod.rs:36 *)
    ("GeometricRepresentationSubContext",
     [ mk_field "context_identifier" [] false (G "OptionalParameter" (T "RepresentationIdentifier"))
     ; mk_field "context_type" [] false (G "OptionalParameter" (T "StringPrimitive"))
     ; mk_field "coord_space_dimension" [] false (G "OptionalParameter" (T "DimensionCount"))
     ; mk_field "precision" [] false (G "OptionalParameter" (T "RealPrimitive"))
     ; mk_field "world_coord_system" ["Axis2D"; "Axis3D"] false (G "OptionalParameter" (T "Id"))
     ; mk_field "true_north" ["Axis2D"; "Axis3D"] false (G "OptionalParameter" (T "Id"))
     ; mk_field "parent_context" [] false (G "TypedId" (T "GeometricRepresentationContext"))
     ; mk_field "target_scale" [] false (G "OptionalParameter" (T "RealPrimitive"))
     ; mk_field "target_view" [] false (T "GeometricProjection")
     ; mk_field "user_defined_target_view" [] false (G "OptionalParameter" (T "StringPrimitive")) ])
  ; (* geometry/shape_representation/mod.rs:50 *)
    ("ShapeRepresentation",
     [ mk_field "context_of_items" ["GeometricRepresentationSubContext"; "GeometricRepresentationContext"] false (T "Id")
     ; mk_field "representation_identifier" [] false (G "OptionalParameter" (T "RepresentationIdentifier"))
     ; mk_field "representation_type" [] false (G "OptionalParameter" (T "RepresentationType"))
     ; mk_field "items" ["ExtrudedAreaSolid"; "PolyLine"; "MappedItem"] false (G "IfcList" (T "Id")) ])
  ; (* geometry/local_placement/mod.rs:20 *)
    ("LocalPlacement",
     [ mk_field "placement_rel_to" [] false (G "OptionalParameter" (G "TypedId" (T "LocalPlacement")))
     ; mk_field "relative_placement" ["Axis2D"; "Axis3D"] false (T "Id") ])
  ; (* geometry/transform_base.rs:23 *)
    ("Transform3DBase",
     [ mk_field "axis_x" [] false (G "OptionalParameter" (G "IdOr" (T "Direction3D")))
     ; mk_field "axis_y" [] false (G "OptionalParameter" (G "IdOr" (T "Direction3D")))
     ; mk_field "local_origin" [] false (G "OptionalParameter" (G "IdOr" (T "Point3D")))
     ; mk_field "scale" [] false (G "OptionalParameter" (T "RealPrimitive"))
     ; mk_field "axis_z" [] false (G "OptionalParameter" (G "IdOr" (T "Direction3D"))) ])
  ; (* geometry/non_uniform_transformations.rs:43 *)
    ("CartesianTransformationOperator3DnonUniform",
     [ mk_field "base" [] true (T "Transform3DBase")
     ; mk_field "scale_y" [] false (G "OptionalParameter" (T "RealPrimitive"))
     ; mk_field "scale_z" [] false (G "OptionalParameter" (T "RealPrimitive")) ])
  ; (* geometry/uniform_transformations.rs:30 *)
    ("CartesianTransformationOperator3D",
     [ mk_field "base" [] true (T "Transform3DBase") ])
  ; (* relations/rel_aggregates.rs:21 *)
    ("RelAggregates",
     [ mk_field "root" [] false (T "Root")
     ; mk_field "relating_object" ["Project"; "Site"; "Building"; "Storey"] false (T "Id")
     ; mk_field "related_objects" ["Site"; "Building"; "Storey"; "Space"] false (G "IfcList" (T "Id")) ])
  ; (* objects/shared/rel_associates.rs:21 *)
    ("RelAssociates",
     [ mk_field "root" [] true (T "Root")
     ; mk_field "related_objects" [] false (G "IfcList" (T "Id")) ])
  ; (* relations/rel_associates_material.rs:20 *)
    ("RelAssociatesMaterial",
     [ mk_field "rel_associates" [] false (T "RelAssociates")
     ; mk_field "relating_material" ["MaterialConstituentSet"; "MaterialLayerSetUsage"; "MaterialLayerSet"; "Material"] false (T "Id") ])
  ; (* relations/rel_contained_in_spatial_structure.rs:21 *)
    ("RelContainedInSpatialStructure",
     [ mk_field "root" [] false (T "Root")
     ; mk_field "related_elements" ["Site"; "Building"; "Storey"; "OpeningElement"; "Slab"; "Roof"; "Wall"; "Window"; "Door"] false (G "IfcList" (T "Id"))
     ; mk_field "relating_structure" ["Site"; "Building"; "Storey"; "OpeningElement"; "Slab"; "Roof"; "Wall"; "Window"; "Door"] false (T "Id") ])
  ; (* relations/rel_declares.rs:21 *)
    ("RelDeclares",
     [ mk_field "root" [] false (T "Root")
     ; mk_field "relating_context" [] false (G "TypedId" (T "Project"))
     ; mk_field "related_definitions" [] false (G "IfcList" (T "Id")) ])
  ; (* relations/rel_defines_by_type.rs:24 *)
    ("RelDefinesByType",
     [ mk_field "root" [] false (T "Root")
     ; mk_field "related_objects" [] false (G "IfcList" (T "Id"))
     ; mk_field "relating_type" [] false (T "Id") ])
  ; (* relations/rel_defines_by_properties.rs:28 *)
    ("RelDefinesByProperties",
     [ mk_field "root" [] false (T "Root")
     ; mk_field "related_objects" [] false (G "IfcList" (T "Id"))
     ; mk_field "relating_property_definition" [] false (T "Id") ])
  ; (* relations/rel_voids_element.rs:22 *)
    ("RelVoidsElement",
     [ mk_field "root" [] false (T "Root")
     ; mk_field "relating_building_element" ["Building"; "OpeningElement"; "Slab"; "Wall"; "Window"] false (T "Id")
     ; mk_field "related_opening_element" [] false (G "TypedId" (T "OpeningElement")) ])
  ; (* relations/rel_fills_element.rs:19 *)
    ("RelFillsElement",
     [ mk_field "root" [] false (T "Root")
     ; mk_field "relating_opening_element" [] false (G "TypedId" (T "OpeningElement"))
     ; mk_field "related_building_element" ["Building"; "OpeningElement"; "Slab"; "Wall"; "Window"; "Door"] false (T "Id") ])
  ; (* relations/mapped_item.rs:43 *)
    ("MappedItem",
     [ mk_field "source" [] false (G "IdOr" (T "RepresentationMap"))
     ; mk_field "target" ["CartesianTransformationOperator3DnonUniform"; "CartesianTransformationOperator3D"] false (T "Id") ])
  ; (* relations/representation_map.rs:35 *)
    ("RepresentationMap",
     [ mk_field "origin" [] false (G "IdOr" (T "Axis3D"))
     ; mk_field "representation" [] false (G "IdOr" (T "ShapeRepresentation")) ])
  ; (* units/assignment.rs:19 *)
    ("UnitAssigment",
     [ mk_field "units" ["SiUnit"; "ConversionBasedUnit"; "DerivedUnit"; "MonetaryUnit"] false (G "IfcList" (T "Id")) ])
  ; (* units/shared/named_unit.rs:11 *)
    ("NamedUnit",
     [ mk_field "dimensions" [] false (G "OptionalParameter" (T "Id"))
     ; mk_field "unit_type" [] false (G "OptionalParameter" (T "IfcUnitEnum")) ])
  ; (* units/conversion_based_unit.rs:24 *)
    ("ConversionBasedUnit",
     [ mk_field "named_unit" [] true (T "NamedUnit")
     ; mk_field "name" [] false (G "OptionalParameter" (T "ConversionUnitName"))
     ; mk_field "conversion_factor" [] false (G "OptionalParameter" (G "IdOr" (T "MeasureWithUnit"))) ])
  ; (* units/si_unit.rs:19 *)
    ("SiUnit",
     [ mk_field "named_unit" [] true (T "NamedUnit")
     ; mk_field "prefix" [] false (G "OptionalParameter" (T "IfcPrefix"))
     ; mk_field "name" [] false (T "IfcUnitName") ])
  ; (* units/dimensional_exponents.rs:32 *)
    ("DimensionalExponents",
     [ mk_field "length" [] false (T "ExponentType")
     ; mk_field "mass" [] false (T "ExponentType")
     ; mk_field "time" [] false (T "ExponentType")
     ; mk_field "electric_current" [] false (T "ExponentType")
     ; mk_field "thermodynamic_temperature" [] false (T "ExponentType")
     ; mk_field "amount_of_substance" [] false (T "ExponentType")
     ; mk_field "luminouse_intensity" [] false (T "ExponentType") ])
  ; (* units/measure_with_unit.rs:19 *)
    ("MeasureWithUnit",
     [ mk_field "value" [] false (G "IdOr" (T "PlaneAngleMeasure"))
     ; mk_field "unit" [] false (G "TypedId" (T "SiUnit")) ])
  ; (* units/measure/plane_angle.rs:14 *)
    ("PlaneAngleMeasure",
     [ mk_field "value" [] false (T "RealPrimitive") ])
  ; (* units/derived_unit.rs:16 *)
    ("DerivedUnit",
     [ mk_field "elements" [] false (G "IfcList" (G "TypedId" (T "DerivedUnitElement")))
     ; mk_field "unit_type" [] false (T "DerivedUnitEnum")
     ; mk_field "user_defined_type" [] false (G "OptionalParameter" (T "StringPrimitive")) ])
  ; (* units/derived_unit_element.rs:14 *)
    ("DerivedUnitElement",
     [ mk_field "unit" [] false (G "TypedId" (T "SiUnit"))
     ; mk_field "exponent" [] false (T "IntegerPrimitive") ])
  ; (* units/monetary_unit.rs:12 *)
    ("MonetaryUnit",
     [ mk_field "currency" [] false (T "StringPrimitive") ])
  ; (* materials/material_layer_set_usage.rs:23 *)
    ("MaterialLayerSetUsage",
     [ mk_field "spatial_element_structure" [] false (G "TypedId" (T "MaterialLayerSet"))
     ; mk_field "layer_set_direction" [] false (T "LayerSetDirectionEnum")
     ; mk_field "direction_sense" [] false (T "DirectionSenseEnum")
     ; mk_field "offset_from_reference_line" [] false (T "RealPrimitive")
     ; mk_field "reference_extent" [] false (G "OptionalParameter" (T "RealPrimitive")) ])
  ; (* materials/material_layer_set.rs:20 *)
    ("MaterialLayerSet",
     [ mk_field "material_layers" [] false (G "IfcList" (G "TypedId" (T "MaterialLayer")))
     ; mk_field "layer_set_name" [] false (G "OptionalParameter" (T "StringPrimitive"))
     ; mk_field "description" [] false (G "OptionalParameter" (T "StringPrimitive")) ])
  ; (* materials/material_layer.rs:22 *)
    ("MaterialLayer",
     [ mk_field "material" [] false (G "OptionalParameter" (G "TypedId" (T "Material")))
     ; mk_field "layer_thickness" [] false (T "RealPrimitive")
     ; mk_field "is_ventilated" [] false (T "BoolPrimitive")
     ; mk_field "name" [] false (G "OptionalParameter" (T "StringPrimitive"))
     ; mk_field "description" [] false (G "OptionalParameter" (T "StringPrimitive"))
     ; mk_field "category" [] false (G "OptionalParameter" (T "StringPrimitive"))
     ; mk_field "priority" [] false (G "OptionalParameter" (T "IntegerPrimitive")) ])
  ; (* materials/material.rs:18 *)
    ("Material",
     [ mk_field "material" [] false (G "OptionalParameter" (T "StringPrimitive"))
     ; mk_field "description" [] false (G "OptionalParameter" (T "StringPrimitive"))
     ; mk_field "category" [] false (G "OptionalParameter" (T "StringPrimitive")) ])
  ; (* materials/material_constituent.rs:25 *)
    ("MaterialConstituent",
     [ mk_field "name" [] false (G "OptionalParameter" (T "StringPrimitive"))
     ; mk_field "description" [] false (G "OptionalParameter" (T "StringPrimitive"))
     ; mk_field "material" [] false (G "TypedId" (T "Material"))
     ; mk_field "fraction" [] false (G "OptionalParameter" (T "RealPrimitive"))
     ; mk_field "category" [] false (G "OptionalParameter" (T "StringPrimitive")) ])
  ; (* materials/material_constituent_set.rs:22 *)
    ("MaterialConstituentSet",
     [ mk_field "name" [] false (G "OptionalParameter" (T "StringPrimitive"))
     ; mk_field "description" [] false (G "OptionalParameter" (T "StringPrimitive"))
     ; mk_field "material_constituents" [] false (G "IfcList" (G "TypedId" (T "MaterialConstituent"))) ])
  ; (* properties/extended_base.rs:17 *)
    ("ExtendedPropertyBase",
     [ mk_field "name" [] false (G "OptionalParameter" (T "StringPrimitive"))
     ; mk_field "description" [] false (G "OptionalParameter" (T "StringPrimitive"))
     ; mk_field "properties" [] false (G "IfcList" (T "Id")) ])
  ; (* properties/material.rs:18 *)
    ("MaterialProperties",
     [ mk_field "base" [] false (T "ExtendedPropertyBase")
     ; mk_field "material" [] false (G "TypedId" (T "Material")) ])
  ; (* properties/set.rs:33 *)
    ("PropertySet",
     [ mk_field "root" [] false (T "Root")
     ; mk_field "properties" [] false (G "IfcList" (G "TypedId" (T "PropertySingleValue"))) ])
  ; (* properties/base.rs:13 *)
    ("PropertyBase",
     [ mk_field "name" [] false (G "OptionalParameter" (T "StringPrimitive"))
     ; mk_field "description" [] false (G "OptionalParameter" (T "StringPrimitive")) ])
  ; (* properties/single_value.rs:27 *)
    ("PropertySingleValue",
     [ mk_field "base" [] false (T "PropertyBase")
     ; mk_field "value" [] false (T "IfcValue")
     ; mk_field "unit" [] false (G "OptionalParameter" (T "Id")) ])
  ]%string.

Definition declared (s : string) : option (list field) :=
  option_map snd (find (fun q => String.eqb s (fst q)) declarations).

(** ** Attributes *)

(** An attribute of a line.  [a_checked]: every struct on the way to the field is embedded
    with [#[inherited]]. *)
Record attr := mk_attr
  { a_name : string; a_checked : bool; a_targets : list string; a_type : rust }.

(** The fields in their order, those of an embedded struct in its place. *)
Inductive flattened : bool -> list field -> list attr -> Prop :=
| flat_nil b : flattened b [] []
| flat_own b f fs l :
    (forall s, f_type f = T s -> declared s = None) -> flattened b fs l ->
    flattened b (f :: fs) (mk_attr (f_name f) b (f_targets f) (f_type f) :: l)
| flat_embedded b f s ds fs l l' :
    f_type f = T s -> declared s = Some ds -> flattened (b && f_inherited f) ds l ->
    flattened b fs l' -> flattened b (f :: fs) (l ++ l').

(** The attributes of the struct called [s]. *)
Definition attributes_of (s : string) (a : list attr) : Prop :=
  exists fs, declared s = Some fs /\ flattened true fs a.

(** ** Lines *)

(** The enumerations by the names of their types. *)
Definition enums : list (string * list (string * string)) :=
  [ ("GeometricProjection", variants_GeometricProjection); ("ProfileType", variants_ProfileType)
  ; ("RepresentationIdentifier", variants_RepresentationIdentifier); ("RepresentationType", variants_RepresentationType)
  ; ("DirectionSenseEnum", variants_DirectionSenseEnum); ("LayerSetDirectionEnum", variants_LayerSetDirectionEnum)
  ; ("AccessState", variants_AccessState); ("Role", variants_Role)
  ; ("ChangeAction", variants_ChangeAction); ("DoorOperationTypeEnum", variants_DoorOperationTypeEnum)
  ; ("DoorTypeEnum", variants_DoorTypeEnum); ("OpeningElementTypeEnum", variants_OpeningElementTypeEnum)
  ; ("RoofTypeEnum", variants_RoofTypeEnum); ("ShadingDeviceTypeEnum", variants_ShadingDeviceTypeEnum)
  ; ("CompositionTypeEnum", variants_CompositionTypeEnum); ("SlabTypeEnum", variants_SlabTypeEnum)
  ; ("SpaceTypeEnum", variants_SpaceTypeEnum); ("WallTypeEnum", variants_WallTypeEnum)
  ; ("WindowPartitioningTypeEnum", variants_WindowPartitioningTypeEnum); ("WindowTypeEnum", variants_WindowTypeEnum)
  ; ("ConversionUnitName", variants_ConversionUnitName); ("DerivedUnitEnum", variants_DerivedUnitEnum)
  ; ("IfcUnitName", variants_IfcUnitName); ("IfcPrefix", variants_IfcPrefix)
  ; ("IfcUnitEnum", variants_IfcUnitEnum) ]%string.
Definition enum_named (s : string) : option (list (string * string)) :=
  option_map snd (find (fun q => String.eqb s (fst q)) enums).

(** What stands at the end of an object. *)
Definition closing (name : string) : text :=
  if String.eqb name "PlaneAngleMeasure" then lit ")" else lit ");".

(** [written t v w]: [v] is a value of the Rust type [t] that has a readable text, and [w] is
    this text.  What becomes of single texts, numbers and identifiers is the matter of C01 to
    C06 and C18. *)
Inductive written : rust -> val -> text -> Prop :=
| wr_string s : text_ok s = true -> written (T "StringPrimitive") (VStr s) (d_string s)
| wr_real d : f64_okb d = true -> written (T "RealPrimitive") (VReal d) (d_real d)
| wr_integer z : (- 2 ^ 63 <= z < 2 ^ 63)%Z -> written (T "IntegerPrimitive") (VInt z) (show_Z z)
| wr_exponent z : (- 2 ^ 31 <= z < 2 ^ 31)%Z -> written (T "ExponentType") (VInt z) (show_Z z)
| wr_bool b : written (T "BoolPrimitive") (VBool b) (d_bool b)
| wr_guid g : guid_ok g = true -> written (T "IfcGloballyUniqueId") (VGuid g) (d_guid g)
| wr_time z : in_calendar z = true -> written (T "IfcTimestamp") (VInt z) (show_Z z)
| wr_dim i : (i < 3)%nat -> written (T "DimensionCount") (VEnum i) [49 + N.of_nat i]
| wr_vec2 x y : f64_okb x = true -> f64_okb y = true ->
    written (T "IfcDVec2") (VVec [x; y]) (lit "(" ++ d_real x ++ lit "," ++ d_real y ++ lit ")")
| wr_vec3 x y z : f64_okb x = true -> f64_okb y = true -> f64_okb z = true ->
    written (T "IfcDVec3") (VVec [x; y; z])
      (lit "(" ++ d_real x ++ lit "," ++ d_real y ++ lit "," ++ d_real z ++ lit ")")
| wr_value i v : measure_ok i v = true -> written (T "IfcValue") (VMeasure i v) (d_value (VMeasure i v))
| wr_enum e vs i name w : enum_named e = Some vs -> nth_error vs i = Some (name, w) ->
    written (T e) (VEnum i) (lit w)
| wr_id n : n < 2 ^ 64 -> written (T "Id") (VId n) (lit "#" ++ show_N n)
| wr_typed s n : n < 2 ^ 64 -> written (G "TypedId" (T s)) (VId n) (lit "#" ++ show_N n)
| wr_or_id s n : n < 2 ^ 64 -> written (G "IdOr" (T s)) (VId n) (lit "#" ++ show_N n)
| wr_or_object s a l ws : attributes_of s a -> writtens (map a_type a) l ws ->
    written (G "IdOr" (T s)) (VEnt l) (keyword s ++ lit "(" ++ join (lit ",") ws ++ closing s)
| wr_omitted t : written (G "OptionalParameter" t) VOmit (lit "$")
| wr_inherited t : written (G "OptionalParameter" t) VInh (lit "*")
| wr_given t v w : v <> VOmit -> v <> VInh -> written t v w -> written (G "OptionalParameter" t) v w
| wr_list t l ws : writtens (map (fun _ => t) l) l ws ->
    written (G "IfcList" t) (VList l) (lit "(" ++ join (lit ",") ws ++ lit ")")
with writtens : list rust -> list val -> list text -> Prop :=
| wrs_nil : writtens [] [] []
| wrs_cons t ts v l w ws : written t v w -> writtens ts l ws -> writtens (t :: ts) (v :: l) (w :: ws).

(** ** References *)

(** The structs an attribute may refer to. *)
Inductive aims : list string -> rust -> list string -> Prop :=
| aims_id ts : ts <> [] -> aims ts (T "Id") ts
| aims_typed ts s : aims ts (G "TypedId" (T s)) [s]
| aims_or ts s : aims ts (G "IdOr" (T s)) [s]
| aims_optional ts t l : aims ts t l -> aims ts (G "OptionalParameter" t) l
| aims_list ts t l : aims ts t l -> aims ts (G "IfcList" t) l.

(** The value is, or lists, a reference to [n]. *)
Inductive held (n : N) : val -> Prop :=
| held_id : held n (VId n)
| held_list v l : In v l -> held n v -> held n (VList l).

(** The kinds with these names. *)
Definition are_called (ks : list kind) (names : list string) : Prop := Forall2 (fun k s => In (k, s) structs) ks names.

(** An object of the struct called [s] with the values [l] refers to [n] in an attribute that
    is checked, and [n] has to be one of the structs called [names]. *)
Definition declared_ref (s : string) (l : list val) (names : list string) (n : N) : Prop :=
  exists a i x v, attributes_of s a /\ nth_error a i = Some x /\ nth_error l i = Some v /\ held n v /\
    a_checked x = true /\ aims (a_targets x) (a_type x) names.
