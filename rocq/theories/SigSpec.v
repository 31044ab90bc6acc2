(** Specification of what the public constructors and setters take: their signatures as they
    are written in /repo, and which arguments fit a signature. *)

From Coq Require Import String Ascii List NArith ZArith Bool.
From Verif Require Import Base Prims Kind Types WellTyped Entity EntitySpec DataMap Header File FileSpec NameSpec DeclSpec Api ApiSpec.
Import ListNotations.
Open Scope N_scope.

(** ** Signatures *)

(** Types are those of [DeclSpec]; [impl X<Y>] is [G "X" Y], a type parameter bounded by a trait and
    [impl Trait] are [G "impl" (T "Trait")]; references and lifetimes are left out. *)

(** The constructors: the struct and the types of the parameters but [&mut IFC], those of a tuple one by one;
    files are in /repo/ifc_rs/src. *)
Definition constructors : list (ctor * (string * list rust)) :=
  [ (* objects/door/mod.rs:130 *)
    (Door_new, ("Door", [G "Into" (T "StringPrimitive")]))
  ; (* objects/doortype/mod.rs:64 *)
    (DoorType_new, ("DoorType", [G "Into" (T "StringPrimitive"); T "DoorTypeEnum"; T "DoorOperationTypeEnum"]))
  ; (* objects/window/mod.rs:106 *)
    (Window_new, ("Window", [G "Into" (T "StringPrimitive")]))
  ; (* objects/windowtype/mod.rs:69 *)
    (WindowType_new, ("WindowType", [
       G "Into" (T "StringPrimitive"); T "WindowTypeEnum"; T "WindowPartitioningTypeEnum"]))
  ; (* objects/wall/mod.rs:34 *)
    (Wall_new, ("Wall", [G "Into" (T "StringPrimitive")]))
  ; (* objects/walltype/mod.rs:35 *)
    (WallType_new, ("WallType", [G "Into" (T "StringPrimitive"); T "WallTypeEnum"]))
  ; (* objects/slab/mod.rs:54 *)
    (Slab_new, ("Slab", [G "Into" (T "StringPrimitive")]))
  ; (* objects/slabtype/mod.rs:51 *)
    (SlabType_new, ("SlabType", [G "Into" (T "StringPrimitive"); T "SlabTypeEnum"]))
  ; (* objects/roof/mod.rs:54 *)
    (Roof_new, ("Roof", [G "Into" (T "StringPrimitive")]))
  ; (* objects/rooftype/mod.rs:31 *)
    (RoofType_new, ("RoofType", [G "Into" (T "StringPrimitive"); T "RoofTypeEnum"]))
  ; (* objects/opening_element/mod.rs:72 *)
    (OpeningElement_new, ("OpeningElement", [G "Into" (T "StringPrimitive")]))
  ; (* objects/shading_device.rs:34 *)
    (ShadingDevice_new, ("ShadingDevice", [G "Into" (T "StringPrimitive")]))
  ; (* objects/shading_device_type.rs:36 *)
    (ShadingDeviceType_new, ("ShadingDeviceType", [G "Into" (T "StringPrimitive"); T "ShadingDeviceTypeEnum"]))
  ; (* objects/project.rs:29 *)
    (Project_new, ("Project", [G "Into" (T "StringPrimitive")]))
  ; (* objects/building.rs:42 *)
    (Building_new, ("Building", [G "Into" (T "StringPrimitive")]))
  ; (* objects/site.rs:82 *)
    (Site_new, ("Site", [G "Into" (T "StringPrimitive")]))
  ; (* objects/storey.rs:72 *)
    (Storey_new, ("Storey", [G "Into" (T "StringPrimitive")]))
  ; (* objects/space/mod.rs:59 *)
    (Space_new, ("Space", [G "Into" (T "StringPrimitive")]))
  ; (* objects/spacetype/mod.rs:56 *)
    (SpaceType_new, ("SpaceType", [G "Into" (T "StringPrimitive"); T "SpaceTypeEnum"]))
  ; (* objects/owner_history/mod.rs:46 *)
    (OwnerHistory_new, ("OwnerHistory", [T "ChangeAction"; T "IfcTimestamp"]))
  ; (* objects/person/mod.rs:41 *)
    (Person_empty, ("Person", []))
  ; (* objects/person_and_org/mod.rs:26 *)
    (PersonAndOrganization_new, ("PersonAndOrganization", [
       G "TypedId" (T "Person"); G "TypedId" (T "Organization")]))
  ; (* objects/organization/mod.rs:31 *)
    (Organization_new, ("Organization", [
       G "Into" (G "Option" (T "str")); G "Into" (T "StringPrimitive"); G "Into" (G "Option" (T "str"))]))
  ; (* objects/application/mod.rs:27 *)
    (Application_new, ("Application", [
       G "TypedId" (T "Organization"); G "Into" (T "StringPrimitive"); G "Into" (T "StringPrimitive");
       G "Into" (T "StringPrimitive")]))
  ; (* materials/material.rs:32 *)
    (Material_new, ("Material", [G "Into" (T "StringPrimitive")]))
  ; (* materials/material_constituent.rs:46 *)
    (MaterialConstituent_new, ("MaterialConstituent", [G "TypedId" (T "Material")]))
  ; (* materials/material_constituent_set.rs:40 *)
    (MaterialConstituentSet_new, ("MaterialConstituentSet", []))
  ; (* materials/material_layer.rs:73 *)
    (MaterialLayer_new, ("MaterialLayer", [T "f64"; T "bool"]))
  ; (* materials/material_layer_set.rs:39 *)
    (MaterialLayerSet_new, ("MaterialLayerSet", []))
  ; (* materials/material_layer_set_usage.rs:66 *)
    (MaterialLayerSetUsage_new, ("MaterialLayerSetUsage", [
       G "Into" (G "IdOr" (T "MaterialLayerSet")); T "LayerSetDirectionEnum"; T "DirectionSenseEnum"; T "f64"]))
  ; (* properties/material.rs:26 *)
    (MaterialProperties_new, ("MaterialProperties", [
       G "Into" (T "StringPrimitive"); G "TypedId" (T "Material"); G "IntoIterator" (T "Id")]))
  ; (* properties/set.rs:44 *)
    (PropertySet_new, ("PropertySet", [
       G "Into" (T "StringPrimitive"); G "IntoIterator" (G "TypedId" (T "PropertySingleValue"))]))
  ; (* properties/single_value.rs:38 *)
    (PropertySingleValue_new, ("PropertySingleValue", [
       G "Into" (T "StringPrimitive"); T "IfcValue"; G "Option" (T "Id")]))
  ; (* relations/mapped_item.rs:60 *)
    (MappedItem_new, ("MappedItem", [
       G "Into" (G "IdOr" (T "RepresentationMap")); G "Into" (G "IdOr" (G "impl" (T "Transform3D")))]))
  ; (* relations/rel_aggregates.rs:39 *)
    (RelAggregates_new, ("RelAggregates", [G "Into" (T "StringPrimitive"); T "Id"; G "IntoIterator" (T "Id")]))
  ; (* relations/rel_associates_material.rs:34 *)
    (RelAssociatesMaterial_new, ("RelAssociatesMaterial", [
       G "Into" (T "StringPrimitive"); G "Into" (G "IdOr" (G "impl" (T "RelatableMaterial")))]))
  ; (* relations/rel_contained_in_spatial_structure.rs:37 *)
    (RelContained_new, ("RelContainedInSpatialStructure", [
       G "Into" (T "StringPrimitive"); G "Into" (G "IdOr" (G "impl" (T "Structure")))]))
  ; (* relations/rel_declares.rs:33 *)
    (RelDeclares_new, ("RelDeclares", [G "Into" (T "StringPrimitive"); G "Into" (G "IdOr" (T "Project"))]))
  ; (* relations/rel_defines_by_properties.rs:39 *)
    (RelDefinesByProperties_new, ("RelDefinesByProperties", [
       G "Into" (T "StringPrimitive"); G "Into" (G "IdOr" (G "impl" (T "IfcType")))]))
  ; (* relations/rel_defines_by_type.rs:34 *)
    (RelDefinesByType_new, ("RelDefinesByType", [
       G "Into" (T "StringPrimitive"); G "Into" (G "IdOr" (G "impl" (T "IfcType")))]))
  ; (* relations/rel_fills_element.rs:30 *)
    (RelFills_new, ("RelFillsElement", [
       G "Into" (T "StringPrimitive"); G "Into" (G "IdOr" (T "OpeningElement"));
       G "Into" (G "IdOr" (G "impl" (T "Structure")))]))
  ; (* relations/rel_voids_element.rs:34 *)
    (RelVoids_new, ("RelVoidsElement", [
       G "Into" (T "StringPrimitive"); G "Into" (G "IdOr" (G "impl" (T "Structure")));
       G "Into" (G "IdOr" (T "OpeningElement"))]))
  ; (* relations/representation_map.rs:46 *)
    (RepresentationMap_new, ("RepresentationMap", [
       G "Into" (G "IdOr" (T "Axis3D")); G "Into" (G "IdOr" (T "ShapeRepresentation"))]))
  ; (* geometry/extruded_area_solid.rs:53 *)
    (ExtrudedAreaSolid_new, ("ExtrudedAreaSolid", [
       G "Into" (G "IdOr" (G "impl" (T "ProfileDef"))); G "Into" (G "IdOr" (T "Direction3D")); T "f64"]))
  ; (* geometry/non_uniform_transformations.rs:55 *)
    (NonUniform_new, ("CartesianTransformationOperator3DnonUniform", [
       G "Into" (G "IdOr" (T "Point3D")); G "Into" (G "IdOr" (T "Direction3D"));
       G "Into" (G "IdOr" (T "Direction3D")); G "Into" (G "IdOr" (T "Direction3D")); T "f64"; T "f64"; T "f64"]))
  ; (* geometry/uniform_transformations.rs:36 *)
    (Uniform_new, ("CartesianTransformationOperator3D", [
       G "Into" (G "IdOr" (T "Point3D")); G "Into" (G "IdOr" (T "Direction3D"));
       G "Into" (G "IdOr" (T "Direction3D")); G "Into" (G "IdOr" (T "Direction3D")); T "f64"]))
  ; (* geometry/arbitrary_closed_profile_def/mod.rs:46 *)
    (ArbitraryClosedProfileDef_new, ("ArbitraryClosedProfileDef", [
       T "ProfileType"; G "Into" (G "IdOr" (G "impl" (T "Curve")))]))
  ; (* geometry/axis/mod.rs:47 *)
    (Axis2D_new, ("Axis2D", [T "Point2D"]))
  ; (* geometry/axis/mod.rs:100 *)
    (Axis3D_new, ("Axis3D", [T "Point3D"]))
  ; (* geometry/direction/mod.rs:23 *)
    (Direction2D_from, ("Direction2D", [T "DVec2"]))
  ; (* geometry/direction/mod.rs:42 *)
    (Direction3D_from, ("Direction3D", [T "DVec3"]))
  ; (* geometry/indexed_poly_curve/mod.rs:41 *)
    (IndexedPolyCurve_new, ("IndexedPolyCurve", [G "impl" (T "PointList")]))
  ; (* geometry/local_placement/mod.rs:37 *)
    (LocalPlacement_new, ("LocalPlacement", [G "Into" (G "IdOr" (G "impl" (T "AxisPlacement")))]))
  ; (* geometry/point/mod.rs:41 *)
    (Point2D_from, ("Point2D", [T "DVec2"]))
  ; (* geometry/point/mod.rs:76 *)
    (Point3D_from, ("Point3D", [T "DVec3"]))
  ; (* geometry/point_list/mod.rs:33 *)
    (PointList2D_new, ("PointList2D", [G "Iterator" (G "Into" (T "IfcDVec2"))]))
  ; (* geometry/point_list/mod.rs:61 *)
    (PointList3D_new, ("PointList3D", [G "Iterator" (G "Into" (T "IfcDVec3"))]))
  ; (* geometry/polyline/mod.rs:21 *)
    (PolyLine_from, ("PolyLine", [G "Iterator" (G "impl" (T "CartesianPoint"))]))
  ; (* geometry/product_definition_shape/mod.rs:51 *)
    (ProductDefinitionShape_new, ("ProductDefinitionShape", []))
  ; (* geometry/rectangle_profile_def/mod.rs:48 *)
    (RectangleProfileDef_new, ("RectangleProfileDef", [T "ProfileType"; T "f64"; T "f64"]))
  ; (* geometry/representation_context/mod.rs:51 *)
    (RepresentationContext_new, ("GeometricRepresentationContext", [
       T "DimensionCount"; G "Into" (G "IdOr" (G "impl" (T "AxisPlacement")))]))
  ; (* geometry/representation_subcontext/mod.rs:101 *)
    (SubContext_derive, ("GeometricRepresentationSubContext", [
       G "Into" (G "IdOr" (T "GeometricRepresentationContext")); T "GeometricProjection"]))
  ; (* geometry/shape_representation/mod.rs:69 *)
    (ShapeRepresentation_new, ("ShapeRepresentation", [
       G "Into" (G "IdOr" (T "GeometricRepresentationSubContext")); T "RepresentationIdentifier";
       T "RepresentationType"]))
  ; (* units/assignment.rs:26 *)
    (UnitAssigment_new, ("UnitAssigment", [G "IntoIterator" (G "IdOr" (T "SiUnit"))]))
  ; (* units/si_unit.rs:33 *)
    (SiUnit_new, ("SiUnit", [
       G "Into" (G "Option" (T "IfcUnitEnum")); G "Into" (G "Option" (T "IfcPrefix")); T "IfcUnitName"])) ]%string.

(** The setters: the struct or the trait they belong to, and the type of the parameter. *)
Definition setters : list (setter * (rust * rust)) :=
  [ (* objects/shared/root.rs:55 *)
    (root_owner_history, (G "impl" (T "RootBuilder"), G "Into" (G "IdOr" (T "OwnerHistory"))))
  ; (* objects/shared/root.rs:64 *)
    (root_name, (G "impl" (T "RootBuilder"), G "Into" (T "StringPrimitive")))
  ; (* objects/shared/root.rs:69 *)
    (root_description, (G "impl" (T "RootBuilder"), G "Into" (T "StringPrimitive")))
  ; (* objects/shared/object.rs:43 *)
    (object_object_type, (G "impl" (T "ObjectBuilder"), G "Into" (T "StringPrimitive")))
  ; (* objects/shared/product.rs:123 *)
    (product_object_placement, (G "impl" (T "ProductBuilder"), G "Into" (G "IdOr" (T "LocalPlacement"))))
  ; (* objects/shared/product.rs:132 *)
    (product_representation, (G "impl" (T "ProductBuilder"), G "Into" (G "IdOr" (T "ProductDefinitionShape"))))
  ; (* objects/shared/element.rs:43 *)
    (element_tag, (G "impl" (T "ElementBuilder"), G "Into" (T "StringPrimitive")))
  ; (* objects/shared/element_type.rs:47 *)
    (element_type_element_type, (G "impl" (T "ElementTypeBuilder"), G "Into" (T "StringPrimitive")))
  ; (* objects/shared/type_product.rs:63 *)
    (type_product_tag, (G "impl" (T "TypeProductBuilder"), G "Into" (T "StringPrimitive")))
  ; (* objects/shared/spatial_element.rs:44 *)
    (spatial_long_name, (G "impl" (T "SpatialElementBuilder"), G "Into" (T "StringPrimitive")))
  ; (* objects/shared/spatial_structure_element.rs:44 *)
    (spatial_composition_type, (G "impl" (T "SpatialStructureElementBuilder"), T "CompositionTypeEnum"))
  ; (* objects/shared/context.rs:69 *)
    (project_object_type, (G "impl" (T "ContextBuilder"), G "Into" (T "StringPrimitive")))
  ; (* objects/shared/context.rs:74 *)
    (project_long_name, (G "impl" (T "ContextBuilder"), G "Into" (T "StringPrimitive")))
  ; (* objects/shared/context.rs:79 *)
    (project_phase, (G "impl" (T "ContextBuilder"), G "Into" (T "StringPrimitive")))
  ; (* objects/shared/context.rs:84 *)
    (project_add_context, (G "impl" (T "ContextBuilder"), G "Into" (G "IdOr" (T "GeometricRepresentationContext"))))
  ; (* objects/shared/context.rs:96 *)
    (project_unit_assignment, (G "impl" (T "ContextBuilder"), G "Into" (G "IdOr" (T "UnitAssigment"))))
  ; (* objects/door/mod.rs:141 *)
    (door_overall_height, (T "Door", G "Into" (T "RealPrimitive")))
  ; (* objects/door/mod.rs:146 *)
    (door_overall_width, (T "Door", G "Into" (T "RealPrimitive")))
  ; (* objects/door/mod.rs:151 *)
    (door_predefined_type, (T "Door", G "Into" (T "DoorTypeEnum")))
  ; (* objects/door/mod.rs:156 *)
    (door_operation_type, (T "Door", G "Into" (T "DoorOperationTypeEnum")))
  ; (* objects/window/mod.rs:117 *)
    (window_overall_height, (T "Window", G "Into" (T "RealPrimitive")))
  ; (* objects/window/mod.rs:122 *)
    (window_overall_width, (T "Window", G "Into" (T "RealPrimitive")))
  ; (* objects/window/mod.rs:127 *)
    (window_predefined_type, (T "Window", G "Into" (T "WindowTypeEnum")))
  ; (* objects/window/mod.rs:132 *)
    (window_partitioning_type, (T "Window", G "Into" (T "WindowPartitioningTypeEnum")))
  ; (* objects/wall/mod.rs:41 *)
    (wall_predefined_type, (T "Wall", G "Into" (G "IdOr" (T "WallType"))))
  ; (* objects/slab/mod.rs:61 *)
    (slab_predefined_type, (T "Slab", T "SlabTypeEnum"))
  ; (* objects/roof/mod.rs:61 *)
    (roof_predefined_type, (T "Roof", G "Into" (T "RoofTypeEnum")))
  ; (* objects/opening_element/mod.rs:79 *)
    (opening_predefined_type, (T "OpeningElement", G "Into" (T "OpeningElementTypeEnum")))
  ; (* objects/shading_device.rs:42 *)
    (shading_predefined_type, (T "ShadingDevice", T "ShadingDeviceTypeEnum"))
  ; (* objects/building.rs:53 *)
    (building_elevation_of_ref_height, (T "Building", T "f64"))
  ; (* objects/building.rs:58 *)
    (building_elevation_of_terrain, (T "Building", T "f64"))
  ; (* objects/building.rs:63 *)
    (building_building_address, (T "Building", G "Into" (G "IdOr" (T "PostalAddress"))))
  ; (* objects/site.rs:95 *)
    (site_ref_latitude, (T "Site", G "Vec" (T "i64")))
  ; (* objects/site.rs:100 *)
    (site_ref_longitude, (T "Site", G "Vec" (T "i64")))
  ; (* objects/site.rs:105 *)
    (site_ref_elevation, (T "Site", T "f64"))
  ; (* objects/site.rs:110 *)
    (site_land_title_number, (T "Site", G "Into" (T "StringPrimitive")))
  ; (* objects/site.rs:115 *)
    (site_site_address, (T "Site", G "Into" (G "IdOr" (T "PostalAddress"))))
  ; (* objects/space/mod.rs:69 *)
    (space_predefined_type, (T "Space", G "Into" (T "SpaceTypeEnum")))
  ; (* objects/space/mod.rs:75 *)
    (space_elevation_with_flooring, (T "Space", T "f64"))
  ; (* objects/owner_history/mod.rs:59 *)
    (history_owning_user, (T "OwnerHistory", G "Into" (G "IdOr" (T "PersonAndOrganization"))))
  ; (* objects/owner_history/mod.rs:70 *)
    (history_owning_application, (T "OwnerHistory", G "Into" (G "IdOr" (T "Application"))))
  ; (* objects/owner_history/mod.rs:81 *)
    (history_state, (T "OwnerHistory", T "AccessState"))
  ; (* objects/owner_history/mod.rs:86 *)
    (history_last_modified_date, (T "OwnerHistory", T "IfcTimestamp"))
  ; (* objects/owner_history/mod.rs:91 *)
    (history_last_modifying_user, (T "OwnerHistory", G "Into" (G "IdOr" (T "PersonAndOrganization"))))
  ; (* objects/owner_history/mod.rs:100 *)
    (history_last_modifying_application, (T "OwnerHistory", G "Into" (G "IdOr" (T "Application"))))
  ; (* objects/person/mod.rs:54 *)
    (person_id, (T "Person", G "Into" (T "StringPrimitive")))
  ; (* objects/person/mod.rs:59 *)
    (person_family_name, (T "Person", G "Into" (T "StringPrimitive")))
  ; (* objects/person/mod.rs:64 *)
    (person_given_name, (T "Person", G "Into" (T "StringPrimitive")))
  ; (* objects/person/mod.rs:69 *)
    (person_add_middle_name, (T "Person", G "Into" (T "StringPrimitive")))
  ; (* objects/person/mod.rs:83 *)
    (person_add_suffix_title, (T "Person", G "Into" (T "StringPrimitive")))
  ; (* objects/person/mod.rs:97 *)
    (person_add_prefix_title, (T "Person", G "Into" (T "StringPrimitive")))
  ; (* objects/person/mod.rs:111 *)
    (person_add_role, (T "Person", G "Into" (G "IdOr" (T "ActorRole"))))
  ; (* objects/person/mod.rs:125 *)
    (person_add_address, (T "Person", G "Into" (G "IdOr" (G "impl" (T "Address")))))
  ; (* objects/person_and_org/mod.rs:34 *)
    (person_and_org_add_role, (T "PersonAndOrganization", G "Into" (G "IdOr" (T "ActorRole"))))
  ; (* objects/organization/mod.rs:45 *)
    (organization_add_role, (T "Organization", G "Into" (G "IdOr" (T "ActorRole"))))
  ; (* objects/organization/mod.rs:59 *)
    (organization_add_address, (T "Organization", G "Into" (G "IdOr" (G "impl" (T "Address")))))
  ; (* materials/material.rs:40 *)
    (material_description, (T "Material", G "Into" (T "StringPrimitive")))
  ; (* materials/material.rs:45 *)
    (material_category, (T "Material", G "Into" (T "StringPrimitive")))
  ; (* materials/material_constituent.rs:56 *)
    (constituent_material, (T "MaterialConstituent", G "Into" (G "IdOr" (T "Material"))))
  ; (* materials/material_constituent.rs:61 *)
    (constituent_name, (T "MaterialConstituent", G "Into" (T "StringPrimitive")))
  ; (* materials/material_constituent.rs:66 *)
    (constituent_description, (T "MaterialConstituent", G "Into" (T "StringPrimitive")))
  ; (* materials/material_constituent.rs:71 *)
    (constituent_category, (T "MaterialConstituent", G "Into" (T "StringPrimitive")))
  ; (* materials/material_constituent.rs:76 *)
    (constituent_fraction, (T "MaterialConstituent", T "f64"))
  ; (* materials/material_constituent_set.rs:48 *)
    (constituent_set_name, (T "MaterialConstituentSet", G "Into" (T "StringPrimitive")))
  ; (* materials/material_constituent_set.rs:53 *)
    (constituent_set_description, (T "MaterialConstituentSet", G "Into" (T "StringPrimitive")))
  ; (* materials/material_constituent_set.rs:58 *)
    (constituent_set_add_constituent, (T "MaterialConstituentSet", G "Into" (G "IdOr" (T "MaterialConstituent"))))
  ; (* materials/material_layer.rs:85 *)
    (layer_material, (T "MaterialLayer", G "Into" (G "IdOr" (T "Material"))))
  ; (* materials/material_layer.rs:90 *)
    (layer_name, (T "MaterialLayer", G "Into" (T "StringPrimitive")))
  ; (* materials/material_layer.rs:95 *)
    (layer_description, (T "MaterialLayer", G "Into" (T "StringPrimitive")))
  ; (* materials/material_layer.rs:100 *)
    (layer_category, (T "MaterialLayer", G "Into" (T "StringPrimitive")))
  ; (* materials/material_layer.rs:105 *)
    (layer_priority, (T "MaterialLayer", T "i64"))
  ; (* materials/material_layer_set.rs:47 *)
    (layer_set_name, (T "MaterialLayerSet", G "Into" (T "StringPrimitive")))
  ; (* materials/material_layer_set.rs:52 *)
    (layer_set_description, (T "MaterialLayerSet", G "Into" (T "StringPrimitive")))
  ; (* materials/material_layer_set.rs:57 *)
    (layer_set_add_layer, (T "MaterialLayerSet", G "Into" (G "IdOr" (T "MaterialLayer"))))
  ; (* materials/material_layer_set_usage.rs:82 *)
    (usage_reference_extent, (T "MaterialLayerSetUsage", T "f64"))
  ; (* properties/base.rs:32 *)
    (single_value_name, (G "impl" (T "PropertyBuilder"), G "Into" (T "StringPrimitive")))
  ; (* properties/base.rs:37 *)
    (single_value_description, (G "impl" (T "PropertyBuilder"), G "Into" (T "StringPrimitive")))
  ; (* properties/extended_base.rs:39 *)
    (material_properties_name, (G "impl" (T "ExtendedPropertyBuilder"), G "Into" (T "StringPrimitive")))
  ; (* properties/extended_base.rs:44 *)
    (material_properties_description, (G "impl" (T "ExtendedPropertyBuilder"), G "Into" (T "StringPrimitive")))
  ; (* properties/extended_base.rs:49 *)
    (material_properties_properties, (G "impl" (T "ExtendedPropertyBuilder"), G "Into" (T "Id")))
  ; (* objects/shared/rel_associates.rs:43; relations/rel_associates_material.rs:50 *)
    (associates_relate_obj, (T "RelAssociatesMaterial", G "Into" (G "IdOr" (G "impl" (T "MaterialRelatable")))))
  ; (* relations/rel_contained_in_spatial_structure.rs:49 *)
    (contained_relate_structure, (T "RelContainedInSpatialStructure", G "Into" (G "IdOr" (G "impl" (T "Structure")))))
  ; (* relations/rel_declares.rs:45 *)
    (declares_relate_definition, (T "RelDeclares", G "Into" (G "IdOr" (G "impl" (T "IfcType")))))
  ; (* relations/rel_defines_by_properties.rs:51 *)
    (by_properties_relate_obj, (T "RelDefinesByProperties", G "Into" (G "IdOr" (G "impl" (T "IfcType")))))
  ; (* relations/rel_defines_by_type.rs:46 *)
    (by_type_relate_obj, (T "RelDefinesByType", G "Into" (G "IdOr" (G "impl" (T "IfcType")))))
  ; (* geometry/extruded_area_solid.rs:67 *)
    (solid_position, (T "ExtrudedAreaSolid", G "Into" (G "IdOr" (T "Axis3D"))))
  ; (* geometry/arbitrary_closed_profile_def/mod.rs:58 *)
    (arbitrary_profile_name, (T "ArbitraryClosedProfileDef", G "Into" (T "StringPrimitive")))
  ; (* geometry/local_placement/mod.rs:44 *)
    (placement_relative_to, (T "LocalPlacement", G "Into" (G "IdOr" (T "LocalPlacement"))))
  ; (* geometry/product_definition_shape/mod.rs:188 *)
    (shape_name, (T "ProductDefinitionShape", G "Into" (T "StringPrimitive")))
  ; (* geometry/product_definition_shape/mod.rs:193 *)
    (shape_description, (T "ProductDefinitionShape", G "Into" (T "StringPrimitive")))
  ; (* geometry/product_definition_shape/mod.rs:198 *)
    (shape_add_representation, (T "ProductDefinitionShape", G "Into" (G "IdOr" (T "ShapeRepresentation"))))
  ; (* geometry/rectangle_profile_def/mod.rs:58 *)
    (rectangle_profile_name, (T "RectangleProfileDef", G "Into" (T "StringPrimitive")))
  ; (* geometry/rectangle_profile_def/mod.rs:63 *)
    (rectangle_position, (T "RectangleProfileDef", G "Into" (G "IdOr" (G "impl" (T "AxisPlacement")))))
  ; (* geometry/representation_context/mod.rs:68 *)
    (context_precision, (T "GeometricRepresentationContext", T "f64"))
  ; (* geometry/representation_context/mod.rs:73 *)
    (context_true_north, (T "GeometricRepresentationContext", G "Into" (G "IdOr" (G "impl" (T "AxisPlacement")))))
  ; (* geometry/representation_subcontext/mod.rs:121 *)
    (sub_context_target_scale, (T "GeometricRepresentationSubContext", T "f64"))
  ; (* geometry/representation_subcontext/mod.rs:126 *)
    (sub_context_user_defined_target_view, (T "GeometricRepresentationSubContext", G "Into" (T "StringPrimitive")))
  ; (* geometry/shape_representation/mod.rs:83 *)
    (representation_add_item, (T "ShapeRepresentation", G "impl" (T "ShapeItem"))) ]%string.

(** The structs that implement a trait ([impl ... for ...] in /repo/ifc_rs/src). *)
Definition implementations : list (string * list string) :=
  [ ("Address",
     [ "PostalAddress"; "TelecomAddress" ])
  ; ("AxisPlacement",
     [ "Axis2D"; "Axis3D" ])
  ; ("CartesianPoint",
     [ "Point2D"; "Point3D" ])
  ; ("ContextBuilder",
     [ "Project" ])
  ; ("Curve",
     [ "IndexedPolyCurve"; "PolyLine" ])
  ; ("ElementBuilder",
     [ "Door"; "OpeningElement"; "Roof"; "ShadingDevice"; "Slab"; "Wall"; "Window" ])
  ; ("ElementTypeBuilder",
     [ "DoorType"; "RoofType"; "ShadingDeviceType"; "SlabType"; "SpaceType"; "WallType"; "WindowType" ])
  ; ("ExtendedPropertyBuilder",
     [ "MaterialProperties" ])
  ; ("IfcType",
     [ "ActorRole"; "Application"; "ArbitraryClosedProfileDef"; "Axis2D"; "Axis3D"; "Building";
       "CartesianTransformationOperator3D"; "CartesianTransformationOperator3DnonUniform"; "ConversionBasedUnit";
       "DerivedUnit"; "DerivedUnitElement"; "DimensionalExponents"; "Direction2D"; "Direction3D"; "Door";
       "DoorType"; "Dummy"; "ExtrudedAreaSolid"; "FixMeType"; "Footer"; "GeometricRepresentationContext";
       "GeometricRepresentationSubContext"; "Header"; "IndexedPolyCurve"; "LocalPlacement"; "MappedItem";
       "Material"; "MaterialConstituent"; "MaterialConstituentSet"; "MaterialLayer"; "MaterialLayerSet";
       "MaterialLayerSetUsage"; "MaterialProperties"; "MeasureWithUnit"; "MonetaryUnit"; "OpeningElement";
       "Organization"; "OwnerHistory"; "Person"; "PersonAndOrganization"; "PlaneAngleMeasure"; "Point2D"; "Point3D";
       "PointList2D"; "PointList3D"; "PolyLine"; "PostalAddress"; "ProductDefinitionShape"; "Project";
       "PropertySet"; "PropertySingleValue"; "RealPrimitive"; "RectangleProfileDef"; "RelAggregates";
       "RelAssociatesMaterial"; "RelContainedInSpatialStructure"; "RelDeclares"; "RelDefinesByProperties";
       "RelDefinesByType"; "RelFillsElement"; "RelVoidsElement"; "RepresentationMap"; "Roof"; "RoofType";
       "ShadingDevice"; "ShadingDeviceType"; "ShapeRepresentation"; "SiUnit"; "Site"; "Slab"; "SlabType"; "Space";
       "SpaceType"; "Storey"; "TelecomAddress"; "UnitAssigment"; "Wall"; "WallType"; "Window"; "WindowType" ])
  ; ("MaterialRelatable",
     [ "Door"; "DoorType"; "Roof"; "RoofType"; "ShadingDevice"; "ShadingDeviceType"; "Slab"; "SlabType"; "Wall";
       "WallType"; "Window"; "WindowType" ])
  ; ("ObjectBuilder",
     [ "Building"; "Door"; "OpeningElement"; "Roof"; "ShadingDevice"; "Site"; "Slab"; "Space"; "Storey"; "Wall";
       "Window" ])
  ; ("PointList",
     [ "PointList2D"; "PointList3D" ])
  ; ("ProductBuilder",
     [ "Building"; "Door"; "OpeningElement"; "Roof"; "ShadingDevice"; "Site"; "Slab"; "Space"; "Storey"; "Wall";
       "Window" ])
  ; ("ProfileDef",
     [ "ArbitraryClosedProfileDef"; "RectangleProfileDef" ])
  ; ("PropertyBuilder",
     [ "PropertySingleValue" ])
  ; ("RelatableMaterial",
     [ "Material"; "MaterialConstituentSet"; "MaterialLayerSet"; "MaterialLayerSetUsage" ])
  ; ("RootBuilder",
     [ "Building"; "Door"; "DoorType"; "OpeningElement"; "Project"; "PropertySet"; "RelAggregates";
       "RelAssociatesMaterial"; "RelContainedInSpatialStructure"; "RelDeclares"; "RelDefinesByProperties";
       "RelDefinesByType"; "RelFillsElement"; "RelVoidsElement"; "Roof"; "RoofType"; "ShadingDevice";
       "ShadingDeviceType"; "Site"; "Slab"; "SlabType"; "Space"; "SpaceType"; "Storey"; "Wall"; "WallType";
       "Window"; "WindowType" ])
  ; ("ShapeItem",
     [ "ExtrudedAreaSolid"; "MappedItem"; "PolyLine" ])
  ; ("SpatialElementBuilder",
     [ "Building"; "Site"; "Space"; "Storey" ])
  ; ("SpatialStructureElementBuilder",
     [ "Building"; "Site"; "Space"; "Storey" ])
  ; ("Structure",
     [ "Building"; "Door"; "OpeningElement"; "Roof"; "ShadingDevice"; "Site"; "Slab"; "Space"; "Storey"; "Wall";
       "Window" ])
  ; ("Transform3D",
     [ "CartesianTransformationOperator3D"; "CartesianTransformationOperator3DnonUniform" ])
  ; ("TypeProductBuilder",
     [ "DoorType"; "RoofType"; "ShadingDeviceType"; "SlabType"; "SpaceType"; "WallType"; "WindowType" ]) ]%string.

(** ** Arguments *)

(** The type stands for the struct called [s]: it is the struct, or a trait that it implements. *)
Inductive stands : rust -> string -> Prop :=
| stands_struct s : stands (T s) s
| stands_trait tr l s : In (tr, l) implementations -> In s l -> stands (G "impl" (T tr)) s.

(** What the types of Rust are converted to (/repo/ifc_rs/src/parser/real.rs:27,75,112,
    integer.rs:26, bool.rs:20, string.rs). *)
Definition converted (s : string) : string :=
  match find (fun q => String.eqb s (fst q))
    [ ("f64", "RealPrimitive"); ("i64", "IntegerPrimitive"); ("bool", "BoolPrimitive"); ("str", "StringPrimitive")
    ; ("DVec2", "IfcDVec2"); ("DVec3", "IfcDVec3") ]%string with
  | Some q => snd q
  | None => s
  end.

(** A value, id or object for a parameter: a value of the type; the id of any object, with or
    without type; for [IdOr] also an object of the type. *)
Inductive fits (rs : list reg) (m : dmap) : rust -> item -> Prop :=
| fits_value s v w : s <> "Id"%string -> written (T (converted s)) v w -> fits rs m (T s) (IPlain v)
| fits_id n e : lookup m n = Some e -> fits rs m (T "Id") (IId n)
| fits_typed t n e : lookup m n = Some e -> fits rs m (G "TypedId" t) (IId n)
| fits_or_id t n e : lookup m n = Some e -> fits rs m (G "IdOr" t) (IId n)
| fits_or_object t r k l s : nth_error rs r = Some (k, l) -> In (k, s) structs -> stands t s -> fits rs m (G "IdOr" t) (IReg r)
| fits_object t r k l s : nth_error rs r = Some (k, l) -> In (k, s) structs -> stands t s -> fits rs m t (IReg r)
| fits_into t i : fits rs m t i -> fits rs m (G "Into" t) i.

(** The same for whole arguments: one, none or many. *)
Inductive takes (rs : list reg) (m : dmap) : rust -> arg -> Prop :=
| takes_one t i : fits rs m t i -> takes rs m t (AOne i)
| takes_none t : takes rs m (G "Option" t) ANone
| takes_some t i : fits rs m t i -> takes rs m (G "Option" t) (AOne i)
| takes_into t a : takes rs m t a -> takes rs m (G "Into" t) a
| takes_many c t l : In c ["Vec"; "Iterator"; "IntoIterator"]%string -> Forall (fits rs m t) l ->
    takes rs m (G c t) (AMany l).

(** The parameter is declared for objects of the struct called [s], or for any. *)
Inductive asks : rust -> string -> Prop :=
| asks_any s : asks (T "Id") s
| asks_for t s : stands t s -> asks t s
| asks_within c t s : In c ["TypedId"; "IdOr"; "Into"; "Option"; "Vec"; "Iterator"; "IntoIterator"]%string ->
    asks t s -> asks (G c t) s.

(** ** Programs *)

(** A statement of the public interface that the signatures permit; literals, insertion and exchange
    are those of C53. *)
Definition typed_stmt (x : stmt) (w : world) : Prop :=
  match x with
  | SNew c g args =>
      guid_ok g = true /\ exists s ts, In (c, (s, ts)) constructors /\ Forall2 (takes (w_regs w) (w_map w)) ts args
  | SSet r y a =>
      exists o t k l s, In (y, (o, t)) setters /\ nth_error (w_regs w) r = Some (k, l) /\ In (k, s) structs /\
        stands o s /\ takes (w_regs w) (w_map w) t a
  | _ => stmt_ok false x w
  end.
Fixpoint typed_prog (xs : list stmt) (w : world) : Prop :=
  match xs with
  | [] => True
  | x :: xs' => typed_stmt x w /\ forall w' o, exec x w = Done (w', o) -> typed_prog xs' w'
  end.
