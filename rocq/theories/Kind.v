(** The entity kinds of /repo: one constructor per type with an [IfcType]
    implementation that the reader can produce, and [KDummy] for
    /repo/ifc_rs/src/parser/dummy.rs.  The kind of an object stands for its Rust
    [TypeId].  Order: the order of the alternatives in
    /repo/ifc_rs/src/objects/mod.rs:59-89, geometry/mod.rs:34-55,
    relations/mod.rs:24-35, units/mod.rs:26-36, materials/mod.rs:22-29,
    properties/mod.rs:16-20. *)

From Coq Require Import NArith List Bool.
Import ListNotations.
Open Scope N_scope.

(** [TypeId] of the stored objects, see above. *)
Inductive kind :=
| KActorRole
| KPostalAddress
| KTelecomAddress
| KApplication
| KOrganization
| KOwnerHistory
| KPerson
| KPersonAndOrganization
| KWall
| KWallType
| KSlab
| KSlabType
| KRoof
| KRoofType
| KBuilding
| KStorey
| KSite
| KOpeningElement
| KWindow
| KWindowType
| KProject
| KSpace
| KSpaceType
| KDoor
| KDoorType
| KShadingDevice
| KShadingDeviceType
| KArbitraryClosedProfileDef
| KAxis2D
| KAxis3D
| KDirection2D
| KDirection3D
| KExtrudedAreaSolid
| KIndexedPolyCurve
| KPoint2D
| KPoint3D
| KPointList2D
| KPointList3D
| KPolyLine
| KProductDefinitionShape
| KRectangleProfileDef
| KGeometricRepresentationContext
| KGeometricRepresentationSubContext
| KShapeRepresentation
| KLocalPlacement
| KCartesianTransformationOperator3DnonUniform
| KCartesianTransformationOperator3D
| KRelAggregates
| KRelAssociatesMaterial
| KRelContainedInSpatialStructure
| KRelDeclares
| KRelDefinesByType
| KRelDefinesByProperties
| KRelVoidsElement
| KRelFillsElement
| KMappedItem
| KRepresentationMap
| KUnitAssigment
| KConversionBasedUnit
| KSiUnit
| KDimensionalExponents
| KMeasureWithUnit
| KPlaneAngleMeasure
| KDerivedUnit
| KDerivedUnitElement
| KMonetaryUnit
| KMaterialLayerSetUsage
| KMaterialLayerSet
| KMaterialLayer
| KMaterial
| KMaterialConstituent
| KMaterialConstituentSet
| KMaterialProperties
| KPropertySet
| KPropertySingleValue
| KDummy.

(** A number for each kind, used to compare kinds ([TypeId] equality in
    /repo/ifc_rs_verify_derive/src/field.rs:93-107). *)
Definition kind_code (k : kind) : N :=
  match k with
  | KActorRole => 0
  | KPostalAddress => 1
  | KTelecomAddress => 2
  | KApplication => 3
  | KOrganization => 4
  | KOwnerHistory => 5
  | KPerson => 6
  | KPersonAndOrganization => 7
  | KWall => 8
  | KWallType => 9
  | KSlab => 10
  | KSlabType => 11
  | KRoof => 12
  | KRoofType => 13
  | KBuilding => 14
  | KStorey => 15
  | KSite => 16
  | KOpeningElement => 17
  | KWindow => 18
  | KWindowType => 19
  | KProject => 20
  | KSpace => 21
  | KSpaceType => 22
  | KDoor => 23
  | KDoorType => 24
  | KShadingDevice => 25
  | KShadingDeviceType => 26
  | KArbitraryClosedProfileDef => 27
  | KAxis2D => 28
  | KAxis3D => 29
  | KDirection2D => 30
  | KDirection3D => 31
  | KExtrudedAreaSolid => 32
  | KIndexedPolyCurve => 33
  | KPoint2D => 34
  | KPoint3D => 35
  | KPointList2D => 36
  | KPointList3D => 37
  | KPolyLine => 38
  | KProductDefinitionShape => 39
  | KRectangleProfileDef => 40
  | KGeometricRepresentationContext => 41
  | KGeometricRepresentationSubContext => 42
  | KShapeRepresentation => 43
  | KLocalPlacement => 44
  | KCartesianTransformationOperator3DnonUniform => 45
  | KCartesianTransformationOperator3D => 46
  | KRelAggregates => 47
  | KRelAssociatesMaterial => 48
  | KRelContainedInSpatialStructure => 49
  | KRelDeclares => 50
  | KRelDefinesByType => 51
  | KRelDefinesByProperties => 52
  | KRelVoidsElement => 53
  | KRelFillsElement => 54
  | KMappedItem => 55
  | KRepresentationMap => 56
  | KUnitAssigment => 57
  | KConversionBasedUnit => 58
  | KSiUnit => 59
  | KDimensionalExponents => 60
  | KMeasureWithUnit => 61
  | KPlaneAngleMeasure => 62
  | KDerivedUnit => 63
  | KDerivedUnitElement => 64
  | KMonetaryUnit => 65
  | KMaterialLayerSetUsage => 66
  | KMaterialLayerSet => 67
  | KMaterialLayer => 68
  | KMaterial => 69
  | KMaterialConstituent => 70
  | KMaterialConstituentSet => 71
  | KMaterialProperties => 72
  | KPropertySet => 73
  | KPropertySingleValue => 74
  | KDummy => 75
  end.

(** [TypeId] equality. *)
Definition kind_eqb (a b : kind) : bool := kind_code a =? kind_code b.
