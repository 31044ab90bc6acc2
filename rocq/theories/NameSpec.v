(** Specification of names: under which word every enumeration value, measure and kind
    of object stands in a file.  The tables are taken from the declarations in
    /repo/ifc_rs/src (names of variants and of structs, literals of [strum]),
    not from the model; [called] and [keyword] relate the two columns by a rule. *)

From Coq Require Import String Ascii List NArith ZArith Bool.
From Verif Require Import Base Prims Spec Float FloatFacts Kind Types Schema AttrFacts.
Import ListNotations.
Open Scope N_scope.
Open Scope list_scope.

(** ** Letters *)

Definition lower (c : N) : N := if (65 <=? c) && (c <=? 90) then c + 32 else c.
Definition upper (c : N) : N := if (97 <=? c) && (c <=? 122) then c - 32 else c.
Definition letter (c : N) : bool :=
  (48 <=? c) && (c <=? 57) || (65 <=? c) && (c <=? 90) || (97 <=? c) && (c <=? 122).

(** The letters and digits of a word, in lower case. *)
Definition letters (s : text) : text := map lower (filter letter s).

(** ** Enumerations *)

(** Words that have not the letters of the name. *)
Definition misnamed : list (string * string) :=
  [ ("Clien", ".CLIENT."); ("Comples", ".COMPLEX."); ("Parking", ".JALOUSIE.")
  ; ("DegreeCelcius", ".DEGREE_CELSIUS.")
  ; ("ElectricCapacitanceUnit", ".ELCTRICCAPACITANCEUNIT."); ("ElectricChargeUnit", ".ELCTRICCHARGEUNIT.")
  ; ("ElectricConductanceUnit", ".ELCTRICCONDUCTANCEUNIT."); ("ElectricCurrentUnit", ".ELCTRICCURRENTUNIT.")
  ; ("ElectricResistanceUnit", ".ELCTRICRESISTANCEUNIT."); ("ElectricVoltageUnit", ".ELCTRICVOLTAGEUNIT.") ]%string.

Definition called (name word : string) : Prop :=
  letters (lit word) = letters (lit name) \/ In (name, word) misnamed.

(** Variants with their words, in the order of the declarations. *)

(** /repo/ifc_rs/src/geometry/geometric_projection.rs *)
Definition variants_GeometricProjection : list (string * string) :=
  [ ("GraphView", ".GRAPH_VIEW."); ("SketchView", ".SKETCH_VIEW."); ("ModelView", ".MODEL_VIEW.")
  ; ("PlanView", ".PLAN_VIEW."); ("ReflectedPlanView", ".REFLECTED_PLAN_VIEW."); ("SectionView", ".SECTION_VIEW.")
  ; ("ElevationView", ".ELEVATION_VIEW."); ("UserDefined", ".USERDEFINED."); ("NotDefined", ".NOTDEFINED.") ]%string.

(** /repo/ifc_rs/src/geometry/profile_type.rs *)
Definition variants_ProfileType : list (string * string) :=
  [ ("Curve", ".CURVE."); ("Area", ".AREA.") ]%string.

(** /repo/ifc_rs/src/geometry/shape_representation/repr_identifier.rs *)
Definition variants_RepresentationIdentifier : list (string * string) :=
  [ ("CoG", "'CoG'"); ("Box", "'Box'"); ("Annotation", "'Annotation'")
  ; ("Axis", "'Axis'"); ("FootPrint", "'FootPrint'"); ("Profile", "'Profile'")
  ; ("Surface", "'Surface'"); ("Reference", "'Reference'"); ("Body", "'Body'")
  ; ("BodyFallBack", "'Body-FallBack'"); ("Clearance", "'Clearance'"); ("Lighting", "'Lighting'") ]%string.

(** /repo/ifc_rs/src/geometry/shape_representation/repr_type.rs *)
Definition variants_RepresentationType : list (string * string) :=
  [ ("Point", "'Point'"); ("PointCloud", "'PointCloud'"); ("Curve", "'Curve'")
  ; ("Curve2D", "'Curve2D'"); ("Curve3D", "'Curve3D'"); ("Surface", "'Surface'")
  ; ("Surface2D", "'Surface2D'"); ("Surface3D", "'Surface3D'"); ("SectionedSurface", "'SectionedSurface'")
  ; ("FillArea", "'FillArea'"); ("Text", "'Text'"); ("AdvancedSurface", "'AdvancedSurface'")
  ; ("GeometricSet", "'GeometricSet'"); ("GeometricCurveSet", "'GeometricCurveSet'"); ("Annotation2D", "'Annotation2D'")
  ; ("SurfaceModel", "'SurfaceModel'"); ("Tessellation", "'Tessellation'"); ("Segment", "'Segment'")
  ; ("SolidModel", "'SolidModel'"); ("SweptSolid", "'SweptSolid'"); ("AdvancedSweptSolid", "'AdvancedSweptSolid'")
  ; ("Brep", "'Brep'"); ("AdvancedBrep", "'AdvancedBrep'"); ("CSG", "'CSG'")
  ; ("Clipping", "'Clipping'"); ("BoundingBox", "'BoundingBox'"); ("SectionedSpine", "'SectionedSpine'")
  ; ("LightSource", "'LightSource'"); ("MappedRepresentation", "'MappedRepresentation'") ]%string.

(** /repo/ifc_rs/src/materials/direction_sense_enum.rs *)
Definition variants_DirectionSenseEnum : list (string * string) :=
  [ ("Positive", ".POSITIVE."); ("Negative", ".NEGATIVE.") ]%string.

(** /repo/ifc_rs/src/materials/layer_set_direction_enum.rs *)
Definition variants_LayerSetDirectionEnum : list (string * string) :=
  [ ("Axis1", ".AXIS1."); ("Axis2", ".AXIS2."); ("Axis3", ".AXIS3.") ]%string.

(** /repo/ifc_rs/src/objects/access_state/mod.rs *)
Definition variants_AccessState : list (string * string) :=
  [ ("ReadWrite", ".READWRITE."); ("ReadOnly", ".READONLY."); ("Locked", ".LOCKED.")
  ; ("ReadWriteLocked", ".READWRITELOCKED."); ("ReadOnlyLocked", ".READONLYLOCKED.") ]%string.

(** /repo/ifc_rs/src/objects/actor_role/mod.rs *)
Definition variants_Role : list (string * string) :=
  [ ("Supplier", ".SUPPLIER."); ("Manufacturer", ".MANUFACTURER."); ("Contractor", ".CONTRACTOR.")
  ; ("Subcontractor", ".SUBCONTRACTOR."); ("Architect", ".ARCHITECT."); ("StructuralEngineer", ".STRUCTURALENGINEER.")
  ; ("CostEngineer", ".COSTENGINEER."); ("Clien", ".CLIENT."); ("BuildingOwner", ".BUILDINGOWNER.")
  ; ("BuildingOperator", ".BUILDINGOPERATOR."); ("MechanicalEngineer", ".MECHANICALENGINEER."); ("ElectricalEngineer", ".ELECTRICALENGINEER.")
  ; ("ProjectManager", ".PROJECTMANAGER."); ("FacilitiesManager", ".FACILITIESMANAGER."); ("CivilEngineer", ".CIVILENGINEER.")
  ; ("ComissionEngineer", ".COMISSIONENGINEER."); ("Engineer", ".ENGINEER."); ("Owner", ".OWNER.")
  ; ("Consultant", ".CONSULTANT."); ("ConstructionManager", ".CONSTRUCTIONMANAGER."); ("FieldConstructionManager", ".FIELDCONSTRUCTIONMANAGER.")
  ; ("Reseller", ".RESELLER."); ("UserDefined", ".USERDEFINED.") ]%string.

(** /repo/ifc_rs/src/objects/change_action/mod.rs *)
Definition variants_ChangeAction : list (string * string) :=
  [ ("NoChange", ".NOCHANGE."); ("Modified", ".MODIFIED."); ("Added", ".ADDED.")
  ; ("Deleted", ".DELETED."); ("ModifiedAdded", ".MODIFIEDADDED."); ("ModifiedDeleted", ".MODIFIEDDELETED.") ]%string.

(** /repo/ifc_rs/src/objects/doortype/door_operation_type_enum.rs *)
Definition variants_DoorOperationTypeEnum : list (string * string) :=
  [ ("SingleSwingLeft", ".SINGLE_SWING_LEFT."); ("SingleSwingRight", ".SINGLE_SWING_RIGHT."); ("DoubleDoorSingleSwing", ".DOUBLE_DOOR_SINGLE_SWING.")
  ; ("DoubleSwingLeft", ".DOUBLE_SWING_LEFT."); ("DoubleSwingRight", ".DOUBLE_SWING_RIGHT."); ("DoubleDoorDoubleSwing", ".DOUBLE_DOOR_DOUBLE_SWING.")
  ; ("DoubleDoorSingleSwingOppositeLeft", ".DOUBLE_DOOR_SINGLE_SWING_OPPOSITE_LEFT."); ("DoubleDoorSingleSwingOppositeRight", ".DOUBLE_DOOR_SINGLE_SWING_OPPOSITE_RIGHT."); ("SlidingToLeft", ".SLIDING_TO_LEFT.")
  ; ("SlidingToRight", ".SLIDING_TO_RIGHT."); ("DoubleDoorSliding", ".DOUBLE_DOOR_SLIDING."); ("FoldingToLeft", ".FOLDING_TO_LEFT.")
  ; ("FoldingToRight", ".FOLDING_TO_RIGHT."); ("DoubleDoorFolding", ".DOUBLE_DOOR_FOLDING."); ("Revolving", ".REVOLVING.")
  ; ("RollingUp", ".ROLLINGUP."); ("SwingFixedLeft", ".SWING_FIXED_LEFT."); ("SwingFixedRight", ".SWING_FIXED_RIGHT.")
  ; ("UserDefined", ".USERDEFINED."); ("NotDefined", ".NOTDEFINED.") ]%string.

(** /repo/ifc_rs/src/objects/doortype/door_type_enum.rs *)
Definition variants_DoorTypeEnum : list (string * string) :=
  [ ("Door", ".DOOR."); ("Gate", ".GATE."); ("Trapdoor", ".TRAPDOOR.")
  ; ("UserDefined", ".USERDEFINED."); ("NotDefined", ".NOTDEFINED.") ]%string.

(** /repo/ifc_rs/src/objects/opening_element/opening_element_type_enum.rs *)
Definition variants_OpeningElementTypeEnum : list (string * string) :=
  [ ("Opening", ".OPENING."); ("Recess", ".RECESS."); ("UserDefined", ".USERDEFINED.")
  ; ("NotDefined", ".NOTDEFINED.") ]%string.

(** /repo/ifc_rs/src/objects/rooftype/type_enum.rs *)
Definition variants_RoofTypeEnum : list (string * string) :=
  [ ("FlatRoof", ".FLAT_ROOF."); ("ShedRoof", ".SHED_ROOF."); ("GableRoof", ".GABLE_ROOF.")
  ; ("HipRoof", ".HIP_ROOF."); ("HippedGableRoof", ".HIPPED_GABLE_ROOF."); ("GambrelRoof", ".GAMBREL_ROOF.")
  ; ("MansardRoof", ".MANSARD_ROOF."); ("BarrelRoof", ".BARREL_ROOF."); ("RainbowRoof", ".RAINBOW_ROOF.")
  ; ("ButterflyRoof", ".BUTTERFLY_ROOF."); ("PavilionRoof", ".PAVILION_ROOF."); ("DomeRoof", ".DOME_ROOF.")
  ; ("UserDefined", ".USERDEFINED."); ("NotDefined", ".NOTDEFINED.") ]%string.

(** /repo/ifc_rs/src/objects/shading_device_type_enum.rs *)
Definition variants_ShadingDeviceTypeEnum : list (string * string) :=
  [ ("Awning", ".AWNING."); ("Parking", ".JALOUSIE."); ("Shutter", ".SHUTTER.")
  ; ("UserDefined", ".USERDEFINED."); ("NotDefined", ".NOTDEFINED.") ]%string.

(** /repo/ifc_rs/src/objects/shared/composition_type_enum.rs *)
Definition variants_CompositionTypeEnum : list (string * string) :=
  [ ("Comples", ".COMPLEX."); ("Element", ".ELEMENT."); ("Partial", ".PARTIAL.") ]%string.

(** /repo/ifc_rs/src/objects/slabtype/type_enum.rs *)
Definition variants_SlabTypeEnum : list (string * string) :=
  [ ("Floor", ".FLOOR."); ("Roof", ".ROOF."); ("Landing", ".LANDING.")
  ; ("BaseSlab", ".BASESLAB."); ("UserDefined", ".USERDEFINED."); ("NotDefined", ".NOTDEFINED.") ]%string.

(** /repo/ifc_rs/src/objects/spacetype/type_enum.rs *)
Definition variants_SpaceTypeEnum : list (string * string) :=
  [ ("Space", ".SPACE."); ("Parking", ".PARKING."); ("Gfa", ".GFA.")
  ; ("Internal", ".INTERNAL."); ("External", ".EXTERNAL."); ("UserDefined", ".USERDEFINED.")
  ; ("NotDefined", ".NOTDEFINED.") ]%string.

(** /repo/ifc_rs/src/objects/walltype/type_enum.rs *)
Definition variants_WallTypeEnum : list (string * string) :=
  [ ("Movable", ".MOVABLE."); ("Parapet", ".PARAPET."); ("Partitioning", ".PARTITIONING.")
  ; ("Plumbingwall", ".PLUMBINGWALL."); ("Shear", ".SHEAR."); ("Solidwall", ".SOLIDWALL.")
  ; ("Standard", ".STANDARD."); ("Polygonal", ".POLYGONAL."); ("Elementedwall", ".ELEMENTEDWALL.")
  ; ("Retainingwall", ".RETAININGWALL."); ("UserDefined", ".USERDEFINED."); ("NotDefined", ".NOTDEFINED.") ]%string.

(** /repo/ifc_rs/src/objects/windowtype/window_partitioning_type_enum.rs *)
Definition variants_WindowPartitioningTypeEnum : list (string * string) :=
  [ ("SinglePanel", ".SINGLE_PANEL."); ("DoublePanelVertical", ".DOUBLE_PANEL_VERTICAL."); ("DoublePanelHorizontal", ".DOUBLE_PANEL_HORIZONTAL.")
  ; ("TriplePanelVertical", ".TRIPLE_PANEL_VERTICAL."); ("TriplePanelHorizontal", ".TRIPLE_PANEL_HORIZONTAL."); ("TriplePanelBottom", ".TRIPLE_PANEL_BOTTOM.")
  ; ("TriplePanelTop", ".TRIPLE_PANEL_TOP."); ("TriplePanelLeft", ".TRIPLE_PANEL_LEFT."); ("TriplePanelRight", ".TRIPLE_PANEL_RIGHT.")
  ; ("UserDefined", ".USERDEFINED."); ("NotDefined", ".NOTDEFINED.") ]%string.

(** /repo/ifc_rs/src/objects/windowtype/window_type_enum.rs *)
Definition variants_WindowTypeEnum : list (string * string) :=
  [ ("Window", ".WINDOW."); ("Skylight", ".SKYLIGHT."); ("Lightdome", ".LIGHTDOME.")
  ; ("UserDefined", ".USERDEFINED."); ("NotDefined", ".NOTDEFINED.") ]%string.

(** /repo/ifc_rs/src/units/conversion_based_unit.rs *)
Definition variants_ConversionUnitName : list (string * string) :=
  [ ("Degree", "'DEGREE'"); ("Inch", "'INCH'"); ("Foot", "'FOOT'")
  ; ("Yard", "'YARD'"); ("Mile", "'MILE'"); ("SquareInch", "'SQUARE INCH'")
  ; ("SquareFoot", "'SQUARE FOOT'"); ("SquareYard", "'SQUARE YARD'"); ("Acre", "'ACRE'")
  ; ("SquareMile", "'SQUARE MILE'"); ("CubicInch", "'CUBIC INCH'"); ("CubicFoot", "'CUBIC FOOT'")
  ; ("CubicYard", "'CUBIC YARD'"); ("Litre", "'LITRE'"); ("FluidOunceUK", "'FLUID OUNCE UK'")
  ; ("FluidOunceUS", "'FLUID OUNCE US'"); ("PintUK", "'PINT UK'"); ("PintUS", "'PINT US'")
  ; ("GallonUK", "'GALLON UK'"); ("GallonUS", "'GALLON US'"); ("Ounce", "'OUNCE'")
  ; ("Pound", "'POUND'"); ("TonUK", "'TON UK'"); ("TonUS", "'TON US'")
  ; ("Lbf", "'LBF'"); ("Kip", "'KIP'"); ("Psi", "'PSI'")
  ; ("Ksi", "'KSI'"); ("Minute", "'MINUTE'"); ("Hour", "'HOUR'")
  ; ("Day", "'DAY'"); ("Btu", "'BTU'") ]%string.

(** /repo/ifc_rs/src/units/derived_unit_enum.rs *)
Definition variants_DerivedUnitEnum : list (string * string) :=
  [ ("ANGULARVELOCITYUNIT", ".ANGULARVELOCITYUNIT."); ("AREADENSITYUNIT", ".AREADENSITYUNIT."); ("COMPOUNDPLANEANGLEUNIT", ".COMPOUNDPLANEANGLEUNIT.")
  ; ("DYNAMICVISCOSITYUNIT", ".DYNAMICVISCOSITYUNIT."); ("HEATFLUXDENSITYUNIT", ".HEATFLUXDENSITYUNIT."); ("INTEGERCOUNTRATEUNIT", ".INTEGERCOUNTRATEUNIT.")
  ; ("ISOTHERMALMOISTURECAPACITYUNIT", ".ISOTHERMALMOISTURECAPACITYUNIT."); ("KINEMATICVISCOSITYUNIT", ".KINEMATICVISCOSITYUNIT."); ("LINEARVELOCITYUNIT", ".LINEARVELOCITYUNIT.")
  ; ("MASSDENSITYUNIT", ".MASSDENSITYUNIT."); ("MASSFLOWRATEUNIT", ".MASSFLOWRATEUNIT."); ("MOISTUREDIFFUSIVITYUNIT", ".MOISTUREDIFFUSIVITYUNIT.")
  ; ("MOLECULARWEIGHTUNIT", ".MOLECULARWEIGHTUNIT."); ("SPECIFICHEATCAPACITYUNIT", ".SPECIFICHEATCAPACITYUNIT."); ("THERMALADMITTANCEUNIT", ".THERMALADMITTANCEUNIT.")
  ; ("THERMALCONDUCTANCEUNIT", ".THERMALCONDUCTANCEUNIT."); ("THERMALRESISTANCEUNIT", ".THERMALRESISTANCEUNIT."); ("THERMALTRANSMITTANCEUNIT", ".THERMALTRANSMITTANCEUNIT.")
  ; ("VAPORPERMEABILITYUNIT", ".VAPORPERMEABILITYUNIT."); ("VOLUMETRICFLOWRATEUNIT", ".VOLUMETRICFLOWRATEUNIT."); ("ROTATIONALFREQUENCYUNIT", ".ROTATIONALFREQUENCYUNIT.")
  ; ("TORQUEUNIT", ".TORQUEUNIT."); ("MOMENTOFINERTIAUNIT", ".MOMENTOFINERTIAUNIT."); ("LINEARMOMENTUNIT", ".LINEARMOMENTUNIT.")
  ; ("LINEARFORCEUNIT", ".LINEARFORCEUNIT."); ("PLANARFORCEUNIT", ".PLANARFORCEUNIT."); ("MODULUSOFELASTICITYUNIT", ".MODULUSOFELASTICITYUNIT.")
  ; ("SHEARMODULUSUNIT", ".SHEARMODULUSUNIT."); ("LINEARSTIFFNESSUNIT", ".LINEARSTIFFNESSUNIT."); ("ROTATIONALSTIFFNESSUNIT", ".ROTATIONALSTIFFNESSUNIT.")
  ; ("MODULUSOFSUBGRADEREACTIONUNIT", ".MODULUSOFSUBGRADEREACTIONUNIT."); ("ACCELERATIONUNIT", ".ACCELERATIONUNIT."); ("CURVATUREUNIT", ".CURVATUREUNIT.")
  ; ("IONCONCENTRATIONUNIT", ".IONCONCENTRATIONUNIT."); ("LUMINOUSINTENSITYDISTRIBUTIONUNIT", ".LUMINOUSINTENSITYDISTRIBUTIONUNIT."); ("MASSPERLENGTHUNIT", ".MASSPERLENGTHUNIT.")
  ; ("MODULUSOFLINEARSUBGRADEREACTIONUNIT", ".MODULUSOFLINEARSUBGRADEREACTIONUNIT."); ("MODULUSOFROTATIONALSUBGRADEREACTIONUNIT", ".MODULUSOFROTATIONALSUBGRADEREACTIONUNIT."); ("PHUNIT", ".PHUNIT.")
  ; ("ROTATIONALMASSUNIT", ".ROTATIONALMASSUNIT."); ("SECTIONAREAINTEGRALUNIT", ".SECTIONAREAINTEGRALUNIT."); ("SECTIONMODULUSUNIT", ".SECTIONMODULUSUNIT.")
  ; ("SOUNDPOWERLEVELUNIT", ".SOUNDPOWERLEVELUNIT."); ("SOUNDPOWERUNIT", ".SOUNDPOWERUNIT."); ("SOUNDPRESSURELEVELUNIT", ".SOUNDPRESSURELEVELUNIT.")
  ; ("SOUNDPRESSUREUNIT", ".SOUNDPRESSUREUNIT."); ("TEMPERATUREGRADIENTUNIT", ".TEMPERATUREGRADIENTUNIT."); ("TEMPERATURERATEOFCHANGEUNIT", ".TEMPERATURERATEOFCHANGEUNIT.")
  ; ("THERMALEXPANSIONCOEFFICIENTUNIT", ".THERMALEXPANSIONCOEFFICIENTUNIT."); ("WARPINGCONSTANTUNIT", ".WARPINGCONSTANTUNIT."); ("WARPINGMOMENTUNIT", ".WARPINGMOMENTUNIT.")
  ; ("USERDEFINED", ".USERDEFINED.") ]%string.

(** /repo/ifc_rs/src/units/name.rs *)
Definition variants_IfcUnitName : list (string * string) :=
  [ ("Ampere", ".AMPERE."); ("Becquerel", ".BECQUEREL."); ("Candela", ".CANDELA.")
  ; ("Couloumb", ".COULOUMB."); ("CubicMetre", ".CUBIC_METRE."); ("DegreeCelcius", ".DEGREE_CELSIUS.")
  ; ("Farad", ".FARAD."); ("Gram", ".GRAM."); ("Gray", ".GRAY.")
  ; ("Henry", ".HENRY."); ("Hertz", ".HERTZ."); ("Joule", ".JOULE.")
  ; ("Kelvin", ".KELVIN."); ("Lumen", ".LUMEN."); ("Lux", ".LUX.")
  ; ("Metre", ".METRE."); ("Mole", ".MOLE."); ("Newton", ".NEWTON.")
  ; ("Ohm", ".OHM."); ("Pascal", ".PASCAL."); ("Radian", ".RADIAN.")
  ; ("Second", ".SECOND."); ("Siemens", ".SIEMENS."); ("Sievert", ".SIEVERT.")
  ; ("SquareMetre", ".SQUARE_METRE."); ("Steradian", ".STERADIAN."); ("Tesla", ".TESLA.")
  ; ("Volt", ".VOLT."); ("Watt", ".WATT."); ("Weber", ".WEBER.") ]%string.

(** /repo/ifc_rs/src/units/prefix.rs *)
Definition variants_IfcPrefix : list (string * string) :=
  [ ("Exa", ".EXA."); ("Peta", ".PETA."); ("Tera", ".TERA.")
  ; ("Giga", ".GIGA."); ("Mega", ".MEGA."); ("Kilo", ".KILO.")
  ; ("Deca", ".DECA."); ("Deci", ".DECI."); ("Centi", ".CENTI.")
  ; ("Milli", ".MILLI."); ("Micro", ".MICRO."); ("Nano", ".NANO.")
  ; ("Pico", ".PICO."); ("Femto", ".FEMTO."); ("Atto", ".ATTO.") ]%string.

(** /repo/ifc_rs/src/units/unit_enum.rs *)
Definition variants_IfcUnitEnum : list (string * string) :=
  [ ("AbsorbedDoseUnit", ".ABSORBEDDOSEUNIT."); ("AmountOfSubstanceUnit", ".AMOUNTOFSUBSTANCEUNIT."); ("AreaUnit", ".AREAUNIT.")
  ; ("DoseEquivalentUnit", ".DOSEEQUIVALENTUNIT."); ("ElectricCapacitanceUnit", ".ELCTRICCAPACITANCEUNIT."); ("ElectricChargeUnit", ".ELCTRICCHARGEUNIT.")
  ; ("ElectricConductanceUnit", ".ELCTRICCONDUCTANCEUNIT."); ("ElectricCurrentUnit", ".ELCTRICCURRENTUNIT."); ("ElectricResistanceUnit", ".ELCTRICRESISTANCEUNIT.")
  ; ("ElectricVoltageUnit", ".ELCTRICVOLTAGEUNIT."); ("EnergyUnit", ".ENERGYUNIT."); ("ForceUnit", ".FORCEUNIT.")
  ; ("IlluminanceUnit", ".ILLUMINANCEUNIT."); ("InductanceUnit", ".INDUCTANCEUNIT."); ("LengthUnit", ".LENGTHUNIT.")
  ; ("LuminousFluxUnit", ".LUMINOUSFLUXUNIT."); ("LuminousIntensityUnit", ".LUMINOUSINTENSITYUNIT."); ("MagneticFluxDensityUnit", ".MAGNETICFLUXDENSITYUNIT.")
  ; ("MagneticFluxUnit", ".MAGNETICFLUXUNIT."); ("MassUnit", ".MASSUNIT."); ("PlaneAngleUnit", ".PLANEANGLEUNIT.")
  ; ("PowerUnit", ".POWERUNIT."); ("PressureUnit", ".PRESSUREUNIT."); ("RadioActivityUnit", ".RADIOACTIVITYUNIT.")
  ; ("SolidAngleUnit", ".SOLIDANGLEUNIT."); ("ThermoDynamicTemperatureUnit", ".THERMODYNAMICTEMPERATUREUNIT."); ("TimeUnit", ".TIMEUNIT.")
  ; ("VolumeUnit", ".VOLUMEUNIT."); ("UserDefined", ".USERDEFINED.") ]%string.

(** Every enumeration of the schema with its variants. *)
Definition enumerations : list (list text * list (string * string)) :=
  [ (enum_GeometricProjection, variants_GeometricProjection)
  ; (enum_ProfileType, variants_ProfileType)
  ; (enum_RepresentationIdentifier, variants_RepresentationIdentifier)
  ; (enum_RepresentationType, variants_RepresentationType)
  ; (enum_DirectionSenseEnum, variants_DirectionSenseEnum)
  ; (enum_LayerSetDirectionEnum, variants_LayerSetDirectionEnum)
  ; (enum_AccessState, variants_AccessState)
  ; (enum_Role, variants_Role)
  ; (enum_ChangeAction, variants_ChangeAction)
  ; (enum_DoorOperationTypeEnum, variants_DoorOperationTypeEnum)
  ; (enum_DoorTypeEnum, variants_DoorTypeEnum)
  ; (enum_OpeningElementTypeEnum, variants_OpeningElementTypeEnum)
  ; (enum_RoofTypeEnum, variants_RoofTypeEnum)
  ; (enum_ShadingDeviceTypeEnum, variants_ShadingDeviceTypeEnum)
  ; (enum_CompositionTypeEnum, variants_CompositionTypeEnum)
  ; (enum_SlabTypeEnum, variants_SlabTypeEnum)
  ; (enum_SpaceTypeEnum, variants_SpaceTypeEnum)
  ; (enum_WallTypeEnum, variants_WallTypeEnum)
  ; (enum_WindowPartitioningTypeEnum, variants_WindowPartitioningTypeEnum)
  ; (enum_WindowTypeEnum, variants_WindowTypeEnum)
  ; (enum_ConversionUnitName, variants_ConversionUnitName)
  ; (enum_DerivedUnitEnum, variants_DerivedUnitEnum)
  ; (enum_IfcUnitName, variants_IfcUnitName)
  ; (enum_IfcPrefix, variants_IfcPrefix)
  ; (enum_IfcUnitEnum, variants_IfcUnitEnum) ].

(** ** Measures *)

(** /repo/ifc_rs/src/values/core.rs:16-22, with the names of the standard in
    bool.rs, label.rs, real.rs, identifier.rs, thermal_transmittance.rs. *)
Definition measures : list (string * string) :=
  [ ("Bool", "IfcBoolean"); ("Label", "IfcLabel"); ("Real", "IfcReal"); ("Identifier", "IfcIdentifier")
  ; ("ThermalTransmittance", "IfcThermaltransmittancemeasure") ]%string.

(** What stands between the parentheses, and what is read from it. *)
Inductive contents : string -> val -> text -> val -> Prop :=
| contents_bool b : contents "Bool" (VBool b) (long_bool b) (VBool b)
| contents_label s : contents "Label" (VStr s) (d_string s) (VStr (translate_decode (translate_encode s)))
| contents_identifier s : contents "Identifier" (VStr s) (d_string s) (VStr (translate_decode (translate_encode s)))
| contents_real d : contents "Real" (VReal d) (d_real d) (VReal (norm_real d))
| contents_transmittance d : contents "ThermalTransmittance" (VReal d) (d_nonsci d) (VReal d).

(** ** Kinds *)

(** Every kind with the name of its struct. *)
Definition structs : list (kind * string) :=
  [ (KActorRole, "ActorRole"); (KPostalAddress, "PostalAddress"); (KTelecomAddress, "TelecomAddress")
  ; (KApplication, "Application"); (KOrganization, "Organization"); (KOwnerHistory, "OwnerHistory")
  ; (KPerson, "Person"); (KPersonAndOrganization, "PersonAndOrganization"); (KWall, "Wall")
  ; (KWallType, "WallType"); (KSlab, "Slab"); (KSlabType, "SlabType")
  ; (KRoof, "Roof"); (KRoofType, "RoofType"); (KBuilding, "Building")
  ; (KStorey, "Storey"); (KSite, "Site"); (KOpeningElement, "OpeningElement")
  ; (KWindow, "Window"); (KWindowType, "WindowType"); (KProject, "Project")
  ; (KSpace, "Space"); (KSpaceType, "SpaceType"); (KDoor, "Door")
  ; (KDoorType, "DoorType"); (KShadingDevice, "ShadingDevice"); (KShadingDeviceType, "ShadingDeviceType")
  ; (KArbitraryClosedProfileDef, "ArbitraryClosedProfileDef"); (KAxis2D, "Axis2D"); (KAxis3D, "Axis3D")
  ; (KDirection2D, "Direction2D"); (KDirection3D, "Direction3D"); (KExtrudedAreaSolid, "ExtrudedAreaSolid")
  ; (KIndexedPolyCurve, "IndexedPolyCurve"); (KPoint2D, "Point2D"); (KPoint3D, "Point3D")
  ; (KPointList2D, "PointList2D"); (KPointList3D, "PointList3D"); (KPolyLine, "PolyLine")
  ; (KProductDefinitionShape, "ProductDefinitionShape"); (KRectangleProfileDef, "RectangleProfileDef"); (KGeometricRepresentationContext, "GeometricRepresentationContext")
  ; (KGeometricRepresentationSubContext, "GeometricRepresentationSubContext"); (KShapeRepresentation, "ShapeRepresentation"); (KLocalPlacement, "LocalPlacement")
  ; (KCartesianTransformationOperator3DnonUniform, "CartesianTransformationOperator3DnonUniform"); (KCartesianTransformationOperator3D, "CartesianTransformationOperator3D"); (KRelAggregates, "RelAggregates")
  ; (KRelAssociatesMaterial, "RelAssociatesMaterial"); (KRelContainedInSpatialStructure, "RelContainedInSpatialStructure"); (KRelDeclares, "RelDeclares")
  ; (KRelDefinesByType, "RelDefinesByType"); (KRelDefinesByProperties, "RelDefinesByProperties"); (KRelVoidsElement, "RelVoidsElement")
  ; (KRelFillsElement, "RelFillsElement"); (KMappedItem, "MappedItem"); (KRepresentationMap, "RepresentationMap")
  ; (KUnitAssigment, "UnitAssigment"); (KConversionBasedUnit, "ConversionBasedUnit"); (KSiUnit, "SiUnit")
  ; (KDimensionalExponents, "DimensionalExponents"); (KMeasureWithUnit, "MeasureWithUnit"); (KPlaneAngleMeasure, "PlaneAngleMeasure")
  ; (KDerivedUnit, "DerivedUnit"); (KDerivedUnitElement, "DerivedUnitElement"); (KMonetaryUnit, "MonetaryUnit")
  ; (KMaterialLayerSetUsage, "MaterialLayerSetUsage"); (KMaterialLayerSet, "MaterialLayerSet"); (KMaterialLayer, "MaterialLayer")
  ; (KMaterial, "Material"); (KMaterialConstituent, "MaterialConstituent"); (KMaterialConstituentSet, "MaterialConstituentSet")
  ; (KMaterialProperties, "MaterialProperties"); (KPropertySet, "PropertySet"); (KPropertySingleValue, "PropertySingleValue") ]%string.

(** Structs that have another name in a file. *)
Definition renamed : list (string * string) :=
  [ ("Storey", "BuildingStorey"); ("Axis2D", "Axis2Placement2D"); ("Axis3D", "Axis2Placement3D")
  ; ("Direction2D", "Direction"); ("Direction3D", "Direction"); ("Point2D", "CartesianPoint"); ("Point3D", "CartesianPoint")
  ; ("PointList2D", "CartesianPointList2D"); ("PointList3D", "CartesianPointList3D")
  ; ("UnitAssigment", "UnitAssignment") ]%string.

Definition keyword (name : string) : text :=
  lit "IFC" ++ map upper (lit (match find (fun q => String.eqb name (fst q)) renamed with
                               | Some q => snd q
                               | None => name
                               end)).

(** Kinds with a second keyword. *)
Definition standard_cases : list kind := [KWall; KSlab; KWindow; KDoor].

(** ** Reals *)

Definition nonzero_digits (s : text) : nat :=
  length (filter (fun c => (49 <=? c) && (c <=? 57)) s).

(** ** The standard *)

(** Words of the enumerations IfcSIPrefix, IfcUnitEnum, IfcSIUnitName and IfcRoleEnum of
    the standard (ISO 16739, IFC4) that /repo does not have. *)
Definition left_out : list (list text * string) :=
  [ (enum_IfcPrefix, ".HECTO."); (enum_IfcUnitEnum, ".FREQUENCYUNIT.")
  ; (enum_IfcUnitEnum, ".ELECTRICCAPACITANCEUNIT."); (enum_IfcUnitEnum, ".ELECTRICCHARGEUNIT.")
  ; (enum_IfcUnitEnum, ".ELECTRICCONDUCTANCEUNIT."); (enum_IfcUnitEnum, ".ELECTRICCURRENTUNIT.")
  ; (enum_IfcUnitEnum, ".ELECTRICRESISTANCEUNIT."); (enum_IfcUnitEnum, ".ELECTRICVOLTAGEUNIT.")
  ; (enum_IfcUnitName, ".COULOMB."); (enum_Role, ".COMMISSIONINGENGINEER.") ]%string.
