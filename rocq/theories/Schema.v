(** The schema table: for every entity kind of /repo its keyword(s), whether the
    keyword and the closing parenthesis may be surrounded by gaps, its attribute
    types with the permitted kinds of references ([#[ifc_types]], [TypedId],
    [IdOr]; verified fields have the flag [true]), and the closing text.

    A struct with a [#[inherited]] field contributes the attributes of that field
    with their checks; a sub-struct without [#[inherited]] contributes its
    attributes without checks ([unchecked]; /repo/ifc_rs_verify_derive/src/lib.rs:67-125).
    In every struct the order of the checks is the order of the attributes.
    Every table entry cites the struct, its [IFCParse] and its [Display]. *)

From Coq Require Import String Ascii List NArith ZArith Bool.
From Verif Require Import Base Prims Kind Types.
Import ListNotations.
Open Scope N_scope.

(** ** Enumeration spellings ([strum(to_string)]), in declaration order *)

(** /repo/ifc_rs/src/geometry/geometric_projection.rs:15-67: GraphView, SketchView, ModelView, PlanView, ReflectedPlanView, SectionView, ElevationView, UserDefined, NotDefined. *)
Definition enum_GeometricProjection : list text :=
  [ lit ".GRAPH_VIEW."; lit ".SKETCH_VIEW."; lit ".MODEL_VIEW."; lit ".PLAN_VIEW."
  ; lit ".REFLECTED_PLAN_VIEW."; lit ".SECTION_VIEW."; lit ".ELEVATION_VIEW."
  ; lit ".USERDEFINED."; lit ".NOTDEFINED." ].

(** /repo/ifc_rs/src/geometry/profile_type.rs:14-20: Curve, Area. *)
Definition enum_ProfileType : list text :=
  [ lit ".CURVE."; lit ".AREA." ].

(** /repo/ifc_rs/src/geometry/shape_representation/repr_identifier.rs:7-44: CoG, Box, Annotation, Axis, FootPrint, Profile, Surface, Reference, Body, BodyFallBack, Clearance, Lighting. *)
Definition enum_RepresentationIdentifier : list text :=
  [ lit "'CoG'"; lit "'Box'"; lit "'Annotation'"; lit "'Axis'"; lit "'FootPrint'"
  ; lit "'Profile'"; lit "'Surface'"; lit "'Reference'"; lit "'Body'"; lit "'Body-FallBack'"
  ; lit "'Clearance'"; lit "'Lighting'" ].

(** /repo/ifc_rs/src/geometry/shape_representation/repr_type.rs:8-96: Point, PointCloud, Curve, Curve2D, Curve3D, Surface, Surface2D, Surface3D, SectionedSurface, FillArea, Text, AdvancedSurface, GeometricSet, GeometricCurveSet, Annotation2D, SurfaceModel, Tessellation, Segment, SolidModel, SweptSolid, AdvancedSweptSolid, Brep, AdvancedBrep, CSG, Clipping, BoundingBox, SectionedSpine, LightSource, MappedRepresentation. *)
Definition enum_RepresentationType : list text :=
  [ lit "'Point'"; lit "'PointCloud'"; lit "'Curve'"; lit "'Curve2D'"; lit "'Curve3D'"
  ; lit "'Surface'"; lit "'Surface2D'"; lit "'Surface3D'"; lit "'SectionedSurface'"
  ; lit "'FillArea'"; lit "'Text'"; lit "'AdvancedSurface'"; lit "'GeometricSet'"
  ; lit "'GeometricCurveSet'"; lit "'Annotation2D'"; lit "'SurfaceModel'"
  ; lit "'Tessellation'"; lit "'Segment'"; lit "'SolidModel'"; lit "'SweptSolid'"
  ; lit "'AdvancedSweptSolid'"; lit "'Brep'"; lit "'AdvancedBrep'"; lit "'CSG'"
  ; lit "'Clipping'"; lit "'BoundingBox'"; lit "'SectionedSpine'"; lit "'LightSource'"
  ; lit "'MappedRepresentation'" ].

(** /repo/ifc_rs/src/materials/direction_sense_enum.rs:14-22: Positive, Negative. *)
Definition enum_DirectionSenseEnum : list text :=
  [ lit ".POSITIVE."; lit ".NEGATIVE." ].

(** /repo/ifc_rs/src/materials/layer_set_direction_enum.rs:15-27: Axis1, Axis2, Axis3. *)
Definition enum_LayerSetDirectionEnum : list text :=
  [ lit ".AXIS1."; lit ".AXIS2."; lit ".AXIS3." ].

(** /repo/ifc_rs/src/objects/access_state/mod.rs:19-37: ReadWrite, ReadOnly, Locked, ReadWriteLocked, ReadOnlyLocked. *)
Definition enum_AccessState : list text :=
  [ lit ".READWRITE."; lit ".READONLY."; lit ".LOCKED."; lit ".READWRITELOCKED."
  ; lit ".READONLYLOCKED." ].

(** /repo/ifc_rs/src/objects/actor_role/mod.rs:37-84: Supplier, Manufacturer, Contractor, Subcontractor, Architect, StructuralEngineer, CostEngineer, Clien, BuildingOwner, BuildingOperator, MechanicalEngineer, ElectricalEngineer, ProjectManager, FacilitiesManager, CivilEngineer, ComissionEngineer, Engineer, Owner, Consultant, ConstructionManager, FieldConstructionManager, Reseller, UserDefined. *)
Definition enum_Role : list text :=
  [ lit ".SUPPLIER."; lit ".MANUFACTURER."; lit ".CONTRACTOR."; lit ".SUBCONTRACTOR."
  ; lit ".ARCHITECT."; lit ".STRUCTURALENGINEER."; lit ".COSTENGINEER."; lit ".CLIENT."
  ; lit ".BUILDINGOWNER."; lit ".BUILDINGOPERATOR."; lit ".MECHANICALENGINEER."
  ; lit ".ELECTRICALENGINEER."; lit ".PROJECTMANAGER."; lit ".FACILITIESMANAGER."
  ; lit ".CIVILENGINEER."; lit ".COMISSIONENGINEER."; lit ".ENGINEER."; lit ".OWNER."
  ; lit ".CONSULTANT."; lit ".CONSTRUCTIONMANAGER."; lit ".FIELDCONSTRUCTIONMANAGER."
  ; lit ".RESELLER."; lit ".USERDEFINED." ].

(** /repo/ifc_rs/src/objects/change_action/mod.rs:21-45: NoChange, Modified, Added, Deleted, ModifiedAdded, ModifiedDeleted. *)
Definition enum_ChangeAction : list text :=
  [ lit ".NOCHANGE."; lit ".MODIFIED."; lit ".ADDED."; lit ".DELETED."
  ; lit ".MODIFIEDADDED."; lit ".MODIFIEDDELETED." ].

(** /repo/ifc_rs/src/objects/doortype/door_operation_type_enum.rs:21-117: SingleSwingLeft, SingleSwingRight, DoubleDoorSingleSwing, DoubleSwingLeft, DoubleSwingRight, DoubleDoorDoubleSwing, DoubleDoorSingleSwingOppositeLeft, DoubleDoorSingleSwingOppositeRight, SlidingToLeft, SlidingToRight, DoubleDoorSliding, FoldingToLeft, FoldingToRight, DoubleDoorFolding, Revolving, RollingUp, SwingFixedLeft, SwingFixedRight, UserDefined, NotDefined. *)
Definition enum_DoorOperationTypeEnum : list text :=
  [ lit ".SINGLE_SWING_LEFT."; lit ".SINGLE_SWING_RIGHT."; lit ".DOUBLE_DOOR_SINGLE_SWING."
  ; lit ".DOUBLE_SWING_LEFT."; lit ".DOUBLE_SWING_RIGHT."; lit ".DOUBLE_DOOR_DOUBLE_SWING."
  ; lit ".DOUBLE_DOOR_SINGLE_SWING_OPPOSITE_LEFT."
  ; lit ".DOUBLE_DOOR_SINGLE_SWING_OPPOSITE_RIGHT."; lit ".SLIDING_TO_LEFT."
  ; lit ".SLIDING_TO_RIGHT."; lit ".DOUBLE_DOOR_SLIDING."; lit ".FOLDING_TO_LEFT."
  ; lit ".FOLDING_TO_RIGHT."; lit ".DOUBLE_DOOR_FOLDING."; lit ".REVOLVING."
  ; lit ".ROLLINGUP."; lit ".SWING_FIXED_LEFT."; lit ".SWING_FIXED_RIGHT."
  ; lit ".USERDEFINED."; lit ".NOTDEFINED." ].

(** /repo/ifc_rs/src/objects/doortype/door_type_enum.rs:14-37: Door, Gate, Trapdoor, UserDefined, NotDefined. *)
Definition enum_DoorTypeEnum : list text :=
  [ lit ".DOOR."; lit ".GATE."; lit ".TRAPDOOR."; lit ".USERDEFINED."; lit ".NOTDEFINED." ].

(** /repo/ifc_rs/src/objects/opening_element/opening_element_type_enum.rs:11-31: Opening, Recess, UserDefined, NotDefined. *)
Definition enum_OpeningElementTypeEnum : list text :=
  [ lit ".OPENING."; lit ".RECESS."; lit ".USERDEFINED."; lit ".NOTDEFINED." ].

(** /repo/ifc_rs/src/objects/rooftype/type_enum.rs:17-76: FlatRoof, ShedRoof, GableRoof, HipRoof, HippedGableRoof, GambrelRoof, MansardRoof, BarrelRoof, RainbowRoof, ButterflyRoof, PavilionRoof, DomeRoof, UserDefined, NotDefined. *)
Definition enum_RoofTypeEnum : list text :=
  [ lit ".FLAT_ROOF."; lit ".SHED_ROOF."; lit ".GABLE_ROOF."; lit ".HIP_ROOF."
  ; lit ".HIPPED_GABLE_ROOF."; lit ".GAMBREL_ROOF."; lit ".MANSARD_ROOF."
  ; lit ".BARREL_ROOF."; lit ".RAINBOW_ROOF."; lit ".BUTTERFLY_ROOF."; lit ".PAVILION_ROOF."
  ; lit ".DOME_ROOF."; lit ".USERDEFINED."; lit ".NOTDEFINED." ].

(** /repo/ifc_rs/src/objects/shading_device_type_enum.rs:14-38: Awning, Parking, Shutter, UserDefined, NotDefined. *)
Definition enum_ShadingDeviceTypeEnum : list text :=
  [ lit ".AWNING."; lit ".JALOUSIE."; lit ".SHUTTER."; lit ".USERDEFINED."
  ; lit ".NOTDEFINED." ].

(** /repo/ifc_rs/src/objects/shared/composition_type_enum.rs:11-23: Comples, Element, Partial. *)
Definition enum_CompositionTypeEnum : list text :=
  [ lit ".COMPLEX."; lit ".ELEMENT."; lit ".PARTIAL." ].

(** /repo/ifc_rs/src/objects/slabtype/type_enum.rs:14-39: Floor, Roof, Landing, BaseSlab, UserDefined, NotDefined. *)
Definition enum_SlabTypeEnum : list text :=
  [ lit ".FLOOR."; lit ".ROOF."; lit ".LANDING."; lit ".BASESLAB."; lit ".USERDEFINED."
  ; lit ".NOTDEFINED." ].

(** /repo/ifc_rs/src/objects/spacetype/type_enum.rs:14-43: Space, Parking, Gfa, Internal, External, UserDefined, NotDefined. *)
Definition enum_SpaceTypeEnum : list text :=
  [ lit ".SPACE."; lit ".PARKING."; lit ".GFA."; lit ".INTERNAL."; lit ".EXTERNAL."
  ; lit ".USERDEFINED."; lit ".NOTDEFINED." ].

(** /repo/ifc_rs/src/objects/walltype/type_enum.rs:13-74: Movable, Parapet, Partitioning, Plumbingwall, Shear, Solidwall, Standard, Polygonal, Elementedwall, Retainingwall, UserDefined, NotDefined. *)
Definition enum_WallTypeEnum : list text :=
  [ lit ".MOVABLE."; lit ".PARAPET."; lit ".PARTITIONING."; lit ".PLUMBINGWALL."
  ; lit ".SHEAR."; lit ".SOLIDWALL."; lit ".STANDARD."; lit ".POLYGONAL."
  ; lit ".ELEMENTEDWALL."; lit ".RETAININGWALL."; lit ".USERDEFINED."; lit ".NOTDEFINED." ].

(** /repo/ifc_rs/src/objects/windowtype/window_partitioning_type_enum.rs:19-67: SinglePanel, DoublePanelVertical, DoublePanelHorizontal, TriplePanelVertical, TriplePanelHorizontal, TriplePanelBottom, TriplePanelTop, TriplePanelLeft, TriplePanelRight, UserDefined, NotDefined. *)
Definition enum_WindowPartitioningTypeEnum : list text :=
  [ lit ".SINGLE_PANEL."; lit ".DOUBLE_PANEL_VERTICAL."; lit ".DOUBLE_PANEL_HORIZONTAL."
  ; lit ".TRIPLE_PANEL_VERTICAL."; lit ".TRIPLE_PANEL_HORIZONTAL."
  ; lit ".TRIPLE_PANEL_BOTTOM."; lit ".TRIPLE_PANEL_TOP."; lit ".TRIPLE_PANEL_LEFT."
  ; lit ".TRIPLE_PANEL_RIGHT."; lit ".USERDEFINED."; lit ".NOTDEFINED." ].

(** /repo/ifc_rs/src/objects/windowtype/window_type_enum.rs:14-35: Window, Skylight, Lightdome, UserDefined, NotDefined. *)
Definition enum_WindowTypeEnum : list text :=
  [ lit ".WINDOW."; lit ".SKYLIGHT."; lit ".LIGHTDOME."; lit ".USERDEFINED."
  ; lit ".NOTDEFINED." ].

(** /repo/ifc_rs/src/units/conversion_based_unit.rs:79-207: Degree, Inch, Foot, Yard, Mile, SquareInch, SquareFoot, SquareYard, Acre, SquareMile, CubicInch, CubicFoot, CubicYard, Litre, FluidOunceUK, FluidOunceUS, PintUK, PintUS, GallonUK, GallonUS, Ounce, Pound, TonUK, TonUS, Lbf, Kip, Psi, Ksi, Minute, Hour, Day, Btu. *)
Definition enum_ConversionUnitName : list text :=
  [ lit "'DEGREE'"; lit "'INCH'"; lit "'FOOT'"; lit "'YARD'"; lit "'MILE'"
  ; lit "'SQUARE INCH'"; lit "'SQUARE FOOT'"; lit "'SQUARE YARD'"; lit "'ACRE'"
  ; lit "'SQUARE MILE'"; lit "'CUBIC INCH'"; lit "'CUBIC FOOT'"; lit "'CUBIC YARD'"
  ; lit "'LITRE'"; lit "'FLUID OUNCE UK'"; lit "'FLUID OUNCE US'"; lit "'PINT UK'"
  ; lit "'PINT US'"; lit "'GALLON UK'"; lit "'GALLON US'"; lit "'OUNCE'"; lit "'POUND'"
  ; lit "'TON UK'"; lit "'TON US'"; lit "'LBF'"; lit "'KIP'"; lit "'PSI'"; lit "'KSI'"
  ; lit "'MINUTE'"; lit "'HOUR'"; lit "'DAY'"; lit "'BTU'" ].

(** /repo/ifc_rs/src/units/derived_unit_enum.rs:13-169: in declaration order. *)
Definition enum_DerivedUnitEnum : list text :=
  [ lit ".ANGULARVELOCITYUNIT."; lit ".AREADENSITYUNIT."; lit ".COMPOUNDPLANEANGLEUNIT."
  ; lit ".DYNAMICVISCOSITYUNIT."; lit ".HEATFLUXDENSITYUNIT."; lit ".INTEGERCOUNTRATEUNIT."
  ; lit ".ISOTHERMALMOISTURECAPACITYUNIT."; lit ".KINEMATICVISCOSITYUNIT."
  ; lit ".LINEARVELOCITYUNIT."; lit ".MASSDENSITYUNIT."; lit ".MASSFLOWRATEUNIT."
  ; lit ".MOISTUREDIFFUSIVITYUNIT."; lit ".MOLECULARWEIGHTUNIT."
  ; lit ".SPECIFICHEATCAPACITYUNIT."; lit ".THERMALADMITTANCEUNIT."
  ; lit ".THERMALCONDUCTANCEUNIT."; lit ".THERMALRESISTANCEUNIT."
  ; lit ".THERMALTRANSMITTANCEUNIT."; lit ".VAPORPERMEABILITYUNIT."
  ; lit ".VOLUMETRICFLOWRATEUNIT."; lit ".ROTATIONALFREQUENCYUNIT."; lit ".TORQUEUNIT."
  ; lit ".MOMENTOFINERTIAUNIT."; lit ".LINEARMOMENTUNIT."; lit ".LINEARFORCEUNIT."
  ; lit ".PLANARFORCEUNIT."; lit ".MODULUSOFELASTICITYUNIT."; lit ".SHEARMODULUSUNIT."
  ; lit ".LINEARSTIFFNESSUNIT."; lit ".ROTATIONALSTIFFNESSUNIT."
  ; lit ".MODULUSOFSUBGRADEREACTIONUNIT."; lit ".ACCELERATIONUNIT."; lit ".CURVATUREUNIT."
  ; lit ".IONCONCENTRATIONUNIT."; lit ".LUMINOUSINTENSITYDISTRIBUTIONUNIT."
  ; lit ".MASSPERLENGTHUNIT."; lit ".MODULUSOFLINEARSUBGRADEREACTIONUNIT."
  ; lit ".MODULUSOFROTATIONALSUBGRADEREACTIONUNIT."; lit ".PHUNIT."
  ; lit ".ROTATIONALMASSUNIT."; lit ".SECTIONAREAINTEGRALUNIT."; lit ".SECTIONMODULUSUNIT."
  ; lit ".SOUNDPOWERLEVELUNIT."; lit ".SOUNDPOWERUNIT."; lit ".SOUNDPRESSURELEVELUNIT."
  ; lit ".SOUNDPRESSUREUNIT."; lit ".TEMPERATUREGRADIENTUNIT."
  ; lit ".TEMPERATURERATEOFCHANGEUNIT."; lit ".THERMALEXPANSIONCOEFFICIENTUNIT."
  ; lit ".WARPINGCONSTANTUNIT."; lit ".WARPINGMOMENTUNIT."; lit ".USERDEFINED." ].

(** /repo/ifc_rs/src/units/name.rs:13-133: Ampere, Becquerel, Candela, Couloumb, CubicMetre, DegreeCelcius, Farad, Gram, Gray, Henry, Hertz, Joule, Kelvin, Lumen, Lux, Metre, Mole, Newton, Ohm, Pascal, Radian, Second, Siemens, Sievert, SquareMetre, Steradian, Tesla, Volt, Watt, Weber. *)
Definition enum_IfcUnitName : list text :=
  [ lit ".AMPERE."; lit ".BECQUEREL."; lit ".CANDELA."; lit ".COULOUMB."
  ; lit ".CUBIC_METRE."; lit ".DEGREE_CELSIUS."; lit ".FARAD."; lit ".GRAM."; lit ".GRAY."
  ; lit ".HENRY."; lit ".HERTZ."; lit ".JOULE."; lit ".KELVIN."; lit ".LUMEN."; lit ".LUX."
  ; lit ".METRE."; lit ".MOLE."; lit ".NEWTON."; lit ".OHM."; lit ".PASCAL."; lit ".RADIAN."
  ; lit ".SECOND."; lit ".SIEMENS."; lit ".SIEVERT."; lit ".SQUARE_METRE."
  ; lit ".STERADIAN."; lit ".TESLA."; lit ".VOLT."; lit ".WATT."; lit ".WEBER." ].

(** /repo/ifc_rs/src/units/prefix.rs:11-71: Exa, Peta, Tera, Giga, Mega, Kilo, Deca, Deci, Centi, Milli, Micro, Nano, Pico, Femto, Atto. *)
Definition enum_IfcPrefix : list text :=
  [ lit ".EXA."; lit ".PETA."; lit ".TERA."; lit ".GIGA."; lit ".MEGA."; lit ".KILO."
  ; lit ".DECA."; lit ".DECI."; lit ".CENTI."; lit ".MILLI."; lit ".MICRO."; lit ".NANO."
  ; lit ".PICO."; lit ".FEMTO."; lit ".ATTO." ].

(** /repo/ifc_rs/src/units/unit_enum.rs:13-129: AbsorbedDoseUnit, AmountOfSubstanceUnit, AreaUnit, DoseEquivalentUnit, ElectricCapacitanceUnit, ElectricChargeUnit, ElectricConductanceUnit, ElectricCurrentUnit, ElectricResistanceUnit, ElectricVoltageUnit, EnergyUnit, ForceUnit, IlluminanceUnit, InductanceUnit, LengthUnit, LuminousFluxUnit, LuminousIntensityUnit, MagneticFluxDensityUnit, MagneticFluxUnit, MassUnit, PlaneAngleUnit, PowerUnit, PressureUnit, RadioActivityUnit, SolidAngleUnit, ThermoDynamicTemperatureUnit, TimeUnit, VolumeUnit, UserDefined. *)
Definition enum_IfcUnitEnum : list text :=
  [ lit ".ABSORBEDDOSEUNIT."; lit ".AMOUNTOFSUBSTANCEUNIT."; lit ".AREAUNIT."
  ; lit ".DOSEEQUIVALENTUNIT."; lit ".ELCTRICCAPACITANCEUNIT."; lit ".ELCTRICCHARGEUNIT."
  ; lit ".ELCTRICCONDUCTANCEUNIT."; lit ".ELCTRICCURRENTUNIT."
  ; lit ".ELCTRICRESISTANCEUNIT."; lit ".ELCTRICVOLTAGEUNIT."; lit ".ENERGYUNIT."
  ; lit ".FORCEUNIT."; lit ".ILLUMINANCEUNIT."; lit ".INDUCTANCEUNIT."; lit ".LENGTHUNIT."
  ; lit ".LUMINOUSFLUXUNIT."; lit ".LUMINOUSINTENSITYUNIT."; lit ".MAGNETICFLUXDENSITYUNIT."
  ; lit ".MAGNETICFLUXUNIT."; lit ".MASSUNIT."; lit ".PLANEANGLEUNIT."; lit ".POWERUNIT."
  ; lit ".PRESSUREUNIT."; lit ".RADIOACTIVITYUNIT."; lit ".SOLIDANGLEUNIT."
  ; lit ".THERMODYNAMICTEMPERATUREUNIT."; lit ".TIMEUNIT."; lit ".VOLUMEUNIT."
  ; lit ".USERDEFINED." ].

(** ** Attribute lists and rows *)

(** struct /repo/ifc_rs/src/objects/shared/root.rs:23,
    IFCParse /repo/ifc_rs/src/objects/shared/root.rs:75-89,
    Display /repo/ifc_rs/src/objects/shared/root.rs:91-99. *)
Definition fields_Root : list fty :=
  [ TGuid (* global_id *)
  ; TOpt (TRef [KOwnerHistory] true) (* owner_history *)
  ; TOpt TStr (* name *)
  ; TOpt TStr (* description *) ].

(** struct /repo/ifc_rs/src/objects/shared/object.rs:20,
    IFCParse /repo/ifc_rs/src/objects/shared/object.rs:63-73,
    Display /repo/ifc_rs/src/objects/shared/object.rs:75-79. *)
Definition fields_Object : list fty :=
  fields_Root ++
  [ TOpt TStr (* object_type *) ].

(** struct /repo/ifc_rs/src/objects/shared/product.rs:29,
    IFCParse /repo/ifc_rs/src/objects/shared/product.rs:156-168,
    Display /repo/ifc_rs/src/objects/shared/product.rs:170-178. *)
Definition fields_Product : list fty :=
  fields_Object ++
  [ TOpt (TRef [KAxis3D; KPoint3D; KLocalPlacement] true) (* object_placement *)
  ; TOpt (TRef [KProductDefinitionShape] true) (* representation *) ].

(** struct /repo/ifc_rs/src/objects/shared/element.rs:21,
    IFCParse /repo/ifc_rs/src/objects/shared/element.rs:63-73,
    Display /repo/ifc_rs/src/objects/shared/element.rs:75-79. *)
Definition fields_Element : list fty :=
  fields_Product ++
  [ TOpt TStr (* tag *) ].

(** struct /repo/ifc_rs/src/objects/shared/spatial_element.rs:22,
    IFCParse /repo/ifc_rs/src/objects/shared/spatial_element.rs:64-74,
    Display /repo/ifc_rs/src/objects/shared/spatial_element.rs:76-80. *)
Definition fields_SpatialElement : list fty :=
  fields_Product ++
  [ TOpt TStr (* long_name *) ].

(** struct /repo/ifc_rs/src/objects/shared/spatial_structure_element.rs:20,
    IFCParse /repo/ifc_rs/src/objects/shared/spatial_structure_element.rs:64-74,
    Display /repo/ifc_rs/src/objects/shared/spatial_structure_element.rs:76-80. *)
Definition fields_SpatialStructureElement : list fty :=
  fields_SpatialElement ++
  [ TOpt (TEnum enum_CompositionTypeEnum) (* composition_type *) ].

(** struct /repo/ifc_rs/src/objects/shared/context.rs:27,
    IFCParse /repo/ifc_rs/src/objects/shared/context.rs:120-138,
    Display /repo/ifc_rs/src/objects/shared/context.rs:140-153. *)
Definition fields_Context : list fty :=
  fields_Root ++
  [ TOpt TStr (* object_type *)
  ; TOpt TStr (* long_name *)
  ; TOpt TStr (* phase *)
  ; TList (TRef [KGeometricRepresentationContext] true) (* representation_context *)
  ; TOpt (TRef [KUnitAssigment] true) (* units_in_context *) ].

(** struct /repo/ifc_rs/src/objects/shared/type_object.rs:24,
    IFCParse /repo/ifc_rs/src/objects/shared/type_object.rs:79-91,
    Display /repo/ifc_rs/src/objects/shared/type_object.rs:93-101. *)
Definition fields_TypeObject : list fty :=
  fields_Root ++
  [ TOpt (TRef [] false) (* applicable_occurence *)
  ; TOpt (TList (TRef [] false)) (* has_property_sets *) ].

(** struct /repo/ifc_rs/src/objects/shared/type_product.rs:28,
    IFCParse /repo/ifc_rs/src/objects/shared/type_product.rs:83-95,
    Display /repo/ifc_rs/src/objects/shared/type_product.rs:97-105. *)
Definition fields_TypeProduct : list fty :=
  fields_TypeObject ++
  [ TOpt (TList (TRef [KRepresentationMap] true)) (* representation_maps *)
  ; TOpt TStr (* tag *) ].

(** struct /repo/ifc_rs/src/objects/shared/element_type.rs:23,
    IFCParse /repo/ifc_rs/src/objects/shared/element_type.rs:67-77,
    Display /repo/ifc_rs/src/objects/shared/element_type.rs:79-83. *)
Definition fields_ElementType : list fty :=
  fields_TypeProduct ++
  [ TOpt TStr (* element_type *) ].

(** struct /repo/ifc_rs/src/objects/shared/rel_associates.rs:21,
    IFCParse /repo/ifc_rs/src/objects/shared/rel_associates.rs:70-80,
    Display /repo/ifc_rs/src/objects/shared/rel_associates.rs:82-86. *)
Definition fields_RelAssociates : list fty :=
  fields_Root ++
  [ TList (TRef [] false) (* related_objects *) ].

(** struct /repo/ifc_rs/src/units/shared/named_unit.rs:11,
    IFCParse /repo/ifc_rs/src/units/shared/named_unit.rs:19-29,
    Display /repo/ifc_rs/src/units/shared/named_unit.rs:31-35. *)
Definition fields_NamedUnit : list fty :=
  [ TOpt (TRef [] false) (* dimensions *)
  ; TOpt (TEnum enum_IfcUnitEnum) (* unit_type *) ].

(** struct /repo/ifc_rs/src/properties/extended_base.rs:17,
    IFCParse /repo/ifc_rs/src/properties/extended_base.rs:55-70,
    Display /repo/ifc_rs/src/properties/extended_base.rs:72-76. *)
Definition fields_ExtendedPropertyBase : list fty :=
  [ TOpt TStr (* name *)
  ; TOpt TStr (* description *)
  ; TList (TRef [] false) (* properties *) ].

(** struct /repo/ifc_rs/src/properties/base.rs:13,
    IFCParse /repo/ifc_rs/src/properties/base.rs:43-56,
    Display /repo/ifc_rs/src/properties/base.rs:58-62. *)
Definition fields_PropertyBase : list fty :=
  [ TOpt TStr (* name *)
  ; TOpt TStr (* description *) ].

(** IFCParse /repo/ifc_rs/src/geometry/direction/deserialize.rs:18-25,
    Display /repo/ifc_rs/src/geometry/direction/serialize.rs:11-15. *)
Definition row_Direction3D : row := mk_row [lit "IFCDIRECTION("] false (lit ");")
  ([ TVec3 ]).

(** IFCParse /repo/ifc_rs/src/geometry/point/deserialize.rs:18-25,
    Display /repo/ifc_rs/src/geometry/point/serialize.rs:11-15. *)
Definition row_Point3D : row := mk_row [lit "IFCCARTESIANPOINT("] false (lit ");")
  ([ TVec3 ]).

(** struct /repo/ifc_rs/src/geometry/transform_base.rs:23,
    IFCParse /repo/ifc_rs/src/geometry/transform_base.rs:88-107,
    Display /repo/ifc_rs/src/geometry/transform_base.rs:109-117. *)
Definition fields_Transform3DBase : list fty :=
  [ TOpt (idor KDirection3D row_Direction3D) (* axis_x *)
  ; TOpt (idor KDirection3D row_Direction3D) (* axis_y *)
  ; TOpt (idor KPoint3D row_Point3D) (* local_origin *)
  ; TOpt TReal (* scale *)
  ; TOpt (idor KDirection3D row_Direction3D) (* axis_z *) ].

(** struct /repo/ifc_rs/src/objects/actor_role/mod.rs:20,
    IFCParse /repo/ifc_rs/src/objects/actor_role/deserialize.rs:8-27,
    Display /repo/ifc_rs/src/objects/actor_role/serialize.rs:5-15. *)
Definition row_ActorRole : row := mk_row [lit "IFCACTORROLE("] false (lit ");")
  ([ TEnum enum_Role (* role *)
  ; TOpt TStr (* user_defined_role *)
  ; TOpt TStr (* description *) ]).

(** struct /repo/ifc_rs/src/objects/address/mod.rs:49,
    IFCParse /repo/ifc_rs/src/objects/address/deserialize.rs:62-124,
    Display /repo/ifc_rs/src/objects/address/serialize.rs:22-39. *)
Definition row_PostalAddress : row := mk_row [lit "IFCPOSTALADDRESS("] false (lit ");")
  ([ TOpt TStr (* purpose *)
  ; TOpt TStr (* description *)
  ; TOpt TStr (* user_defined_purpose *)
  ; TOpt TStr (* internal_location *)
  ; TOpt (TList TStr) (* address_lines *)
  ; TOpt TStr (* postal_box *)
  ; TOpt (TList TStr) (* town *)
  ; TOpt TStr (* region *)
  ; TOpt TStr (* postal_code *)
  ; TOpt TStr (* country *) ]).

(** struct /repo/ifc_rs/src/objects/address/mod.rs:16,
    IFCParse /repo/ifc_rs/src/objects/address/deserialize.rs:8-60,
    Display /repo/ifc_rs/src/objects/address/serialize.rs:5-20. *)
Definition row_TelecomAddress : row := mk_row [lit "IFCTELECOMADDRESS("] false (lit ");")
  ([ TOpt TStr (* purpose *)
  ; TOpt TStr (* description *)
  ; TOpt TStr (* user_defined_purpose *)
  ; TOpt (TList TStr) (* telephone_numbers *)
  ; TOpt (TList TStr) (* facsimile_numbers *)
  ; TOpt TStr (* pager_number *)
  ; TOpt (TList TStr) (* email_addresses *)
  ; TOpt TStr (* homepage_url *) ]).

(** struct /repo/ifc_rs/src/objects/application/mod.rs:14,
    IFCParse /repo/ifc_rs/src/objects/application/deserialize.rs:7-23,
    Display /repo/ifc_rs/src/objects/application/serialize.rs:5-16. *)
Definition row_Application : row := mk_row [lit "IFCAPPLICATION("] false (lit ");")
  ([ TRef [KOrganization] true (* application_developer *)
  ; TStr (* version *)
  ; TStr (* application_full_name *)
  ; TStr (* application_identifier *) ]).

(** struct /repo/ifc_rs/src/objects/organization/mod.rs:16,
    IFCParse /repo/ifc_rs/src/objects/organization/deserialize.rs:10-37,
    Display /repo/ifc_rs/src/objects/organization/serialize.rs:5-17. *)
Definition row_Organization : row := mk_row [lit "IFCORGANIZATION("] false (lit ");")
  ([ TOpt TStr (* id *)
  ; TStr (* name *)
  ; TOpt TStr (* description *)
  ; TOpt (TList (TRef [KActorRole] true)) (* roles *)
  ; TOpt (TList (TRef [KTelecomAddress; KPostalAddress] true)) (* addresses *) ]).

(** struct /repo/ifc_rs/src/objects/owner_history/mod.rs:18,
    IFCParse /repo/ifc_rs/src/objects/owner_history/deserialize.rs:10-62,
    Display /repo/ifc_rs/src/objects/owner_history/serialize.rs:5-20. *)
Definition row_OwnerHistory : row := mk_row [lit "IFCOWNERHISTORY("] false (lit ");")
  ([ TOpt (TRef [KPersonAndOrganization] true) (* owning_user *)
  ; TOpt (TRef [KApplication] true) (* owning_application *)
  ; TOpt (TEnum enum_AccessState) (* state *)
  ; TEnum enum_ChangeAction (* change_action *)
  ; TOpt TTime (* last_modified_date *)
  ; TOpt (TRef [KPersonAndOrganization] true) (* last_modifying_user *)
  ; TOpt (TRef [KApplication] true) (* last_modifying_application *)
  ; TTime (* creation_date *) ]).

(** struct /repo/ifc_rs/src/objects/person/mod.rs:16,
    IFCParse /repo/ifc_rs/src/objects/person/deserialize.rs:8-60,
    Display /repo/ifc_rs/src/objects/person/serialize.rs:5-20. *)
Definition row_Person : row := mk_row [lit "IFCPERSON("] false (lit ");")
  ([ TOpt TStr (* id *)
  ; TOpt TStr (* family_name *)
  ; TOpt TStr (* given_name *)
  ; TOpt (TList TStr) (* middle_names *)
  ; TOpt (TList TStr) (* prefix_titles *)
  ; TOpt (TList TStr) (* suffix_titles *)
  ; TOpt (TList (TRef [KActorRole] true)) (* roles *)
  ; TOpt (TList (TRef [KTelecomAddress; KPostalAddress] true)) (* addresses *) ]).

(** struct /repo/ifc_rs/src/objects/person_and_org/mod.rs:16,
    IFCParse /repo/ifc_rs/src/objects/person_and_org/deserialize.rs:9-28,
    Display /repo/ifc_rs/src/objects/person_and_org/serialize.rs:5-15. *)
Definition row_PersonAndOrganization : row := mk_row [lit "IFCPERSONANDORGANIZATION("] false (lit ");")
  ([ TRef [KPerson] true (* the_person *)
  ; TRef [KOrganization] true (* the_organization *)
  ; TOpt (TList (TRef [KActorRole] true)) (* roles *) ]).

(** struct /repo/ifc_rs/src/objects/walltype/mod.rs:25,
    IFCParse /repo/ifc_rs/src/objects/walltype/deserialize.rs:10-24,
    Display /repo/ifc_rs/src/objects/walltype/serialize.rs:5-13. *)
Definition row_WallType : row := mk_row [lit "IFCWALLTYPE("] true (lit ");")
  (fields_ElementType ++
  [ TEnum enum_WallTypeEnum (* predefined_type *) ]).

(** struct /repo/ifc_rs/src/objects/wall/mod.rs:23,
    IFCParse /repo/ifc_rs/src/objects/wall/deserialize.rs:9-23,
    Display /repo/ifc_rs/src/objects/wall/serialize.rs:5-9. *)
Definition row_Wall : row := mk_row [lit "IFCWALL("; lit "IFCWALLSTANDARDCASE("] true (lit ");")
  (fields_Element ++
  [ TOpt (idor KWallType row_WallType) (* predefined_type *) ]).

(** struct /repo/ifc_rs/src/objects/slab/mod.rs:40,
    IFCParse /repo/ifc_rs/src/objects/slab/deserialize.rs:9-23,
    Display /repo/ifc_rs/src/objects/slab/serialize.rs:5-9. *)
Definition row_Slab : row := mk_row [lit "IFCSLAB("; lit "IFCSLABSTANDARDCASE("] true (lit ");")
  (fields_Element ++
  [ TOpt (TEnum enum_SlabTypeEnum) (* predefined_type *) ]).

(** struct /repo/ifc_rs/src/objects/slabtype/mod.rs:41,
    IFCParse /repo/ifc_rs/src/objects/slabtype/deserialize.rs:8-22,
    Display /repo/ifc_rs/src/objects/slabtype/serialize.rs:5-13. *)
Definition row_SlabType : row := mk_row [lit "IFCSLABTYPE("] true (lit ");")
  (fields_ElementType ++
  [ TEnum enum_SlabTypeEnum (* predefined_type *) ]).

(** struct /repo/ifc_rs/src/objects/roof/mod.rs:41,
    IFCParse /repo/ifc_rs/src/objects/roof/deserialize.rs:8-22,
    Display /repo/ifc_rs/src/objects/roof/serialize.rs:5-9. *)
Definition row_Roof : row := mk_row [lit "IFCROOF("] true (lit ");")
  (fields_Element ++
  [ TOpt (TEnum enum_RoofTypeEnum) (* predefined_type *) ]).

(** struct /repo/ifc_rs/src/objects/rooftype/mod.rs:21,
    IFCParse /repo/ifc_rs/src/objects/rooftype/deserialize.rs:8-22,
    Display /repo/ifc_rs/src/objects/rooftype/serialize.rs:5-13. *)
Definition row_RoofType : row := mk_row [lit "IFCROOFTYPE("] true (lit ");")
  (fields_ElementType ++
  [ TEnum enum_RoofTypeEnum (* predefined_type *) ]).

(** struct /repo/ifc_rs/src/objects/building.rs:24,
    IFCParse /repo/ifc_rs/src/objects/building.rs:117-135,
    Display /repo/ifc_rs/src/objects/building.rs:137-148. *)
Definition row_Building : row := mk_row [lit "IFCBUILDING("] true (lit ");")
  (fields_SpatialStructureElement ++
  [ TOpt TReal (* elevation_of_ref_height *)
  ; TOpt TReal (* elevation_of_terrain *)
  ; TOpt (TRef [KPostalAddress] true) (* building_address *) ]).

(** struct /repo/ifc_rs/src/objects/storey.rs:55,
    IFCParse /repo/ifc_rs/src/objects/storey.rs:126-140,
    Display /repo/ifc_rs/src/objects/storey.rs:142-150. *)
Definition row_Storey : row := mk_row [lit "IFCBUILDINGSTOREY("] true (lit ");")
  (fields_SpatialStructureElement ++
  [ TOpt TReal (* elevation *) ]).

(** struct /repo/ifc_rs/src/objects/site.rs:55,
    IFCParse /repo/ifc_rs/src/objects/site.rs:169-191,
    Display /repo/ifc_rs/src/objects/site.rs:193-206. *)
Definition row_Site : row := mk_row [lit "IFCSITE("] true (lit ");")
  (fields_SpatialStructureElement ++
  [ TOpt (TList TInt) (* ref_latitude *)
  ; TOpt (TList TInt) (* ref_longitude *)
  ; TOpt TReal (* ref_elevation *)
  ; TOpt TStr (* land_title_number *)
  ; TOpt (TRef [KPostalAddress] true) (* site_address *) ]).

(** struct /repo/ifc_rs/src/objects/opening_element/mod.rs:61,
    IFCParse /repo/ifc_rs/src/objects/opening_element/deserialize.rs:8-22,
    Display /repo/ifc_rs/src/objects/opening_element/serialize.rs:6-10. *)
Definition row_OpeningElement : row := mk_row [lit "IFCOPENINGELEMENT("] true (lit ");")
  (fields_Element ++
  [ TOpt (TEnum enum_OpeningElementTypeEnum) (* predefined_type *) ]).

(** struct /repo/ifc_rs/src/objects/window/mod.rs:75,
    IFCParse /repo/ifc_rs/src/objects/window/deserialize.rs:9-31,
    Display /repo/ifc_rs/src/objects/window/serialize.rs:5-18. *)
Definition row_Window : row := mk_row [lit "IFCWINDOW("; lit "IFCWINDOWSTANDARDCASE("] true (lit ");")
  (fields_Element ++
  [ TOpt TReal (* overall_height *)
  ; TOpt TReal (* overall_width *)
  ; TOpt (TEnum enum_WindowTypeEnum) (* predefined_type *)
  ; TOpt (TEnum enum_WindowPartitioningTypeEnum) (* partitioning_type *)
  ; TOpt TStr (* user_defining_partitioning_type *) ]).

(** struct /repo/ifc_rs/src/objects/windowtype/mod.rs:44,
    IFCParse /repo/ifc_rs/src/objects/windowtype/deserialize.rs:17-37,
    Display /repo/ifc_rs/src/objects/windowtype/serialize.rs:5-17. *)
Definition row_WindowType : row := mk_row [lit "IFCWINDOWTYPE("] true (lit ");")
  (fields_ElementType ++
  [ TEnum enum_WindowTypeEnum (* predefined_type *)
  ; TEnum enum_WindowPartitioningTypeEnum (* partitioning_type *)
  ; TOpt TBool (* parameter_takes_precedence *)
  ; TOpt TStr (* user_defined_partitioning_type *) ]).

(** struct /repo/ifc_rs/src/objects/project.rs:23,
    IFCParse /repo/ifc_rs/src/objects/project.rs:62-74,
    Display /repo/ifc_rs/src/objects/project.rs:76-80. *)
Definition row_Project : row := mk_row [lit "IFCPROJECT("] true (lit ");")
  (fields_Context).

(** struct /repo/ifc_rs/src/objects/space/mod.rs:43,
    IFCParse /repo/ifc_rs/src/objects/space/deserialize.rs:9-25,
    Display /repo/ifc_rs/src/objects/space/serialize.rs:5-13. *)
Definition row_Space : row := mk_row [lit "IFCSPACE("] true (lit ");")
  (fields_SpatialStructureElement ++
  [ TOpt (TEnum enum_SpaceTypeEnum) (* predefined_type *)
  ; TOpt TReal (* elevation_with_flooring *) ]).

(** struct /repo/ifc_rs/src/objects/spacetype/mod.rs:42,
    IFCParse /repo/ifc_rs/src/objects/spacetype/deserialize.rs:13-29,
    Display /repo/ifc_rs/src/objects/spacetype/serialize.rs:5-13. *)
Definition row_SpaceType : row := mk_row [lit "IFCSPACETYPE("] true (lit ");")
  (fields_ElementType ++
  [ TEnum enum_SpaceTypeEnum (* predefined_type *)
  ; TOpt TStr (* long_name *) ]).

(** struct /repo/ifc_rs/src/objects/door/mod.rs:99,
    IFCParse /repo/ifc_rs/src/objects/door/deserialize.rs:9-31,
    Display /repo/ifc_rs/src/objects/door/serialize.rs:5-18. *)
Definition row_Door : row := mk_row [lit "IFCDOOR("; lit "IFCDOORSTANDARDCASE("] true (lit ");")
  (fields_Element ++
  [ TOpt TReal (* overall_height *)
  ; TOpt TReal (* overall_width *)
  ; TOpt (TEnum enum_DoorTypeEnum) (* predefined_type *)
  ; TOpt (TEnum enum_DoorOperationTypeEnum) (* operation_type *)
  ; TOpt TStr (* user_defining_operation_type *) ]).

(** struct /repo/ifc_rs/src/objects/doortype/mod.rs:39,
    IFCParse /repo/ifc_rs/src/objects/doortype/deserialize.rs:16-36,
    Display /repo/ifc_rs/src/objects/doortype/serialize.rs:5-17. *)
Definition row_DoorType : row := mk_row [lit "IFCDOORTYPE("] true (lit ");")
  (fields_ElementType ++
  [ TEnum enum_DoorTypeEnum (* predefined_type *)
  ; TEnum enum_DoorOperationTypeEnum (* operation_type *)
  ; TOpt TBool (* parameter_takes_precedence *)
  ; TOpt TStr (* user_defined_partitioning_type *) ]).

(** struct /repo/ifc_rs/src/objects/shading_device.rs:26,
    IFCParse /repo/ifc_rs/src/objects/shading_device.rs:48-62,
    Display /repo/ifc_rs/src/objects/shading_device.rs:64-72. *)
Definition row_ShadingDevice : row := mk_row [lit "IFCSHADINGDEVICE("] true (lit ");")
  (fields_Element ++
  [ TOpt (TEnum enum_ShadingDeviceTypeEnum) (* predefined_type *) ]).

(** struct /repo/ifc_rs/src/objects/shading_device_type.rs:26,
    IFCParse /repo/ifc_rs/src/objects/shading_device_type.rs:46-60,
    Display /repo/ifc_rs/src/objects/shading_device_type.rs:62-70. *)
Definition row_ShadingDeviceType : row := mk_row [lit "IFCSHADINGDEVICETYPE("] true (lit ");")
  (fields_ElementType ++
  [ TEnum enum_ShadingDeviceTypeEnum (* predefined_type *) ]).

(** struct /repo/ifc_rs/src/geometry/arbitrary_closed_profile_def/mod.rs:31,
    IFCParse /repo/ifc_rs/src/geometry/arbitrary_closed_profile_def/deserialize.rs:8-24,
    Display /repo/ifc_rs/src/geometry/arbitrary_closed_profile_def/serialize.rs:5-13. *)
Definition row_ArbitraryClosedProfileDef : row := mk_row [lit "IFCARBITRARYCLOSEDPROFILEDEF("] true (lit ");")
  ([ TEnum enum_ProfileType (* profile_type *)
  ; TOpt TStr (* profile_name *)
  ; TRef [KIndexedPolyCurve; KPolyLine] true (* outer_curve *) ]).

(** struct /repo/ifc_rs/src/geometry/axis/mod.rs:37,
    IFCParse /repo/ifc_rs/src/geometry/axis/deserialize.rs:12-21,
    Display /repo/ifc_rs/src/geometry/axis/serialize.rs:5-14. *)
Definition row_Axis2D : row := mk_row [lit "IFCAXIS2PLACEMENT2D("] false (lit ");")
  ([ TRef [KPoint2D] true (* location *)
  ; TOpt (TRef [KDirection2D] true) (* local_x *) ]).

(** struct /repo/ifc_rs/src/geometry/axis/mod.rs:87,
    IFCParse /repo/ifc_rs/src/geometry/axis/deserialize.rs:23-42,
    Display /repo/ifc_rs/src/geometry/axis/serialize.rs:16-26. *)
Definition row_Axis3D : row := mk_row [lit "IFCAXIS2PLACEMENT3D("] false (lit ");")
  ([ TRef [KPoint3D] true (* location *)
  ; TOpt (TRef [KDirection3D] true) (* local_z *)
  ; TOpt (TRef [KDirection3D] true) (* local_x *) ]).

(** IFCParse /repo/ifc_rs/src/geometry/direction/deserialize.rs:9-16,
    Display /repo/ifc_rs/src/geometry/direction/serialize.rs:5-9. *)
Definition row_Direction2D : row := mk_row [lit "IFCDIRECTION("] false (lit ");")
  ([ TVec2 ]).

(** struct /repo/ifc_rs/src/geometry/extruded_area_solid.rs:32,
    IFCParse /repo/ifc_rs/src/geometry/extruded_area_solid.rs:104-122,
    Display /repo/ifc_rs/src/geometry/extruded_area_solid.rs:124-132. *)
Definition row_ExtrudedAreaSolid : row := mk_row [lit "IFCEXTRUDEDAREASOLID("] true (lit ");")
  ([ TRef [KRectangleProfileDef; KArbitraryClosedProfileDef] true (* swept_area *)
  ; TOpt (TRef [KAxis3D] true) (* position *)
  ; TRef [KDirection3D] true (* extruded_direction *)
  ; TReal (* depth *) ]).

(** struct /repo/ifc_rs/src/geometry/indexed_poly_curve/mod.rs:19,
    IFCParse /repo/ifc_rs/src/geometry/indexed_poly_curve/deserialize.rs:9-28,
    Display /repo/ifc_rs/src/geometry/indexed_poly_curve/serialize.rs:5-15. *)
Definition row_IndexedPolyCurve : row := mk_row [lit "IFCINDEXEDPOLYCURVE("] false (lit ");")
  ([ TRef [KPointList2D; KPointList3D] true (* points *)
  ; TOpt TStr (* segments *)
  ; TOpt TBool (* self_intersect *) ]).

(** IFCParse /repo/ifc_rs/src/geometry/point/deserialize.rs:9-16,
    Display /repo/ifc_rs/src/geometry/point/serialize.rs:5-9. *)
Definition row_Point2D : row := mk_row [lit "IFCCARTESIANPOINT("] false (lit ");")
  ([ TVec2 ]).

(** struct /repo/ifc_rs/src/geometry/point_list/mod.rs:27,
    IFCParse /repo/ifc_rs/src/geometry/point_list/deserialize.rs:8-23,
    Display /repo/ifc_rs/src/geometry/point_list/serialize.rs:5-14. *)
Definition row_PointList2D : row := mk_row [lit "IFCCARTESIANPOINTLIST2D("] false (lit ");")
  ([ TList TVec2 (* coord_list *)
  ; TOpt (TList TStr) (* tag_list *) ]).

(** struct /repo/ifc_rs/src/geometry/point_list/mod.rs:55,
    IFCParse /repo/ifc_rs/src/geometry/point_list/deserialize.rs:25-40,
    Display /repo/ifc_rs/src/geometry/point_list/serialize.rs:16-25. *)
Definition row_PointList3D : row := mk_row [lit "IFCCARTESIANPOINTLIST3D("] false (lit ");")
  ([ TList TVec3 (* coord_list *)
  ; TOpt (TList TStr) (* tag_list *) ]).

(** struct /repo/ifc_rs/src/geometry/polyline/mod.rs:14,
    IFCParse /repo/ifc_rs/src/geometry/polyline/deserialize.rs:4-14,
    Display /repo/ifc_rs/src/geometry/polyline/serialize.rs:5-9. *)
Definition row_PolyLine : row := mk_row [lit "IFCPOLYLINE("] true (lit ");")
  ([ TList (TRef [KPoint2D; KPoint3D] true) (* points *) ]).

(** struct /repo/ifc_rs/src/geometry/product_definition_shape/mod.rs:30,
    IFCParse /repo/ifc_rs/src/geometry/product_definition_shape/deserialize.rs:8-25,
    Display /repo/ifc_rs/src/geometry/product_definition_shape/serialize.rs:5-15. *)
Definition row_ProductDefinitionShape : row := mk_row [lit "IFCPRODUCTDEFINITIONSHAPE("] true (lit ");")
  ([ TOpt TStr (* name *)
  ; TOpt TStr (* description *)
  ; TList (TRef [KShapeRepresentation] true) (* representations *) ]).

(** struct /repo/ifc_rs/src/geometry/rectangle_profile_def/mod.rs:28,
    IFCParse /repo/ifc_rs/src/geometry/rectangle_profile_def/deserialize.rs:9-29,
    Display /repo/ifc_rs/src/geometry/rectangle_profile_def/serialize.rs:5-13. *)
Definition row_RectangleProfileDef : row := mk_row [lit "IFCRECTANGLEPROFILEDEF("] true (lit ");")
  ([ TEnum enum_ProfileType (* profile_type *)
  ; TOpt TStr (* profile_name *)
  ; TOpt (TRef [KAxis2D; KAxis3D] true) (* position *)
  ; TReal (* x_dim *)
  ; TReal (* y_dim *) ]).

(** struct /repo/ifc_rs/src/geometry/representation_context/mod.rs:22,
    IFCParse /repo/ifc_rs/src/geometry/representation_context/deserialize.rs:8-28,
    Display /repo/ifc_rs/src/geometry/representation_context/serialize.rs:5-18. *)
Definition row_GeometricRepresentationContext : row := mk_row [lit "IFCGEOMETRICREPRESENTATIONCONTEXT("] false (lit ");")
  ([ TOpt (TEnum enum_RepresentationIdentifier) (* context_identifier *)
  ; TOpt TStr (* context_type *)
  ; TDim (* coord_space_dimension *)
  ; TOpt TReal (* precision *)
  ; TRef [KAxis2D; KAxis3D] true (* world_coord_system *)
  ; TOpt (TRef [KDirection2D; KDirection3D] true) (* true_north *) ]).

(** struct /repo/ifc_rs/src/geometry/representation_subcontext/mod.rs:36,
    IFCParse /repo/ifc_rs/src/geometry/representation_subcontext/deserialize.rs:12-40,
    Display /repo/ifc_rs/src/geometry/representation_subcontext/serialize.rs:5-22. *)
Definition row_GeometricRepresentationSubContext : row := mk_row [lit "IFCGEOMETRICREPRESENTATIONSUBCONTEXT("] false (lit ");")
  ([ TOpt (TEnum enum_RepresentationIdentifier) (* context_identifier *)
  ; TOpt TStr (* context_type *)
  ; TOpt TDim (* coord_space_dimension *)
  ; TOpt TReal (* precision *)
  ; TOpt (TRef [KAxis2D; KAxis3D] true) (* world_coord_system *)
  ; TOpt (TRef [KAxis2D; KAxis3D] true) (* true_north *)
  ; TRef [KGeometricRepresentationContext] true (* parent_context *)
  ; TOpt TReal (* target_scale *)
  ; TEnum enum_GeometricProjection (* target_view *)
  ; TOpt TStr (* user_defined_target_view *) ]).

(** struct /repo/ifc_rs/src/geometry/shape_representation/mod.rs:50,
    IFCParse /repo/ifc_rs/src/geometry/shape_representation/deserialize.rs:11-30,
    Display /repo/ifc_rs/src/geometry/shape_representation/serialize.rs:5-16. *)
Definition row_ShapeRepresentation : row := mk_row [lit "IFCSHAPEREPRESENTATION("] true (lit ");")
  ([ TRef [KGeometricRepresentationSubContext; KGeometricRepresentationContext] true (* context_of_items *)
  ; TOpt (TEnum enum_RepresentationIdentifier) (* representation_identifier *)
  ; TOpt (TEnum enum_RepresentationType) (* representation_type *)
  ; TList (TRef [KExtrudedAreaSolid; KPolyLine; KMappedItem] true) (* items *) ]).

(** struct /repo/ifc_rs/src/geometry/local_placement/mod.rs:20,
    IFCParse /repo/ifc_rs/src/geometry/local_placement/mod.rs:54-68,
    Display /repo/ifc_rs/src/geometry/local_placement/mod.rs:70-78. *)
Definition row_LocalPlacement : row := mk_row [lit "IFCLOCALPLACEMENT("] true (lit ");")
  ([ TOpt (TRef [KLocalPlacement] true) (* placement_rel_to *)
  ; TRef [KAxis2D; KAxis3D] true (* relative_placement *) ]).

(** struct /repo/ifc_rs/src/geometry/non_uniform_transformations.rs:43,
    IFCParse /repo/ifc_rs/src/geometry/non_uniform_transformations.rs:107-124,
    Display /repo/ifc_rs/src/geometry/non_uniform_transformations.rs:97-105. *)
Definition row_CartesianTransformationOperator3DnonUniform : row := mk_row [lit "IFCCARTESIANTRANSFORMATIONOPERATOR3DNONUNIFORM("] true (lit ");")
  (fields_Transform3DBase ++
  [ TOpt TReal (* scale_y *)
  ; TOpt TReal (* scale_z *) ]).

(** struct /repo/ifc_rs/src/geometry/uniform_transformations.rs:30,
    IFCParse /repo/ifc_rs/src/geometry/uniform_transformations.rs:79-92,
    Display /repo/ifc_rs/src/geometry/uniform_transformations.rs:73-77. *)
Definition row_CartesianTransformationOperator3D : row := mk_row [lit "IFCCARTESIANTRANSFORMATIONOPERATOR3D("] true (lit ");")
  (fields_Transform3DBase).

(** struct /repo/ifc_rs/src/relations/rel_aggregates.rs:21,
    IFCParse /repo/ifc_rs/src/relations/rel_aggregates.rs:66-82,
    Display /repo/ifc_rs/src/relations/rel_aggregates.rs:84-92. *)
Definition row_RelAggregates : row := mk_row [lit "IFCRELAGGREGATES("] true (lit ");")
  (unchecked fields_Root ++
  [ TRef [KProject; KSite; KBuilding; KStorey] true (* relating_object *)
  ; TList (TRef [KSite; KBuilding; KStorey; KSpace] true) (* related_objects *) ]).

(** struct /repo/ifc_rs/src/relations/rel_associates_material.rs:20,
    IFCParse /repo/ifc_rs/src/relations/rel_associates_material.rs:70-84,
    Display /repo/ifc_rs/src/relations/rel_associates_material.rs:86-94. *)
Definition row_RelAssociatesMaterial : row := mk_row [lit "IFCRELASSOCIATESMATERIAL("] true (lit ");")
  (unchecked fields_RelAssociates ++
  [ TRef [KMaterialConstituentSet; KMaterialLayerSetUsage; KMaterialLayerSet; KMaterial] true (* relating_material *) ]).

(** struct /repo/ifc_rs/src/relations/rel_contained_in_spatial_structure.rs:21,
    IFCParse /repo/ifc_rs/src/relations/rel_contained_in_spatial_structure.rs:76-92,
    Display /repo/ifc_rs/src/relations/rel_contained_in_spatial_structure.rs:94-102. *)
Definition row_RelContainedInSpatialStructure : row := mk_row [lit "IFCRELCONTAINEDINSPATIALSTRUCTURE("] true (lit ");")
  (unchecked fields_Root ++
  [ TList (TRef [KSite; KBuilding; KStorey; KOpeningElement; KSlab; KRoof; KWall; KWindow; KDoor] true) (* related_elements *)
  ; TRef [KSite; KBuilding; KStorey; KOpeningElement; KSlab; KRoof; KWall; KWindow; KDoor] true (* relating_structure *) ]).

(** struct /repo/ifc_rs/src/relations/rel_declares.rs:21,
    IFCParse /repo/ifc_rs/src/relations/rel_declares.rs:71-87,
    Display /repo/ifc_rs/src/relations/rel_declares.rs:89-97. *)
Definition row_RelDeclares : row := mk_row [lit "IFCRELDECLARES("] true (lit ");")
  (unchecked fields_Root ++
  [ TRef [KProject] true (* relating_context *)
  ; TList (TRef [] false) (* related_definitions *) ]).

(** struct /repo/ifc_rs/src/relations/rel_defines_by_type.rs:24,
    IFCParse /repo/ifc_rs/src/relations/rel_defines_by_type.rs:68-84,
    Display /repo/ifc_rs/src/relations/rel_defines_by_type.rs:86-94. *)
Definition row_RelDefinesByType : row := mk_row [lit "IFCRELDEFINESBYTYPE("] true (lit ");")
  (unchecked fields_Root ++
  [ TList (TRef [] false) (* related_objects *)
  ; TRef [] false (* relating_type *) ]).

(** struct /repo/ifc_rs/src/relations/rel_defines_by_properties.rs:28,
    IFCParse /repo/ifc_rs/src/relations/rel_defines_by_properties.rs:73-89,
    Display /repo/ifc_rs/src/relations/rel_defines_by_properties.rs:91-99. *)
Definition row_RelDefinesByProperties : row := mk_row [lit "IFCRELDEFINESBYPROPERTIES("] true (lit ");")
  (unchecked fields_Root ++
  [ TList (TRef [] false) (* related_objects *)
  ; TRef [] false (* relating_property_definition *) ]).

(** struct /repo/ifc_rs/src/relations/rel_voids_element.rs:22,
    IFCParse /repo/ifc_rs/src/relations/rel_voids_element.rs:54-70,
    Display /repo/ifc_rs/src/relations/rel_voids_element.rs:72-80. *)
Definition row_RelVoidsElement : row := mk_row [lit "IFCRELVOIDSELEMENT("] true (lit ");")
  (unchecked fields_Root ++
  [ TRef [KBuilding; KOpeningElement; KSlab; KWall; KWindow] true (* relating_building_element *)
  ; TRef [KOpeningElement] true (* related_opening_element *) ]).

(** struct /repo/ifc_rs/src/relations/rel_fills_element.rs:19,
    IFCParse /repo/ifc_rs/src/relations/rel_fills_element.rs:50-66,
    Display /repo/ifc_rs/src/relations/rel_fills_element.rs:68-76. *)
Definition row_RelFillsElement : row := mk_row [lit "IFCRELFILLSELEMENT("] true (lit ");")
  (unchecked fields_Root ++
  [ TRef [KOpeningElement] true (* relating_opening_element *)
  ; TRef [KBuilding; KOpeningElement; KSlab; KWall; KWindow; KDoor] true (* related_building_element *) ]).

(** struct /repo/ifc_rs/src/relations/representation_map.rs:35,
    IFCParse /repo/ifc_rs/src/relations/representation_map.rs:70-85,
    Display /repo/ifc_rs/src/relations/representation_map.rs:60-68. *)
Definition row_RepresentationMap : row := mk_row [lit "IFCREPRESENTATIONMAP("] true (lit ");")
  ([ idor KAxis3D row_Axis3D (* origin *)
  ; idor KShapeRepresentation row_ShapeRepresentation (* representation *) ]).

(** struct /repo/ifc_rs/src/relations/mapped_item.rs:43,
    IFCParse /repo/ifc_rs/src/relations/mapped_item.rs:121-136,
    Display /repo/ifc_rs/src/relations/mapped_item.rs:115-119. *)
Definition row_MappedItem : row := mk_row [lit "IFCMAPPEDITEM("] true (lit ");")
  ([ idor KRepresentationMap row_RepresentationMap (* source *)
  ; TRef [KCartesianTransformationOperator3DnonUniform; KCartesianTransformationOperator3D] true (* target *) ]).

(** struct /repo/ifc_rs/src/units/assignment.rs:19,
    IFCParse /repo/ifc_rs/src/units/assignment.rs:33-45,
    Display /repo/ifc_rs/src/units/assignment.rs:47-51. *)
Definition row_UnitAssigment : row := mk_row [lit "IFCUNITASSIGNMENT("] true (lit ");")
  ([ TList (TRef [KSiUnit; KConversionBasedUnit; KDerivedUnit; KMonetaryUnit] true) (* units *) ]).

(** struct /repo/ifc_rs/src/units/measure/plane_angle.rs:14,
    IFCParse /repo/ifc_rs/src/units/measure/plane_angle.rs:18-30,
    Display /repo/ifc_rs/src/units/measure/plane_angle.rs:32-36. *)
Definition row_PlaneAngleMeasure : row := mk_row [lit "IFCPLANEANGLEMEASURE("] true (lit ")")
  ([ TReal (* value *) ]).

(** struct /repo/ifc_rs/src/units/measure_with_unit.rs:19,
    IFCParse /repo/ifc_rs/src/units/measure_with_unit.rs:27-41,
    Display /repo/ifc_rs/src/units/measure_with_unit.rs:43-47. *)
Definition row_MeasureWithUnit : row := mk_row [lit "IFCMEASUREWITHUNIT("] true (lit ");")
  ([ idor KPlaneAngleMeasure row_PlaneAngleMeasure (* value *)
  ; TRef [KSiUnit] true (* unit *) ]).

(** struct /repo/ifc_rs/src/units/conversion_based_unit.rs:24,
    IFCParse /repo/ifc_rs/src/units/conversion_based_unit.rs:43-59,
    Display /repo/ifc_rs/src/units/conversion_based_unit.rs:61-69. *)
Definition row_ConversionBasedUnit : row := mk_row [lit "IFCCONVERSIONBASEDUNIT("] true (lit ");")
  (fields_NamedUnit ++
  [ TOpt (TEnum enum_ConversionUnitName) (* name *)
  ; TOpt (idor KMeasureWithUnit row_MeasureWithUnit) (* conversion_factor *) ]).

(** struct /repo/ifc_rs/src/units/si_unit.rs:19,
    IFCParse /repo/ifc_rs/src/units/si_unit.rs:59-75,
    Display /repo/ifc_rs/src/units/si_unit.rs:77-85. *)
Definition row_SiUnit : row := mk_row [lit "IFCSIUNIT("] true (lit ");")
  (fields_NamedUnit ++
  [ TOpt (TEnum enum_IfcPrefix) (* prefix *)
  ; TEnum enum_IfcUnitName (* name *) ]).

(** struct /repo/ifc_rs/src/units/dimensional_exponents.rs:32,
    IFCParse /repo/ifc_rs/src/units/dimensional_exponents.rs:67-92,
    Display /repo/ifc_rs/src/units/dimensional_exponents.rs:49-63. *)
Definition row_DimensionalExponents : row := mk_row [lit "IFCDIMENSIONALEXPONENTS("] true (lit ");")
  ([ TI32 (* length *)
  ; TI32 (* mass *)
  ; TI32 (* time *)
  ; TI32 (* electric_current *)
  ; TI32 (* thermodynamic_temperature *)
  ; TI32 (* amount_of_substance *)
  ; TI32 (* luminouse_intensity *) ]).

(** struct /repo/ifc_rs/src/units/derived_unit.rs:16,
    IFCParse /repo/ifc_rs/src/units/derived_unit.rs:27-43,
    Display /repo/ifc_rs/src/units/derived_unit.rs:45-53. *)
Definition row_DerivedUnit : row := mk_row [lit "IFCDERIVEDUNIT("] true (lit ");")
  ([ TList (TRef [KDerivedUnitElement] true) (* elements *)
  ; TEnum enum_DerivedUnitEnum (* unit_type *)
  ; TOpt TStr (* user_defined_type *) ]).

(** struct /repo/ifc_rs/src/units/derived_unit_element.rs:14,
    IFCParse /repo/ifc_rs/src/units/derived_unit_element.rs:22-36,
    Display /repo/ifc_rs/src/units/derived_unit_element.rs:38-42. *)
Definition row_DerivedUnitElement : row := mk_row [lit "IFCDERIVEDUNITELEMENT("] true (lit ");")
  ([ TRef [KSiUnit] true (* unit *)
  ; TInt (* exponent *) ]).

(** struct /repo/ifc_rs/src/units/monetary_unit.rs:12,
    IFCParse /repo/ifc_rs/src/units/monetary_unit.rs:20-32,
    Display /repo/ifc_rs/src/units/monetary_unit.rs:34-38. *)
Definition row_MonetaryUnit : row := mk_row [lit "IFCMONETARYUNIT("] true (lit ");")
  ([ TStr (* currency *) ]).

(** struct /repo/ifc_rs/src/materials/material_layer_set_usage.rs:23,
    IFCParse /repo/ifc_rs/src/materials/material_layer_set_usage.rs:88-108,
    Display /repo/ifc_rs/src/materials/material_layer_set_usage.rs:110-122. *)
Definition row_MaterialLayerSetUsage : row := mk_row [lit "IFCMATERIALLAYERSETUSAGE("] true (lit ");")
  ([ TRef [KMaterialLayerSet] true (* spatial_element_structure *)
  ; TEnum enum_LayerSetDirectionEnum (* layer_set_direction *)
  ; TEnum enum_DirectionSenseEnum (* direction_sense *)
  ; TReal (* offset_from_reference_line *)
  ; TOpt TReal (* reference_extent *) ]).

(** struct /repo/ifc_rs/src/materials/material_layer_set.rs:20,
    IFCParse /repo/ifc_rs/src/materials/material_layer_set.rs:63-79,
    Display /repo/ifc_rs/src/materials/material_layer_set.rs:81-89. *)
Definition row_MaterialLayerSet : row := mk_row [lit "IFCMATERIALLAYERSET("] true (lit ");")
  ([ TList (TRef [KMaterialLayer] true) (* material_layers *)
  ; TOpt TStr (* layer_set_name *)
  ; TOpt TStr (* description *) ]).

(** struct /repo/ifc_rs/src/materials/material_layer.rs:22,
    IFCParse /repo/ifc_rs/src/materials/material_layer.rs:111-135,
    Display /repo/ifc_rs/src/materials/material_layer.rs:137-151. *)
Definition row_MaterialLayer : row := mk_row [lit "IFCMATERIALLAYER("] true (lit ");")
  ([ TOpt (TRef [KMaterial] true) (* material *)
  ; TReal (* layer_thickness *)
  ; TBool (* is_ventilated *)
  ; TOpt TStr (* name *)
  ; TOpt TStr (* description *)
  ; TOpt TStr (* category *)
  ; TOpt TInt (* priority *) ]).

(** struct /repo/ifc_rs/src/materials/material.rs:18,
    IFCParse /repo/ifc_rs/src/materials/material.rs:51-67,
    Display /repo/ifc_rs/src/materials/material.rs:69-77. *)
Definition row_Material : row := mk_row [lit "IFCMATERIAL("] true (lit ");")
  ([ TOpt TStr (* material *)
  ; TOpt TStr (* description *)
  ; TOpt TStr (* category *) ]).

(** struct /repo/ifc_rs/src/materials/material_constituent.rs:25,
    IFCParse /repo/ifc_rs/src/materials/material_constituent.rs:82-102,
    Display /repo/ifc_rs/src/materials/material_constituent.rs:104-112. *)
Definition row_MaterialConstituent : row := mk_row [lit "IFCMATERIALCONSTITUENT("] true (lit ");")
  ([ TOpt TStr (* name *)
  ; TOpt TStr (* description *)
  ; TRef [KMaterial] true (* material *)
  ; TOpt TReal (* fraction *)
  ; TOpt TStr (* category *) ]).

(** struct /repo/ifc_rs/src/materials/material_constituent_set.rs:22,
    IFCParse /repo/ifc_rs/src/materials/material_constituent_set.rs:70-86,
    Display /repo/ifc_rs/src/materials/material_constituent_set.rs:88-96. *)
Definition row_MaterialConstituentSet : row := mk_row [lit "IFCMATERIALCONSTITUENTSET("] true (lit ");")
  ([ TOpt TStr (* name *)
  ; TOpt TStr (* description *)
  ; TList (TRef [KMaterialConstituent] true) (* material_constituents *) ]).

(** struct /repo/ifc_rs/src/properties/material.rs:18,
    IFCParse /repo/ifc_rs/src/properties/material.rs:52-66,
    Display /repo/ifc_rs/src/properties/material.rs:68-72. *)
Definition row_MaterialProperties : row := mk_row [lit "IFCMATERIALPROPERTIES("] true (lit ");")
  (unchecked fields_ExtendedPropertyBase ++
  [ TRef [KMaterial] true (* material *) ]).

(** struct /repo/ifc_rs/src/properties/set.rs:33,
    IFCParse /repo/ifc_rs/src/properties/set.rs:69-83,
    Display /repo/ifc_rs/src/properties/set.rs:85-89. *)
Definition row_PropertySet : row := mk_row [lit "IFCPROPERTYSET("] true (lit ");")
  (unchecked fields_Root ++
  [ TList (TRef [KPropertySingleValue] true) (* properties *) ]).

(** struct /repo/ifc_rs/src/properties/single_value.rs:27,
    IFCParse /repo/ifc_rs/src/properties/single_value.rs:53-72,
    Display /repo/ifc_rs/src/properties/single_value.rs:74-82. *)
Definition row_PropertySingleValue : row := mk_row [lit "IFCPROPERTYSINGLEVALUE("] true (lit ");")
  (unchecked fields_PropertyBase ++
  [ TValue (* value *)
  ; TOpt (TRef [] false) (* unit *) ]).

(** The row of a kind; [KDummy] has none. *)
Definition row_of (k : kind) : option row :=
  match k with
  | KActorRole => Some row_ActorRole
  | KPostalAddress => Some row_PostalAddress
  | KTelecomAddress => Some row_TelecomAddress
  | KApplication => Some row_Application
  | KOrganization => Some row_Organization
  | KOwnerHistory => Some row_OwnerHistory
  | KPerson => Some row_Person
  | KPersonAndOrganization => Some row_PersonAndOrganization
  | KWall => Some row_Wall
  | KWallType => Some row_WallType
  | KSlab => Some row_Slab
  | KSlabType => Some row_SlabType
  | KRoof => Some row_Roof
  | KRoofType => Some row_RoofType
  | KBuilding => Some row_Building
  | KStorey => Some row_Storey
  | KSite => Some row_Site
  | KOpeningElement => Some row_OpeningElement
  | KWindow => Some row_Window
  | KWindowType => Some row_WindowType
  | KProject => Some row_Project
  | KSpace => Some row_Space
  | KSpaceType => Some row_SpaceType
  | KDoor => Some row_Door
  | KDoorType => Some row_DoorType
  | KShadingDevice => Some row_ShadingDevice
  | KShadingDeviceType => Some row_ShadingDeviceType
  | KArbitraryClosedProfileDef => Some row_ArbitraryClosedProfileDef
  | KAxis2D => Some row_Axis2D
  | KAxis3D => Some row_Axis3D
  | KDirection2D => Some row_Direction2D
  | KDirection3D => Some row_Direction3D
  | KExtrudedAreaSolid => Some row_ExtrudedAreaSolid
  | KIndexedPolyCurve => Some row_IndexedPolyCurve
  | KPoint2D => Some row_Point2D
  | KPoint3D => Some row_Point3D
  | KPointList2D => Some row_PointList2D
  | KPointList3D => Some row_PointList3D
  | KPolyLine => Some row_PolyLine
  | KProductDefinitionShape => Some row_ProductDefinitionShape
  | KRectangleProfileDef => Some row_RectangleProfileDef
  | KGeometricRepresentationContext => Some row_GeometricRepresentationContext
  | KGeometricRepresentationSubContext => Some row_GeometricRepresentationSubContext
  | KShapeRepresentation => Some row_ShapeRepresentation
  | KLocalPlacement => Some row_LocalPlacement
  | KCartesianTransformationOperator3DnonUniform => Some row_CartesianTransformationOperator3DnonUniform
  | KCartesianTransformationOperator3D => Some row_CartesianTransformationOperator3D
  | KRelAggregates => Some row_RelAggregates
  | KRelAssociatesMaterial => Some row_RelAssociatesMaterial
  | KRelContainedInSpatialStructure => Some row_RelContainedInSpatialStructure
  | KRelDeclares => Some row_RelDeclares
  | KRelDefinesByType => Some row_RelDefinesByType
  | KRelDefinesByProperties => Some row_RelDefinesByProperties
  | KRelVoidsElement => Some row_RelVoidsElement
  | KRelFillsElement => Some row_RelFillsElement
  | KMappedItem => Some row_MappedItem
  | KRepresentationMap => Some row_RepresentationMap
  | KUnitAssigment => Some row_UnitAssigment
  | KConversionBasedUnit => Some row_ConversionBasedUnit
  | KSiUnit => Some row_SiUnit
  | KDimensionalExponents => Some row_DimensionalExponents
  | KMeasureWithUnit => Some row_MeasureWithUnit
  | KPlaneAngleMeasure => Some row_PlaneAngleMeasure
  | KDerivedUnit => Some row_DerivedUnit
  | KDerivedUnitElement => Some row_DerivedUnitElement
  | KMonetaryUnit => Some row_MonetaryUnit
  | KMaterialLayerSetUsage => Some row_MaterialLayerSetUsage
  | KMaterialLayerSet => Some row_MaterialLayerSet
  | KMaterialLayer => Some row_MaterialLayer
  | KMaterial => Some row_Material
  | KMaterialConstituent => Some row_MaterialConstituent
  | KMaterialConstituentSet => Some row_MaterialConstituentSet
  | KMaterialProperties => Some row_MaterialProperties
  | KPropertySet => Some row_PropertySet
  | KPropertySingleValue => Some row_PropertySingleValue
  | KDummy => None
  end.

(** /repo/ifc_rs/src/objects/mod.rs:60-87, order of the alternatives. *)
Definition objects_kinds : list kind :=
  [ KActorRole; KPostalAddress; KTelecomAddress; KApplication; KOrganization; 
    KOwnerHistory; KPerson; KPersonAndOrganization; KWall; KWallType; 
    KSlab; KSlabType; KRoof; KRoofType; KBuilding; 
    KStorey; KSite; KOpeningElement; KWindow; KWindowType; 
    KProject; KSpace; KSpaceType; KDoor; KDoorType; 
    KShadingDevice; KShadingDeviceType ].

(** /repo/ifc_rs/src/geometry/mod.rs:35-54, order of the alternatives. *)
Definition geometry_kinds : list kind :=
  [ KArbitraryClosedProfileDef; KAxis2D; KAxis3D; KDirection2D; KDirection3D; 
    KExtrudedAreaSolid; KIndexedPolyCurve; KPoint2D; KPoint3D; KPointList2D; 
    KPointList3D; KPolyLine; KProductDefinitionShape; KRectangleProfileDef; KGeometricRepresentationContext; 
    KGeometricRepresentationSubContext; KShapeRepresentation; KLocalPlacement; KCartesianTransformationOperator3DnonUniform; KCartesianTransformationOperator3D ].

(** /repo/ifc_rs/src/relations/mod.rs:25-34, order of the alternatives. *)
Definition relations_kinds : list kind :=
  [ KRelAggregates; KRelAssociatesMaterial; KRelContainedInSpatialStructure; KRelDeclares; KRelDefinesByType; 
    KRelDefinesByProperties; KRelVoidsElement; KRelFillsElement; KMappedItem; KRepresentationMap ].

(** /repo/ifc_rs/src/units/mod.rs:27-35, order of the alternatives. *)
Definition units_kinds : list kind :=
  [ KUnitAssigment; KConversionBasedUnit; KSiUnit; KDimensionalExponents; KMeasureWithUnit; 
    KPlaneAngleMeasure; KDerivedUnit; KDerivedUnitElement; KMonetaryUnit ].

(** /repo/ifc_rs/src/materials/mod.rs:23-28, order of the alternatives. *)
Definition materials_kinds : list kind :=
  [ KMaterialLayerSetUsage; KMaterialLayerSet; KMaterialLayer; KMaterial; KMaterialConstituent; 
    KMaterialConstituentSet ].

(** /repo/ifc_rs/src/properties/mod.rs:17-19, order of the alternatives. *)
Definition properties_kinds : list kind :=
  [ KMaterialProperties; KPropertySet; KPropertySingleValue ].

(** /repo/ifc_rs/src/meta/datamap/deserialize.rs:23-31. *)
Definition all_kinds : list kind :=
  objects_kinds ++ geometry_kinds ++ relations_kinds ++ units_kinds ++ materials_kinds ++
  properties_kinds.
