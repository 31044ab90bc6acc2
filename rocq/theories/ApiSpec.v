(** Specification of the public constructors and setters: attributes by name, types of
    arguments, good programs. *)

From Coq Require Import String Ascii List NArith ZArith Bool.
From Verif Require Import Base Prims Guid Float Kind Types WellTyped Schema Entity EntitySpec DataMap DataSpec
  Header File HeaderSpec FileSpec Api.
Import ListNotations.
Open Scope N_scope.

(** ** Names *)

Local Open Scope string_scope.

(** The attributes of the kinds, in order: the fields of the structs of /repo, nested ones in place.  [vector] is
    the only field of points and directions. *)
Definition root_names : list string := ["global_id"; "owner_history"; "name"; "description"].
Definition product_names : list string := root_names ++ ["object_type"; "object_placement"; "representation"].
Definition element_names : list string := product_names ++ ["tag"].
Definition spatial_names : list string := product_names ++ ["long_name"; "composition_type"].
Definition type_names : list string :=
  root_names ++ ["applicable_occurence"; "has_property_sets"; "representation_maps"; "tag"; "element_type"].

Definition attr_names (k : kind) : list string :=
  match k with
  | KDirection3D => ["vector"]
  | KPoint3D => ["vector"]
  | KActorRole => ["role"; "user_defined_role"; "description"]
  | KPostalAddress => ["purpose"; "description"; "user_defined_purpose"; "internal_location"; "address_lines";
      "postal_box"; "town"; "region"; "postal_code"; "country"]
  | KTelecomAddress => ["purpose"; "description"; "user_defined_purpose"; "telephone_numbers"; "facsimile_numbers";
      "pager_number"; "email_addresses"; "homepage_url"]
  | KApplication => ["application_developer"; "version"; "application_full_name"; "application_identifier"]
  | KOrganization => ["id"; "name"; "description"; "roles"; "addresses"]
  | KOwnerHistory => ["owning_user"; "owning_application"; "state"; "change_action"; "last_modified_date";
      "last_modifying_user"; "last_modifying_application"; "creation_date"]
  | KPerson => ["id"; "family_name"; "given_name"; "middle_names"; "prefix_titles"; "suffix_titles"; "roles";
      "addresses"]
  | KPersonAndOrganization => ["the_person"; "the_organization"; "roles"]
  | KWallType => type_names ++ ["predefined_type"]
  | KWall => element_names ++ ["predefined_type"]
  | KSlab => element_names ++ ["predefined_type"]
  | KSlabType => type_names ++ ["predefined_type"]
  | KRoof => element_names ++ ["predefined_type"]
  | KRoofType => type_names ++ ["predefined_type"]
  | KBuilding => spatial_names ++ ["elevation_of_ref_height"; "elevation_of_terrain"; "building_address"]
  | KStorey => spatial_names ++ ["elevation"]
  | KSite => spatial_names ++ ["ref_latitude"; "ref_longitude"; "ref_elevation"; "land_title_number"; "site_address"]
  | KOpeningElement => element_names ++ ["predefined_type"]
  | KWindow => element_names ++ ["overall_height"; "overall_width"; "predefined_type"; "partitioning_type";
      "user_defining_partitioning_type"]
  | KWindowType => type_names ++ ["predefined_type"; "partitioning_type"; "parameter_takes_precedence";
      "user_defined_partitioning_type"]
  | KProject => root_names ++ ["object_type"; "long_name"; "phase"; "representation_context"; "units_in_context"]
  | KSpace => spatial_names ++ ["predefined_type"; "elevation_with_flooring"]
  | KSpaceType => type_names ++ ["predefined_type"; "long_name"]
  | KDoor => element_names ++ ["overall_height"; "overall_width"; "predefined_type"; "operation_type";
      "user_defining_operation_type"]
  | KDoorType => type_names ++ ["predefined_type"; "operation_type"; "parameter_takes_precedence"; "user_defined_partitioning_type"]
  | KShadingDevice => element_names ++ ["predefined_type"]
  | KShadingDeviceType => type_names ++ ["predefined_type"]
  | KArbitraryClosedProfileDef => ["profile_type"; "profile_name"; "outer_curve"]
  | KAxis2D => ["location"; "local_x"]
  | KAxis3D => ["location"; "local_z"; "local_x"]
  | KDirection2D => ["vector"]
  | KExtrudedAreaSolid => ["swept_area"; "position"; "extruded_direction"; "depth"]
  | KIndexedPolyCurve => ["points"; "segments"; "self_intersect"]
  | KPoint2D => ["vector"]
  | KPointList2D => ["coord_list"; "tag_list"]
  | KPointList3D => ["coord_list"; "tag_list"]
  | KPolyLine => ["points"]
  | KProductDefinitionShape => ["name"; "description"; "representations"]
  | KRectangleProfileDef => ["profile_type"; "profile_name"; "position"; "x_dim"; "y_dim"]
  | KGeometricRepresentationContext => ["context_identifier"; "context_type"; "coord_space_dimension"; "precision"; "world_coord_system";
      "true_north"]
  | KGeometricRepresentationSubContext => ["context_identifier"; "context_type"; "coord_space_dimension"; "precision"; "world_coord_system";
      "true_north"; "parent_context"; "target_scale"; "target_view"; "user_defined_target_view"]
  | KShapeRepresentation => ["context_of_items"; "representation_identifier"; "representation_type"; "items"]
  | KLocalPlacement => ["placement_rel_to"; "relative_placement"]
  | KCartesianTransformationOperator3DnonUniform => ["axis_x"; "axis_y"; "local_origin"; "scale"; "axis_z"; "scale_y"; "scale_z"]
  | KCartesianTransformationOperator3D => ["axis_x"; "axis_y"; "local_origin"; "scale"; "axis_z"]
  | KRelAggregates => root_names ++ ["relating_object"; "related_objects"]
  | KRelAssociatesMaterial => root_names ++ ["related_objects"; "relating_material"]
  | KRelContainedInSpatialStructure => root_names ++ ["related_elements"; "relating_structure"]
  | KRelDeclares => root_names ++ ["relating_context"; "related_definitions"]
  | KRelDefinesByType => root_names ++ ["related_objects"; "relating_type"]
  | KRelDefinesByProperties => root_names ++ ["related_objects"; "relating_property_definition"]
  | KRelVoidsElement => root_names ++ ["relating_building_element"; "related_opening_element"]
  | KRelFillsElement => root_names ++ ["relating_opening_element"; "related_building_element"]
  | KRepresentationMap => ["origin"; "representation"]
  | KMappedItem => ["source"; "target"]
  | KUnitAssigment => ["units"]
  | KPlaneAngleMeasure => ["value"]
  | KMeasureWithUnit => ["value"; "unit"]
  | KConversionBasedUnit => ["dimensions"; "unit_type"; "name"; "conversion_factor"]
  | KSiUnit => ["dimensions"; "unit_type"; "prefix"; "name"]
  | KDimensionalExponents => ["length"; "mass"; "time"; "electric_current"; "thermodynamic_temperature"; "amount_of_substance";
      "luminouse_intensity"]
  | KDerivedUnit => ["elements"; "unit_type"; "user_defined_type"]
  | KDerivedUnitElement => ["unit"; "exponent"]
  | KMonetaryUnit => ["currency"]
  | KMaterialLayerSetUsage => ["spatial_element_structure"; "layer_set_direction"; "direction_sense";
      "offset_from_reference_line"; "reference_extent"]
  | KMaterialLayerSet => ["material_layers"; "layer_set_name"; "description"]
  | KMaterialLayer => ["material"; "layer_thickness"; "is_ventilated"; "name"; "description"; "category"; "priority"]
  | KMaterial => ["material"; "description"; "category"]
  | KMaterialConstituent => ["name"; "description"; "material"; "fraction"; "category"]
  | KMaterialConstituentSet => ["name"; "description"; "material_constituents"]
  | KMaterialProperties => ["name"; "description"; "properties"; "material"]
  | KPropertySet => root_names ++ ["properties"]
  | KPropertySingleValue => ["name"; "description"; "value"; "unit"]
  | _ => []
  end.

(** The attribute each parameter of a constructor is for. *)
Definition ctor_attrs (c : ctor) : list string :=
  match c with
  | Door_new => ["name"]
  | DoorType_new => ["name"; "predefined_type"; "operation_type"]
  | Window_new => ["name"]
  | WindowType_new => ["name"; "predefined_type"; "partitioning_type"]
  | Wall_new => ["name"]
  | WallType_new => ["name"; "predefined_type"]
  | Slab_new => ["name"]
  | SlabType_new => ["name"; "predefined_type"]
  | Roof_new => ["name"]
  | RoofType_new => ["name"; "predefined_type"]
  | OpeningElement_new => ["name"]
  | ShadingDevice_new => ["name"]
  | ShadingDeviceType_new => ["name"; "predefined_type"]
  | Project_new => ["name"]
  | Building_new => ["name"]
  | Site_new => ["name"]
  | Storey_new => ["name"]
  | Space_new => ["name"]
  | SpaceType_new => ["name"; "predefined_type"]
  | OwnerHistory_new => ["change_action"; "creation_date"]
  | Person_empty => []
  | PersonAndOrganization_new => ["the_person"; "the_organization"]
  | Organization_new => ["id"; "name"; "description"]
  | Application_new => ["application_developer"; "version"; "application_full_name"; "application_identifier"]
  | Material_new => ["material"]
  | MaterialConstituent_new => ["material"]
  | MaterialConstituentSet_new => []
  | MaterialLayer_new => ["layer_thickness"; "is_ventilated"]
  | MaterialLayerSet_new => []
  | MaterialLayerSetUsage_new => ["spatial_element_structure"; "layer_set_direction"; "direction_sense"; "offset_from_reference_line"]
  | MaterialProperties_new => ["name"; "material"; "properties"]
  | PropertySet_new => ["name"; "properties"]
  | PropertySingleValue_new => ["name"; "value"; "unit"]
  | MappedItem_new => ["source"; "target"]
  | RelAggregates_new => ["name"; "relating_object"; "related_objects"]
  | RelAssociatesMaterial_new => ["name"; "relating_material"]
  | RelContained_new => ["name"; "relating_structure"]
  | RelDeclares_new => ["name"; "relating_context"]
  | RelDefinesByProperties_new => ["name"; "relating_property_definition"]
  | RelDefinesByType_new => ["name"; "relating_type"]
  | RelFills_new => ["name"; "relating_opening_element"; "related_building_element"]
  | RelVoids_new => ["name"; "relating_building_element"; "related_opening_element"]
  | RepresentationMap_new => ["origin"; "representation"]
  | ExtrudedAreaSolid_new => ["swept_area"; "extruded_direction"; "depth"]
  | NonUniform_new => ["local_origin"; "axis_x"; "axis_y"; "axis_z"; "scale"; "scale_y"; "scale_z"]
  | Uniform_new => ["local_origin"; "axis_x"; "axis_y"; "axis_z"; "scale"]
  | ArbitraryClosedProfileDef_new => ["profile_type"; "outer_curve"]
  | Axis2D_new => ["location"]
  | Axis3D_new => ["location"]
  | Direction2D_from => ["vector"]
  | Direction3D_from => ["vector"]
  | IndexedPolyCurve_new => ["points"]
  | LocalPlacement_new => ["relative_placement"]
  | Point2D_from => ["vector"]
  | Point3D_from => ["vector"]
  | PointList2D_new => ["coord_list"]
  | PointList3D_new => ["coord_list"]
  | PolyLine_from => ["points"]
  | ProductDefinitionShape_new => []
  | RectangleProfileDef_new => ["profile_type"; "x_dim"; "y_dim"]
  | RepresentationContext_new => ["coord_space_dimension"; "world_coord_system"]
  | SubContext_derive => ["parent_context"; "target_view"]
  | ShapeRepresentation_new => ["context_of_items"; "representation_identifier"; "representation_type"]
  | UnitAssigment_new => ["units"]
  | SiUnit_new => ["unit_type"; "prefix"; "name"]
  end.

(** The attributes a setter is for. *)
Definition setter_attrs (s : setter) : list string :=
  match s with
  | root_owner_history => ["owner_history"]
  | root_name => ["name"]
  | root_description => ["description"]
  | object_object_type => ["object_type"]
  | product_object_placement => ["object_placement"]
  | product_representation => ["representation"]
  | element_tag => ["tag"]
  | element_type_element_type => ["element_type"]
  | type_product_tag => ["tag"]
  | spatial_long_name => ["long_name"]
  | spatial_composition_type => ["composition_type"]
  | project_object_type => ["object_type"]
  | project_long_name => ["long_name"]
  | project_phase => ["phase"]
  | project_add_context => ["representation_context"]
  | project_unit_assignment => ["units_in_context"]
  | door_overall_height => ["overall_height"]
  | door_overall_width => ["overall_width"]
  | door_predefined_type => ["predefined_type"]
  | door_operation_type => ["operation_type"]
  | window_overall_height => ["overall_height"]
  | window_overall_width => ["overall_width"]
  | window_predefined_type => ["predefined_type"]
  | window_partitioning_type => ["partitioning_type"]
  | wall_predefined_type => ["predefined_type"]
  | slab_predefined_type => ["predefined_type"]
  | roof_predefined_type => ["predefined_type"]
  | opening_predefined_type => ["predefined_type"]
  | shading_predefined_type => ["predefined_type"]
  | building_elevation_of_ref_height => ["elevation_of_ref_height"]
  | building_elevation_of_terrain => ["elevation_of_terrain"]
  | building_building_address => ["building_address"]
  | site_ref_latitude => ["ref_latitude"]
  | site_ref_longitude => ["ref_longitude"]
  | site_ref_elevation => ["ref_elevation"]
  | site_land_title_number => ["land_title_number"]
  | site_site_address => ["site_address"]
  | space_predefined_type => ["predefined_type"]
  | space_elevation_with_flooring => ["elevation_with_flooring"]
  | history_owning_user => ["owning_user"; "last_modifying_user"]
  | history_owning_application => ["owning_application"; "last_modifying_application"]
  | history_state => ["state"]
  | history_last_modified_date => ["last_modified_date"]
  | history_last_modifying_user => ["last_modifying_user"]
  | history_last_modifying_application => ["last_modifying_application"]
  | person_id => ["id"]
  | person_family_name => ["family_name"]
  | person_given_name => ["given_name"]
  | person_add_middle_name => ["middle_names"]
  | person_add_suffix_title => ["suffix_titles"]
  | person_add_prefix_title => ["prefix_titles"]
  | person_add_role => ["roles"]
  | person_add_address => ["addresses"]
  | person_and_org_add_role => ["roles"]
  | organization_add_role => ["roles"]
  | organization_add_address => ["addresses"]
  | material_description => ["description"]
  | material_category => ["category"]
  | constituent_material => ["material"]
  | constituent_name => ["name"]
  | constituent_description => ["description"]
  | constituent_category => ["category"]
  | constituent_fraction => ["fraction"]
  | constituent_set_name => ["name"]
  | constituent_set_description => ["description"]
  | constituent_set_add_constituent => ["material_constituents"]
  | layer_material => ["material"]
  | layer_name => ["name"]
  | layer_description => ["description"]
  | layer_category => ["category"]
  | layer_priority => ["priority"]
  | layer_set_name => ["layer_set_name"]
  | layer_set_description => ["description"]
  | layer_set_add_layer => ["material_layers"]
  | usage_reference_extent => ["reference_extent"]
  | single_value_name => ["name"]
  | single_value_description => ["description"]
  | material_properties_name => ["name"]
  | material_properties_description => ["description"]
  | material_properties_properties => ["properties"]
  | associates_relate_obj => ["related_objects"]
  | contained_relate_structure => ["related_elements"]
  | declares_relate_definition => ["related_definitions"]
  | by_properties_relate_obj => ["related_objects"]
  | by_type_relate_obj => ["related_objects"]
  | solid_position => ["position"]
  | arbitrary_profile_name => ["profile_name"]
  | placement_relative_to => ["placement_rel_to"]
  | shape_name => ["name"]
  | shape_description => ["description"]
  | shape_add_representation => ["representations"]
  | rectangle_profile_name => ["profile_name"]
  | rectangle_position => ["position"]
  | context_precision => ["precision"]
  | context_true_north => ["true_north"]
  | sub_context_target_scale => ["target_scale"]
  | sub_context_user_defined_target_view => ["user_defined_target_view"]
  | representation_add_item => ["items"]
  end.

(** Attributes that are neither given nor omitted. *)
Definition initial (c : ctor) (g : list N) : list (string * val) :=
  match c with
  | RepresentationContext_new =>
      [("context_identifier", VEnum 8) (* Body *); ("context_type", VStr (lit "Model"))]
  | SubContext_derive =>
      [ ("context_identifier", VEnum 8) (* Body *); ("context_type", VStr (lit "Model"))
      ; ("coord_space_dimension", VInh); ("precision", VInh); ("world_coord_system", VInh); ("true_north", VInh) ]
  | SiUnit_new => [("dimensions", VInh)]
  | MaterialConstituentSet_new => [("material_constituents", VList [])]
  | MaterialLayerSet_new => [("material_layers", VList [])]
  | ProductDefinitionShape_new => [("representations", VList [])]
  | ShapeRepresentation_new => [("items", VList [])]
  | Project_new => [("global_id", VGuid g); ("representation_context", VList [])]
  | RelAssociatesMaterial_new | RelDefinesByProperties_new | RelDefinesByType_new =>
      [("global_id", VGuid g); ("related_objects", VList [])]
  | RelContained_new => [("global_id", VGuid g); ("related_elements", VList [])]
  | RelDeclares_new => [("global_id", VGuid g); ("related_definitions", VList [])]
  | _ => [("global_id", VGuid g)]
  end.

Fixpoint index (n : string) (l : list string) : option nat :=
  match l with
  | [] => None
  | x :: l' => if String.eqb x n then Some 0%nat else option_map S (index n l')
  end.

(** The value of the attribute with name [n]. *)
Definition attr (n : string) (x : reg) : option val :=
  match index n (attr_names (fst x)) with
  | Some i => nth_error (snd x) i
  | None => None
  end.

(** The arguments of a constructor in the order of the attributes. *)
Definition in_order (c : ctor) (args : list arg) : list arg :=
  flat_map (fun n => match index n (ctor_attrs c) with
                     | Some i => match nth_error args i with Some a => [a] | None => [] end
                     | None => []
                     end) (attr_names (mk_kind (maker_of c))).

Local Close Scope string_scope.

(** ** Arguments *)

(** The registers an argument uses. *)
Definition item_regs (i : item) : list nat := match i with IReg r => [r] | _ => [] end.
Definition arg_regs (a : arg) : list nat :=
  match a with ANone => [] | AOne i => item_regs i | AMany l => flat_map item_regs l end.

(** The ids an argument has. *)
Definition item_ids (i : item) : list N := match i with IId n => [n] | _ => [] end.
Definition arg_ids (a : arg) : list N :=
  match a with ANone => [] | AOne i => item_ids i | AMany l => flat_map item_ids l end.

(** The kinds an argument refers to, in model [m] with registers [rs]. *)
Definition refers (rs : list reg) (m : dmap) (a : arg) (k : kind) : Prop :=
  (exists r x, In r (arg_regs a) /\ nth_error rs r = Some x /\ fst x = k) \/
  (exists n e, In n (arg_ids a) /\ lookup m n = Some e /\ kind_of e = k).

(** Ids are in the model, objects are of the kinds the parameter asks for. *)
Definition item_ref (ks : list kind) (rs : list reg) (m : dmap) (i : item) : Prop :=
  match i with
  | IPlain _ => False
  | IId n => exists e, lookup m n = Some e
  | IReg r => exists x, nth_error rs r = Some x /\ In (fst x) ks
  end.
Definition item_id (m : dmap) (i : item) : Prop :=
  match i with IId n => exists e, lookup m n = Some e | _ => False end.
Definition item_new (ks : list kind) (rs : list reg) (i : item) : Prop :=
  match i with IReg r => exists x, nth_error rs r = Some x /\ In (fst x) ks | _ => False end.
Definition item_plain (t : fty) (i : item) : Prop :=
  match i with IPlain v => wt t v = true | _ => False end.

(** Arguments the compiler lets pass; ids are those of objects of the model.  An id
    without type ([From<Id>]) may be given for any [IdOr] and [TypedId]. *)
Definition arg_ok (rs : list reg) (m : dmap) (p : par) (a : arg) : Prop :=
  match p, a with
  | PPlain t, AOne i => item_plain t i
  | POption t, ANone => True
  | POption t, AOne i => item_plain t i
  | PValues t, AMany l => Forall (item_plain t) l
  | PIdOr ks, AOne i => item_ref ks rs m i
  | PIdOrs ks, AMany l => Forall (item_ref ks rs m) l
  | PTyped _, AOne i => item_id m i
  | PTypeds _, AMany l => Forall (item_id m) l
  | PNew ks, AOne i => item_new ks rs i
  | PNews ks, AMany l => Forall (item_new ks rs) l
  | PRaw, AOne i => item_id m i
  | POptionRaw, ANone => True
  | POptionRaw, AOne i => item_id m i
  | PRaws, AMany l => Forall (item_id m) l
  | _, _ => False
  end.

Definition args_ok (rs : list reg) (m : dmap) (ps : list par) (args : list arg) : Prop :=
  length args = length ps /\
  forall i p a, nth_error ps i = Some p -> nth_error args i = Some a -> arg_ok rs m p a.

(** What is stored for an argument: values and ids as they are, for an object a new id
    of that object. *)
Definition item_stored (rs : list reg) (m m' : dmap) (i : item) (v : val) : Prop :=
  match i with
  | IPlain x => v = x
  | IId n => v = VId n
  | IReg r => exists n x, v = VId n /\ nth_error rs r = Some x /\ lookup m n = None /\
                          lookup m' n = Some (Ent (fst x) (snd x))
  end.
Definition stored (rs : list reg) (m m' : dmap) (a : arg) (v : val) : Prop :=
  match a with
  | ANone => v = VOmit
  | AOne i => item_stored rs m m' i v
  | AMany l => exists vs, v = VList vs /\ Forall2 (item_stored rs m m') l vs
  end.

(** The kinds a parameter is declared for. *)
Definition par_kinds (p : par) : list kind :=
  match p with
  | PIdOr ks | PIdOrs ks | PTyped ks | PTypeds ks | PNew ks | PNews ks => ks
  | PRaw | POptionRaw | PRaws => all_kinds
  | _ => []
  end.

Definition among (k : kind) (ks : list kind) : bool := existsb (kind_eqb k) ks.
Definition except (ks : list kind) : list kind := filter (fun k => negb (among k ks)) all_kinds.

(** Parameters whose attribute is not checked on loading. *)
Definition lax (c : ctor) (i : nat) : bool :=
  match c, i with
  | RelDefinesByProperties_new, 1%nat | RelDefinesByType_new, 1%nat
  | MaterialProperties_new, 2%nat | PropertySingleValue_new, 2%nat => true
  | _, _ => false
  end.

(** Kinds the parameter is declared for and the loader refuses. *)
Definition refused (c : ctor) (i : nat) : list kind :=
  match c, i with
  | RelAggregates_new, 1%nat => except [KProject; KSite; KBuilding; KStorey]
  | RelAggregates_new, 2%nat => except [KSite; KBuilding; KStorey; KSpace]
  | RelContained_new, 1%nat => [KShadingDevice; KSpace]
  | RelFills_new, 2%nat => [KRoof; KShadingDevice; KSpace; KSite; KStorey]
  | RelVoids_new, 1%nat => [KDoor; KRoof; KShadingDevice; KSpace; KSite; KStorey]
  | _, _ => []
  end.

(** Kinds it is not declared for and the loader accepts. *)
Definition extra (c : ctor) (i : nat) : list kind :=
  match c, i with
  | ShapeRepresentation_new, 0%nat => [KGeometricRepresentationContext]
  | UnitAssigment_new, 0%nat => [KConversionBasedUnit; KDerivedUnit; KMonetaryUnit]
  | _, _ => []
  end.

(** The types let an object of kind [k] pass as the [i]th argument. *)
Definition declared (c : ctor) (i : nat) (k : kind) : Prop :=
  exists p, nth_error (mk_pars (maker_of c)) i = Some p /\ In k (par_kinds p).

(** The loader accepts a reference to an object of kind [k]. *)
Definition accepted (c : ctor) (i : nat) (k : kind) : bool :=
  kind_eqb k KDummy || lax c i || among k (extra c i) ||
  match nth_error (mk_pars (maker_of c)) i with
  | Some p => among k (par_kinds p) && negb (among k (refused c i))
  | None => false
  end.

(** The same for setters; [k'] is the kind of the object with the attribute. *)
Definition lax_set (s : setter) (k' : kind) : bool :=
  match s with
  | root_owner_history => negb (among k' rooted_kinds)
  | material_properties_properties | associates_relate_obj | declares_relate_definition
  | by_properties_relate_obj | by_type_relate_obj => true
  | _ => false
  end.
Definition refused_set (s : setter) : list kind :=
  match s with
  | contained_relate_structure => [KShadingDevice; KSpace]
  | context_true_north => [KAxis2D; KAxis3D]
  | _ => []
  end.
Definition extra_set (s : setter) : list kind :=
  match s with
  | context_true_north => [KDirection2D; KDirection3D]
  | product_object_placement => [KAxis3D; KPoint3D]
  | _ => []
  end.
Definition accepted_set (s : setter) (k' k : kind) : bool :=
  kind_eqb k KDummy || lax_set s k' || among k (extra_set s) ||
  (among k (par_kinds (me_par (method_of s))) && negb (among k (refused_set s))).

(** ** Programs *)

(** Types without constructor and with public fields. *)
Definition literal_kinds : list kind :=
  [ KActorRole; KPostalAddress; KTelecomAddress; KConversionBasedUnit; KDimensionalExponents; KDerivedUnit
  ; KDerivedUnitElement; KMeasureWithUnit; KMonetaryUnit; KPlaneAngleMeasure ].

(** All references of an object are there. *)
Definition refs_there (m : dmap) (e : entity) : Prop :=
  forall ks n, checked_ref e ks n -> exists x, lookup m n = Some x.

(** A statement the compiler lets pass, with ids of objects of the model.  If [strict],
    moreover the loader accepts what is referred to. *)
Definition stmt_ok (strict : bool) (x : stmt) (w : world) : Prop :=
  let rs := w_regs w in
  let m := w_map w in
  match x with
  | SNew c g args =>
      guid_ok g = true /\ args_ok rs m (mk_pars (maker_of c)) args /\
      (strict = true -> forall i a k, nth_error args i = Some a -> refers rs m a k -> accepted c i k = true)
  | SLit k l =>
      In k literal_kinds /\ wf_ent k l /\ refs_there m (Ent k l) /\ (strict = true -> good_refs m (Ent k l))
  | SSet r s a =>
      exists x, nth_error rs r = Some x /\ In (fst x) (me_kinds (method_of s)) /\
        arg_ok rs m (me_par (method_of s)) a /\
        (strict = true -> forall k, refers rs m a k -> accepted_set s (fst x) k = true)
  | SInsert r => exists x, nth_error rs r = Some x
  | SSwap r n => exists x l, nth_error rs r = Some x /\ lookup m n = Some (Ent (fst x) l)
  end.

Fixpoint prog_ok (strict : bool) (xs : list stmt) (w : world) : Prop :=
  match xs with
  | [] => True
  | x :: xs' => stmt_ok strict x w /\ forall w' o, exec x w = Done (w', o) -> prog_ok strict xs' w'
  end.

(** ** Effects *)

(** The largest id. *)
Definition top (m : dmap) : N := fold_right N.max 0 (map fst m).

(** Consecutive ids. *)
Fixpoint numbered (n : N) (l : list reg) : list (N * entity) :=
  match l with
  | [] => []
  | x :: l' => (n, Ent (fst x) (snd x)) :: numbered (n + 1) l'
  end.

(** The objects in registers. *)
Definition objects (rs : list reg) (is : list nat) : list reg :=
  flat_map (fun r => match nth_error rs r with Some x => [x] | None => [] end) is.

(** The registers a statement inserts, in order. *)
Definition uses (x : stmt) : list nat :=
  match x with
  | SNew c _ args => flat_map arg_regs (in_order c args)
  | SSet _ _ a => arg_regs a
  | SInsert r => [r]
  | _ => []
  end.

(** There are ids for [k] more objects. *)
Definition room (m : dmap) (k : nat) : Prop := top m + N.of_nat k <= max_usize.

(** The setter appends to an optional list and the list is the star. *)
Definition optional_lists : list setter :=
  [ person_add_middle_name; person_add_suffix_title; person_add_prefix_title; person_add_role; person_add_address
  ; person_and_org_add_role; organization_add_role; organization_add_address ].
Definition starred (x : stmt) (w : world) : Prop :=
  match x with
  | SSet r s _ =>
      exists v n, In s optional_lists /\ nth_error (w_regs w) r = Some v /\ In n (setter_attrs s) /\
        attr n v = Some VInh
  | _ => False
  end.

(** Setters that append. *)
Definition appenders : list setter :=
  optional_lists ++
  [ project_add_context; constituent_set_add_constituent; layer_set_add_layer; material_properties_properties
  ; associates_relate_obj; contained_relate_structure; declares_relate_definition; by_properties_relate_obj
  ; by_type_relate_obj; shape_add_representation; representation_add_item ].

(** An attribute with value [o] becomes [v'] when a setter is given [v]. *)
Definition becomes (s : setter) (v o v' : val) : Prop :=
  (In s appenders /\ ((exists l, o = VList l /\ v' = VList (l ++ [v])) \/ (o = VOmit /\ v' = VList [v]))) \/
  (~ In s appenders /\ v' = v).

(** The new object of a constructor: parameters in their attributes, directions scaled
    to length one; the other attributes are the initial ones. *)
Definition scaled (c : ctor) (v : val) : val :=
  match c with Direction2D_from | Direction3D_from => unit_vector v | _ => v end.
Definition new_object (c : ctor) (g : list N) (args : list arg) (rs : list reg) (m m' : dmap) (x : reg) : Prop :=
  fst x = mk_kind (maker_of c) /\ length (snd x) = length (attr_names (fst x)) /\
  forall n, In n (attr_names (fst x)) ->
    match index n (ctor_attrs c) with
    | Some i => exists a v, nth_error args i = Some a /\ stored rs m m' a v /\ attr n x = Some (scaled c v)
    | None => attr n x = Some (match find (fun p => String.eqb (fst p) n) (initial c g) with
                               | Some p => snd p
                               | None => VOmit
                               end)
    end.

(** The object after a setter: its attributes are set, the others are as before. *)
Definition set_object (s : setter) (a : arg) (rs : list reg) (m m' : dmap) (x x' : reg) : Prop :=
  fst x' = fst x /\ length (snd x') = length (snd x) /\
  exists v, stored rs m m' a v /\
    forall n, In n (attr_names (fst x)) ->
      exists o o', attr n x = Some o /\ attr n x' = Some o' /\
        (In n (setter_attrs s) -> becomes s v o o') /\ (~ In n (setter_attrs s) -> o' = o).

(** What a statement does.  Inserted objects get the next ids, in the order of the
    attributes they are for; all others stay. *)
Definition effect (x : stmt) (w w' : world) (o : option N) : Prop :=
  let rs := w_regs w in
  let m := w_map w in
  let m' := w_map w' in
  match x with
  | SNew c g args =>
      o = None /\ m' = m ++ numbered (top m + 1) (objects rs (uses x)) /\
      exists y, w_regs w' = rs ++ [y] /\ new_object c g args rs m m' y
  | SLit k l => o = None /\ m' = m /\ w_regs w' = rs ++ [(k, l)]
  | SSet r s a =>
      o = None /\ m' = m ++ numbered (top m + 1) (objects rs (uses x)) /\
      length (w_regs w') = length rs /\ (forall q, q <> r -> nth_error (w_regs w') q = nth_error rs q) /\
      exists y y', nth_error rs r = Some y /\ nth_error (w_regs w') r = Some y' /\ set_object s a rs m m' y y'
  | SInsert r =>
      o = Some (top m + 1) /\ w_regs w' = rs /\
      exists y, nth_error rs r = Some y /\ m' = m ++ [(top m + 1, Ent (fst y) (snd y))]
  | SSwap r n =>
      o = None /\ map fst m' = map fst m /\ (forall i, i <> n -> lookup m' i = lookup m i) /\
      length (w_regs w') = length rs /\ (forall q, q <> r -> nth_error (w_regs w') q = nth_error rs q) /\
      exists k l l', nth_error rs r = Some (k, l) /\ lookup m n = Some (Ent k l') /\
        nth_error (w_regs w') r = Some (k, l') /\ lookup m' n = Some (Ent k l)
  end.
