(** What the objects of a built model look like: a table with the rows each kind can
    have, attribute by attribute. *)

From Coq Require Import String Ascii List NArith ZArith Bool.
From Verif Require Import Base Prims Kind Types Schema Entity DataMap Float Arith Builder.
Import ListNotations.
Open Scope N_scope.

(** What an attribute can be. *)
Inductive slot :=
| Unset                                   (* $ *)
| Star                                    (* * *)
| Guid
| Owner                                   (* the owner history of the project *)
| Text
| Word (s : text)                         (* this text *)
| Numbered (s : text)                     (* this text and a number *)
| After (pre suf : text) (j : nat)        (* these texts around the number that attribute j refers to *)
| Real
| RealIs (d : f64)
| Vec (n : nat)                           (* n coordinates *)
| Vecs (n : nat)                          (* any number of them *)
| Choice (words : list text) (ws : list text)  (* one of these words of an enumeration *)
| AnyOf (words : list text)               (* any word of an enumeration *)
| Stamp
| Ref                                     (* a reference *)
| RefTo (k : kind)                        (* a reference to an object of this kind *)
| Refs (n : nat)                          (* n references *)
| AnyRefs
| RefsTo (ks : list kind)                 (* references to objects of these kinds *)
| RefsOf (ns : list nat) (k : kind)       (* as many references to objects of this kind *)
| Given                                   (* a value of the caller *)
| Rest.                                   (* this attribute and all later ones are the caller's *)

Section Fits.
(** Kinds of the objects, and the owner history of the project. *)
Variable K : N -> option kind.
Variable own : N.

(** [all] are the attributes of the object. *)
Definition fits (all : list val) (s : slot) (v : val) : Prop :=
  match s with
  | Unset => v = VOmit
  | Star => v = VInh
  | Guid => exists g, v = VGuid g
  | Owner => v = VId own
  | Text => exists t, v = VStr t
  | Word t => v = VStr t
  | Numbered t => exists i, v = VStr (t ++ show_N i)
  | After a b j => exists n, nth_error all j = Some (VId n) /\ v = VStr (a ++ show_N n ++ b)
  | Real => exists d, v = VReal d
  | RealIs d => v = VReal d
  | Vec n => exists l, v = VVec l /\ length l = n
  | Vecs n => exists ls, v = VList (map VVec ls) /\ Forall (fun l => length l = n) ls
  | Choice tbl ws => exists i w, v = VEnum i /\ nth_error tbl i = Some w /\ In w ws
  | AnyOf tbl => exists i, v = VEnum i /\ (i < length tbl)%nat
  | Stamp => exists t, v = VInt t
  | Ref => exists n k, v = VId n /\ K n = Some k
  | RefTo k => exists n, v = VId n /\ K n = Some k
  | Refs n => exists ns, v = VList (map VId ns) /\ length ns = n /\ Forall (fun x => exists k, K x = Some k) ns
  | AnyRefs => exists ns, v = VList (map VId ns) /\ Forall (fun x => exists k, K x = Some k) ns
  | RefsTo ks => exists ns, v = VList (map VId ns) /\ Forall (fun x => exists k, K x = Some k /\ In k ks) ns
  | RefsOf ls k => exists ns, v = VList (map VId ns) /\ In (length ns) ls /\ Forall (fun x => K x = Some k) ns
  | Given | Rest => True
  end.

Fixpoint fits_all (all : list val) (ss : list slot) (l : list val) : Prop :=
  match ss, l with
  | [], [] => True
  | Rest :: _, _ => True
  | s :: ss', v :: l' => fits all s v /\ fits_all all ss' l'
  | _, _ => False
  end.
End Fits.

(** Beginnings of rows. *)
Definition is_owned : list slot := [Guid; Owner; Text; Unset].
Definition is_placed : list slot := is_owned ++ [Unset; RefTo KLocalPlacement].
Definition is_shown : list slot := is_placed ++ [RefTo KProductDefinitionShape; Unset].
Definition is_type : list slot := is_owned ++ [Unset; Unset; Unset; Unset; Unset].
Definition is_relation (name : slot) : list slot := [Guid; Owner; name; Unset].
Definition is_link (name : string) : list slot := [Guid; Unset; Word (lit name); Unset].

(** Which texts stand for a material in the names of associations. *)
Definition material_words : list (kind * string) :=
  [ (KWall, "ToWalls"); (KSlab, "ToSlab"); (KRoof, "ToRoof"); (KWindow, "ToWindows")
  ; (KShadingDevice, "ToShadingDevices"); (KWallType, "ToWallType"); (KSlabType, "ToSlabType")
  ; (KRoofType, "ToRoofType"); (KShadingDeviceType, "ToShadingDeviceType") ]%string.

(** What elements and types are made of. *)
Definition material_of (k : kind) : kind :=
  match k with
  | KWall | KSlab | KRoof | KShadingDevice => KMaterialLayerSetUsage
  | KWindow => KMaterialConstituentSet
  | _ => KMaterialLayerSet
  end.

Definition assoc_row (x : kind * string) : list slot :=
  is_relation (After (lit "Material") (lit (snd x)) 5) ++ [RefsTo [fst x]; RefTo (material_of (fst x))].

(** The names of the relations from types, the elements and the types. *)
Definition type_words : list (string * kind * kind) :=
  [ ("WallTypeToWall", KWall, KWallType); ("SlabTypeToSlab", KSlab, KSlabType)
  ; ("RoofTypeToRoof", KRoof, KRoofType); ("WindowTypeToWindow", KWindow, KWindowType)
  ; ("ShadingDeviceTypeToShadingDevice", KShadingDevice, KShadingDeviceType) ]%string.

(** The names of the links of the spatial structure, the parents and the children. *)
Definition link_words : list (string * kind * kind) :=
  [ ("ProjectSitesLink", KProject, KSite); ("SiteBuildingsLink", KSite, KBuilding)
  ; ("BuildingStoreysLink", KBuilding, KStorey); ("StoreySpacesLink", KStorey, KSpace) ]%string.

(** The rows of each kind; the kinds without rows are never made. *)
Definition template (k : kind) : list (list slot) :=
  match k with
  (* who made the model *)
  | KOrganization | KPerson => [[Rest]]
  | KApplication => [[RefTo KOrganization; Text; Text; Text]]
  | KPersonAndOrganization => [[RefTo KPerson; RefTo KOrganization; Unset]]
  | KOwnerHistory =>
      [[ RefTo KPersonAndOrganization; RefTo KApplication; Unset; Choice enum_ChangeAction [lit ".ADDED."]
       ; Stamp; RefTo KPersonAndOrganization; RefTo KApplication; Stamp ]]
  (* units *)
  | KSiUnit =>
      [ [Star; Choice enum_IfcUnitEnum [lit ".LENGTHUNIT."]; Unset; Choice enum_IfcUnitName [lit ".METRE."]]
      ; [Star; Choice enum_IfcUnitEnum [lit ".PLANEANGLEUNIT."]; Unset; Choice enum_IfcUnitName [lit ".RADIAN."]]
      ; [Star; Choice enum_IfcUnitEnum [lit ".TIMEUNIT."]; Unset; Choice enum_IfcUnitName [lit ".SECOND."]] ]
  | KUnitAssigment => [[RefsOf [3%nat] KSiUnit]]
  (* geometry *)
  | KPoint2D => [[Vec 2]]
  | KPoint3D | KDirection3D => [[Vec 3]]
  | KPointList2D => [[Vecs 2; Unset]]
  | KPointList3D => [[Vecs 3; Unset]]
  | KAxis2D => [[RefTo KPoint2D; Unset]]
  | KAxis3D => [[RefTo KPoint3D; Unset; Unset]]
  | KPolyLine => [[RefsOf [2%nat] KPoint3D]]
  | KIndexedPolyCurve => [[RefTo KPointList2D; Unset; Unset]; [RefTo KPointList3D; Unset; Unset]]
  | KArbitraryClosedProfileDef => [[Choice enum_ProfileType [lit ".AREA."]; Unset; RefTo KIndexedPolyCurve]]
  | KRectangleProfileDef => [[Choice enum_ProfileType [lit ".AREA."]; Unset; RefTo KAxis2D; Real; Real]]
  | KExtrudedAreaSolid =>
      [ [RefTo KArbitraryClosedProfileDef; Unset; RefTo KDirection3D; Real]
      ; [RefTo KRectangleProfileDef; Unset; RefTo KDirection3D; Real] ]
  | KLocalPlacement => [[Unset; RefTo KAxis3D]; [RefTo KLocalPlacement; RefTo KAxis3D]]
  | KGeometricRepresentationContext =>
      [[ Choice enum_RepresentationIdentifier [lit "'Body'"]; Word (lit "Model"); Choice dim_variants [lit "3"]; Unset
       ; RefTo KAxis3D; Unset ]]
  | KGeometricRepresentationSubContext =>
      [[ Choice enum_RepresentationIdentifier [lit "'Body'"]; Word (lit "Model"); Star; Star; Star; Star
       ; RefTo KGeometricRepresentationContext; Unset; Choice enum_GeometricProjection [lit ".MODEL_VIEW."]; Unset ]]
  | KShapeRepresentation =>
      [ [ RefTo KGeometricRepresentationSubContext; Choice enum_RepresentationIdentifier [lit "'Axis'"]
        ; Choice enum_RepresentationType [lit "'Curve2D'"]; RefsOf [1%nat] KPolyLine ]
      ; [ RefTo KGeometricRepresentationSubContext; Choice enum_RepresentationIdentifier [lit "'Body'"]
        ; Choice enum_RepresentationType [lit "'SweptSolid'"]; RefsOf [1%nat] KExtrudedAreaSolid ]
      ; [ RefTo KGeometricRepresentationSubContext; Choice enum_RepresentationIdentifier [lit "'Axis'"; lit "'Body'"]
        ; Choice enum_RepresentationType [lit "'MappedRepresentation'"]; RefsOf [1%nat] KMappedItem ] ]
  | KProductDefinitionShape => [[Unset; Unset; RefsOf [1%nat; 2%nat] KShapeRepresentation]]
  | KRepresentationMap => [[RefTo KAxis3D; RefTo KShapeRepresentation]]
  | KMappedItem => [[RefTo KRepresentationMap; RefTo KCartesianTransformationOperator3DnonUniform]]
  | KCartesianTransformationOperator3DnonUniform =>
      [[ RefTo KDirection3D; RefTo KDirection3D; RefTo KPoint3D; RealIs f_one; RefTo KDirection3D; RealIs f_one
       ; RealIs f_one ]]
  (* materials *)
  | KMaterial => [[Text; Unset; Unset]]
  | KMaterialLayer => [[RefTo KMaterial; Rest]]
  | KMaterialLayerSet => [[RefsTo [KMaterialLayer]; Unset; Unset]]
  | KMaterialLayerSetUsage =>
      [[ RefTo KMaterialLayerSet; AnyOf enum_LayerSetDirectionEnum; AnyOf enum_DirectionSenseEnum; Real; Unset ]]
  | KMaterialConstituent => [[Text; Unset; RefTo KMaterial; Unset; Unset]]
  | KMaterialConstituentSet => [[Unset; Unset; RefsTo [KMaterialConstituent]]]
  (* properties *)
  | KPropertySingleValue => [[Text; Unset; Given; Unset]; [Text; Unset; Given; Given]]
  | KPropertySet => [[Guid; Unset; Text; Unset; RefsTo [KPropertySingleValue]]]
  (* the spatial structure *)
  | KProject => [is_owned ++ [Unset; Unset; Unset; RefsOf [1%nat] KGeometricRepresentationContext; RefTo KUnitAssigment]]
  | KSite => [is_placed ++ [Unset; Unset; Unset; Unset; Unset; Unset; Unset; Unset]]
  | KBuilding => [is_placed ++ [Unset; Unset; Unset; Unset; Unset; Unset]]
  | KStorey => [is_placed ++ [Unset; Unset; Unset; Unset]]
  (* elements *)
  | KWall | KSlab | KRoof | KShadingDevice | KOpeningElement => [is_shown ++ [Unset]]
  | KWindow => [is_shown ++ [Unset; Unset; Unset; Unset; Unset]]
  | KSpace => [is_shown ++ [Unset; Unset; Unset]]
  (* types *)
  | KWallType | KSlabType | KRoofType | KShadingDeviceType => [is_type ++ [Given]]
  | KWindowType => [is_type ++ [Given; AnyOf enum_WindowPartitioningTypeEnum; Unset; Unset]]
  | KSpaceType => [is_type ++ [Given; Unset]]
  (* relations *)
  | KRelAggregates => map (fun '(w, p, c) => is_link w ++ [RefTo p; RefsTo [c]]) link_words
  | KRelDefinesByProperties => [is_link "PropertiesLink" ++ [Refs 1; RefTo KPropertySet]]
  | KRelDefinesByType =>
      map (fun '(w, c, t) => is_relation (Numbered (lit w)) ++ [RefsTo [c]; RefTo t]) type_words
  | KRelVoidsElement =>
      [ is_relation (Numbered (lit "OpeningElementToWall")) ++ [RefTo KWall; RefTo KOpeningElement]
      ; is_relation (Numbered (lit "OpeningElementToSlab")) ++ [RefTo KSlab; RefTo KOpeningElement] ]
  | KRelFillsElement =>
      [is_relation (Numbered (lit "OpeningElementToWindow")) ++ [RefTo KOpeningElement; RefTo KWindow]]
  | KRelContainedInSpatialStructure =>
      [is_relation (Word (lit "StoreyToStructureElements")) ++
         [RefsTo [KWall; KSlab; KRoof; KWindow; KShadingDevice]; RefTo KStorey]]
  | KRelAssociatesMaterial => map assoc_row material_words
  | _ => []
  end.

(** Kinds of the objects of a model. *)
Definition kinds_in (m : dmap) (n : N) : option kind := option_map kind_of (lookup m n).

(** Object [e] of the model [m] has a row of its kind. *)
Definition fits_ent (m : dmap) (own : N) (e : entity) : Prop :=
  match e with
  | Ent k l => exists row, In row (template k) /\ fits_all (kinds_in m) own l row l
  | EDummy _ => False
  end.

(** The word at a place of an enumeration. *)
Fixpoint index_of (w : text) (ws : list text) : nat :=
  match ws with
  | [] => O
  | x :: ws' => if list_eq_dec N.eq_dec x w then O else S (index_of w ws')
  end.
Definition pick (ws : list text) (w : string) : val := VEnum (index_of (lit w) ws).

(** The objects every model starts with, with their numbers: made by
    [IfcProjectBuilder::new].  The clock is asked twice: the first answer becomes the
    date of creation, the second that of the last modification; the third answer of the
    oracle is the identifier of the project. *)
Definition opening_objects (o : oracle) (i : info) : dmap :=
  [ (1, Ent KOrganization (n_developer i))
  ; (2, Ent KApplication [VId 1; VStr (n_version i); VStr (n_app i); VStr (n_short i)])
  ; (3, Ent KPerson (n_person i))
  ; (4, Ent KOrganization [VOmit; VStr (n_org i); VOmit; VOmit; VOmit])
  ; (5, Ent KPersonAndOrganization [VId 3; VId 4; VOmit])
  ; (6, Ent KOwnerHistory [ VId 5; VId 2; VOmit; pick enum_ChangeAction ".ADDED."; VInt (o_now o 1)
                          ; VId 5; VId 2; VInt (o_now o 0) ])
  ; (7, Ent KSiUnit [VInh; pick enum_IfcUnitEnum ".LENGTHUNIT."; VOmit; pick enum_IfcUnitName ".METRE."])
  ; (8, Ent KSiUnit [VInh; pick enum_IfcUnitEnum ".PLANEANGLEUNIT."; VOmit; pick enum_IfcUnitName ".RADIAN."])
  ; (9, Ent KSiUnit [VInh; pick enum_IfcUnitEnum ".TIMEUNIT."; VOmit; pick enum_IfcUnitName ".SECOND."])
  ; (10, Ent KPoint3D [VVec [f_zero; f_zero; f_zero]])
  ; (11, Ent KAxis3D [VId 10; VOmit; VOmit])
  ; (12, Ent KGeometricRepresentationContext
           [ pick enum_RepresentationIdentifier "'Body'"; VStr (lit "Model"); pick dim_variants "3"; VOmit; VId 11
           ; VOmit ])
  ; (13, Ent KUnitAssigment [VList [VId 7; VId 8; VId 9]])
  ; (14, Ent KProject [ VGuid (o_guid o 2); VId 6; VStr (n_project i); VOmit; VOmit; VOmit; VOmit
                      ; VList [VId 12]; VId 13 ])
  ; (15, Ent KGeometricRepresentationSubContext
           [ pick enum_RepresentationIdentifier "'Body'"; VStr (lit "Model"); VInh; VInh; VInh; VInh; VId 12; VOmit
           ; pick enum_GeometricProjection ".MODEL_VIEW."; VOmit ]) ].

(** The kinds that occur only among them. *)
Definition opening_kinds : list kind :=
  [ KOrganization; KApplication; KPerson; KPersonAndOrganization; KOwnerHistory; KSiUnit; KUnitAssigment
  ; KGeometricRepresentationContext; KProject; KGeometricRepresentationSubContext ].

(** The kinds of objects the builder makes. *)
Definition made_kinds : list kind :=
  opening_kinds ++
  [ KPoint2D; KPoint3D; KDirection3D; KPointList2D; KPointList3D; KAxis2D; KAxis3D; KPolyLine; KIndexedPolyCurve
  ; KArbitraryClosedProfileDef; KRectangleProfileDef; KExtrudedAreaSolid; KLocalPlacement; KShapeRepresentation
  ; KProductDefinitionShape; KRepresentationMap; KMappedItem; KCartesianTransformationOperator3DnonUniform
  ; KMaterial; KMaterialLayer; KMaterialLayerSet; KMaterialLayerSetUsage; KMaterialConstituent
  ; KMaterialConstituentSet; KPropertySingleValue; KPropertySet; KSite; KBuilding; KStorey; KWall; KSlab; KRoof
  ; KShadingDevice; KOpeningElement; KWindow; KSpace; KWallType; KSlabType; KRoofType; KShadingDeviceType
  ; KWindowType; KSpaceType; KRelAggregates; KRelDefinesByProperties; KRelDefinesByType; KRelVoidsElement
  ; KRelFillsElement; KRelContainedInSpatialStructure; KRelAssociatesMaterial ].
