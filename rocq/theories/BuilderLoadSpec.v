(** Specification: which arguments the values of Rust's types allow, and which texts and
    numbers survive being written and read.

    A program meets [op_ok] when its numbers are binary64 numbers, its enumeration
    values exist (both hold for every Rust program) and its texts have no apostrophe. *)

From Coq Require Import String Ascii List NArith ZArith Bool.
From Verif Require Import Base Prims Float Arith Kind Types Schema Entity WellTyped DataMap
  Header File Builder BuilderRun BuilderSpec.
Import ListNotations.
Open Scope N_scope.

Definition vec2_ok (v : vec2) : bool := f64_okb (fst v) && f64_okb (snd v).
Definition vec3_ok (v : vec3) : bool := let '(x, y, z) := v in f64_okb x && f64_okb y && f64_okb z.

Definition wall_shape_ok (s : wall_shape) : bool :=
  match s with
  | WVertical a b => f64_okb a && f64_okb b
  | WVerticalArbitrary l => forallb vec2_ok l
  | WArbitrary l d => forallb vec3_ok l && vec3_ok d
  end.
Definition slab_shape_ok (s : slab_shape) : bool :=
  match s with
  | SHorizontal l => forallb vec2_ok l
  | SVertical a b h => vec2_ok a && vec2_ok b && f64_okb h
  | SArbitrary l d => forallb vec3_ok l && vec3_ok d
  end.
Definition opening_shape_ok (s : opening_shape) : bool :=
  match s with
  | PRect a b p => f64_okb a && f64_okb b && vec3_ok p
  | PHorizontal l => forallb vec2_ok l
  | PArbitrary l => forallb vec3_ok l
  end.
Definition tparam_ok (t : tparam) : bool :=
  vec3_ok (t_move t) && vec3_ok (t_x t) && vec3_ok (t_y t) && vec3_ok (t_z t).

(** How many predefined types a class has. *)
Definition type_variants (c : cls) : nat :=
  match c with
  | CWall => length enum_WallTypeEnum
  | CSlab => length enum_SlabTypeEnum
  | CRoof => length enum_RoofTypeEnum
  | CWindow => length enum_WindowTypeEnum
  | CShading => length enum_ShadingDeviceTypeEnum
  | CSpace => length enum_SpaceTypeEnum
  end.

(** The arguments of a call. *)
Definition op_ok (x : op) : bool :=
  match x with
  | ONewSite n v | ONewBuilding n v => text_ok n && vec3_ok v
  | ONewStorey n e => text_ok n && f64_okb e
  | ODrop | OFinishSet => true
  | OMaterial n => text_ok n
  | OLayer n l => text_ok n && wts (row_fields row_MaterialLayer) l
  | OLayerSet _ | OConstituentSet _ | ORelate _ _ => true
  | OUsage _ d e f =>
      Nat.ltb d (length enum_LayerSetDirectionEnum) && Nat.ltb e (length enum_DirectionSenseEnum) && f64_okb f
  | OConstituent a b => text_ok a && text_ok b
  | OType c _ n i => text_ok n && Nat.ltb i (type_variants c)
  | OWindowType n i j =>
      text_ok n && Nat.ltb i (type_variants CWindow) && Nat.ltb j (length enum_WindowPartitioningTypeEnum)
  | OSpaceType n i => text_ok n && Nat.ltb i (type_variants CSpace)
  | OWall _ _ n s v => text_ok n && wall_shape_ok s && vec3_ok v
  | OSlab _ _ n s v => text_ok n && slab_shape_ok s && vec3_ok v
  | ORoof _ _ n l v => text_ok n && forallb vec2_ok l && vec3_ok v
  | OShading _ _ n a b v => text_ok n && f64_okb a && f64_okb b && vec3_ok v
  | OSpace _ n l h v => text_ok n && forallb vec2_ok l && f64_okb h && vec3_ok v
  | OWallOpening n a b v d => text_ok n && f64_okb a && f64_okb b && vec3_ok v && vec3_ok d
  | OSlabOpening n s => text_ok n && opening_shape_ok s
  | OWallWindow _ _ n a b v d => text_ok n && f64_okb a && f64_okb b && vec3_ok v && vec3_ok d
  | OSlabWindow _ _ n s => text_ok n && opening_shape_ok s
  | OTransform t | OStoreyTransform _ _ t => tparam_ok t
  | OWallProps n | OSet n => text_ok n
  | OProperty n v u =>
      text_ok n && wt TValue v && match u with Some k => k <=? max_usize | None => true end
  end.

(** What [IfcProjectBuilder::new] is given; the developer and the person refer to
    nothing, since there is nothing yet. *)
Definition info_ok (i : info) : bool :=
  wts (row_fields row_Organization) (n_developer i) && text_ok (n_version i) && text_ok (n_app i) &&
  text_ok (n_short i) && wts (row_fields row_Person) (n_person i) && text_ok (n_org i) &&
  text_ok (n_project i) &&
  match entity_refs (Ent KOrganization (n_developer i)) ++ entity_refs (Ent KPerson (n_person i)) with
  | [] => true
  | _ => false
  end.

Definition is_shading (x : op) : bool := match x with OShading _ _ _ _ _ _ => true | _ => false end.
