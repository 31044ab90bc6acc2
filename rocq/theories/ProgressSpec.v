(** Specification: which builder programs compile.

    Every builder borrows the one it comes from mutably, so that only the innermost one
    can be used, and the methods of a builder are those of its type; both are checked
    by the Rust compiler.  [after] says which method calls there are at which builder
    and which builder is the innermost one afterwards. *)

From Coq Require Import List NArith Bool.
From Verif Require Import Base Kind DataMap Builder BuilderRun BuilderSpec HistorySpec.
Import ListNotations.
Open Scope N_scope.

(** The builders: [IfcProjectBuilder], [IfcSiteBuilder], [IfcBuildingBuilder],
    [IfcStoreyBuilder], [IfcWallBuilder], [IfcSlabBuilder], [IfcWallPropertiesBuilder]
    and [IfcPropertySetBuilder]. *)
Inductive level := LProject | LSite | LBuilding | LStorey | LWall | LSlab | LWallProps | LSet.

(** The kinds with [impl TransformableType],
    e.g. /repo/ifc_rs/src/objects/building_elements/walls/wall.rs. *)
Definition can_transform (k : kind) : bool :=
  match k with
  | KWall | KSlab | KRoof | KWindow | KDoor | KOpeningElement | KShadingDevice => true
  | _ => false
  end.

Definition after (l : level) (x : op) : option level :=
  match l, x with
  | LProject, ONewSite _ _ => Some LSite
  | LSite, ONewBuilding _ _ => Some LBuilding
  | LSite, ODrop => Some LProject
  | LBuilding, ONewStorey _ _ => Some LStorey
  | LBuilding, ODrop => Some LSite
  | LStorey, ODrop => Some LBuilding
  | LStorey, OWall _ _ _ _ _ => Some LWall
  | LStorey, OSlab _ _ _ _ _ => Some LSlab
  | LStorey, OSet _ => Some LSet
  | LStorey, (OMaterial _ | OLayer _ _ | OLayerSet _ | OUsage _ _ _ _ | OConstituent _ _ | OConstituentSet _
             | OWindowType _ _ _ | OSpaceType _ _ | ORoof _ _ _ _ _ | OShading _ _ _ _ _ _ | OSpace _ _ _ _ _
             | ORelate _ _) => Some LStorey
  | LStorey, OType c _ _ _ => match c with CWindow | CSpace => None | _ => Some LStorey end
  | LStorey, OStoreyTransform k _ _ => if can_transform k then Some LStorey else None
  | LWall, (OWallOpening _ _ _ _ _ | OWallWindow _ _ _ _ _ _ _ | OTransform _) => Some LWall
  | LWall, OWallProps _ => Some LWallProps
  | LWall, ODrop => Some LStorey
  | LSlab, (OSlabOpening _ _ | OSlabWindow _ _ _ _ | OTransform _) => Some LSlab
  | LSlab, ODrop => Some LStorey
  | LWallProps, OProperty _ _ _ => Some LWallProps
  | LWallProps, ODrop => Some LWall
  | LSet, OProperty _ _ _ => Some LSet
  | LSet, (OFinishSet | ODrop) => Some LStorey
  | _, _ => None
  end.

(** The innermost builder after some calls, or nothing if they do not compile. *)
Fixpoint nest (l : level) (xs : list op) : option level :=
  match xs with
  | [] => Some l
  | x :: xs' => match after l x with Some l' => nest l' xs' | None => None end
  end.

(** The ids returned so far, with their kinds. *)
Definition told (xs : list op) (ls : list (list N)) : list (kind * N) :=
  flat_map (fun c => returned (fst c) (snd c)) (combine xs ls).

(** Every call takes only ids that have been returned before it, of the kinds the types
    of the code demand. *)
Definition careful (o : oracle) (i : info) (xs : list op) : Prop :=
  forall ys x zs ls m, xs = ys ++ x :: zs -> reached o i ys ls m ->
  incl (used x) (told ys ls) /\ incl (used_any x) (map snd (told ys ls)).

(** A bound for the number of objects that [n] calls can lead to: the numbers of
    objects do not overflow. *)
Definition few (n : N) : Prop := n < 2 ^ 28.
