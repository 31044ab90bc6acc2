(** Specification of what the queries of the extractor have to answer on a built model,
    in terms of the calls that built it. *)

From Coq Require Import String List NArith Bool Permutation.
From Verif Require Import Base Prims Kind Types Schema Entity DataMap Extractor Builder BuilderRun BuilderSpec.
Import ListNotations.
Open Scope N_scope.

(** The second components of the pairs with [n] as first one; and the other way round. *)
Definition partners (n : N) (l : list (N * N)) : list N := map snd (filter (fun q => fst q =? n) l).
Definition owners (n : N) (l : list (N * N)) : list N := map fst (filter (fun q => snd q =? n) l).

(** What a call that creates a part of [n] of kind [k] in the spatial tree returned;
    [pr] is the project. *)
Definition call_child (k : kind) (pr n : N) (c : call) : list N :=
  match c with
  | ([], ONewSite _ _, [x]) => if kind_eqb k KSite && (pr =? n) then [x] else []
  | ([s], ONewBuilding _ _, [x]) => if kind_eqb k KBuilding && (s =? n) then [x] else []
  | ([b; _], ONewStorey _ _, [x]) => if kind_eqb k KStorey && (b =? n) then [x] else []
  | ([st; _; _], OSpace _ _ _ _ _, [x]) => if kind_eqb k KSpace && (st =? n) then [x] else []
  | _ => []
  end.

(** The layers of the layer set [s]; those of the usage [u]. *)
Definition set_layers (cs : list call) (s : N) : list N :=
  flat_map (fun c => match c with (_, OLayerSet l, [n]) => if n =? s then l else [] | _ => [] end) cs.
Definition usage_layers (cs : list call) (u : N) : list N :=
  flat_map (fun c => match c with (_, OUsage s _ _ _, [n]) => if n =? u then set_layers cs s else [] | _ => [] end) cs.
(** The constituents of the constituent set [u]. *)
Definition set_constituents (cs : list call) (u : N) : list N :=
  flat_map (fun c => match c with (_, OConstituentSet l, [n]) => if n =? u then l else [] | _ => [] end) cs.

(** [l] is an answer with the ids [ns] and the attributes the objects of kind [k] have
    in the model. *)
Definition answers (m : dmap) (k : kind) (l : list (N * list val)) (ns : list N) : Prop :=
  map fst l = ns /\ forall n a, In (n, a) l -> lookup m n = Some (Ent k a).

(** All queries about the model [m] answer what the calls [cs] say. *)
Definition tells (m : dmap) (pr : N) (cs : list call) : Prop :=
  (forall k n, exists l ns, relations_of k m n = Done l /\ answers m k l ns /\
     Permutation ns (flat_map (call_child k pr n) cs)) /\
  (forall n, Permutation (contained_structures m n) (partners n (flat_map call_contains cs))) /\
  (forall n, exists l ns, related_voids m n = Done l /\ answers m KOpeningElement l ns /\
     Permutation ns (partners n (flat_map call_voids cs))) /\
  (forall c ty n k, In c cs -> In (ty, n) (call_types c) -> In (k, ty) (used (snd (fst c))) ->
     exists l, related_type k m n = Done (ty, l) /\ lookup m ty = Some (Ent k l)) /\
  (forall k n, ~ In n (map snd (flat_map call_types cs)) -> related_type k m n = Panic) /\
  (forall n, exists l, related_materials m n = Done l /\
     answers m KMaterialLayer l (flat_map (usage_layers cs) (owners n (flat_map call_materials cs)))) /\
  (forall n, exists l, related_constituents m n = Done l /\
     answers m KMaterialConstituent l (flat_map (set_constituents cs) (owners n (flat_map call_materials cs)))).
