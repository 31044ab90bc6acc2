(** Specification of what a program that uses the builder leaves in the model.

    Everything is said in terms of the calls, the ids they returned and the objects of
    the model; nothing here uses the tables of the builder. *)

From Coq Require Import String Ascii List NArith ZArith Bool Permutation.
From Verif Require Import Base Prims Float Arith Kind Types Schema Entity WellTyped EntitySpec DataMap
  Builder BuilderRun.
Import ListNotations.
Open Scope N_scope.

(** ** Calls *)

(** A call with the ids of the builders that were alive, innermost first, and the
    ids it returned. *)
Definition call := (list N * op * list N)%type.

(** The builder that a call starts; that of properties has no id. *)
Definition opens (x : op) (a : list N) : option N :=
  match x with
  | ONewSite _ _ | ONewBuilding _ _ | ONewStorey _ _ | OWall _ _ _ _ _ | OSlab _ _ _ _ _ => hd_error a
  | OWallProps _ | OSet _ => Some 0
  | _ => None
  end.
Definition closes (x : op) : bool :=
  match x with ODrop | OFinishSet => true | _ => false end.

Definition alive_after (s : list N) (x : op) (a : list N) : list N :=
  if closes x then tl s else match opens x a with Some n => n :: s | None => s end.

Fixpoint calls (s : list N) (xs : list op) (ls : list (list N)) : list call :=
  match xs, ls with
  | x :: xs', a :: ls' => (s, x, a) :: calls (alive_after s x a) xs' ls'
  | _, _ => []
  end.

(** ** What a call creates, as pairs of ids *)

(** Storey and element that has to be contained in it. *)
Definition call_contains (c : call) : list (N * N) :=
  match c with
  | ([st; _; _], OWall _ _ _ _ _, [n]) | ([st; _; _], OSlab _ _ _ _ _, [n])
  | ([st; _; _], ORoof _ _ _ _ _, [n]) | ([st; _; _], OShading _ _ _ _ _ _, [n]) => [(st, n)]
  | ([_; st; _; _], OWallWindow _ _ _ _ _ _ _, [_; n])
  | ([_; st; _; _], OSlabWindow _ _ _ _, [_; n]) => [(st, n)]
  | _ => []
  end.

(** Storeys. *)
Definition call_storey (c : call) : list N :=
  match c with
  | (_, ONewStorey _ _, [n]) => [n]
  | _ => []
  end.

(** Wall or slab, and opening in it. *)
Definition call_voids (c : call) : list (N * N) :=
  match c with
  | (h :: _, OWallOpening _ _ _ _ _, [n]) | (h :: _, OSlabOpening _ _, [n]) => [(h, n)]
  | (h :: _, OWallWindow _ _ _ _ _ _ _, [n; _]) | (h :: _, OSlabWindow _ _ _ _, [n; _]) => [(h, n)]
  | _ => []
  end.

(** Opening and window in it. *)
Definition call_fills (c : call) : list (N * N) :=
  match c with
  | (_, OWallWindow _ _ _ _ _ _ _, [n; w]) | (_, OSlabWindow _ _ _ _, [n; w]) => [(n, w)]
  | _ => []
  end.

(** Type given and element; [call_types_all] also for spaces. *)
Definition call_types (c : call) : list (N * N) :=
  match c with
  | (_, OWall _ ty _ _ _, [n]) | (_, OSlab _ ty _ _ _, [n])
  | (_, ORoof _ ty _ _ _, [n]) | (_, OShading _ ty _ _ _ _, [n]) => [(ty, n)]
  | (_, OWallWindow _ ty _ _ _ _ _, [_; n]) | (_, OSlabWindow _ ty _ _, [_; n]) => [(ty, n)]
  | _ => []
  end.
Definition call_types_all (c : call) : list (N * N) :=
  match c with
  | (_, OSpace ty _ _ _ _, [n]) => [(ty, n)]
  | _ => call_types c
  end.

(** Material given and element or type. *)
Definition call_materials (c : call) : list (N * N) :=
  match c with
  | (_, OWall m _ _ _ _, [n]) | (_, OSlab m _ _ _ _, [n])
  | (_, ORoof m _ _ _ _, [n]) | (_, OShading m _ _ _ _ _, [n]) | (_, OType _ m _ _, [n]) => [(m, n)]
  | (_, OWallWindow m _ _ _ _ _ _, [_; n]) | (_, OSlabWindow m _ _ _, [_; n]) => [(m, n)]
  | _ => []
  end.

(** The same with the class of element and whether a type is made: the elements and
    types that share one association are those with equal first components. *)
Definition call_users (c : call) : list (cls * bool * N * N) :=
  match c with
  | (_, OWall m _ _ _ _, [n]) => [(CWall, false, m, n)]
  | (_, OSlab m _ _ _ _, [n]) => [(CSlab, false, m, n)]
  | (_, ORoof m _ _ _ _, [n]) => [(CRoof, false, m, n)]
  | (_, OShading m _ _ _ _ _, [n]) => [(CShading, false, m, n)]
  | (_, OType c m _ _, [n]) => [(c, true, m, n)]
  | (_, OWallWindow m _ _ _ _ _ _, [_; n]) | (_, OSlabWindow m _ _ _, [_; n]) => [(CWindow, false, m, n)]
  | _ => []
  end.

(** Those of one class and material, in the order of creation. *)
Definition users_of (k : cls * bool * N) (l : list (cls * bool * N * N)) : list N :=
  map snd (filter (fun e => akey_eqb (fst e) k) l).

(** Parent and child in the spatial tree; [pr] is the project. *)
Definition call_tree (pr : N) (c : call) : list (N * N) :=
  match c with
  | ([], ONewSite _ _, [n]) => [(pr, n)]
  | ([s], ONewBuilding _ _, [n]) => [(s, n)]
  | ([b; _], ONewStorey _ _, [n]) => [(b, n)]
  | ([st; _; _], OSpace _ _ _ _ _, [n]) => [(st, n)]
  | _ => []
  end.

(** The nodes that can have children. *)
Definition call_node (c : call) : list N :=
  match c with
  | (_, ONewSite _ _, [n]) | (_, ONewBuilding _ _, [n]) | (_, ONewStorey _ _, [n]) => [n]
  | _ => []
  end.

(** ** What relations say, as pairs of ids *)

(** The ids in attribute [i]. *)
Definition ids_at (l : list val) (i : nat) : list N :=
  match nth_error l i with
  | Some (VId n) => [n]
  | Some (VList vs) => flat_map (fun v => match v with VId n => [n] | _ => [] end) vs
  | _ => []
  end.

(** The attribute lists of the objects of kind [k]. *)
Definition objects (k : kind) (m : dmap) : list (list val) :=
  flat_map (fun q => match snd q with
                     | Ent k' l => if kind_eqb k' k then [l] else []
                     | EDummy _ => []
                     end) m.

(** Every pair of an id in attribute [i] and an id in attribute [j], as often as it
    is there. *)
Definition pairs (k : kind) (i j : nat) (m : dmap) : list (N * N) :=
  flat_map (fun l => list_prod (ids_at l i) (ids_at l j)) (objects k m).
Definition ones (k : kind) (i : nat) (m : dmap) : list N := flat_map (fun l => ids_at l i) (objects k m).

(** ** Which programs are considered *)

(** The oracle answers as the libraries do: walking a hash table visits every key once,
    identifiers have sixteen bytes, the clock is in the range of time stamps. *)
Definition fair (o : oracle) : Prop := forall t l, Permutation (o_order o t l) l.
Definition sane (o : oracle) : Prop :=
  fair o /\ (forall t, guid_ok (o_guid o t) = true) /\
  (forall t, in_calendar (o_now o t) = true).

(** The ids a call returns, with their kinds. *)
Definition returned (x : op) (a : list N) : list (kind * N) :=
  match x, a with
  | OMaterial _, [n] => [(KMaterial, n)]
  | OLayer _ _, [n] => [(KMaterialLayer, n)]
  | OLayerSet _, [n] => [(KMaterialLayerSet, n)]
  | OUsage _ _ _ _, [n] => [(KMaterialLayerSetUsage, n)]
  | OConstituent _ _, [n] => [(KMaterialConstituent, n)]
  | OConstituentSet _, [n] => [(KMaterialConstituentSet, n)]
  | OType c _ _ _, [n] => [(type_kind c, n)]
  | OWindowType _ _ _, [n] => [(KWindowType, n)]
  | OSpaceType _ _, [n] => [(KSpaceType, n)]
  | OWall _ _ _ _ _, [n] => [(KWall, n)]
  | OSlab _ _ _ _ _, [n] => [(KSlab, n)]
  | ORoof _ _ _ _ _, [n] => [(KRoof, n)]
  | OShading _ _ _ _ _ _, [n] => [(KShadingDevice, n)]
  | OSpace _ _ _ _ _, [n] => [(KSpace, n)]
  | OWallOpening _ _ _ _ _, [n] | OSlabOpening _ _, [n] => [(KOpeningElement, n)]
  | OWallWindow _ _ _ _ _ _ _, [n; w] | OSlabWindow _ _ _ _, [n; w] => [(KOpeningElement, n); (KWindow, w)]
  | OFinishSet, [n] => [(KPropertySet, n)]
  | OProperty _ _ _, [n] => [(KPropertySingleValue, n)]
  | ONewSite _ _, [n] => [(KSite, n)]
  | ONewBuilding _ _, [n] => [(KBuilding, n)]
  | ONewStorey _ _, [n] => [(KStorey, n)]
  | _, _ => []
  end.

(** The ids a call takes, with the kinds the types of the code demand. *)
Definition used (x : op) : list (kind * N) :=
  match x with
  | OLayerSet l => map (pair KMaterialLayer) l
  | OUsage s _ _ _ => [(KMaterialLayerSet, s)]
  | OConstituentSet l => map (pair KMaterialConstituent) l
  | OType _ m _ _ => [(KMaterialLayerSet, m)]
  | OWall m ty _ _ _ => [(KMaterialLayerSetUsage, m); (KWallType, ty)]
  | OSlab m ty _ _ _ => [(KMaterialLayerSetUsage, m); (KSlabType, ty)]
  | ORoof m ty _ _ _ => [(KMaterialLayerSetUsage, m); (KRoofType, ty)]
  | OShading m ty _ _ _ _ => [(KMaterialLayerSetUsage, m); (KShadingDeviceType, ty)]
  | OSpace ty _ _ _ _ => [(KSpaceType, ty)]
  | OWallWindow m ty _ _ _ _ _ | OSlabWindow m ty _ _ => [(KMaterialConstituentSet, m); (KWindowType, ty)]
  | OStoreyTransform k n _ => [(k, n)]
  | ORelate s _ => [(KPropertySet, s)]
  | _ => []
  end.

(** Ids used as objects of properties can be of any kind. *)
Definition used_any (x : op) : list N := match x with ORelate _ b => [b] | _ => [] end.

(** Every id a call takes was returned by an earlier call. *)
Fixpoint honest (known : list (kind * N)) (xs : list op) (ls : list (list N)) : Prop :=
  match xs, ls with
  | x :: xs', a :: ls' =>
      incl (used x) known /\ incl (used_any x) (map snd known) /\
      honest (returned x a ++ known) xs' ls'
  | _, _ => True
  end.
