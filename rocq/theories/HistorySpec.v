(** Specification of what later builder calls leave of earlier ones, and of the
    placements of the products that are created. *)

From Coq Require Import String List NArith Bool.
From Verif Require Import Base Prims Float Arith Kind Types Schema Entity DataMap Builder BuilderRun BuilderSpec.
Import ListNotations.
Open Scope N_scope.

(** ** History *)

(** The state after the calls [xs] of a program that has not been built yet; [ls] are
    the ids returned. *)
Definition reached (o : oracle) (i : info) (xs : list op) (ls : list (list N)) (m : dmap) : Prop :=
  exists p0 w p, start o i = Done p0 /\ run o AtProject xs p0 = Done ((w, ls), p) /\ m = p_map p.

(** The same object, or a product definition shape of which only the third attribute,
    the list of representations, differs. *)
Definition same_but_representations (e e' : entity) : Prop :=
  e = e' \/
  exists l l', e = Ent KProductDefinitionShape l /\ e' = Ent KProductDefinitionShape l' /\
    length l = length l' /\ forall i, i <> 2%nat -> nth_error l i = nth_error l' i.

(** Calls that can lead to a transform. *)
Definition may_transform (x : op) : bool :=
  match x with OTransform _ | OStoreyTransform _ _ _ => true | _ => false end.

(** ** Placements *)

(** The object placement of a product is its sixth attribute. *)
Definition placement (m : dmap) (n : N) : option N :=
  match lookup m n with
  | Some (Ent _ l) => match nth_error l 5 with Some (VId p) => Some p | _ => None end
  | _ => None
  end.

(** What a local placement is relative to: nothing or another one. *)
Definition relative (m : dmap) (pl : N) : option (option N) :=
  match lookup m pl with
  | Some (Ent KLocalPlacement [VOmit; VId _]) => Some None
  | Some (Ent KLocalPlacement [VId q; VId _]) => Some (Some q)
  | _ => None
  end.

(** [child] has a local placement relative to that of [parent], which is older. *)
Definition under (m : dmap) (parent child : N) : Prop :=
  exists pl q, placement m child = Some pl /\ placement m parent = Some q /\
    relative m pl = Some (Some q) /\ q < pl.

(** Each product is placed under the next one, the last one absolutely. *)
Fixpoint path (m : dmap) (l : list N) : Prop :=
  match l with
  | [] => False
  | [n] => exists pl, placement m n = Some pl /\ relative m pl = Some None
  | n :: ((q :: _) as t) => under m q n /\ path m t
  end.

(** The product a call creates, followed by everything it is created in. *)
Definition call_path (c : call) : list (list N) :=
  match c with
  | (s, ONewSite _ _, [n]) | (s, ONewBuilding _ _, [n]) | (s, ONewStorey _ _, [n])
  | (s, OWall _ _ _ _ _, [n]) | (s, OSlab _ _ _ _ _, [n]) | (s, ORoof _ _ _ _ _, [n])
  | (s, OShading _ _ _ _ _ _, [n]) | (s, OSpace _ _ _ _ _, [n])
  | (s, OWallOpening _ _ _ _ _, [n]) | (s, OSlabOpening _ _, [n]) => [n :: s]
  | (s, OWallWindow _ _ _ _ _ _ _, [n; w]) | (s, OSlabWindow _ _ _ _, [n; w]) => [n :: s; w :: n :: s]
  | _ => []
  end.

(** Following what placements are relative to. *)
Inductive ends (m : dmap) : N -> N -> Prop :=
| ends_here pl : relative m pl = Some None -> ends m pl pl
| ends_up pl q r : relative m pl = Some (Some q) -> ends m q r -> ends m pl r.

(** Where a call places its product: the coordinates of the axis of its placement.
    Windows are placed at the origin of their opening, storeys along the z axis (the
    zeros have the sign of the elevation). *)
Definition call_place (c : call) : list (N * vec3) :=
  match c with
  | (_, ONewSite _ q, [n]) | (_, ONewBuilding _ q, [n]) => [(n, q)]
  | (_, ONewStorey _ e, [n]) => [(n, (fmul f_zero e, fmul f_zero e, fmul f_one e))]
  | (_, OWall _ _ _ _ q, [n]) | (_, OSlab _ _ _ _ q, [n]) | (_, ORoof _ _ _ _ q, [n])
  | (_, OShading _ _ _ _ _ q, [n]) | (_, OSpace _ _ _ _ q, [n]) => [(n, q)]
  | (_, OWallOpening _ _ _ q _, [n]) => [(n, q)]
  | (_, OSlabOpening _ (PRect _ _ q), [n]) => [(n, q)]
  | (_, OSlabOpening _ _, [n]) => [(n, v_zero)]
  | (_, OWallWindow _ _ _ _ _ q _, [n; w]) => [(n, q); (w, v_zero)]
  | (_, OSlabWindow _ _ _ (PRect _ _ q), [n; w]) => [(n, q); (w, v_zero)]
  | (_, OSlabWindow _ _ _ _, [n; w]) => [(n, v_zero); (w, v_zero)]
  | _ => []
  end.

Definition at_point (m : dmap) (n : N) (v : vec3) : Prop :=
  exists pl l ax pt, placement m n = Some pl /\ lookup m pl = Some (Ent KLocalPlacement l) /\
    nth_error l 1 = Some (VId ax) /\ lookup m ax = Some (Ent KAxis3D [VId pt; VOmit; VOmit]) /\
    lookup m pt = Some (Ent KPoint3D [vec v]).
