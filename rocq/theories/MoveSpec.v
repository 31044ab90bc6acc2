(** Specification of transforms: which products a call moves, and what moving does to
    the representations of a product. *)

From Coq Require Import String List NArith Bool.
From Verif Require Import Base Prims Float Arith Kind Types Schema Entity DataMap Builder BuilderRun BuilderSpec
  HistorySpec.
Import ListNotations.
Open Scope N_scope.

(** ** Representations of a product *)

(** The shape of a product is its seventh attribute. *)
Definition shape_of (m : dmap) (n : N) : option N :=
  match lookup m n with
  | Some (Ent _ l) => match nth_error l 6 with Some (VId s) => Some s | _ => None end
  | _ => None
  end.

(** The product [n] has the representations [rs], in this order. *)
Definition drawn (m : dmap) (n : N) (rs : list N) : Prop :=
  exists sh, shape_of m n = Some sh /\
    lookup m sh = Some (Ent KProductDefinitionShape [VOmit; VOmit; VList (map VId rs)]).

(** The products a call creates that have a shape. *)
Definition call_products (c : call) : list (kind * N) :=
  match c with
  | (_, OWall _ _ _ _ _, [n]) => [(KWall, n)]
  | (_, OSlab _ _ _ _ _, [n]) => [(KSlab, n)]
  | (_, ORoof _ _ _ _ _, [n]) => [(KRoof, n)]
  | (_, OShading _ _ _ _ _ _, [n]) => [(KShadingDevice, n)]
  | (_, OSpace _ _ _ _ _, [n]) => [(KSpace, n)]
  | (_, OWallOpening _ _ _ _ _, [n]) | (_, OSlabOpening _ _, [n]) => [(KOpeningElement, n)]
  | (_, OWallWindow _ _ _ _ _ _ _, [n; w]) | (_, OSlabWindow _ _ _ _, [n; w]) =>
      [(KOpeningElement, n); (KWindow, w)]
  | _ => []
  end.

(** ** Moves *)

(** Whether the identifiers of the representations are kept, the transform, and the
    origin it is relative to. *)
Definition move := (bool * tparam * vec3)%type.

(** A direction and a point of the model. *)
Definition directed (m : dmap) (n : N) (v : vec3) : Prop :=
  lookup m n = Some (Ent KDirection3D [vec (vnormalize v)]).
Definition pointed (m : dmap) (n : N) (v : vec3) : Prop := lookup m n = Some (Ent KPoint3D [vec v]).

(** The identifier (Axis, Body, ...) of a representation. *)
Definition role (m : dmap) (r : N) : option nat :=
  match lookup m r with
  | Some (Ent KShapeRepresentation l) => match nth_error l 1 with Some (VEnum i) => Some i | _ => None end
  | _ => None
  end.

(** The operator object [tr] says [t], without scaling. *)
Definition operator (m : dmap) (tr : N) (t : tparam) : Prop :=
  exists x y q z,
    lookup m tr = Some (Ent KCartesianTransformationOperator3DnonUniform
      [VId x; VId y; VId q; VReal f_one; VId z; VReal f_one; VReal f_one]) /\
    directed m x (t_x t) /\ directed m y (t_y t) /\ pointed m q (t_move t) /\ directed m z (t_z t).

(** The representation [r] shows [r'] moved: its only item is [r'] mapped from the
    origin by the operator, its type says so (28 is 'MappedRepresentation'), and its
    identifier is that of [r'] or, if it is not kept, 'Body' (8). *)
Definition mapped (m : dmap) (mv : move) (r r' : N) : Prop :=
  let '(keep, t, origin) := mv in
  exists ctx i it mp tr ax pt,
    lookup m r = Some (Ent KShapeRepresentation [VId ctx; VEnum i; VEnum 28; VList [VId it]]) /\
    lookup m it = Some (Ent KMappedItem [VId mp; VId tr]) /\
    lookup m mp = Some (Ent KRepresentationMap [VId ax; VId r']) /\
    lookup m ax = Some (Ent KAxis3D [VId pt; VOmit; VOmit]) /\
    pointed m pt origin /\ operator m tr t /\
    (if keep then forall j, role m r' = Some j -> i = j else i = 8%nat).

(** The transform that the wall or slab under construction will get: the last one asked
    for. *)
Definition pend (t : option tparam) (c : call) : option tparam :=
  match c with
  | (_, OTransform t', _) => Some t'
  | ([_; _; _; _], ODrop, _) => None
  | _ => t
  end.
Definition pending (cs : list call) : option tparam := fold_left pend cs None.

(** The same transform as seen from a point. *)
Definition seen_from (v : vec3) (t : tparam) : tparam :=
  mk_tparam (let '(x, y, z) := t_move t in let '(a, b, c) := v in (fsub x a, fsub y b, fsub z c)) (t_x t) (t_y t) (t_z t).

(** What a call moves after the calls [cs]: when a wall or slab is finished for which a
    transform was asked, the wall or slab itself, its openings and the windows in them,
    these relative to the place of the opening; when the storey is asked to transform a
    product, this one. *)
Inductive moves (cs : list call) : call -> N -> move -> Prop :=
| moves_host h st b s a t :
    pending cs = Some t -> moves cs ([h; st; b; s], ODrop, a) h (true, t, v_zero)
| moves_opening h st b s a t n v :
    pending cs = Some t -> In (h, n) (flat_map call_voids cs) -> In (n, v) (flat_map call_place cs) ->
    moves cs ([h; st; b; s], ODrop, a) n (true, seen_from v t, v)
| moves_window h st b s a t n v w :
    pending cs = Some t -> In (h, n) (flat_map call_voids cs) -> In (n, v) (flat_map call_place cs) ->
    In (n, w) (flat_map call_fills cs) ->
    moves cs ([h; st; b; s], ODrop, a) w (true, seen_from v t, v)
| moves_storey s k n t a : moves cs (s, OStoreyTransform k n t, a) n (false, t, v_zero).

(** The moves a product gets by the calls [ds] made after [cs], the first one first. *)
Inductive journey (n : N) : list call -> list call -> list move -> Prop :=
| journey_end cs : journey n cs [] []
| journey_move cs c ds mv l : moves cs c n mv -> journey n (cs ++ [c]) ds l -> journey n cs (c :: ds) (mv :: l)
| journey_stay cs c ds l : (forall mv, ~ moves cs c n mv) -> journey n (cs ++ [c]) ds l -> journey n cs (c :: ds) l.

(** The representation [r] shows [r'] after these moves. *)
Inductive moved (m : dmap) : list move -> N -> N -> Prop :=
| moved_not r : moved m [] r r
| moved_by l mv r r1 r' : moved m l r1 r' -> mapped m mv r r1 -> moved m (l ++ [mv]) r r'.
