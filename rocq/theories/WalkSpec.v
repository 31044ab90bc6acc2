(** Specification of what walking through a built model meets, in terms of the calls
    that built it. *)

From Coq Require Import String List NArith ZArith Bool Permutation.
From Verif Require Import Base Prims Float Arith Kind Types Schema Entity DataMap Extractor Mapping Walk
  Builder BuilderRun BuilderSpec ExtractSpec HistorySpec MoveSpec FormSpec.
Import ListNotations.
Open Scope N_scope.

(** ** Geometry as it is read *)

Definition coords3 (v : vec3) : list f64 := let '(x, y, z) := v in [x; y; z].
Definition coords2 (v : vec2) : list f64 := [fst v; snd v].

(** The solid of a form. *)
Definition outline_read (f : outline) : profile :=
  match f with
  | FormSpec.Rectangle a b =>
      Mapping.Rectangle (Some (Axis2 (coords2 (fmul a f_half, fmul b f_half)) None)) a b
  | Flat l => Arbitrary 1 (Points2 (map coords2 l))
  | Spatial l => Arbitrary 1 (Points3 (map coords3 l))
  end.
Definition form_read (f : form) : solid :=
  let '(out, dir, len) := f in mk_solid (outline_read out) None (coords3 dir) len.

(** The axis and the transform of a move. *)
Definition move_axis (mv : move) : Mapping.axis := Axis3 (coords3 (snd mv)) None None.
Definition move_read (mv : move) : Mapping.transform :=
  let t := snd (fst mv) in
  mk_transform (Some (coords3 (t_move t))) (Some (coords3 (vnormalize (t_x t))))
    (Some (coords3 (vnormalize (t_y t)))) (Some (coords3 (vnormalize (t_z t))))
    (Some f_one) (Some (Some f_one, Some f_one)).

(** Items after some moves: the last move is the outermost one. *)
Definition after (mvs : list move) (l : list item) : list item :=
  fold_left (fun inner mv => [IMapped (move_axis mv) (move_read mv) inner]) mvs l.

(** What is met for a product of this form after these moves: one representation with
    the solid, and for a wall one with its axis line, of which nothing is printed. *)
Definition met (f : form) (ax : option vec3) (mvs : list move) : list (list item) :=
  after mvs [ISolid (form_read f)] :: match ax with Some _ => [after mvs [IOther]] | None => [] end.

(** The product [n] of kind [k] was made by one of the calls [all], and [s] is what is
    met for the form it was given there after the moves of the later calls. *)
Definition as_called (o : oracle) (all : list call) (k : kind) (n : N) (s : list (list item)) : Prop :=
  exists cs c ds f ax mvs, all = cs ++ c :: ds /\ In (k, n) (call_products c) /\
    form_of o cs c n f ax /\ journey n (cs ++ [c]) ds mvs /\ s = met f ax mvs.

(** ** Structures *)

(** Every structure of a storey is reported with its geometry, walls also with the
    type and the layers that were given for them and with their openings. *)
Inductive reported (o : oracle) (m : dmap) (all : list call) (n : N) : option structure -> Prop :=
| reported_wall c ty l ms s os :
    In c all -> In (ty, n) (call_types c) -> lookup m ty = Some (Ent KWallType l) ->
    as_called o all KWall n s ->
    answers m KMaterialLayer ms (flat_map (usage_layers all) (owners n (flat_map call_materials all))) ->
    Permutation (map fst os) (partners n (flat_map call_voids all)) ->
    Forall (fun q => as_called o all KOpeningElement (fst q) (snd q)) os ->
    reported o m all n (Some (AWall l ms s os))
| reported_other k s :
    In k [KSlab; KRoof; KShadingDevice; KWindow] -> as_called o all k n s ->
    reported o m all n (Some (AnElement k s)).

Definition floor_ok (o : oracle) (m : dmap) (pr : N) (all : list call) (f : floor) : Prop :=
  Permutation (map fst (fl_structures f)) (partners (fl_storey f) (flat_map call_contains all)) /\
  Forall (fun q => reported o m all (fst q) (snd q)) (fl_structures f) /\
  Permutation (map fst (fl_spaces f)) (flat_map (call_child KSpace pr (fl_storey f)) all) /\
  Forall (fun q => snd q = []) (fl_spaces f).

(** The ids that calls of three kinds returned. *)
Definition call_site (c : call) : list N := match c with (_, ONewSite _ _, [n]) => [n] | _ => [] end.
Definition call_building (c : call) : list N := match c with (_, ONewBuilding _ _, [n]) => [n] | _ => [] end.

(** The walk meets the project, every site, building and storey once, and on every
    storey what was put there. *)
Definition tour_ok (o : oracle) (m : dmap) (pr : N) (all : list call) (t : tour) : Prop :=
  to_projects t = [pr] /\
  Permutation (to_sites t) (flat_map call_site all) /\
  Permutation (to_buildings t) (flat_map call_building all) /\
  Permutation (map fl_storey (to_floors t)) (flat_map call_storey all) /\
  Forall (floor_ok o m pr all) (to_floors t).

(** ** Saving and loading *)

(** What is met after the reals have been changed with [f] and the attributes [g]. *)
Section After.
Variable f : f64 -> f64.
Variable g : val -> val.

Definition axis_with (a : Mapping.axis) : Mapping.axis :=
  match a with
  | Axis2 p x => Axis2 (map f p) (option_map (map f) x)
  | Axis3 p z x => Axis3 (map f p) (option_map (map f) z) (option_map (map f) x)
  end.
Definition points_with (p : Mapping.points) : Mapping.points :=
  match p with Points2 l => Points2 (map (map f) l) | Points3 l => Points3 (map (map f) l) end.
Definition profile_with (p : profile) : profile :=
  match p with
  | Mapping.Rectangle a x y => Mapping.Rectangle (option_map axis_with a) (f x) (f y)
  | Arbitrary i ps => Arbitrary i (points_with ps)
  end.
Definition solid_with (s : solid) : solid :=
  mk_solid (profile_with (so_profile s)) (option_map axis_with (so_position s)) (map f (so_direction s)) (f (so_depth s)).
Definition transform_with (t : Mapping.transform) : Mapping.transform :=
  mk_transform (option_map (map f) (tr_origin t)) (option_map (map f) (tr_x t)) (option_map (map f) (tr_y t))
    (option_map (map f) (tr_z t)) (option_map f (tr_scale t))
    (option_map (fun q => (option_map f (fst q), option_map f (snd q))) (tr_scales t)).
Fixpoint item_with (i : item) : item :=
  match i with
  | ISolid s => ISolid (solid_with s)
  | IMapped a t l => IMapped (axis_with a) (transform_with t) (map item_with l)
  | IOther => IOther
  end.
Definition mapped_with (x : Mapping.mapped) : Mapping.mapped :=
  match x with
  | MAxis a => MAxis (axis_with a)
  | MPoints p => MPoints (points_with p)
  | MProfile p => MProfile (profile_with p)
  | MSolid s => MSolid (solid_with s)
  | MTransform t => MTransform (transform_with t)
  | MItem a s t => MItem (axis_with a) (map g s) (transform_with t)
  end.
Definition object_with (q : N * list val) : N * list val := (fst q, map g (snd q)).
Definition structure_with (s : structure) : structure :=
  match s with
  | AWall ty ms x os =>
      AWall (map g ty) (map object_with ms) (map (map item_with) x)
        (map (fun q => (fst q, map (map item_with) (snd q))) os)
  | AnElement k x => AnElement k (map (map item_with) x)
  end.
Definition floor_with (x : floor) : floor :=
  mk_floor (fl_storey x) (map (fun q => (fst q, option_map structure_with (snd q))) (fl_structures x)) (fl_spaces x).
Definition tour_with (t : tour) : tour :=
  mk_tour (to_projects t) (to_sites t) (to_buildings t) (map floor_with (to_floors t)).
End After.

(** The result of a function with another value. *)
Definition with_result {A B} (h : A -> B) (x : outcome A) : outcome B :=
  match x with Done a => Done (h a) | Err => Err | Panic => Panic end.

(** ** Nesting *)

(** The shape representation [l'] is shown by an item of the shape representation [l]. *)
Definition shown_in (m : dmap) (l' l : list val) : Prop :=
  exists n a r, In n (attr_ids l 3) /\ lookup m n = Some (Ent KMappedItem a) /\ map_item m a = Done r /\ l' = snd (fst r).
