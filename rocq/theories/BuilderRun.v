(** Model of programs that use the builder: sequences of calls with any arguments.

    The borrow checker lets only the innermost builder be used; a call that does not
    fit the builders that are alive is [Err] here (it does not compile in Rust).
    Leaving a scope is a call of its own, [ODrop]. *)

From Coq Require Import String Ascii List NArith ZArith Bool.
From Verif Require Import Base Prims Float Arith Kind Types Schema Entity DataMap Extractor
  Header File Builder.
Import ListNotations.
Open Scope N_scope.
Open Scope builder_scope.

(** Which builders are alive: ids of site and building with the children they
    collected (/repo/ifc_rs/src/ifc_builder/site.rs:7-15, building.rs:7-15), the
    storey, the wall or slab, and [IfcWallPropertiesBuilder] and
    [IfcPropertySetBuilder] (properties.rs:8-18,73-77). *)
Inductive scope :=
| AtProject
| AtSite (site : N * list N)
| AtBuilding (site building : N * list N)
| AtStorey (site building : N * list N) (st : storey)
| AtHost (site building : N * list N) (st : storey) (h : host)
| AtWallProps (site building : N * list N) (st : storey) (h : host) (name : text) (props : list N)
| AtSet (site building : N * list N) (st : storey) (name : text) (props : list N).

(** The public calls of /repo/ifc_rs/src/ifc_builder. *)
Inductive op :=
| ONewSite (name : text) (position : vec3)
| ONewBuilding (name : text) (position : vec3)
| ONewStorey (name : text) (elevation : f64)
| ODrop
| OMaterial (name : text)
| OLayer (name : text) (layer : list val)
| OLayerSet (layers : list N)
| OUsage (set : N) (dir sense : nat) (offset : f64)
| OConstituent (material_name name : text)
| OConstituentSet (constituents : list N)
| OType (c : cls) (material : N) (name : text) (predefined : nat)
| OWindowType (name : text) (predefined partitioning : nat)
| OSpaceType (name : text) (predefined : nat)
| OWall (material ty : N) (name : text) (s : wall_shape) (place : vec3)
| OSlab (material ty : N) (name : text) (s : slab_shape) (place : vec3)
| ORoof (material ty : N) (name : text) (coords : list vec2) (place : vec3)
| OShading (material ty : N) (name : text) (length height : f64) (place : vec3)
| OSpace (ty : N) (name : text) (coords : list vec2) (height : f64) (place : vec3)
| OWallOpening (name : text) (length height : f64) (place dir : vec3)
| OSlabOpening (name : text) (s : opening_shape)
| OWallWindow (material ty : N) (name : text) (width height : f64) (place dir : vec3)
| OSlabWindow (material ty : N) (name : text) (s : opening_shape)
| OTransform (t : tparam)
| OStoreyTransform (k : kind) (n : N) (t : tparam)
| OWallProps (name : text)
| OSet (name : text)
| OFinishSet
| OProperty (name : text) (value : val) (unit : option N)
| ORelate (set obj : N).

Definition err {A} : B A := fun _ => Err.

Section Run.
Variable o : oracle.

(** Calls of a storey builder that leave the other builders alone: new storey and
    the ids returned. *)
Definition storey_step (st : storey) (x : op) : B (storey * list N) :=
  match x with
  | OMaterial name => n <-- material name ;; bret (st, [n])
  | OLayer name layer => n <-- material_layer name layer ;; bret (st, [n])
  | OLayerSet l => n <-- material_layer_set l ;; bret (st, [n])
  | OUsage s d e f => n <-- material_layer_set_usage s d e f ;; bret (st, [n])
  | OConstituent a b => n <-- material_constituent a b ;; bret (st, [n])
  | OConstituentSet l => n <-- material_constituent_set l ;; bret (st, [n])
  | OType c m name i =>
      match c with
      | CWindow | CSpace => err
      | _ => letp (n, st') <-- new_type o c m name i st ;; bret (st', [n])
      end
  | OWindowType name i j => letp (n, st') <-- new_window_type o name i j st ;; bret (st', [n])
  | OSpaceType name i => letp (n, st') <-- new_space_type o name i st ;; bret (st', [n])
  | ORoof m ty name cs q => letp (n, st') <-- new_roof o m ty name cs q st ;; bret (st', [n])
  | OShading m ty name a b q => letp (n, st') <-- new_shading o m ty name a b q st ;; bret (st', [n])
  | OSpace ty name cs h q => letp (n, st') <-- new_space o ty name cs h q st ;; bret (st', [n])
  | OStoreyTransform k n t =>
      if existsb (kind_eqb k) transformable
      then u <-- transform false k n (s_ctx st) t v_zero ;; bret (st, [])
      else err
  | ORelate s b => n <-- relate_properties o s b ;; bret (st, [])
  | _ => err
  end.

(** Calls of a wall or slab builder. *)
Definition host_step (st : storey) (h : host) (x : op) : B (storey * host * list N) :=
  match x, h_slab h with
  | OWallOpening name a b q d, false =>
      letp (n, st') <-- wall_opening o h name a b q d st ;; bret (st', h, [n])
  | OSlabOpening name s, true =>
      letp (n, st') <-- slab_opening o h name s st ;; bret (st', h, [n])
  | OWallWindow m ty name a b q d, false =>
      letp (n, w, st') <-- wall_window o h m ty name a b q d st ;; bret (st', h, [n; w])
  | OSlabWindow m ty name s, true =>
      letp (n, w, st') <-- slab_window o h m ty name s st ;; bret (st', h, [n; w])
  | OTransform t, _ => bret (st, mk_host (h_slab h) (h_id h) (Some t), [])
  | _, _ => err
  end.

(** One call: the builders alive afterwards and the ids made known to the caller
    (the id of the opening of a window is not returned by the code; it is listed
    first here). *)
Definition step (w : scope) (x : op) : B (scope * list N) :=
  match w, x with
  | AtProject, ONewSite name q => n <-- new_site o name q ;; bret (AtSite (n, []), [n])
  | AtSite s, ONewBuilding name q =>
      n <-- new_building o (fst s) name q ;;
      bret (AtBuilding (fst s, set_add (snd s) n) (n, []), [n])
  | AtSite s, ODrop => n <-- drop_site o (fst s) (snd s) ;; bret (AtProject, [])
  | AtBuilding s b, ONewStorey name e =>
      st <-- new_storey o (fst b) name e ;;
      bret (AtStorey s (fst b, set_add (snd b) (s_id st)) st, [s_id st])
  | AtBuilding s b, ODrop => n <-- drop_building o (fst b) (snd b) ;; bret (AtSite s, [])
  | AtStorey s b st, ODrop => u <-- drop_storey o st ;; bret (AtBuilding s b, [])
  | AtStorey s b st, OWall m ty name sh q =>
      letp (n, st') <-- new_wall o m ty name sh q st ;;
      bret (AtHost s b st' (mk_host false n None), [n])
  | AtStorey s b st, OSlab m ty name sh q =>
      letp (n, st') <-- new_slab o m ty name sh q st ;;
      bret (AtHost s b st' (mk_host true n None), [n])
  | AtStorey s b st, OSet name => bret (AtSet s b st name [], [])
  | AtStorey s b st, x => letp (st', l) <-- storey_step st x ;; bret (AtStorey s b st', l)
  | AtHost s b st h, ODrop => u <-- drop_host o h st ;; bret (AtStorey s b st, [])
  | AtHost s b st h, OWallProps name =>
      if h_slab h then err else bret (AtWallProps s b st h name [], [])
  | AtHost s b st h, x => letp (st', h', l) <-- host_step st h x ;; bret (AtHost s b st' h', l)
  | AtWallProps s b st h name ps, OProperty a v u =>
      n <-- single_property a v u ;; bret (AtWallProps s b st h name (ps ++ [n]), [n])
  | AtWallProps s b st h name ps, ODrop =>
      n <-- property_set o name ps ;;
      r <-- relate_properties o n (h_id h) ;;
      bret (AtHost s b st h, [])
  | AtSet s b st name ps, OProperty a v u =>
      n <-- single_property a v u ;; bret (AtSet s b st name (ps ++ [n]), [n])
  | AtSet s b st name ps, OFinishSet => n <-- property_set o name ps ;; bret (AtStorey s b st, [n])
  | AtSet s b st name ps, ODrop => bret (AtStorey s b st, [])
  | _, _ => err
  end.

(** A program. *)
Fixpoint run (w : scope) (xs : list op) : B (scope * list (list N)) :=
  match xs with
  | [] => bret (w, [])
  | x :: xs' =>
      letp (w', a) <-- step w x ;;
      letp (w'', l) <-- run w' xs' ;;
      bret (w'', a :: l)
  end.

(** The state before [IfcProjectBuilder::new] and after it,
    /repo/ifc_rs/src/ifc_builder/project.rs:38,97-113. *)
Definition empty_proj : proj := mk_proj [] 0 0 0 [] [].
Definition start (i : info) : outcome proj :=
  match new_project o i empty_proj with
  | Done (oh, pr, p) => Done (mk_proj (p_map p) (p_tick p) oh pr [] [])
  | Err => Err
  | Panic => Panic
  end.

(** From [new] to [build]: the state at the end and the ids returned. *)
Definition program (i : info) (xs : list op) : outcome (list (list N) * proj) :=
  match start i with
  | Done p =>
      match run AtProject xs p with
      | Done (AtProject, l, q) =>
          match build o q with
          | Done (_, r) => Done (l, r)
          | Err => Err
          | Panic => Panic
          end
      | Done _ => Err
      | Err => Err
      | Panic => Panic
      end
  | Err => Err
  | Panic => Panic
  end.

End Run.

(** [IFC::default], /repo/ifc_rs/src/lib.rs:111-129, [FileDetails::default],
    /repo/ifc_rs/src/meta/header/mod.rs; [t] is the time of its creation. *)
Definition default_header (t : stamp) : header :=
  mk_header [] [] t [[]] [[]] [] [] [] [S_IFC4X3_ADD2].

(** The model that is printed, and the text [build] returns. *)
Definition built (o : oracle) (t : stamp) (i : info) (xs : list op) : outcome ifc :=
  match program o i xs with
  | Done (_, p) => Done (mk_ifc (default_header t) (p_map p))
  | Err => Err
  | Panic => Panic
  end.
Definition build_text (o : oracle) (t : stamp) (i : info) (xs : list op) : outcome text :=
  match built o t i xs with
  | Done x => Done (save x)
  | Err => Err
  | Panic => Panic
  end.
