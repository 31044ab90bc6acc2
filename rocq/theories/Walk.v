(** Model of walking through a model with the extractor, as
    /repo/ifc_rs/examples/extractor.rs does: projects, sites, buildings, storeys, their
    spaces and structures, and the items of the representations of these.

    What the example prints is given as a value that has, in the same order, what is
    printed: what objects and numbers are there, not how they are laid out in lines.
    [Err] stands for a recursion that is deeper than [fuel].

    Simplified: where the example reads one object after the other and prints
    in between, here a list of results is made; if one of them panics, nothing of it is
    left.  The openings of a wall are looked up all together before the first one is
    read. *)

From Coq Require Import String Ascii List NArith ZArith Bool.
From Verif Require Import Base Prims Float Kind Types Schema Entity DataMap Extractor Mapping.
Import ListNotations.
Open Scope N_scope.

(** Which kinds [to_structure] does not answer [None] for: default
    /repo/ifc_rs/src/traits/ifc_type.rs:24-26; door/mod.rs:201, storey.rs:153,
    building.rs:151, window/mod.rs:180, slab/mod.rs:106, space/mod.rs:126, site.rs:209,
    roof/mod.rs:107, shading_device.rs:113, wall/mod.rs:92 in /repo/ifc_rs/src/objects.
    Openings implement [Structure] (opening_element/mod.rs:124) but have the default. *)
Definition to_structure (k : kind) : bool :=
  match k with
  | KDoor | KStorey | KBuilding | KWindow | KSlab | KSpace | KSite | KRoof | KShadingDevice | KWall => true
  | _ => false
  end.

(** Which of them [structure_type] does not answer [None] for: default
    /repo/ifc_rs/src/traits/sub_types.rs:18-20; door/mod.rs:206, window/mod.rs:185,
    slab/mod.rs:111, roof/mod.rs:112, shading_device.rs:118, wall/mod.rs:97. *)
Definition structure_type (k : kind) : bool :=
  match k with
  | KDoor | KWindow | KSlab | KRoof | KShadingDevice | KWall => true
  | _ => false
  end.

(** [projects], /repo/ifc_rs/src/ifc_extractor/mod.rs:16-18. *)
Definition projects (m : dmap) : list N := map fst (find_all_of_type KProject m).

(** What [print_items] prints for an item: a solid, a mapped item with its axis, its
    transform and what is printed for the items of its shape, nothing for others. *)
Inductive item :=
| ISolid (s : solid)
| IMapped (a : axis) (t : transform) (inner : list item)
| IOther.

(** Lines 155-322 [print_items] of the items of a shape representation. *)
Fixpoint visit_items (fuel : nat) (m : dmap) (l : list val) : outcome (list item) :=
  match fuel with
  | O => Err
  | S fuel' =>
      maps (fun n =>
        e <~ get_untyped m n;
        match e with
        | Ent KMappedItem a =>
            r <~ map_item m a;
            inner <~ visit_items fuel' m (snd (fst r));
            Done (IMapped (fst (fst r)) (snd r) inner)
        | Ent KExtrudedAreaSolid a => s <~ map_solid m a; Done (ISolid s)
        | _ => Done IOther
        end) (attr_ids l 3)
  end.

(** [x.shapes(ifc)] and the items of each of them, lines 107-108 and the like; the
    example joins the lists. *)
Definition visit_product (fuel : nat) (m : dmap) (l : list val) : outcome (list (list item)) :=
  ss <~ product_shapes m l; maps (visit_items fuel m) ss.

(** What [print_structure] prints: for a wall its type, its materials, its items and
    its openings with their items, for another element its items. *)
Inductive structure :=
| AWall (type : list val) (materials : list (N * list val)) (shape : list (list item))
    (openings : list (N * list (list item)))
| AnElement (k : kind) (shape : list (list item)).

(** Lines 97-153 [print_structure], lines 68-79 where it is called. *)
Definition visit_structure (fuel : nat) (m : dmap) (n : N) : outcome (option structure) :=
  e <~ get_untyped m n;
  match e with
  | Ent k l =>
      if to_structure k && structure_type k then
        if kind_eqb k KWall then
          ty <~ related_type KWallType m n;
          ms <~ related_materials m n;
          s <~ visit_product fuel m l;
          vs <~ related_voids m n;
          os <~ maps (fun v => x <~ visit_product fuel m (snd v); Done (fst v, x)) vs;
          Done (Some (AWall (snd ty) ms s os))
        else s <~ visit_product fuel m l; Done (Some (AnElement k s))
      else Done None
  | EDummy _ => Done None
  end.

(** A storey: its structures, and its spaces with the structures in them. *)
Record floor := mk_floor
  { fl_storey : N; fl_structures : list (N * option structure); fl_spaces : list (N * list N) }.

(** Lines 51-94 [print_storeys], one storey. *)
Definition visit_storey (fuel : nat) (m : dmap) (n : N) : outcome floor :=
  sp <~ relations_of KSpace m n;
  st <~ maps (fun i => s <~ visit_structure fuel m i; Done (i, s)) (contained_structures m n);
  Done (mk_floor n st (map (fun s => (fst s, contained_structures m (fst s))) sp)).

Record tour := mk_tour
  { to_projects : list N; to_sites : list N; to_buildings : list N; to_floors : list floor }.

(** Lines 12-49 [print_project_hierarchy], [print_sites], [print_buildings]. *)
Definition visit (fuel : nat) (m : dmap) : outcome tour :=
  sites <~ collect (relations_of KSite m) (projects m);
  buildings <~ collect (relations_of KBuilding m) (map fst sites);
  storeys <~ collect (relations_of KStorey m) (map fst buildings);
  fs <~ maps (visit_storey fuel m) (map fst storeys);
  Done (mk_tour (projects m) (map fst sites) (map fst buildings) fs).
