(** Properties of the extractor: C26, C27, C28. *)

From Coq Require Import String Ascii List NArith ZArith Bool Sorted.
From Verif Require Import Base Prims Spec Kind Types Schema Entity DataMap DataSpec Header File HeaderSpec FileSpec
  StrictTime Extractor ExtractorSpec DataMapFacts ExtractorFacts.
Import ListNotations.
Open Scope N_scope.

(** ** C26: children *)

(** The children of kind [k] of [n]: one for each place of each aggregation of [n]
    that holds an object of this kind, relation by relation in id order and in list
    order, with the attributes of the object. *)
Theorem C26_children k m n l :
  increasing m -> relations_of k m n = Done l ->
  lists (fun r i c => aggregated m n r i c /\ exists a, is_a m k c a) (map fst l) /\
  (forall c a, In (c, a) l -> is_a m k c a).
Proof. exact (relations_of_spec k m n l). Qed.
Print Assumptions C26_children.

(** The query panics exactly when an aggregation of [n] mentions a missing object. *)
Theorem C26_panic k m n :
  increasing m -> relations_of k m n <> Err /\
  (relations_of k m n = Panic <-> exists r i c, aggregated m n r i c /\ lookup m c = None).
Proof. exact (relations_of_panic k m n). Qed.
Print Assumptions C26_panic.

(** After a successful load it never does. *)
Theorem C26_loaded v s x k n :
  load v s = Done x -> exists l, relations_of k (i_data x) n = Done l.
Proof. exact (fun H => proj1 (loaded_queries v s x n H) k). Qed.
Print Assumptions C26_loaded.

(** The places determine the answer. *)
Theorem C26_determined P l l' : lists P l -> lists P l' -> l = l'.
Proof. exact (lists_unique P l l'). Qed.
Print Assumptions C26_determined.

Definition site (n : N) : N * entity := (n, Ent KSite []).
Definition sites_map : dmap :=
  [ site 2; site 3; (4, Ent KBuilding []); site 5
  ; (7, Ent KRelAggregates [VStr []; VOmit; VOmit; VOmit; VId 1; VList [VId 5; VId 4; VId 2]])
  ; (8, Ent KRelAggregates [VStr []; VOmit; VOmit; VOmit; VId 9; VList [VId 3]])
  ; (9, Ent KRelAggregates [VStr []; VOmit; VOmit; VOmit; VId 1; VList [VId 5]]) ].

Example C26_example :
  increasing sites_map /\ relations_of KSite sites_map 1 = Done [(5, []); (2, []); (5, [])] /\
  aggregated sites_map 1 7 2 2 /\ relations_of KSite [(7, Ent KRelAggregates [VStr []; VOmit; VOmit; VOmit; VId 1; VList [VId 5]])] 1 = Panic.
Proof.
  split; [repeat constructor|]. split; [reflexivity|]. split; [|reflexivity].
  eexists. split; [reflexivity|]. split; [reflexivity|]. eexists. split; reflexivity.
Qed.

(** ** C27: contained structures *)

Theorem C27_contained m n : increasing m -> lists (contained m n) (contained_structures m n).
Proof. exact (contained_structures_spec m n). Qed.
Print Assumptions C27_contained.

Example C27_example :
  contained_structures
    [ (7, Ent KRelContainedInSpatialStructure [VStr []; VOmit; VOmit; VOmit; VList [VId 5; VId 4; VId 5]; VId 1])
    ; (8, Ent KRelContainedInSpatialStructure [VStr []; VOmit; VOmit; VOmit; VList [VId 6]; VId 2])
    ; (9, Ent KRelContainedInSpatialStructure [VStr []; VOmit; VOmit; VOmit; VList [VId 3]; VId 1]) ] 1 = [5; 4; 5; 3].
Proof. reflexivity. Qed.

(** ** C28: types, materials, openings *)

(** The type is the one of the first relation that mentions the element. *)
Theorem C28_type k m n t l :
  increasing m ->
  (related_type k m n = Done (t, l) <->
   exists r, typed m n r t /\ is_a m k t l /\
     forall r' l', is_a m KRelDefinesByType r' l' -> (exists i, holds_at l' 4 i n) -> r <= r').
Proof.
  exact (fun Hi => conj (related_type_spec k m n t l Hi)
    (fun H => match H with ex_intro _ r (conj H1 (conj H2 H3)) => related_type_total k m n r t l Hi H1 H2 H3 end)).
Qed.
Print Assumptions C28_type.

(** It is never an error; without such a type it panics. *)
Theorem C28_type_never_errs k m n : related_type k m n <> Err.
Proof. exact (related_type_no_err k m n). Qed.
Print Assumptions C28_type_never_errs.

(** The openings are those of the void relations of the element. *)
Theorem C28_openings m n l :
  increasing m -> related_voids m n = Done l ->
  lists (fun r i c => i = 0%nat /\ voided m n r c) (map fst l) /\
  (forall c a, In (c, a) l -> is_a m KOpeningElement c a).
Proof. exact (related_voids_spec m n l). Qed.
Print Assumptions C28_openings.

Theorem C28_openings_panic m n :
  increasing m -> related_voids m n <> Err /\
  (related_voids m n = Panic <-> exists r c, voided m n r c /\ forall a, ~ is_a m KOpeningElement c a).
Proof. exact (related_voids_panic m n). Qed.
Print Assumptions C28_openings_panic.

(** After a successful load the query panics exactly when an opening is an object of
    an unknown kind. *)
Theorem C28_openings_loaded v s x n :
  load v s = Done x ->
  (related_voids (i_data x) n = Panic <->
   exists r c e, voided (i_data x) n r c /\ lookup (i_data x) c = Some e /\ kind_of e = KDummy).
Proof. exact (fun H => proj2 (loaded_queries v s x n H)). Qed.
Print Assumptions C28_openings_loaded.

(** The layers are those of the layer sets of the usages related to the element. *)
Theorem C28_layers m n l :
  increasing m -> related_materials m n = Done l ->
  lists (layered m n) (map fst l) /\ (forall c a, In (c, a) l -> is_a m KMaterialLayer c a).
Proof. exact (related_materials_spec m n l). Qed.
Print Assumptions C28_layers.

Theorem C28_layers_panic m n :
  increasing m -> related_materials m n <> Err /\
  (related_materials m n = Panic <->
     (exists r u, made_of m n r u /\ lookup m u = None) \/
     (exists r u lu s, made_of m n r u /\ is_a m KMaterialLayerSetUsage u lu /\ holds_id lu 0 s /\
        forall ls, ~ is_a m KMaterialLayerSet s ls) \/
     (exists r i c, layered m n r i c /\ forall a, ~ is_a m KMaterialLayer c a)).
Proof. exact (related_materials_panic m n). Qed.
Print Assumptions C28_layers_panic.

(** The constituents are those of the constituent sets related to the element. *)
Theorem C28_constituents m n l :
  increasing m -> related_constituents m n = Done l ->
  lists (constituted m n) (map fst l) /\ (forall c a, In (c, a) l -> is_a m KMaterialConstituent c a).
Proof. exact (related_constituents_spec m n l). Qed.
Print Assumptions C28_constituents.

Theorem C28_constituents_panic m n :
  increasing m -> related_constituents m n <> Err /\
  (related_constituents m n = Panic <->
     (exists r u, made_of m n r u /\ lookup m u = None) \/
     (exists r i c, constituted m n r i c /\ forall a, ~ is_a m KMaterialConstituent c a)).
Proof. exact (related_constituents_panic m n). Qed.
Print Assumptions C28_constituents_panic.

Definition rel (k : kind) (a b : val) : entity := Ent k [VStr []; VOmit; VOmit; VOmit; a; b].
Definition wall_map : dmap :=
  [ (1, Ent KWall []); (2, Ent KWallType [VStr [65]]); (3, Ent KWallType [])
  ; (4, rel KRelDefinesByType (VList [VId 9; VId 1]) (VId 2))
  ; (5, rel KRelDefinesByType (VList [VId 1]) (VId 3))
  ; (6, Ent KOpeningElement []); (7, rel KRelVoidsElement (VId 1) (VId 6))
  ; (10, Ent KMaterialLayer []); (11, Ent KMaterialLayer [VOmit])
  ; (12, Ent KMaterialLayerSet [VList [VId 11; VId 10]]); (13, Ent KMaterialLayerSetUsage [VId 12])
  ; (14, rel KRelAssociatesMaterial (VList [VId 3; VId 1]) (VId 13))
  ; (20, Ent KMaterialConstituent []); (21, Ent KMaterialConstituentSet [VOmit; VOmit; VList [VId 20; VId 20]])
  ; (22, rel KRelAssociatesMaterial (VList [VId 1]) (VId 21)) ].

Example C28_example :
  increasing wall_map /\
  related_type KWallType wall_map 1 = Done (2, [VStr [65]]) /\
  related_type KSlabType wall_map 1 = Panic /\ related_type KWallType wall_map 2 = Panic /\
  related_voids wall_map 1 = Done [(6, [])] /\
  related_materials wall_map 1 = Done [(11, [VOmit]); (10, [])] /\
  related_constituents wall_map 1 = Done [(20, []); (20, [])].
Proof. split; [repeat constructor|]. repeat split. Qed.

Example C28_loaded_example :
  let s := lit "ISO-10303-21;HEADER;FILE_DESCRIPTION((''),'2;1');FILE_NAME('','2024-01-02T12:00:00',(''),(''),'','','');FILE_SCHEMA(('IFC4'));ENDSEC;DATA;#1=IFCFOO();#2=IFCRELVOIDSELEMENT('0000000000000000000000',$,$,$,#1,#1);ENDSEC;END-ISO-10303-21;" in
  exists x, load env0 s = Done x /\ related_voids (i_data x) 1 = Panic.
Proof. eexists. split; vm_compute; reflexivity. Qed.
