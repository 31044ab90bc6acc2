(** Properties of walking through a model as examples/extractor.rs does: C54.

    [visit fuel m] is the whole walk with representations nested up to [fuel] deep;
    [as_called o cs k n s]: one of the calls [cs] made the product [n] of kind [k], and
    [s] is what is met for the form it was given there and the moves of the later calls;
    [tour_ok o m pr cs t]: [t] has what the calls [cs] put into the project [pr]. *)

From Coq Require Import String Ascii List NArith ZArith Bool Permutation.
From Verif Require Import Base Prims Float Arith Kind Types WellTyped Schema Entity DataMap Extractor Mapping Walk Header File
  HeaderSpec FileSpec FloatFacts FileFacts StrictTime Builder BuilderRun BuilderSpec BuilderLoadSpec BuilderLoad BuilderExample
  ExtractSpec MoveSpec FormSpec WalkSpec WalkFacts WalkFacts3 WalkNorm P_File P_Builder.
Import ListNotations.
Open Scope N_scope.

(** ** C54: walking through built models *)

(** Every product is met with the form it was given, inside one mapped item for every
    transform made later. *)
Theorem C54_product_built o i xs ls r k n :
  fair o -> program o i xs = Done (ls, r) -> honest [] xs ls ->
  In (k, n) (flat_map call_products (calls [] xs ls)) ->
  exists l s, lookup (p_map r) n = Some (Ent k l) /\ as_called o (calls [] xs ls) k n s /\
    forall fuel, (length (calls [] xs ls) <= fuel)%nat -> visit_product fuel (p_map r) l = Done s.
Proof. exact (fun Ho Hr Hh => product_called o Ho i xs ls r Hr Hh k n). Qed.
Print Assumptions C54_product_built.

(** The walk comes to its end without a panic, however deep the transforms are nested;
    it meets the project, every site, building, storey and space once, and on every
    storey the elements that were put there, with their geometry, types, layers and
    openings. *)
Theorem C54_tour_built o i xs ls r :
  fair o -> program o i xs = Done (ls, r) -> honest [] xs ls ->
  exists t, tour_ok o (p_map r) (p_project r) (calls [] xs ls) t /\
    forall fuel, (length xs <= fuel)%nat -> visit fuel (p_map r) = Done t.
Proof. exact (fun Ho Hr Hh => tour_built o Ho i xs ls r Hr Hh). Qed.
Print Assumptions C54_tour_built.

(** ** Saving and loading *)

(** Whatever the walk gives on a model that can be saved and loaded, it gives afterwards,
    with the reals and texts as they are read back. *)
Theorem C54_reloaded v x :
  ifc_ok v x -> refs_ok (i_data x) ->
  exists y, load v (save x) = Done y /\
    forall fuel, visit fuel (i_data y) = with_result (tour_with norm_real (norm_val norm_real)) (visit fuel (i_data x)).
Proof. exact (fun Hx Hr => ex_intro _ _ (conj (load_saved v x Hx Hr) (visit_with norm_real (i_data x)))). Qed.
Print Assumptions C54_reloaded.

(** So does reading one geometric object (C52); it panics if it did before. *)
Theorem C52_reloaded v x :
  ifc_ok v x -> refs_ok (i_data x) ->
  exists y, load v (save x) = Done y /\
    forall n k l, lookup (i_data x) n = Some (Ent k l) ->
      exists l', lookup (i_data y) n = Some (Ent k l') /\
        mapping (i_data y) k l' = option_map (with_result (mapped_with norm_real (norm_val norm_real))) (mapping (i_data x) k l).
Proof. exact (mapping_reloaded v x). Qed.
Print Assumptions C52_reloaded.

(** Built models without shading devices, which cannot be loaded (C30). *)
Theorem C54_tour_loaded v o t i xs ls r :
  sane o -> info_ok i = true -> forallb op_ok xs = true -> existsb is_shading xs = false ->
  program o i xs = Done (ls, r) -> honest [] xs ls ->
  civil t -> chrono_reads v t ->
  exists x u, load v (save (mk_ifc (default_header t) (p_map r))) = Done x /\
    tour_ok o (p_map r) (p_project r) (calls [] xs ls) u /\
    forall fuel, (length xs <= fuel)%nat -> visit fuel (i_data x) = Done (tour_with norm_real (norm_val norm_real) u).
Proof.
  exact (fun H1 H2 H3 H4 H5 H6 H7 H8 =>
    let (u, T) := tour_built o (proj1 H1) i xs ls r H5 H6 in
    ex_intro _ _ (ex_intro _ u (conj (proj1 (builder_loads v o t i xs ls r H1 H2 H3 H4 H5 H6 H7 H8))
      (conj (proj1 T) (fun fuel Hf => eq_trans (visit_with norm_real (p_map r) fuel)
         (f_equal (with_result _) (proj2 T fuel Hf))))))).
Qed.
Print Assumptions C54_tour_loaded.

(** ** Any model *)

(** If no representation is shown within itself, directly or not, the walk ends; from
    some fuel on the result is the same. *)
Theorem C54_walk_ends m :
  (forall n l, lookup m n = Some (Ent KShapeRepresentation l) -> Acc (shown_in m) l) ->
  exists d r, r <> Err /\ forall fuel, (d <= fuel)%nat -> visit fuel m = r.
Proof. exact (visit_settles m). Qed.
Print Assumptions C54_walk_ends.

(** A representation whose items are all met is not shown within itself. *)
Theorem C54_items_end m fuel l xs :
  visit_items fuel m l = Done xs -> Acc (shown_in m) l.
Proof. exact (items_acc m fuel l xs). Qed.
Print Assumptions C54_items_end.

(** Loading does not exclude such representations: the walk never ends, in Rust the
    stack overflows. *)
Definition cycle_data : string :=
  "#1=IFCCARTESIANPOINT((0.,0.,0.));#2=IFCAXIS2PLACEMENT3D(#1,$,$);#3=IFCGEOMETRICREPRESENTATIONCONTEXT($,'Model',3,$,#2,$);#4=IFCSHAPEREPRESENTATION(#3,$,$,(#7));#5=IFCCARTESIANTRANSFORMATIONOPERATOR3D($,$,#1,1.,$);#6=IFCREPRESENTATIONMAP(#2,#4);#7=IFCMAPPEDITEM(#6,#5);#8=IFCPRODUCTDEFINITIONSHAPE($,$,(#4));#10=IFCPROJECT('0000000000000000000000',$,$,$,$,$,$,(),$);#11=IFCSITE('0000000000000000000000',$,$,$,$,$,$,$,$,$,$,$,$,$);#12=IFCBUILDING('0000000000000000000000',$,$,$,$,$,$,$,$,$,$,$);#13=IFCBUILDINGSTOREY('0000000000000000000000',$,$,$,$,$,$,$,$,$);#14=IFCSLAB('0000000000000000000000',$,$,$,$,$,#8,$,$);#20=IFCRELAGGREGATES('0000000000000000000000',$,$,$,#10,(#11));#21=IFCRELAGGREGATES('0000000000000000000000',$,$,$,#11,(#12));#22=IFCRELAGGREGATES('0000000000000000000000',$,$,$,#12,(#13));#23=IFCRELCONTAINEDINSPATIALSTRUCTURE('0000000000000000000000',$,$,$,(#14),#13);".

Theorem C54_cycle_refuted :
  exists x, load env0 (file noon cycle_data) = Done x /\ forall fuel, visit fuel (i_data x) = Err.
Proof. eexists. split; [vm_compute; reflexivity|]. intro fuel. apply cycle_walk. repeat eexists; vm_compute; reflexivity. Qed.
Print Assumptions C54_cycle_refuted.

(** A wall without a type ends the walk with a panic, C27. *)
Definition wall_data : string :=
  "#10=IFCPROJECT('0000000000000000000000',$,$,$,$,$,$,(),$);#11=IFCSITE('0000000000000000000000',$,$,$,$,$,$,$,$,$,$,$,$,$);#12=IFCBUILDING('0000000000000000000000',$,$,$,$,$,$,$,$,$,$,$);#13=IFCBUILDINGSTOREY('0000000000000000000000',$,$,$,$,$,$,$,$,$);#14=IFCWALL('0000000000000000000000',$,$,$,$,$,$,$,$);#20=IFCRELAGGREGATES('0000000000000000000000',$,$,$,#10,(#11));#21=IFCRELAGGREGATES('0000000000000000000000',$,$,$,#11,(#12));#22=IFCRELAGGREGATES('0000000000000000000000',$,$,$,#12,(#13));#23=IFCRELCONTAINEDINSPATIALSTRUCTURE('0000000000000000000000',$,$,$,(#14),#13);".

Theorem C54_wall_without_type_refuted :
  exists x, load env0 (file noon wall_data) = Done x /\ forall fuel, visit fuel (i_data x) = Panic.
Proof. eexists. split; [vm_compute; reflexivity|]. intro fuel. vm_compute. reflexivity. Qed.
Print Assumptions C54_wall_without_type_refuted.

(** ** Examples *)

(** The walk through the model of [ops1]: what is met, and how deep the items are nested;
    the wall 59 with its two openings and the window in it were moved once. *)
Definition tour_ids (t : tour) :=
  (to_projects t, to_sites t, to_buildings t, map fl_storey (to_floors t)).
Fixpoint depth (i : item) : nat :=
  match i with IMapped _ _ l => S (fold_left Nat.max (map depth l) O) | _ => O end.
Definition depths := map (map depth).
Definition floor_ids (f : floor) :=
  (map (fun q => (fst q, match snd q with
     | Some (AWall _ ms x os) => Some (KWall, map fst ms, depths x, map (fun v => (fst v, depths (snd v))) os)
     | Some (AnElement k x) => Some (k, [], depths x, [])
     | None => None
     end)) (fl_structures f), fl_spaces f).

Example C54_example :
  observe (fun m => with_result tour_ids (visit (length ops1) m)) = Some (ls1, Done ([14], [19], [23], [236; 27])) /\
  observe (fun m => with_result floor_ids (visit_storey (length ops1) m 27)) = Some (ls1, Done (
    [ (155, Some (KWall, [31; 33], [[O]; [O]], []))
    ; (59, Some (KWall, [31; 33], [[1%nat]; [1%nat]], [(81, [[1%nat]]); (70, [[1%nat]])]))
    ; (166, Some (KSlab, [], [[O]], [])); (199, Some (KRoof, [], [[O]], []))
    ; (188, Some (KWindow, [], [[O]], [])); (92, Some (KWindow, [], [[1%nat]], [])) ],
    [(221, []); (210, [])])).
Proof. split; vm_compute; reflexivity. Qed.

(** The hypothesis of [C54_walk_ends] in a loaded model: representation 4 shows 14, which
    shows 24. *)
Definition nested_data : string :=
  "#1=IFCCARTESIANPOINT((0.,0.,0.));#2=IFCAXIS2PLACEMENT3D(#1,$,$);#3=IFCGEOMETRICREPRESENTATIONCONTEXT($,'Model',3,$,#2,$);#5=IFCCARTESIANTRANSFORMATIONOPERATOR3D($,$,#1,1.,$);#4=IFCSHAPEREPRESENTATION(#3,$,$,(#7));#6=IFCREPRESENTATIONMAP(#2,#14);#7=IFCMAPPEDITEM(#6,#5);#14=IFCSHAPEREPRESENTATION(#3,$,$,(#17));#16=IFCREPRESENTATIONMAP(#2,#24);#17=IFCMAPPEDITEM(#16,#5);#24=IFCSHAPEREPRESENTATION(#3,$,$,());".

Example C54_nested_example :
  exists x, load env0 (file noon nested_data) = Done x /\
    (forall n l, lookup (i_data x) n = Some (Ent KShapeRepresentation l) -> Acc (shown_in (i_data x)) l) /\
    visit 0 (i_data x) = Done (mk_tour [] [] [] []) /\
    (exists l a t, lookup (i_data x) 4 = Some (Ent KShapeRepresentation l) /\
       visit_items 3 (i_data x) l = Done [IMapped a t [IMapped a t []]] /\ visit_items 2 (i_data x) l = Err).
Proof.
  eexists. split; [vm_compute; reflexivity|]. split; [|split; [vm_compute; reflexivity|]].
  - intros n l H. cbn [i_data lookup] in H.
    repeat match type of H with (if ?c then _ else _) = _ => destruct c; [try discriminate; injection H as <-;
      eapply (items_acc _ 3); vm_compute; reflexivity|] end. discriminate.
  - do 3 eexists. repeat split; vm_compute; reflexivity.
Qed.
