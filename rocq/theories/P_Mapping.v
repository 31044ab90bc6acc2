(** Properties of reading geometry: C52. *)

From Coq Require Import String Ascii List NArith ZArith Bool.
From Verif Require Import Base Prims Float Kind Types WellTyped Schema Entity EntitySpec DataMap Extractor
  Header File HeaderSpec FileSpec StrictTime Builder BuilderRun BuilderSpec BuilderLoadSpec BuilderExample
  Mapping MapSpec MappingFacts MappingFacts2 MappingBuilt P_File P_Builder P_Load.
Import ListNotations.
Open Scope N_scope.

(** ** C52: what is read is what the objects say *)

(** Reading an axis, a line, a profile, a solid, a transform or a mapped item gives what
    the objects say, whatever it refers to or embeds. *)
Theorem C52_reads m k l r :
  well_typed m -> wf_ent k l -> mapping m k l = Some (Done r) <-> says m k l r.
Proof. exact (done_iff m k l r). Qed.
Print Assumptions C52_reads.

(** It panics exactly if an object that is needed is not there or not of a kind that can
    be there, or a line that is needed is empty or mixed. *)
Theorem C52_panics m k l :
  well_typed m -> wf_ent k l -> In k readable_kinds -> mapping m k l = Some Panic <-> lacking m k l.
Proof. exact (panic_iff m k l). Qed.
Print Assumptions C52_panics.

(** In a loaded model all that is needed is there and of such a kind, unless it is a
    line of an unknown kind or needed by an embedded object. *)
Theorem C52_loaded_panics v s x i k l :
  load v s = Done x -> lookup (i_data x) i = Some (Ent k l) -> In k readable_kinds ->
  ~ uses_an_embedded (i_data x) k l ->
  mapping (i_data x) k l = Some Panic <-> needs_unknown (i_data x) k l \/ needs_uneven (i_data x) k l.
Proof. exact (loaded_panics v s x i k l). Qed.
Print Assumptions C52_loaded_panics.

(** In a built model every object can be read. *)
Theorem C52_built o i xs ls r :
  sane o -> info_ok i = true -> forallb op_ok xs = true ->
  program o i xs = Done (ls, r) -> honest [] xs ls ->
  forall n k l, lookup (p_map r) n = Some (Ent k l) -> In k readable_kinds ->
  exists x, mapping (p_map r) k l = Some (Done x) /\ says (p_map r) k l x.
Proof. exact (program_reads o i xs ls r). Qed.
Print Assumptions C52_built.

(** The items of a shape representation of a loaded model, in order, never panicking;
    [items_of] leaves out those of another kind. *)
Theorem C52_items v s x i c a b ns :
  load v s = Done x ->
  lookup (i_data x) i = Some (Ent KShapeRepresentation [c; a; b; VList (map VId ns)]) ->
  exists xs, shape_items (i_data x) [c; a; b; VList (map VId ns)] = Done xs /\ objects_at (i_data x) ns xs /\
    (forall k, shape_items_of k (i_data x) [c; a; b; VList (map VId ns)] =
       Done (flat_map (fun x => match snd x with
                                | Ent k' a => if kind_eqb k' k then [(fst x, a)] else []
                                | EDummy _ => []
                                end) xs)).
Proof. exact (loaded_items v s x i c a b ns). Qed.
Print Assumptions C52_items.

(** The context of a shape representation of a loaded model. *)
Theorem C52_context v s x i l :
  load v s = Done x -> lookup (i_data x) i = Some (Ent KShapeRepresentation l) ->
  (forall c, parent_context (i_data x) l = Done c <-> context_of (i_data x) l c) /\
  (parent_context (i_data x) l = Panic <-> context_unknown (i_data x) l).
Proof. exact (loaded_context v s x i l). Qed.
Print Assumptions C52_context.

(** The shapes of a product of a loaded model. *)
Theorem C52_shapes v s x i k l :
  load v s = Done x -> lookup (i_data x) i = Some (Ent k l) -> In k product_kinds ->
  (forall ss, product_shapes (i_data x) l = Done ss <-> shapes_are (i_data x) l ss) /\
  (product_shapes (i_data x) l = Panic <-> shape_unknown (i_data x) l).
Proof. exact (loaded_shapes v s x i k l). Qed.
Print Assumptions C52_shapes.

(** Built models: every product has shapes and every representation a context. *)
Theorem C52_built_shapes o i xs ls r :
  sane o -> info_ok i = true -> forallb op_ok xs = true ->
  program o i xs = Done (ls, r) -> honest [] xs ls ->
  (forall n k l, lookup (p_map r) n = Some (Ent k l) -> In k product_kinds ->
     exists ss, product_shapes (p_map r) l = Done ss /\ shapes_are (p_map r) l ss) /\
  (forall n l, lookup (p_map r) n = Some (Ent KShapeRepresentation l) ->
     exists c, parent_context (p_map r) l = Done c /\ context_of (p_map r) l c).
Proof. exact (program_shapes o i xs ls r). Qed.
Print Assumptions C52_built_shapes.

(** ** Examples *)

(** What reading object [n] of a file gives. *)
Definition read_file (data : string) (n : N) : option (outcome mapped) :=
  match load env0 (file noon data) with
  | Done x => match lookup (i_data x) n with Some (Ent k l) => mapping (i_data x) k l | _ => None end
  | _ => None
  end.

Definition solid_data : string :=
  "#1=IFCCARTESIANPOINT((0.,1.));#2=IFCAXIS2PLACEMENT2D(#1,$);#3=IFCRECTANGLEPROFILEDEF(.AREA.,$,#2,1.,0.);#4=IFCDIRECTION((0.,0.,1.));#5=IFCEXTRUDEDAREASOLID(#3,$,#4,1.);".

Example C52_solid_example :
  read_file solid_data 5 =
  Some (Done (MSolid (mk_solid (Rectangle (Some (Axis2 [nought; one] None)) one nought) None [nought; nought; one] one))).
Proof. vm_compute. reflexivity. Qed.

Example C52_line_example :
  read_file "#1=IFCCARTESIANPOINT((0.,1.));#2=IFCCARTESIANPOINT((1.,1.));#3=IFCPOLYLINE((#2,#1,#2));" 3 =
  Some (Done (MPoints (Points2 [[one; one]; [nought; one]; [one; one]]))).
Proof. vm_compute. reflexivity. Qed.

(** A mapped item with an embedded map and an embedded axis of a transform; embedded
    objects are read and printed with their semicolon. *)
Definition item_data : string :=
  "#1=IFCCARTESIANPOINT((0.,1.,0.));#2=IFCAXIS2PLACEMENT3D(#1,$,$);#3=IFCGEOMETRICREPRESENTATIONCONTEXT($,'Model',3,$,#2,$);#4=IFCSHAPEREPRESENTATION(#3,$,$,());#5=IFCCARTESIANTRANSFORMATIONOPERATOR3D(IFCDIRECTION((1.,0.,0.));,$,#1,1.,$);#6=IFCMAPPEDITEM(IFCREPRESENTATIONMAP(#2,#4);,#5);".
Example C52_item_example :
  read_file item_data 6 =
  Some (Done (MItem (Axis3 [nought; one; nought] None None) [VId 3; VOmit; VOmit; VList []]
    (mk_transform (Some [nought; one; nought]) (Some [one; nought; nought]) None None (Some one) None))).
Proof. vm_compute. reflexivity. Qed.

(** The hypotheses of [C52_loaded_panics]: a line with a point of an unknown kind. *)
Example C52_loaded_example :
  let data := "#1=IFCCARTESIANPOINT((0.,1.));#2=IFCFOO();#3=IFCPOLYLINE((#1,#2));"%string in
  exists x l, load env0 (file noon data) = Done x /\ lookup (i_data x) 3 = Some (Ent KPolyLine l) /\
    ~ uses_an_embedded (i_data x) KPolyLine l /\ needs_unknown (i_data x) KPolyLine l /\
    mapping (i_data x) KPolyLine l = Some Panic.
Proof.
  eexists; eexists. split; [vm_compute; reflexivity|]. split; [vm_compute; reflexivity|]. split; [|split].
  - assert (H : forall k l k' l', uses [(1, Ent KPoint2D [VVec [nought; one]]); (2, EDummy (lit "IFCFOO()"));
        (3, Ent KPolyLine [VList [VId 1; VId 2]])] k l k' l' -> k = KPoint2D \/ k = KPolyLine /\ l = [VList [VId 1; VId 2]] ->
        forall i a, In i (map fst (follows k')) -> nth_error l' i = Some (VEnt a) -> False).
    { induction 1 as [k l|k l ks n k1 l1 k2 l2 Hl Hn Hk Hu IH|k l i k1 l1 k2 l2 Hi Hv Hu IH]; intros H0 j a Hj Ha.
      - destruct H0 as [->|[-> ->]]; [destruct Hj|]. destruct Hj as [<-|[]]. discriminate.
      - apply (IH) with (i := j) (a := a); auto. left. destruct H0 as [->|[-> ->]].
        + destruct Hl as (? & ? & [] & _).
        + destruct Hl as (? & ? & [Hl|[]] & Hv & Hm). injection Hl as <- <-. injection Hv as <-.
          destruct Hm as [Hm|(? & Hm & Hin)]; [discriminate|]. injection Hm as <-.
          destruct Hin as [Hin|[Hin|[]]]; injection Hin as <-; vm_compute in Hn; [now injection Hn as <-|discriminate].
      - destruct H0 as [->|[-> ->]]; [destruct Hi|]. destruct Hi as [Hi|[]]. injection Hi as <- _. discriminate. }
    intros (k' & l' & i & a & Hu & Hi & Hv). eapply (H _ _ _ _ Hu); eauto.
  - exists KPolyLine, [VList [VId 1; VId 2]], [KPoint2D; KPoint3D], 2, (lit "IFCFOO()").
    split; [constructor|]. split; [|vm_compute; reflexivity].
    exists 0%nat, (VList [VId 1; VId 2]). split; [now left|]. split; [reflexivity|]. right. eexists. split; [reflexivity|].
    right. now left.
  - vm_compute. reflexivity.
Qed.

(** Built models: the walls and slabs of the example. *)
Example C52_built_example :
  match program oracle1 info1 ops1 with
  | Done (_, r) =>
      existsb (fun p => match snd p with Ent KExtrudedAreaSolid _ => true | _ => false end) (p_map r) &&
      existsb (fun p => match snd p with Ent KMappedItem _ => true | _ => false end) (p_map r) &&
      existsb (fun p => match snd p with Ent KPolyLine _ => true | _ => false end) (p_map r)
  | _ => false
  end = true.
Proof. vm_compute. reflexivity. Qed.

(** ** Loaded models that cannot be read *)

(** "Already checked by type checker": a profile of a kind the library does not know
    passes the check and makes reading the solid panic. *)
Theorem C52_unknown_profile_refuted :
  exists x l, load env0 (file noon
      "#3=IFCCIRCLEPROFILEDEF(.AREA.,$,$,1.);#4=IFCDIRECTION((0.,0.,1.));#5=IFCEXTRUDEDAREASOLID(#3,$,#4,1.);") = Done x /\
    lookup (i_data x) 5 = Some (Ent KExtrudedAreaSolid l) /\ mapping (i_data x) KExtrudedAreaSolid l = Some Panic.
Proof. eexists; eexists. repeat split; vm_compute; reflexivity. Qed.
Print Assumptions C52_unknown_profile_refuted.

(** The references of an embedded object are not checked. *)
Theorem C52_embedded_refuted :
  exists x l, load env0 (file noon
      "#5=IFCCARTESIANTRANSFORMATIONOPERATOR3D($,$,$,$,$);#6=IFCMAPPEDITEM(IFCREPRESENTATIONMAP(#99,#5);,#5);") = Done x /\
    lookup (i_data x) 6 = Some (Ent KMappedItem l) /\ lookup (i_data x) 99 = None /\
    mapping (i_data x) KMappedItem l = Some Panic.
Proof. eexists; eexists. repeat split; vm_compute; reflexivity. Qed.
Print Assumptions C52_embedded_refuted.

(** Lines without points, and lines whose points differ in dimension. *)
Theorem C52_lines_refuted :
  (exists x l, load env0 (file noon "#3=IFCPOLYLINE(());") = Done x /\
     lookup (i_data x) 3 = Some (Ent KPolyLine l) /\ mapping (i_data x) KPolyLine l = Some Panic) /\
  (exists x l, load env0 (file noon
       "#1=IFCCARTESIANPOINT((0.,1.));#2=IFCCARTESIANPOINT((1.,1.,1.));#3=IFCPOLYLINE((#1,#2));") = Done x /\
     lookup (i_data x) 3 = Some (Ent KPolyLine l) /\ mapping (i_data x) KPolyLine l = Some Panic).
Proof. split; eexists; eexists; repeat split; vm_compute; reflexivity. Qed.
Print Assumptions C52_lines_refuted.
