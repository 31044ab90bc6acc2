(** Every builder call only adds objects: quiet calls add objects that are no relations
    between elements, leaving a scope adds nothing but such relations. *)

From Coq Require Import String Ascii List NArith ZArith Bool Lia.
From Verif Require Import Base Prims Kind Types Schema Entity EntityFacts DataMap DataSpec DataMapFacts Extractor
  Float Arith Builder BuilderBase BuilderRun.
Import ListNotations.
Open Scope N_scope.
Open Scope builder_scope.

(** The relations made when a scope is left or the project is built. *)
Definition is_rel (k : kind) : bool :=
  existsb (kind_eqb k)
    [ KRelAggregates; KRelContainedInSpatialStructure; KRelDefinesByType; KRelVoidsElement
    ; KRelFillsElement; KRelAssociatesMaterial ].
Definition quiet (k : kind) : bool := negb (is_rel k).
Definition anything (k : kind) : bool := true.
(** Kinds that only the start of a project makes. *)
Definition project_kind (k : kind) : bool :=
  match k with
  | KProject | KOwnerHistory | KOrganization | KApplication | KPerson | KPersonAndOrganization | KSiUnit
  | KUnitAssigment | KGeometricRepresentationContext | KGeometricRepresentationSubContext => true
  | _ => false
  end.
(** Without the relations that give properties, and without the project. *)
Definition simple_kind (k : kind) : bool :=
  negb (is_rel k) && negb (kind_eqb k KRelDefinesByProperties || project_kind k).

(** Relations between states that contain the primitive calls. *)
Class closed (A : kind -> bool) (R : proj -> proj -> Prop) := {
  cl_pre : preorder R;
  cl_ins : forall k l, A k = true -> steps R (ins k l);
  cl_tick : steps R tick }.

Class with_modify (R : proj -> proj -> Prop) := {
  cl_modify : forall n v, steps R (modify KProductDefinitionShape n (set_at 2 v)) }.

Global Instance closed_grow A : closed A (grow A).
Proof. split; [apply grow_pre|intros; now apply grow_ins|apply grow_tick]. Qed.
Global Instance with_modify_grow A : with_modify (grow A).
Proof. split. intros; apply grow_modify. Qed.
Global Instance closed_frame A : closed A frame.
Proof. split; [apply frame_pre|intros; apply frame_ins|apply frame_tick]. Qed.
Global Instance with_modify_frame : with_modify frame.
Proof. split. intros; apply frame_modify. Qed.

Class with_assoc (R : proj -> proj -> Prop) := { wa : forall l p, R p (set_assoc l p) }.
Global Instance with_assoc_grow A : with_assoc (grow A).
Proof. split. intros l p Hd. exact (grow_refl A p Hd). Qed.

Class with_sites (R : proj -> proj -> Prop) := { wsi : forall l p, R p (set_sites l p) }.
Global Instance with_sites_grow A : with_sites (grow A).
Proof. split. intros l p Hd. exact (grow_refl A p Hd). Qed.

Create HintDb calls.

Ltac pre := first [eapply cl_pre|typeclasses eauto].

Ltac one :=
  match goal with
  | |- steps _ (bbind _ _) => apply steps_bind; [pre| |intro]
  | |- steps _ (bret _) => apply steps_ret; pre
  | |- steps _ bpanic => apply steps_panic
  | |- steps _ err => intros ? ? ? ?; discriminate
  | |- steps _ bget => apply steps_get; pre
  | |- steps _ (need _) => apply steps_need; pre
  | |- steps _ (fetch _ _) => apply steps_fetch; pre
  | |- steps _ (fetch_any _) => apply steps_fetch_any; pre
  | |- steps _ tick => eapply cl_tick
  | |- steps _ (ins _ _) => eapply cl_ins; first [reflexivity|assumption]
  | |- steps _ (modify _ _ _) => eapply cl_modify
  | |- steps _ (bmap _ _) => apply steps_bmap; [pre|intros]
  | |- steps _ (bmap_index _ _ _) => apply steps_bmap_index; [pre|intros]
  | |- steps _ (bfind _ _) => apply steps_bfind; [pre|intros]
  | |- steps _ _ => solve [auto with calls]
  | |- steps _ (match ?x with _ => _ end) => destruct x
  end.
Ltac st := repeat one.

Section Quiet.
Context {A : kind -> bool} {R : proj -> proj -> Prop} {C : closed A R}.
Context (HA : forall k, simple_kind k = true -> A k = true).
Variable o : oracle.

Ltac stq := repeat (one || (eapply cl_ins; apply HA; reflexivity)).

Lemma st_fresh_guid : steps R (fresh_guid o).
Proof. unfold fresh_guid. st. Qed.
Lemma st_now : steps R (now o).
Proof. unfold now. st. Qed.
Lemma st_walk l : steps R (walk o l).
Proof. unfold walk. st. Qed.
Hint Resolve st_fresh_guid st_now st_walk : calls.
Lemma st_walk_pairs {X} (l : list (N * X)) : steps R (walk_pairs o l).
Proof. unfold walk_pairs. st. Qed.
Lemma st_root n : steps R (root o n).
Proof. unfold root. st. Qed.
Lemma st_owned n : steps R (owned o n).
Proof. unfold owned. st. Qed.
Hint Resolve st_walk_pairs st_root st_owned : calls.

Lemma st_axis3d v : steps R (axis3d v).
Proof. unfold axis3d. stq. Qed.
Lemma st_placement_new v : steps R (placement_new v).
Proof. unfold placement_new. stq. Qed.
Lemma st_new_relative v k n : steps R (new_relative v k n).
Proof. unfold new_relative. stq. Qed.
Lemma st_extrude a b c d : steps R (extrude a b c d).
Proof. unfold extrude. stq. Qed.
Hint Resolve st_axis3d st_placement_new st_new_relative st_extrude : calls.
Lemma st_rectangular_shape a b c d e : steps R (rectangular_shape a b c d e).
Proof. unfold rectangular_shape. stq. Qed.
Lemma st_arbitrary_profile k l : simple_kind k = true -> steps R (arbitrary_profile k l).
Proof. intro. unfold arbitrary_profile. stq. eapply cl_ins; auto. Qed.
Hint Resolve st_rectangular_shape st_arbitrary_profile : calls.
Lemma st_horizontal_shape a b c : steps R (horizontal_shape a b c).
Proof. unfold horizontal_shape. stq. Qed.
Lemma st_vertical_shape a b c : steps R (vertical_shape a b c).
Proof. unfold vertical_shape. stq. Qed.
Lemma st_arbitrary_shape a b c d : steps R (arbitrary_shape a b c d).
Proof. unfold arbitrary_shape. stq. Qed.
Lemma st_add_representation a b : steps R (add_representation a b).
Proof. unfold add_representation. stq. Qed.
Lemma st_material a : steps R (material a).
Proof. unfold material. stq. Qed.
Hint Resolve st_horizontal_shape st_vertical_shape st_arbitrary_shape st_add_representation st_material : calls.
Lemma st_material_layer a b : steps R (material_layer a b).
Proof. unfold material_layer. stq. Qed.
Lemma st_material_layer_set a : steps R (material_layer_set a).
Proof. unfold material_layer_set. stq. Qed.
Lemma st_material_layer_set_usage a b c d : steps R (material_layer_set_usage a b c d).
Proof. unfold material_layer_set_usage. stq. Qed.
Lemma st_material_constituent a b : steps R (material_constituent a b).
Proof. unfold material_constituent. stq. Qed.
Lemma st_material_constituent_set a : steps R (material_constituent_set a).
Proof. unfold material_constituent_set. stq. Qed.
Lemma st_thickness a : steps R (thickness o a).
Proof. unfold thickness. stq. Qed.
Hint Resolve st_thickness : calls.
Lemma st_host_thickness a b : steps R (host_thickness o a b).
Proof. unfold host_thickness. stq. Qed.
Lemma st_new_window_type a b c d : steps R (new_window_type o a b c d).
Proof. unfold new_window_type. stq. Qed.
Lemma st_new_space_type a b d : steps R (new_space_type o a b d).
Proof. unfold new_space_type. stq. Qed.
Lemma st_axis_repr a b : steps R (axis_repr a b).
Proof. unfold axis_repr. stq. Qed.
Hint Resolve st_host_thickness st_axis_repr : calls.
Lemma st_wall_body a b c : steps R (wall_body o a b c).
Proof. unfold wall_body. stq. Qed.
Lemma st_slab_body a b c : steps R (slab_body o a b c).
Proof. unfold slab_body. stq. Qed.
Hint Resolve st_wall_body st_slab_body : calls.
Lemma st_new_space a b c d e st : steps R (new_space o a b c d e st).
Proof. unfold new_space. stq. Qed.
Lemma st_place_opening a b c d st : steps R (place_opening o a b c d st).
Proof. unfold place_opening. stq. Qed.
Hint Resolve st_place_opening : calls.
Lemma st_wall_opening a b c d e f st : steps R (wall_opening o a b c d e f st).
Proof. unfold wall_opening. stq. Qed.
Lemma st_shapes a : steps R (shapes a).
Proof. unfold shapes. stq. Qed.
Lemma st_solid_direction a : steps R (solid_direction a).
Proof. unfold solid_direction. stq. Qed.
Hint Resolve st_wall_opening st_shapes st_solid_direction : calls.
Lemma st_product_direction a : steps R (product_direction a).
Proof. unfold product_direction. stq. Qed.
Hint Resolve st_product_direction : calls.
Lemma st_slab_direction a : steps R (slab_direction a).
Proof. unfold slab_direction. stq. Qed.
Hint Resolve st_slab_direction : calls.
Lemma st_slab_filling a b c : steps R (slab_filling o a b c).
Proof. unfold slab_filling. stq. Qed.
Hint Resolve st_slab_filling : calls.
Lemma st_slab_opening a b c st : steps R (slab_opening o a b c st).
Proof. unfold slab_opening. stq. Qed.
Hint Resolve st_slab_opening : calls.
Lemma st_transform_object a : steps R (transform_object a).
Proof. unfold transform_object. stq. Qed.
Lemma st_mapped_repr a b c d e : steps R (mapped_repr a b c d e).
Proof. unfold mapped_repr. stq. Qed.
Hint Resolve st_transform_object st_mapped_repr : calls.
Lemma st_local_placement a : steps R (local_placement a).
Proof. unfold local_placement. stq. Qed.
Hint Resolve st_local_placement : calls.
Section Modify.
Context {M : with_modify R}.
Lemma st_transform a b c d e f : steps R (transform a b c d e f).
Proof. unfold transform. stq. Qed.
Hint Resolve st_transform : calls.
Lemma st_drop_host a st : steps R (drop_host o a st).
Proof. unfold drop_host. stq. Qed.
End Modify.
Lemma st_single_property a b c : steps R (single_property a b c).
Proof. unfold single_property. stq. Qed.
Lemma st_property_set a b : steps R (property_set o a b).
Proof. unfold property_set. stq. Qed.
Lemma st_relate_properties a b : A KRelDefinesByProperties = true -> steps R (relate_properties o a b).
Proof. intro HP. unfold relate_properties. stq. Qed.
Hint Resolve st_single_property st_property_set st_relate_properties : calls.
Lemma st_si_unit a b : A KSiUnit = true -> steps R (si_unit a b).
Proof. intro. unfold si_unit. stq. Qed.
Hint Resolve st_si_unit : calls.
Lemma st_new_project i : (forall k, project_kind k = true -> A k = true) -> steps R (new_project o i).
Proof.
  intro HP. pose proof (HP KProject eq_refl). pose proof (HP KOwnerHistory eq_refl). pose proof (HP KOrganization eq_refl).
  pose proof (HP KApplication eq_refl). pose proof (HP KPerson eq_refl). pose proof (HP KPersonAndOrganization eq_refl).
  pose proof (HP KSiUnit eq_refl). pose proof (HP KUnitAssigment eq_refl).
  pose proof (HP KGeometricRepresentationContext eq_refl). pose proof (HP KGeometricRepresentationSubContext eq_refl).
  unfold new_project. stq.
Qed.
Lemma st_sub_context : steps R sub_context.
Proof. unfold sub_context. stq. Qed.
Hint Resolve st_sub_context : calls.
Lemma st_new_building a b c : steps R (new_building o a b c).
Proof. unfold new_building. stq. Qed.
Lemma st_new_storey a b c : steps R (new_storey o a b c).
Proof. unfold new_storey. stq. Qed.

Section Tables.
Context {W : with_assoc R}.

Lemma st_put_assoc (f : proj -> list (akey * list val)) : steps R (q <-- bget ;; bput (set_assoc (f q) q)).
Proof. intros p u p' H. unfold bbind, bget, bput in H. injection H as <- <-. apply wa. Qed.

Lemma st_associate c t m n : steps R (associate o c t m n).
Proof.
  unfold associate. apply steps_bind; [pre|apply steps_get; pre|intro]. apply steps_bind; [pre|stq|intro].
  apply st_put_assoc.
Qed.
Hint Resolve st_associate : calls.

Lemma st_new_type c a b i s : steps R (new_type o c a b i s).
Proof. unfold new_type. stq. all: eapply cl_ins; destruct c; apply HA; reflexivity. Qed.
Lemma st_place_element c a b n x y s : steps R (place_element o c a b n x y s).
Proof. unfold place_element. stq. all: eapply cl_ins; destruct c; apply HA; reflexivity. Qed.
Hint Resolve st_new_type st_place_element : calls.
Lemma st_new_wall a b n x y s : steps R (new_wall o a b n x y s).
Proof. unfold new_wall. stq. Qed.
Lemma st_new_slab a b n x y s : steps R (new_slab o a b n x y s).
Proof. unfold new_slab. stq. Qed.
Lemma st_new_roof a b n x y s : steps R (new_roof o a b n x y s).
Proof. unfold new_roof. stq. Qed.
Lemma st_new_shading a b n x y z s : steps R (new_shading o a b n x y z s).
Proof. unfold new_shading. stq. Qed.
Lemma st_place_window a b n x y s : steps R (place_window o a b n x y s).
Proof. unfold place_window. stq. Qed.
Hint Resolve st_new_wall st_new_slab st_new_roof st_new_shading st_place_window st_new_space : calls.
Lemma st_wall_window a b c n x y z w s : steps R (wall_window o a b c n x y z w s).
Proof. unfold wall_window. stq. Qed.
Lemma st_slab_window a b c n x s : steps R (slab_window o a b c n x s).
Proof. unfold slab_window. stq. Qed.
Hint Resolve st_wall_window st_slab_window st_new_window_type st_new_space_type : calls.
Hint Resolve st_material_layer st_material_layer_set st_material_layer_set_usage : calls.
Hint Resolve st_material_constituent st_material_constituent_set : calls.

Lemma st_storey_step {M : with_modify R} s x :
  match x with ORelate _ _ => A KRelDefinesByProperties = true | _ => True end -> steps R (storey_step o s x).
Proof. intro HP. pose proof (@st_transform M). unfold storey_step. destruct x; stq. Qed.
(** Without transforms. *)
Lemma st_storey_quiet s x : match x with OStoreyTransform _ _ _ => False | ORelate _ _ => A KRelDefinesByProperties = true | _ => True end ->
  steps R (storey_step o s x).
Proof. unfold storey_step. destruct x; intro Hx; try contradiction; stq. Qed.
Lemma st_host_step s h x : steps R (host_step o s h x).
Proof. unfold host_step. destruct x; stq. Qed.
Hint Resolve st_host_step : calls.
Hint Resolve st_new_building st_new_storey : calls.

Section Sites.
Context {WS : with_sites R}.

Lemma st_put_sites (f : proj -> list N) : steps R (q <-- bget ;; bput (set_sites (f q) q)).
Proof. intros p u p' H. unfold bbind, bget, bput in H. injection H as <- <-. apply wsi. Qed.

Lemma bbind_assoc {X Y Z} (c : B X) (f : X -> B Y) (g : Y -> B Z) p :
  bbind (bbind c f) g p = bbind c (fun x => bbind (f x) g) p.
Proof. unfold bbind. now destruct (c p) as [[a q]| |]. Qed.

Lemma st_new_site n v : steps R (new_site o n v).
Proof.
  unfold new_site. do 5 (apply steps_bind; [pre|stq|intro]).
  intros p x p' H. rename a3 into m.
  rewrite <- (bbind_assoc bget (fun q => bput (set_sites (set_add (p_sites q) m) q))
             (fun _ => c <-- sub_context ;; bret m)) in H.
  revert p x p' H. change (steps R (bbind (q <-- bget ;; bput (set_sites (set_add (p_sites q) m) q))
             (fun _ => c <-- sub_context ;; bret m))).
  apply steps_bind; [pre|apply st_put_sites|intro]. stq.
Qed.
End Sites.

End Tables.
End Quiet.

(** Everything but the associations, which are made by [build]. *)
Definition before_build (k : kind) : bool := negb (kind_eqb k KRelAssociatesMaterial).

(** Calls that leave scopes. *)
Section Relations.
Context {A : kind -> bool} {R : proj -> proj -> Prop} {C : closed A R}.
Context (HA : forall k, is_rel k = true -> before_build k = true -> A k = true).
Variable o : oracle.

Let st_w := @st_walk A R C.
Let st_wp := @st_walk_pairs A R C.
Let st_r := @st_root A R C.
Let st_o := @st_owned A R C.
Hint Resolve st_w st_wp st_r st_o : calls.
Ltac stq := repeat (one || (eapply cl_ins; apply HA; [reflexivity|reflexivity])).

Lemma st_aggregate a b c : steps R (aggregate o a b c).
Proof. unfold aggregate. stq. Qed.
Lemma st_type_relations a b c : steps R (type_relations o a b c).
Proof. unfold type_relations. stq. Qed.
Lemma st_void_relations a b : steps R (void_relations o a b).
Proof. unfold void_relations. stq. Qed.
Lemma st_fill_relations a : steps R (fill_relations o a).
Proof. unfold fill_relations. stq. Qed.
Hint Resolve st_aggregate st_type_relations st_void_relations st_fill_relations : calls.
Lemma st_drop_storey a : steps R (drop_storey o a).
Proof. unfold drop_storey. stq. Qed.
Lemma st_drop_building a b : steps R (drop_building o a b).
Proof. unfold drop_building. stq. Qed.
Lemma st_drop_site a b : steps R (drop_site o a b).
Proof. unfold drop_site. stq. Qed.
Lemma st_build : A KRelAssociatesMaterial = true -> steps R (build o).
Proof. intro HB. unfold build. stq. Qed.
End Relations.

Lemma quiet_ok k : simple_kind k = true -> quiet k = true.
Proof. unfold quiet, simple_kind. now destruct (is_rel k). Qed.
Lemma quiet_project k : project_kind k = true -> quiet k = true.
Proof. unfold quiet. destruct k; intro H; first [reflexivity|discriminate H]. Qed.
Lemma quiet_of k : is_rel k = false -> quiet k = true.
Proof. unfold quiet. now intros ->. Qed.
Lemma rel_ok k : is_rel k = true -> before_build k = true -> is_rel k = true.
Proof. auto. Qed.

(** Steps that relate properties. *)
Definition relates (w : scope) (x : op) : bool :=
  match w, x with
  | AtStorey _ _ _, ORelate _ _ | AtWallProps _ _ _ _ _ _, ODrop => true
  | _, _ => false
  end.

Section Step.
Context {A : kind -> bool} {R : proj -> proj -> Prop} {C : closed A R} {M : with_modify R} {W : with_assoc R} {WS : with_sites R}.
Context (Hq : forall k, simple_kind k = true -> A k = true).
Context (Hr : forall k, is_rel k = true -> before_build k = true -> A k = true).
Variable o : oracle.

Lemma st_step_any w x : (relates w x = true -> A KRelDefinesByProperties = true) -> steps R (step o w x).
Proof.
  intro HP.
  assert (HS : forall s b st, w = AtStorey s b st -> match x with ORelate _ _ => A KRelDefinesByProperties = true | _ => True end).
  { intros s b st ->. destruct x; auto. }
  destruct w, x; cbn [step]; try specialize (HS _ _ _ eq_refl); cbn [relates] in HP; repeat first
    [ one
    | (apply (st_storey_step (A := A) Hq); try exact HS) | apply (st_host_step (A := A) Hq)
    | apply (st_new_site (A := A) Hq) | apply (st_new_building (A := A) Hq)
    | apply (st_new_storey (A := A) Hq) | apply (st_new_wall (A := A) Hq)
    | apply (st_new_slab (A := A) Hq) | apply (st_drop_host (A := A) Hq)
    | apply (st_single_property (A := A) Hq) | apply (st_property_set (A := A) Hq)
    | apply (st_relate_properties (A := A) _ _ _ (HP eq_refl)) | apply (st_drop_storey (A := A) Hr)
    | apply (st_drop_building (A := A) Hr) | apply (st_drop_site (A := A) Hr) ].
all: assumption. Qed.
End Step.

Section Run.
Context {A : kind -> bool} {R : proj -> proj -> Prop} {C : closed A R} {M : with_modify R} {W : with_assoc R} {WS : with_sites R}.
Context (HA : forall k, before_build k = true -> A k = true).
Variable o : oracle.

Lemma st_step w x : steps R (step o w x).
Proof.
  apply (st_step_any (A := A)).
  - intros k Hk. apply HA. unfold before_build. destruct (kind_eqb k KRelAssociatesMaterial) eqn:E; auto.
    apply kind_eqb_eq in E. now subst.
  - auto.
  - intros _. now apply HA.
Qed.

Lemma st_run w xs : steps R (run o w xs).
Proof.
  revert w. induction xs as [|x xs IH]; intro w; cbn [run]; [apply steps_ret; pre|].
  apply steps_bind; [pre|apply st_step|]. intros [w' a]. apply steps_bind; [pre|apply IH|].
  intros [w'' l]. apply steps_ret. pre.
Qed.
End Run.
