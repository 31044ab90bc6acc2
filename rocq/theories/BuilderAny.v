(** Hints: every builder call adds objects of some kinds and keeps the others. *)

From Verif Require Import Kind Builder BuilderRun BuilderBase BuilderGrow.

#[export] Hint Extern 0 (steps _ (fresh_guid _)) => solve [eapply (st_fresh_guid (A := anything)); first [typeclasses eauto|intros; reflexivity]] : calls.
#[export] Hint Extern 0 (steps _ (now _)) => solve [eapply (st_now (A := anything)); first [typeclasses eauto|intros; reflexivity]] : calls.
#[export] Hint Extern 0 (steps _ (walk _ _)) => solve [eapply (st_walk (A := anything)); first [typeclasses eauto|intros; reflexivity]] : calls.
#[export] Hint Extern 0 (steps _ (walk_pairs _ _)) => solve [eapply (st_walk_pairs (A := anything)); first [typeclasses eauto|intros; reflexivity]] : calls.
#[export] Hint Extern 0 (steps _ (root _ _)) => solve [eapply (st_root (A := anything)); first [typeclasses eauto|intros; reflexivity]] : calls.
#[export] Hint Extern 0 (steps _ (owned _ _)) => solve [eapply (st_owned (A := anything)); first [typeclasses eauto|intros; reflexivity]] : calls.
#[export] Hint Extern 0 (steps _ (axis3d _)) => solve [eapply (st_axis3d (A := anything)); first [typeclasses eauto|intros; reflexivity]] : calls.
#[export] Hint Extern 0 (steps _ (placement_new _)) => solve [eapply (st_placement_new (A := anything)); first [typeclasses eauto|intros; reflexivity]] : calls.
#[export] Hint Extern 0 (steps _ (new_relative _ _ _)) => solve [eapply (st_new_relative (A := anything)); first [typeclasses eauto|intros; reflexivity]] : calls.
#[export] Hint Extern 0 (steps _ (extrude _ _ _ _)) => solve [eapply (st_extrude (A := anything)); first [typeclasses eauto|intros; reflexivity]] : calls.
#[export] Hint Extern 0 (steps _ (rectangular_shape _ _ _ _ _)) => solve [eapply (st_rectangular_shape (A := anything)); first [typeclasses eauto|intros; reflexivity]] : calls.
#[export] Hint Extern 0 (steps _ (arbitrary_profile _ _)) => solve [eapply (st_arbitrary_profile (A := anything)); first [typeclasses eauto|intros; reflexivity]] : calls.
#[export] Hint Extern 0 (steps _ (horizontal_shape _ _ _)) => solve [eapply (st_horizontal_shape (A := anything)); first [typeclasses eauto|intros; reflexivity]] : calls.
#[export] Hint Extern 0 (steps _ (vertical_shape _ _ _)) => solve [eapply (st_vertical_shape (A := anything)); first [typeclasses eauto|intros; reflexivity]] : calls.
#[export] Hint Extern 0 (steps _ (arbitrary_shape _ _ _ _)) => solve [eapply (st_arbitrary_shape (A := anything)); first [typeclasses eauto|intros; reflexivity]] : calls.
#[export] Hint Extern 0 (steps _ (add_representation _ _)) => solve [eapply (st_add_representation (A := anything)); first [typeclasses eauto|intros; reflexivity]] : calls.
#[export] Hint Extern 0 (steps _ (material _)) => solve [eapply (st_material (A := anything)); first [typeclasses eauto|intros; reflexivity]] : calls.
#[export] Hint Extern 0 (steps _ (material_layer _ _)) => solve [eapply (st_material_layer (A := anything)); first [typeclasses eauto|intros; reflexivity]] : calls.
#[export] Hint Extern 0 (steps _ (material_layer_set _)) => solve [eapply (st_material_layer_set (A := anything)); first [typeclasses eauto|intros; reflexivity]] : calls.
#[export] Hint Extern 0 (steps _ (material_layer_set_usage _ _ _ _)) => solve [eapply (st_material_layer_set_usage (A := anything)); first [typeclasses eauto|intros; reflexivity]] : calls.
#[export] Hint Extern 0 (steps _ (material_constituent _ _)) => solve [eapply (st_material_constituent (A := anything)); first [typeclasses eauto|intros; reflexivity]] : calls.
#[export] Hint Extern 0 (steps _ (material_constituent_set _)) => solve [eapply (st_material_constituent_set (A := anything)); first [typeclasses eauto|intros; reflexivity]] : calls.
#[export] Hint Extern 0 (steps _ (thickness _ _)) => solve [eapply (st_thickness (A := anything)); first [typeclasses eauto|intros; reflexivity]] : calls.
#[export] Hint Extern 0 (steps _ (host_thickness _ _ _)) => solve [eapply (st_host_thickness (A := anything)); first [typeclasses eauto|intros; reflexivity]] : calls.
#[export] Hint Extern 0 (steps _ (new_window_type _ _ _ _ _)) => solve [eapply (st_new_window_type (A := anything)); first [typeclasses eauto|intros; reflexivity]] : calls.
#[export] Hint Extern 0 (steps _ (new_space_type _ _ _ _)) => solve [eapply (st_new_space_type (A := anything)); first [typeclasses eauto|intros; reflexivity]] : calls.
#[export] Hint Extern 0 (steps _ (axis_repr _ _)) => solve [eapply (st_axis_repr (A := anything)); first [typeclasses eauto|intros; reflexivity]] : calls.
#[export] Hint Extern 0 (steps _ (wall_body _ _ _ _)) => solve [eapply (st_wall_body (A := anything)); first [typeclasses eauto|intros; reflexivity]] : calls.
#[export] Hint Extern 0 (steps _ (slab_body _ _ _ _)) => solve [eapply (st_slab_body (A := anything)); first [typeclasses eauto|intros; reflexivity]] : calls.
#[export] Hint Extern 0 (steps _ (new_space _ _ _ _ _ _ _)) => solve [eapply (st_new_space (A := anything)); first [typeclasses eauto|intros; reflexivity]] : calls.
#[export] Hint Extern 0 (steps _ (place_opening _ _ _ _ _ _)) => solve [eapply (st_place_opening (A := anything)); first [typeclasses eauto|intros; reflexivity]] : calls.
#[export] Hint Extern 0 (steps _ (wall_opening _ _ _ _ _ _ _ _)) => solve [eapply (st_wall_opening (A := anything)); first [typeclasses eauto|intros; reflexivity]] : calls.
#[export] Hint Extern 0 (steps _ (shapes _)) => solve [eapply (st_shapes (A := anything)); first [typeclasses eauto|intros; reflexivity]] : calls.
#[export] Hint Extern 0 (steps _ (solid_direction _)) => solve [eapply (st_solid_direction (A := anything)); first [typeclasses eauto|intros; reflexivity]] : calls.
#[export] Hint Extern 0 (steps _ (product_direction _)) => solve [eapply (st_product_direction (A := anything)); first [typeclasses eauto|intros; reflexivity]] : calls.
#[export] Hint Extern 0 (steps _ (slab_direction _)) => solve [eapply (st_slab_direction (A := anything)); first [typeclasses eauto|intros; reflexivity]] : calls.
#[export] Hint Extern 0 (steps _ (slab_filling _ _ _ _)) => solve [eapply (st_slab_filling (A := anything)); first [typeclasses eauto|intros; reflexivity]] : calls.
#[export] Hint Extern 0 (steps _ (slab_opening _ _ _ _ _)) => solve [eapply (st_slab_opening (A := anything)); first [typeclasses eauto|intros; reflexivity]] : calls.
#[export] Hint Extern 0 (steps _ (transform_object _)) => solve [eapply (st_transform_object (A := anything)); first [typeclasses eauto|intros; reflexivity]] : calls.
#[export] Hint Extern 0 (steps _ (mapped_repr _ _ _ _ _)) => solve [eapply (st_mapped_repr (A := anything)); first [typeclasses eauto|intros; reflexivity]] : calls.
#[export] Hint Extern 0 (steps _ (transform _ _ _ _ _ _)) => solve [eapply (st_transform (A := anything)); first [typeclasses eauto|intros; reflexivity]] : calls.
#[export] Hint Extern 0 (steps _ (local_placement _)) => solve [eapply (st_local_placement (A := anything)); first [typeclasses eauto|intros; reflexivity]] : calls.
#[export] Hint Extern 0 (steps _ (drop_host _ _ _)) => solve [eapply (st_drop_host (A := anything)); first [typeclasses eauto|intros; reflexivity]] : calls.
#[export] Hint Extern 0 (steps _ (single_property _ _ _)) => solve [eapply (st_single_property (A := anything)); first [typeclasses eauto|intros; reflexivity]] : calls.
#[export] Hint Extern 0 (steps _ (property_set _ _ _)) => solve [eapply (st_property_set (A := anything)); first [typeclasses eauto|intros; reflexivity]] : calls.
#[export] Hint Extern 0 (steps _ (relate_properties _ _ _)) => solve [eapply (st_relate_properties (A := anything)); first [typeclasses eauto|intros; reflexivity]] : calls.
#[export] Hint Extern 0 (steps _ (si_unit _ _)) => solve [eapply (st_si_unit (A := anything)); first [typeclasses eauto|intros; reflexivity]] : calls.
#[export] Hint Extern 0 (steps _ (new_project _ _)) => solve [eapply (st_new_project (A := anything)); first [typeclasses eauto|intros; reflexivity]] : calls.
#[export] Hint Extern 0 (steps _ sub_context) => solve [eapply (st_sub_context (A := anything)); first [typeclasses eauto|intros; reflexivity]] : calls.
#[export] Hint Extern 0 (steps _ (new_building _ _ _ _)) => solve [eapply (st_new_building (A := anything)); first [typeclasses eauto|intros; reflexivity]] : calls.
#[export] Hint Extern 0 (steps _ (new_storey _ _ _ _)) => solve [eapply (st_new_storey (A := anything)); first [typeclasses eauto|intros; reflexivity]] : calls.
#[export] Hint Extern 0 (steps _ (associate _ _ _ _ _)) => solve [eapply (st_associate (A := anything)); first [typeclasses eauto|intros; reflexivity]] : calls.
#[export] Hint Extern 0 (steps _ (new_type _ _ _ _ _ _)) => solve [eapply (st_new_type (A := anything)); first [typeclasses eauto|intros; reflexivity]] : calls.
#[export] Hint Extern 0 (steps _ (place_element _ _ _ _ _ _ _ _)) => solve [eapply (st_place_element (A := anything)); first [typeclasses eauto|intros; reflexivity]] : calls.
#[export] Hint Extern 0 (steps _ (new_wall _ _ _ _ _ _ _)) => solve [eapply (st_new_wall (A := anything)); first [typeclasses eauto|intros; reflexivity]] : calls.
#[export] Hint Extern 0 (steps _ (new_slab _ _ _ _ _ _ _)) => solve [eapply (st_new_slab (A := anything)); first [typeclasses eauto|intros; reflexivity]] : calls.
#[export] Hint Extern 0 (steps _ (new_roof _ _ _ _ _ _ _)) => solve [eapply (st_new_roof (A := anything)); first [typeclasses eauto|intros; reflexivity]] : calls.
#[export] Hint Extern 0 (steps _ (new_shading _ _ _ _ _ _ _ _)) => solve [eapply (st_new_shading (A := anything)); first [typeclasses eauto|intros; reflexivity]] : calls.
#[export] Hint Extern 0 (steps _ (place_window _ _ _ _ _ _ _)) => solve [eapply (st_place_window (A := anything)); first [typeclasses eauto|intros; reflexivity]] : calls.
#[export] Hint Extern 0 (steps _ (wall_window _ _ _ _ _ _ _ _ _ _)) => solve [eapply (st_wall_window (A := anything)); first [typeclasses eauto|intros; reflexivity]] : calls.
#[export] Hint Extern 0 (steps _ (slab_window _ _ _ _ _ _ _)) => solve [eapply (st_slab_window (A := anything)); first [typeclasses eauto|intros; reflexivity]] : calls.
#[export] Hint Extern 0 (steps _ (storey_step _ _ _)) => solve [eapply (st_storey_step (A := anything)); first [typeclasses eauto|intros; reflexivity|match goal with |- match ?x with _ => _ end => now destruct x end]] : calls.
#[export] Hint Extern 0 (steps _ (host_step _ _ _ _)) => solve [eapply (st_host_step (A := anything)); first [typeclasses eauto|intros; reflexivity]] : calls.
#[export] Hint Extern 0 (steps _ (new_site _ _ _)) => solve [eapply (st_new_site (A := anything)); first [typeclasses eauto|intros; reflexivity]] : calls.
#[export] Hint Extern 0 (steps _ (aggregate _ _ _ _)) => solve [eapply (st_aggregate (A := anything)); first [typeclasses eauto|intros; reflexivity]] : calls.
#[export] Hint Extern 0 (steps _ (type_relations _ _ _ _)) => solve [eapply (st_type_relations (A := anything)); first [typeclasses eauto|intros; reflexivity]] : calls.
#[export] Hint Extern 0 (steps _ (void_relations _ _ _)) => solve [eapply (st_void_relations (A := anything)); first [typeclasses eauto|intros; reflexivity]] : calls.
#[export] Hint Extern 0 (steps _ (fill_relations _ _)) => solve [eapply (st_fill_relations (A := anything)); first [typeclasses eauto|intros; reflexivity]] : calls.
#[export] Hint Extern 0 (steps _ (drop_storey _ _)) => solve [eapply (st_drop_storey (A := anything)); first [typeclasses eauto|intros; reflexivity]] : calls.
#[export] Hint Extern 0 (steps _ (drop_building _ _ _)) => solve [eapply (st_drop_building (A := anything)); first [typeclasses eauto|intros; reflexivity]] : calls.
#[export] Hint Extern 0 (steps _ (drop_site _ _ _)) => solve [eapply (st_drop_site (A := anything)); first [typeclasses eauto|intros; reflexivity]] : calls.
#[export] Hint Extern 0 (steps _ (build _)) => solve [eapply (st_build (A := anything)); first [typeclasses eauto|intros; reflexivity]] : calls.
#[export] Hint Extern 0 (steps _ (step _ _ _)) => solve [eapply (st_step (A := anything)); first [typeclasses eauto|intros; reflexivity]] : calls.
#[export] Hint Extern 0 (steps _ (run _ _ _)) => solve [eapply (st_run (A := anything)); first [typeclasses eauto|intros; reflexivity]] : calls.
