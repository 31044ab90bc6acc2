(** Walking through a model that was saved and loaded again; depth of nesting. *)

From Coq Require Import String Ascii List NArith ZArith Bool Lia.
From Verif Require Import Base Prims Float Kind Types WellTyped Schema Entity EntityFacts DataMap Extractor Mapping Walk
  Builder BuilderRun BuilderSpec ExtractSpec BuilderRead2 WalkSpec
  FloatFacts Header File FileSpec FileFacts.
Import ListNotations.
Open Scope N_scope.

Notation rmap := with_result.

Lemma obind_with {A A' B B'} (g : A -> A') (h : B -> B') (x' : outcome A') (x : outcome A) f' f :
  x' = rmap g x -> (forall a, x = Done a -> f' (g a) = rmap h (f a)) -> obind x' f' = rmap h (obind x f).
Proof. intros -> H. destruct x; cbn; auto. Qed.

Lemma maps_with {A B B'} (h : B -> B') (f' : A -> outcome B') (f : A -> outcome B) l :
  (forall a, In a l -> f' a = rmap h (f a)) -> maps f' l = rmap (map h) (maps f l).
Proof.
  induction l as [|a l IH]; intro H; auto. cbn [maps]. eapply obind_with; [apply H; now left|].
  intros b _. eapply obind_with; [apply IH; intros; apply H; now right|]. reflexivity.
Qed.

Lemma maps_over {A A' B B'} (g : A -> A') (h : B -> B') (f' : A' -> outcome B') (f : A -> outcome B) l :
  (forall a, In a l -> f' (g a) = rmap h (f a)) -> maps f' (map g l) = rmap (map h) (maps f l).
Proof.
  induction l as [|a l IH]; intro H; auto. cbn [map maps]. eapply obind_with; [apply H; now left|].
  intros b _. eapply obind_with; [apply IH; intros; apply H; now right|]. reflexivity.
Qed.

Lemma omap_with {A B B'} (h : B -> B') (f' : A -> outcome B') (f : A -> outcome B) x :
  (forall a, f' a = rmap h (f a)) -> Mapping.omap f' x = rmap (option_map h) (Mapping.omap f x).
Proof. intro H. destruct x as [a|]; auto. cbn [Mapping.omap]. eapply obind_with; [apply H|]. reflexivity. Qed.

Section With.
Variable f : f64 -> f64.
Let g := norm_val f.
Variable m : dmap.
Let m' := chg_map g m.

Lemma g_id n : g (VId n) = VId n. Proof. reflexivity. Qed.
Lemma g_list l : g (VList l) = VList (map g l). Proof. reflexivity. Qed.
Lemma g_measure i c : exists c', g (VMeasure i c) = VMeasure i c'.
Proof. unfold g. do 5 (destruct i as [|i]; [eexists; reflexivity|]). eexists; reflexivity. Qed.
Lemma g_other v : match g v with VId n => v = VId n | VList _ => exists l, v = VList l | _ => True end.
Proof.
  destruct v; try (cbn; eauto; fail). match goal with |- match g (VMeasure ?i ?c) with _ => _ end => destruct (g_measure i c) as (c' & ->) end. exact I.
Qed.

Let at_id := cm_attr_id g g_id g_other.
Let at_ids := cm_attr_ids g g_id g_list g_other.

Lemma w_get k n : get k m' n = rmap (map g) (get k m n).
Proof. exact (cm_get g k m n). Qed.
Lemma w_untyped n : get_untyped m' n = rmap (chg_ent g) (get_untyped m n).
Proof. unfold get_untyped, m'. rewrite cm_lookup. now destruct (lookup m n). Qed.

Lemma w_coords l : coords (map g l) = map f (coords l).
Proof.
  destruct l as [|v l]; auto. cbn [map]. destruct v; auto.
  match goal with |- coords (g (VMeasure ?i ?c) :: _) = _ => destruct (g_measure i c) as (c' & ->) end. reflexivity.
Qed.
Lemma w_vec k n : get_vec k m' n = rmap (map f) (get_vec k m n).
Proof. unfold get_vec. eapply obind_with; [apply w_get|]. intros l _. now rewrite w_coords. Qed.
Lemma w_the_id l j : the_id (map g l) j = rmap id (the_id l j).
Proof. unfold the_id. rewrite at_id. now destruct (attr_id l j). Qed.
Lemma w_real l j : the_real (map g l) j = rmap f (the_real l j).
Proof.
  unfold the_real. rewrite nth_error_map. destruct (nth_error l j) as [v|]; auto. cbn [option_map]. destruct v; auto.
  match goal with |- match g (VMeasure ?i ?c) with _ => _ end = _ => destruct (g_measure i c) as (c' & ->) end. reflexivity.
Qed.
Lemma w_opt_real l j : the_opt_real (map g l) j = option_map f (the_opt_real l j).
Proof.
  unfold the_opt_real. rewrite nth_error_map. destruct (nth_error l j) as [v|]; auto. cbn [option_map]. destruct v; auto.
  match goal with |- match g (VMeasure ?i ?c) with _ => _ end = _ => destruct (g_measure i c) as (c' & ->) end. reflexivity.
Qed.
Lemma w_id_or k v : id_or_get k m' (g v) = rmap (map g) (id_or_get k m v).
Proof.
  destruct v; try reflexivity; [apply w_get|].
  match goal with |- id_or_get _ _ (g (VMeasure ?i ?c)) = _ => destruct (g_measure i c) as (c' & ->) end. reflexivity.
Qed.
Lemma w_id_or_at k l j :
  match nth_error (map g l) j with Some v => id_or_get k m' v | None => Panic end =
  rmap (map g) (match nth_error l j with Some v => id_or_get k m v | None => Panic end).
Proof. rewrite nth_error_map. destruct (nth_error l j); auto. apply w_id_or. Qed.
Lemma w_opt_vec k l j : opt_vec k m' (map g l) j = rmap (option_map (map f)) (opt_vec k m l j).
Proof.
  unfold opt_vec. rewrite nth_error_map. destruct (nth_error l j) as [v|]; auto. cbn [option_map].
  destruct v; try reflexivity.
  - eapply obind_with; [apply w_vec|]. reflexivity.
  - match goal with |- match g (VMeasure ?i ?c) with _ => _ end = _ => destruct (g_measure i c) as (c' & ->) end. reflexivity.
  - change (Done (Some (coords (map g l0))) = Done (Some (map f (coords l0)))). now rewrite w_coords.
Qed.

Lemma w_axis2 l : map_axis2 m' (map g l) = rmap (axis_with f) (map_axis2 m l).
Proof.
  unfold map_axis2. eapply obind_with; [apply w_the_id|]. intros n _. eapply obind_with; [apply w_vec|]. intros p _.
  rewrite at_id. eapply obind_with; [apply omap_with; intro; apply w_vec|]. reflexivity.
Qed.
Lemma w_axis3 l : map_axis3 m' (map g l) = rmap (axis_with f) (map_axis3 m l).
Proof.
  unfold map_axis3. eapply obind_with; [apply w_the_id|]. intros n _. eapply obind_with; [apply w_vec|]. intros p _.
  rewrite !at_id. eapply obind_with; [apply omap_with; intro; apply w_vec|]. intros z _.
  eapply obind_with; [apply omap_with; intro; apply w_vec|]. reflexivity.
Qed.
Lemma w_kind e : kind_of (chg_ent g e) = kind_of e.
Proof. now destruct e. Qed.
Lemma w_polyline l : polyline_points m' (map g l) = rmap (points_with f) (polyline_points m l).
Proof.
  unfold polyline_points. rewrite at_ids. destruct (attr_ids l 0) as [|n ns]; auto.
  eapply obind_with; [apply w_untyped|]. intros e _. rewrite w_kind.
  destruct (kind_of e); try reflexivity;
    (eapply obind_with; [apply maps_with; intros; apply w_vec|]; reflexivity).
Qed.
Lemma w_coord_list l : coord_list (map g l) = map (map f) (coord_list l).
Proof.
  unfold coord_list. rewrite nth_error_map. destruct (nth_error l 0) as [v|]; auto. cbn [option_map].
  destruct v; auto.
  - match goal with |- match g (VMeasure ?i ?c) with _ => _ end = _ => destruct (g_measure i c) as (c' & ->) end. reflexivity.
  - rewrite g_list. match goal with |- flat_map _ (map g ?vs) = _ => induction vs as [|v vs IH] end; auto.
    cbn [map flat_map]. rewrite map_app, <- IH. f_equal. destruct v; auto.
    match goal with |- match g (VMeasure ?i ?c) with _ => _ end = _ => destruct (g_measure i c) as (c' & ->) end. reflexivity.
Qed.
Lemma w_curve n : curve_points m' n = rmap (points_with f) (curve_points m n).
Proof.
  unfold curve_points. eapply obind_with; [apply w_untyped|]. intros [k l|s] _; [|reflexivity]. cbn [chg_ent].
  destruct k; try reflexivity; [|apply w_polyline].
  eapply obind_with; [apply w_the_id|]. intros p _. eapply obind_with; [apply w_untyped|].
  intros [k l'|s] _; [|reflexivity]. cbn [chg_ent]. destruct k; try reflexivity; cbn [with_result points_with]; now rewrite w_coord_list.
Qed.
Lemma w_axis n : map_axis m' n = rmap (axis_with f) (map_axis m n).
Proof.
  unfold map_axis. eapply obind_with; [apply w_untyped|]. intros [k l|s] _; [|reflexivity]. cbn [chg_ent].
  destruct k; try reflexivity; [apply w_axis2|apply w_axis3].
Qed.
Lemma w_rectangle l : map_rectangle m' (map g l) = rmap (profile_with f) (map_rectangle m l).
Proof.
  unfold map_rectangle. rewrite at_id. eapply obind_with; [apply omap_with, w_axis|]. intros a _.
  eapply obind_with; [apply w_real|]. intros x _. eapply obind_with; [apply w_real|]. reflexivity.
Qed.
Lemma w_arbitrary l : map_arbitrary m' (map g l) = rmap (profile_with f) (map_arbitrary m l).
Proof.
  unfold map_arbitrary. eapply obind_with; [apply w_the_id|]. intros n _. eapply obind_with; [apply w_curve|]. intros p _.
  rewrite nth_error_map. destruct (nth_error l 0) as [v|]; auto. cbn [option_map]. destruct v; auto.
  match goal with |- match g (VMeasure ?i ?c) with _ => _ end = _ => destruct (g_measure i c) as (c' & ->) end. reflexivity.
Qed.
Lemma w_solid l : map_solid m' (map g l) = rmap (solid_with f) (map_solid m l).
Proof.
  unfold map_solid. eapply obind_with; [apply w_the_id|]. intros n _. eapply obind_with; [apply w_untyped|]. intros e _.
  eapply (obind_with (profile_with f)).
  { destruct e as [k a|s]; [|reflexivity]. cbn [chg_ent]. destruct k; try reflexivity; [apply w_arbitrary|apply w_rectangle]. }
  intros p _. rewrite at_id. eapply obind_with.
  { apply omap_with. intro a. eapply obind_with; [apply w_get|]. intros; apply w_axis3. }
  intros po _. eapply obind_with; [apply w_the_id|]. intros d _. eapply obind_with; [apply w_vec|]. intros v _.
  eapply obind_with; [apply w_real|]. reflexivity.
Qed.
Lemma w_transform u l : map_transform u m' (map g l) = rmap (transform_with f) (map_transform u m l).
Proof.
  unfold map_transform. do 4 (eapply obind_with; [apply w_opt_vec|]; intros ? _).
  cbn [with_result]. unfold transform_with. cbn [tr_origin tr_x tr_y tr_z tr_scale tr_scales]. rewrite !w_opt_real.
  now destruct u.
Qed.

Definition map_item_with (r : Mapping.axis * list val * Mapping.transform) :=
  (axis_with f (fst (fst r)), map g (snd (fst r)), transform_with f (snd r)).
Lemma w_map_item l : map_item m' (map g l) = rmap map_item_with (map_item m l).
Proof.
  unfold map_item. eapply obind_with; [apply w_id_or_at|]. intros mp _. eapply obind_with; [apply w_id_or_at|]. intros o _.
  eapply obind_with; [apply w_id_or_at|]. intros s _. eapply obind_with; [apply w_the_id|]. intros n _.
  eapply obind_with; [apply w_untyped|]. intros e _.
  eapply (obind_with (transform_with f)).
  { destruct e as [k a|t]; [|reflexivity]. cbn [chg_ent]. destruct k; try reflexivity; apply w_transform. }
  intros t _. eapply obind_with; [apply w_axis3|]. reflexivity.
Qed.

Lemma w_items fuel : forall l, visit_items fuel m' (map g l) = rmap (map (item_with f)) (visit_items fuel m l).
Proof.
  induction fuel as [|fuel IH]; intro l; auto. cbn [visit_items]. rewrite at_ids. apply maps_with. intros n _.
  eapply obind_with; [apply w_untyped|]. intros [k a|s] _; [|reflexivity]. cbn [chg_ent].
  destruct k; try reflexivity.
  - eapply obind_with; [apply w_solid|]. reflexivity.
  - eapply obind_with; [apply w_map_item|]. intros r _. eapply obind_with; [apply IH|]. reflexivity.
Qed.

Lemma w_shapes l : product_shapes m' (map g l) = rmap (map (map g)) (product_shapes m l).
Proof.
  unfold product_shapes. rewrite at_id. destruct (attr_id l 6) as [n|]; auto. eapply obind_with; [apply w_get|].
  intros d _. rewrite at_ids. apply maps_with. intros; apply w_get.
Qed.
Lemma w_product fuel l : visit_product fuel m' (map g l) = rmap (map (map (item_with f))) (visit_product fuel m l).
Proof.
  unfold visit_product. eapply obind_with; [apply w_shapes|]. intros ss _. apply maps_over. intros; apply w_items.
Qed.

Lemma w_structure fuel n : visit_structure fuel m' n = rmap (option_map (structure_with f g)) (visit_structure fuel m n).
Proof.
  unfold visit_structure. eapply obind_with; [apply w_untyped|]. intros [k l|s] _; [|reflexivity]. cbn [chg_ent].
  destruct (to_structure k && structure_type k); auto. destruct (kind_eqb k KWall).
  - eapply obind_with; [exact (cm_type g g_id g_list g_other KWallType m n)|]. intros ty _.
    eapply obind_with; [exact (cm_materials g g_id g_list g_other m n)|]. intros ms _.
    eapply obind_with; [apply w_product|]. intros s _.
    eapply obind_with; [exact (cm_voids g g_id g_other m n)|]. intros vs _.
    eapply (obind_with (map (fun q : N * list (list item) => (fst q, map (map (item_with f)) (snd q))))).
    { apply maps_over. intros [v a] _. cbn [chg_obj fst snd]. eapply obind_with; [apply w_product|]. reflexivity. }
    intros os _. destruct ty. reflexivity.
  - eapply obind_with; [apply w_product|]. reflexivity.
Qed.

Lemma w_fsts (l : list (N * list val)) : map fst (map (chg_obj g) l) = map fst l.
Proof. rewrite map_map. apply map_ext. now intros []. Qed.

Lemma w_relations k n : relations_of k m' n = rmap (map (chg_obj g)) (relations_of k m n).
Proof. exact (cm_relations g g_id g_list g_other k m n). Qed.
Lemma w_contained n : contained_structures m' n = contained_structures m n.
Proof. exact (cm_contained g g_id g_list g_other m n). Qed.

Lemma w_storey fuel n : visit_storey fuel m' n = rmap (floor_with f g) (visit_storey fuel m n).
Proof.
  unfold visit_storey. eapply obind_with; [apply w_relations|]. intros sp _. rewrite w_contained.
  eapply (obind_with (map (fun q : N * option structure => (fst q, option_map (structure_with f g) (snd q))))).
  { apply maps_with. intros j _. eapply obind_with; [apply w_structure|]. reflexivity. }
  intros st _. cbn [with_result]. unfold floor_with. cbn [fl_storey fl_structures fl_spaces]. rewrite map_map.
  do 2 f_equal. apply map_ext. intros [x a]. cbn [chg_obj fst]. now rewrite w_contained.
Qed.

Lemma w_collect k ns : collect (relations_of k m') ns = rmap (map (chg_obj g)) (collect (relations_of k m) ns).
Proof. apply (collect_chg g). intro. apply w_relations. Qed.

Lemma visit_with fuel : visit fuel m' = rmap (tour_with f g) (visit fuel m).
Proof.
  unfold visit. assert (E : projects m' = projects m).
  { unfold projects, m'. now rewrite cm_find, w_fsts. }
  rewrite E. eapply obind_with; [apply w_collect|]. intros l1 _. rewrite w_fsts.
  eapply obind_with; [apply w_collect|]. intros l2 _. rewrite w_fsts.
  eapply obind_with; [apply w_collect|]. intros l3 _. rewrite w_fsts.
  eapply obind_with; [apply maps_with; intros; apply w_storey|]. reflexivity.
Qed.

Lemma mapping_with k l : mapping m' k (map g l) =
  option_map (rmap (mapped_with f g)) (mapping m k l).
Proof.
  destruct k; try reflexivity; cbn [mapping option_map]; f_equal; eapply obind_with;
    first [apply w_axis2|apply w_axis3|apply w_polyline|apply w_rectangle|apply w_arbitrary|apply w_solid
          |apply w_transform|apply w_map_item|reflexivity].
Qed.
End With.

Lemma mapping_reloaded v x :
  ifc_ok v x -> refs_ok (i_data x) ->
  exists y, load v (save x) = Done y /\
    forall n k l, lookup (i_data x) n = Some (Ent k l) ->
      exists l', lookup (i_data y) n = Some (Ent k l') /\
        mapping (i_data y) k l' = option_map (with_result (mapped_with norm_real (norm_val norm_real))) (mapping (i_data x) k l).
Proof.
  intros Hx Hr. eexists. split; [exact (load_saved v x Hx Hr)|]. intros n k l H.
  exists (map (norm_val norm_real) l). split; [|exact (mapping_with norm_real (i_data x) k l)].
  change (i_data (norm_ifc x)) with (chg_map (norm_val norm_real) (i_data x)). now rewrite cm_lookup, H.
Qed.

(** ** Depth *)

Section Depth.
Variable m : dmap.

Lemma obind_ok {A B} (x : outcome A) (f : A -> outcome B) : x <> Err -> (forall a, x = Done a -> f a <> Err) -> obind x f <> Err.
Proof. intros H1 H2. destruct x; cbn; auto. discriminate. Qed.
Lemma maps_ok {A B} (f : A -> outcome B) l : (forall a, In a l -> f a <> Err) -> maps f l <> Err.
Proof.
  induction l as [|a l IH]; intro H; cbn [maps]; [discriminate|]. apply obind_ok; [apply H; now left|].
  intros b _. apply obind_ok; [apply IH; intros; apply H; now right|]. discriminate.
Qed.

Ltac ok := repeat first
  [ discriminate
  | apply obind_ok; [|intros ? _]
  | apply maps_ok; intros ? _
  | match goal with
    | |- get _ _ _ <> Err => unfold get
    | |- get_untyped _ _ <> Err => unfold get_untyped
    | |- get_vec _ _ _ <> Err => unfold get_vec
    | |- the_id _ _ <> Err => unfold the_id
    | |- the_real _ _ <> Err => unfold the_real
    | |- opt_vec _ _ _ _ <> Err => unfold opt_vec
    | |- id_or_get _ _ _ <> Err => unfold id_or_get
    | |- Mapping.omap _ _ <> Err => unfold Mapping.omap
    | |- match ?x with _ => _ end <> Err => destruct x
    end ].

Lemma ok_axis2 l : map_axis2 m l <> Err. Proof. unfold map_axis2. ok. Qed.
Lemma ok_axis3 l : map_axis3 m l <> Err. Proof. unfold map_axis3. ok. Qed.
Lemma ok_axis n : map_axis m n <> Err.
Proof. unfold map_axis. ok; first [apply ok_axis2|apply ok_axis3]. Qed.
Lemma ok_polyline l : polyline_points m l <> Err. Proof. unfold polyline_points. ok. Qed.
Lemma ok_curve n : curve_points m n <> Err. Proof. unfold curve_points. ok; apply ok_polyline. Qed.
Lemma ok_rectangle l : map_rectangle m l <> Err. Proof. unfold map_rectangle. ok; first [apply ok_axis|apply ok_axis2|apply ok_axis3]. Qed.
Lemma ok_arbitrary l : map_arbitrary m l <> Err. Proof. unfold map_arbitrary. ok; first [apply ok_curve|apply ok_polyline]. Qed.
Lemma ok_solid l : map_solid m l <> Err.
Proof. unfold map_solid. ok; first [apply ok_rectangle|apply ok_arbitrary|apply ok_axis3|apply ok_axis2|apply ok_axis|apply ok_curve|apply ok_polyline]. Qed.
Lemma ok_transform u l : map_transform u m l <> Err. Proof. unfold map_transform. ok. Qed.
Lemma ok_map_item l : map_item m l <> Err.
Proof. unfold map_item. ok; first [apply ok_transform|apply ok_axis3]. Qed.

(** From some fuel on there is a result, always the same. *)
Definition settles {A} (x : nat -> outcome A) : Prop :=
  exists d r, r <> Err /\ forall fuel, (d <= fuel)%nat -> x fuel = r.

Lemma settles_ok {A} (x : outcome A) : x <> Err -> settles (fun _ => x).
Proof. intro H. exists O, x. auto. Qed.
Lemma settles_bind {A B} (x : nat -> outcome A) (f : nat -> A -> outcome B) :
  settles x -> (forall a, settles (fun fuel => f fuel a)) -> settles (fun fuel => obind (x fuel) (f fuel)).
Proof.
  intros (d & r & Hr & H) Hf. destruct r as [a| |]; [|contradiction|].
  - destruct (Hf a) as (d' & r & Hr' & H'). exists (Nat.max d d'), r. split; auto. intros fuel Hm.
    rewrite H by lia. cbn [obind]. apply H'. lia.
  - exists d, Panic. split; [discriminate|]. intros fuel Hm. now rewrite H.
Qed.
Lemma settles_after {A B} (x : outcome A) (f : nat -> A -> outcome B) :
  x <> Err -> (forall a, x = Done a -> settles (fun fuel => f fuel a)) -> settles (fun fuel => obind x (f fuel)).
Proof.
  intros Hx Hf. destruct x as [a| |]; [|contradiction|]; cbn [obind]; [now apply Hf|apply settles_ok; discriminate].
Qed.
Lemma settles_maps {A B} (f : nat -> A -> outcome B) l :
  (forall a, In a l -> settles (fun fuel => f fuel a)) -> settles (fun fuel => maps (f fuel) l).
Proof.
  induction l as [|a l IH]; intro H; cbn [maps]; [apply settles_ok; discriminate|].
  apply (settles_bind (fun fuel => f fuel a) (fun fuel b => bs <~ maps (f fuel) l; Done (b :: bs))); [apply H; now left|].
  intro b. apply (settles_bind (fun fuel => maps (f fuel) l) (fun _ bs => Done (b :: bs))).
  - apply IH. intros; apply H; now right.
  - intro bs. apply settles_ok. discriminate.
Qed.
Lemma settles_later {A} (x y : nat -> outcome A) : (forall fuel, y (S fuel) = x fuel) -> settles x -> settles y.
Proof.
  intros E (d & r & Hr & H). exists (S d), r. split; auto. intros [|fuel] Hf; [lia|]. rewrite E. apply H. lia.
Qed.

Lemma items_settle l : Acc (shown_in m) l -> settles (fun fuel => visit_items fuel m l).
Proof.
  induction 1 as [l _ IH]. eapply settles_later; [intro fuel; cbn [visit_items]; reflexivity|].
  apply (settles_maps (fun fuel n => e <~ get_untyped m n;
        match e with
        | Ent KMappedItem a =>
            r <~ map_item m a;
            inner <~ visit_items fuel m (snd (fst r));
            Done (IMapped (fst (fst r)) (snd r) inner)
        | Ent KExtrudedAreaSolid a => s <~ map_solid m a; Done (ISolid s)
        | _ => Done IOther
        end)).
  intros n Hn. unfold get_untyped. destruct (lookup m n) as [[k a|s]|] eqn:L; cbn [obind]; try (apply settles_ok; discriminate).
  destruct k; try (apply settles_ok; discriminate).
  - apply (settles_after (map_solid m a) (fun _ s => Done (ISolid s))); [apply ok_solid|].
    intros s _. apply settles_ok. discriminate.
  - apply (settles_after (map_item m a) (fun fuel r => inner <~ visit_items fuel m (snd (fst r)); Done (IMapped (fst (fst r)) (snd r) inner)));
      [apply ok_map_item|]. intros r Hr.
    apply (settles_bind (fun fuel => visit_items fuel m (snd (fst r))) (fun _ inner => Done (IMapped (fst (fst r)) (snd r) inner))).
    + apply IH. exists n, a, r. auto.
    + intro inner. apply settles_ok. discriminate.
Qed.

Hypothesis Hm : forall n l, lookup m n = Some (Ent KShapeRepresentation l) -> Acc (shown_in m) l.

Lemma product_settles l : settles (fun fuel => visit_product fuel m l).
Proof.
  unfold visit_product. apply (settles_after (product_shapes m l) (fun fuel ss => maps (visit_items fuel m) ss)).
  - unfold product_shapes. ok.
  - intros ss Hs. apply (settles_maps (fun fuel s => visit_items fuel m s)). intros s Hi. apply items_settle.
    unfold product_shapes in Hs. destruct (attr_id l 6) as [n|]; [|injection Hs as <-; destruct Hi].
    destruct (get KProductDefinitionShape m n) as [d| |]; try discriminate Hs. cbn [obind] in Hs.
    revert ss Hs Hi. induction (attr_ids d 2) as [|j js IH]; intros ss Hs Hi; cbn [maps] in Hs.
    + injection Hs as <-. destruct Hi.
    + destruct (get KShapeRepresentation m j) as [x| |] eqn:E; try discriminate Hs. cbn [obind] in Hs.
      destruct (maps _ js) as [xs| |]; try discriminate Hs. cbn [obind] in Hs. injection Hs as <-.
      destruct Hi as [<-|Hi]; [|now apply (IH xs)]. apply (Hm j). unfold get in E. destruct (lookup m j) as [[k a|?]|]; try discriminate E.
      destruct (kind_eqb k KShapeRepresentation) eqn:K; [|discriminate E]. apply kind_eqb_eq in K. congruence.
Qed.

Lemma collect_ok {A B} (f : A -> outcome (list B)) l : (forall a, f a <> Err) -> collect f l <> Err.
Proof.
  intro H. induction l as [|a l IH]; cbn [collect]; [discriminate|]. specialize (H a).
  destruct (f a); try contradiction; try discriminate. destruct (collect f l); auto. discriminate.
Qed.
Lemma downcast_ok k n : downcast k m n <> Err.
Proof. unfold downcast, get_untyped. destruct (lookup m n) as [[k' l|s]|]; try discriminate. Qed.
Lemma get_ok k n : get k m n <> Err.
Proof. unfold get. destruct (lookup m n) as [[]|]; try discriminate. now destruct (kind_eqb _ _). Qed.
Lemma with_id_ok k n : get_with_id k m n <> Err.
Proof. unfold get_with_id. pose proof (get_ok k n). destruct (get k m n); auto; discriminate. Qed.
Lemma relations_ok k n : relations_of k m n <> Err.
Proof. unfold relations_of. apply collect_ok. intro. apply collect_ok. intro. apply downcast_ok. Qed.
Lemma voids_ok n : related_voids m n <> Err.
Proof. unfold related_voids. apply collect_ok. intro. apply collect_ok. intro. apply with_id_ok. Qed.
Lemma type_ok k n : related_type k m n <> Err.
Proof.
  unfold related_type. destruct (find _ _) as [q|]; [|discriminate]. destruct (attr_id _ 5) as [t|]; [|discriminate].
  pose proof (get_ok k t). destruct (get k m t); auto; discriminate.
Qed.
Lemma materials_ok n : related_materials m n <> Err.
Proof.
  unfold related_materials. apply collect_ok. intro. apply collect_ok. intro u.
  pose proof (downcast_ok KMaterialLayerSetUsage u). destruct (downcast KMaterialLayerSetUsage m u) as [us| |]; try discriminate; [|contradiction].
  apply collect_ok. intro. apply collect_ok. intro s. pose proof (get_ok KMaterialLayerSet s).
  destruct (get KMaterialLayerSet m s); try discriminate; [|contradiction]. apply collect_ok. intro. apply with_id_ok.
Qed.

Lemma structure_settles n : settles (fun fuel => visit_structure fuel m n).
Proof.
  unfold visit_structure, get_untyped. destruct (lookup m n) as [[k l|s]|]; cbn [obind]; try (apply settles_ok; discriminate).
  destruct (to_structure k && structure_type k); [|apply settles_ok; discriminate]. destruct (kind_eqb k KWall).
  - apply (settles_after (related_type KWallType m n) (fun fuel ty => _)); [apply type_ok|]. intros ty _.
    apply (settles_after (related_materials m n) (fun fuel ms => _)); [apply materials_ok|]. intros ms _.
    apply (settles_bind (fun fuel => visit_product fuel m l) (fun fuel s => _)); [apply product_settles|]. intro s.
    apply (settles_after (related_voids m n) (fun fuel vs => _)); [apply voids_ok|]. intros vs _.
    apply (settles_bind (fun fuel => maps (fun v => x <~ visit_product fuel m (snd v); Done (fst v, x)) vs)
             (fun fuel os => Done (Some (AWall (snd ty) ms s os)))).
    + apply (settles_maps (fun fuel (v : N * list val) => x <~ visit_product fuel m (snd v); Done (fst v, x))). intros v _.
      apply (settles_bind (fun fuel => visit_product fuel m (snd v)) (fun fuel x => Done (fst v, x))); [apply product_settles|].
      intro. apply settles_ok. discriminate.
    + intro. apply settles_ok. discriminate.
  - apply (settles_bind (fun fuel => visit_product fuel m l) (fun fuel s => Done (Some (AnElement k s)))); [apply product_settles|].
    intro. apply settles_ok. discriminate.
Qed.

Lemma storey_settles n : settles (fun fuel => visit_storey fuel m n).
Proof.
  unfold visit_storey. apply (settles_after (relations_of KSpace m n) (fun fuel sp => _)); [apply relations_ok|]. intros sp _.
  apply (settles_bind (fun fuel => maps (fun i => s <~ visit_structure fuel m i; Done (i, s)) (contained_structures m n)) (fun fuel st => _)).
  - apply (settles_maps (fun fuel i => s <~ visit_structure fuel m i; Done (i, s))). intros i _.
    apply (settles_bind (fun fuel => visit_structure fuel m i) (fun fuel s => Done (i, s))); [apply structure_settles|].
    intro. apply settles_ok. discriminate.
  - intro. apply settles_ok. discriminate.
Qed.

Lemma visit_settles : settles (fun fuel => visit fuel m).
Proof.
  unfold visit. do 3 (eapply (settles_after _ (fun fuel l => _)); [apply collect_ok; intro; apply relations_ok|]; intros ? _).
  apply (settles_bind (fun fuel => maps (visit_storey fuel m) (map fst a1)) (fun fuel fs => _)).
  - apply (settles_maps (fun fuel n => visit_storey fuel m n)). intros n _. apply storey_settles.
  - intro. apply settles_ok. discriminate.
Qed.

(** Representations that are shown in themselves are never left. *)
Lemma cycle_endless n a r l :
  attr_ids l 3 = [n] -> lookup m n = Some (Ent KMappedItem a) -> map_item m a = Done r -> snd (fst r) = l ->
  forall fuel, visit_items fuel m l = Err.
Proof.
  intros H1 H2 H3 H4. induction fuel as [|fuel IH]; auto. cbn [visit_items]. rewrite H1. cbn [maps].
  unfold get_untyped. rewrite H2. cbn [obind]. rewrite H3. cbn [obind]. rewrite H4, IH. reflexivity.
Qed.

(** Items that were met in full. *)
Lemma items_acc fuel : forall l xs, visit_items fuel m l = Done xs -> Acc (shown_in m) l.
Proof.
  induction fuel as [|fuel IH]; [discriminate|]. intros l xs H. constructor. intros l' (n & a & r & H1 & H2 & H3 & ->).
  cbn [visit_items] in H. revert xs H H1. induction (attr_ids l 3) as [|b ids IHl]; intros xs H [].
  - subst b. cbn [maps] in H. unfold get_untyped at 1 in H. rewrite H2 in H. cbn [obind] in H. rewrite H3 in H. cbn [obind] in H.
    destruct (visit_items fuel m (snd (fst r))) eqn:E; try discriminate. exact (IH _ _ E).
  - cbn [maps] in H. match type of H with obind ?x _ = _ => destruct x; try discriminate end. cbn [obind] in H.
    match type of H with obind ?x _ = _ => destruct x eqn:E; try discriminate end. exact (IHl _ eq_refl H0).
Qed.

(** So is a storey with such an element. *)
Lemma cycle_walk fuel :
  (exists p s b st i k a n it r l,
     collect (relations_of KSite m) (projects m) = Done [(p, s)] /\
     collect (relations_of KBuilding m) [p] = Done [b] /\
     collect (relations_of KStorey m) [fst b] = Done [st] /\
     (exists sp, relations_of KSpace m (fst st) = Done sp) /\ contained_structures m (fst st) = [i] /\
     lookup m i = Some (Ent k a) /\ to_structure k && structure_type k = true /\ kind_eqb k KWall = false /\
     product_shapes m a = Done [l] /\
     attr_ids l 3 = [n] /\ lookup m n = Some (Ent KMappedItem it) /\ map_item m it = Done r /\ snd (fst r) = l) ->
  visit fuel m = Err.
Proof.
  intros (p & s & b & st & i & k & a & n & it & r & l & H1 & H2 & H3 & (sp & H4) & H5 & H6 & H7 & H8 & H9 & H10 & H11 & H12 & H13).
  pose proof (cycle_endless n it r l H10 H11 H12 H13 fuel) as E.
  unfold visit. rewrite H1. cbn [obind map fst]. rewrite H2. cbn [obind map]. rewrite H3. cbn [obind map maps].
  unfold visit_storey. rewrite H4, H5. cbn [obind maps]. unfold visit_structure, get_untyped. rewrite H6. cbn [obind].
  rewrite H7, H8. unfold visit_product. rewrite H9. cbn [obind maps]. rewrite E. reflexivity.
Qed.
End Depth.
