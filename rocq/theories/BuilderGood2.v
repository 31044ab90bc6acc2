(** The calls that make elements keep all objects good. *)

From Coq Require Import String Ascii List NArith ZArith Bool Lia Permutation.
From Coq Require Import ZifyBool ZifyNat ZifyN.
From Verif Require Import Base Prims PrimsFacts Float Kind Types WellTyped TypesFacts Schema Entity
  EntityFacts DataMap DataSpec DataMapFacts Extractor Arith ArithFacts Builder BuilderRun BuilderBase
  BuilderGrow BuilderAny BuilderSpec BuilderLoadSpec TemplateSpec BuilderGood.
Import ListNotations.
Open Scope N_scope.
Open Scope builder_scope.

(** The attribute types of a concrete kind. *)
Ltac rows_of fs := eval cbv [row_fields app map unchecked unchecked_ty idor
    fields_Root fields_Object fields_Product fields_Element fields_SpatialElement 
    fields_SpatialStructureElement fields_Context fields_TypeObject fields_TypeProduct 
    fields_ElementType fields_RelAssociates fields_NamedUnit fields_ExtendedPropertyBase 
    fields_PropertyBase row_Direction3D row_Point3D fields_Transform3DBase row_ActorRole 
    row_PostalAddress row_TelecomAddress row_Application row_Organization row_OwnerHistory 
    row_Person row_PersonAndOrganization row_WallType row_Wall row_Slab row_SlabType row_Roof 
    row_RoofType row_Building row_Storey row_Site row_OpeningElement row_Window row_WindowType 
    row_Project row_Space row_SpaceType row_Door row_DoorType row_ShadingDevice 
    row_ShadingDeviceType row_ArbitraryClosedProfileDef row_Axis2D row_Axis3D row_Direction2D 
    row_ExtrudedAreaSolid row_IndexedPolyCurve row_Point2D row_PointList2D row_PointList3D 
    row_PolyLine row_ProductDefinitionShape row_RectangleProfileDef 
    row_GeometricRepresentationContext row_GeometricRepresentationSubContext 
    row_ShapeRepresentation row_LocalPlacement row_CartesianTransformationOperator3DnonUniform 
    row_CartesianTransformationOperator3D row_RelAggregates row_RelAssociatesMaterial 
    row_RelContainedInSpatialStructure row_RelDeclares row_RelDefinesByType 
    row_RelDefinesByProperties row_RelVoidsElement row_RelFillsElement row_RepresentationMap 
    row_MappedItem row_UnitAssigment row_PlaneAngleMeasure row_MeasureWithUnit 
    row_ConversionBasedUnit row_SiUnit row_DimensionalExponents row_DerivedUnit 
    row_DerivedUnitElement row_MonetaryUnit row_MaterialLayerSetUsage row_MaterialLayerSet 
    row_MaterialLayer row_Material row_MaterialConstituent row_MaterialConstituentSet 
    row_MaterialProperties row_PropertySet row_PropertySingleValue] in fs.
Ltac rows :=
  match goal with
  | |- Forall2 _ ?fs _ => let x := rows_of fs in change fs with x
  | |- nth_error ?fs _ = _ => let x := rows_of fs in change fs with x
  end.
Ltac rows_in H :=
  match type of H with
  | Forall2 _ ?fs _ => let x := rows_of fs in change fs with x in H
  | wts ?fs _ = _ => let x := rows_of fs in change fs with x in H
  end.

Ltac member := repeat (first [left; reflexivity | right]).
Ltac txt :=
  first [ assumption | reflexivity | apply text_ok_show
        | rewrite text_ok_app; apply andb_true_iff; split; txt ].
Ltac num :=
  first [ assumption | reflexivity | apply fadd_okb | apply fsub_okb | apply fmul_okb | apply fdiv_okb ].
Ltac vecs :=
  first [ assumption | reflexivity | apply vadd_ok | apply vsub_ok | apply vscale_ok | apply vnormalize_ok
        | apply vextend_ok; [assumption|num] ].

Ltac gval :=
  match goal with
  | |- gv _ (TOpt _) VOmit => apply gv_omit
  | |- gv _ (TOpt _) VInh => apply gv_inh
  | |- gv _ _ _ => assumption
  | |- gv _ (TOpt _) _ => apply gv_opt; gval
  | |- gv _ TStr _ => apply gv_str; txt
  | |- gv _ TReal _ => apply gv_real; num
  | |- gv _ (TRef _ _) (VId _) =>
      first [solve [eapply gv_ref; [eassumption|eassumption|member]] | eapply gv_any; eassumption]
  | |- gv _ (TIdOr _ _ _ _ _) (VId _) => eapply gv_idor; eassumption
  | |- gv _ (TList _) (ids []) => apply gv_ids; constructor
  | |- gv _ (TList _) (VList []) => apply gv_list; constructor
  | |- gv _ (TList _) (ids (_ :: _)) => apply gv_ids; repeat (constructor; [gval|]); constructor
  | |- gv _ (TList _) (ids _) =>
      apply gv_ids; eapply Forall_impl; [|eassumption]; cbv beta; intros; gval
  | |- gv _ (TEnum _) _ => apply gv_enum; first [assumption|reflexivity]
  | |- gv _ TDim _ => apply gv_dim; reflexivity
  | |- gv _ TGuid _ => eapply gv_guid; eassumption
  | |- gv _ TTime _ => eapply gv_time; eassumption
  | |- gv _ TVec3 _ => apply gv_vec; vecs
  | |- gv _ TVec2 _ => apply gv_vec2; vecs
  | |- gv _ TValue _ => apply gv_value; assumption
  end.

(** No placement, or that of the attributes. *)
Ltac draw := first [exact I|reflexivity|eexists _, _; split; [reflexivity|split; assumption]].
(** A row of the kind. *)
Lemma fit_vec v : exists l, vec v = VVec l /\ length l = 3%nat.
Proof. destruct v as [[x y] z]. now exists [x; y; z]. Qed.
Lemma fit_vecs {A} (f : A -> val) n l :
  (forall a, exists x, f a = VVec x /\ length x = n) ->
  exists ls, VList (map f l) = VList (map VVec ls) /\ Forall (fun l => length l = n) ls.
Proof.
  intro H. assert (E : exists ls, map f l = map VVec ls /\ Forall (fun l => length l = n) ls).
  { induction l as [|a l (ls & IH & F)]; [now exists []|]. destruct (H a) as (x & Hx & Hn).
    exists (x :: ls). cbn [map]. rewrite Hx, IH. auto. }
  destruct E as (ls & -> & F). eauto.
Qed.
Ltac fit_val :=
  match goal with
  | |- True => exact I
  | |- _ = _ => reflexivity
  | |- _ => first
      [ solve [eexists; reflexivity]
      | solve [apply fit_vec]
      | solve [eexists; split; [reflexivity|eassumption]]
      | solve [eexists _, _; split; [reflexivity|eassumption]]
      | solve [eexists _, _; split; [reflexivity|split; [reflexivity|member]]]
      | solve [eexists; split; [reflexivity|split; [reflexivity|repeat (constructor; [eexists; eassumption|]); constructor]]]
      | solve [eexists; split; [reflexivity|
          repeat (constructor; [eexists; split; [eassumption|member]|]); constructor]]
      | solve [eexists; split; [reflexivity|
          eapply Forall_impl; [|eassumption]; cbv beta; intros; eexists; split; [eassumption|member]]]
      | solve [eexists; split; [reflexivity|split; [member|repeat (constructor; [eassumption|]); constructor]]]
      | solve [eexists; split; [reflexivity|split; eassumption]]
      | solve [eexists; split; [reflexivity|reflexivity]]
      | solve [eexists; split; [reflexivity|apply Nat.ltb_lt; assumption]] ]
  end.
Ltac fit_row :=
  cbn [app map loosen fits_all fits is_owned is_placed is_shown is_type is_relation is_link]; unfold ids;
  repeat (split; [fit_val|]); try exact I.
Ltac fit :=
  cbv [element spatial element_type elem_rest]; cbn [app];
  first
    [ solve [eexists; split; [left; reflexivity|fit_row]]
    | solve [eexists; split; [right; left; reflexivity|fit_row]]
    | solve [eexists; split; [right; right; left; reflexivity|fit_row]]
    | solve [eexists; split; [right; right; right; left; reflexivity|fit_row]]
    | solve [eexists; split; [right; right; right; right; left; reflexivity|fit_row]]
    | idtac ].
Ltac place := split;
  [ first
    [ let H := fresh in intro H; exfalso; cbn in H; repeat (destruct H as [H|H]; [discriminate H|]); exact H
    | let H := fresh in intros _ ? H; cbv [attr_id nth_error app] in H;
      first [discriminate H|injection H as <-; assumption] ]
  | split; [draw|fit] ].

Ltac made :=
  eapply good_intro;
  [ reflexivity
  | rows; cbv [element spatial element_type elem_rest]; cbn [app]; repeat (constructor; [gval|]); constructor
  | place ].

Ltac facts :=
  repeat match goal with
  | H : True |- _ => clear H
  | H : _ /\ _ |- _ => destruct H
  | H : ex _ |- _ => destruct H
  | x : _ * _ |- _ => destruct x
  | H : ?x = _ |- _ => is_var x; subst x
  end; cbn [fst snd] in *.

Section Calls.
Variable K : N -> option kind.
Hypothesis HK : forall n k, K n = Some k -> n <= max_usize.
Variables sh up : bool.
Variable o : oracle.
Hypothesis Ho : sane o.
Hypothesis Hup : true = up.

Notation tr := (tr K sh up).
Notation good_ent := (good_ent K sh).
Notation gv := (gv K).
Notation "n 'is' k" := (K n = Some k) (at level 70).

Create HintDb good.
Ltac call := first [ solve [eauto with good] | apply tr_ins; solve [made] ].
Tactic Notation "bind" tactic3(t) := eapply tr_bind; [t|solve [st]|intro; solve [st]|intros; cbv beta in *; facts].
Ltac bindc := eapply tr_bind; [call|solve [st]|intro; solve [st]|intros; cbv beta in *; facts].

Lemma tr_guid : tr (fresh_guid o) (fun v => exists t, v = VGuid (o_guid o t)).
Proof. unfold fresh_guid. bind (apply tr_tick). apply tr_ret. eauto. Qed.
Lemma tr_now : tr (now o) (fun v => exists t, v = VInt (o_now o t)).
Proof. unfold now. bind (apply tr_tick). apply tr_ret. eauto. Qed.
Lemma tr_walk l : tr (walk o l) (fun l' => incl l' l).
Proof.
  unfold walk. bind (apply tr_tick). apply tr_ret. intros x Hx.
  eapply Permutation_in; [apply (proj1 Ho)|exact Hx].
Qed.
Hint Resolve tr_guid tr_now tr_walk : good.

Lemma hget_In {V} (l : list (N * V)) k v : hget N.eqb l k = Some v -> In (k, v) l.
Proof.
  induction l as [|[a b] l IH]; cbn [hget]; [discriminate|].
  destruct (N.eqb_spec a k); [|right; auto]. intro E. injection E as ->. subst. now left.
Qed.

Lemma tr_walk_pairs {A} (l : list (N * A)) : tr (walk_pairs o l) (fun l' => incl l' l).
Proof.
  unfold walk_pairs. bindc. apply tr_ret. intros [k v] Hx. apply in_flat_map in Hx as (k' & _ & Hx).
  destruct (hget N.eqb l k') eqn:E; [|contradiction]. apply hget_In in E.
  destruct Hx as [Hx|[]]. injection Hx as <- <-. auto.
Qed.
Hint Resolve tr_walk_pairs : good.

Lemma tr_root name : text_ok name = true ->
  tr (root o name) (fun l => exists t, l = [VGuid (o_guid o t); VOmit; VStr name; VOmit]).
Proof. intro Hn. unfold root. bindc. apply tr_ret. eauto. Qed.
Lemma tr_owned name : text_ok name = true ->
  tr (owned o name) (fun l => exists t w, l = [VGuid (o_guid o t); VId w; VStr name; VOmit] /\ w is KOwnerHistory).
Proof.
  intro Hn. unfold owned. bindc. bind (apply tr_get). apply tr_ret.
  match goal with H : inv _ _ _ _ |- _ => destruct H as (_ & _ & H); destruct (H (eq_sym Hup)) as [Hw _] end. eauto 6.
Qed.
Hint Resolve tr_root tr_owned : good.

Lemma tr_axis3d v : vec3_ok v = true -> tr (axis3d v) (fun l => exists n, l = [VId n; VOmit; VOmit] /\ n is KPoint3D).
Proof. intro Hv. unfold axis3d. bindc. apply tr_ret. eauto. Qed.
Hint Resolve tr_axis3d : good.

(** ** Attributes of objects that are looked up *)

Lemma loose_ne k : kind_eqb k KRelContainedInSpatialStructure = false -> loose sh k = false.
Proof. unfold loose. intros ->. apply andb_false_r. Qed.

Lemma good_attr k l r i t v :
  good_ent (Ent k l) -> kind_eqb k KRelContainedInSpatialStructure = false -> row_of k = Some r ->
  nth_error (row_fields r) i = Some t -> nth_error l i = Some v -> gv t v.
Proof.
  intros (r' & R1 & _ & R2 & _) Hk Hr Ht Hv. rewrite R1 in Hr. injection Hr as <-.
  eapply Forall2_nth; [apply R2, loose_ne, Hk|eassumption|assumption].
Qed.

Lemma good_id k l r i t n k' :
  good_ent (Ent k l) -> kind_eqb k KRelContainedInSpatialStructure = false -> row_of k = Some r ->
  nth_error (row_fields r) i = Some t -> refs t (VId n) = [([k'], n)] -> attr_id l i = Some n -> n is k'.
Proof.
  intros Hg Hk Hr Ht Hrf Ha. unfold attr_id in Ha. destruct (nth_error l i) as [v|] eqn:E; [|discriminate].
  destruct v; try discriminate. injection Ha as ->.
  destruct (good_attr _ _ _ _ _ _ Hg Hk Hr Ht E) as [_ H]. rewrite Hrf in H. inversion H; subst.
  destruct H2 as (k2 & H2 & [H4|[]]). cbn [fst snd] in *. now subst.
Qed.

Lemma good_ids k l r i t k' :
  good_ent (Ent k l) -> kind_eqb k KRelContainedInSpatialStructure = false -> row_of k = Some r ->
  nth_error (row_fields r) i = Some (TList t) -> (forall n, refs t (VId n) = [([k'], n)]) ->
  forall n, In n (attr_ids l i) -> n is k'.
Proof.
  intros Hg Hk Hr Ht Hrf n Hn. unfold attr_ids in Hn. destruct (nth_error l i) as [v|] eqn:E; [|contradiction].
  destruct v; try contradiction.
  destruct (good_attr _ _ _ _ _ _ Hg Hk Hr Ht E) as [_ H]. cbn [refs] in H.
  unfold val_ids in Hn. apply in_flat_map in Hn as (v & Hv & Hn). destruct v; try contradiction.
  destruct Hn as [<-|[]]. rewrite Forall_forall in H.
  destruct (H ([k'], n0)) as (k2 & H2 & [H4|[]]); [|cbn [fst snd] in *; now subst].
  apply in_flat_map. exists (VId n0). split; auto. rewrite Hrf. now left.
Qed.

Lemma good_place k l n : In k products -> good_ent (Ent k l) -> attr_id l 5 = Some n -> n is KLocalPlacement.
Proof. intros Hk (r & _ & _ & _ & H) Ha. exact (proj1 H Hk _ Ha). Qed.

Lemma good_shape k l n : In k products -> good_ent (Ent k l) -> attr_id l 6 = Some n -> n is KProductDefinitionShape.
Proof.
  intros Hk Hg. unfold products in Hk. cbn [In] in Hk.
  repeat (destruct Hk as [<-|Hk];
          [eapply good_id; [exact Hg|reflexivity|reflexivity|rows; reflexivity|reflexivity]|]).
  contradiction.
Qed.

(** ** Constructors *)

Lemma tr_new_relative l k n :
  In k products -> (exists q, l = [VId q; VOmit; VOmit] /\ q is KPoint3D) ->
  tr (new_relative l k n) (fun l' => exists r a, l' = [VId r; VId a] /\ r is KLocalPlacement /\ a is KAxis3D).
Proof.
  intros Hk (q & -> & Hq). unfold new_relative. bind (apply tr_fetch).
  bind (apply tr_need; intros a0 Ha; eapply good_place; [exact Hk|eassumption|exact Ha]).
  bindc. apply tr_ret. eauto 6.
Qed.

Definition shape_ok (l : list val) : Prop :=
  exists rs, l = [VOmit; VOmit; ids rs] /\ Forall (fun r => r is KShapeRepresentation) rs /\
    In (length rs) [1%nat; 2%nat].
Definition one_shape (l : list val) : Prop :=
  exists r, l = [VOmit; VOmit; ids [r]] /\ r is KShapeRepresentation.
Lemma one_shape_ok l : one_shape l -> shape_ok l.
Proof. intros (r & -> & Hr). exists [r]. split; auto. split; auto. now left. Qed.
Hint Resolve one_shape_ok : core good.

Lemma tr_extrude f dir d ctx :
  f is KRectangleProfileDef \/ f is KArbitraryClosedProfileDef -> vec3_ok dir = true -> f64_okb d = true ->
  ctx is KGeometricRepresentationSubContext -> tr (extrude f dir d ctx) one_shape.
Proof.
  intros Hf Hdir Hd Hc. unfold extrude, product_shape, shape_repr. bindc.
  bind (apply tr_ins; destruct Hf; made). bindc.
  apply tr_ret. exists a1. split; auto.
Qed.
Hint Resolve tr_extrude : good.

Lemma tr_rectangular a b c dir ctx :
  f64_okb a = true -> f64_okb b = true -> f64_okb c = true -> vec3_ok dir = true ->
  ctx is KGeometricRepresentationSubContext -> tr (rectangular_shape a b c dir ctx) one_shape.
Proof.
  intros. unfold rectangular_shape.
  assert (vec2_ok (fmul a f_half, fmul c f_half) = true) by (unfold vec2_ok; cbn [fst snd]; now rewrite !fmul_okb).
  bindc. bindc. bindc. apply tr_extrude; auto.
Qed.

Lemma gv_vecs2 coords : Forall (gv TVec2) coords ->
  exists ls, VList coords = VList (map VVec ls) /\ Forall (fun l => length l = 2%nat) ls.
Proof.
  intro H. assert (E : exists ls, coords = map VVec ls /\ Forall (fun l => length l = 2%nat) ls).
  { induction H as [|v l [Hv _] _ (ls & -> & F)]; [now exists []|]. cbn [wt] in Hv.
    destruct v as [| | | | | | |[|x [|y [|? ?]]]| | | | |]; try discriminate Hv. exists ([x; y] :: ls). auto. }
  destruct E as (ls & -> & F). eauto.
Qed.
Lemma gv_vecs3 coords : Forall (gv TVec3) coords ->
  exists ls, VList coords = VList (map VVec ls) /\ Forall (fun l => length l = 3%nat) ls.
Proof.
  intro H. assert (E : exists ls, coords = map VVec ls /\ Forall (fun l => length l = 3%nat) ls).
  { induction H as [|v l [Hv _] _ (ls & -> & F)]; [now exists []|]. cbn [wt] in Hv.
    destruct v as [| | | | | | |[|x [|y [|z [|? ?]]]]| | | | |]; try discriminate Hv. exists ([x; y; z] :: ls). auto. }
  destruct E as (ls & -> & F). eauto.
Qed.

Lemma tr_profile k coords :
  k = KPointList2D /\ Forall (gv TVec2) coords \/ k = KPointList3D /\ Forall (gv TVec3) coords ->
  tr (arbitrary_profile k coords) (fun n => n is KArbitraryClosedProfileDef).
Proof.
  intros H. unfold arbitrary_profile.
  eapply tr_bind; [apply tr_ins|solve [st]|intro; solve [st]|intros].
  { destruct H as [[-> H]|[-> H]];
      (eapply good_intro; [reflexivity|rows; constructor; [now apply gv_list|constructor; [gval|constructor]]|place]);
      (eexists; split; [left; reflexivity|]); (split; [|split; [reflexivity|exact I]]);
      [now apply gv_vecs2|now apply gv_vecs3]. }
  bind (apply tr_ins; destruct H as [[-> _]|[-> _]]; made). call.
Qed.

Lemma gvs_vec2 l : forallb vec2_ok l = true -> Forall (gv TVec2) (map vec_2 l).
Proof.
  intro H. rewrite Forall_map. rewrite forallb_forall in H. apply Forall_forall. intros. apply gv_vec2. auto.
Qed.
Lemma gvs_vec l : forallb vec3_ok l = true -> Forall (gv TVec3) (map vec l).
Proof.
  intro H. rewrite Forall_map. rewrite forallb_forall in H. apply Forall_forall. intros. apply gv_vec. auto.
Qed.

Lemma tr_horizontal l d ctx :
  forallb vec2_ok l = true -> f64_okb d = true -> ctx is KGeometricRepresentationSubContext ->
  tr (horizontal_shape l d ctx) one_shape.
Proof.
  intros. unfold horizontal_shape. bind (apply tr_profile; left; auto using gvs_vec2).
  apply tr_extrude; first [apply vnormalize_ok|auto].
Qed.
Lemma tr_vertical l d ctx :
  forallb vec2_ok l = true -> f64_okb d = true -> ctx is KGeometricRepresentationSubContext ->
  tr (vertical_shape l d ctx) one_shape.
Proof.
  intros Hl Hd Hc. unfold vertical_shape. bind (apply tr_profile; right; split; auto).
  - rewrite Forall_map. rewrite forallb_forall in Hl. apply Forall_forall. intros x Hx. apply gv_vec.
    specialize (Hl _ Hx). unfold vec2_ok in Hl. unfold vec3_ok. apply andb_true_iff in Hl as [-> ->]. reflexivity.
  - apply tr_extrude; first [apply vnormalize_ok|auto].
Qed.
Lemma tr_arbitrary l d dir ctx :
  forallb vec3_ok l = true -> f64_okb d = true -> ctx is KGeometricRepresentationSubContext ->
  tr (arbitrary_shape l d dir ctx) one_shape.
Proof.
  intros. unfold arbitrary_shape. bind (apply tr_profile; right; auto using gvs_vec).
  apply tr_extrude; first [apply vnormalize_ok|auto].
Qed.
Hint Resolve tr_rectangular tr_horizontal tr_vertical tr_arbitrary vnormalize_ok : good.

(** ** Materials *)

Lemma tr_material n : text_ok n = true -> tr (material n) (fun m => m is KMaterial).
Proof. intro. unfold material. call. Qed.
Hint Resolve tr_material : good.

Fixpoint noref (t : fty) : bool :=
  match t with
  | TRef _ c => negb c
  | TIdOr _ _ _ _ _ => false
  | TOpt t' => noref t'
  | TList t' => noref t'
  | _ => true
  end.
Lemma noref_refs t : forall v, noref t = true -> refs t v = [].
Proof.
  induction t as [| | | | | | | | | | | |ks [|]| |t IH|t IH]; intros v H; cbn [refs noref] in *;
    try discriminate; try (now destruct v); auto.
  destruct v; auto. induction l as [|x l IHl]; cbn [flat_map]; auto. now rewrite IH, IHl.
Qed.
Lemma gvs_noref fs l : forallb noref fs = true -> wts fs l = true -> Forall2 gv fs l.
Proof.
  intros Hn Hw. apply gvs_plain; auto. clear Hw. revert l. induction fs as [|f fs IH]; intros [|v l]; cbn [refs_list]; auto.
  cbn [forallb] in Hn. apply andb_true_iff in Hn as [H1 H2]. now rewrite noref_refs, IH.
Qed.

Lemma tr_material_layer n l :
  text_ok n = true -> wts (row_fields row_MaterialLayer) l = true ->
  tr (material_layer n l) (fun m => m is KMaterialLayer).
Proof.
  intros Hn Hl. unfold material_layer. bindc. apply tr_ins. rows_in Hl.
  destruct l as [|v l]; [discriminate|]. cbn [wts] in Hl. apply andb_true_iff in Hl as [_ Hl].
  eapply good_intro; [reflexivity|rows|place].
  cbn [set_at]. constructor; [gval|]. apply gvs_noref; auto.
Qed.
Lemma tr_layer_set l :
  Forall (fun n => n is KMaterialLayer) l -> tr (material_layer_set l) (fun n => n is KMaterialLayerSet).
Proof. intro H. unfold material_layer_set. call. Qed.
Lemma tr_usage s d e f :
  s is KMaterialLayerSet -> Nat.ltb d (length enum_LayerSetDirectionEnum) = true ->
  Nat.ltb e (length enum_DirectionSenseEnum) = true -> f64_okb f = true ->
  tr (material_layer_set_usage s d e f) (fun n => n is KMaterialLayerSetUsage).
Proof. intros. unfold material_layer_set_usage. call. Qed.
Lemma tr_constituent a b :
  text_ok a = true -> text_ok b = true -> tr (material_constituent a b) (fun n => n is KMaterialConstituent).
Proof. intros. unfold material_constituent. bindc. call. Qed.
Lemma tr_constituent_set l :
  Forall (fun n => n is KMaterialConstituent) l ->
  tr (material_constituent_set l) (fun n => n is KMaterialConstituentSet).
Proof. intro H. unfold material_constituent_set. call. Qed.

Lemma tr_thickness m : tr (thickness o m) (fun d => f64_okb d = true).
Proof.
  unfold thickness. bind (apply tr_fetch). bind (apply tr_need; intros ? Ha; exact I).
  bind (apply tr_fetch).
  bind (apply (tr_bmap K sh up _ _ (fun _ => True)); [intro; st|intros; bind (apply tr_fetch); apply tr_need; auto]).
  apply tr_ret. now apply fsum_okb.
Qed.
Hint Resolve tr_thickness : good.

Notation assoc_good := (fun x : akey * list val => good_ent (Ent KRelAssociatesMaterial (snd x)) /\ aok K x).

Lemma tr_put_assoc (f : proj -> list (akey * list val)) :
  (forall q, inv K sh up q -> Forall assoc_good (f q)) ->
  tr (q <-- bget ;; bput (set_assoc (f q) q)) (fun _ => True).
Proof.
  intros Hf p u p' H Hb Hi. unfold bbind, bget, bput in H. injection H as <- <-.
  split; auto. pose proof (Hf _ Hi) as Hf'. destruct Hi as (H1 & H2 & H3). split; auto. split; auto.
  intro E. destruct (H3 E) as (A1 & A2 & A3 & A4). cbn [set_assoc p_owner p_project p_assoc p_sites]. auto.
Qed.

Lemma hget_akey {V} (l : list (akey * V)) k v : hget akey_eqb l k = Some v -> In (k, v) l.
Proof.
  induction l as [|[[[a t] m] x] l IH]; cbn [hget]; [discriminate|]. destruct (akey_eqb (a, t, m) k) eqn:E; [|right; auto].
  intro H. injection H as ->. left. destruct k as [[a' t'] m']. unfold akey_eqb in E. cbn [fst snd] in E.
  apply andb_true_iff in E as [E E3]. apply andb_true_iff in E as [E1 E2]. apply N.eqb_eq in E3. subst m'.
  apply eqb_prop in E2. subst t'. destruct a, a'; first [reflexivity|discriminate E1].
Qed.
Lemma hset_Forall {A V} (eqb : A -> A -> bool) (l : list (A * V)) k v (P : A * V -> Prop) :
  Forall P l -> P (k, v) -> Forall P (hset eqb l k v).
Proof.
  intros H Hv. induction H as [|[a b] l Ha H IH]; cbn [hset]; [auto|].
  destruct (eqb a k); constructor; auto.
Qed.

Definition material_kinds : list kind := [KMaterialConstituentSet; KMaterialLayerSetUsage; KMaterialLayerSet; KMaterial].

Lemma aok_push key rel n : aok K (key, rel) -> n is acls_kind (fst (fst key)) (snd (fst key)) ->
  aok K (key, push_at 4 n rel).
Proof.
  intros (w & Hw & F) Hn. exists w. split; [exact Hw|]. cbn [fst snd] in *. revert F. 
  generalize (acls_kind (fst (fst key)) (snd (fst key))) as k, Hn. clear. intros k Hn F.
  destruct rel as [|v0 [|v1 [|v2 [|v3 [|v4 [|v5 [|? ?]]]]]]]; cbn [assoc_row is_relation app map loosen fits_all fits fst snd] in F;
    try tauto.
  destruct F as (F0 & F1 & F2 & F3 & (ns & -> & F4) & F5 & _).
  cbn [push_at nth_error set_at assoc_row is_relation app map loosen fits_all fits fst snd].
  split; [exact F0|]. split; [exact F1|]. split; [exact F2|]. split; [exact F3|]. split; [|split; [exact F5|exact I]].
  exists (ns ++ [n]). split; [now rewrite map_app|]. apply Forall_app. split; [exact F4|].
  constructor; [|constructor]. exists k. split; [exact Hn|now left].
Qed.

Lemma aok_tmpl x : aok K x -> tmpl K KRelAssociatesMaterial (snd x).
Proof. intros (w & Hw & F). eexists. split; [|exact F]. cbn [template]. now apply in_map. Qed.

Lemma good_push key rel n : assoc_good (key, rel) -> n is acls_kind (fst (fst key)) (snd (fst key)) ->
  assoc_good (key, push_at 4 n rel).
Proof.
  intros ((r & R1 & R2 & R3 & R4) & HA) Hn. pose proof (aok_push _ _ _ HA Hn) as HA'. split; [|exact HA']. cbn [snd] in *.
  assert (Hl : loose sh KRelAssociatesMaterial = false) by now apply loose_ne.
  specialize (R3 Hl). injection R1 as <-. eapply good_intro; [reflexivity| |].
  2:{ split; [|split; [exact I|apply (aok_tmpl _ HA')]]. intro H. exfalso. cbn in H.
      repeat (destruct H as [H|H]; [discriminate H|]). exact H. }
  cbv [row_fields] in *. change (Forall2 gv (row_fields row_RelAssociatesMaterial) rel) in R3. rows_in R3.
  change (Forall2 gv (row_fields row_RelAssociatesMaterial) (push_at 4 n rel)). rows. clear HA HA' R4.
  repeat match goal with
  | H : Forall2 _ (_ :: _) _ |- _ => inversion H; clear H; subst
  | H : Forall2 _ [] _ |- _ => inversion H; clear H; subst
  end.
  unfold push_at. cbn [nth_error]. destruct y3; try solve [repeat (constructor; [assumption|]); constructor].
  cbn [set_at]. do 4 (constructor; [assumption|]). constructor; [|constructor; [assumption|constructor]].
  match goal with H : gv (TList _) (VList l) |- _ => destruct H as [W R] end. cbn [wt refs] in *. split; cbn [wt refs].
  - rewrite forallb_app, W. cbn [forallb wt]. rewrite andb_true_r. apply N.leb_le. eauto.
  - rewrite flat_map_app. apply Forall_app. split; auto. constructor.
Qed.

(** The classes that are associated with materials. *)
Definition with_material (c : cls) (t : bool) : bool :=
  match c, t with CSpace, _ | CWindow, true => false | _, _ => true end.

Lemma material_word c t : with_material c t = true ->
  exists w, In (acls_kind c t, w) material_words /\ lit w = assoc_suffix c t.
Proof.
  intro H. destruct c, t; try discriminate H; eexists; (split; [unfold material_words; cbn [acls_kind kind_of_cls type_kind]; member|reflexivity]).
Qed.

Lemma material_kind c t : In (material_of (acls_kind c t)) material_kinds.
Proof. destruct c, t; cbn [acls_kind kind_of_cls type_kind material_of]; member. Qed.

Lemma tr_associate c t m n :
  with_material c t = true -> n is acls_kind c t -> m is material_of (acls_kind c t) ->
  tr (associate o c t m n) (fun _ => True).
Proof.
  intros Hc Hn Hm. pose proof (material_kind c t) as Hkm. unfold associate.
  eapply tr_bind; [apply tr_get|solve [st]| |].
  { intro. apply steps_bind; [pre|solve [st]|intro]. apply (st_put_assoc (R := grow anything)). }
  intros p0 H.
  match goal with |- context [hget akey_eqb ?l ?x] => destruct (hget akey_eqb l x) as [rel|] eqn:E end.
  - eapply (tr_bind K sh up _ _ (fun r => assoc_good (c, t, m, r))).
    + apply tr_ret. destruct H as (_ & _ & H). destruct (H (eq_sym Hup)) as (_ & _ & HA & _).
      rewrite Forall_forall in HA. apply HA. now apply hget_akey.
    + st.
    + intro. apply (st_put_assoc (R := grow anything)).
    + intros rel' Hrel. apply tr_put_assoc. intros q Hq. destruct Hq as (_ & _ & Hq).
      destruct (Hq (eq_sym Hup)) as (_ & _ & HA & _). apply hset_Forall; auto. eapply good_push; eauto.
  - eapply (tr_bind K sh up _ _ (fun r => assoc_good (c, t, m, r))).
    + assert (Ht : text_ok (lit "Material" ++ show_N m ++ assoc_suffix c t) = true)
        by (rewrite !text_ok_app, text_ok_show; destruct c, t; reflexivity).
      bindc.
      apply tr_ret.
      match goal with |- context [ [VGuid ?g; VId ?w; ?nm; VOmit] ] =>
        assert (HA : aok K (c, t, m, [VGuid g; VId w; nm; VOmit; VList []; VId m])) end.
      { destruct (material_word c t Hc) as (wd & Hw & Es). exists wd. cbn [fst snd]. split; [exact Hw|].
        cbn [assoc_row is_relation app map loosen fits_all fits fst snd nth_error].
        split; [eauto|]. split; [eauto|]. split; [exists m; split; [reflexivity|now rewrite Es]|]. split; [reflexivity|].
        split; [now exists []|]. split; [eauto|exact I]. }
      split; [|exact HA]. eapply good_intro; [reflexivity|rows|].
      2:{ split; [|split; [exact I|apply (aok_tmpl _ HA)]]. intro H'. exfalso. cbn in H'.
          repeat (destruct H' as [H'|H']; [discriminate H'|]). exact H'. }
      cbn [app snd]. do 5 (constructor; [gval|]). constructor; [eapply gv_ref; eauto|constructor].
    + st.
    + intro. apply (st_put_assoc (R := grow anything)).
    + intros rel' Hrel. apply tr_put_assoc. intros q Hq. destruct Hq as (_ & _ & Hq).
      destruct (Hq (eq_sym Hup)) as (_ & _ & HA & _). apply hset_Forall; auto. eapply good_push; eauto.
Qed.

Lemma tr_host_thickness c n : tr (host_thickness o c n) (fun d => f64_okb d = true).
Proof.
  unfold host_thickness. bind (apply tr_get). bindc. bind (apply tr_need; intros; exact I). call.
Qed.
Hint Resolve tr_host_thickness : good.

(** ** Storeys *)

(** The tables of a storey name objects of the kinds they are for. *)
Definition sgood (st : storey) : Prop :=
  s_id st is KStorey /\ s_ctx st is KGeometricRepresentationSubContext /\
  Forall (fun x => snd x is kind_of_cls (fst x) /\ (sh = false -> fst x <> CShading)) (s_elems st) /\
  Forall (fun x => snd (fst x) is type_kind (fst (fst x)) /\
                   Forall (fun n => n is kind_of_cls (fst (fst x))) (snd x)) (s_types st) /\
  Forall (fun x => fst x is KOpeningElement /\ snd x is KWall) (s_voids_wall st) /\
  Forall (fun x => fst x is KOpeningElement /\ snd x is KSlab) (s_voids_slab st) /\
  Forall (fun x => fst x is KOpeningElement /\ snd x is KWindow) (s_fills st).

Lemma sgood_elem c n st :
  sgood st -> n is kind_of_cls c -> (sh = false -> c <> CShading) -> sgood (add_elem c n st).
Proof.
  intros (H1 & H2 & H3 & H4) Hn Hc. unfold add_elem. split; auto. split; auto. split; auto. cbn [s_elems].
  destruct (existsb _ _); auto. apply Forall_app. split; auto.
Qed.
Lemma set_add_Forall (P : N -> Prop) l n : Forall P l -> P n -> Forall P (set_add l n).
Proof. intros H1 H2. unfold set_add. destruct (existsb _ _); auto. apply Forall_app. auto. Qed.
Lemma sgood_types l st : sgood st ->
  Forall (fun x => snd (fst x) is type_kind (fst (fst x)) /\
                   Forall (fun n => n is kind_of_cls (fst (fst x))) (snd x)) l -> sgood (set_types l st).
Proof. intros (H1 & H2 & H3 & H4 & H5) Hl. unfold sgood, set_types. cbn [s_id s_ctx s_elems s_types s_voids_wall s_voids_slab s_fills]. tauto. Qed.
Lemma sgood_entry c t st : sgood st -> t is type_kind c -> sgood (type_entry c t st).
Proof.
  intros H Ht. unfold type_entry. destruct (hget _ _ _); auto. apply sgood_types; auto.
  apply hset_Forall; [apply H|cbn [fst snd]; auto].
Qed.
Lemma sgood_reset c t st : sgood st -> t is type_kind c -> sgood (type_reset c t st).
Proof.
  intros H Ht. apply sgood_types; auto. apply hset_Forall; [apply H|cbn [fst snd]; auto].
Qed.
Lemma hget_tkey {V} (l : list (cls * N * V)) k v : hget tkey_eqb l k = Some v -> In (k, v) l.
Proof.
  induction l as [|[[a b] x] l IH]; cbn [hget]; [discriminate|].
  destruct (tkey_eqb (a, b) k) eqn:E; [|right; auto]. intro E'. injection E' as ->. left.
  destruct k as [a' b']. unfold tkey_eqb in E. cbn [fst snd] in E. apply andb_true_iff in E as [E1 E2].
  apply N.eqb_eq in E2. subst. f_equal. f_equal. destruct a, a'; auto; discriminate.
Qed.
Lemma sgood_push c t n st : sgood st -> t is type_kind c -> n is kind_of_cls c -> sgood (type_push c t n st).
Proof.
  intros H Ht Hn. apply sgood_types; auto. apply hset_Forall; [apply H|]. cbn [fst snd]. split; auto.
  apply set_add_Forall; auto. destruct (hget _ _ _) eqn:E; auto. apply hget_tkey in E.
  destruct H as (_ & _ & _ & H & _). rewrite Forall_forall in H. apply (H _ E).
Qed.
Lemma sgood_void (h : host) n st :
  sgood st -> n is KOpeningElement -> h_id h is host_kind h -> sgood (add_void (h_slab h) n (h_id h) st).
Proof.
  intros (H1 & H2 & H3 & H4 & H5 & H6 & H7) Hn Hh. unfold host_kind, host_cls in Hh. unfold add_void, sgood.
  destruct (h_slab h); cbn [s_id s_ctx s_elems s_types s_voids_wall s_voids_slab s_fills];
    repeat (split; auto); apply hset_Forall; auto.
Qed.
Lemma sgood_fill w n st : sgood st -> n is KOpeningElement -> w is KWindow -> sgood (add_fill n w st).
Proof.
  intros (H1 & H2 & H3 & H4 & H5 & H6 & H7) Hn Hw. unfold add_fill, sgood.
  cbn [s_id s_ctx s_elems s_types s_voids_wall s_voids_slab s_fills].
  repeat (split; auto). apply hset_Forall; auto.
Qed.

(** ** Types *)

Lemma tr_new_type c m name i st :
  c <> CWindow -> c <> CSpace -> text_ok name = true -> Nat.ltb i (type_variants c) = true ->
  m is KMaterialLayerSet -> sgood st ->
  tr (new_type o c m name i st) (fun r => fst r is type_kind c /\ sgood (snd r)).
Proof.
  intros Hc1 Hc2 Hn Hi Hm Hs. unfold new_type. bindc.
  bind (apply tr_ins; destruct c; try contradiction; cbn [type_kind type_variants] in *; made).
  bind (eapply tr_associate; [destruct c; first [reflexivity|contradiction]|eassumption|destruct c; first [exact Hm|contradiction]]).
  apply tr_ret. cbn [fst snd]. split; auto. destruct c; auto using sgood_entry, sgood_reset.
Qed.

Lemma tr_window_type name i j st :
  text_ok name = true -> Nat.ltb i (type_variants CWindow) = true ->
  Nat.ltb j (length enum_WindowPartitioningTypeEnum) = true -> sgood st ->
  tr (new_window_type o name i j st) (fun r => fst r is KWindowType /\ sgood (snd r)).
Proof.
  intros Hn Hi Hj Hs. cbn [type_variants] in Hi. unfold new_window_type. bindc. bindc. apply tr_ret. cbn [fst snd].
  auto using sgood_reset.
Qed.
Lemma tr_space_type name i st :
  text_ok name = true -> Nat.ltb i (type_variants CSpace) = true -> sgood st ->
  tr (new_space_type o name i st) (fun r => fst r is KSpaceType /\ sgood (snd r)).
Proof.
  intros Hn Hi Hs. cbn [type_variants] in Hi. unfold new_space_type. bindc. bindc. apply tr_ret. cbn [fst snd].
  auto using sgood_reset.
Qed.

(** ** Elements *)

Lemma tr_axis_repr v ctx :
  vec3_ok v = true -> ctx is KGeometricRepresentationSubContext ->
  tr (axis_repr v ctx) (fun l => good_ent (Ent KShapeRepresentation l)).
Proof.
  intros Hv Hc. unfold axis_repr, shape_repr. bindc. bindc. bindc. apply tr_ret. made.
Qed.
Lemma tr_add_repr r l :
  good_ent (Ent KShapeRepresentation r) -> one_shape l -> tr (add_representation r l) shape_ok.
Proof.
  intros Hr (r0 & -> & Hrs). unfold add_representation. bind (apply tr_ins; exact Hr). apply tr_ret.
  exists [r0; a]. split; [reflexivity|]. split; [auto|now right; left].
Qed.
Hint Resolve tr_axis_repr tr_add_repr : good.

Ltac oks := repeat match goal with H : _ && _ = true |- _ => apply andb_true_iff in H as [? ?] end.

Lemma tr_wall_body m s ctx :
  wall_shape_ok s = true -> ctx is KGeometricRepresentationSubContext -> tr (wall_body o m s ctx) shape_ok.
Proof.
  intros Hs Hc. unfold wall_body. bindc.
  destruct s; cbn [wall_shape_ok] in Hs; oks; bind (apply tr_axis_repr; [vecs|assumption]).
  - bind (apply tr_rectangular; first [assumption|vecs]). call.
  - bindc. call.
  - bindc. call.
Qed.
Lemma tr_slab_body m s ctx :
  slab_shape_ok s = true -> ctx is KGeometricRepresentationSubContext -> tr (slab_body o m s ctx) one_shape.
Proof.
  intros Hs Hc. unfold slab_body. bindc.
  destruct s; cbn [slab_shape_ok] in Hs; oks; [call| |call].
  apply tr_arbitrary; auto. cbn [forallb]. rewrite !vextend_ok; auto.
Qed.
Hint Resolve tr_wall_body tr_slab_body : good.

Lemma tr_place_element c m ty name position shape st :
  c <> CWindow -> c <> CSpace -> text_ok name = true -> m is KMaterialLayerSetUsage -> ty is type_kind c ->
  (exists q, position = [VId q; VOmit; VOmit] /\ q is KPoint3D) -> shape_ok shape -> sgood st ->
  (sh = false -> c <> CShading) ->
  tr (place_element o c m ty name position shape st) (fun r => fst r is kind_of_cls c /\ sgood (snd r)).
Proof.
  intros Hc1 Hc2 Hn Hm Hty Hp (rs & -> & Hrs & Hlen) Hs Hc. unfold place_element.
  bind (apply tr_new_relative; [member|assumption]). bindc. bindc. bindc.
  bind (apply tr_ins; destruct c; try contradiction; cbn [kind_of_cls]; made).
  bind (eapply tr_associate; [destruct c; first [reflexivity|contradiction]|eassumption|destruct c; first [exact Hm|contradiction]]).
  apply tr_ret. cbn [fst snd]. split; auto. apply sgood_push; auto. apply sgood_elem; auto.
Qed.

Lemma ctx_of st : sgood st -> s_ctx st is KGeometricRepresentationSubContext.
Proof. now intros (_ & H & _). Qed.
Hint Resolve ctx_of : good.

Lemma tr_new_wall m ty name s place st :
  text_ok name = true -> wall_shape_ok s = true -> vec3_ok place = true ->
  m is KMaterialLayerSetUsage -> ty is KWallType -> sgood st ->
  tr (new_wall o m ty name s place st) (fun r => fst r is KWall /\ sgood (snd r)).
Proof.
  intros. unfold new_wall. bindc. bind (apply tr_axis3d; assumption).
  apply (tr_place_element CWall); eauto; discriminate.
Qed.
Lemma tr_new_slab m ty name s place st :
  text_ok name = true -> slab_shape_ok s = true -> vec3_ok place = true ->
  m is KMaterialLayerSetUsage -> ty is KSlabType -> sgood st ->
  tr (new_slab o m ty name s place st) (fun r => fst r is KSlab /\ sgood (snd r)).
Proof.
  intros. unfold new_slab. bindc. bind (apply tr_axis3d; assumption).
  apply (tr_place_element CSlab); eauto; discriminate.
Qed.
Lemma tr_new_roof m ty name s place st :
  text_ok name = true -> forallb vec2_ok s = true -> vec3_ok place = true ->
  m is KMaterialLayerSetUsage -> ty is KRoofType -> sgood st ->
  tr (new_roof o m ty name s place st) (fun r => fst r is KRoof /\ sgood (snd r)).
Proof.
  intros. unfold new_roof. bindc. bindc. bind (apply tr_axis3d; assumption).
  apply (tr_place_element CRoof); eauto; discriminate.
Qed.
Lemma tr_new_shading m ty name a b place st :
  text_ok name = true -> f64_okb a = true -> f64_okb b = true -> vec3_ok place = true ->
  m is KMaterialLayerSetUsage -> ty is KShadingDeviceType -> sgood st -> sh = true ->
  tr (new_shading o m ty name a b place st) (fun r => fst r is KShadingDevice /\ sgood (snd r)).
Proof.
  intros. unfold new_shading. bindc. bind (apply tr_rectangular; first [assumption|vecs|call]).
  bind (apply tr_axis3d; assumption).
  apply (tr_place_element CShading); eauto; congruence.
Qed.
Lemma tr_new_space ty name s h place st :
  text_ok name = true -> forallb vec2_ok s = true -> f64_okb h = true -> vec3_ok place = true ->
  ty is KSpaceType -> sgood st ->
  tr (new_space o ty name s h place st) (fun r => fst r is KSpace /\ sgood (snd r)).
Proof.
  intros. unfold new_space. bind (apply tr_horizontal; auto with good). bind (apply tr_axis3d; assumption).
  bind (apply tr_new_relative; [member|eauto]). bindc. bindc.
  match goal with H : one_shape _ |- _ => apply one_shape_ok in H as (rs & -> & Hrs & Hlen) end.
  bindc. bindc. apply tr_ret. cbn [fst snd]. split; auto. apply sgood_push; auto. apply sgood_elem; auto. discriminate.
Qed.

(** ** Openings and windows *)

Definition hgood (h : host) : Prop :=
  h_id h is host_kind h /\ match h_tr h with Some t => tparam_ok t = true | None => True end.

Lemma host_product h : In (host_kind h) products.
Proof. unfold host_kind, host_cls. destruct (h_slab h); cbn [kind_of_cls]; member. Qed.

Lemma tr_place_opening h name position shape st :
  hgood h -> text_ok name = true -> (exists q, position = [VId q; VOmit; VOmit] /\ q is KPoint3D) ->
  shape_ok shape -> sgood st ->
  tr (place_opening o h name position shape st) (fun r => fst r is KOpeningElement /\ sgood (snd r)).
Proof.
  intros [Hh _] Hn Hp (rs & -> & Hrs & Hlen) Hs. unfold place_opening.
  bind (apply tr_new_relative; [apply host_product|assumption]). bindc. bindc. bindc. bindc.
  apply tr_ret. cbn [fst snd]. auto using sgood_void.
Qed.

Lemma tr_wall_opening h name a b place dir st :
  hgood h -> text_ok name = true -> f64_okb a = true -> f64_okb b = true -> vec3_ok place = true -> sgood st ->
  tr (wall_opening o h name a b place dir st) (fun r => fst r is KOpeningElement /\ sgood (snd r)).
Proof.
  intros. unfold wall_opening. bindc. bindc. bind (apply tr_rectangular; first [assumption|vecs|call]).
  apply tr_place_opening; eauto.
Qed.

Lemma tr_shapes k l :
  In k products -> good_ent (Ent k l) ->
  tr (shapes l) (Forall (fun d => good_ent (Ent KShapeRepresentation d))).
Proof.
  intros Hk Hg. unfold shapes. destruct (attr_id l 6) as [n|] eqn:E; [|now apply tr_ret].
  bind (apply tr_fetch). apply tr_bmap; [intro; st|]. intros r Hr.
  eapply tr_weaken; [apply tr_fetch|]. cbv beta. tauto.
Qed.

Lemma tr_solid_direction l :
  good_ent (Ent KExtrudedAreaSolid l) -> tr (solid_direction l) (fun v => vec3_ok v = true).
Proof.
  intro Hg. unfold solid_direction. bind (apply tr_need; intros; exact I). bind (apply tr_fetch).
  repeat match goal with |- tr (match ?w with _ => _ end) _ => destruct w; try apply tr_panic end.
  apply tr_ret.
  match goal with H : good_ent (Ent KDirection3D _) |- _ =>
    pose proof (good_attr _ _ _ 0 TVec3 _ H eq_refl eq_refl eq_refl eq_refl) as [W _] end.
  exact W.
Qed.

Lemma tr_product_direction k l :
  In k products -> good_ent (Ent k l) ->
  tr (product_direction l) (fun r => forall v, r = Some v -> vec3_ok v = true).
Proof.
  intros Hk Hg. unfold product_direction.
  eapply tr_bind; [eapply tr_shapes; eassumption|solve [st]|intro; solve [st]|]. intros ss Hss. cbv beta in Hss.
  rewrite Forall_forall in Hss. apply tr_bfind; [intro; solve [st]|]. intros s Hs.
  apply tr_bfind; [intro; solve [st]|]. intros i Hi.
  eapply tr_bind; [apply tr_fetch_any|solve [st]|intro; solve [st]|]. cbv beta. intros [k' x|?] [He _].
  2: apply tr_ret; intros; discriminate.
  destruct k'; try (apply tr_ret; intros; discriminate).
  - bind (apply tr_solid_direction; assumption). apply tr_ret. intros v E. injection E as <-. assumption.
  - bind (apply tr_need; intros; exact I). bind (apply tr_fetch).
    bind (apply tr_need; intros; exact I). bind (apply tr_fetch).
    apply tr_bfind; [intro; solve [st]|]. intros j Hj.
    eapply tr_bind; [apply tr_fetch_any|solve [st]|intro; solve [st]|]. cbv beta. intros [k' y|?] [He' _].
    2: apply tr_ret; intros; discriminate.
    destruct k'; try (apply tr_ret; intros; discriminate).
    bind (apply tr_solid_direction; assumption). apply tr_ret. intros v E. injection E as <-. assumption.
Qed.

Lemma tr_slab_direction n : tr (slab_direction n) (fun v => vec3_ok v = true).
Proof.
  unfold slab_direction. bind (apply tr_fetch). 
  eapply tr_bind; [eapply (tr_product_direction KSlab); [member|eassumption]|solve [st]|intro; solve [st]|].
  intros d Hd. apply tr_need. auto.
Qed.
Hint Resolve tr_slab_direction : good.

Lemma tr_slab_filling h s ctx :
  opening_shape_ok s = true -> ctx is KGeometricRepresentationSubContext -> tr (slab_filling o h s ctx) one_shape.
Proof.
  intros Hs Hc. unfold slab_filling. bindc. destruct s; cbn [opening_shape_ok] in Hs; oks.
  - bindc. call.
  - call.
  - bindc. call.
Qed.
Hint Resolve tr_slab_filling : good.

Lemma opening_place_ok s : opening_shape_ok s = true -> vec3_ok (opening_place s) = true.
Proof. destruct s; cbn [opening_shape_ok opening_place]; intro; oks; auto. Qed.

Lemma tr_slab_opening h name s st :
  hgood h -> text_ok name = true -> opening_shape_ok s = true -> sgood st ->
  tr (slab_opening o h name s st) (fun r => fst r is KOpeningElement /\ sgood (snd r)).
Proof.
  intros. unfold slab_opening. bindc. bind (apply tr_axis3d; auto using opening_place_ok).
  apply tr_place_opening; eauto.
Qed.

Lemma tr_place_window m ty n name shape st :
  text_ok name = true -> m is KMaterialConstituentSet -> ty is KWindowType -> n is KOpeningElement ->
  shape_ok shape -> sgood st ->
  tr (place_window o m ty n name shape st) (fun r => fst r is KWindow /\ sgood (snd r)).
Proof.
  intros Hn Hm Hty Ho' (rs & -> & Hrs & Hlen) Hs. unfold place_window. bind (apply tr_axis3d; vecs).
  bind (apply tr_new_relative; [member|eauto]). bindc. bindc. bindc. bindc.
  bind (eapply tr_associate; [reflexivity|eassumption|exact Hm]).
  apply tr_ret. cbn [fst snd]. split; auto. apply sgood_push; auto. apply sgood_fill; auto.
  apply sgood_elem; auto. discriminate.
Qed.

Lemma window_name_ok name : text_ok name = true -> text_ok (window_opening_name name) = true.
Proof. intro H. unfold window_opening_name. now rewrite text_ok_app, H. Qed.

Lemma tr_wall_window h m ty name a b place dir st :
  hgood h -> text_ok name = true -> f64_okb a = true -> f64_okb b = true -> vec3_ok place = true ->
  vec3_ok dir = true -> m is KMaterialConstituentSet -> ty is KWindowType -> sgood st ->
  tr (wall_window o h m ty name a b place dir st)
     (fun r => fst (fst r) is KOpeningElement /\ snd (fst r) is KWindow /\ sgood (snd r)).
Proof.
  intros. unfold wall_window. bind (apply tr_wall_opening; auto using window_name_ok).
  bindc. bind (apply tr_rectangular; first [assumption|vecs|call]).
  bind (apply tr_place_window; auto). apply tr_ret. cbn [fst snd]. auto.
Qed.
Lemma tr_slab_window h m ty name s st :
  hgood h -> text_ok name = true -> opening_shape_ok s = true ->
  m is KMaterialConstituentSet -> ty is KWindowType -> sgood st ->
  tr (slab_window o h m ty name s st)
     (fun r => fst (fst r) is KOpeningElement /\ snd (fst r) is KWindow /\ sgood (snd r)).
Proof.
  intros. unfold slab_window. bind (apply tr_slab_opening; auto using window_name_ok).
  bindc. bind (apply tr_place_window; auto). apply tr_ret. cbn [fst snd]. auto.
Qed.
End Calls.
