(** Calls of the builder at a state that a program has reached: the objects they look up
    are there and have the attributes they need. *)

From Coq Require Import String Ascii List NArith ZArith Bool Lia Permutation.
From Coq Require Import ZifyBool ZifyNat ZifyN.
From Verif Require Import Base Prims PrimsFacts Float Kind Types WellTyped TypesFacts Schema Entity
  EntityFacts DataMap DataSpec DataMapFacts Extractor Arith ArithFacts Builder BuilderRun BuilderBase
  BuilderGrow BuilderAny BuilderSpec BuilderRel2 BuilderInv BuilderLoadSpec TemplateSpec BuilderGood BuilderGood2 BuilderGood3
  BuilderLoad MoveSpec FormSpec BuilderForm BuilderSafe.
Import ListNotations.
Open Scope N_scope.
Open Scope builder_scope.

Section Reached.
Variable o : oracle.
Hypothesis Ho : sane o.
Variable sh : bool.
Variable p0 : proj.
Let K := kinds (p_map p0).
Hypothesis I0 : inv K sh true p0.
Notation "n 'is' k" := (K n = Some k) (at level 70).

(** The state before the call with new objects. *)
Definition at0 (p : proj) : Prop :=
  dense (p_map p) /\ (exists new, p_map p = p_map p0 ++ new) /\ frame p0 p.

Lemma stable_at0 : stable at0.
Proof.
  split; [intros p H; apply H|]. intros p p' (D & (n1 & E1) & F) D' (n2 & E2) F'.
  split; auto. split; [exists (n1 ++ n2); now rewrite E2, E1, app_assoc|]. eapply pre_trans; eauto.
Qed.

Lemma at0_start : at0 p0.
Proof. split; [apply I0|]. split; [exists []; now rewrite app_nil_r|]. split; reflexivity. Qed.

Lemma at0_lookup p n e : at0 p -> lookup (p_map p0) n = Some e -> lookup (p_map p) n = Some e.
Proof. intros (_ & (new & ->) & _) H. now rewrite lookup_app, H. Qed.

Lemma old n k : n is k -> exists l, lookup (p_map p0) n = Some (Ent k l) /\ good_ent K sh (Ent k l).
Proof.
  intro H. apply kinds_some in H as (e & L & E). destruct I0 as (_ & G & _). pose proof (G _ _ L) as H.
  destruct e as [k' l|]; [|destruct H]. cbn [kind_of] in E. subst k'. eauto.
Qed.

Lemma old_at p n k : at0 p -> n is k -> exists l, lookup (p_map p) n = Some (Ent k l) /\ good_ent K sh (Ent k l).
Proof. intros Hp H. destruct (old _ _ H) as (l & L & G). exists l. split; auto. now apply at0_lookup. Qed.

(** ** Attributes of good objects *)

Ltac row_of_good H :=
  let r := fresh "r" in let row := fresh "row" in let Hr := fresh "Hr" in let F := fresh "F" in
  destruct H as (r & _ & _ & _ & _ & _ & row & Hr & F); cbn [template map material_words] in Hr.

Definition places : list kind := [KSite; KBuilding; KStorey; KWall; KSlab; KOpeningElement].

Lemma good_placed k l : In k places -> good_ent K sh (Ent k l) ->
  exists q, attr_id l 5 = Some q /\ q is KLocalPlacement.
Proof.
  intros Hk H. row_of_good H. unfold places in Hk. cbn [In] in Hk.
  repeat (destruct Hk as [<-|Hk]; [cbn [template In] in Hr; destruct Hr as [<-|[]];
    cbn [is_shown is_placed is_owned app map loosen] in F;
    destruct l as [|v0 [|v1 [|v2 [|v3 [|v4 [|v5 l]]]]]]; cbn [fits_all fits] in F; try tauto;
    destruct F as (_ & _ & _ & _ & _ & (q & -> & Hq) & _); now exists q|]).
  destruct Hk.
Qed.

Lemma good_shown k l : In k transformable -> good_ent K sh (Ent k l) ->
  exists q, attr_id l 6 = Some q /\ q is KProductDefinitionShape.
Proof.
  intros Hk H. row_of_good H. unfold transformable in Hk. cbn [In] in Hk.
  repeat (destruct Hk as [<-|Hk]; [cbn [template In] in Hr; try contradiction; destruct Hr as [<-|[]];
    cbn [is_shown is_placed is_owned app map loosen] in F;
    destruct l as [|v0 [|v1 [|v2 [|v3 [|v4 [|v5 [|v6 l]]]]]]]; cbn [fits_all fits] in F; try tauto;
    destruct F as (_ & _ & _ & _ & _ & _ & (q & -> & Hq) & _); now exists q|]).
  destruct Hk.
Qed.

Lemma ids_of_map ns : val_ids (map VId ns) = ns.
Proof. unfold val_ids. induction ns; cbn [map flat_map app]; congruence. Qed.

Lemma good_usage l : good_ent K sh (Ent KMaterialLayerSetUsage l) -> exists s, attr_id l 0 = Some s /\ s is KMaterialLayerSet.
Proof.
  intro H. row_of_good H. destruct Hr as [<-|[]]. destruct l as [|v0 l]; cbn [map loosen fits_all fits] in F; [tauto|].
  destruct F as ((q & -> & Hq) & _). now exists q.
Qed.

Lemma good_layers l : good_ent K sh (Ent KMaterialLayerSet l) -> forall n, In n (attr_ids l 0) -> n is KMaterialLayer.
Proof.
  intro H. row_of_good H. destruct Hr as [<-|[]]. destruct l as [|v0 l]; cbn [map loosen fits_all fits] in F; [tauto|].
  destruct F as ((ns & -> & Hn) & _). unfold attr_ids. cbn [nth_error]. rewrite ids_of_map.
  rewrite Forall_forall in Hn. intros n Hi. destruct (Hn n Hi) as (k & Hk & [<-|[]]). exact Hk.
Qed.

Lemma good_thick l : good_ent K sh (Ent KMaterialLayer l) -> exists d, layer_thickness l = Some d.
Proof.
  intros (r & R & W & _). injection R as <-. cbn [row_fields row_MaterialLayer] in W.
  destruct l as [|v0 [|v1 l]]; try discriminate W; cbn [wts] in W; [now rewrite andb_false_r in W|].
  apply andb_true_iff in W as [_ W]. apply andb_true_iff in W as [W _]. unfold layer_thickness. cbn [nth_error].
  destruct v1; try discriminate W. eauto.
Qed.

Lemma good_placement l : good_ent K sh (Ent KLocalPlacement l) -> exists a, attr_id l 1 = Some a /\ a is KAxis3D.
Proof.
  intro H. row_of_good H. destruct Hr as [<-|[<-|[]]]; (destruct l as [|v0 [|v1 l]]; cbn [map loosen fits_all fits] in F; try tauto;
  destruct F as (_ & (q & -> & Hq) & _); now exists q).
Qed.

Lemma good_axis l : good_ent K sh (Ent KAxis3D l) -> exists a, attr_id l 0 = Some a /\ a is KPoint3D.
Proof.
  intro H. row_of_good H. destruct Hr as [<-|[]]. destruct l as [|v0 l]; cbn [map loosen fits_all fits] in F; try tauto.
  destruct F as ((q & -> & Hq) & _); now exists q.
Qed.

Lemma good_point l : good_ent K sh (Ent KPoint3D l) -> exists x y z, l = [VVec [x; y; z]].
Proof.
  intro H. row_of_good H. destruct Hr as [<-|[]]. destruct l as [|v0 [|v1 l]]; cbn [map loosen fits_all fits] in F; try tauto.
  destruct F as ((q & -> & Hq) & _). destruct q as [|x [|y [|z [|]]]]; try discriminate Hq. eauto.
Qed.

Lemma good_shape l : good_ent K sh (Ent KProductDefinitionShape l) ->
  (length (attr_ids l 2) <= 2)%nat /\ forall r, In r (attr_ids l 2) -> r is KShapeRepresentation.
Proof.
  intro H. row_of_good H. destruct Hr as [<-|[]].
  destruct l as [|v0 [|v1 [|v2 l]]]; cbn [map loosen fits_all fits] in F; try tauto.
  destruct F as (_ & _ & (ns & -> & Hl & Hq) & _). unfold attr_ids. cbn [nth_error]. rewrite ids_of_map.
  rewrite Forall_forall in Hq. split; auto. cbn [In] in Hl. lia.
Qed.

(** ** Materials *)

Section Calls.
Variable A : proj -> Prop.
Hypothesis HA : stable A.
Hypothesis Hsub : forall p, A p -> at0 p.

Hint Resolve safe_new safe_tick safe_guid safe_now safe_walk safe_root safe_owned safe_axis3d safe_placement_new
  safe_extrude safe_rectangular safe_profile safe_horizontal safe_vertical safe_arbitrary safe_add_repr safe_axis_repr
  safe_material safe_layer safe_layer_set safe_usage safe_constituent safe_constituent_set safe_associate
  safe_new_type safe_window_type safe_space_type safe_property safe_property_set safe_relate safe_transform_object
  safe_aggregate safe_drop_building safe_drop_site safe_drop_storey : safe.

Lemma safe_thickness u : u is KMaterialLayerSetUsage -> safe A 0 (thickness o u) (fun _ => A).
Proof.
  intro Hu. unfold thickness.
  eapply safe_bind; [apply (safe_fetch _ 0 _ (fun l => good_ent K sh (Ent KMaterialLayerSetUsage l))); intros p Hp; eauto using old_at, Hsub|lia|].
  intro l. cbv beta. apply safe_pure. intro G. destruct (good_usage _ G) as (s & Es & Hs).
  eapply safe_bind; [apply (safe_need _ 0 _ Es)|lia|]. intro b. cbv beta. apply safe_pure. intros ->.
  eapply safe_bind; [apply (safe_fetch _ 0 _ (fun l => good_ent K sh (Ent KMaterialLayerSet l))); intros p Hp; eauto using old_at, Hsub|lia|].
  intro ls. cbv beta. apply safe_pure. intro G2.
  eapply safe_bind; [apply (safe_bmap _ _ 0)|lia|].
  - intros n Hn. pose proof (good_layers _ G2 n Hn) as Hk.
    eapply safe_bind; [apply (safe_fetch _ 0 _ (fun l => good_ent K sh (Ent KMaterialLayer l))); intros p Hp; eauto using old_at, Hsub|lia|].
    intro y. cbv beta. apply safe_pure. intro G3. destruct (good_thick _ G3) as (d & Ed).
    eapply safe_weaken; [apply (safe_need _ 0 _ Ed)|lia|cbv beta; tauto].
  - intro ds. cbv beta. go.
Qed.
Hint Resolve safe_thickness : safe.

Lemma safe_host_thickness c n u us :
  In c [CWall; CSlab] -> assoc_ok us (p_assoc p0) -> In (c, false, u, n) us ->
  safe A 0 (host_thickness o c n) (fun _ => A).
Proof.
  intros Hc HU Hin. pose proof HU as (Hn & Hk & Hf). unfold host_thickness.
  intros p Hp Hs. unfold bbind at 1, bget. assert (EA : p_assoc p = p_assoc p0) by apply (Hsub p Hp). rewrite EA.
  assert (HF : fair o) by apply Ho.
  destruct (safe_walk_pairs o HA HF (assocs_of c false (p_assoc p0)) p Hp Hs) as (r & p1 & E1 & S1 & A1 & _).
  unfold bbind at 1. rewrite E1.
  pose proof (walk_pairs_perm _ _ _ _ _ HF (assocs_NoDup c _ Hn) E1) as HP.
  assert (Hkey : In (c, false, u) (map fst (p_assoc p0))).
  { apply Hk. change (c, false, u) with (fst (c, false, u, n)). now apply in_map. }
  apply in_map_iff in Hkey as ([[[c' t'] u'] v] & Ek & Hv). cbn [fst] in Ek. injection Ek as -> -> ->.
  rewrite Forall_forall in Hf.
  assert (Hu : in_attr v 4 n = true).
  { destruct (Hf _ Hv) as (_ & rr & Hr & Ev). cbn [fst snd] in Ev. subst v. unfold in_attr. apply existsb_exists.
    exists n. split; [|apply N.eqb_refl]. unfold attr_ids. rewrite nth_error_app2 by (rewrite Hr; auto). rewrite Hr.
    cbn [nth_error Nat.sub ids]. unfold ids. rewrite ids_of_map. unfold users_of.
    apply in_map_iff. exists (c, false, u, n). split; [reflexivity|]. apply filter_In. split; auto. now apply akey_eqb_eq. }
  assert (Hr : In (u, v) r).
  { apply (Permutation_in _ (Permutation_sym HP)). unfold assocs_of. apply in_map_iff. exists (c, false, u, v).
    split; [reflexivity|]. apply filter_In. split; auto. cbn [fst snd]. now destruct c. }
  destruct (find (fun x => in_attr (snd x) 4 n) r) as [[u1 v1]|] eqn:EF.
  2:{ pose proof (find_none _ _ EF _ Hr) as X. cbn [snd] in X. congruence. }
  cbn [need]. unfold bbind, bret. cbn [fst].
  apply find_some in EF as [Hi _]. apply (Permutation_in _ HP) in Hi. apply in_assocs in Hi.
  assert (H1 : u1 is KMaterialLayerSetUsage).
  { destruct I0 as (_ & _ & HI). destruct (HI eq_refl) as (_ & _ & HB & _). rewrite Forall_forall in HB.
    destruct (HB _ Hi) as [_ (w & _ & F)]. destruct (Hf _ Hi) as (_ & rr & Hrr & Ev). cbn [fst snd] in Ev. subst v1.
    cbn [fst snd] in F. destruct rr as [|a0 [|a1 [|a2 [|a3 [|]]]]]; try discriminate Hrr.
    unfold assoc_row, is_relation in F. cbn [app map loosen fits_all fits fst snd] in F.
    destruct F as (_ & _ & _ & _ & _ & (m & Em & Hm) & _). injection Em as <-.
    cbn [In] in Hc. destruct Hc as [<-|[<-|[]]]; exact Hm. }
  destruct (safe_thickness u1 H1 p1 A1) as (d & p2 & E2 & S2 & A2); [lia|].
  exists d, p2. split; [exact E2|]. split; [lia|exact A2].
Qed.

(** ** Elements *)

Lemma safe_new_relative axis k par :
  (forall p, A p -> exists l, lookup (p_map p) par = Some (Ent k l) /\ exists q, attr_id l 5 = Some q) ->
  safe A 1 (new_relative axis k par) (fun _ => A).
Proof.
  intros H. unfold new_relative.
  eapply safe_bind; [apply (safe_fetch _ 0 _ _ H)|lia|]. intro l. cbv beta. apply safe_pure. intros (q & Eq).
  eapply safe_bind; [apply (safe_need _ 0 _ Eq)|lia|]. intro b. cbv beta. apply safe_pure. intros ->. go.
Qed.

Lemma placed_then par k : par is k -> In k places ->
  forall p, A p -> exists l, lookup (p_map p) par = Some (Ent k l) /\ exists q, attr_id l 5 = Some q.
Proof.
  intros H Hk p Hp. destruct (old_at _ _ _ (Hsub p Hp) H) as (l & L & G). destruct (good_placed _ _ Hk G) as (q & Eq & _). eauto.
Qed.

Lemma safe_relative0 axis k par : par is k -> In k places -> safe A 1 (new_relative axis k par) (fun _ => A).
Proof. intros H Hk. apply safe_new_relative. now apply placed_then. Qed.

Lemma safe_place_element c m ty name pos shape st :
  s_id st is KStorey -> safe A 4 (place_element o c m ty name pos shape st) (fun _ _ => True).
Proof.
  intro Hs. unfold place_element.
  eapply safe_bind; [apply (safe_relative0 _ _ _ Hs); now right; right; left|lia|]. intro. cbv beta. go.
Qed.
Hint Resolve safe_place_element : safe.

Lemma safe_wall_body m s ctx : m is KMaterialLayerSetUsage -> safe A 10 (wall_body o m s ctx) (fun _ => A).
Proof. intro Hm. unfold wall_body. sb. destruct s; go. Qed.
Lemma safe_slab_body m s ctx : m is KMaterialLayerSetUsage -> safe A 6 (slab_body o m s ctx) (fun _ => A).
Proof. intro Hm. unfold slab_body. sb. destruct s; go. Qed.
Hint Resolve safe_wall_body safe_slab_body : safe.

Lemma safe_new_wall m ty name s v st : m is KMaterialLayerSetUsage -> s_id st is KStorey ->
  safe A 20 (new_wall o m ty name s v st) (fun _ _ => True).
Proof. intros Hm Hs. unfold new_wall. go. Qed.
Lemma safe_new_slab m ty name s v st : m is KMaterialLayerSetUsage -> s_id st is KStorey ->
  safe A 20 (new_slab o m ty name s v st) (fun _ _ => True).
Proof. intros Hm Hs. unfold new_slab. go. Qed.
Lemma safe_new_roof m ty name l v st : m is KMaterialLayerSetUsage -> s_id st is KStorey ->
  safe A 20 (new_roof o m ty name l v st) (fun _ _ => True).
Proof. intros Hm Hs. unfold new_roof. go. Qed.
Lemma safe_new_shading m ty name a b v st : m is KMaterialLayerSetUsage -> s_id st is KStorey ->
  safe A 20 (new_shading o m ty name a b v st) (fun _ _ => True).
Proof. intros Hm Hs. unfold new_shading. go. Qed.
Lemma safe_new_space ty name l h v st : s_id st is KStorey ->
  safe A 20 (new_space o ty name l h v st) (fun _ _ => True).
Proof.
  intros Hs. unfold new_space. sb. sb.
  eapply safe_bind; [apply (safe_relative0 _ _ _ Hs); now right; right; left|lia|]. intro. cbv beta. go.
Qed.

(** ** Openings and windows *)

Lemma fetch_done k n l p : lookup (p_map p) n = Some (Ent k l) -> fetch k n p = Done (l, p).
Proof.
  intro L. unfold fetch, get. rewrite L. assert (E : kind_eqb k k = true) by now apply kind_eqb_eq. now rewrite E.
Qed.
Lemma fetch_any_done n e p : lookup (p_map p) n = Some e -> fetch_any n p = Done (e, p).
Proof. intro L. unfold fetch_any, get_untyped. now rewrite L. Qed.
Lemma bind_done {X Y} (c : B X) (f : X -> B Y) p a p' : c p = Done (a, p') -> bbind c f p = f a p'.
Proof. intro E. unfold bbind. now rewrite E. Qed.

Lemma safe_direction n r f : n is KSlab -> MoveSpec.drawn (p_map p0) n [r] -> body (p_map p0) r f ->
  safe A 0 (slab_direction n) (fun _ => A).
Proof.
  destruct f as [[out dir] len]. intros Hn (s & H1 & H2) (ctx & so & pr & di & B1 & B2 & B3 & _) p Hp _.
  destruct (old _ _ Hn) as (l & L & _). unfold shape_of in H1. rewrite L in H1.
  pose proof (Hsub p Hp) as Hp'. apply (at0_lookup _ _ _ Hp') in L, H2, B1, B2, B3.
  exists dir, p. split; [|split; [lia|exact Hp]].
  assert (EA : attr_id l 6 = Some s).
  { unfold attr_id. destruct (nth_error l 6) as [[]|]; try discriminate H1. congruence. }
  assert (ES : shapes l p = Done ([[VId ctx; VEnum 8; VEnum 19; VList [VId so]]], p)).
  { unfold shapes. rewrite EA. rewrite (bind_done _ _ _ _ _ (fetch_done _ _ _ _ H2)).
    unfold attr_ids. cbn [nth_error map val_ids flat_map app bmap].
    rewrite (bind_done _ _ _ _ _ (fetch_done _ _ _ _ B1)). reflexivity. }
  assert (EI : solid_direction [VId pr; VOmit; VId di; VReal len] p = Done (dir, p)).
  { unfold solid_direction. erewrite bind_done by reflexivity. rewrite (bind_done _ _ _ _ _ (fetch_done _ _ _ _ B3)).
    destruct dir as [[x y] z]. reflexivity. }
  unfold slab_direction. rewrite (bind_done _ _ _ _ _ (fetch_done _ _ _ _ L)).
  rewrite (bind_done _ _ p (Some dir) p); [reflexivity|]. unfold product_direction. rewrite (bind_done _ _ _ _ _ ES).
  cbn [bfind]. rewrite (bind_done _ _ p (Some dir) p); [reflexivity|]. unfold attr_ids.
  cbn [nth_error val_ids flat_map app bfind].
  rewrite (bind_done _ _ p (Some dir) p); [reflexivity|]. rewrite (bind_done _ _ _ _ _ (fetch_any_done _ _ _ B2)).
  rewrite (bind_done _ _ _ _ _ EI). reflexivity.
Qed.

Lemma safe_owned4 name : safe A 0 (owned o name) (fun r p => A p /\ length r = 4%nat).
Proof.
  unfold owned. sb. eapply (safe_bind _ _ _ 0); [apply safe_get|lia|]. intro. cbv beta.
  apply safe_ret. intros p [Hp _]. auto.
Qed.

Definition opened (n : N) (p : proj) : Prop :=
  exists l, lookup (p_map p) n = Some (Ent KOpeningElement l) /\ exists q, attr_id l 5 = Some q.

Lemma safe_place_opening h name pos shape st : h_id h is host_kind h ->
  safe A 4 (place_opening o h name pos shape st) (fun r p => A p /\ opened (fst r) p).
Proof.
  intro Hh. unfold place_opening.
  eapply safe_bind; [apply (safe_relative0 _ _ _ Hh)|lia|].
  { unfold host_kind, host_cls, places. destruct (h_slab h); cbn [kind_of_cls In]; tauto. }
  intro lp. cbv beta. eapply safe_bind; [apply safe_owned4|lia|]. intro r. cbv beta. apply safe_pure. intro Hr.
  sb. sb. eapply safe_bind; [apply safe_ins; exact HA|lia|]. intro n. cbv beta.
  apply safe_ret. intros p [Hp L]. split; auto. eexists. split; [exact L|]. cbn [fst].
  destruct r as [|x0 [|x1 [|x2 [|x3 [|]]]]]; try discriminate Hr. eexists. reflexivity.
Qed.

Lemma safe_place_window m ty n name shape st : (forall p, A p -> opened n p) ->
  safe A 5 (place_window o m ty n name shape st) (fun _ _ => True).
Proof.
  intro Hn. unfold place_window. sb.
  eapply safe_bind; [apply safe_new_relative; exact Hn|lia|]. intro. cbv beta. go.
Qed.

(** The wall or slab under construction is made of a material. *)
Definition hosted (us : list (akey * N)) (h : host) : Prop :=
  h_id h is host_kind h /\ exists u, In (host_cls h, false, u, h_id h) us.
Variable us : list (akey * N).
Hypothesis HU : assoc_ok us (p_assoc p0).

Lemma safe_wall_thick h : hosted us h -> h_slab h = false -> safe A 0 (host_thickness o CWall (h_id h)) (fun _ => A).
Proof.
  intros (_ & u & Hu) E. unfold host_cls in Hu. rewrite E in Hu. eapply safe_host_thickness; eauto. now left.
Qed.
Lemma safe_slab_thick h : hosted us h -> h_slab h = true -> safe A 0 (host_thickness o CSlab (h_id h)) (fun _ => A).
Proof.
  intros (_ & u & Hu) E. unfold host_cls in Hu. rewrite E in Hu. eapply safe_host_thickness; eauto. now right; left.
Qed.
Hint Resolve safe_wall_thick safe_slab_thick : safe.

Lemma safe_wall_opening h name a b v d st : hosted us h -> h_slab h = false ->
  safe A 20 (wall_opening o h name a b v d st) (fun r p => A p /\ opened (fst r) p).
Proof.
  intros Hh E. unfold wall_opening. sb. sb. sb.
  eapply safe_weaken; [apply safe_place_opening, Hh|lia|auto].
Qed.

(** The slab is still as it was drawn. *)
Definition solid_slab (h : host) : Prop :=
  h_id h is KSlab /\ exists r f, MoveSpec.drawn (p_map p0) (h_id h) [r] /\ body (p_map p0) r f.

Lemma safe_slab_dir h : solid_slab h -> safe A 0 (slab_direction (h_id h)) (fun _ => A).
Proof. intros (H1 & r & f & H2 & H3). eapply safe_direction; eauto. Qed.
Hint Resolve safe_slab_dir : safe.

Lemma safe_slab_filling h s ctx : hosted us h -> h_slab h = true -> solid_slab h ->
  safe A 6 (slab_filling o h s ctx) (fun _ => A).
Proof. intros Hh E Hs. unfold slab_filling. sb. destruct s; go. Qed.
Hint Resolve safe_slab_filling : safe.

Lemma safe_slab_opening h name s st : hosted us h -> h_slab h = true -> solid_slab h ->
  safe A 20 (slab_opening o h name s st) (fun r p => A p /\ opened (fst r) p).
Proof.
  intros Hh E Hs. unfold slab_opening. sb. sb.
  eapply safe_weaken; [apply safe_place_opening, Hh|lia|auto].
Qed.
End Calls.

Definition at_opening (n : N) (p : proj) : Prop := at0 p /\ opened n p.
Lemma stable_opening n : stable (at_opening n).
Proof.
  destruct stable_at0 as [H1 H2]. split; [intros p [H _]; auto|]. intros p p' [Ha (l & L & q & E)] D (new & En) F.
  split; [eapply H2; eauto|]. exists l. rewrite En, lookup_app, L. eauto.
Qed.

Variable us : list (akey * N).
Hypothesis HU : assoc_ok us (p_assoc p0).
Let H0 := stable_at0.
Let Hid : forall p, at0 p -> at0 p := fun p H => H.

Hint Resolve safe_wall_thick safe_slab_thick safe_slab_filling safe_rectangular stable_at0 stable_opening : safe.

Lemma safe_wall_window h m ty name a b v d st : hosted us h -> h_slab h = false ->
  safe at0 40 (wall_window o h m ty name a b v d st) (fun _ _ => True).
Proof.
  intros Hh E. unfold wall_window.
  eapply safe_bind; [apply (safe_wall_opening at0 H0 Hid us HU); assumption|lia|]. intros [n st1]. cbn [fst].
  change (fun p : proj => at0 p /\ opened n p) with (at_opening n).
  eapply safe_bind; [apply (safe_wall_thick _ (stable_opening n) (fun p H => proj1 H) us HU h Hh E)|lia|]. intro t. cbv beta.
  eapply safe_bind; [apply safe_rectangular, stable_opening|lia|]. intro sp. cbv beta.
  eapply safe_bind; [apply (safe_place_window _ (stable_opening n)); intros p H; apply H|lia|].
  intros [w st2]. go.
Qed.

Lemma safe_slab_window h m ty name s st : hosted us h -> h_slab h = true -> solid_slab h ->
  safe at0 40 (slab_window o h m ty name s st) (fun _ _ => True).
Proof.
  intros Hh E Hs. unfold slab_window.
  eapply safe_bind; [apply (safe_slab_opening at0 H0 Hid us HU); assumption|lia|]. intros [n st1]. cbn [fst].
  change (fun p : proj => at0 p /\ opened n p) with (at_opening n).
  eapply safe_bind; [apply (safe_slab_filling _ (stable_opening n) (fun p H => proj1 H) us HU h _ _ Hh E Hs)|lia|].
  intro sp. cbv beta.
  eapply safe_bind; [apply (safe_place_window _ (stable_opening n)); intros p H; apply H|lia|].
  intros [w st2]. go.
Qed.
End Reached.
