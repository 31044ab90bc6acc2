(** Transforms, properties, the spatial structure and whole programs keep all objects
    good. *)

From Coq Require Import String Ascii List NArith ZArith Bool Lia Permutation.
From Coq Require Import ZifyBool ZifyNat ZifyN.
From Verif Require Import Base Prims PrimsFacts Float Kind Types WellTyped TypesFacts Schema Entity
  EntityFacts DataMap DataSpec DataMapFacts Extractor Arith ArithFacts Builder BuilderRun BuilderBase
  BuilderGrow BuilderAny BuilderSpec BuilderLoadSpec TemplateSpec BuilderGood BuilderGood2.
Import ListNotations.
Open Scope N_scope.
Open Scope builder_scope.

Section Calls.
Variable K : N -> option kind.
Hypothesis HK : forall n k, K n = Some k -> n <= max_usize.
Variables sh up : bool.
Variable o : oracle.
Hypothesis Ho : sane o.
Hypothesis Hup : true = up.

Notation tr := (tr K sh up).
Notation good_ent := (good_ent K sh).
Notation gv := (gv K).
Notation "n 'is' k" := (K n = Some k) (at level 70).
Notation sgood := (sgood K sh).
Notation hgood := (hgood K).

Ltac call := first [ solve [eauto with good] | apply tr_ins; solve [made] ].
Tactic Notation "bind" tactic3(t) :=
  eapply tr_bind; [t|solve [st]|intro; solve [st]|intros; cbv beta in *; facts].
Ltac bindc := eapply tr_bind; [call|solve [st]|intro; solve [st]|intros; cbv beta in *; facts].
Ltac oks := repeat match goal with H : _ && _ = true |- _ => apply andb_true_iff in H as [? ?] end.
Hint Resolve tr_guid tr_now tr_walk tr_walk_pairs tr_root tr_owned tr_axis3d : good.

(** ** Transforms *)

Lemma tr_transform_object t :
  tparam_ok t = true -> tr (transform_object t) (fun n => n is KCartesianTransformationOperator3DnonUniform).
Proof.
  intro Ht. unfold tparam_ok in Ht. oks. unfold transform_object, direction_from.
  bindc. bindc. bindc. bindc. call.
Qed.

(** A representation is an axis or a body. *)
Lemma repr_ident l i : good_ent (Ent KShapeRepresentation l) -> nth_error l 1 = Some (VEnum i) -> i = id_axis \/ i = id_body.
Proof.
  intros (r & _ & _ & _ & _ & _ & row & Hr & F) Hi.
  destruct l as [|v0 [|v1 l]]; try discriminate Hi. injection Hi as ->. cbn [template In] in Hr.
  assert (HC : exists ws i0 w, VEnum i = VEnum i0 /\ nth_error enum_RepresentationIdentifier i0 = Some w /\ In w ws /\
                 incl ws [lit "'Axis'"; lit "'Body'"]).
  { destruct Hr as [<-|[<-|[<-|[]]]]; cbn [map loosen fits_all fits] in F; destruct F as (_ & (i0 & w & E & E1 & E2) & _);
      (eexists; exists i0, w; split; [exact E|split; [exact E1|split; [exact E2|]]]; intros x Hx; cbn [In] in *; tauto). }
  destruct HC as (ws & i0 & w & E & E1 & E2 & E3). injection E as <-. apply E3 in E2. clear - E1 E2.
  do 12 (destruct i as [|i]; [cbn [nth_error enum_RepresentationIdentifier] in E1; injection E1 as <-;
    first [left; reflexivity|right; reflexivity|exfalso; cbn [In] in E2; destruct E2 as [E2|[E2|[]]]; discriminate E2]|]).
  destruct i; discriminate E1.
Qed.

Lemma tr_mapped_repr keep ctx t v r :
  ctx is KGeometricRepresentationSubContext -> t is KCartesianTransformationOperator3DnonUniform ->
  vec3_ok v = true -> r is KShapeRepresentation ->
  tr (mapped_repr keep ctx t v r) (fun n => n is KShapeRepresentation).
Proof.
  intros Hc Ht Hv Hr. unfold mapped_repr, shape_repr. bindc. bindc.
  eapply (tr_bind K sh up _ _ (fun i => i = id_axis \/ i = id_body));
    [|solve [st]|intro; solve [st]|].
  - destruct keep; [|apply tr_ret; now right]. bind (apply tr_fetch). apply tr_ret.
    match goal with |- context [nth_error ?l 1] => destruct (nth_error l 1) as [v'|] eqn:E; [|now right] end.
    destruct v'; try (now right). eapply repr_ident; eauto.
  - intros i [->| ->]; bindc; bindc; call.
Qed.

Lemma shape_count l : good_ent (Ent KProductDefinitionShape l) -> In (length (attr_ids l 2)) [1%nat; 2%nat].
Proof.
  intros (r & _ & _ & _ & _ & _ & row & [<-|[]] & F).
  destruct l as [|v0 [|v1 [|v2 l]]]; try (exfalso; cbn in F; tauto).
  cbn [map loosen fits_all fits] in F. destruct F as (_ & _ & (ns & -> & Hn & _) & _).
  unfold attr_ids. cbn [nth_error].
  assert (E : val_ids (map VId ns) = ns) by (unfold val_ids; clear; induction ns; cbn [map flat_map app]; congruence).
  now rewrite E.
Qed.

Lemma tr_transform keep k n ctx t v :
  In k products -> ctx is KGeometricRepresentationSubContext -> tparam_ok t = true -> vec3_ok v = true ->
  tr (transform keep k n ctx t v) (fun _ => True).
Proof.
  intros Hk Hc Ht Hv. unfold transform. bind (apply tr_fetch).
  destruct (attr_id a 6) as [s|] eqn:E; [|now apply tr_ret].
  bind (apply tr_transform_object; assumption). bind (apply tr_fetch).
  match goal with H : good_ent (Ent KProductDefinitionShape ?d) |- _ => rename d into d0; rename H into Hd0 end.
  assert (HR : forall r, In r (attr_ids d0 2) -> tr (mapped_repr keep ctx a0 v r) (fun n => n is KShapeRepresentation)).
  { intros r Hr. apply tr_mapped_repr; auto.
    exact (good_ids _ _ _ _ _ 2 (TRef [KShapeRepresentation] true) KShapeRepresentation Hd0 eq_refl eq_refl eq_refl
               (fun n => eq_refl) _ Hr). }
  eapply tr_bind; [apply tr_and; [apply (tr_bmap K sh up _ _ (fun n => n is KShapeRepresentation)); [intro; st|exact HR]|apply tr_bmap_length; [intro; st|]]|solve [st]|intro; solve [st]|].
  - intros r Hr. eapply tr_weaken; [exact (HR r Hr)|auto].
  - intros rs [Hrs Hlen]. apply tr_modify; auto. rewrite Hlen. now apply (shape_count d0).
Qed.

Lemma tr_local_placement l : tr (local_placement l) (fun r => forall v, r = Some v -> vec3_ok v = true).
Proof.
  unfold local_placement. destruct (attr_id l 5); [|apply tr_ret; intros; discriminate].
  bind (apply tr_fetch). bind (apply tr_need; intros; exact I).
  eapply tr_bind; [apply tr_fetch_any|solve [st]|intro; solve [st]|]. cbv beta. intros [k x|?] [He _].
  2: apply tr_ret; intros; discriminate.
  destruct k; try (apply tr_ret; intros; discriminate).
  bind (apply tr_need; intros; exact I). bind (apply tr_fetch).
  repeat match goal with |- tr (match ?w with _ => _ end) _ => destruct w; try apply tr_panic end.
  apply tr_ret. intros v E. injection E as <-.
  match goal with H : good_ent (Ent KPoint3D _) |- _ =>
    pose proof (good_attr _ _ _ _ _ 0 TVec3 _ H eq_refl eq_refl eq_refl eq_refl) as [W _] end.
  exact W.
Qed.

Lemma shift_ok t v : tparam_ok t = true -> tparam_ok (shift_back t v) = true.
Proof.
  unfold tparam_ok, shift_back. cbn [t_move t_x t_y t_z]. intro. oks. rewrite vsub_ok.
  repeat (apply andb_true_iff; split); auto.
Qed.

Lemma tr_drop_host h st : hgood h -> sgood st -> tr (drop_host o h st) (fun _ => True).
Proof.
  intros [Hh Ht] Hs. unfold drop_host. destruct (h_tr h) as [t|]; [|now apply tr_ret].
  pose proof (ctx_of _ _ _ Hs) as Hc.
  bind (apply tr_transform; auto using host_product).
  eapply tr_bind; [apply tr_walk_pairs; assumption|solve [st]|intro; solve [st]|]. cbv beta. intros vs Hvs.
  eapply tr_bind; [apply (tr_bmap K sh up _ _ (fun l => forall x, In x l -> vec3_ok (snd x) = true)); [intro; solve [st]|]|solve [st]|intro; solve [st]|].
  { intros x Hx. bind (apply tr_fetch).
    eapply tr_bind; [apply tr_local_placement|solve [st]|intro; solve [st]|]. cbv beta. intros q Hq.
    apply tr_ret. destruct q as [v|]; [|intros ? []]. intros y [<-|[]]. cbn [snd]. auto. }
  intros ps Hps. cbv beta in Hps. rewrite Forall_forall in Hps.
  assert (Hops : forall x, In x (concat ps) -> vec3_ok (snd x) = true).
  { intros x Hx. apply in_concat in Hx as (l & H1 & H2). eapply Hps; eauto. }
  eapply tr_bind; [apply (tr_bmap K sh up _ _ (fun _ => True)); [intro; solve [st]|]|solve [st]|intro; solve [st]|].
  { intros x Hx. apply tr_transform; auto using shift_ok. member. }
  intros u1 _.
  eapply tr_bind; [apply (tr_bmap K sh up _ _ (fun _ => True)); [intro; solve [st]|]|solve [st]|intro; solve [st]|].
  { intros x Hx. apply tr_transform; auto using shift_ok; [member|].
    apply in_flat_map in Hx as (y & Hy & Hx). destruct (hget _ _ _); [|contradiction].
    destruct Hx as [<-|[]]. cbn [snd]. auto. }
  intros u2 _. now apply tr_ret.
Qed.

(** ** Properties *)

Lemma tr_single_property name v u :
  text_ok name = true -> wt TValue v = true -> match u with Some k => k <=? max_usize | None => true end = true ->
  tr (single_property name v u) (fun n => n is KPropertySingleValue).
Proof.
  intros Hn Hv Hu. unfold single_property. apply tr_ins. eapply good_intro; [reflexivity|rows|place].
  do 3 (constructor; [gval|]). constructor; [|constructor]. destruct u as [u|]; [|gval].
  apply gv_opt. split; [exact Hu|constructor].
Qed.
Lemma tr_property_set name ps :
  text_ok name = true -> Forall (fun n => n is KPropertySingleValue) ps ->
  tr (property_set o name ps) (fun n => n is KPropertySet).
Proof. intros Hn Hp. unfold property_set. bindc. call. Qed.
Lemma tr_relate s b k :
  s is KPropertySet -> b is k -> tr (relate_properties o s b) (fun _ => True).
Proof.
  intros Hs Hb. unfold relate_properties. bindc. eapply tr_weaken; [apply tr_ins; made|auto].
Qed.
Hint Resolve tr_single_property tr_property_set : good.

(** ** Spatial structure *)

Lemma tr_sub_context : tr sub_context (fun n => n is KGeometricRepresentationSubContext).
Proof.
  intros p n p' H Hb Hi. unfold sub_context, bbind, bget in H. apply need_inv in H as [-> H].
  split; auto. destruct (rev _) as [|x l] eqn:E; [discriminate|]. injection H as ->.
  assert (Hx : In n (id_of KGeometricRepresentationSubContext (p_map p)))
    by (rewrite in_rev, E; now left).
  apply id_of_spec in Hx as (e & He & Hk). rewrite <- Hk. apply Hb. apply In_lookup; auto.
  apply dense_increasing, Hi.
Qed.
Hint Resolve tr_sub_context : good.

Lemma tr_put_sites n :
  n is KSite -> tr (q <-- bget ;; bput (set_sites (set_add (p_sites q) n) q)) (fun _ => True).
Proof.
  intros Hn p u p' H Hb Hi. unfold bbind, bget, bput in H. injection H as <- <-.
  split; auto. destruct Hi as (H1 & H2 & H3). split; auto. split; auto.
  intro E. destruct (H3 E) as (A1 & A2 & A3 & A4). cbn [set_sites p_owner p_project p_assoc p_sites].
  repeat (split; auto). now apply set_add_Forall.
Qed.

Lemma tr_ext {A} (c d : B A) Q : (forall p, c p = d p) -> tr d Q -> tr c Q.
Proof. intros E H p a p' Hc. rewrite E in Hc. eauto. Qed.

Lemma gr_ext {A} (c d : B A) : (forall p, c p = d p) -> steps (grow anything) d -> steps (grow anything) c.
Proof. intros E H p a p' Hc. rewrite E in Hc. eauto. Qed.

Definition site_end (n : N) : B N :=
  p <-- bget ;; u <-- bput (set_sites (set_add (p_sites p) n) p) ;; c <-- sub_context ;; bret n.

Lemma site_end_split n p :
  site_end n p =
  ((u <-- (q <-- bget ;; bput (set_sites (set_add (p_sites q) n) q)) ;; c <-- sub_context ;; bret n) p).
Proof. reflexivity. Qed.

Lemma gr_site_end n : steps (grow anything) (site_end n).
Proof.
  eapply gr_ext; [intro; apply site_end_split|].
  apply steps_bind; [pre|apply (st_put_sites (R := grow anything))|intro; solve [st]].
Qed.

Lemma tr_site_end n : n is KSite -> tr (site_end n) (fun n => n is KSite).
Proof.
  intro Hs. eapply tr_ext; [intro; apply site_end_split|].
  eapply tr_bind; [now apply tr_put_sites|apply (st_put_sites (R := grow anything))|intro; solve [st]|].
  intros _ _. bindc. now apply tr_ret.
Qed.

Lemma tr_new_site name v :
  text_ok name = true -> vec3_ok v = true -> tr (new_site o name v) (fun n => n is KSite).
Proof.
  intros Hn Hv. unfold new_site, placement_new.
  change (tr (a <-- axis3d v ;; lp <-- (x <-- ins KAxis3D a ;; bret [VOmit; VId x]) ;;
    r <-- owned o name ;; pl <-- ins KLocalPlacement lp ;;
    n <-- ins KSite (spatial r (VId pl) VOmit ++ [VOmit; VOmit; VOmit; VOmit; VOmit]) ;; site_end n)
    (fun n => n is KSite)).
  Ltac stf := repeat (one || apply gr_site_end).
  eapply tr_bind; [call|solve [st]|intro; solve [stf]|intros; cbv beta in *; facts].
  eapply (tr_bind K sh up _ _ (fun l => exists x, l = [VOmit; VId x] /\ x is KAxis3D));
    [bindc; apply tr_ret; eauto|solve [st]|intro; solve [stf]|intros; cbv beta in *; facts].
  eapply tr_bind; [call|solve [st]|intro; solve [stf]|intros; cbv beta in *; facts].
  eapply tr_bind; [call|solve [st]|intro; solve [stf]|intros; cbv beta in *; facts].
  eapply tr_bind; [call|solve [st]|intro; solve [stf]|intros; cbv beta in *; facts].
  now apply tr_site_end.
Qed.

Lemma tr_new_building site name v :
  site is KSite -> text_ok name = true -> vec3_ok v = true ->
  tr (new_building o site name v) (fun n => n is KBuilding).
Proof.
  intros Hs Hn Hv. unfold new_building. bindc.
  bind (apply tr_new_relative; [exact HK|member|eauto]).
  bindc. bindc. bindc. bindc. now apply tr_ret.
Qed.

Lemma tr_new_storey b name e :
  b is KBuilding -> text_ok name = true -> f64_okb e = true ->
  tr (new_storey o b name e) sgood.
Proof.
  intros Hb Hn He. unfold new_storey. bind (apply tr_axis3d; vecs).
  bind (apply tr_new_relative; [exact HK|member|eauto]).
  bindc. bindc. bindc. bindc. bindc. bindc. apply tr_ret.
  unfold BuilderGood2.sgood. cbn. repeat (split; auto).
Qed.

(** ** Leaving scopes *)

Lemma gv_refs l ks : Forall (good_ref K ks) l -> gv (TList (TRef ks true)) (ids l).
Proof.
  intro H. apply gv_ids. eapply Forall_impl; [|exact H]. intros n (k & Hk & Hin).
  eapply gv_ref; eauto.
Qed.
Lemma incl_all {A} (P : A -> Prop) l l' : incl l' l -> Forall P l -> Forall P l'.
Proof. intros H1 H2. rewrite Forall_forall in *. auto. Qed.

Lemma of_kind ks k l : In k ks -> Forall (fun n => n is k) l -> Forall (good_ref K ks) l.
Proof. intros Hk H. eapply Forall_impl; [|exact H]. intros n Hn. exists k. auto. Qed.

Ltac not_placed := let H := fresh in intro H; exfalso; cbn in H; repeat (destruct H as [H|H]; [discriminate H|]); exact H.

Lemma link_ok w k c : In (w, k, c) link_words ->
  text_ok (lit w) = true /\ In k [KProject; KSite; KBuilding; KStorey] /\ In c [KSite; KBuilding; KStorey; KSpace].
Proof.
  intro H. cbn [link_words In] in H.
  repeat (destruct H as [H|H]; [injection H as <- <- <-; split; [reflexivity|split; member]|]). contradiction.
Qed.

Lemma tr_aggregate w k c parent l :
  In (w, k, c) link_words -> parent is k -> Forall (fun n => n is c) l ->
  tr (aggregate o (lit w) parent l) (fun _ => True).
Proof.
  intros Hw Hp Hl. destruct (link_ok _ _ _ Hw) as (Hn & Hk & Hc).
  unfold aggregate. bindc. bindc. eapply tr_weaken; [apply tr_ins|auto].
  match goal with H : incl _ _ |- _ => pose proof (incl_all _ _ _ H Hl) as HL end.
  eapply good_intro; [reflexivity|rows|split; [not_placed|split; [exact I|]]].
  - cbn [app]. do 4 (constructor; [gval|]).
    constructor; [eapply gv_ref; eauto|]. constructor; [|constructor].
    apply gv_refs. eapply of_kind; eassumption.
  - exists (is_link w ++ [RefTo k; RefsTo [c]]). split; [apply in_map_iff; now exists (w, k, c)|]. fit_row.
Qed.

Lemma idx_ok name i : text_ok name = true -> text_ok (name ++ show_N i) = true.
Proof. intro H. now rewrite text_ok_app, text_ok_show, H. Qed.

Lemma cls_eqb_true a b : cls_eqb a b = true -> a = b.
Proof. destruct a, b; intro H; first [reflexivity|discriminate H]. Qed.

Lemma types_good c st x : sgood st -> In x (types_of c st) ->
  fst x is type_kind c /\ Forall (fun n => n is kind_of_cls c) (snd x).
Proof.
  intros (_ & _ & _ & H & _) Hx. rewrite Forall_forall in H. unfold types_of in Hx.
  apply in_map_iff in Hx as (y & <- & Hy). apply filter_In in Hy as [Hy E]. apply cls_eqb_true in E.
  specialize (H _ Hy). rewrite E in H. exact H.
Qed.
Lemma elems_good c st : sgood st -> Forall (fun n => n is kind_of_cls c) (elems_of c st).
Proof.
  intros (_ & _ & H & _). rewrite Forall_forall in *. unfold elems_of. intros n Hn.
  apply in_map_iff in Hn as (y & <- & Hy). apply filter_In in Hy as [Hy E]. apply cls_eqb_true in E.
  destruct (H _ Hy) as [H1 _]. rewrite E in H1. exact H1.
Qed.
Lemma no_shading st : sgood st -> sh = false -> elems_of CShading st = [].
Proof.
  intros (_ & _ & H & _) E. rewrite Forall_forall in *. destruct (elems_of CShading st) as [|n l] eqn:El; auto.
  exfalso. assert (Hn : In n (elems_of CShading st)) by (rewrite El; now left). unfold elems_of in Hn.
  apply in_map_iff in Hn as (y & _ & Hy). apply filter_In in Hy as [Hy E']. apply cls_eqb_true in E'.
  now apply (proj2 (H _ Hy) E).
Qed.

Lemma tr_type_relations c w st :
  In (w, kind_of_cls c, type_kind c) type_words -> text_ok (lit w) = true -> sgood st ->
  tr (type_relations o c (lit w) st) (fun _ => True).
Proof.
  intros Hw Hn Hs. unfold type_relations. bind (apply tr_walk_pairs; assumption).
  eapply tr_weaken; [apply (tr_bmap_index K sh up _ _ _ (fun _ => True)); [intros; solve [st]|]|auto].
  intros i x Hx. apply H in Hx. destruct (types_good _ _ _ Hs Hx) as [H1 H2].
  pose proof (idx_ok _ i Hn). bindc. bindc.
  match goal with H : incl _ ?b, H' : Forall _ ?b |- _ => pose proof (incl_all _ _ _ H H') as HL end.
  eapply tr_weaken; [apply tr_ins|auto].
  eapply good_intro; [reflexivity|rows|split; [not_placed|split; [exact I|]]].
  - cbn [app]. do 4 (constructor; [gval|]). constructor; [|constructor; [gval|constructor]].
    apply gv_ids. eapply Forall_impl; [|exact HL]. cbv beta. intros; gval.
  - exists (is_relation (Numbered (lit w)) ++ [RefsTo [kind_of_cls c]; RefTo (type_kind c)]).
    split; [apply in_map_iff; now exists (w, kind_of_cls c, type_kind c)|]. fit_row.
Qed.

(** The names of the relations from openings. *)
Definition void_words : list (string * kind) := [("OpeningElementToWall", KWall); ("OpeningElementToSlab", KSlab)]%string.

Lemma tr_void_relations w l k :
  In (w, k) void_words ->
  Forall (fun x => fst x is KOpeningElement /\ snd x is k) l -> tr (void_relations o (lit w) l) (fun _ => True).
Proof.
  intros Hw Hl. rewrite Forall_forall in Hl. unfold void_relations. bind (apply tr_walk_pairs; assumption).
  eapply tr_weaken; [apply (tr_bmap_index K sh up _ _ _ (fun _ => True)); [intros; solve [st]|]|auto].
  intros i x Hx. apply H in Hx. destruct (Hl _ Hx) as [H1 H2].
  assert (Hn : text_ok (lit w) = true) by (destruct Hw as [E|[E|[]]]; injection E as <- <-; reflexivity).
  pose proof (idx_ok _ i Hn). bindc. eapply tr_weaken; [apply tr_ins|auto].
  destruct Hw as [E|[E|[]]]; injection E as <- <-; made.
Qed.

Lemma tr_fill_relations st : sgood st -> tr (fill_relations o st) (fun _ => True).
Proof.
  intros (_ & _ & _ & _ & _ & _ & Hl). rewrite Forall_forall in Hl. unfold fill_relations.
  bind (apply tr_walk_pairs; assumption).
  eapply tr_weaken; [apply (tr_bmap_index K sh up _ _ _ (fun _ => True)); [intros; solve [st]|]|auto].
  intros i x Hx. apply H in Hx. destruct (Hl _ Hx) as [H1 H2].
  assert (Hn : text_ok (lit "OpeningElementToWindow" ++ show_N i) = true) by (apply idx_ok; reflexivity).
  bindc. eapply tr_weaken; [apply tr_ins; made|auto].
Qed.

Lemma tr_drop_storey st : sgood st -> tr (drop_storey o st) (fun _ => True).
Proof.
  intro Hs. unfold drop_storey. bindc.
  bind (apply tr_type_relations; [member|reflexivity|assumption]). bindc.
  bind (apply tr_type_relations; [member|reflexivity|assumption]). bindc.
  bind (apply tr_type_relations; [member|reflexivity|assumption]). bindc.
  bind (apply tr_void_relations with KWall; [member|apply Hs]).
  bind (apply tr_void_relations with KSlab; [member|apply Hs]).
  bind (apply tr_type_relations; [member|reflexivity|assumption]).
  bind (apply tr_fill_relations; assumption). bindc.
  bind (apply tr_type_relations; [member|reflexivity|assumption]). bindc.
  eapply tr_bind; [apply tr_ins|solve [st]|intro; solve [st]|intros c Hc].
  2:{ bind (eapply (tr_aggregate _ KStorey KSpace); [member|apply Hs|apply (elems_good CSpace _ Hs)]). now apply tr_ret. }
  match goal with H : incl _ (elems_of CShading st) |- _ => rename H into HSh end.
  pose proof (incl_all _ _ _ HSh (elems_good CShading _ Hs)).
  repeat match goal with
  | H : incl ?l (elems_of ?c st) |- _ =>
      tryif constr_eq c CShading then fail else (pose proof (incl_all _ _ _ H (elems_good c _ Hs)); clear H)
  end.
  cbn [kind_of_cls] in *.
  exists row_RelContainedInSpatialStructure. split; [reflexivity|].
  assert (HW : forall l, Forall (fun n => exists k, n is k) l ->
    wts (row_fields row_RelContainedInSpatialStructure)
      ([VGuid (o_guid o x); VId x0; VStr (lit "StoreyToStructureElements"); VOmit] ++ [ids l; VId (s_id st)]) = true).
  { intros l Hl.
    assert (HG : Forall2 gv [TGuid; TOpt (TRef [] false); TOpt TStr; TOpt TStr; TList (TRef [] false); TRef [] false]
      ([VGuid (o_guid o x); VId x0; VStr (lit "StoreyToStructureElements"); VOmit] ++ [ids l; VId (s_id st)])).
    { cbn [app]. do 4 (constructor; [gval|]). constructor.
      - apply gv_ids. eapply Forall_impl; [|exact Hl]. cbv beta. intros n (k & Hn). gval.
      - constructor; [|constructor]. destruct Hs as (Hs & _). gval. }
    apply gvs_wts in HG. etransitivity; [|exact HG]. reflexivity. }
  split; [|split].
  - apply HW. rewrite !Forall_app. repeat split; (eapply Forall_impl; [|eassumption]); cbv beta; eauto.
  - intro Hl. unfold loose in Hl. rewrite andb_true_r in Hl.
    match goal with H : incl ?l (elems_of CShading st) |- _ =>
      rewrite (no_shading _ Hs Hl) in H; destruct l as [|y ?]; [|exfalso; exact (H y (or_introl eq_refl))] end.
    rows. cbn [app]. do 4 (constructor; [gval|]). constructor.
    + apply gv_refs. rewrite !Forall_app.
      repeat split; first [constructor|(eapply of_kind; [|eassumption]; member)].
    + constructor; [|constructor]. destruct Hs as (Hs & _). gval.
  - split; [not_placed|split; [exact I|]]. eexists. split; [left; reflexivity|]. fit_row.
    split; [|split; [destruct Hs as (Hs & _); eauto|exact I]]. eexists. split; [reflexivity|].
    rewrite !Forall_app. repeat split; (eapply Forall_impl; [|eassumption]); cbv beta; intros; eexists; (split; [eassumption|member]).
Qed.

Lemma tr_drop_building n l :
  n is KBuilding -> Forall (fun n => n is KStorey) l -> tr (drop_building o n l) (fun _ => True).
Proof.
  intros Hn Hl. eapply (tr_aggregate _ KBuilding KStorey); [member|exact Hn|exact Hl].
Qed.
Lemma tr_drop_site n l :
  n is KSite -> Forall (fun n => n is KBuilding) l -> tr (drop_site o n l) (fun _ => True).
Proof.
  intros Hn Hl. eapply (tr_aggregate _ KSite KBuilding); [member|exact Hn|exact Hl].
Qed.

Lemma tr_build : tr (build o) (fun _ => True).
Proof.
  unfold build. eapply tr_bind; [apply tr_get|solve [st]|intro; solve [st]|]. intros p Hp.
  destruct Hp as (_ & _ & Hp). destruct (Hp (eq_sym Hup)) as (_ & HP & HA & HS).
  eapply tr_bind; [apply (tr_bmap K sh up _ _ (Forall (fun x => good_ent (Ent KRelAssociatesMaterial (snd x)))))|
    solve [st]|intro; solve [st]|]; [intro; solve [st]| |].
  { intros t _. eapply tr_weaken; [apply tr_walk_pairs; assumption|]. cbv beta. intros l Hl.
    eapply incl_all; [exact Hl|]. unfold assocs_of. rewrite Forall_map. rewrite Forall_forall in *.
    intros y Hy. apply filter_In in Hy as [Hy _]. exact (proj1 (HA _ Hy)). }
  intros ls Hls.
  eapply tr_bind; [apply (tr_bmap K sh up _ _ (fun _ => True))|solve [st]|intro; solve [st]|]; [intro; solve [st]| |].
  { intros x Hx. eapply tr_weaken; [apply tr_ins|auto]. apply in_concat in Hx as (l & H1 & H2).
    rewrite Forall_forall in Hls. specialize (Hls _ H1). rewrite Forall_forall in Hls. auto. }
  intros u _.
  bind (eapply (tr_aggregate _ KProject KSite); [member|exact HP|exact HS]).
  now apply tr_ret.
Qed.

(** ** Calls of a program *)

Notation known := (Forall (fun kn => K (snd kn) = Some (fst kn))).

Lemma known_used l (kn : list (kind * N)) : incl l kn -> known kn -> known l.
Proof. intros. eapply incl_all; eauto. Qed.
Lemma known_map k l : known (map (pair k) l) -> Forall (fun n => n is k) l.
Proof. rewrite Forall_map. auto. Qed.
Lemma known_any l (kn : list (kind * N)) n : incl l (map snd kn) -> known kn -> In n l -> exists k, n is k.
Proof.
  intros H1 H2 Hn. apply H1 in Hn. apply in_map_iff in Hn as (y & <- & Hy). rewrite Forall_forall in H2. eauto.
Qed.

Ltac uses :=
  repeat match goal with
  | H : known (_ :: _) |- _ => apply Forall_cons_iff in H as [? H]
  end; cbn [fst snd] in *.

Ltac done := apply tr_ret; cbn [fst snd returned]; repeat (split; auto); repeat (constructor; cbn [fst snd]; auto).

Lemma tr_storey_step st x kn :
  sgood st -> op_ok x = true -> (is_shading x = true -> sh = true) ->
  known kn -> incl (used x) kn -> incl (used_any x) (map snd kn) ->
  tr (storey_step o st x) (fun r => sgood (fst r) /\ known (returned x (snd r))).
Proof.
  intros Hs Hx Hsh Hk Hu Ha. pose proof (known_used _ _ Hu Hk) as HU.
  destruct x; cbn [storey_step op_ok used] in *; try apply tr_err; oks; uses.
  - bind (apply tr_material; auto). done.
  - bind (apply tr_material_layer; auto). done.
  - apply known_map in HU. bind (apply tr_layer_set; auto). done.
  - bind (apply tr_usage; auto). done.
  - bind (apply tr_constituent; auto). done.
  - apply known_map in HU. bind (apply tr_constituent_set; auto). done.
  - destruct c; try apply tr_err; bind (apply tr_new_type; auto; discriminate); done.
  - bind (apply tr_window_type; auto). done.
  - bind (apply tr_space_type; auto). done.
  - bind (apply tr_new_roof; auto). done.
  - bind (apply tr_new_shading; auto). done.
  - bind (apply tr_new_space; auto). done.
  - destruct (existsb _ _) eqn:E; [|apply tr_err].
    assert (HP : In k products).
    { apply existsb_exists in E as (k' & Hin & E). apply kind_eqb_eq in E. subst k'.
      clear - Hin. unfold transformable in Hin.
      repeat (destruct Hin as [<-|Hin]; [member|]). contradiction. }
    pose proof (ctx_of _ _ _ Hs). bind (apply tr_transform; auto; try reflexivity). done.
  - destruct (known_any _ _ obj Ha Hk) as (k & Hb); [now left|].
    bind (eapply tr_relate; eauto). done.
Qed.

Lemma tr_host_step st h x kn :
  sgood st -> hgood h -> op_ok x = true -> known kn -> incl (used x) kn ->
  tr (host_step o st h x)
     (fun r => sgood (fst (fst r)) /\ hgood (snd (fst r)) /\ known (returned x (snd r))).
Proof.
  intros Hs Hh Hx Hk Hu. pose proof (known_used _ _ Hu Hk) as HU. unfold host_step.
  destruct x; try apply tr_err; cbn [op_ok used] in *; oks; uses; try (destruct (h_slab h) eqn:E; try apply tr_err).
  - bind (apply tr_wall_opening; auto). done.
  - bind (apply tr_slab_opening; auto). done.
  - bind (apply tr_wall_window; auto). done.
  - bind (apply tr_slab_window; auto). done.
  - apply tr_ret; cbn [fst snd returned]; split; auto; split; [|constructor];
    destruct Hh as [Hh _]; unfold host_kind, host_cls in Hh; rewrite E in Hh; split; [exact Hh|exact Hx].
  - apply tr_ret; cbn [fst snd returned]; split; auto; split; [|constructor];
    destruct Hh as [Hh _]; unfold host_kind, host_cls in Hh; rewrite E in Hh; split; [exact Hh|exact Hx].
Qed.

Definition sgood1 (s : N * list N) := fst s is KSite /\ Forall (fun n => n is KBuilding) (snd s).
Definition bgood1 (s : N * list N) := fst s is KBuilding /\ Forall (fun n => n is KStorey) (snd s).
Definition pgood1 (name : text) ps := text_ok name = true /\ Forall (fun n => n is KPropertySingleValue) ps.

Definition wgood (w : scope) : Prop :=
  match w with
  | AtProject => True
  | AtSite s => sgood1 s
  | AtBuilding s b => sgood1 s /\ bgood1 b
  | AtStorey s b st => sgood1 s /\ bgood1 b /\ sgood st
  | AtHost s b st h => sgood1 s /\ bgood1 b /\ sgood st /\ hgood h
  | AtWallProps s b st h name ps => sgood1 s /\ bgood1 b /\ sgood st /\ hgood h /\ pgood1 name ps
  | AtSet s b st name ps => sgood1 s /\ bgood1 b /\ sgood st /\ pgood1 name ps
  end.

Lemma tr_storey_any s b st x kn :
  wgood (AtStorey s b st) -> op_ok x = true -> (is_shading x = true -> sh = true) ->
  known kn -> incl (used x) kn -> incl (used_any x) (map snd kn) ->
  tr (letp (st', l) <-- storey_step o st x ;; bret (AtStorey s b st', l))
     (fun r => wgood (fst r) /\ known (returned x (snd r))).
Proof.
  intros (H1 & H2 & H3) Hx Hsh Hk Hu Ha. bind (eapply tr_storey_step; eauto).
  apply tr_ret. cbn [fst snd wgood]. auto.
Qed.
Lemma tr_host_any s b st h x kn :
  wgood (AtHost s b st h) -> op_ok x = true -> known kn -> incl (used x) kn ->
  tr (letp (st', h', l) <-- host_step o st h x ;; bret (AtHost s b st' h', l))
     (fun r => wgood (fst r) /\ known (returned x (snd r))).
Proof.
  intros (H1 & H2 & H3 & H4) Hx Hk Hu. bind (eapply tr_host_step; eauto).
  apply tr_ret. cbn [fst snd wgood]. auto.
Qed.

Lemma host_cls_false n : host_kind (mk_host false n None) = KWall.
Proof. reflexivity. Qed.

Lemma tr_step w x kn :
  wgood w -> op_ok x = true -> (is_shading x = true -> sh = true) ->
  known kn -> incl (used x) kn -> incl (used_any x) (map snd kn) ->
  tr (step o w x) (fun r => wgood (fst r) /\ known (returned x (snd r))).
Proof.
  intros Hw Hx Hsh Hk Hu Ha. pose proof (known_used _ _ Hu Hk) as HU.
  destruct w.
  - destruct x; try apply tr_err. cbn [step op_ok] in *. oks. bind (apply tr_new_site; auto). done.
  - destruct x; try apply tr_err; cbn [step op_ok] in *; oks; destruct Hw as [W1 W2].
    + bind (apply tr_new_building; auto). apply tr_ret. cbn [fst snd wgood returned].
      split; [|repeat constructor; auto]. split; split; cbn [fst snd]; auto using set_add_Forall.
    + bind (apply tr_drop_site; auto). done.
  - destruct x; try apply tr_err; cbn [step op_ok] in *; oks; destruct Hw as [W1 [W2 W3]].
    + bind (apply tr_new_storey; auto). pose proof H1 as H1'. destruct H1' as (H1' & _).
      apply tr_ret. cbn [fst snd wgood returned].
      split; [|repeat constructor; auto]. split; auto. split; auto.
      split; cbn [fst snd]; auto using set_add_Forall.
    + bind (apply tr_drop_building; auto). done.
  - destruct x; try (apply (tr_storey_any _ _ _ _ kn); assumption); cbn [step op_ok used] in *; oks; uses;
      destruct Hw as [W1 [W2 W3]].
    + bind (apply tr_drop_storey; auto). done.
    + bind (apply tr_new_wall; auto). apply tr_ret. cbn [fst snd wgood returned].
      split; [|repeat constructor; auto]. split; auto. split; auto. split; auto. split; [|exact I]. assumption.
    + bind (apply tr_new_slab; auto). apply tr_ret. cbn [fst snd wgood returned].
      split; [|repeat constructor; auto]. split; auto. split; auto. split; auto. split; [|exact I]. assumption.
    + done.
  - destruct x; try (apply (tr_host_any _ _ _ _ _ kn); assumption); cbn [step op_ok used] in *; oks; uses;
      destruct Hw as [W1 [W2 [W3 W4]]].
    + bind (apply tr_drop_host; auto). done.
    + destruct (h_slab h); [apply tr_err|]. done.
  - destruct x; try apply tr_err; cbn [step op_ok used] in *; oks; uses;
      destruct Hw as [W1 [W2 [W3 [W4 [W5 W6]]]]].
    + bindc. destruct W4 as [W4 W4']. bind (eapply tr_relate; eauto). done.
    + bindc. apply tr_ret. cbn [fst snd wgood returned]. split; [|repeat constructor; auto].
      repeat (split; auto). apply Forall_app. auto.
  - destruct x; try apply tr_err; cbn [step op_ok used] in *; oks; uses;
      destruct Hw as [W1 [W2 [W3 [W5 W6]]]].
    + done.
    + bindc. done.
    + bindc. apply tr_ret. cbn [fst snd wgood returned]. split; [|repeat constructor; auto].
      repeat (split; auto). apply Forall_app. auto.
Qed.

(** All ids a program was given. *)
Definition given (xs : list op) (ls : list (list N)) : list (kind * N) :=
  flat_map (fun c => returned (fst c) (snd c)) (combine xs ls).

Lemma tr_run xs : forall w kn,
  wgood w -> forallb op_ok xs = true -> (existsb is_shading xs = true -> sh = true) -> known kn ->
  forall p r p', run o w xs p = Done (r, p') -> below K p' -> inv K sh up p ->
  honest kn xs (snd r) -> inv K sh up p' /\ wgood (fst r) /\ known (given xs (snd r)).
Proof.
  induction xs as [|x xs IH]; intros w kn Hw Hx Hsh Hk p r p' H Hb Hi Hh.
  - cbn [run] in H. injection H as <- <-. split; auto. split; auto. constructor.
  - cbn [run] in H. apply bbind_inv in H as ([w' a] & q & H1 & H). cbn [fst snd] in H.
    apply bbind_inv in H as ([w'' l] & q' & H2 & H). injection H as <- <-.
    cbn [fst snd honest] in *. destruct Hh as (Hu & Ha & Hh).
    cbn [forallb existsb] in *. apply andb_true_iff in Hx as [Hx Hxs].
    assert (Hq : below K q).
    { assert (Hd : dense (p_map q)).
      { assert (G : steps (grow anything) (step o w x)) by st. apply (G _ _ _ H1); apply Hi. }
      assert (G : steps (grow anything) (run o w' xs)) by st.
      eapply grow_below; [eapply G; exact H2|exact Hd|exact Hb]. }
    destruct (tr_step w x kn Hw Hx (fun E => Hsh (proj2 (orb_true_iff _ _) (or_introl E))) Hk Hu Ha _ _ _ H1 Hq Hi)
      as (Hi' & Hw' & Hk'). cbn [fst snd] in *.
    destruct (IH w' (returned x a ++ kn) Hw' Hxs
             (fun E => Hsh (proj2 (orb_true_iff _ _) (or_intror E)))
             (proj2 (Forall_app _ _ _) (conj Hk' Hk)) _ (w'', l) _ H2 Hb Hi' Hh) as (I1 & I2 & I3).
    split; auto. split; auto. cbn [given combine flat_map fst snd]. apply Forall_app. auto.
Qed.
End Calls.
