(** The shapes that calls make. *)

From Coq Require Import String Ascii List NArith ZArith Bool Lia Permutation.
From Coq Require Import ZifyBool ZifyNat ZifyN.
From Verif Require Import Base Prims Float Arith Kind Types Schema Entity EntityFacts DataMap DataSpec DataMapFacts
  Extractor Builder BuilderRun BuilderBase BuilderGrow BuilderAny BuilderSpec BuilderRel BuilderRel2 BuilderInv BuilderStep
  BuilderAll HistorySpec BuilderHist BuilderPlace BuilderKeep MoveSpec BuilderMove BuilderMove2 BuilderMove3
  GivenSpec BuilderGiven BuilderGiven2 FormSpec.
Import ListNotations.
Open Scope N_scope.
Open Scope builder_scope.

(** ** Facts stay *)

Lemma outlined_solid m m' p f : solid m m' -> outlined m p f -> outlined m' p f.
Proof.
  intros S. destruct f; cbn [outlined]; intros (a & b & H1 & H2 & H3); exists a, b;
    (split; [find_solid S|]; split; [find_solid S|]; find_solid S).
Qed.
Lemma body_solid m m' r f : solid m m' -> body m r f -> body m' r f.
Proof.
  destruct f as [[out dir] len]. intros S (ctx & s & p & d & H1 & H2 & H3 & H4). exists ctx, s, p, d.
  split; [find_solid S|]. split; [find_solid S|]. split; [find_solid S|]. eapply outlined_solid; eauto.
Qed.
Lemma axis_solid m m' r v : solid m m' -> axis m r v -> axis m' r v.
Proof.
  intros S (ctx & l & a & b & H1 & H2 & H3 & H4). exists ctx, l, a, b.
  split; [find_solid S|]. split; [find_solid S|]. split; eapply solid_pointed; eauto.
Qed.
Lemma depicts_solid m m' rs f ax : solid m m' -> depicts m rs f ax -> depicts m' rs f ax.
Proof.
  intro S. destruct ax as [v|]; cbn [depicts].
  - intros (r & x & -> & H1 & H2). exists r, x. split; auto. split; [eapply body_solid|eapply axis_solid]; eauto.
  - intros (r & -> & H1). exists r. split; auto. eapply body_solid; eauto.
Qed.

(** ** Solids *)

Definition shows (m : dmap) (b : list val) (f : form) (ax : option vec3) : Prop :=
  exists rs, b = product_shape rs /\ depicts m rs f ax.

Lemma shows_solid m m' b f ax : solid m m' -> shows m b f ax -> shows m' b f ax.
Proof. intros S (rs & -> & H). exists rs. split; auto. eapply depicts_solid; eauto. Qed.

Lemma extrude_body pr out dir len ctx p b p' :
  extrude pr dir len ctx p = Done (b, p') -> dense (p_map p) -> outlined (p_map p) pr out ->
  shows (p_map p') b (out, dir, len) None.
Proof.
  intros H D O. unfold extrude in H. inv H. inv H. inv H. apply bret_inv in H as [-> ->].
  assert (S : ext p q1).
  { eapply pre_trans; [apply (ins_ext _ _ _ _ _ H0 D)|]. fw. eapply pre_trans; eauto. }
  apply (outlined_solid _ _ _ _ (ext_solid _ _ S D)) in O. clear S. fw. move_up.
  exists [a1]. split; auto. exists a1. split; auto. exists ctx, a0, pr, a. auto.
Qed.

Lemma rectangular_body a b t dir ctx p r p' :
  rectangular_shape a b t dir ctx p = Done (r, p') -> dense (p_map p) ->
  shows (p_map p') r (Rectangle a t, dir, b) None.
Proof.
  intros H D. unfold rectangular_shape in H. inv H. inv H. inv H.
  apply ins_ext in H0 as (L0 & _ & E0 & D0); auto. apply ins_ext in H1 as (L1 & _ & E1 & D1); auto.
  apply ins_ext in H2 as (L2 & _ & E2 & D2); auto. move_up.
  eapply extrude_body; eauto. exists a1, a0. auto.
Qed.

Lemma profile_flat l p n p' :
  arbitrary_profile KPointList2D (map vec_2 l) p = Done (n, p') -> dense (p_map p) ->
  outlined (p_map p') n (Flat l) /\ dense (p_map p').
Proof. intros H D. unfold arbitrary_profile in H. inv H. inv H. fw. move_up. split; auto. exists a0, a. auto. Qed.
Lemma profile_spatial l p n p' :
  arbitrary_profile KPointList3D (map vec l) p = Done (n, p') -> dense (p_map p) ->
  outlined (p_map p') n (Spatial l) /\ dense (p_map p').
Proof. intros H D. unfold arbitrary_profile in H. inv H. inv H. fw. move_up. split; auto. exists a0, a. auto. Qed.

Lemma unit_z : direction_from v_z = v_z.
Proof. vm_compute. reflexivity. Qed.
Lemma unit_y : direction_from v_y = v_y.
Proof. vm_compute. reflexivity. Qed.

Lemma horizontal_body l t ctx p r p' :
  horizontal_shape l t ctx p = Done (r, p') -> dense (p_map p) -> shows (p_map p') r (Flat l, v_z, t) None.
Proof.
  intros H D. unfold horizontal_shape in H. inv H. apply profile_flat in H0 as [O D']; auto.
  rewrite unit_z in H. eapply extrude_body; eauto.
Qed.
Lemma vertical_body l t ctx p r p' :
  vertical_shape l t ctx p = Done (r, p') -> dense (p_map p) ->
  shows (p_map p') r (Spatial (map (fun c => (fst c, f_zero, snd c)) l), v_y, t) None.
Proof.
  intros H D. unfold vertical_shape in H. inv H. 
  rewrite <- (map_map (fun c : vec2 => (fst c, f_zero, snd c)) vec) in H0.
  apply profile_spatial in H0 as [O D']; auto. rewrite unit_y in H. eapply extrude_body; eauto.
Qed.
Lemma arbitrary_body l t dir ctx p r p' :
  arbitrary_shape l t dir ctx p = Done (r, p') -> dense (p_map p) ->
  shows (p_map p') r (Spatial l, vnormalize dir, t) None.
Proof.
  intros H D. unfold arbitrary_shape in H. inv H. apply profile_spatial in H0 as [O D']; auto.
  eapply extrude_body; eauto.
Qed.

Lemma with_axis (f : B (list val)) to ctx g p r p' :
  (forall p r p', f p = Done (r, p') -> dense (p_map p) -> shows (p_map p') r g None) -> steps ext f ->
  (x <-- axis_repr to ctx ;; b <-- f ;; add_representation x b) p = Done (r, p') -> dense (p_map p) ->
  shows (p_map p') r g (Some to).
Proof.
  intros Hf Hs H D. inv H. unfold axis_repr in H0. inv H0. inv H0. inv H0. apply bret_inv in H0 as [-> ->].
  inv H. apply ins_ext in H1 as (L1 & _ & E1 & D1); auto. apply ins_ext in H2 as (L2 & _ & E2 & D2); auto.
  apply ins_ext in H3 as (L3 & _ & E3 & D3); auto.
  pose proof (Hf _ _ _ H0 D3) as HB. pose proof (Hs _ _ _ H0) as E4. pose proof (proj1 (E4 D3)) as D4.
  unfold add_representation in H. inv H. apply bret_inv in H as [-> ->].
  apply ins_ext in H1 as (L5 & _ & E5 & D5); auto. move_up.
  apply (shows_solid _ _ _ _ _ (ext_solid _ _ E5 D4)) in HB. destruct HB as (rs & -> & r & -> & HB).
  exists [r; a3]. split; [reflexivity|]. exists r, a3. split; auto. split; auto.
  exists ctx, a2, a0, a1. repeat split; auto.
Qed.

(** ** Thickness *)

Section Forms.
Variable o : oracle.
Hypothesis Ho : fair o.

Definition layers_of (m : dmap) (ns : list N) (ds : list f64) : Prop :=
  Forall2 (fun n d => exists l, lookup m n = Some (Ent KMaterialLayer l) /\ nth_error l 1 = Some (VReal d)) ns ds.

Lemma layers_inv ns : forall p ds p',
  bmap (fun n => y <-- fetch KMaterialLayer n ;; need (layer_thickness y)) ns p = Done (ds, p') ->
  p' = p /\ layers_of (p_map p) ns ds.
Proof.
  induction ns as [|n ns IH]; intros p ds p' H; cbn [bmap] in H.
  - apply bret_inv in H as [-> ->]. split; auto. constructor.
  - inv H. inv H0. apply fetch_inv in H1 as [-> L]. apply need_inv in H0 as [-> E].
    inv H. apply IH in H0 as [-> F]. apply bret_inv in H as [-> ->]. split; auto. constructor; auto.
    exists a0. split; auto. unfold layer_thickness in E. destruct (nth_error a0 1) as [[]|]; try discriminate E. now injection E as ->.
Qed.

Lemma thickness_inv u p t p' : thickness o u p = Done (t, p') ->
  p' = p /\ exists us s ss ds, lookup (p_map p) u = Some (Ent KMaterialLayerSetUsage us) /\ attr_id us 0 = Some s /\
    lookup (p_map p) s = Some (Ent KMaterialLayerSet ss) /\ layers_of (p_map p) (attr_ids ss 0) ds /\
    t = total (o_neg_sum o) ds.
Proof.
  intro H. unfold thickness in H. inv H. apply fetch_inv in H0 as [-> L1]. inv H. apply need_inv in H0 as [-> E1].
  inv H. apply fetch_inv in H0 as [-> L2]. inv H. apply layers_inv in H0 as [-> F].
  apply bret_inv in H as [-> ->]. split; auto. exists a, a0, a1, a2. auto.
Qed.

(** Layers are stored as they were given except for the first attribute. *)
Definition layer_kept (m : dmap) (c : call) : Prop :=
  match c with
  | (_, OLayer _ l, [n]) => exists k, lookup m n = Some (Ent KMaterialLayer (set_at 0 (VId k) l))
  | _ => True
  end.

Lemma layer_kept_solid m m' c : solid m m' -> layer_kept m c -> layer_kept m' c.
Proof.
  intros S. destruct c as [[s x] a]. destruct x; auto. destruct a as [|n [|]]; auto. cbn [layer_kept].
  intros [k L]. exists k. find_solid S.
Qed.

(** Every id that a call takes was returned by a call. *)
Definition source (cs : list call) (q : kind * N) : Prop :=
  exists s x a, In (s, x, a) cs /\ In q (returned x a).
Definition sourced (cs : list call) : Prop :=
  forall s x a, In (s, x, a) cs -> Forall (source cs) (used x).

Lemma source_usage cs u : source cs (KMaterialLayerSetUsage, u) ->
  exists s set d e f, In (s, OUsage set d e f, [u]) cs.
Proof.
  intros (s & x & a & Hc & Hr). destruct x as [| | | | | | | | | |c| | | | | | | | | | | | | | | | | |]; destruct a as [|q1 [|q2 [|]]];
    cbn [returned In] in Hr; try tauto; repeat (destruct Hr as [E|Hr]; [try discriminate E|]); try tauto.
  - injection E as <-. eauto 8.
  - destruct c; discriminate E.
Qed.
Lemma source_set cs u : source cs (KMaterialLayerSet, u) -> exists s l, In (s, OLayerSet l, [u]) cs.
Proof.
  intros (s & x & a & Hc & Hr). destruct x as [| | | | | | | | | |c| | | | | | | | | | | | | | | | | |]; destruct a as [|q1 [|q2 [|]]];
    cbn [returned In] in Hr; try tauto; repeat (destruct Hr as [E|Hr]; [try discriminate E|]); try tauto.
  - injection E as <-. eauto 8.
  - destruct c; discriminate E.
Qed.
Lemma source_layer cs u : source cs (KMaterialLayer, u) -> exists s name l, In (s, OLayer name l, [u]) cs.
Proof.
  intros (s & x & a & Hc & Hr). destruct x as [| | | | | | | | | |c| | | | | | | | | | | | | | | | | |]; destruct a as [|q1 [|q2 [|]]];
    cbn [returned In] in Hr; try tauto; repeat (destruct Hr as [E|Hr]; [try discriminate E|]); try tauto.
  - injection E as <-. eauto 8.
  - destruct c; discriminate E.
Qed.

Lemma gives_says m cs c f : Forall (gives m) cs -> In c cs -> In f (call_given c) -> says m f.
Proof. intros G Hc Hf. rewrite Forall_forall in G. destruct (G _ Hc) as [G1 _]. rewrite Forall_forall in G1. auto. Qed.

Lemma thickness_given cs u p t p' :
  thickness o u p = Done (t, p') -> Forall (gives (p_map p)) cs -> Forall (layer_kept (p_map p)) cs -> sourced cs ->
  source cs (KMaterialLayerSetUsage, u) -> thick o cs u t /\ p' = p.
Proof.
  intros H G K SO SU. apply thickness_inv in H as (-> & us & s & ss & ds & L1 & A1 & L2 & F & ->).
  split; auto. apply source_usage in SU as (s1 & set & d & e & f & HU).
  pose proof (gives_says _ _ _ _ G HU ltac:(left; reflexivity)) as (l & L & FU). rewrite L1 in L. injection L as <-.
  inversion FU as [|? ? HA _]; subst. cbn [fst snd] in HA. unfold attr_id in A1. rewrite HA in A1. injection A1 as ->.
  pose proof (SO _ _ _ HU) as US. inversion US as [|? ? SS _]; subst.
  apply source_set in SS as (s2 & ls & HS).
  pose proof (gives_says _ _ _ _ G HS ltac:(left; reflexivity)) as (l & L & FS). rewrite L2 in L. injection L as <-.
  inversion FS as [|? ? HB _]; subst. cbn [fst snd] in HB.
  assert (attr_ids ss 0 = ls) as EA.
  { unfold attr_ids, val_ids. rewrite HB. clear. induction ls; cbn [map flat_map app]; congruence. }
  rewrite EA in F. exists ds. split; auto. exists s1, s2, s, d, e, f, ls. split; auto. split; auto.
  pose proof (SO _ _ _ HS) as LS. cbn [used] in LS. clear - F LS K. revert F LS. unfold layers_of.
  induction 1 as [|n d ls ds (l & L & E) F IH]; intro LS; constructor; inversion LS as [|? ? H1 H2]; subst; auto.
  apply source_layer in H1 as (s & name & l' & Hl). exists s, name, l'. split; auto.
  rewrite Forall_forall in K. destruct (K _ Hl) as [k Lk]. rewrite L in Lk. injection Lk as ->.
  destruct l'; auto.
Qed.

(** ** Walls and slabs with openings *)

Lemma user_call cs c u n : In (c, false, u, n) (users cs) -> c = CWall \/ c = CSlab ->
  exists s ty nm pl, (c = CWall /\ exists w, In (s, OWall u ty nm w pl, [n]) cs) \/
                     (c = CSlab /\ exists w, In (s, OSlab u ty nm w pl, [n]) cs).
Proof.
  intros Hi Hc. unfold users in Hi. apply in_flat_map in Hi as ([[s x] a] & Hx & Hi).
  destruct x as [| | | | | | | | | |c0| | | | | | | | | | | | | | | | | |]; destruct a as [|q1 [|q2 [|]]];
    cbn [call_users In] in Hi; try tauto; destruct Hi as [E|[]]; try discriminate E; injection E; intros; subst;
    try (destruct Hc; discriminate); do 4 eexists; [left|right]; eauto.
Qed.

Lemma in_assocs c l u v : In (u, v) (assocs_of c false l) -> In (c, false, u, v) l.
Proof.
  unfold assocs_of. intro H. apply in_map_iff in H as ([[[c' t] u'] v'] & E & H). cbn [fst snd] in E. injection E as -> ->.
  apply filter_In in H as [H E]. cbn [fst snd] in E. apply andb_true_iff in E as [E1 E2]. apply Bool.eqb_prop in E2 as ->.
  destruct c', c; try discriminate E1; exact H.
Qed.

Lemma assocs_NoDup c l : NoDup (map fst l) -> NoDup (map fst (assocs_of c false l)).
Proof.
  intro H. assert (E : exists f, map fst (assocs_of c false l) = map snd (filter f (map fst l)) /\
    forall x y, f x = true -> f y = true -> snd x = snd y -> x = y).
  { exists (fun k => cls_eqb (fst (fst k)) c && Bool.eqb (snd (fst k)) false). split.
    - unfold assocs_of. clear. induction l as [|[[[c' t] u] v] l IH]; auto. cbn [filter map fst snd].
      destruct (cls_eqb c' c && Bool.eqb t false); cbn [map fst snd]; rewrite ?IH; auto; f_equal; auto.
    - intros [[c1 t1] u1] [[c2 t2] u2]. cbn [fst snd]. rewrite !andb_true_iff. intros [E1 E2] [E3 E4] ->.
      apply Bool.eqb_prop in E2 as ->. apply Bool.eqb_prop in E4 as ->. destruct c1, c2, c; congruence || discriminate. }
  destruct E as (f & -> & Hf). revert H. generalize (map fst l). clear l. intros l H. induction H as [|x l Hx H IH]; [constructor|].
  cbn [filter]. destruct (f x) eqn:Ex; auto. cbn [map]. constructor; auto. intro Hi. apply Hx.
  apply in_map_iff in Hi as (y & E & Hy). apply filter_In in Hy as [Hy Ey]. rewrite (Hf x y); auto.
Qed.

Lemma host_thickness_inv c n us p t p' :
  host_thickness o c n p = Done (t, p') -> assoc_ok us (p_assoc p) ->
  exists u p1, In (c, false, u, n) us /\ thickness o u p1 = Done (t, p') /\ p_map p1 = p_map p.
Proof.
  intros H (Hn & _ & Hf). unfold host_thickness in H. inv H. unfold bget in H0. injection H0 as <- <-.
  inv H. pose proof (walk_pairs_perm _ _ _ _ _ Ho (assocs_NoDup c _ Hn) H0) as HP.
  assert (EM : p_map q = p_map p).
  { unfold walk_pairs, walk, tick in H0. apply bbind_inv in H0 as (ks & q1 & W1 & W2). apply bret_inv in W2 as [_ ->].
    apply bbind_inv in W1 as (k & q2 & W1 & W2). apply bret_inv in W2 as [_ ->]. injection W1 as _ <-. reflexivity. }
  inv H. apply need_inv in H1 as [-> E]. apply find_some in E as [Hi E]. destruct a0 as [u v]. cbn [fst snd] in *.
  apply (Permutation_in _ HP) in Hi. apply in_assocs in Hi. exists u, q. split; [|auto].
  rewrite Forall_forall in Hf. destruct (Hf _ Hi) as (_ & r & Hr & Ev). cbn [fst snd] in Ev. subst v.
  unfold in_attr in E. apply existsb_exists in E as (n' & Hn' & E). apply N.eqb_eq in E as <-.
  assert (EU : attr_ids (r ++ [ids (users_of (c, false, u) us); VId u]) 4 = users_of (c, false, u) us).
  { unfold attr_ids, ids, val_ids. rewrite nth_error_app2 by (rewrite Hr; auto). rewrite Hr. cbn [nth_error Nat.sub].
    generalize (users_of (c, false, u) us). clear. intro l. induction l; cbn [map flat_map app]; congruence. }
  rewrite EU in Hn'. unfold users_of in Hn'. apply in_map_iff in Hn' as ([k n'] & E & Hk). cbn [snd] in E. subst n'.
  apply filter_In in Hk as [Hk E]. cbn [fst] in E. apply akey_eqb_eq in E as ->. exact Hk.
Qed.

Lemma drawn_ext p p' n rs : ext p p' -> dense (p_map p) -> drawn (p_map p) n rs -> drawn (p_map p') n rs.
Proof.
  intros E D (s & H1 & H2). exists s. split; [|eapply ext_lookup; eauto]. unfold shape_of in *.
  destruct (lookup (p_map p) n) as [e|] eqn:L; [|discriminate H1].
  now rewrite (ext_lookup _ _ _ _ E D L).
Qed.

Lemma slab_direction_inv n p d p' r f :
  slab_direction n p = Done (d, p') -> drawn (p_map p) n [r] -> body (p_map p) r f -> d = snd (fst f) /\ p' = p.
Proof.
  destruct f as [[out dir] len]. intros H (s & H1 & H2) (ctx & so & pr & di & B1 & B2 & B3 & _).
  unfold slab_direction in H. inv H. apply fetch_inv in H0 as [-> L]. inv H.
  unfold shape_of in H1. rewrite L in H1. unfold product_direction in H0. inv H0. unfold shapes in H3.
  assert (EA : attr_id a 6 = Some s).
  { unfold attr_id. destruct (nth_error a 6) as [[]|]; try discriminate H1. congruence. }
  rewrite EA in H3. inv H3. apply fetch_inv in H4 as [-> L2]. rewrite H2 in L2. injection L2 as <-.
  unfold attr_ids in H3. cbn [nth_error map val_ids flat_map app bmap] in H3. inv H3. apply fetch_inv in H4 as [-> L3].
  rewrite B1 in L3. injection L3 as <-. inv H3. apply bret_inv in H4 as [-> ->]. apply bret_inv in H3 as [-> ->].
  cbn [bfind] in H0. inv H0. unfold attr_ids in H3. cbn [nth_error val_ids flat_map app bfind] in H3.
  inv H3. inv H4. apply fetch_any_inv in H5 as [-> L4]. rewrite B2 in L4. injection L4 as <-.
  inv H4. unfold solid_direction, attr_id in H5. cbn [nth_error] in H5. inv H5. apply need_inv in H6 as [-> E].
  injection E as <-. inv H5. apply fetch_inv in H6 as [-> L5]. rewrite B3 in L5. injection L5 as <-.
  destruct dir as [[x y] z]. cbn [vec] in H5. apply bret_inv in H5 as [-> ->]. apply bret_inv in H4 as [-> ->].
  apply bret_inv in H3 as [-> ->]. apply bret_inv in H0 as [-> ->]. apply need_inv in H as [-> E].
  injection E as <-. auto.
Qed.

(** ** Calls *)

Definition here (cs : list call) (w : scope) (m : dmap) : Prop :=
  match w with
  | AtHost _ _ _ h | AtWallProps _ _ _ h _ _ => h_slab h = true ->
      exists s u ty nm sh pl t r, In (s, OSlab u ty nm sh pl, [h_id h]) cs /\ drawn m (h_id h) [r] /\ body m r (slab_form sh t)
  | _ => True
  end.

Record ready (cs : list call) (p : proj) : Prop := {
  rd_dense : dense (p_map p);
  rd_assoc : assoc_ok (users cs) (p_assoc p);
  rd_given : Forall (gives (p_map p)) cs;
  rd_layer : Forall (layer_kept (p_map p)) cs;
  rd_used : sourced cs;
  rd_ids : NoDup (flat_map snd cs)
}.

Lemma ready_ext cs p p' : ready cs p -> ext p p' -> p_assoc p' = p_assoc p -> ready cs p'.
Proof.
  intros [D A G L U I] E EA. pose proof (ext_solid _ _ E D) as S. split; auto.
  - apply (E D).
  - now rewrite EA.
  - eapply Forall_impl; [|exact G]. intro. now apply gives_solid.
  - eapply Forall_impl; [|exact L]. intro. now apply layer_kept_solid.
Qed.

Lemma same_call cs (c c' : call) n : NoDup (flat_map snd cs) -> In c cs -> In c' cs -> In n (snd c) -> In n (snd c') -> c = c'.
Proof.
  induction cs as [|d cs IH]; intros H Hc Hc' Hn Hn'; [destruct Hc|]. cbn [flat_map] in H.
  assert (X : forall c, In n (snd c) -> In c cs -> In n (flat_map snd cs)) by (intros; apply in_flat_map; eauto).
  assert (Y : NoDup (flat_map snd cs) /\ (In n (snd d) -> ~ In n (flat_map snd cs))).
  { clear - H. induction (snd d) as [|a l IHl]; [split; auto|]. cbn [app] in H. inversion H as [|? ? H1 H2]; subst.
    destruct (IHl H2) as [I1 I2]. split; auto. intros [->|Hi]; auto. intro Hj. apply H1. apply in_or_app. auto. }
  destruct Y as [Y1 Y2]. destruct Hc as [<-|Hc], Hc' as [<-|Hc']; auto.
  - exfalso. exact (Y2 Hn (X _ Hn' Hc')).
  - exfalso. exact (Y2 Hn' (X _ Hn Hc)).
Qed.

Lemma thick_now cs u p t p' : thickness o u p = Done (t, p') -> ready cs p -> source cs (KMaterialLayerSetUsage, u) ->
  thick o cs u t /\ p' = p.
Proof. intros H R S. eapply thickness_given; eauto; apply R. Qed.

Lemma thick_wall cs n p t p' : host_thickness o CWall n p = Done (t, p') -> ready cs p ->
  (exists s u ty nm w pl, In (s, OWall u ty nm w pl, [n]) cs /\ thick o cs u t) /\ p_map p' = p_map p.
Proof.
  intros H R. destruct (host_thickness_inv _ _ _ _ _ _ H (rd_assoc _ _ R)) as (u & p1 & Hu & H1 & E).
  destruct (user_call _ _ _ _ Hu ltac:(auto)) as (s & ty & nm & pl & [(_ & w & Hc)|[X _]]); [|discriminate X].
  destruct R as [_ _ G L U _]. rewrite <- E in G, L.
  pose proof (U _ _ _ Hc) as US. inversion US as [|? ? SU _]; subst.
  destruct (thickness_given _ _ _ _ _ H1 G L U SU) as [T ->]. split; [|auto]. exists s, u, ty, nm, w, pl. auto.
Qed.
Lemma thick_slab cs n p t p' : host_thickness o CSlab n p = Done (t, p') -> ready cs p ->
  (exists s u ty nm w pl, In (s, OSlab u ty nm w pl, [n]) cs /\ thick o cs u t) /\ p_map p' = p_map p.
Proof.
  intros H R. destruct (host_thickness_inv _ _ _ _ _ _ H (rd_assoc _ _ R)) as (u & p1 & Hu & H1 & E).
  destruct (user_call _ _ _ _ Hu ltac:(auto)) as (s & ty & nm & pl & [[X _]|(_ & w & Hc)]); [discriminate X|].
  destruct R as [_ _ G L U _]. rewrite <- E in G, L.
  pose proof (U _ _ _ Hc) as US. inversion US as [|? ? SU _]; subst.
  destruct (thickness_given _ _ _ _ _ H1 G L U SU) as [T ->]. split; [|auto]. exists s, u, ty, nm, w, pl. auto.
Qed.

Definition fits (cs : list call) (c : call) (m : dmap) (n : N) : Prop :=
  exists f ax rs, form_of o cs c n f ax /\ drawn m n rs /\ depicts m rs f ax.

Lemma placed_drawn m b k n par v d f ax : placed m b k n par v (Some d) -> shows m d f ax ->
  exists rs, drawn m n rs /\ depicts m rs f ax.
Proof.
  intros (pt & (l & pl & a & L & _ & _ & _ & _ & s & N6 & LS & _) & _) (rs & -> & H). exists rs. split; auto.
  exists s. split; auto. unfold shape_of. now rewrite L, N6.
Qed.

Lemma shaped_fits cs c (g : B (list val)) p p' k n pk par v f ax :
  shaped g p p' k n pk par v -> (forall b p1, g p = Done (b, p1) -> shows (p_map p1) b f ax) ->
  form_of o cs c n f ax -> fits cs c (p_map p') n.
Proof.
  intros (l & q & b & p1 & _ & _ & HP & Hg & _ & E & D) Hs F. apply Hs in Hg.
  apply (shows_solid _ _ _ _ _ (ext_solid _ _ E D)) in Hg. destruct (placed_drawn _ _ _ _ _ _ _ _ _ HP Hg) as (rs & H1 & H2).
  exists f, ax, rs. auto.
Qed.

Lemma shaped_thick cs u (f : f64 -> B (list val)) p p' k n pk par v :
  shaped (t <-- thickness o u ;; f t) p p' k n pk par v -> ready cs p -> source cs (KMaterialLayerSetUsage, u) ->
  exists t, thick o cs u t /\ shaped (f t) p p' k n pk par v.
Proof.
  intros (l & q & b & p1 & H1 & H2 & H3 & H4 & H5) R S. inv H4. destruct (thick_now _ _ _ _ _ H R S) as [T ->].
  exists a. split; auto. exists l, q, b, p1. auto.
Qed.

Lemma wall_fits cs s u ty name w v p p' n pk par ctx :
  shaped (wall_body o u w ctx) p p' KWall n pk par v -> ready cs p -> source cs (KMaterialLayerSetUsage, u) ->
  fits cs (s, OWall u ty name w v, [n]) (p_map p') n.
Proof.
  intros H R S. destruct (shaped_thick _ _ _ _ _ _ _ _ _ _ H R S) as (t & T & H1).
  eapply shaped_fits; [exact H1| |constructor; exact T]. intros b p1 Hb.
  pose proof (rd_dense _ _ R) as D. destruct w; cbn [wall_form wall_line].
  - refine (with_axis _ _ _ _ _ _ _ _ _ Hb D); [|solve [st]]. intros q r q' Hq. rewrite unit_z in Hq. eapply rectangular_body; eauto.
  - refine (with_axis _ _ _ _ _ _ _ _ _ Hb D); [|solve [st]]. intros q r q' Hq. eapply vertical_body; eauto.
  - refine (with_axis _ _ _ _ _ _ _ _ _ Hb D); [|solve [st]]. intros q r q' Hq. eapply arbitrary_body; eauto.
Qed.

Lemma slab_fits cs s u ty name w v p p' n pk par ctx :
  shaped (slab_body o u w ctx) p p' KSlab n pk par v -> ready cs p -> source cs (KMaterialLayerSetUsage, u) ->
  exists t, thick o cs u t /\ exists rs, drawn (p_map p') n rs /\ depicts (p_map p') rs (slab_form w t) None /\
    form_of o cs (s, OSlab u ty name w v, [n]) n (slab_form w t) None.
Proof.
  intros H R S. destruct (shaped_thick _ _ _ _ _ _ _ _ _ _ H R S) as (t & T & H1). exists t. split; auto.
  destruct H1 as (l & q & b & p1 & _ & _ & HP & Hg & _ & E & D1). pose proof (rd_dense _ _ R) as D.
  assert (Hs : shows (p_map p1) b (slab_form w t) None).
  { destruct w as [cs0|[x y] [x' y'] h|cs0 dir]; cbn [slab_form].
    - eapply horizontal_body; eauto.
    - eapply arbitrary_body; eauto.
    - eapply arbitrary_body; eauto. }
  apply (shows_solid _ _ _ _ _ (ext_solid _ _ E D1)) in Hs. destruct (placed_drawn _ _ _ _ _ _ _ _ _ HP Hs) as (rs & G1 & G2).
  exists rs. split; auto. split; auto. constructor; auto.
Qed.

Lemma slab_filling_shows cs s b st h os ctx p r p' :
  slab_filling o h os ctx p = Done (r, p') -> ready cs p -> here cs (AtHost s b st h) (p_map p) -> h_slab h = true ->
  exists s' u ty nm w pl t, In (s', OSlab u ty nm w pl, [h_id h]) cs /\ thick o cs u t /\
    shows (p_map p') r (hole_form os (snd (fst (slab_form w t))) t) None.
Proof.
  intros H R He Hh. destruct (He Hh) as (s' & u & ty & nm & w & pl & t0 & rr & Hc & Hd & Hb). clear He.
  unfold slab_filling in H. inv H. destruct (thick_slab _ _ _ _ _ H0 R) as [(s1 & u1 & ty1 & nm1 & w1 & pl1 & Hc1 & T) E].
  pose proof (same_call _ _ _ (h_id h) (rd_ids _ _ R) Hc Hc1 (or_introl eq_refl) (or_introl eq_refl)) as EC.
  injection EC as <- <- <- <- <- <-. exists s', u, ty, nm, w, pl, a. split; auto. split; auto.
  pose proof (rd_dense _ _ R) as D. rewrite <- E in Hd, Hb, D.
  assert (ED : forall t, snd (fst (slab_form w t)) = snd (fst (slab_form w t0))).
  { intro t. destruct w as [|[] [] ?|]; reflexivity. }
  rewrite (ED a). destruct os; cbn [hole_form].
  - inv H. destruct (slab_direction_inv _ _ _ _ _ _ H1 Hd Hb) as [-> ->]. eapply rectangular_body; eauto.
  - eapply horizontal_body; eauto.
  - inv H. destruct (slab_direction_inv _ _ _ _ _ _ H1 Hd Hb) as [-> ->]. eapply arbitrary_body; eauto.
Qed.
End Forms.
