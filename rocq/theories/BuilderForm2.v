(** The shapes of the products of programs. *)

From Coq Require Import String Ascii List NArith ZArith Bool Lia Permutation.
From Coq Require Import ZifyBool ZifyNat ZifyN.
From Verif Require Import Base Prims Float Arith Kind Types Schema Entity EntityFacts DataMap DataSpec DataMapFacts
  Extractor Builder BuilderRun BuilderBase BuilderGrow BuilderAny BuilderSpec BuilderRel BuilderRel2 BuilderInv BuilderStep
  BuilderAll BuilderIds HistorySpec BuilderHist BuilderPlace BuilderKeep MoveSpec BuilderMove BuilderMove2 BuilderMove3
  GivenSpec BuilderGiven BuilderGiven2 FormSpec BuilderForm.
Import ListNotations.
Open Scope N_scope.
Open Scope builder_scope.

Section Steps.
Variable o : oracle.
Hypothesis Ho : fair o.

Lemma here_ext cs w p p' : ext p p' -> dense (p_map p) -> here cs w (p_map p) -> here cs w (p_map p').
Proof.
  intros E D H. assert (X : forall h : host, (h_slab h = true ->
      exists s u ty nm sh pl t r, In (s, OSlab u ty nm sh pl, [h_id h]) cs /\ drawn (p_map p) (h_id h) [r] /\ body (p_map p) r (slab_form sh t)) ->
      h_slab h = true ->
      exists s u ty nm sh pl t r, In (s, OSlab u ty nm sh pl, [h_id h]) cs /\ drawn (p_map p') (h_id h) [r] /\ body (p_map p') r (slab_form sh t)).
  { intros h Hh Hs. destruct (Hh Hs) as (s & u & ty & nm & sh & pl & t & r & H1 & H2 & H3).
    exists s, u, ty, nm, sh, pl, t, r. split; auto. split; [eapply drawn_ext; eauto|].
    eapply body_solid; [eapply ext_solid|]; eauto. }
  destruct w; try exact I; cbn [here] in *; apply X, H.
Qed.

Lemma here_more cs c w m : here cs w m -> here (cs ++ [c]) w m.
Proof.
  destruct w; cbn [here]; auto; intros H Hs; destruct (H Hs) as (s' & u & ty & nm & sh & pl & t & r & H1 & H2);
    exists s', u, ty, nm, sh, pl, t, r; (split; [apply in_or_app; auto|auto]).
Qed.

Lemma here_host cs s b st h s' b' st' h' m : h' = h \/ h_id h' = h_id h /\ h_slab h' = h_slab h ->
  here cs (AtHost s b st h) m -> here cs (AtHost s' b' st' h') m.
Proof. intros [->|[E1 E2]] H; [exact H|]. cbn [here] in *. rewrite E1, E2. exact H. Qed.

(** ** Openings and windows *)

Lemma made_drawn m b k n par ax d f v : made m b k n par ax (Some d) -> shows m d f v ->
  exists rs, drawn m n rs /\ depicts m rs f v.
Proof.
  intros (l & pl & a & L & _ & _ & _ & _ & s & N6 & LS & _) (rs & -> & H). exists rs. split; auto.
  exists s. split; auto. unfold shape_of. now rewrite L, N6.
Qed.

Lemma wall_opening_fits cs h name a b v dir st p n st' p' :
  wall_opening o h name a b v dir st p = Done ((n, st'), p') -> ready cs p ->
  exists s u ty nm w pl t, In (s, OWall u ty nm w pl, [h_id h]) cs /\ thick o cs u t /\
    exists rs, drawn (p_map p') n rs /\ depicts (p_map p') rs (Rectangle a t, vnormalize dir, b) None.
Proof.
  intros H R. unfold wall_opening in H. inv H.
  assert (EX : ext p q) by (assert (X : steps ext (axis3d v)) by st; exact (X _ _ _ H0)).
  assert (FX : frame p q) by (assert (X : steps frame (axis3d v)) by st; exact (X _ _ _ H0)).
  pose proof (ready_ext _ _ _ R EX (proj2 FX)) as R1. clear H0.
  inv H. destruct (thick_wall o Ho _ _ _ _ _ H0 R1) as [(s & u & ty & nm & w & pl & Hc & T) E]. clear H0.
  exists s, u, ty, nm, w, pl, a1. split; auto. split; auto.
  pose proof (rd_dense _ _ R1) as D. rewrite <- E in D. inv H. pose proof (rectangular_body _ _ _ _ _ _ _ _ H0 D) as HS.
  ext_of H0. destruct (place_opening_made o _ _ _ _ _ _ _ _ _ H D0) as (l & q3 & _ & _ & M). ext_of H.
  eapply made_drawn; [exact M|]. eapply shows_solid; [|exact HS]. eapply ext_solid; eauto.
Qed.

Lemma slab_opening_fits cs s b h name os st p n st' p' :
  slab_opening o h name os st p = Done ((n, st'), p') -> ready cs p -> here cs (AtHost s b st h) (p_map p) -> h_slab h = true ->
  exists s' u ty nm w pl t, In (s', OSlab u ty nm w pl, [h_id h]) cs /\ thick o cs u t /\
    exists rs, drawn (p_map p') n rs /\ depicts (p_map p') rs (hole_form os (snd (fst (slab_form w t))) t) None.
Proof.
  intros H R He Hh. unfold slab_opening in H. inv H.
  destruct (slab_filling_shows o Ho _ _ _ _ _ _ _ _ _ _ H0 R He Hh) as (s' & u & ty & nm & w & pl & t & Hc & T & HS).
  exists s', u, ty, nm, w, pl, t. split; auto. split; auto. pose proof (rd_dense _ _ R) as D.
  ext_of H0. inv H. destruct (axis3d_inv _ _ _ _ H1 D0) as (pt & -> & _ & E1 & D1).
  destruct (place_opening_made o _ _ _ _ _ _ _ _ _ H D1) as (l & q3 & _ & _ & M). ext_of H.
  eapply made_drawn; [exact M|]. eapply shows_solid; [|exact HS]. eapply ext_solid; [eapply pre_trans; eauto|auto].
Qed.

Lemma depicts_up p p' n f ax : ext p p' -> dense (p_map p) ->
  (exists rs, drawn (p_map p) n rs /\ depicts (p_map p) rs f ax) ->
  exists rs, drawn (p_map p') n rs /\ depicts (p_map p') rs f ax.
Proof.
  intros E D (rs & H1 & H2). exists rs. split; [eapply drawn_ext; eauto|]. eapply depicts_solid; eauto using ext_solid.
Qed.

Lemma window_drawn m ty op name shape st p n st' p' f ax :
  place_window o m ty op name shape st p = Done ((n, st'), p') -> dense (p_map p) -> shows (p_map p) shape f ax ->
  exists rs, drawn (p_map p') n rs /\ depicts (p_map p') rs f ax.
Proof.
  intros H D HS. destruct (place_window_made o _ _ _ _ _ _ _ _ _ _ H D) as (l & q & _ & _ & HP). ext_of H.
  eapply placed_drawn; [exact HP|]. eapply shows_solid; [|exact HS]. eapply ext_solid; eauto.
Qed.

Lemma opening_frame h name a b v dir st p n st' p' :
  wall_opening o h name a b v dir st p = Done ((n, st'), p') -> dense (p_map p) -> p_assoc p' = p_assoc p.
Proof. intros H D. destruct (eff_wall_opening o _ _ _ _ _ _ _ _ _ _ _ H D) as (_ & _ & _ & _ & A). exact A. Qed.
Lemma hole_frame h name s st p n st' p' :
  slab_opening o h name s st p = Done ((n, st'), p') -> dense (p_map p) -> p_assoc p' = p_assoc p.
Proof. intros H D. destruct (eff_slab_opening o _ _ _ _ _ _ _ _ H D) as (_ & _ & _ & _ & A). exact A. Qed.

Lemma host_step_fits cs s b st h x p st' h' a p' :
  host_step o st h x p = Done ((st', h', a), p') -> ready cs p -> here cs (AtHost s b st h) (p_map p) ->
  forall c, c = (scope_ids (AtHost s b st h), x, a) ->
  Forall (fun kn => fits o cs c (p_map p') (snd kn)) (call_products c).
Proof.
  intros H R He c ->. pose proof (rd_dense _ _ R) as D. unfold host_step in H.
  destruct x; try discriminate; destruct (h_slab h) eqn:Hh; try discriminate.
  - inv H. destruct a0 as [n st1]. apply bret_inv in H as [E ->]. injection E as -> -> ->.
    destruct (wall_opening_fits _ _ _ _ _ _ _ _ _ _ _ _ H0 R) as (s' & u & ty & nm & w & pl & t & Hc & T & rs & G1 & G2).
    repeat constructor. exists (Rectangle length t, vnormalize dir, height), None, rs. split; auto. cbn [snd scope_ids].
    eapply form_wall_opening; eauto.
  - inv H. destruct a0 as [n st1]. apply bret_inv in H as [E ->]. injection E as -> -> ->.
    destruct (slab_opening_fits _ _ _ _ _ _ _ _ _ _ _ H0 R He Hh) as (s' & u & ty & nm & w & pl & t & Hc & T & rs & G1 & G2).
    repeat constructor. do 3 eexists. split; [|split; [exact G1|exact G2]]. cbn [snd scope_ids].
    eapply form_slab_opening; eauto.
  - inv H. destruct a0 as [[n1 w1] st1]. apply bret_inv in H as [E ->]. injection E as -> -> ->.
    destruct (wall_window_made o _ _ _ _ _ _ _ _ _ _ _ _ _ _ H0 D) as (p1 & p2 & p3 & d & st2 & O1 & O2 & O3 & ->).
    pose proof (opening_frame _ _ _ _ _ _ _ _ _ _ _ O1 D) as EF. ext_of O1.
    destruct (wall_opening_fits _ _ _ _ _ _ _ _ _ _ _ _ O1 R) as (s' & u & ty' & nm & w & pl & t & Hc & T & G).
    change (vnormalize v_z) with (direction_from v_z) in G. rewrite unit_z in G. inv O2.
    pose proof (ready_ext _ _ _ R E EF) as R1.
    destruct (thick_wall o Ho _ _ _ _ _ H R1) as [(s2 & u2 & ty2 & nm2 & w2 & pl2 & Hc2 & T2) EM].
    ext_of H. pose proof (rectangular_body _ _ _ _ _ _ _ _ O2 D1) as HS. ext_of O2.
    pose proof (window_drawn _ _ _ _ _ _ _ _ _ _ _ _ O3 D2 HS) as (rs2 & K1 & K2). ext_of O3.
    apply (depicts_up _ _ _ _ _ (pre_trans _ _ _ E0 (pre_trans _ _ _ E1 E2)) D0) in G as (rs & G1 & G2).
    cbn [call_products]. constructor; [|constructor; [|constructor]]; cbn [snd scope_ids].
    + do 3 eexists. split; [|split; [exact G1|exact G2]]. eapply form_wall_window_hole; [exact Hc|exact T].
    + do 3 eexists. split; [|split; [exact K1|exact K2]]. eapply form_wall_window; [exact Hc2|exact T2].
  - inv H. destruct a0 as [[n1 w1] st1]. apply bret_inv in H as [E ->]. injection E as -> -> ->.
    destruct (slab_window_made o _ _ _ _ _ _ _ _ _ _ _ H0 D) as (p1 & p2 & p3 & d & st2 & O1 & O2 & O3 & ->).
    pose proof (hole_frame _ _ _ _ _ _ _ _ O1 D) as EF. ext_of O1.
    destruct (slab_opening_fits _ _ _ _ _ _ _ _ _ _ _ O1 R He Hh) as (s' & u & ty' & nm & w & pl & t & Hc & T & G).
    pose proof (ready_ext _ _ _ R E EF) as R1. pose proof (here_ext _ _ _ _ E D He) as He1.
    destruct (slab_filling_shows o Ho _ _ _ _ _ _ _ _ _ _ O2 R1 He1 Hh) as (s2 & u2 & ty2 & nm2 & w2 & pl2 & t2 & Hc2 & T2 & HS).
    ext_of O2. pose proof (window_drawn _ _ _ _ _ _ _ _ _ _ _ _ O3 D1 HS) as (rs2 & K1 & K2). ext_of O3.
    apply (depicts_up _ _ _ _ _ (pre_trans _ _ _ E0 E1) D0) in G as (rs & G1 & G2).
    cbn [call_products]. constructor; [|constructor; [|constructor]]; cbn [snd scope_ids].
    + do 3 eexists. split; [|split; [exact G1|exact G2]]. eapply form_slab_window_hole; [exact Hc|exact T].
    + do 3 eexists. split; [|split; [exact K1|exact K2]]. eapply form_slab_window; [exact Hc2|exact T2].
  - constructor.
  - constructor.
Qed.

(** ** Single calls *)

Lemma storey_step_fits cs st x p st' a p' :
  storey_step o st x p = Done ((st', a), p') -> ready cs p -> Forall (source cs) (used x) ->
  forall s, Forall (fun kn => fits o cs (s, x, a) (p_map p') (snd kn)) (call_products (s, x, a)).
Proof.
  intros H R U s. pose proof (rd_dense _ _ R) as D. destruct x; cbn [storey_step] in H; try discriminate;
    try (inv H; apply bret_inv in H as [E ->]; injection E as -> ->; constructor; fail);
    try (inv H; destruct a0 as [n1 st1]; apply bret_inv in H as [E ->]; injection E as -> ->; constructor; fail).
  - destruct c; try discriminate; inv H; destruct a0 as [n1 st1]; apply bret_inv in H as [E ->]; injection E as -> ->; constructor.
  - inv H. destruct a0 as [n1 st1]. apply bret_inv in H as [E ->]. injection E as -> ->.
    cbn [used] in U. inversion U as [|? ? U1 _]; subst. pose proof (new_roof_made o _ _ _ _ _ _ _ _ _ _ H0 D) as M.
    destruct (shaped_thick o _ _ _ _ _ _ _ _ _ _ M R U1) as (t & T & M1).
    repeat constructor. cbn [snd]. eapply shaped_fits; [exact M1| |apply form_roof; exact T].
    intros b p1 Hb. eapply horizontal_body; eauto.
  - inv H. destruct a0 as [n1 st1]. apply bret_inv in H as [E ->]. injection E as -> ->.
    cbn [used] in U. inversion U as [|? ? U1 _]; subst. pose proof (new_shading_made o _ _ _ _ _ _ _ _ _ _ _ H0 D) as M.
    destruct (shaped_thick o _ _ _ _ _ _ _ _ _ _ M R U1) as (t & T & M1).
    repeat constructor. cbn [snd]. eapply shaped_fits; [exact M1| |apply form_shading; exact T].
    intros b p1 Hb. rewrite unit_z in Hb. eapply rectangular_body; eauto.
  - inv H. destruct a0 as [n1 st1]. apply bret_inv in H as [E ->]. injection E as -> ->.
    pose proof (new_space_shaped o _ _ _ _ _ _ _ _ _ _ H0 D) as M.
    repeat constructor. cbn [snd]. eapply shaped_fits; [exact M| |apply form_space].
    intros b p1 Hb. eapply horizontal_body; eauto.
  - destruct (existsb (kind_eqb k) transformable); [|discriminate]. inv H. apply bret_inv in H as [E ->]. injection E as -> ->.
    constructor.
Qed.

Lemma step_fits cs w x p w' a p' :
  step o w x p = Done ((w', a), p') -> ready cs p -> here cs w (p_map p) -> Forall (source cs) (used x) ->
  Forall (fun kn => fits o cs (scope_ids w, x, a) (p_map p') (snd kn)) (call_products (scope_ids w, x, a)).
Proof.
  intros H R He U. pose proof (rd_dense _ _ R) as D.
  destruct w as [|s|s b|s b st|s b st h|s b st h nm ps|s b st nm ps]; destruct x; try discriminate H;
    cbn [step] in H;
    try (inv H; destruct a0 as [st1 l1]; apply bret_inv in H as [E ->]; injection E as -> ->;
         match goal with H0 : storey_step _ _ _ _ = _ |- _ => exact (storey_step_fits _ _ _ _ _ _ _ H0 R U _) end);
    try (inv H; destruct a0 as [[st1 h1] l1]; apply bret_inv in H as [E ->]; injection E as -> ->;
         match goal with H0 : host_step _ _ _ _ _ = _ |- _ => exact (host_step_fits _ _ _ _ _ _ _ _ _ _ _ H0 R He _ eq_refl) end);
    try (inv H; discriminate); try (destruct a; constructor).
  - inv H. destruct a0 as [n st1]. apply bret_inv in H as [E ->]. injection E as -> ->.
    cbn [used] in U. inversion U as [|? ? U1 _]; subst. repeat constructor. cbn [snd].
    eapply wall_fits; eauto. eapply new_wall_made; eauto.
  - inv H. destruct a0 as [n st1]. apply bret_inv in H as [E ->]. injection E as -> ->.
    cbn [used] in U. inversion U as [|? ? U1 _]; subst. repeat constructor. cbn [snd].
    destruct (slab_fits o _ [s_id st; fst b; fst s] material ty name s0 place _ _ _ _ _ _ (new_slab_made o _ _ _ _ _ _ _ _ _ _ H0 D) R U1)
      as (t & T & rs & G1 & G2 & F). exists (slab_form s0 t), None, rs. auto.
Qed.

Lemma step_here cs w x p w' a p' :
  step o w x p = Done ((w', a), p') -> ready cs p -> here cs w (p_map p) -> Forall (source cs) (used x) ->
  here (cs ++ [(scope_ids w, x, a)]) w' (p_map p').
Proof.
  intros H R He U. pose proof (rd_dense _ _ R) as D.
  destruct w as [|s|s b|s b st|s b st h|s b st h nm ps|s b st nm ps]; destruct x; try discriminate H;
    cbn [step] in H;
    try (inv H; destruct a0 as [st1 l1]; apply bret_inv in H as [E ->]; injection E as -> ->; exact I);
    try (inv H; apply bret_inv in H as [E ->]; injection E as -> ->; exact I);
    try (inv H; destruct a0 as [[st1 h1] l1]; apply bret_inv in H as [E ->]; injection E as -> ->;
         match goal with H0 : host_step _ ?st ?h ?x _ = _ |- _ =>
           assert (HH : h1 = h \/ h_id h1 = h_id h /\ h_slab h1 = h_slab h)
             by (unfold host_step in H0; destruct (h_slab h); try discriminate H0;
                 first [inv H0; destruct a as [? ?]; apply bret_inv in H0 as [E2 ->]; injection E2 as -> -> ->; auto
                       |inv H0; destruct a as [[? ?] ?]; apply bret_inv in H0 as [E2 ->]; injection E2 as -> -> ->; auto
                       |apply bret_inv in H0 as [E2 ->]; injection E2 as -> -> ->; auto])
         end).
  - inv H. destruct a0 as [n st1]. apply bret_inv in H as [E ->]. injection E as -> ->. intro X. discriminate X.
  - inv H. destruct a0 as [n st1]. apply bret_inv in H as [E ->]. injection E as -> ->. intros _.
    cbn [used] in U. inversion U as [|? ? U1 _]; subst.
    destruct (slab_fits o _ [s_id st; fst b; fst s] material ty name s0 place _ _ _ _ _ _ (new_slab_made o _ _ _ _ _ _ _ _ _ _ H0 D) R U1)
      as (t & T & rs & G1 & (r & -> & G2) & F). cbn [h_id scope_ids].
    exists [s_id st; fst b; fst s], material, ty, name, s0, place, t, r. split; auto. apply in_or_app. right. now left.
  - apply bret_inv in H as [E ->]. injection E as -> ->. exact I.
  - ext_of H0. apply here_more. eapply here_host; [exact HH|]. exact (here_ext _ _ _ _ E D He).
  - ext_of H0. apply here_more. eapply here_host; [exact HH|]. exact (here_ext _ _ _ _ E D He).
  - ext_of H0. apply here_more. eapply here_host; [exact HH|]. exact (here_ext _ _ _ _ E D He).
  - ext_of H0. apply here_more. eapply here_host; [exact HH|]. exact (here_ext _ _ _ _ E D He).
  - ext_of H0. apply here_more. eapply here_host; [exact HH|]. exact (here_ext _ _ _ _ E D He).
  - destruct (h_slab h) eqn:Hh; [discriminate H|]. apply bret_inv in H as [E ->]. injection E as -> ->.
    apply here_more. exact He.
  - inv H. inv H. apply bret_inv in H as [E ->]. injection E as -> ->. ext_of H0. ext_of H1. apply here_more.
    exact (here_ext _ _ _ _ (pre_trans _ _ _ E E0) D He).
  - inv H. apply bret_inv in H as [E ->]. injection E as -> ->. ext_of H0. apply here_more.
    exact (here_ext _ _ _ _ E D He).
  - apply bret_inv in H as [E ->]. injection E as -> ->. exact I.
Qed.

Lemma step_layer w x p w' a p' :
  step o w x p = Done ((w', a), p') -> dense (p_map p) -> layer_kept (p_map p') (scope_ids w, x, a).
Proof.
  intros H D. destruct x; try exact I. destruct w; try discriminate H. cbn [step storey_step] in H.
  inv H. inv H0. apply bret_inv in H0 as [-> ->]. apply bret_inv in H as [E ->]. injection E as -> ->.
  unfold material_layer, material in H1. inv H1. fw. cbn [layer_kept]. eauto.
Qed.

(** ** Runs *)

Lemma nodup_left {A} (l l' : list A) : NoDup (l ++ l') -> NoDup l /\ NoDup l'.
Proof.
  induction l as [|x l IH]; cbn [app]; intro H; [split; [constructor|auto]|]. inversion H as [|? ? H1 H2]; subst.
  destruct (IH H2). split; auto. constructor; auto. intro Hi. apply H1. apply in_or_app. auto.
Qed.


Lemma run_layers xs : forall w p w' ls p',
  run o w xs p = Done ((w', ls), p') -> dense (p_map p) -> rooted (p_map p) w ->
  Forall (layer_kept (p_map p')) (calls (scope_ids w) xs ls).
Proof.
  induction xs as [|x xs IH]; intros w p w' ls p' H D R; cbn [run] in H.
  - apply bret_inv in H as [E ->]. injection E as -> ->. constructor.
  - inv H. destruct a as [w1 a]. inv H. destruct a0 as [w2 l]. apply bret_inv in H as [E ->]. injection E as -> ->.
    destruct (step_place o _ _ _ _ _ _ H0 D R) as (R1 & _ & E1).
    pose proof (step_layer _ _ _ _ _ _ H0 D) as G.
    assert (GS : grow anything p q) by (assert (X : steps (grow anything) (step o w x)) by st; exact (X _ _ _ H0)).
    pose proof (proj1 (GS D)) as D1.
    pose proof (run_grow o _ _ _ _ _ H1) as G2. cbn [calls]. rewrite <- E1. constructor; [|eauto].
    eapply layer_kept_solid; [|exact G]. eapply grow_solid; eauto.
Qed.

Definition heard (known : list (kind * N)) (cs : list call) : Prop := forall q, In q known -> source cs q.

Lemma source_app cs cs' q : source cs q -> source (cs ++ cs') q.
Proof. intros (s & x & a & H1 & H2). exists s, x, a. split; auto. apply in_or_app. auto. Qed.

Lemma sourced_step known cs s x a : heard known cs -> sourced cs -> incl (used x) known ->
  heard (returned x a ++ known) (cs ++ [(s, x, a)]) /\ sourced (cs ++ [(s, x, a)]).
Proof.
  intros H S U. split.
  - intros q Hq. apply in_app_iff in Hq as [Hq|Hq]; [|apply source_app; auto].
    exists s, x, a. split; auto. apply in_or_app. right. now left.
  - intros s' x' a' Hi. apply in_app_iff in Hi as [Hi|[E|[]]].
    + eapply Forall_impl; [|exact (S _ _ _ Hi)]. intro. apply source_app.
    + injection E as <- <- <-. apply Forall_forall. intros q Hq. apply source_app. auto.
Qed.

Lemma sourced_calls xs : forall ls alive known cs,
  honest known xs ls -> length xs = length ls -> heard known cs -> sourced cs ->
  heard (learn known xs ls) (cs ++ calls alive xs ls) /\ sourced (cs ++ calls alive xs ls).
Proof.
  induction xs as [|x xs IH]; intros [|a ls] alive known cs HH L H S; try discriminate L; cbn [learn calls].
  - rewrite app_nil_r. auto.
  - destruct HH as (U & _ & HH). injection L as L.
    destruct (sourced_step _ _ alive _ a H S U) as [H1 S1].
    destruct (IH ls (alive_after alive x a) _ _ HH L H1 S1) as [H2 S2]. rewrite <- app_assoc in H2, S2. auto.
Qed.

Lemma calls_returns xs : forall ls alive, length xs = length ls -> flat_map snd (calls alive xs ls) = concat ls.
Proof.
  induction xs as [|x xs IH]; intros [|a ls] alive L; try discriminate L; auto. cbn [calls flat_map concat snd].
  injection L as L. now rewrite IH.
Qed.

(** What holds between two calls. *)
Lemma run_here xs : forall pr known cs w p w' ls p',
  run o w xs p = Done ((w', ls), p') -> rooted (p_map p) w -> ri pr known w cs p -> heard known cs ->
  ready cs p -> here cs w (p_map p) -> honest known xs ls -> NoDup (flat_map snd cs ++ concat ls) ->
  exists known', ri pr known' w' (cs ++ calls (scope_ids w) xs ls) p' /\ heard (learn known xs ls) (cs ++ calls (scope_ids w) xs ls) /\
    rooted (p_map p') w' /\
    ready (cs ++ calls (scope_ids w) xs ls) p' /\ here (cs ++ calls (scope_ids w) xs ls) w' (p_map p').
Proof.
  induction xs as [|x xs IH]; intros pr known cs w p w' ls p' H RT RI HE RD HR HH ND; cbn [run] in H.
  - apply bret_inv in H as [E ->]. injection E as -> ->. cbn [calls learn]. rewrite app_nil_r. eauto 6.
  - inv H. destruct a as [w1 a]. inv H. destruct a0 as [w2 l]. apply bret_inv in H as [E ->]. injection E as -> ->.
    destruct HH as (U & UA & HH). pose proof (rd_dense _ _ RD) as D.
    destruct (step_place o _ _ _ _ _ _ H0 D RT) as (RT1 & _ & E1).
    destruct (step_ri o Ho _ _ _ _ _ _ _ _ _ RI H0 U) as [RI1 _].
    destruct (sourced_step _ _ (scope_ids w) _ a HE (rd_used _ _ RD) U) as [HE1 SO1].
    assert (SU : Forall (source cs) (used x)) by (apply Forall_forall; intros q1 Hq; apply HE; auto).
    pose proof (step_here _ _ _ _ _ _ _ H0 RD HR SU) as HR1.
    assert (GS : grow anything p q) by (assert (X : steps (grow anything) (step o w x)) by st; exact (X _ _ _ H0)).
    pose proof (grow_solid _ _ GS D) as S.
    cbn [concat] in ND. rewrite app_assoc in ND.
    assert (EN : flat_map snd (cs ++ [(scope_ids w, x, a)]) = flat_map snd cs ++ a).
    { rewrite flat_map_app. cbn [flat_map snd]. now rewrite app_nil_r. }
    assert (RD1 : ready (cs ++ [(scope_ids w, x, a)]) q).
    { split; auto.
      - apply (GS D).
      - apply RI1.
      - apply Forall_app. split.
        + eapply Forall_impl; [|exact (rd_given _ _ RD)]. intro. now apply gives_solid.
        + constructor; [|constructor]. eapply step_given; eauto.
      - apply Forall_app. split.
        + eapply Forall_impl; [|exact (rd_layer _ _ RD)]. intro. now apply layer_kept_solid.
        + constructor; [|constructor]. eapply step_layer; eauto.
      - rewrite EN. clear - ND. exact (proj1 (nodup_left _ _ ND)). }
    rewrite <- EN in ND.
    destruct (IH _ _ _ _ _ _ _ _ H1 RT1 RI1 HE1 RD1 HR1 HH ND) as (known' & A1 & A2 & A3 & A4 & A5).
    exists known'. cbn [calls learn]. rewrite E1 in *. rewrite <- app_assoc in *. auto.
Qed.

Lemma start_ready i p0 : start o i = Done p0 -> ready [] p0.
Proof.
  intro H. pose proof (start_ri o _ _ H) as RI. split; try constructor; try apply RI.
  - intros s x a [].
Qed.

Lemma reached_fits i xs ls x a m c k n :
  reached o i (xs ++ [x]) (ls ++ [a]) m -> honest [] (xs ++ [x]) (ls ++ [a]) -> length xs = length ls ->
  calls [] (xs ++ [x]) (ls ++ [a]) = calls [] xs ls ++ [c] -> In (k, n) (call_products c) ->
  fits o (calls [] xs ls) c m n.
Proof.
  intros (p0 & w' & p' & H0 & HR & ->) HH HL EC HI. pose proof (start_ri o _ _ H0) as RI0. pose proof (start_ready _ _ H0) as RD0. clear H0.
  pose proof (rd_dense _ _ RD0) as D0.
  destruct (run_ids o _ _ _ _ _ _ HR D0) as (LA & _ & _). apply ladder_sorted, sorted_NoDup in LA.
  destruct (run_app o _ _ _ _ _ _ _ HR) as (w & l1 & p & l2 & R1 & R2 & E).
  assert (HL1 : length l1 = length xs) by apply (run_ids o _ _ _ _ _ _ R1 D0).
  assert (l1 = ls /\ l2 = [a]) as [-> ->].
  { clear - E HL HL1. rewrite HL in HL1. clear HL. revert l1 HL1 E. induction ls as [|b ls IH]; intros [|b1 l1] HL1 E; try discriminate HL1; auto.
    injection E as <- E. injection HL1 as HL1. destruct (IH _ HL1 E) as [-> ->]. auto. }
  clear E HL1. destruct (run_calls o _ [x] [a] _ _ _ _ _ R1 D0 ltac:(now left)) as [_ EC1]. cbn [scope_ids] in EC1.
  rewrite EC1 in EC. apply app_inv_head in EC. cbn [calls] in EC. injection EC as <-.
  apply (honest_app _ _ _ _ _ HL) in HH as [HA HB].
  rewrite concat_app in LA. destruct (nodup_left _ _ LA) as [LA1 _].
  destruct (run_here _ _ _ [] _ _ _ _ _ R1 ltac:(now left) RI0 ltac:(intros ? []) RD0 I HA LA1) as (kn & RI & HE & RT & RD & HR1).
  cbn [scope_ids app] in *. cbn [run] in R2. inv R2. destruct a0 as [w1 a1]. inv R2. destruct a0 as [w2 l2].
  apply bret_inv in H0 as [E ->]. injection E as -> ->. apply bret_inv in R2 as [E ->]. injection E as -> ->.
  destruct HB as (U & _ & _).
  assert (SU : Forall (source (calls [] xs ls)) (used x)) by (apply Forall_forall; intros q1 Hq; apply HE; auto).
  pose proof (step_fits _ _ _ _ _ _ _ H RD HR1 SU) as F. rewrite Forall_forall in F. exact (F _ HI).
Qed.

Lemma calls_split xs : forall ls alive cs c ds,
  calls alive xs ls = cs ++ c :: ds ->
  exists xs1 x ys ls1 a l2, xs = xs1 ++ x :: ys /\ ls = ls1 ++ a :: l2 /\ length xs1 = length ls1 /\
    calls alive xs1 ls1 = cs /\ calls alive (xs1 ++ [x]) (ls1 ++ [a]) = cs ++ [c].
Proof.
  induction xs as [|x xs IH]; intros [|a ls] alive cs c ds H; try (destruct cs; discriminate H). cbn [calls] in H.
  destruct cs as [|c1 cs]; cbn [app] in H; injection H as <- H.
  - exists [], x, xs, [], a, ls. cbn. auto.
  - destruct (IH _ _ _ _ _ H) as (xs1 & x1 & ys & ls1 & a1 & l2 & -> & -> & E1 & E2 & E3).
    exists (x :: xs1), x1, ys, (a :: ls1), a1, l2. cbn [app length calls]. rewrite E2, E3, E1. auto.
Qed.

Lemma built_fits i xs ls r cs c ds k n :
  program o i xs = Done (ls, r) -> honest [] xs ls -> calls [] xs ls = cs ++ c :: ds -> In (k, n) (call_products c) ->
  exists f ax rs rs' mvs, form_of o cs c n f ax /\ depicts (p_map r) rs f ax /\ journey n (cs ++ [c]) ds mvs /\
    drawn (p_map r) n rs' /\ Forall2 (moved (p_map r) mvs) rs' rs.
Proof.
  intros HP HH EC HI. destruct (calls_split _ _ _ _ _ _ EC) as (xs1 & x & ys & ls1 & a & l2 & -> & -> & EL & <- & EC1).
  change (x :: ys) with ([x] ++ ys) in *. change (a :: l2) with ([a] ++ l2) in *.
  rewrite (app_assoc xs1), (app_assoc ls1) in HP, HH, EC.
  assert (HR : exists m, reached o i (xs1 ++ [x]) (ls1 ++ [a]) m).
  { pose proof HP as HP1. apply program_inv in HP1 as (p & w & q & H1 & H2 & -> & H3).
    pose proof (start_ready _ _ H1) as RD0. pose proof (rd_dense _ _ RD0) as D0.
    destruct (run_app o _ _ _ _ _ _ _ H2) as (w1 & m1 & p1 & m2 & R1 & R2 & E).
    assert (HL1 : length m1 = length (xs1 ++ [x])) by apply (run_ids o _ _ _ _ _ _ R1 D0).
    assert (m1 = ls1 ++ [a]) as ->.
    { assert (HL : length (ls1 ++ [a]) = length m1) by (rewrite HL1, !app_length, EL; reflexivity).
      clear - E HL. revert E HL. generalize (ls1 ++ [a]). intros l E HL. revert m1 E HL.
      induction l as [|b l IH]; intros [|b1 m1] E HL; try discriminate HL; auto. injection E as <- E. injection HL as HL. f_equal. auto. }
    exists (p_map p1), p, w1, p1. auto. }
  destruct HR as [m HR].
  assert (HL2 : length (xs1 ++ [x]) = length (ls1 ++ [a])) by (rewrite !app_length, EL; reflexivity).
  pose proof (proj1 (honest_app _ _ _ _ _ HL2) HH) as [HA _].
  destruct (reached_fits _ _ _ _ _ _ _ _ _ HR HA EL EC1 HI) as (f & ax & rs & F & DR & DP).
  assert (EC2 : calls [] ((xs1 ++ [x]) ++ ys) ((ls1 ++ [a]) ++ l2) = calls [] (xs1 ++ [x]) (ls1 ++ [a]) ++ ds).
  { rewrite EC, EC1, <- app_assoc. reflexivity. }
  destruct (journey_exists n ds (calls [] (xs1 ++ [x]) (ls1 ++ [a]))) as [mvs J].
  assert (HI2 : In (k, n) (flat_map call_products (calls [] (xs1 ++ [x]) (ls1 ++ [a])))).
  { rewrite EC1, flat_map_app. apply in_or_app. right. cbn [flat_map]. rewrite app_nil_r. exact HI. }
  destruct (built_moved o Ho _ _ _ _ _ _ _ _ _ _ HR HP HH HI2 _ EC2 J) as (rs1 & rs' & D1 & D2 & FM).
  assert (rs1 = rs) as ->.
  { destruct DR as (s & Hs & L), D1 as (s' & Hs' & L'). rewrite Hs in Hs'. injection Hs' as <-. rewrite L in L'.
    injection L' as E. clear - E. revert rs1 E. induction rs as [|y l IH]; intros [|z l'] E; try discriminate E; auto.
    injection E as -> E. f_equal. auto. }
  exists f, ax, rs, rs', mvs. rewrite EC1 in J. split; auto. split; [|auto].
  assert (S : solid m (p_map r)).
  { pose proof (reached_dense o _ _ _ _ HR) as Dm. destruct HR as (p0 & w & p & H1 & H2 & ->).
    apply program_inv in HP as (p1 & w1 & q & H3 & H4 & -> & H5).
    assert (E : p0 = p1) by (clear H2 H4; revert H1 H3; generalize (start o i); congruence). subst p1. clear H1 H3.
    destruct (run_app o _ _ _ _ _ _ _ H4) as (w2 & m1 & p2 & m2 & R1 & R2 & E).
    rewrite H2 in R1. injection R1 as <- <- <-.
    pose proof (grow_solid _ _ (run_grow o _ _ _ _ _ R2) Dm) as S1.
    pose proof (proj1 (run_grow o _ _ _ _ _ R2 Dm)) as Dq.
    assert (Eb : ext q r) by (assert (X : steps ext (build o)) by st; exact (X _ _ _ H5)).
    intros n0 e K L. apply (ext_solid _ _ Eb Dq); auto. }
  eapply depicts_solid; eauto.
Qed.

(** ** The form is determined *)

Lemma layered_fun cs u ds ds' : NoDup (flat_map snd cs) -> layered cs u ds -> layered cs u ds' -> ds = ds'.
Proof.
  intros ND (s1 & s2 & set & dir & sense & off & ls & H1 & H2 & F) (t1 & t2 & set' & dir' & sense' & off' & ls' & H1' & H2' & F').
  pose proof (same_call _ _ _ u ND H1 H1' (or_introl eq_refl) (or_introl eq_refl)) as E. injection E as <- <- <- <- <-.
  pose proof (same_call _ _ _ set ND H2 H2' (or_introl eq_refl) (or_introl eq_refl)) as E. injection E as <- <-.
  clear - F F' ND. revert ds' F'. induction F as [|n d ls ds (s & name & l & Hc & Hn) F IH]; intros ds' F'; inversion F' as [|? d' ? ? (s' & name' & l' & Hc' & Hn') F1]; subst; auto.
  pose proof (same_call _ _ _ n ND Hc Hc' (or_introl eq_refl) (or_introl eq_refl)) as E. injection E as <- <- <-.
  f_equal; [congruence|auto].
Qed.

Lemma thick_fun cs u t t' : NoDup (flat_map snd cs) -> thick o cs u t -> thick o cs u t' -> t = t'.
Proof. intros ND (ds & H & ->) (ds' & H' & ->). now rewrite (layered_fun _ _ _ _ ND H H'). Qed.

Lemma form_fun cs c n f ax f' ax' : NoDup (flat_map snd (cs ++ [c])) ->
  form_of o cs c n f ax -> form_of o cs c n f' ax' -> f = f' /\ ax = ax'.
Proof.
  intros ND H H'. rewrite flat_map_app in ND. cbn [flat_map] in ND. rewrite app_nil_r in ND.
  destruct (nodup_left _ _ ND) as [NC NA].
  assert (W : forall s u ty nm w pl s' u' ty' nm' w' pl' h t t',
    In (s, OWall u ty nm w pl, [h]) cs -> In (s', OWall u' ty' nm' w' pl', [h]) cs -> thick o cs u t -> thick o cs u' t' -> t = t').
  { intros until t'. intros H1 H2 T1 T2. pose proof (same_call _ _ _ h NC H1 H2 (or_introl eq_refl) (or_introl eq_refl)) as E.
    injection E as <- <- <- <- <- <-. eapply thick_fun; eauto. }
  assert (S : forall s u ty nm w pl s' u' ty' nm' w' pl' h t t',
    In (s, OSlab u ty nm w pl, [h]) cs -> In (s', OSlab u' ty' nm' w' pl', [h]) cs -> thick o cs u t -> thick o cs u' t' -> t = t' /\ w = w').
  { intros until t'. intros H1 H2 T1 T2. pose proof (same_call _ _ _ h NC H1 H2 (or_introl eq_refl) (or_introl eq_refl)) as E.
    injection E as <- <- <- <- <- <-. split; auto. eapply thick_fun; eauto. }
  assert (N2 : forall q : N, ~ NoDup [q; q]).
  { intros q HN. inversion HN as [|? ? X]; subst. apply X. now left. }
  inversion H; subst; inversion H'; subst; cbn [snd] in NA;
    try (exfalso; eapply N2; eassumption);
    try (match goal with A : thick o cs ?u ?t, B : thick o cs ?u ?t' |- _ => pose proof (thick_fun _ _ _ _ NC A B); subst end; auto; fail);
    try (match goal with A : In (_, OWall ?u _ _ _ _, [?h]) cs, B : In (_, OWall ?u' _ _ _ _, [?h]) cs,
           C : thick o cs ?u ?t, E : thick o cs ?u' ?t' |- _ => pose proof (W _ _ _ _ _ _ _ _ _ _ _ _ _ _ _ A B C E); subst end; auto; fail);
    try (match goal with A : In (_, OSlab ?u _ _ _ _, [?h]) cs, B : In (_, OSlab ?u' _ _ _ _, [?h]) cs,
           C : thick o cs ?u ?t, E : thick o cs ?u' ?t' |- _ => destruct (S _ _ _ _ _ _ _ _ _ _ _ _ _ _ _ A B C E); subst end; auto; fail);
    auto.
Qed.

Lemma reached_form_fun i xs ls m cs c n f ax f' ax' : reached o i xs ls m -> calls [] xs ls = cs ++ [c] ->
  form_of o cs c n f ax -> form_of o cs c n f' ax' -> f = f' /\ ax = ax'.
Proof.
  intros (p0 & w & p & H1 & H2 & _) EC F1 F2. apply start_inv in H1 as (D & _).
  destruct (run_ids o _ _ _ _ _ _ H2 D) as (LA & _ & EL).
  assert (X : NoDup (flat_map snd (calls [] xs ls))).
  { rewrite calls_returns by auto. eapply sorted_NoDup, ladder_sorted, LA. }
  rewrite EC in X. exact (form_fun cs c n f ax f' ax' X F1 F2).
Qed.
End Steps.
