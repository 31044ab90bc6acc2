(** What transforms do to the representations of products. *)

From Coq Require Import String Ascii List NArith ZArith Bool Lia Permutation.
From Coq Require Import ZifyBool ZifyNat ZifyN.
From Verif Require Import Base Prims Float Arith Kind Types Schema Entity EntityFacts DataMap DataSpec DataMapFacts
  Extractor Builder BuilderRun BuilderBase BuilderGrow BuilderAny BuilderSpec BuilderRel BuilderRel2 BuilderInv BuilderAll
  HistorySpec BuilderHist BuilderPlace MoveSpec.
Import ListNotations.
Open Scope N_scope.
Open Scope builder_scope.

Ltac inv H :=
  match type of H with
  | bbind _ _ _ = Done _ => let a := fresh "a" in let q := fresh "q" in let H1 := fresh "H" in
      apply bbind_inv in H as (a & q & H1 & H)
  end.

Lemma Forall2_impl {A C} (R R' : A -> C -> Prop) l l' :
  (forall a b, R a b -> R' a b) -> Forall2 R l l' -> Forall2 R' l l'.
Proof. intro H. induction 1; constructor; auto. Qed.

(** ** Objects that are no shapes stay *)

Definition solid (m m' : dmap) : Prop :=
  forall n e, kind_of e <> KProductDefinitionShape -> lookup m n = Some e -> lookup m' n = Some e.

Lemma solid_refl m : solid m m.
Proof. intros n e _ H. exact H. Qed.
Lemma solid_trans a b c : solid a b -> solid b c -> solid a c.
Proof. intros H1 H2 n e K L. auto. Qed.
Lemma grow_solid p p' : grow anything p p' -> dense (p_map p) -> solid (p_map p) (p_map p').
Proof. intros G D n e K L. eapply grow_find_eq; eauto. Qed.
Lemma ext_solid p p' : ext p p' -> dense (p_map p) -> solid (p_map p) (p_map p').
Proof. intros G D n e K L. eapply ext_lookup; eauto. Qed.

Ltac find_solid S := match goal with |- lookup _ _ = _ => apply S; [discriminate|assumption] end.

Lemma solid_directed m m' n v : solid m m' -> directed m n v -> directed m' n v.
Proof. unfold directed. intros S H. find_solid S. Qed.
Lemma solid_pointed m m' n v : solid m m' -> pointed m n v -> pointed m' n v.
Proof. unfold pointed. intros S H. find_solid S. Qed.
Lemma solid_operator m m' n t : solid m m' -> operator m n t -> operator m' n t.
Proof.
  intros S (x & y & q & z & H1 & H2 & H3 & H4 & H5). exists x, y, q, z.
  split; [find_solid S|]. split; [eapply solid_directed; eauto|]. split; [eapply solid_directed; eauto|].
  split; [eapply solid_pointed; eauto|eapply solid_directed; eauto].
Qed.

(** A representation stays if it exists, with its role. *)
Definition is_repr (m : dmap) (r : N) : Prop := exists l, lookup m r = Some (Ent KShapeRepresentation l).

Lemma solid_role m m' r : solid m m' -> is_repr m r -> role m' r = role m r.
Proof.
  intros S [l L]. unfold role. rewrite L.
  assert (E : lookup m' r = Some (Ent KShapeRepresentation l)) by find_solid S. now rewrite E.
Qed.

Lemma solid_repr m m' r : solid m m' -> is_repr m r -> is_repr m' r.
Proof. intros S [l L]. exists l. find_solid S. Qed.

Lemma mapped_solid m m' mv r r' : solid m m' -> (fst (fst mv) = true -> is_repr m r') -> mapped m mv r r' -> mapped m' mv r r'.
Proof.
  intros S R H. destruct mv as [[keep t] v]. cbn [mapped fst] in *.
  destruct H as (ctx & i & it & mp & tr & ax & pt & H1 & H2 & H3 & H4 & H5 & H6 & H7).
  exists ctx, i, it, mp, tr, ax, pt. split; [find_solid S|]. split; [find_solid S|]. split; [find_solid S|].
  split; [find_solid S|]. split; [eauto using solid_pointed|]. split; [eauto using solid_operator|].
  destruct keep; auto. rewrite (solid_role m m') by auto. exact H7.
Qed.

Lemma solid_shape m m' n s k l : solid m m' -> lookup m n = Some (Ent k l) -> k <> KProductDefinitionShape ->
  shape_of m n = Some s -> shape_of m' n = Some s.
Proof.
  intros S L K. unfold shape_of. rewrite L. rewrite (S n (Ent k l)); auto.
Qed.

(** ** One transform *)

Lemma transform_object_inv t p tr p' : transform_object t p = Done (tr, p') -> dense (p_map p) ->
  operator (p_map p') tr t /\ ext p p' /\ dense (p_map p').
Proof.
  intros H D. unfold transform_object in H. inv H. inv H. inv H. inv H.
  destruct (ins_ext _ _ _ _ _ H0 D) as (L0 & _ & E0 & D0).
  destruct (ins_ext _ _ _ _ _ H1 D0) as (L1 & _ & E1 & D1).
  destruct (ins_ext _ _ _ _ _ H2 D1) as (L2 & _ & E2 & D2).
  destruct (ins_ext _ _ _ _ _ H3 D2) as (L3 & _ & E3 & D3).
  destruct (ins_ext _ _ _ _ _ H D3) as (L4 & _ & E4 & D4).
  clear H H0 H1 H2 H3.
  assert (X : forall q n e, ext q p' -> dense (p_map q) -> lookup (p_map q) n = Some e -> lookup (p_map p') n = Some e)
    by (intros; eapply ext_lookup; eauto).
  assert (X3 : ext q2 p') by exact E4. assert (X2 : ext q1 p') by (eapply pre_trans; eauto).
  assert (X1 : ext q0 p') by (eapply pre_trans; eauto). assert (X0 : ext q p') by (eapply pre_trans; eauto).
  split; [|split; [eapply pre_trans; eauto|auto]].
  exists a, a0, a1, a2. unfold directed, pointed. split; [exact L4|].
  split; [exact (X _ _ _ X0 D0 L0)|]. split; [exact (X _ _ _ X1 D1 L1)|].
  split; [exact (X _ _ _ X2 D2 L2)|exact (X _ _ _ X3 D3 L3)].
Qed.

Lemma mapped_repr_inv keep ctx tr t v r p r' p' :
  mapped_repr keep ctx tr v r p = Done (r', p') -> dense (p_map p) -> operator (p_map p) tr t ->
  mapped (p_map p') (keep, t, v) r' r /\ ext p p' /\ dense (p_map p') /\ size (p_map p) < r' /\
  (keep = true -> is_repr (p_map p') r).
Proof.
  intros H D O. unfold mapped_repr in H. inv H.
  destruct (axis3d_inv _ _ _ _ H0 D) as (pt & -> & Lp & E0 & D0). clear H0. inv H.
  destruct (ins_ext _ _ _ _ _ H0 D0) as (L1 & N1 & E1 & D1). clear H0. inv H.
  assert (Hi : q1 = q0 /\ (if keep then is_repr (p_map q0) r /\ forall j, role (p_map q0) r = Some j -> a0 = j else a0 = id_body)).
  { destruct keep.
    - inv H0. apply fetch_inv in H1 as [-> L]. apply bret_inv in H0 as [-> ->]. split; auto.
      unfold role, is_repr. rewrite L. split; [eauto|]. destruct (nth_error a1 1) as [[]|]; intros j E; try discriminate. now injection E.
    - apply bret_inv in H0 as [-> ->]. auto. }
  destruct Hi as [-> Hi]. clear H0. inv H.
  destruct (ins_ext _ _ _ _ _ H0 D1) as (L2 & N2 & E2 & D2). clear H0. inv H.
  destruct (ins_ext _ _ _ _ _ H0 D2) as (L3 & N3 & E3 & D3). clear H0.
  destruct (ins_ext _ _ _ _ _ H D3) as (L4 & N4 & E4 & D4). clear H.
  pose proof (pre_trans _ _ _ E3 E4) as X2. pose proof (pre_trans _ _ _ E2 X2) as X1.
  pose proof (pre_trans _ _ _ E1 X1) as X0. pose proof (pre_trans _ _ _ E0 X0) as X.
  split; [|split; [auto|split; [auto|split]]].
  - exists ctx, a0, a2, a1, tr, a, pt. unfold shape_repr, ids in L4. cbn [map] in L4. split; [exact L4|].
    split; [exact (ext_lookup _ _ _ _ E4 D3 L3)|]. split; [exact (ext_lookup _ _ _ _ X2 D2 L2)|].
    split; [exact (ext_lookup _ _ _ _ X1 D1 L1)|]. split; [exact (ext_lookup _ _ _ _ X0 D0 Lp)|].
    split; [exact (solid_operator _ _ _ _ (ext_solid _ _ X D) O)|].
    destruct keep; auto. destruct Hi as [Hr Hi]. intros j. rewrite (solid_role (p_map q0)); [auto|exact (ext_solid _ _ X1 D1)|auto].
  - clear Hi. pose proof (ext_size _ _ E0 D). pose proof (ext_size _ _ E1 D0). pose proof (ext_size _ _ E2 D1).
    pose proof (ext_size _ _ E3 D2). lia.
  - intros ->. destruct Hi as [Hr _]. exact (solid_repr _ _ _ (ext_solid _ _ X1 D1) Hr).
Qed.

Lemma mapped_reprs_inv keep ctx tr t v rs : forall p rs' p',
  bmap (mapped_repr keep ctx tr v) rs p = Done (rs', p') -> dense (p_map p) -> operator (p_map p) tr t ->
  Forall2 (fun r' r => mapped (p_map p') (keep, t, v) r' r /\ size (p_map p) < r' /\ (keep = true -> is_repr (p_map p') r)) rs' rs /\
  ext p p' /\ dense (p_map p').
Proof.
  induction rs as [|r rs IH]; intros p rs' p' H D O; cbn [bmap] in H.
  - apply bret_inv in H as [-> ->]. split; [constructor|]. split; [apply pre_refl|auto].
  - inv H. inv H. apply bret_inv in H as [-> ->].
    destruct (mapped_repr_inv _ _ _ _ _ _ _ _ _ H0 D O) as (M & E & D' & Z & R).
    destruct (IH _ _ _ H1 D') as (F & E' & D'').
    { exact (solid_operator _ _ _ _ (ext_solid _ _ E D) O). }
    assert (S : solid (p_map q) (p_map q0)) by (apply ext_solid; auto).
    split; [|split; [eapply pre_trans; eauto|auto]]. constructor.
    + split; [|split; [auto|]].
      * eapply mapped_solid; eauto.
      * intro K. eapply solid_repr; eauto.
    + eapply Forall2_impl; [|exact F]. cbn beta. intros a1 b (X1 & X2 & X3). split; auto. split; auto.
      pose proof (ext_size _ _ E D). lia.
Qed.


(** ** The effect of transforms on the shapes [map fst E] *)

Definition pds (rs : list N) : entity := Ent KProductDefinitionShape [VOmit; VOmit; VList (map VId rs)].

Definition effect (E : list (N * move)) (m m' : dmap) : Prop :=
  dense m' /\ size m <= size m' /\ solid m m' /\
  (forall k e, lookup m k = Some e -> ~ In k (map fst E) -> lookup m' k = Some e) /\
  (forall sh mv rs, In (sh, mv) E -> lookup m sh = Some (pds rs) ->
     exists rs', lookup m' sh = Some (pds rs') /\
       Forall2 (fun r' r => mapped m' mv r' r /\ size m < r' /\ (fst (fst mv) = true -> is_repr m' r)) rs' rs).

Lemma effect_ext p p' : ext p p' -> dense (p_map p) -> effect [] (p_map p) (p_map p').
Proof.
  intros E D. split; [exact (proj1 (E D))|]. split; [apply ext_size; auto|]. split; [apply ext_solid; auto|].
  split; [|intros ? ? ? []]. intros k e L _. eapply ext_lookup; eauto.
Qed.

Lemma effect_refl m : dense m -> effect [] m m.
Proof.
  intro D. split; auto. split; [lia|]. split; [apply solid_refl|]. split; auto. intros ? ? ? [].
Qed.

Lemma effect_app E1 E2 a b c : effect E1 a b -> effect E2 b c ->
  (forall k, In k (map fst E1) -> ~ In k (map fst E2)) -> effect (E1 ++ E2) a c.
Proof.
  intros (D1 & Z1 & S1 & U1 & R1) (D2 & Z2 & S2 & U2 & R2) HD.
  split; auto. split; [lia|]. split; [eapply solid_trans; eauto|]. split.
  - intros k e L HK. rewrite map_app, in_app_iff in HK. apply U2; [|tauto]. apply U1; tauto.
  - intros sh mv rs HI L. apply in_app_iff in HI as [HI|HI].
    + destruct (R1 _ _ _ HI L) as (rs' & L' & F). exists rs'. split.
      * apply U2; auto. apply HD. apply in_map_iff. exists (sh, mv). auto.
      * eapply Forall2_impl; [|exact F]. cbn beta. intros r' r (M & Z & K). split; [|split; [auto|]].
        -- eapply mapped_solid; eauto.
        -- intro Hk. eapply solid_repr; eauto.
    + assert (L1 : lookup b sh = Some (pds rs)).
      { apply U1; auto. intro HK. apply (HD _ HK). apply in_map_iff. exists (sh, mv). auto. }
      destruct (R2 _ _ _ HI L1) as (rs' & L' & F). exists rs'. split; auto.
      eapply Forall2_impl; [|exact F]. cbn beta. intros r' r (M & Z & K). split; auto. split; [lia|auto].
Qed.

Lemma attr_ids_ids rs : attr_ids [VOmit; VOmit; VList (map VId rs)] 2 = rs.
Proof.
  unfold attr_ids, val_ids. cbn [nth_error]. induction rs as [|r rs IH]; auto. cbn [map flat_map app] in *. now rewrite IH.
Qed.

(** A transform of a product with a shape. *)
Lemma transform_effect keep k n ctx t v p u p' sh rs :
  transform keep k n ctx t v p = Done (u, p') -> dense (p_map p) ->
  shape_of (p_map p) n = Some sh -> lookup (p_map p) sh = Some (pds rs) ->
  effect [(sh, (keep, t, v))] (p_map p) (p_map p').
Proof.
  intros H D HS HP. unfold transform in H. inv H. apply fetch_inv in H0 as [-> L].
  unfold shape_of in HS. rewrite L in HS. unfold attr_id in H.
  destruct (nth_error a 6) as [[]|] eqn:E6; try discriminate HS. injection HS as ->.
  inv H. destruct (transform_object_inv _ _ _ _ H0 D) as (O & E0 & D0). clear H0. inv H.
  apply fetch_inv in H0 as [-> Ld]. pose proof (ext_lookup _ _ _ _ E0 D HP) as HP0.
  rewrite HP0 in Ld. unfold pds in Ld. injection Ld as <-. rewrite attr_ids_ids in H. inv H.
  destruct (mapped_reprs_inv _ _ _ _ _ _ _ _ _ H0 D0 O) as (F & E1 & D1). clear H0.
  apply modify_inv in H as (l & Ll & ->). pose proof (ext_lookup _ _ _ _ E1 D0 HP0) as HP1.
  rewrite HP1 in Ll. unfold pds in Ll. injection Ll as <-. cbn [set_at p_map set_map].
  assert (LP : forall j, lookup (put (p_map q0) sh (Ent KProductDefinitionShape [VOmit; VOmit; ids a1])) j =
                 if j =? sh then Some (Ent KProductDefinitionShape [VOmit; VOmit; ids a1]) else lookup (p_map q0) j)
    by (intro; apply lookup_put, dense_increasing, D1).
  assert (E : ext p q0) by (eapply pre_trans; eauto).
  set (m' := put (p_map q0) sh _) in *.
  assert (S0 : solid (p_map q0) m').
  { intros j e K Lj. rewrite LP. destruct (N.eqb_spec j sh) as [->|_]; auto.
    rewrite HP1 in Lj. injection Lj as <-. now destruct K. }
  assert (G : grow anything q0 (set_map m' q0)).
  { assert (X : modify KProductDefinitionShape sh (set_at 2 (ids a1)) q0 = Done (tt, set_map m' q0)).
    { unfold modify, update, get. rewrite HP1. cbn [pds].
      assert (EK : kind_eqb KProductDefinitionShape KProductDefinitionShape = true) by reflexivity. rewrite EK.
      reflexivity. }
    exact (grow_modify anything _ _ _ _ _ X). }
  pose proof (proj1 (G D1)) as D2. pose proof (size_grow _ _ _ G D1) as Z2. cbn [p_map set_map] in D2, Z2.
  pose proof (ext_size _ _ E D) as Z0.
  split; [exact D2|]. split; [lia|]. split; [|split].
  - eapply solid_trans; [apply ext_solid; eauto|exact S0].
  - cbn [map fst In]. intros j e Lj Hj. rewrite LP. destruct (N.eqb_spec j sh) as [->|_]; [tauto|]. eapply ext_lookup; eauto.
  - intros s mv rs0 [Hi|[]] Ls. injection Hi as <- <-. rewrite HP in Ls. unfold pds in Ls.
    assert (rs0 = rs) as ->.
    { assert (X : attr_ids [VOmit; VOmit; VList (map VId rs)] 2 = attr_ids [VOmit; VOmit; VList (map VId rs0)] 2) by congruence.
      now rewrite !attr_ids_ids in X. }
    exists a1. split; [rewrite LP, N.eqb_refl; reflexivity|].
    eapply Forall2_impl; [|exact F]. cbn beta. intros r' r (M & Z & K). split; [|split].
    + eapply mapped_solid; eauto.
    + pose proof (ext_size _ _ E0 D). lia.
    + cbn [fst]. intro Hk. eapply solid_repr; eauto.
Qed.

(** ** Products with a shape *)

Definition figure (m : dmap) (n : N) : Prop :=
  exists k l s rs, lookup m n = Some (Ent k l) /\ k <> KProductDefinitionShape /\
    shape_of m n = Some s /\ lookup m s = Some (pds rs).

Definition sh (m : dmap) (n : N) : N := match shape_of m n with Some s => s | None => 0 end.

Lemma figure_effect E m m' n : effect E m m' -> figure m n -> figure m' n /\ sh m' n = sh m n.
Proof.
  intros (_ & _ & S & U & R) (k & l & s & rs & L & K & HS & HP).
  pose proof (solid_shape _ _ _ _ _ _ S L K HS) as HS'.
  split; [|unfold sh; now rewrite HS, HS'].
  destruct (in_dec N.eq_dec s (map fst E)) as [Hi|Hi].
  - apply in_map_iff in Hi as ([s' mv] & Es & Hi). cbn [fst] in Es. subst s'.
    destruct (R _ _ _ Hi HP) as (rs' & HP' & _). exists k, l, s, rs'. split; [apply S; auto|]. auto.
  - exists k, l, s, rs. split; [apply S; auto|]. auto.
Qed.

Lemma figure_sh m n : figure m n -> exists rs, shape_of m n = Some (sh m n) /\ lookup m (sh m n) = Some (pds rs).
Proof. intros (k & l & s & rs & _ & _ & HS & HP). unfold sh. rewrite HS. eauto. Qed.

Definition moved_at (m : dmap) (t : tparam) (x : N * vec3) : N * move :=
  (sh m (fst x), (true, seen_from (snd x) t, snd x)).

Lemma transforms_effect k ctx t L : forall p u p',
  bmap (fun x => transform true k (fst x) ctx (shift_back t (snd x)) (snd x)) L p = Done (u, p') ->
  dense (p_map p) -> (forall x, In x L -> figure (p_map p) (fst x)) ->
  NoDup (map (fun x => sh (p_map p) (fst x)) L) ->
  effect (map (moved_at (p_map p) t) L) (p_map p) (p_map p').
Proof.
  induction L as [|x L IH]; intros p u p' H D HF HN; cbn [bmap] in H.
  - apply bret_inv in H as [_ ->]. apply effect_refl, D.
  - inv H. inv H. apply bret_inv in H as [_ ->].
    destruct (figure_sh _ _ (HF x (or_introl eq_refl))) as (rs & HS & HP).
    pose proof (transform_effect _ _ _ _ _ _ _ _ _ _ _ H0 D HS HP) as E1. clear H0.
    cbn [map] in HN |- *. inversion HN as [|? ? N1 N2]; subst.
    assert (HE : map (moved_at (p_map q) t) L = map (moved_at (p_map p) t) L).
    { apply map_ext_in. intros y Hy. unfold moved_at.
      destruct (figure_effect _ _ _ _ E1 (HF y (or_intror Hy))) as [_ ->]. reflexivity. }
    assert (HE' : map (fun x => sh (p_map q) (fst x)) L = map (fun x => sh (p_map p) (fst x)) L).
    { apply map_ext_in. intros y Hy. apply (figure_effect _ _ _ _ E1 (HF y (or_intror Hy))). }
    change (moved_at (p_map p) t x :: ?l) with ([moved_at (p_map p) t x] ++ l).
    eapply effect_app; [exact E1| |].
    + rewrite <- HE. eapply IH; [exact H1|exact (proj1 E1)| |].
      * intros y Hy. apply (figure_effect _ _ _ _ E1 (HF y (or_intror Hy))).
      * rewrite HE'. exact N2.
    + cbn [map fst In]. intros s [<-|[]] Hi. apply N1. rewrite map_map in Hi. exact Hi.
Qed.

(** ** The place of an opening *)

Lemma vec_inj v v' : vec v = vec v' -> v = v'.
Proof. destruct v as [[x y] z], v' as [[x' y'] z']. cbn [vec]. intro H. now injection H as -> -> ->. Qed.

Lemma at_point_fun m n v v' : at_point m n v -> at_point m n v' -> v = v'.
Proof.
  intros (pl & l & ax & pt & H1 & H2 & H3 & H4 & H5) (pl' & l' & ax' & pt' & K1 & K2 & K3 & K4 & K5).
  rewrite H1 in K1. injection K1 as <-. rewrite H2 in K2. injection K2 as <-. rewrite H3 in K3.
  injection K3 as <-. rewrite H4 in K4. injection K4 as <-. rewrite H5 in K5. apply vec_inj. congruence.
Qed.

Lemma local_placement_at p n k l v r p' :
  local_placement l p = Done (r, p') -> lookup (p_map p) n = Some (Ent k l) -> at_point (p_map p) n v ->
  r = Some v /\ p' = p.
Proof.
  intros H L (pl & lp & ax & pt & H1 & H2 & H3 & H4 & H5). unfold placement in H1. rewrite L in H1.
  unfold local_placement, attr_id in H. destruct (nth_error l 5) as [[]|]; try discriminate H1. injection H1 as ->.
  inv H. apply fetch_inv in H0 as [-> La]. rewrite H2 in La. injection La as <-. rewrite H3 in H.
  inv H. apply need_inv in H0 as [-> E]. injection E as <-. inv H. apply fetch_any_inv in H0 as [-> Lx].
  rewrite H4 in Lx. injection Lx as <-. cbn [nth_error] in H. inv H. apply need_inv in H0 as [-> E]. injection E as <-.
  inv H. apply fetch_inv in H0 as [-> Lv]. rewrite H5 in Lv. injection Lv as <-. destruct v as [[x y] z].
  cbn [vec] in H. apply bret_inv in H as [-> ->]. auto.
Qed.

Lemma placements_inv L : forall p ps p',
  bmap (fun x : N * N => l <-- fetch KOpeningElement (fst x) ;; q <-- local_placement l ;;
          bret (match q with Some v => [(fst x, v)] | None => [] end)) L p = Done (ps, p') ->
  (forall x, In x L -> exists v, at_point (p_map p) (fst x) v) ->
  p' = p /\ map fst (concat ps) = map fst L /\ Forall (fun y => at_point (p_map p) (fst y) (snd y)) (concat ps).
Proof.
  induction L as [|x L IH]; intros p ps p' H HA; cbn [bmap] in H.
  - apply bret_inv in H as [-> ->]. repeat constructor.
  - inv H. inv H. apply bret_inv in H as [-> ->]. inv H0. apply fetch_inv in H as [-> L0]. inv H0.
    destruct (HA x (or_introl eq_refl)) as [v Hv].
    destruct (local_placement_at _ _ _ _ _ _ _ H L0 Hv) as [-> ->]. apply bret_inv in H0 as [-> ->].
    destruct (IH _ _ _ H1) as (-> & E & F); [intros; apply HA; now right|].
    split; auto. cbn [concat app map fst]. split; [now rewrite E|]. constructor; auto.
Qed.

Lemma walk_pairs_map o {A} (l : list (N * A)) p r p' : walk_pairs o l p = Done (r, p') -> p_map p' = p_map p.
Proof.
  intro H. unfold walk_pairs, walk, tick in H. inv H. inv H0. injection H1 as <- <-.
  apply bret_inv in H0 as [_ ->]. apply bret_inv in H as [_ ->]. reflexivity.
Qed.

(** ** Finishing a wall or slab *)

Definition table (h : host) (st : storey) : list (N * N) := if h_slab h then s_voids_slab st else s_voids_wall st.

Lemma NoDup_map_inj {A} (f g : A -> N) l :
  NoDup (map f l) -> (forall a b, In a l -> In b l -> g a = g b -> f a = f b) -> NoDup (map g l).
Proof.
  induction l as [|a l IH]; cbn [map]; intros H Hi; [constructor|]. inversion H as [|? ? H1 H2]; subst.
  constructor.
  - intro Hg. apply in_map_iff in Hg as (b & E & Hb). apply H1. apply in_map_iff. exists b. split; auto.
    apply Hi; auto; [now right|now left].
  - apply IH; auto. intros b c Hb Hc. apply Hi; now right.
Qed.

Lemma NoDup_snd (l : list (N * N)) a b w : NoDup (map snd l) -> In (a, w) l -> In (b, w) l -> a = b.
Proof.
  induction l as [|[x y] l IH]; cbn [map snd]; intros H Ha Hb; [contradiction|]. inversion H as [|? ? H1 H2]; subst.
  destruct Ha as [Ha|Ha], Hb as [Hb|Hb].
  - congruence.
  - injection Ha as -> ->. destruct H1. apply in_map_iff. now exists (b, w).
  - injection Hb as -> ->. destruct H1. apply in_map_iff. now exists (a, w).
  - auto.
Qed.

Definition windows_in (fills : list (N * N)) (ops : list (N * vec3)) : list (N * vec3) :=
  flat_map (fun x => match hget N.eqb fills (fst x) with Some w => [(w, snd x)] | None => [] end) ops.

Lemma windows_in_In fills ops w v : In (w, v) (windows_in fills ops) <->
  exists n, In (n, v) ops /\ hget N.eqb fills n = Some w.
Proof.
  unfold windows_in. rewrite in_flat_map. split.
  - intros ([n v'] & Hi & Hw). cbn [fst snd] in Hw. exists n. destruct (hget N.eqb fills n); [|contradiction].
    destruct Hw as [E|[]]. injection E as -> ->. auto.
  - intros (n & Hi & E). exists (n, v). split; auto. cbn [fst snd]. rewrite E. now left.
Qed.

Lemma windows_in_NoDup fills ops : NoDup (map snd fills) -> NoDup (map fst ops) -> NoDup (map fst (windows_in fills ops)).
Proof.
  intro HF. induction ops as [|[n v] ops IH]; intro H; [constructor|].
  cbn [map fst] in H. inversion H as [|? ? H1 H2]; subst. cbn [windows_in flat_map fst snd].
  fold (windows_in fills ops). destruct (hget N.eqb fills n) as [w|] eqn:E; [|cbn [app]; auto].
  cbn [app map fst]. constructor; auto. intro Hi. apply in_map_iff in Hi as ([w' v'] & E' & Hi).
  cbn [fst] in E'. subst w'. apply windows_in_In in Hi as (n' & Hi & E').
  apply (hget_In N.eqb N.eqb_eq) in E. apply (hget_In N.eqb N.eqb_eq) in E'.
  rewrite (NoDup_snd _ _ _ _ HF E E') in H1. apply H1. apply in_map_iff. now exists (n', v').
Qed.

(** What the effect is about. *)
Definition host_moves (m : dmap) (h : host) (st : storey) (t : tparam) (n : N) (mv : move) : Prop :=
  (n = h_id h /\ mv = (true, t, v_zero)) \/
  exists a v, In (a, h_id h) (table h st) /\ at_point m a v /\ mv = (true, seen_from v t, v) /\
    (n = a \/ hget N.eqb (s_fills st) a = Some n).

Lemma drop_host_effect o h st p u p' t (P : kind -> N -> Prop) :
  fair o -> drop_host o h st p = Done (u, p') -> dense (p_map p) -> h_tr h = Some t ->
  NoDup (map fst (table h st)) -> NoDup (map snd (s_fills st)) ->
  (forall k n, P k n -> figure (p_map p) n /\ exists l, lookup (p_map p) n = Some (Ent k l)) ->
  (forall k k' n n', P k n -> P k' n' -> sh (p_map p) n = sh (p_map p) n' -> n = n') ->
  P (host_kind h) (h_id h) ->
  (forall a, In (a, h_id h) (table h st) -> P KOpeningElement a /\ (exists v, at_point (p_map p) a v) /\
     forall w, hget N.eqb (s_fills st) a = Some w -> P KWindow w) ->
  exists E, effect E (p_map p) (p_map p') /\
    forall s mv, In (s, mv) E <-> exists n, s = sh (p_map p) n /\ host_moves (p_map p) h st t n mv.
Proof.
  intros Ho H D Ht HN HF HP HU Hh HT. unfold drop_host in H. rewrite Ht in H. inv H.
  assert (G0 : grow anything p q).
  { match type of H0 with ?c _ = _ => assert (X : steps (grow anything) c) by st end. exact (X _ _ _ H0). }
  destruct (figure_sh _ _ (proj1 (HP _ _ Hh))) as (rs & HS & HPD).
  pose proof (transform_effect _ _ _ _ _ _ _ _ _ _ _ H0 D HS HPD) as E0. clear H0.
  pose proof (proj1 E0) as D0. inv H. fold (table h st) in H0.
  pose proof (walk_pairs_perm _ _ _ _ _ Ho HN H0) as PV. pose proof (walk_pairs_map _ _ _ _ _ H0) as EM. clear H0.
  inv H.
  assert (HT' : forall x, In x (filter (fun x => snd x =? h_id h) a0) -> In (fst x, h_id h) (table h st)).
  { intros [n w] Hx. apply filter_In in Hx as [Hx E]. cbn [fst snd] in *. apply N.eqb_eq in E. subst w.
    eapply Permutation_in; eauto. }
  destruct (placements_inv _ _ _ _ H0) as (-> & EF & FA).
  { intros x Hx. destruct (HT _ (HT' _ Hx)) as (_ & (v & Hv) & _). exists v. rewrite EM. eapply grow_at_point; eauto. }
  clear H0. set (ops := concat a1) in *. clearbody ops. clear a1. rewrite EM in FA.
  inv H. inv H. apply bret_inv in H as [_ ->]. fold (windows_in (s_fills st) ops) in H1.
  assert (NF : NoDup (map fst ops)).
  { rewrite EF. assert (X : NoDup (map fst a0)).
    { eapply Permutation_NoDup; [|exact HN]. apply Permutation_map, Permutation_sym, PV. }
    clear - X. induction a0 as [|[n w] l IH]; [constructor|]. cbn [map fst filter snd] in *.
    inversion X as [|? ? X1 X2]; subst. destruct (w =? h_id h); auto. cbn [map fst]. constructor; auto.
    intro Hi. apply X1. apply in_map_iff in Hi as (y & <- & Hy). apply filter_In in Hy as [Hy _].
    apply in_map, Hy. }
  assert (OP : forall x, In x ops -> In (fst x, h_id h) (table h st) /\ at_point (p_map p) (fst x) (snd x)).
  { intros x Hx. assert (Hi : In (fst x) (map fst ops)) by (apply in_map, Hx). rewrite EF in Hi.
    apply in_map_iff in Hi as (y & Ey & Hy). apply HT' in Hy. rewrite Ey in Hy. split; auto.
    destruct (HT _ Hy) as (_ & (v & Hv) & _). rewrite Forall_forall in FA. specialize (FA _ Hx).
    pose proof (grow_at_point _ _ _ _ G0 D Hv) as Hv'. now rewrite <- (at_point_fun _ _ _ _ Hv' FA). }
  assert (OP' : forall n v, In (n, h_id h) (table h st) -> at_point (p_map p) n v -> In (n, v) ops).
  { intros n v Hn Hv. assert (Hi : In n (map fst ops)).
    { rewrite EF. apply in_map_iff. exists (n, h_id h). split; auto. apply filter_In. cbn [snd].
      split; [|apply N.eqb_refl]. eapply Permutation_in; [|exact Hn]. now apply Permutation_sym. }
    apply in_map_iff in Hi as ([n' v'] & En & Hi). cbn [fst] in En. subst n'.
    destruct (OP _ Hi) as [_ Hv']. cbn [fst snd] in Hv'. now rewrite (at_point_fun _ _ _ _ Hv Hv'). }
  assert (PO : forall x, In x ops -> P KOpeningElement (fst x)) by (intros x Hx; apply HT, OP, Hx).
  assert (PW : forall x, In x (windows_in (s_fills st) ops) -> P KWindow (fst x)).
  { intros [w v] Hx. apply windows_in_In in Hx as (n & Hn & E). cbn [fst].
    destruct (OP _ Hn) as [Hn' _]. apply (HT _ Hn'). exact E. }
  rewrite <- EM in D0.
  assert (FO : forall x, P KOpeningElement x \/ P KWindow x -> figure (p_map q0) x /\ sh (p_map q0) x = sh (p_map p) x).
  { rewrite EM. intros x [Hx|Hx]; apply (figure_effect _ _ _ _ E0), (HP _ _ Hx). }
  assert (E1 : effect (map (moved_at (p_map p) t) ops) (p_map q0) (p_map q1)).
  { assert (EQ : map (moved_at (p_map q0) t) ops = map (moved_at (p_map p) t) ops).
    { apply map_ext_in. intros x Hx. unfold moved_at. destruct (FO _ (or_introl (PO _ Hx))) as [_ ->]. reflexivity. }
    rewrite <- EQ. eapply transforms_effect; [exact H0|exact D0| |].
    - intros x Hx. apply (FO _ (or_introl (PO _ Hx))).
    - eapply NoDup_map_inj; [exact NF|]. intros x y Hx Hy.
      destruct (FO _ (or_introl (PO _ Hx))) as [_ ->]. destruct (FO _ (or_introl (PO _ Hy))) as [_ ->].
      apply (HU _ _ _ _ (PO _ Hx) (PO _ Hy)). }
  clear H0. pose proof (proj1 E1) as D1.
  assert (FW : forall x, P KWindow x -> figure (p_map q1) x /\ sh (p_map q1) x = sh (p_map p) x).
  { intros x Hx. destruct (FO _ (or_intror Hx)) as [F1 F2]. destruct (figure_effect _ _ _ _ E1 F1) as [F3 F4].
    split; auto. congruence. }
  assert (E2 : effect (map (moved_at (p_map p) t) (windows_in (s_fills st) ops)) (p_map q1) (p_map q2)).
  { assert (EQ : map (moved_at (p_map q1) t) (windows_in (s_fills st) ops) = map (moved_at (p_map p) t) (windows_in (s_fills st) ops)).
    { apply map_ext_in. intros x Hx. unfold moved_at. destruct (FW _ (PW _ Hx)) as [_ ->]. reflexivity. }
    rewrite <- EQ. eapply transforms_effect; [exact H1|exact D1| |].
    - intros x Hx. apply (FW _ (PW _ Hx)).
    - eapply NoDup_map_inj; [exact (windows_in_NoDup _ _ HF NF)|]. intros x y Hx Hy.
      destruct (FW _ (PW _ Hx)) as [_ ->]. destruct (FW _ (PW _ Hy)) as [_ ->].
      apply (HU _ _ _ _ (PW _ Hx) (PW _ Hy)). }
  clear H1.
  assert (KD : forall k k' n, P k n -> P k' n -> k = k').
  { intros k k' n X Y. apply HP in X as (_ & l & X). apply HP in Y as (_ & l' & Y). congruence. }
  exists (([(sh (p_map p) (h_id h), (true, t, v_zero))] ++ map (moved_at (p_map p) t) ops) ++
          map (moved_at (p_map p) t) (windows_in (s_fills st) ops)). split.
  - eapply effect_app; [eapply effect_app; [|exact E1|]|exact E2|].
    + rewrite EM. exact E0.
    + cbn [map fst In]. intros s [<-|[]] Hi. rewrite map_map in Hi. apply in_map_iff in Hi as (x & E & Hx).
      cbn [moved_at fst] in E. apply (HU _ _ _ _ (PO _ Hx) Hh) in E. pose proof (PO _ Hx) as X. rewrite E in X.
      pose proof (KD _ _ _ X Hh) as K. destruct h as [[] ? ?]; discriminate K.
    + intros s Hs Hi. rewrite map_map in Hi. apply in_map_iff in Hi as (x & E & Hx). cbn [moved_at fst] in E.
      subst s. rewrite map_app in Hs. apply in_app_iff in Hs as [Hs|Hs].
      * destruct Hs as [Hs|[]]. apply (HU _ _ _ _ Hh (PW _ Hx)) in Hs. pose proof (PW _ Hx) as X. rewrite <- Hs in X.
        pose proof (KD _ _ _ X Hh) as K. destruct h as [[] ? ?]; discriminate K.
      * rewrite map_map in Hs. apply in_map_iff in Hs as (y & E & Hy). cbn [moved_at fst] in E.
        apply (HU _ _ _ _ (PO _ Hy) (PW _ Hx)) in E. pose proof (PO _ Hy) as X. rewrite E in X.
        pose proof (KD _ _ _ X (PW _ Hx)) as K. discriminate K.
  - intros s mv. rewrite !in_app_iff. split.
    + intros [[[E|[]]|Hi]|Hi].
      * injection E as <- <-. exists (h_id h). split; auto. left. auto.
      * apply in_map_iff in Hi as ([n v] & E & Hi). injection E as <- <-. exists n. split; auto. right.
        exists n, v. destruct (OP _ Hi) as [X Y]. auto.
      * apply in_map_iff in Hi as ([w v] & E & Hi). injection E as <- <-. exists w. split; auto. right.
        apply windows_in_In in Hi as (n & Hn & E). exists n, v. destruct (OP _ Hn) as [X Y]. auto.
    + intros (n & -> & [[-> ->]|(b & v & Hb & Hv & -> & [->|Hw])]).
      * left. left. now left.
      * left. right. apply in_map_iff. exists (b, v). split; auto.
      * right. apply in_map_iff. exists (n, v). split; auto. apply windows_in_In. exists b. auto.
Qed.
