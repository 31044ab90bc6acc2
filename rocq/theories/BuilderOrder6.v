(** Finishing a wall or slab in two runs. *)

From Coq Require Import String Ascii List NArith ZArith Bool Lia Permutation.
From Coq Require Import ZifyBool ZifyNat ZifyN.
From Verif Require Import Base Prims PrimsFacts Float Arith Kind Types Schema Entity EntityFacts DataMap DataSpec DataMapFacts
  Extractor Builder BuilderRun BuilderBase BuilderGrow BuilderAny BuilderSpec BuilderRel BuilderRel2 BuilderInv BuilderAll
  HistorySpec BuilderHist BuilderPlace MoveSpec BuilderMove OrderSpec
  BuilderOrder BuilderOrder2 BuilderOrder3 BuilderOrder4 BuilderOrder5.
Import ListNotations.
Open Scope N_scope.
Open Scope builder_scope.

(** ** Products with one representation *)

Definition lone (m : dmap) (k : kind) (n : N) : Prop :=
  exists l r, lookup m n = Some (Ent k l) /\ k <> KProductDefinitionShape /\ drawn m n [r] /\ is_repr m r.

Lemma lone_figure m k n : lone m k n -> figure m n.
Proof. intros (l & r & L & K & (s & HS & HP) & _). exists k, l, s, [r]. auto. Qed.

Lemma lone_effect E m m' k n : effect E m m' -> lone m k n -> lone m' k n /\ sh m' n = sh m n.
Proof.
  intros EE H. split; [|apply (figure_effect _ _ _ _ EE), (lone_figure _ _ _ H)].
  destruct EE as (_ & _ & S & U & R). destruct H as (l & r & L & K & (s & HS & HP) & HR).
  pose proof (solid_shape _ _ _ _ _ _ S L K HS) as HS'.
  destruct (in_dec N.eq_dec s (map fst E)) as [Hi|Hi].
  - apply in_map_iff in Hi as ([s' mv] & Es & Hi). cbn [fst] in Es. subst s'.
    destruct (R _ _ _ Hi HP) as (rs' & HP' & F). inversion F as [|r' r0 rs0 l0 F1 F2]; subst. inversion F2; subst.
    exists l, r'. split; [apply S; auto|]. split; [exact K|]. split; [exists s; auto|].
    destruct F1 as (F1 & _). destruct mv as [[keep t] v]. destruct F1 as (ctx & i & it & mp & tr & ax & pt & F1 & _).
    eexists. exact F1.
  - exists l, r. split; [apply S; auto|]. split; [exact K|]. split; [|exact (solid_repr _ _ _ S HR)].
    exists s. auto.
Qed.

Lemma lone_singles k p L : (forall x, In x L -> lone (p_map p) k (fst x)) ->
  NoDup (map (fun x => sh (p_map p) (fst x)) L) -> singles k p L.
Proof.
  intros HL HN. exists (map (fun x => sh (p_map p) (fst x)) L). split; auto. clear HN.
  induction L as [|x L IH]; cbn [map]; [constructor|]. constructor; [|apply IH; intros; apply HL; now right].
  destruct (HL x (or_introl eq_refl)) as (l & r & L0 & K & (s & HS & HP) & [e HR]).
  assert (E : sh (p_map p) (fst x) = s) by (unfold sh; now rewrite HS). rewrite E.
  exists [VOmit; VOmit; VList [VId r]], r, e. split; [|auto].
  exists l. split; auto. unfold shape_of in HS. rewrite L0 in HS. unfold attr_id.
  destruct (nth_error l 6) as [[]|]; try discriminate HS. exact HS.
Qed.

(** ** Readers over lists in another order *)

Lemma bmap_reader {A C} (g : A -> B C) p l l' : Permutation l l' -> (forall x c q, g x p = Done (c, q) -> q = p) ->
  forall cs q, bmap g l p = Done (cs, q) -> exists cs', bmap g l' p = Done (cs', p) /\ Permutation cs cs' /\ q = p.
Proof.
  intros HP HG. induction HP; intros cs q H; cbn [bmap] in H |- *.
  - apply bret_inv in H as [-> ->]. exists []. auto.
  - inv H. inv H. apply bret_inv in H as [-> ->]. pose proof (HG _ _ _ H0). subst q0.
    destruct (IHHP _ _ H1) as (cs' & E & P1 & ->). exists (a :: cs'). unfold bbind. rewrite H0, E. auto.
  - inv H. inv H. apply bret_inv in H as [-> ->]. pose proof (HG _ _ _ H0). subst q0. inv H1.
    pose proof (HG _ _ _ H). subst q. inv H1. apply bret_inv in H1 as [-> ->].
    assert (q = p) as ->.
    { assert (X : forall l cs q, bmap g l p = Done (cs, q) -> q = p).
      { clear - HG. induction l as [|z l IH]; intros cs q H; cbn [bmap] in H; [now apply bret_inv in H as [_ ->]|].
        inv H. inv H. apply bret_inv in H as [_ ->]. pose proof (HG _ _ _ H0). subst q0. eauto. }
      exact (X _ _ _ H2). }
    eexists. unfold bbind. rewrite H, H0, H2. split; [reflexivity|]. split; auto. constructor.
  - destruct (IHHP1 _ _ H) as (c1 & E1 & P1 & ->). destruct (IHHP2 _ _ E1) as (c2 & E2 & P2 & _).
    exists c2. split; auto. split; auto. now transitivity c1.
Qed.

Definition locate (x : N * N) : B (list (N * vec3)) :=
  l <-- fetch KOpeningElement (fst x) ;; q <-- local_placement l ;;
  bret (match q with Some v => [(fst x, v)] | None => [] end).

Lemma locate_pure x p c q : locate x p = Done (c, q) -> q = p.
Proof.
  unfold locate, local_placement. intro H. inv H. apply fetch_inv in H0 as [-> L]. inv H.
  apply bret_inv in H as [_ ->]. destruct (attr_id a 5); [|now apply bret_inv in H0 as [_ ->]].
  inv H0. apply fetch_inv in H as [-> L0]. inv H0. apply need_inv in H as [-> _]. inv H0. apply fetch_any_inv in H as [-> _].
  destruct a3 as [k l|s]; [|now apply bret_inv in H0 as [_ ->]].
  destruct k; try (now apply bret_inv in H0 as [_ ->]).
  inv H0. apply need_inv in H as [-> _]. inv H0. apply fetch_inv in H as [-> _].
  destruct a4 as [|[| | | | | | |[|? [|? [|? []]]]| | | | | ] []]; try discriminate H0. now apply bret_inv in H0 as [_ ->].
Qed.

Lemma sim_locate f b x : fx f b (fst x) -> sim f b (locate x) (locate x) is_.
Proof.
  intro H. unfold locate. sb ltac:(apply sim_fetch; [ord|apply fx_ir; exact H]).
  sb ltac:(apply sim_local_placement; assumption). end_ret. reflexivity.
Qed.

(** ** Finishing a wall or slab *)

Lemma perm_filter {A} (g : A -> bool) l l' : Permutation l l' -> Permutation (filter g l) (filter g l').
Proof.
  induction 1; cbn [filter]; auto.
  - destruct (g x); auto.
  - destruct (g x), (g y); auto. constructor.
  - now transitivity (filter g l').
Qed.
Lemma perm_concat {A} (l l' : list (list A)) : Permutation l l' -> Permutation (concat l) (concat l').
Proof.
  induction 1; cbn [concat]; auto.
  - now apply Permutation_app_head.
  - rewrite !app_assoc. apply Permutation_app_tail, Permutation_app_comm.
  - now transitivity (concat l').
Qed.

Lemma drop_host_two o o' f h st p p' u q (P : kind -> N -> Prop) :
  fair o -> fair o' -> rel f p p' -> sx f (size (p_map p)) st -> fx f (size (p_map p)) (h_id h) ->
  drop_host o h st p = Done (u, q) ->
  NoDup (map fst (table h st)) -> NoDup (map snd (s_fills st)) ->
  (forall k n, P k n -> figure (p_map p) n /\ exists l, lookup (p_map p) n = Some (Ent k l)) ->
  (forall k n, P k n -> k = KOpeningElement \/ k = KWindow -> lone (p_map p) k n) ->
  (forall k k' n n', P k n -> P k' n' -> sh (p_map p) n = sh (p_map p) n' -> n = n') ->
  P (host_kind h) (h_id h) ->
  (forall a, In (a, h_id h) (table h st) -> P KOpeningElement a /\ (exists v, at_point (p_map p) a v) /\
     forall w, hget N.eqb (s_fills st) a = Some w -> P KWindow w) ->
  exists u' q' f', drop_host o' h st p' = Done (u', q') /\ rel f' q q' /\ agree f f' (size (p_map p)) /\
    size (p_map p) <= size (p_map q).
Proof.
  intros Fo Fo' R Hs Hh H HN HF HP HL HU Ph HT. unfold drop_host in *. destruct (h_tr h) as [t|] eqn:Et.
  2:{ apply bret_inv in H as [-> ->]. exists tt, p', f. split; [reflexivity|]. split; [exact R|]. split; [apply agree_refl|lia]. }
  pose proof (wf_dense _ (r_wf _ _ _ R)) as D.
  inv H. destruct (figure_sh _ _ (proj1 (HP _ _ Ph))) as (rs & HS & HPD).
  assert (G0 : grow anything p q0).
  { match type of H0 with ?c _ = _ => assert (X : steps (grow anything) c) by st end. exact (X _ _ _ H0). }
  pose proof (transform_effect _ _ _ _ _ _ _ _ _ _ _ H0 D HS HPD) as E0. pose proof (proj1 E0) as D0.
  destruct (sim_transform f (size (p_map p)) true (host_kind h) (h_id h) (s_ctx st) t v_zero
              ltac:(destruct h as [[] ? ?]; ord) Hh (sx_ctx _ _ _ Hs) _ _ _ _ R (N.le_refl _) H0) as (u' & q' & H0' & R0 & Z0 & _).
  clear H0. inv H. fold (table h st) in *.
  destruct (sim_walk_pairs o o' Fo Fo' f _ (table h st) (table h st) _ _ _ _ R0 (N.le_refl _) H0) as (vs & q0' & H1' & R1 & Z1 & P1 & P2).
  pose proof (walk_pairs_perm _ _ _ _ _ Fo HN H0) as PV. pose proof (walk_pairs_map _ _ _ _ _ H0) as EM. clear H0.
  assert (PVs : Permutation a0 vs) by (transitivity (flat_map (pick (table h st)) (map fst (table h st))); [exact P1|symmetry; exact P2]).
  clear P1 P2. change (fun x : N * N => l <-- fetch KOpeningElement (fst x);; _) with locate in *.
  set (sel := fun x : N * N => snd x =? h_id h) in *.
  inv H.
  assert (HT' : forall x, In x (filter sel a0) -> In (fst x, h_id h) (table h st)).
  { intros [n w] Hx. apply filter_In in Hx as [Hx E]. unfold sel in E. cbn [fst snd] in *. apply N.eqb_eq in E. subst w.
    eapply Permutation_in; eauto. }
  pose proof Hs as Hs'. apply sx_iff in Hs' as (_ & Fc & _ & _ & F1 & F2 & F3). rewrite Forall_forall in F1, F2, F3.
  assert (FT : forall a, In (a, h_id h) (table h st) -> fx f (size (p_map p)) a).
  { intros a2 Hi. unfold table in Hi. destruct (h_slab h); [exact (proj1 (F2 _ Hi))|exact (proj1 (F1 _ Hi))]. }
  assert (FW : forall a w, hget N.eqb (s_fills st) a = Some w -> fx f (size (p_map p)) w).
  { intros a2 w Hi. apply hget_In' in Hi. exact (proj2 (F3 _ Hi)). }
  clear F1 F2 F3. pose proof (locate_pure) as LP.
  assert (SL : sim f (size (p_map p)) (bmap locate (filter sel a0)) (bmap locate (filter sel a0)) is_).
  { apply (sim_weak f _ _ _ (fun b => Forall2 (is_ b))); [|intros b x y _ F; clear - F; unfold is_ in *; induction F; congruence].
    apply (sim_bmap f (size (p_map p)) locate locate (fun b x y => y = x /\ fx f (size (p_map p)) (fst x)) is_).
    - auto.
    - auto.
    - intros b x y Hb [-> Hx]. eapply sim_mono; [exact Hb|]. now apply sim_locate.
    - assert (X : forall x, In x (filter sel a0) -> fx f (size (p_map p)) (fst x)) by (intros; apply FT, HT'; auto).
      revert X. generalize (filter sel a0). intro l. induction l as [|x l IH]; intro X; constructor; [|apply IH; intros; apply X; now right].
      split; auto. apply X. now left. }
  destruct (SL _ _ _ _ R1 ltac:(lia) H0) as (a1' & q1' & H2' & R2 & _ & E1). unfold is_ in E1. subst a1'.
  destruct (placements_inv _ _ _ _ H0) as (-> & EF & FA).
  { intros x Hx. destruct (HT _ (HT' _ Hx)) as (_ & (v & Hv) & _). exists v. rewrite EM. eapply grow_at_point; eauto. }
  clear H0.
  destruct (bmap_reader locate q0' _ (filter sel vs) (perm_filter sel _ _ PVs) (fun x c q => LP x q0' c q) _ _ H2') as (a2 & H3' & P3 & ->).
  clear H2' R2. apply perm_concat in P3. set (ops := concat a1) in *. set (ops' := concat a2) in *.
  assert (NF : NoDup (map fst ops)).
  { rewrite EF. assert (X : NoDup (map fst a0)).
    { eapply Permutation_NoDup; [|exact HN]. apply Permutation_map, Permutation_sym, PV. }
    clear - X. induction a0 as [|[n w] l IH]; [constructor|]. cbn [map fst filter] in *.
    inversion X as [|? ? X1 X2]; subst. destruct (sel (n, w)); auto. cbn [map fst]. constructor; auto.
    intro Hi. apply X1. apply in_map_iff in Hi as (y & <- & Hy). apply filter_In in Hy as [Hy _].
    apply in_map, Hy. }
  assert (OP : forall x, In x ops -> In (fst x, h_id h) (table h st)).
  { intros x Hx. assert (Hi : In (fst x) (map fst ops)) by (apply in_map, Hx). rewrite EF in Hi.
    apply in_map_iff in Hi as (y & Ey & Hy). apply HT' in Hy. now rewrite Ey in Hy. }
  inv H. inv H. apply bret_inv in H as [_ ->]. fold (windows_in (s_fills st) ops) in H1.
  assert (PO : forall x, In x ops -> P KOpeningElement (fst x)) by (intros x Hx; apply HT, OP, Hx).
  assert (PW : forall x, In x (windows_in (s_fills st) ops) -> P KWindow (fst x) /\ fx f (size (p_map p)) (fst x)).
  { intros [w v] Hx. apply windows_in_In in Hx as (n & Hn & E). cbn [fst].
    pose proof (OP _ Hn) as Hn'. split; [apply (HT _ Hn'); exact E|eapply FW; exact E]. }
  assert (LO : forall k x, k = KOpeningElement \/ k = KWindow -> P k x -> lone (p_map q1) k x /\ sh (p_map q1) x = sh (p_map p) x).
  { rewrite EM. intros k x Hk Hx. apply (lone_effect _ _ _ _ _ E0), HL; auto. }
  assert (N1 : NoDup (map (fun x => sh (p_map q1) (fst x)) ops)).
  { eapply NoDup_map_inj; [exact NF|]. intros x y Hx Hy.
    destruct (LO _ _ (or_introl eq_refl) (PO _ Hx)) as [_ ->]. destruct (LO _ _ (or_introl eq_refl) (PO _ Hy)) as [_ ->].
    apply (HU _ _ _ _ (PO _ Hx) (PO _ Hy)). }
  assert (Q1 : rel f q1 q0') by exact R1.
  assert (Z2 : size (p_map p) <= size (p_map q1)) by lia.
  rewrite <- EM in D0.
  assert (E1 : effect (map (moved_at (p_map q1) t) ops) (p_map q1) (p_map q2)).
  { eapply transforms_effect; [exact H0|exact D0| |exact N1].
    intros x Hx. eapply lone_figure. apply (LO _ _ (or_introl eq_refl) (PO _ Hx)). }
  rewrite (bmap_as_index _ _ 0) in H0.
  assert (X1 : Forall (fx f (size (p_map q1))) (flat_map (n_tr (s_ctx st)) ops)).
  { apply Forall_flat_map, Forall_forall. intros x Hx. unfold n_tr.
    constructor; [|constructor; [|constructor]]; (eapply fx_mono; [exact Z2|]); [apply FT, OP, Hx|exact Fc]. }
  assert (X2 : singles KOpeningElement q1 ops).
  { apply lone_singles; [|exact N1]. intros x Hx. apply (LO _ _ (or_introl eq_refl) (PO _ Hx)). }
  destruct (tr_perm KOpeningElement (s_ctx st) t ltac:(discriminate) ltac:(ord) ops ops' o o' 0 0 f q1 q0' _ _ P3 Fo Fo' R1 X1 X2 H0)
    as (u1 & q2' & f1 & H4' & R3 & A1 & Z3).
  clear H0.
  assert (LW : forall x, P KWindow x -> lone (p_map q2) KWindow x /\ sh (p_map q2) x = sh (p_map p) x).
  { intros x Hx. destruct (LO _ _ (or_intror eq_refl) Hx) as [L1 L2]. destruct (lone_effect _ _ _ _ _ E1 L1) as [L3 L4].
    split; auto. congruence. }
  assert (P4 : Permutation (windows_in (s_fills st) ops) (windows_in (s_fills st) ops')) by now apply Permutation_flat_map.
  rewrite (bmap_as_index _ _ 0) in H1.
  assert (X3 : Forall (fx f1 (size (p_map q2))) (flat_map (n_tr (s_ctx st)) (windows_in (s_fills st) ops))).
  { apply Forall_flat_map, Forall_forall. intros x Hx. unfold n_tr.
    constructor; [|constructor; [|constructor]]; (eapply fx_up; [exact A1|exact Z3|eapply fx_mono; [exact Z2|]]); [apply PW, Hx|exact Fc]. }
  assert (X4 : singles KWindow q2 (windows_in (s_fills st) ops)).
  { apply lone_singles.
    - intros x Hx. apply LW, PW, Hx.
    - eapply NoDup_map_inj; [exact (windows_in_NoDup _ _ HF NF)|]. intros x y Hx Hy.
      destruct (LW _ (proj1 (PW _ Hx))) as [_ ->]. destruct (LW _ (proj1 (PW _ Hy))) as [_ ->].
      apply (HU _ _ _ _ (proj1 (PW _ Hx)) (proj1 (PW _ Hy))). }
  destruct (tr_perm KWindow (s_ctx st) t ltac:(discriminate) ltac:(ord) _ _ o o' 0 0 f1 q2 q2' _ _ P4 Fo Fo' R3 X3 X4 H1)
    as (u2 & q3' & f2 & H5' & R4 & A2 & Z4).
  clear H1. exists tt, q3', f2. split; [|split; [exact R4|split; [|lia]]].
  - unfold bbind. rewrite H0', H1'. cbn [fst snd]. fold sel. rewrite H3'. fold ops'.
    rewrite (bmap_as_index _ _ 0). unfold tr_one in H4'. rewrite H4'. fold (windows_in (s_fills st) ops').
    rewrite (bmap_as_index _ _ 0). unfold tr_one in H5'. rewrite H5'. reflexivity.
  - eapply agree_trans; [eapply agree_mono; [|exact A1]; lia|exact A2|lia].
Qed.
