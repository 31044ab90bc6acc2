(** What later calls leave of the objects that exist. *)

From Coq Require Import String Ascii List NArith ZArith Bool Lia.
From Verif Require Import Base Prims Kind Types Schema Entity EntityFacts DataMap DataSpec DataMapFacts Extractor
  Float Arith Builder BuilderBase BuilderRun BuilderGrow BuilderAny BuilderSpec BuilderInv BuilderAll
  HistorySpec BuilderHist BuilderPlace BuilderGood3.
Import ListNotations.
Open Scope N_scope.
Open Scope builder_scope.

Definition is_of (m : dmap) (q : kind * N) : Prop := exists l, lookup m (snd q) = Some (Ent (fst q) l).

Lemma grow_is_of p p' q : grow anything p p' -> dense (p_map p) -> is_of (p_map p) q -> is_of (p_map p') q.
Proof.
  intros G D [l L]. destruct (grow_find _ _ _ _ G D L) as (e & L' & [<-|(a & b & E1 & E2 & _)]); [now exists l|].
  exists b. injection E1 as -> _. now rewrite L', E2.
Qed.

Section Keep.
Variable o : oracle.

Ltac grow_of H :=
  match type of H with
  | ?c ?q = Done (?a, ?q') =>
      let G := fresh "G" in
      assert (G : grow anything q q') by (let X := fresh in assert (X : steps (grow anything) c) by st; exact (X _ _ _ H))
  end.

(** Calls that return the id of a new object of kind [k]. *)
Definition mk (k : kind) (c : B N) : Prop :=
  forall p n p', c p = Done (n, p') -> dense (p_map p) -> is_of (p_map p') (k, n).

Lemma mk_ins k l : mk k (ins k l).
Proof. intros p n p' H D. destruct (ins_ext _ _ _ _ _ H D) as (L & _). now exists l. Qed.

Lemma mk_bind {A} k (c : B A) (f : A -> B N) : steps (grow anything) c -> (forall a, mk k (f a)) -> mk k (bbind c f).
Proof.
  intros Hc Hf p n p' H D. inv H. eapply Hf; eauto. exact (proj1 (Hc _ _ _ H0 D)).
Qed.

Ltac mks := repeat first [apply mk_ins|apply mk_bind; [st|intro]].

Lemma mk_material a : mk KMaterial (material a).
Proof. unfold material. mks. Qed.
Lemma mk_layer a b : mk KMaterialLayer (material_layer a b).
Proof. unfold material_layer. mks. Qed.
Lemma mk_layer_set a : mk KMaterialLayerSet (material_layer_set a).
Proof. unfold material_layer_set. mks. Qed.
Lemma mk_usage a b c d : mk KMaterialLayerSetUsage (material_layer_set_usage a b c d).
Proof. unfold material_layer_set_usage. mks. Qed.
Lemma mk_constituent a b : mk KMaterialConstituent (material_constituent a b).
Proof. unfold material_constituent. mks. Qed.
Lemma mk_constituent_set a : mk KMaterialConstituentSet (material_constituent_set a).
Proof. unfold material_constituent_set. mks. Qed.
Lemma mk_property a b c : mk KPropertySingleValue (single_property a b c).
Proof. unfold single_property. mks. Qed.
Lemma mk_property_set a b : mk KPropertySet (property_set o a b).
Proof. unfold property_set. mks. Qed.

Lemma new_type_kind c m name i st p n st' p' :
  new_type o c m name i st p = Done ((n, st'), p') -> dense (p_map p) -> is_of (p_map p') (type_kind c, n).
Proof.
  intros H D. unfold new_type in H. inv H. grow_of H0. pose proof (proj1 (G D)) as D0. inv H. grow_of H1.
  pose proof (proj1 (G0 D0)) as D1. inv H. grow_of H2.
  apply bret_inv in H as [E ->]. injection E as -> _. eapply grow_is_of; eauto. eapply mk_ins; eauto.
Qed.

Lemma new_window_type_kind name i j st p n st' p' :
  new_window_type o name i j st p = Done ((n, st'), p') -> dense (p_map p) -> is_of (p_map p') (KWindowType, n).
Proof.
  intros H D. unfold new_window_type in H. inv H. grow_of H0. pose proof (proj1 (G D)) as D0. inv H.
  apply bret_inv in H as [E ->]. injection E as -> _. eapply mk_ins; eauto.
Qed.

Lemma new_space_type_kind name i st p n st' p' :
  new_space_type o name i st p = Done ((n, st'), p') -> dense (p_map p) -> is_of (p_map p') (KSpaceType, n).
Proof.
  intros H D. unfold new_space_type in H. inv H. grow_of H0. pose proof (proj1 (G D)) as D0. inv H.
  apply bret_inv in H as [E ->]. injection E as -> _. eapply mk_ins; eauto.
Qed.

Lemma placed_is m b k n par v sh : placed m b k n par v sh -> is_of m (k, n).
Proof. intros (pt & (l & pl & ax & H & _) & _). now exists l. Qed.

Lemma shaped_is c p p' k n pk par v : shaped c p p' k n pk par v -> is_of (p_map p') (k, n).
Proof. intros (l & q & b & p1 & _ & _ & H & _). eapply placed_is; eauto. Qed.

Ltac one_id := cbn [returned]; repeat (apply Forall_cons || apply Forall_nil).

Lemma storey_step_kinds st x p st' a p' :
  storey_step o st x p = Done ((st', a), p') -> dense (p_map p) -> Forall (is_of (p_map p')) (returned x a).
Proof.
  intros H D. destruct x; cbn [storey_step] in H; try discriminate.
  all: try (inv H; apply bret_inv in H as [E ->]; injection E as -> ->; cbn [returned];
    repeat constructor;
    first [eapply mk_material; eauto|eapply mk_layer; eauto|eapply mk_layer_set; eauto|eapply mk_usage; eauto
          |eapply mk_constituent; eauto|eapply mk_constituent_set; eauto]).
  all: try (inv H; destruct a0 as [n0 st1]; apply bret_inv in H as [E ->]; injection E as -> ->; cbn [returned]; repeat constructor).
  - destruct c; try discriminate; inv H; destruct a0 as [n0 st1]; apply bret_inv in H as [E ->]; injection E as -> ->;
      cbn [returned]; repeat constructor; eapply new_type_kind; eauto.
  - eapply new_window_type_kind; eauto.
  - eapply new_space_type_kind; eauto.
  - eapply shaped_is, new_roof_made; eauto.
  - eapply shaped_is, new_shading_made; eauto.
  - eapply shaped_is, new_space_shaped; eauto.
  - destruct (existsb _ _); [|discriminate]. inv H. apply bret_inv in H as [E ->]. injection E as -> ->. constructor.
Qed.

Lemma host_step_kinds st h x p st' h' a p' :
  host_step o st h x p = Done ((st', h', a), p') -> dense (p_map p) -> Forall (is_of (p_map p')) (returned x a).
Proof.
  intros H D. unfold host_step in H. destruct x; try discriminate.
  - destruct (h_slab h); try discriminate. inv H. destruct a0 as [n0 st1].
    apply bret_inv in H as [E ->]; injection E as -> -> ->. cbn [returned]. repeat constructor.
    destruct (wall_opening_made _ _ _ _ _ _ _ _ _ _ _ _ H0 D) as (l & q1 & d & p0 & p1 & L & E5 & M & _).
    eapply placed_is; eauto.
  - destruct (h_slab h); try discriminate. inv H. destruct a0 as [n0 st1].
    apply bret_inv in H as [E ->]; injection E as -> -> ->. cbn [returned]. repeat constructor.
    destruct (slab_opening_made _ _ _ _ _ _ _ _ _ H0 D) as (l & q1 & d & p1 & L & E5 & M & _).
    eapply placed_is; eauto.
  - destruct (h_slab h); try discriminate. inv H. destruct a0 as [[n0 w0] st1].
    apply bret_inv in H as [E ->]; injection E as -> -> ->.
    destruct (wall_window_made _ _ _ _ _ _ _ _ _ _ _ _ _ _ _ H0 D) as (p1 & p2 & p3 & d & st2 & O1 & O2 & O3 & ->).
    destruct (wall_opening_made _ _ _ _ _ _ _ _ _ _ _ _ O1 D) as (l & q1 & d1 & p0 & p4 & L & E5 & M & _).
    grow_of O1. pose proof (proj1 (G D)) as D1. grow_of O2. pose proof (proj1 (G0 D1)) as D2. grow_of O3.
    cbn [returned]. repeat constructor.
    + eapply grow_is_of; eauto. eapply grow_is_of; eauto. eapply placed_is; eauto.
    + destruct (place_window_made _ _ _ _ _ _ _ _ _ _ _ O3 D2) as (l' & q' & _ & _ & M'). eapply placed_is; eauto.
  - destruct (h_slab h); try discriminate. inv H. destruct a0 as [[n0 w0] st1].
    apply bret_inv in H as [E ->]; injection E as -> -> ->.
    destruct (slab_window_made _ _ _ _ _ _ _ _ _ _ _ _ H0 D) as (p1 & p2 & p3 & d & st2 & O1 & O2 & O3 & ->).
    destruct (slab_opening_made _ _ _ _ _ _ _ _ _ O1 D) as (l & q1 & d1 & p0 & L & E5 & M & _).
    grow_of O1. pose proof (proj1 (G D)) as D1. grow_of O2. pose proof (proj1 (G0 D1)) as D2. grow_of O3.
    cbn [returned]. repeat constructor.
    + eapply grow_is_of; eauto. eapply grow_is_of; eauto. eapply placed_is; eauto.
    + destruct (place_window_made _ _ _ _ _ _ _ _ _ _ _ O3 D2) as (l' & q' & _ & _ & M'). eapply placed_is; eauto.
  - destruct (h_slab h); apply bret_inv in H as [E ->]; injection E as -> -> ->; constructor.
Qed.

Lemma step_kinds w x p w' a p' :
  step o w x p = Done ((w', a), p') -> dense (p_map p) -> Forall (is_of (p_map p')) (returned x a).
Proof.
  intros H D.
  destruct w as [|s|s b|s b st|s b st h|s b st h nm ps|s b st nm ps]; destruct x; try discriminate H;
    cbn [step] in H;
    try (inv H; destruct a0 as [st1 l1]; apply bret_inv in H as [E ->]; injection E as -> ->;
         match goal with H0 : storey_step _ _ _ _ = _ |- _ => exact (storey_step_kinds _ _ _ _ _ _ H0 D) end);
    try (inv H; destruct a0 as [[st1 h1] l1]; apply bret_inv in H as [E ->]; injection E as -> ->;
         match goal with H0 : host_step _ _ _ _ _ = _ |- _ => exact (host_step_kinds _ _ _ _ _ _ _ _ H0 D) end);
    try (inv H; discriminate);
    try (apply bret_inv in H as [E ->]; injection E as -> ->; constructor);
    try (inv H; inv H; apply bret_inv in H as [E ->]; injection E as -> ->; constructor);
    try (inv H; apply bret_inv in H as [E ->]; injection E as -> ->; cbn [returned]; repeat constructor).
  - eapply placed_is, new_site_made; eauto.
  - destruct (new_building_made _ _ _ _ _ _ _ H0 D) as (l & q1 & L & E5 & M). eapply placed_is; eauto.
  - destruct (new_storey_made _ _ _ _ _ _ _ H0 D) as (l & q1 & L & E5 & M). eapply placed_is; eauto.
  - inv H. destruct a0 as [n st1]. apply bret_inv in H as [E ->]. injection E as -> ->. cbn [returned]. repeat constructor.
    eapply shaped_is, new_wall_made; eauto.
  - inv H. destruct a0 as [n st1]. apply bret_inv in H as [E ->]. injection E as -> ->. cbn [returned]. repeat constructor.
    eapply shaped_is, new_slab_made; eauto.
  - destruct (h_slab h); [discriminate|]. apply bret_inv in H as [E ->]. injection E as -> ->. constructor.
  - eapply mk_property; eauto.
  - eapply mk_property_set; eauto.
  - eapply mk_property; eauto.
Qed.

Lemma run_app xs : forall ys w p w' ls p',
  run o w (xs ++ ys) p = Done ((w', ls), p') ->
  exists w1 l1 p1 l2, run o w xs p = Done ((w1, l1), p1) /\ run o w1 ys p1 = Done ((w', l2), p') /\ ls = l1 ++ l2.
Proof.
  induction xs as [|x xs IH]; intros ys w p w' ls p' H; cbn [app run] in H.
  - exists w, [], p, ls. auto.
  - inv H. destruct a as [w1 a]. inv H. destruct a0 as [w2 l]. apply bret_inv in H as [E ->]. injection E as -> ->.
    destruct (IH _ _ _ _ _ _ H1) as (w3 & l1 & p1 & l2 & R1 & R2 & ->).
    exists w3, (a :: l1), p1, l2. split; [|split; auto]. cbn [run]. unfold bbind. rewrite H0, R1. reflexivity.
Qed.

Lemma run_grow w xs p a p' : run o w xs p = Done (a, p') -> grow anything p p'.
Proof. intro H. grow_of H. exact G. Qed.

Lemma run_kinds xs : forall w p w' ls p',
  run o w xs p = Done ((w', ls), p') -> dense (p_map p) -> Forall (is_of (p_map p')) (given xs ls).
Proof.
  induction xs as [|x xs IH]; intros w p w' ls p' H D; cbn [run] in H.
  - apply bret_inv in H as [E ->]. injection E as -> ->. constructor.
  - inv H. destruct a as [w1 a]. inv H. destruct a0 as [w2 l]. apply bret_inv in H as [E ->]. injection E as -> ->.
    grow_of H0. pose proof (proj1 (G D)) as D1. unfold given. cbn [combine flat_map fst snd].
    apply Forall_app. split; [|eapply IH; eauto].
    eapply Forall_impl; [|eapply step_kinds; eauto]. intros k. apply grow_is_of; auto. eapply run_grow; eauto.
Qed.

(** ** Without transforms nothing that exists changes *)

Lemma storey_step_ext st x : may_transform x = false -> steps ext (storey_step o st x).
Proof.
  intro H. apply (@st_storey_quiet anything ext _ (fun _ _ => eq_refl) o _).
  destruct x; try exact I; [discriminate H|reflexivity].
Qed.

(** A host that is left without a transform. *)
Definition untouched (w : scope) : Prop :=
  match w with AtHost _ _ _ h | AtWallProps _ _ _ h _ _ => h_tr h = None | _ => True end.

Lemma step_ext w x p w' a p' :
  step o w x p = Done ((w', a), p') -> may_transform x = false -> untouched w -> ext p p' /\ untouched w'.
Proof.
  intros H T U.
  destruct w as [|s|s b|s b st|s b st h|s b st h nm ps|s b st nm ps]; destruct x; try discriminate H; try discriminate T;
    cbn [step] in H;
    try (inv H; destruct a0 as [st1 l1]; apply bret_inv in H as [E ->]; injection E as -> ->;
         match goal with H0 : storey_step _ _ ?x _ = _ |- _ => split; [exact (storey_step_ext _ x eq_refl _ _ _ H0)|exact I] end);
    try (inv H; discriminate);
    try (apply bret_inv in H as [E ->]; injection E as -> ->; split; [apply pre_refl|first [exact I|exact U|reflexivity]]);
    try (assert (X : ext p p') by
           (match type of H with ?c _ = _ => assert (X : steps ext c) by (repeat (one || (apply steps_bind; [pre| |intro]))); exact (X _ _ _ H) end);
         split; [exact X|]; clear X;
         repeat inv H; repeat match goal with y : _ * _ |- _ => destruct y end;
         apply bret_inv in H as [E ->]; injection E as -> ->; first [exact I|exact U|reflexivity]).
  all: try (inv H; destruct a0 as [[st1 h1] l1]; apply bret_inv in H as [E ->]; injection E as -> ->;
         match goal with H0 : ?c _ = _ |- _ =>
           split; [assert (X : steps ext c) by st; exact (X _ _ _ H0)|];
           cbn [host_step] in H0; destruct (h_slab h) eqn:Eh; try discriminate H0;
           repeat inv H0; repeat match goal with y : _ * _ |- _ => destruct y end;
           apply bret_inv in H0 as [E _]; injection E as _ -> _; exact U end).
  - cbn [untouched] in U. unfold drop_host in H. rewrite U in H. inv H. apply bret_inv in H0 as [_ ->].
    apply bret_inv in H as [E ->]. injection E as -> ->. split; [apply pre_refl|exact I].
  - destruct (h_slab h); [discriminate|]. apply bret_inv in H as [E ->]. injection E as -> ->.
    split; [apply pre_refl|exact U].
Qed.

Lemma run_ext xs : forall w p w' ls p',
  run o w xs p = Done ((w', ls), p') -> forallb (fun x => negb (may_transform x)) xs = true -> untouched w ->
  ext p p' /\ untouched w'.
Proof.
  induction xs as [|x xs IH]; intros w p w' ls p' H T U; cbn [run] in H.
  - apply bret_inv in H as [E ->]. injection E as -> _. split; [apply pre_refl|auto].
  - cbn [forallb] in T. apply andb_prop in T as [T1 T2]. apply negb_true_iff in T1.
    inv H. destruct a as [w1 a]. inv H. destruct a0 as [w2 l]. apply bret_inv in H as [E ->]. injection E as -> ->.
    destruct (step_ext _ _ _ _ _ _ H0 T1 U) as [E1 U1]. destruct (IH _ _ _ _ _ H1 T2 U1) as [E2 U2].
    split; auto. eapply pre_trans; eauto.
Qed.

(** A run without [OTransform] leaves hosts untouched. *)
Lemma step_untouched w x p w' a p' :
  step o w x p = Done ((w', a), p') -> match x with OTransform _ => false | _ => true end = true ->
  untouched w -> untouched w'.
Proof.
  intros H T U. destruct (may_transform x) eqn:M.
  - destruct x; try discriminate M; try discriminate T. destruct w; cbn [step] in H; try discriminate H.
    inv H. destruct a0. apply bret_inv in H as [E _]. injection E as -> _. exact I.
  - exact (proj2 (step_ext _ _ _ _ _ _ H M U)).
Qed.

(** ** Programs *)

Lemma reached_dense i xs ls m : reached o i xs ls m -> dense m.
Proof.
  intros (p0 & w & p & H1 & H2 & ->). apply start_inv in H1 as (D & _).
  exact (proj1 (run_grow _ _ _ _ _ H2 D)).
Qed.

Lemma reached_again i xs ls m ls' m' : reached o i xs ls m -> reached o i xs ls' m' -> ls = ls' /\ m = m'.
Proof.
  intros (p0 & w & p & H1 & H2 & ->) (p1 & w1 & p2 & H3 & H4 & ->).
  assert (E : p0 = p1) by (clear H2 H4; revert H1 H3; generalize (start o i); congruence). subst p1.
  rewrite H2 in H4. injection H4 as _ -> ->. auto.
Qed.

Lemma history_reached i xs ys ls ls' m m' :
  reached o i xs ls m -> reached o i (xs ++ ys) ls' m' ->
  (exists l2, ls' = ls ++ l2) /\
  (forall n e, lookup m n = Some e -> exists e', lookup m' n = Some e' /\ same_but_representations e e') /\
  (forall k n, In (k, n) (given xs ls) -> is_of m' (k, n)).
Proof.
  intros (p0 & w & p & H1 & H2 & ->) (p1 & w1 & p2 & H3 & H4 & ->).
  assert (E : p0 = p1) by (clear H2 H4; revert H1 H3; generalize (start o i); congruence). subst p1. clear H3.
  destruct (run_app _ _ _ _ _ _ _ H4) as (w2 & l1 & p3 & l2 & R1 & R2 & ->).
  rewrite H2 in R1. injection R1 as <- <- <-. apply start_inv in H1 as (D & _).
  pose proof (run_grow _ _ _ _ _ H2) as G1. pose proof (proj1 (G1 D)) as D1.
  pose proof (run_grow _ _ _ _ _ R2) as G2. split; [eauto|]. split.
  - intros n e L. eapply grow_find; eauto.
  - intros k n Hin. pose proof (run_kinds _ _ _ _ _ _ H2 D) as K. rewrite Forall_forall in K.
    eapply grow_is_of; eauto.
Qed.

Lemma history_built i xs ys ls ls' m r :
  reached o i xs ls m -> program o i (xs ++ ys) = Done (ls', r) ->
  (exists l2, ls' = ls ++ l2) /\
  (forall n e, lookup m n = Some e -> exists e', lookup (p_map r) n = Some e' /\ same_but_representations e e') /\
  (forall k n, In (k, n) (given xs ls) -> is_of (p_map r) (k, n)).
Proof.
  intros HR H. apply program_inv in H as (p & w & q & H1 & H2 & -> & H3).
  assert (HQ : reached o i (xs ++ ys) ls' (p_map q)) by (exists p, AtProject, q; auto).
  pose proof (reached_dense _ _ _ _ HQ) as D. clear H1 H2 p.
  assert (G2 : grow anything q r) by (assert (X : steps (grow anything) (build o)) by st; exact (X _ _ _ H3)).
  destruct (history_reached _ _ _ _ _ _ _ HR HQ) as (E & L & K). split; auto. split.
  - intros n e He. destruct (L _ _ He) as (e1 & L1 & S1). destruct (grow_find _ _ _ _ G2 D L1) as (e2 & L2 & S2).
    exists e2. split; auto. clear - S1 S2. destruct S1 as [<-|(a & b & -> & -> & Len1 & N1)]; auto.
    destruct S2 as [<-|(c & d & E & -> & Len2 & N2)].
    + right. exists a, b. auto.
    + injection E as <-. right. exists a, d. split; auto. split; auto. split; [congruence|].
      intros i Hi. now rewrite N1, N2.
  - intros k n Hin. eapply grow_is_of; eauto.
Qed.

(** Every prefix of a program that builds is reached. *)
Lemma prefix_reached i xs ys ls r : program o i (xs ++ ys) = Done (ls, r) ->
  exists l1 m, reached o i xs l1 m.
Proof.
  intro H. apply program_inv in H as (p & w & q & H1 & H2 & -> & H3).
  destruct (run_app _ _ _ _ _ _ _ H2) as (w2 & l1 & p3 & l2 & R1 & R2 & ->).
  exists l1, (p_map p3), p, w2, p3. auto.
Qed.

Lemma run_untouched xs : forall w p w' ls p',
  run o w xs p = Done ((w', ls), p') ->
  forallb (fun x => match x with OTransform _ => false | _ => true end) xs = true ->
  untouched w -> untouched w'.
Proof.
  induction xs as [|x xs IH]; intros w p w' ls p' H T U; cbn [run] in H.
  - apply bret_inv in H as [E ->]. now injection E as -> _.
  - cbn [forallb] in T. apply andb_prop in T as [T1 T2].
    inv H. destruct a as [w1 a]. inv H. destruct a0 as [w2 l]. apply bret_inv in H as [E ->]. injection E as -> ->.
    eapply IH; eauto. eapply step_untouched; eauto.
Qed.

Lemma history_untouched i xs ys ls ls' m m' :
  reached o i xs ls m -> reached o i (xs ++ ys) ls' m' ->
  forallb (fun x => match x with OTransform _ => false | _ => true end) xs = true ->
  forallb (fun x => negb (may_transform x)) ys = true ->
  exists new, m' = m ++ new.
Proof.
  intros (p0 & w & p & H1 & H2 & ->) (p1 & w1 & p2 & H3 & H4 & ->) T1 T2.
  assert (E : p0 = p1) by (clear H2 H4; revert H1 H3; generalize (start o i); congruence). subst p1. clear H3.
  destruct (run_app _ _ _ _ _ _ _ H4) as (w2 & l1 & p3 & l2 & R1 & R2 & ->).
  rewrite H2 in R1. injection R1 as <- <- <-. apply start_inv in H1 as (D & _).
  pose proof (proj1 (run_grow _ _ _ _ _ H2 D)) as D1.
  pose proof (run_untouched _ _ _ _ _ _ H2 T1 I) as U.
  destruct (run_ext _ _ _ _ _ _ R2 T2 U) as [E _]. exact (proj2 (E D1)).
Qed.
End Keep.
