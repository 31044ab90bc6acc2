(** Programs that use the builder return. *)

From Coq Require Import String Ascii List NArith ZArith Bool Lia Permutation.
From Coq Require Import ZifyBool ZifyNat ZifyN.
From Verif Require Import Base Prims Float Kind Types Schema Entity EntityFacts DataMap DataSpec DataMapFacts Extractor
  Header File Arith Mapping MapSpec MappingBuilt Builder BuilderRun BuilderBase BuilderGrow BuilderAny BuilderSpec BuilderRel BuilderRel2 BuilderInv BuilderStep
  BuilderAll BuilderIds HistorySpec BuilderPlace BuilderKeep BuilderMove3 BuilderLoadSpec TemplateSpec BuilderGood BuilderGood2
  BuilderGood3 BuilderLoad BuilderTemplate MoveSpec FormSpec BuilderForm BuilderForm2 BuilderSafe BuilderSafe2 BuilderSafe3 ProgressSpec.
Import ListNotations.
Open Scope N_scope.
Open Scope builder_scope.

Definition level_of (w : scope) : level :=
  match w with
  | AtProject => LProject
  | AtSite _ => LSite
  | AtBuilding _ _ => LBuilding
  | AtStorey _ _ _ => LStorey
  | AtHost _ _ _ h => if h_slab h then LSlab else LWall
  | AtWallProps _ _ _ _ _ _ => LWallProps
  | AtSet _ _ _ _ _ => LSet
  end.

(** ** The tables of the storey *)

Ltac inv H :=
  match type of H with
  | bbind _ _ _ = Done _ => let a := fresh "a" in let q := fresh "q" in let H1 := fresh "H" in
      apply bbind_inv in H as (a & q & H1 & H)
  end.

Definition load (w : scope) : N :=
  match w with
  | AtStorey _ _ st | AtHost _ _ st _ | AtWallProps _ _ st _ _ _ | AtSet _ _ st _ _ => weight st
  | _ => 0
  end.

Lemma hset_length {X V} eqb (l : list (X * V)) k v : (length (hset eqb l k v) <= length l + 1)%nat.
Proof. induction l as [|[k' v'] l IH]; cbn [hset length]; [lia|]. destruct (eqb k' k); cbn [length]; lia. Qed.

Lemma weight_elem c n st : weight (add_elem c n st) = weight st.
Proof. reflexivity. Qed.
Lemma weight_entry c t st : weight (type_entry c t st) <= weight st + 1.
Proof.
  unfold type_entry. destruct (hget _ _ _); [lia|]. unfold weight, set_types. cbn [s_types s_voids_wall s_voids_slab s_fills].
  pose proof (hset_length tkey_eqb (s_types st) (c, t) []). lia.
Qed.
Lemma weight_reset c t st : weight (type_reset c t st) <= weight st + 1.
Proof.
  unfold type_reset, weight, set_types. cbn [s_types s_voids_wall s_voids_slab s_fills].
  pose proof (hset_length tkey_eqb (s_types st) (c, t) []). lia.
Qed.
Lemma weight_push c t n st : weight (type_push c t n st) <= weight st + 1.
Proof.
  unfold type_push, weight, set_types. cbn [s_types s_voids_wall s_voids_slab s_fills].
  match goal with |- context [hset tkey_eqb ?a ?b ?c] => pose proof (hset_length tkey_eqb a b c) end. lia.
Qed.
Lemma weight_void b n h st : weight (add_void b n h st) <= weight st + 1.
Proof.
  unfold add_void, weight. destruct b; cbn [s_types s_voids_wall s_voids_slab s_fills].
  - pose proof (hset_length N.eqb (s_voids_slab st) n h). lia.
  - pose proof (hset_length N.eqb (s_voids_wall st) n h). lia.
Qed.
Lemma weight_fill n h st : weight (add_fill n h st) <= weight st + 1.
Proof. unfold add_fill, weight. cbn [s_types s_voids_wall s_voids_slab s_fills]. pose proof (hset_length N.eqb (s_fills st) n h). lia. Qed.

Section Weights.
Variable o : oracle.

Definition heavier {X} (st : storey) (k : N) (c : B (X * storey)) : Prop :=
  forall p a st' p', c p = Done ((a, st'), p') -> weight st' <= weight st + k.

Ltac last H := repeat (inv H); apply bret_inv in H as [E _]; injection E as -> ->.

Lemma heavier_element c m ty name pos shape st : heavier st 1 (place_element o c m ty name pos shape st).
Proof. intros p a st' p' H. unfold place_element in H. last H. now rewrite weight_push, weight_elem. Qed.
Lemma heavier_wall m ty name s v st : heavier st 1 (new_wall o m ty name s v st).
Proof. intros p a st' p' H. unfold new_wall in H. inv H. inv H. eapply heavier_element; eauto. Qed.
Lemma heavier_slab m ty name s v st : heavier st 1 (new_slab o m ty name s v st).
Proof. intros p a st' p' H. unfold new_slab in H. inv H. inv H. eapply heavier_element; eauto. Qed.
Lemma heavier_roof m ty name s v st : heavier st 1 (new_roof o m ty name s v st).
Proof. intros p a st' p' H. unfold new_roof in H. inv H. inv H. inv H. eapply heavier_element; eauto. Qed.
Lemma heavier_shading m ty name x y v st : heavier st 1 (new_shading o m ty name x y v st).
Proof. intros p a st' p' H. unfold new_shading in H. inv H. inv H. inv H. eapply heavier_element; eauto. Qed.
Lemma heavier_space ty name l h v st : heavier st 1 (new_space o ty name l h v st).
Proof. intros p a st' p' H. unfold new_space in H. last H. now rewrite weight_push, weight_elem. Qed.
Lemma heavier_type c m name i st : heavier st 1 (new_type o c m name i st).
Proof. intros p a st' p' H. unfold new_type in H. last H. destruct c; auto using weight_reset, weight_entry. Qed.
Lemma heavier_window_type name i j st : heavier st 1 (new_window_type o name i j st).
Proof. intros p a st' p' H. unfold new_window_type in H. last H. apply weight_reset. Qed.
Lemma heavier_space_type name i st : heavier st 1 (new_space_type o name i st).
Proof. intros p a st' p' H. unfold new_space_type in H. last H. apply weight_reset. Qed.
Lemma heavier_place_opening h name pos shape st : heavier st 1 (place_opening o h name pos shape st).
Proof. intros p a st' p' H. unfold place_opening in H. last H. apply weight_void. Qed.
Lemma heavier_wall_opening h name x y v d st : heavier st 1 (wall_opening o h name x y v d st).
Proof. intros p a st' p' H. unfold wall_opening in H. inv H. inv H. inv H. eapply heavier_place_opening; eauto. Qed.
Lemma heavier_slab_opening h name s st : heavier st 1 (slab_opening o h name s st).
Proof. intros p a st' p' H. unfold slab_opening in H. inv H. inv H. eapply heavier_place_opening; eauto. Qed.
Lemma heavier_place_window m ty n name shape st : heavier st 2 (place_window o m ty n name shape st).
Proof.
  intros p a st' p' H. unfold place_window in H. last H.
  match goal with |- context [type_push CWindow ty ?x _] =>
    pose proof (weight_push CWindow ty x (add_fill n x (add_elem CWindow x st))) as W1;
    pose proof (weight_fill n x (add_elem CWindow x st)) as W2; rewrite (weight_elem CWindow x st) in W2 end.
  lia.
Qed.
Lemma heavier_wall_window h m ty name x y v d st p a st' p' :
  wall_window o h m ty name x y v d st p = Done ((a, st'), p') -> weight st' <= weight st + 3.
Proof.
  intro H. unfold wall_window in H. inv H. destruct a0 as [n st1]. pose proof (heavier_wall_opening _ _ _ _ _ _ _ _ _ _ _ H0).
  inv H. inv H. inv H. destruct a2 as [n2 st2]. pose proof (heavier_place_window _ _ _ _ _ _ _ _ _ _ H4).
  apply bret_inv in H as [E _]. injection E as _ ->. lia.
Qed.
Lemma heavier_slab_window h m ty name s st p a st' p' :
  slab_window o h m ty name s st p = Done ((a, st'), p') -> weight st' <= weight st + 3.
Proof.
  intro H. unfold slab_window in H. inv H. destruct a0 as [n st1]. pose proof (heavier_slab_opening _ _ _ _ _ _ _ _ H0).
  inv H. inv H. destruct a1 as [n2 st2]. pose proof (heavier_place_window _ _ _ _ _ _ _ _ _ _ H3).
  apply bret_inv in H as [E _]. injection E as _ ->. lia.
Qed.
End Weights.

(** ** Builders alive *)

Definition based (cs : list call) (w : scope) : Prop :=
  match w with
  | AtHost _ _ _ h | AtWallProps _ _ _ h _ _ =>
      (exists u, In (host_cls h, false, u, h_id h) (users cs)) /\
      match w with AtWallProps _ _ _ _ _ _ => h_slab h = false | _ => True end
  | _ => True
  end.

Section Steps.
Variable o : oracle.

Lemma users_snoc cs c : users (cs ++ [c]) = users cs ++ call_users c.
Proof. unfold users. rewrite flat_map_app. cbn [flat_map]. now rewrite app_nil_r. Qed.

Lemma can_same k : existsb (kind_eqb k) transformable = can_transform k.
Proof. destruct k; reflexivity. Qed.

Lemma host_step_what st h x p st' h' a p' :
  host_step o st h x p = Done ((st', h', a), p') ->
  h_id h' = h_id h /\ h_slab h' = h_slab h /\ weight st' <= weight st + 3 /\
  after (if h_slab h then LSlab else LWall) x = Some (if h_slab h then LSlab else LWall).
Proof.
  intro H. unfold host_step in H. destruct x; try discriminate; destruct (h_slab h) eqn:Hh; try discriminate.
  - inv H. destruct a0. pose proof (heavier_wall_opening _ _ _ _ _ _ _ _ _ _ _ _ H0). apply bret_inv in H as [E _]. injection E as -> -> _.
    repeat split; auto. lia.
  - inv H. destruct a0. pose proof (heavier_slab_opening _ _ _ _ _ _ _ _ _ H0). apply bret_inv in H as [E _]. injection E as -> -> _.
    repeat split; auto. lia.
  - inv H. destruct a0 as [[n1 w1] st1]. pose proof (heavier_wall_window _ _ _ _ _ _ _ _ _ _ _ _ _ _ H0). apply bret_inv in H as [E _]. injection E as -> -> _.
    repeat split; auto.
  - inv H. destruct a0 as [[n1 w1] st1]. pose proof (heavier_slab_window _ _ _ _ _ _ _ _ _ _ _ H0). apply bret_inv in H as [E _]. injection E as -> -> _.
    repeat split; auto.
  - apply bret_inv in H as [E _]. injection E as -> -> _. cbn. repeat split; auto. lia.
  - apply bret_inv in H as [E _]. injection E as -> -> _. cbn. repeat split; auto. lia.
Qed.

Lemma storey_step_what st x p st' a p' :
  storey_step o st x p = Done ((st', a), p') -> weight st' <= weight st + 1 /\ after LStorey x = Some LStorey.
Proof.
  intro H. destruct x; cbn [storey_step] in H; try discriminate.
  all: try (inv H; apply bret_inv in H as [E _]; injection E as -> _; split; [lia|reflexivity]).
  - destruct c; try discriminate; inv H; destruct a0; pose proof (heavier_type _ _ _ _ _ _ _ _ _ _ H0);
      apply bret_inv in H as [E _]; injection E as -> _; split; auto.
  - inv H. destruct a0. pose proof (heavier_window_type _ _ _ _ _ _ _ _ _ H0). apply bret_inv in H as [E _]; injection E as -> _; split; auto.
  - inv H. destruct a0. pose proof (heavier_space_type _ _ _ _ _ _ _ _ H0). apply bret_inv in H as [E _]; injection E as -> _; split; auto.
  - inv H. destruct a0. pose proof (heavier_roof _ _ _ _ _ _ _ _ _ _ _ H0). apply bret_inv in H as [E _]; injection E as -> _; split; auto.
  - inv H. destruct a0. pose proof (heavier_shading _ _ _ _ _ _ _ _ _ _ _ _ H0). apply bret_inv in H as [E _]; injection E as -> _; split; auto.
  - inv H. destruct a0. pose proof (heavier_space _ _ _ _ _ _ _ _ _ _ _ H0). apply bret_inv in H as [E _]; injection E as -> _; split; auto.
  - rewrite can_same in H. cbn [after]. destruct (can_transform k); [|discriminate].
    inv H. apply bret_inv in H as [E _]; injection E as -> _. split; [lia|auto].
Qed.

Lemma step_what cs w x p w' a p' :
  step o w x p = Done ((w', a), p') -> based cs w ->
  after (level_of w) x = Some (level_of w') /\ load w' <= load w + 3 /\ based (cs ++ [(scope_ids w, x, a)]) w'.
Proof.
  intros H Hb.
  assert (HB : forall h s b st, based cs (AtHost s b st h) -> forall h' c, h_id h' = h_id h -> h_slab h' = h_slab h ->
               exists u, In (host_cls h', false, u, h_id h') (users (cs ++ [c]))).
  { intros h s b st [(u & Hu) _] h' c E1 E2. exists u. rewrite users_snoc. apply in_or_app. left. unfold host_cls in *. now rewrite E1, E2. }
  destruct w as [|s|s b|s b st|s b st h|s b st h nm ps|s b st nm ps]; destruct x; try discriminate H; cbn [step] in H;
    try (inv H; destruct a0 as [st1 l1]; apply bret_inv in H as [E _]; injection E as -> ->;
         match goal with H0 : storey_step _ _ _ _ = _ |- _ => apply storey_step_what in H0 as [? ?] end;
         cbn [level_of load]; split; [auto|split; [lia|exact I]]);
    try (inv H; destruct a0 as [[st1 h1] l1]; apply bret_inv in H as [E _]; injection E as -> ->;
         match goal with H0 : host_step _ _ _ _ _ = _ |- _ => apply host_step_what in H0 as (E1 & E2 & E3 & E4) end;
         cbn [level_of load]; rewrite E2; split; [auto|split; [lia|split; [eapply HB; eauto|exact I]]]);
    try (inv H; apply bret_inv in H as [E _]; injection E as -> _; cbn [load level_of after];
         split; [reflexivity|split; [try lia|exact I]]).
  all: try (inv H; discriminate).
  - unfold new_storey in H0. repeat (inv H0). apply bret_inv in H0 as [-> _]. unfold weight. cbn. lia.
  - inv H. destruct a0 as [n st1]. pose proof (heavier_wall _ _ _ _ _ _ _ _ _ _ _ H0). apply bret_inv in H as [E _]. injection E as -> ->.
    cbn [level_of load h_slab]. split; auto. split; [lia|]. split; [|exact I]. exists material. rewrite users_snoc.
    apply in_or_app. right. now left.
  - inv H. destruct a0 as [n st1]. pose proof (heavier_slab _ _ _ _ _ _ _ _ _ _ _ H0). apply bret_inv in H as [E _]. injection E as -> ->.
    cbn [level_of load h_slab]. split; auto. split; [lia|]. split; [|exact I]. exists material. rewrite users_snoc.
    apply in_or_app. right. now left.
  - apply bret_inv in H as [E _]. injection E as -> _. cbn [level_of load]. split; auto. split; [lia|exact I].
  - inv H. apply bret_inv in H as [E _]. injection E as -> _. cbn [level_of load]. split; [destruct (h_slab h); auto|]. split; [lia|exact I].
  - destruct (h_slab h) eqn:Hh; [discriminate H|]. apply bret_inv in H as [E _]. injection E as -> _.
    cbn [level_of load]. rewrite Hh. split; auto. split; [lia|]. split; [|exact Hh]. eapply HB; eauto.
  - inv H. inv H. apply bret_inv in H as [E _]. injection E as -> _. destruct Hb as [Hb Hs].
    cbn [level_of load]. rewrite Hs. split; auto. split; [lia|]. split; [|exact I]. apply (HB h s b st); auto. split; auto.
  - inv H. apply bret_inv in H as [E _]. injection E as -> _. destruct Hb as [Hb Hs].
    cbn [level_of load]. split; auto. split; [lia|]. split; [|exact Hs]. apply (HB h s b st); auto. split; auto.
  - apply bret_inv in H as [E _]. injection E as -> _. cbn [level_of load]. split; auto. split; [lia|exact I].
Qed.

Lemma run_what xs : forall cs w p w' ls p',
  run o w xs p = Done ((w', ls), p') -> dense (p_map p) -> rooted (p_map p) w -> based cs w ->
  nest (level_of w) xs = Some (level_of w') /\ load w' <= load w + 3 * N.of_nat (length xs) /\
  based (cs ++ calls (scope_ids w) xs ls) w'.
Proof.
  induction xs as [|x xs IH]; intros cs w p w' ls p' H D R Hb; cbn [run] in H.
  - apply bret_inv in H as [E ->]. injection E as -> ->. cbn [calls nest length]. rewrite app_nil_r. split; auto. split; [lia|auto].
  - inv H. destruct a as [w1 a]. inv H. destruct a0 as [w2 l]. apply bret_inv in H as [E ->]. injection E as -> ->.
    destruct (step_place o _ _ _ _ _ _ H0 D R) as (R1 & _ & E1).
    assert (GS : grow anything p q) by (assert (X : steps (grow anything) (step o w x)) by st; exact (X _ _ _ H0)).
    destruct (step_what _ _ _ _ _ _ _ H0 Hb) as (N1 & L1 & B1).
    destruct (IH _ _ _ _ _ _ H1 (proj1 (GS D)) R1 B1) as (N2 & L2 & B2).
    cbn [nest calls length]. rewrite N1. split; auto. split; [lia|]. rewrite <- E1. now rewrite <- app_assoc in B2.
Qed.
End Steps.

(** ** A call at a state that was reached *)

Section Next.
Variable o : oracle.
Hypothesis Ho : sane o.
Variable sh : bool.
Variable p0 : proj.
Let K := kinds (p_map p0).
Hypothesis I0 : inv K sh true p0.
Notation "n 'is' k" := (K n = Some k) (at level 70).
Variable c0 : N.
Hypothesis Hc : c0 is KGeometricRepresentationSubContext.
Variable cs : list call.
Hypothesis HU : assoc_ok (users cs) (p_assoc p0).

Let HA : stable (at0 p0) := stable_at0 p0.
Let Hid : forall p, at0 p0 p -> at0 p0 p := fun p H => H.
Let HM : stable (BuilderSafe3.moved p0) := stable_moved p0.

Lemma safe_at {X} (c : B X) n P : safe (at0 p0) n c P -> safe (eq p0) n c P.
Proof. intro H. apply (safe_pre (at0 p0)); auto. intros p <-. apply (at0_start sh), I0. Qed.
Lemma safe_moved {X} (c : B X) n P : safe (BuilderSafe3.moved p0) n c P -> safe (eq p0) n c P.
Proof. intro H. apply (safe_pre (BuilderSafe3.moved p0)); auto. intros p <-. apply (moved_start sh), I0. Qed.

Lemma safe_then {X Y} (A : proj -> Prop) (c : B X) (f : X -> B Y) n n' P :
  safe A n c P -> n <= n' -> (forall a p, exists b, f a p = Done (b, p)) -> safe A n' (bbind c f) (fun _ _ => True).
Proof.
  intros Hs Hn Hf. eapply safe_bind; [exact Hs|exact Hn|]. intros a p _ _. destruct (Hf a p) as (b & E).
  exists b, p. split; auto. split; [lia|exact I].
Qed.

Ltac finish := intros; cbv beta; repeat match goal with a : (_ * _)%type |- _ => destruct a end; eexists; reflexivity.
Tactic Notation "by_call" tactic3(t) := eapply safe_then; [apply safe_at; t|lia|finish].
Tactic Notation "by_move" tactic3(t) := eapply safe_then; [apply safe_moved; t|lia|finish].

Lemma safe_storey st x : after LStorey x = Some LStorey -> sgood K sh st ->
  Forall (fun kn => K (snd kn) = Some (fst kn)) (used x) ->
  safe (eq p0) (100 + 100 * weight st) (storey_step o st x) (fun _ _ => True).
Proof.
  intros Ha (Hs & _) Hu. destruct x; try discriminate Ha; cbn [storey_step used] in *;
    repeat match goal with H : Forall _ (_ :: _) |- _ => inversion_clear H end; cbn [fst snd] in *.
  - by_call (apply safe_material, HA).
  - by_call (apply safe_layer, HA).
  - by_call (apply safe_layer_set, HA).
  - by_call (apply safe_usage, HA).
  - by_call (apply safe_constituent, HA).
  - by_call (apply safe_constituent_set, HA).
  - destruct c; try discriminate Ha; by_call (apply safe_new_type, HA).
  - by_call (apply safe_window_type, HA).
  - by_call (apply safe_space_type, HA).
  - by_call (eapply safe_new_roof; eauto).
  - by_call (eapply safe_new_shading; eauto).
  - by_call (eapply safe_new_space; eauto).
  - cbn [after] in Ha. rewrite can_same. destruct (can_transform k) eqn:Hk; [|discriminate Ha].
    by_move (eapply safe_transform; eauto). rewrite <- can_same in Hk. apply existsb_exists in Hk as (k' & Hi & E).
    apply kind_eqb_eq in E. now subst k'.
  - by_call (apply safe_relate, HA).
Qed.

Lemma safe_host s b st h x l : after (level_of (AtHost s b st h)) x = Some l -> x <> ODrop ->
  (forall name, x <> OWallProps name) ->
  based cs (AtHost s b st h) -> here cs (AtHost s b st h) (p_map p0) -> h_id h is host_kind h ->
  safe (eq p0) 100 (host_step o st h x) (fun _ _ => True).
Proof.
  intros Ha Hd Hw [Hb _] Hh Hi. assert (HO : hosted p0 (users cs) h) by (split; auto).
  assert (HS : h_slab h = true -> solid_slab p0 h).
  { intro E. destruct (Hh E) as (s' & u & ty & nm & sh' & pl & t & r & _ & H1 & H2).
    unfold host_kind, host_cls in Hi. rewrite E in Hi. split; [exact Hi|eauto]. }
  cbn [level_of] in Ha. destruct x; try (destruct (h_slab h); discriminate Ha); cbn [host_step];
    try (now contradiction Hd); try (now contradiction (Hw name));
    destruct (h_slab h) eqn:E; try discriminate Ha; cbn [host_step]; unfold host_step; rewrite ?E.
  - by_call (eapply safe_wall_opening; eauto).
  - by_call (eapply safe_slab_opening; eauto).
  - by_call (eapply safe_wall_window; eauto).
  - by_call (eapply safe_slab_window; eauto).
  - apply safe_ret. auto.
  - apply safe_ret. auto.
Qed.

Lemma holes_weight st : holes st <= weight st.
Proof. unfold holes, weight. lia. Qed.

Theorem safe_step w x l : after (level_of w) x = Some l -> wgood K sh w -> based cs w -> here cs w (p_map p0) ->
  Forall (fun kn => K (snd kn) = Some (fst kn)) (used x) ->
  safe (eq p0) (100 + 100 * load w) (step o w x) (fun _ _ => True).
Proof.
  intros Ha Hw Hb Hh Hu. assert (HF : fair o) by apply Ho.
  destruct w as [|s|s b|s b st|s b st h|s b st h nm ps|s b st nm ps]; cbn [level_of wgood load] in *.
  - destruct x; try discriminate Ha. by_call (eapply safe_new_site; eauto).
  - destruct Hw as [W1 W2]. destruct x; try discriminate Ha; cbn [step].
    + by_call (eapply safe_new_building; eauto).
    + by_call (apply safe_drop_site, HA).
  - destruct Hw as [[W1 W2] [W3 W4]]. destruct x; try discriminate Ha; cbn [step].
    + by_call (eapply safe_new_storey; eauto).
    + by_call (apply safe_drop_building, HA).
  - destruct Hw as (_ & _ & Hs). pose proof (proj1 Hs) as Hsid.
    assert (X : after LStorey x = Some LStorey -> x <> ODrop ->
      safe (eq p0) (100 + 100 * weight st) (letp (st', l) <-- storey_step o st x ;; bret (AtStorey s b st', l)) (fun _ _ => True)).
    { intros E _. eapply safe_then; [apply safe_storey; auto|lia|finish]. }
    destruct x; try discriminate Ha; cbn [step]; try (apply X; [assumption || reflexivity|discriminate]).
    + by_call (apply safe_drop_storey; auto).
    + apply X; [|discriminate]. cbn [after] in Ha |- *. destruct c; try discriminate Ha; reflexivity.
    + cbn [used] in Hu. inversion_clear Hu. by_call (eapply safe_new_wall; eauto).
    + cbn [used] in Hu. inversion_clear Hu. by_call (eapply safe_new_slab; eauto).
    + apply X; [|discriminate]. cbn [after] in Ha |- *. destruct (can_transform k); [reflexivity|discriminate Ha].
    + apply safe_ret. auto.
  - destruct Hw as (_ & _ & Hs & Hi & _). pose proof (holes_weight st) as HW.
    assert (X : forall y, y = x -> y <> ODrop -> (forall name, y <> OWallProps name) ->
      safe (eq p0) (100 + 100 * weight st) (letp (st', h', l) <-- host_step o st h x ;; bret (AtHost s b st' h', l)) (fun _ _ => True)).
    { intros y -> Y1 Y2. eapply safe_then; [eapply (safe_host s b st h x l); eauto|lia|finish]. }
    destruct x; try (destruct (h_slab h); discriminate Ha); cbn [step];
      try (eapply X; [reflexivity|discriminate|discriminate]).
    + by_move (eapply safe_drop_host; eauto).
    + destruct (h_slab h); [discriminate Ha|]. apply safe_ret. auto.
  - destruct x; try discriminate Ha; cbn [step].
    + eapply safe_bind; [apply safe_at, safe_property_set, HA|lia|]. intro n. cbv beta.
      eapply safe_then; [apply safe_relate, HA|lia|finish].
    + by_call (apply safe_property, HA).
  - destruct x; try discriminate Ha; cbn [step].
    + apply safe_ret. auto.
    + by_call (apply safe_property_set, HA).
    + by_call (apply safe_property, HA).
Qed.
End Next.

(** ** Programs *)

Section Programs.
Variable o : oracle.
Hypothesis Ho : sane o.
Variable i : info.
Hypothesis Hi : info_ok i = true.

Lemma learn_given xs : forall ls known q, In q (learn known xs ls) <-> In q known \/ In q (given xs ls).
Proof.
  induction xs as [|x xs IH]; intros [|a ls] known q; cbn [learn]; unfold given; cbn [combine flat_map]; try (cbn [In]; tauto).
  rewrite IH. rewrite !in_app_iff. unfold given. cbn [fst snd]. tauto.
Qed.

Lemma run_facts xs p0 w ls p :
  forallb op_ok xs = true -> start o i = Done p0 -> run o AtProject xs p0 = Done ((w, ls), p) -> honest [] xs ls ->
  let K := kinds (p_map p) in let sh := existsb is_shading xs in let cs := calls [] xs ls in
  (inv K sh true p /\ wgood K sh w /\ Forall (fun kn => K (snd kn) = Some (fst kn)) (given xs ls)) /\
  K 15 = Some KGeometricRepresentationSubContext /\ ready cs p /\ here cs w (p_map p) /\ based cs w /\
  load w <= 3 * N.of_nat (length xs) /\ nest LProject xs = Some (level_of w) /\ length ls = length xs.
Proof.
  intros Hx H0 HR HH K sh cs. pose proof (start_ri o _ _ H0) as RI0. pose proof (start_ready o _ _ H0) as RD0.
  pose proof (rd_dense _ _ RD0) as D0.
  assert (G : grow anything p0 p) by (eapply run_grow; eauto).
  assert (D1 : dense (p_map p)) by apply (G D0).
  assert (HK : forall n k, K n = Some k -> n <= max_usize) by (intros n k; now apply dense_max).
  assert (B1 : below K p) by (intros n e He; apply kinds_some; eauto).
  assert (B0 : below K p0) by (eapply grow_below; eauto).
  pose proof (start_good K sh o i p0 HK Ho Hi H0 B0) as I0.
  destruct (tr_run K HK sh true o Ho eq_refl xs AtProject [] I Hx (fun E => E) (Forall_nil _) _ _ _ HR B1 I0 HH)
    as (I1 & W1 & K1).
  destruct (run_ids o _ _ _ _ _ _ HR D0) as (LA & _ & LL). apply ladder_sorted, sorted_NoDup in LA.
  assert (HF : fair o) by apply Ho.
  destruct (run_here o HF _ _ [] [] _ _ _ _ _ HR ltac:(now left) RI0 ltac:(intros ? []) RD0 I HH LA) as (kn & _ & _ & _ & RD & HR1).
  destruct (run_what o _ [] _ _ _ _ _ HR D0 ltac:(now left) I) as (N1 & L1 & Bs).
  split; [auto|]. split.
  { assert (L : lookup (p_map p0) 15 = Some (Ent KGeometricRepresentationSubContext (match lookup (p_map p0) 15 with Some (Ent _ l) => l | _ => [] end))).
    { rewrite (start_explicit o i) in H0. injection H0 as <-. reflexivity. }
    exact (B0 _ _ L). }
  split; [exact RD|]. split; [exact HR1|]. split; [exact Bs|]. split; [cbn [load] in L1; lia|]. split; auto.
Qed.

Lemma run_snoc xs x w p w1 ls p1 w2 a p2 :
  run o w xs p = Done ((w1, ls), p1) -> step o w1 x p1 = Done ((w2, a), p2) ->
  run o w (xs ++ [x]) p = Done ((w2, ls ++ [a]), p2).
Proof.
  revert w p ls. induction xs as [|y xs IH]; intros w p ls H Hs; cbn [run app] in *.
  - apply bret_inv in H as [E ->]. injection E as -> ->. unfold bbind. rewrite Hs. reflexivity.
  - inv H. destruct a0 as [w3 a3]. inv H. destruct a0 as [w4 l4]. apply bret_inv in H as [E ->]. injection E as -> ->.
    rewrite (bind_done _ _ _ _ _ H0). rewrite (bind_done _ _ _ _ _ (IH _ _ _ H1 Hs)). reflexivity.
Qed.

(** How many objects there are after [n] calls. *)
Definition room (n : N) : N := 100 + 100 * n + 150 * (n * n).

Lemma room_step n s c l : s <= room n -> l <= 3 * n -> c <= s + (100 + 100 * l) -> c <= room (n + 1).
Proof. unfold room. intros. assert ((n + 1) * (n + 1) = n * n + 2 * n + 1) by ring. lia. Qed.

Lemma room_max n s l : s <= room n -> few n -> l <= 3 * n -> s + (100 + 100 * l) <= max_usize.
Proof.
  unfold room, few, max_usize. change (2 ^ 28) with 268435456. intros.
  assert (n * n <= 268435456 * 268435456) by (apply N.mul_le_mono; lia). lia.
Qed.

Lemma nest_app xs : forall l ys, nest l (xs ++ ys) = match nest l xs with Some l' => nest l' ys | None => None end.
Proof. induction xs as [|x xs IH]; intros l ys; cbn [app nest]; auto. destruct (after l x); auto. Qed.

Lemma size_start p0 : start o i = Done p0 -> size (p_map p0) = 15.
Proof. intro H. rewrite (start_explicit o i) in H. injection H as <-. reflexivity. Qed.

Theorem runs xs l p0 : start o i = Done p0 -> forallb op_ok xs = true -> nest LProject xs = Some l ->
  careful o i xs -> few (N.of_nat (length xs)) ->
  exists w ls p, run o AtProject xs p0 = Done ((w, ls), p) /\ honest [] xs ls /\ level_of w = l /\
    size (p_map p) <= room (N.of_nat (length xs)).
Proof.
  intro H0. revert l. induction xs as [|x xs IH] using rev_ind; intros l Hx Hn Hc Hf.
  - exists AtProject, [], p0. split; [reflexivity|]. split; [exact I|]. split; [now injection Hn|].
    rewrite (size_start _ H0). unfold room. cbn. lia.
  - rewrite nest_app in Hn. destruct (nest LProject xs) as [l1|] eqn:N1; [|discriminate Hn].
    rewrite forallb_app in Hx. apply andb_true_iff in Hx as [Hx Hx1]. rewrite app_length in *. cbn [length] in *.
    destruct (IH l1 Hx eq_refl) as (w & ls & p & HR & HH & HL & HS).
    { intros ys y zs ls m E HR. apply (Hc ys y (zs ++ [x]) ls m); auto. now rewrite E, <- app_assoc. }
    { unfold few in *. lia. }
    destruct (run_facts _ _ _ _ _ Hx H0 HR HH) as ((I1 & W1 & K1) & K15 & RD & HE & BS & LW & N2 & LL).
    destruct (Hc xs x [] ls (p_map p) eq_refl) as [HU HA].
    { exists p0, w, p. auto. }
    assert (Ha : exists l2, after (level_of w) x = Some l2).
    { rewrite HL. cbn [nest] in Hn. destruct (after l1 x); [eauto|discriminate Hn]. }
    destruct Ha as [l2 Ha].
    assert (HU' : Forall (fun kn => kinds (p_map p) (snd kn) = Some (fst kn)) (used x)).
    { rewrite Forall_forall in *. intros q Hq. apply K1. apply HU. exact Hq. }
    destruct (safe_step o Ho _ p I1 15 K15 _ (rd_assoc _ _ RD) w x l2 Ha W1 BS HE HU' p eq_refl) as ([w2 a] & p2 & E2 & S2 & _).
    { apply (room_max (N.of_nat (length xs))); auto. unfold few in *. lia. }
    exists w2, (ls ++ [a]), p2. split; [eapply run_snoc; eauto|].
    destruct (step_what o _ _ _ _ _ _ _ E2 BS) as (N3 & _ & _).
    split; [|split].
    + apply honest_app; [now rewrite LL|]. split; auto. cbn [honest].
      split; [intros q Hq; apply learn_given; right; apply HU; exact Hq|]. split; auto.
      intros n Hq. apply HA in Hq. apply in_map_iff in Hq as (q & <- & Hq). apply in_map. apply learn_given. now right.
    + cbn [nest] in Hn. rewrite <- HL, N3 in Hn. congruence.
    + replace (N.of_nat (length xs + 1)) with (N.of_nat (length xs) + 1) by lia. eapply room_step; eauto.
Qed.

Lemma assoc_count us a : assoc_ok us a -> (length a <= length us)%nat.
Proof.
  intros (Hn & Hk & _). rewrite <- (map_length fst a), <- (map_length fst us). apply NoDup_incl_length; auto.
  intros k. apply Hk.
Qed.
Lemma users_count cs : (length (users cs) <= length cs)%nat.
Proof.
  unfold users. apply flat_map_short. intros [[s x] a]. destruct x; destruct a as [|? [|? [|]]]; cbn; auto.
Qed.
Lemma calls_count xs : forall ls alive, (length (calls alive xs ls) <= length xs)%nat.
Proof. induction xs as [|x xs IH]; intros [|a ls] alive; cbn [calls length]; try lia. specialize (IH ls (alive_after alive x a)). lia. Qed.

Theorem programs xs : forallb op_ok xs = true -> nest LProject xs = Some LProject -> careful o i xs ->
  few (N.of_nat (length xs)) -> exists ls r, program o i xs = Done (ls, r) /\ honest [] xs ls.
Proof.
  intros Hx Hn Hc Hf. pose proof (start_explicit o i) as H0. set (p0 := mk_proj _ _ _ _ _ _) in H0.
  destruct (runs xs LProject p0 H0 Hx Hn Hc Hf) as (w & ls & p & HR & HH & HL & HS).
  destruct (run_facts _ _ _ _ _ Hx H0 HR HH) as ((I1 & W1 & K1) & K15 & RD & HE & BS & LW & N2 & LL).
  assert (w = AtProject) as ->.
  { destruct w; try discriminate HL; auto. cbn [level_of] in HL. destruct (h_slab h); discriminate HL. }
  assert (HF : fair o) by apply Ho.
  destruct (safe_build o (stable_at0 p) HF (p_assoc p) p) as (u & r & E & _).
  { split; [apply (at0_start _ _ I1)|reflexivity]. }
  { pose proof (assoc_count _ _ (rd_assoc _ _ RD)). pose proof (users_count (calls [] xs ls)). pose proof (calls_count xs ls []).
    pose proof (room_max _ _ (N.of_nat (length xs)) HS Hf ltac:(lia)). lia. }
  exists ls, r. split; auto. unfold program. now rewrite H0, HR, E.
Qed.

(** The next call alone. *)
Theorem next_call xs x ls p0 w p l : forallb op_ok xs = true -> start o i = Done p0 ->
  run o AtProject xs p0 = Done ((w, ls), p) -> honest [] (xs ++ [x]) (ls ++ [[]]) ->
  nest LProject (xs ++ [x]) = Some l -> size (p_map p) + 100 + 300 * N.of_nat (length xs) <= max_usize ->
  exists w' a p', step o w x p = Done ((w', a), p').
Proof.
  intros Hx H0 HR HH Hn HS.
  assert (LL : length ls = length xs).
  { pose proof (rd_dense _ _ (start_ready o _ _ H0)) as D0. apply (run_ids o _ _ _ _ _ _ HR D0). }
  apply honest_app in HH as [HH (HU & _ & _)]; [|now rewrite LL].
  destruct (run_facts _ _ _ _ _ Hx H0 HR HH) as ((I1 & W1 & K1) & K15 & RD & HE & BS & LW & N2 & _).
  rewrite nest_app, N2 in Hn. cbn [nest] in Hn. destruct (after (level_of w) x) as [l2|] eqn:Ha; [|discriminate Hn].
  assert (HU' : Forall (fun kn => kinds (p_map p) (snd kn) = Some (fst kn)) (used x)).
  { rewrite Forall_forall in *. intros q Hq. apply K1. apply HU, learn_given in Hq as [[]|Hq]. exact Hq. }
  destruct (safe_step o Ho _ p I1 15 K15 _ (rd_assoc _ _ RD) w x l2 Ha W1 BS HE HU' p eq_refl) as ([w2 a] & p2 & E2 & _); [lia|].
  eauto.
Qed.

(** The same without the state of the builder. *)
Theorem reached_next xs x ls m l : forallb op_ok xs = true -> reached o i xs ls m ->
  honest [] (xs ++ [x]) (ls ++ [[]]) -> nest LProject (xs ++ [x]) = Some l ->
  size m + 100 + 300 * N.of_nat (length xs) <= max_usize ->
  exists a m', reached o i (xs ++ [x]) (ls ++ [a]) m'.
Proof.
  intros Hx (p0 & w & p & H0 & HR & ->) HH Hn HS.
  destruct (next_call xs x ls p0 w p l Hx H0 HR HH Hn HS) as (w' & a & p' & E).
  exists a, (p_map p'), p0, w', p'. split; auto. split; auto. eapply run_snoc; eauto.
Qed.

Theorem reached_nested xs ls m : reached o i xs ls m -> exists l, nest LProject xs = Some l.
Proof.
  intros (p0 & w & p & H0 & HR & ->). pose proof (rd_dense _ _ (start_ready o _ _ H0)) as D0.
  exists (level_of w). apply (run_what o _ [] _ _ _ _ _ HR D0 ltac:(now left) I).
Qed.

Theorem nested xs ls r : program o i xs = Done (ls, r) -> nest LProject xs = Some LProject.
Proof.
  intro H. apply program_inv in H as (p & w & q & H1 & H2 & -> & H3).
  pose proof (rd_dense _ _ (start_ready o _ _ H1)) as D0.
  apply (run_what o _ [] _ _ _ _ _ H2 D0 ltac:(now left) I).
Qed.

(** Between the calls all geometry can be read. *)
Theorem reached_reads xs ls m : forallb op_ok xs = true -> reached o i xs ls m -> honest [] xs ls ->
  forall n k l, lookup m n = Some (Ent k l) -> In k readable_kinds -> exists x, mapping m k l = Some (Done x).
Proof.
  intros Hx (p0 & w & p & H0 & HR & ->) HH n k l Hn Hk.
  destruct (run_facts xs p0 w ls p Hx H0 HR HH) as ((I0 & _) & _). destruct I0 as (D & G & _).
  destruct (built_maps _ _ G n k l Hn Hk) as (x & E & _). eauto.
Qed.

(** Programs that were built were careful. *)
Lemma honest_careful xs ls r : program o i xs = Done (ls, r) -> honest [] xs ls -> careful o i xs.
Proof.
  intros H HH ys x zs l1 m -> (p0 & w & p & H0 & HR & ->).
  apply program_inv in H as (p0' & w' & q & H0' & H2 & -> & _). rewrite H0 in H0'. injection H0' as <-.
  pose proof (rd_dense _ _ (start_ready o _ _ H0)) as D0.
  destruct (run_app o _ _ _ _ _ _ _ H2) as (w1 & m1 & p1 & m2 & R1 & R2 & ->). rewrite HR in R1. injection R1 as <- <- <-.
  assert (LL : length l1 = length ys) by apply (run_ids o _ _ _ _ _ _ HR D0).
  apply honest_app in HH as [_ HB]; [|now rewrite LL].
  cbn [run] in R2. inv R2. destruct a as [w2 a]. inv R2. destruct a0 as [w3 l3]. apply bret_inv in R2 as [E _].
  injection E as _ ->. destruct HB as (U & UA & _).
  assert (X : incl (learn [] ys l1) (told ys l1)) by (intros k Hk; apply learn_given in Hk as [[]|Hk]; exact Hk).
  split; [intros k Hk; auto|]. intros n Hn'. apply UA, in_map_iff in Hn' as (k & <- & Hk). apply in_map. auto.
Qed.

Theorem progress xs : forallb op_ok xs = true -> few (N.of_nat (length xs)) ->
  (nest LProject xs = Some LProject /\ careful o i xs <->
   exists ls r, program o i xs = Done (ls, r) /\ honest [] xs ls).
Proof.
  intros Hx Hf. split.
  - intros [Hn Hc]. now apply programs.
  - intros (ls & r & H & HH). split; [eapply nested; eauto|eapply honest_careful; eauto].
Qed.
End Programs.

Lemma built_is o t i xs ls r : program o i xs = Done (ls, r) -> built o t i xs = Done (mk_ifc (default_header t) (p_map r)).
Proof. intro H. unfold built. now rewrite H. Qed.
Lemma build_text_is o t i xs ls r : program o i xs = Done (ls, r) -> build_text o t i xs = Done (save (mk_ifc (default_header t) (p_map r))).
Proof. intro H. unfold build_text. now rewrite (built_is _ _ _ _ _ _ H). Qed.
