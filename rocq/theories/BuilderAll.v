(** Whole programs keep the invariant about relations. *)

From Coq Require Import String Ascii List NArith ZArith Bool Lia Permutation.
From Coq Require Import ZifyBool ZifyNat ZifyN.
From Verif Require Import Base Prims Float Arith Kind Types Schema Entity EntityFacts DataMap DataSpec DataMapFacts
  Extractor Builder BuilderRun BuilderBase BuilderGrow BuilderSpec BuilderRel BuilderRel2 BuilderEmit BuilderInv
  BuilderStep.
Import ListNotations.
Open Scope N_scope.
Open Scope builder_scope.

Section All.
Variable o : oracle.
Hypothesis Ho : fair o.

Ltac inv H :=
  match type of H with
  | bbind _ _ _ = Done _ => let a := fresh "a" in let q := fresh "q" in let H1 := fresh "H" in
      apply bbind_inv in H as (a & q & H1 & H)
  end.

Section Calls.
Variable pr : N.
Let ri := ri pr.

Lemma node_fresh b s l n : upto b l -> b < n -> node_facts (s, set_add l n) = node_facts (s, l) ++ [FPair KRelAggregates s n].
Proof.
  intros Hl Hn. unfold node_facts. cbn [fst snd]. rewrite (set_add_fresh b) by auto. rewrite map_app. reflexivity.
Qed.

Lemma upto_add b b' l n : upto b l -> b < n <= b' -> upto b' (set_add l n).
Proof.
  intros Hl Hn. rewrite (set_add_fresh b) by (auto; lia). apply Forall_app. split; [|repeat constructor; lia].
  eapply upto_mono; eauto. lia.
Qed.

Lemma step_ri known w tr p w' a p' x :
  ri known w tr p -> step o w x p = Done (w', a, p') -> incl (used x) known ->
  ri (returned x a ++ known) w' (tr ++ [(scope_ids w, x, a)]) p' /\ scope_ids w' = alive_after (scope_ids w) x a.
Proof.
  intros H Hc Hu. assert (Hd : dense (p_map p)) by apply H.
  assert (Hi : upto (size (p_map p)) (p_sites p)) by apply H.
  assert (Hpr : p_project p = pr) by apply H.
  assert (Has : assoc_ok (users tr) (p_assoc p)) by apply H.
  destruct w as [|s|s b|s b st|s b st h|s b st h nm ps|s b st nm ps].
  - (* project *)
    destruct x; try discriminate Hc. cbn [step] in Hc. inv Hc. apply bret_inv in Hc as [E ->].
    injection E as -> ->. apply new_site_inv in H0 as (G & Hn & S & A); auto.
    split; [|reflexivity]. destruct (G Hd) as (_ & _ & Hp & _).
    eapply (ri_quiet pr known AtProject tr p (AtSite (a0, [])) q (ONewSite name position) [a0] H G).
    + constructor.
    + rewrite S. eapply upto_add; eauto.
    + rewrite A. cbn [call_users]. rewrite app_nil_r. auto.
    + repeat constructor. cbn [snd]. lia.
    + unfold proj_facts. rewrite S, A, Hp, (node_fresh (size (p_map p))), Hpr by (auto; lia).
      cbn [scope_facts scope_ids call_facts call_contains call_storey call_voids call_fills call_types call_materials
           call_tree call_node fpairs map fst snd app]. unfold node_facts. cbn [fst snd map]. clear. perm.
  - (* site *)
    assert (Hs : upto (size (p_map p)) (snd s)) by apply H.
    destruct x; try discriminate Hc; cbn [step] in Hc.
    + inv Hc. apply bret_inv in Hc as [E ->]. injection E as -> ->. split; [|reflexivity].
      pose proof (fr_new_building o _ _ _ _ _ _ H0 Hd) as Hn.
      assert (G : grow quiet p q) by (eapply (@st_new_building quiet _ _ quiet_ok); eauto).
      assert (F : frame p q) by (eapply (@st_new_building quiet _ _ quiet_ok); eauto).
      destruct F as [F1 F2]. pose proof (size_grow _ _ _ G Hd) as Hz.
      eapply (ri_quiet pr known (AtSite s) tr p (AtBuilding (fst s, set_add (snd s) a0) (a0, [])) q
                (ONewBuilding name position) [a0] H G).
      * split; [|constructor]. cbn [snd]. eapply upto_add; eauto.
      * rewrite F1. eapply upto_mono; eauto.
      * rewrite F2. cbn [call_users]. rewrite app_nil_r. auto.
      * repeat constructor. cbn [snd]. lia.
      * destruct (G Hd) as (_ & _ & Hp & _). unfold proj_facts. rewrite F1, F2, Hp. destruct s as [s l].
        cbn [scope_facts fst snd] in *. rewrite (node_fresh (size (p_map p))) by (auto; lia).
        cbn [scope_ids call_facts call_contains call_storey call_voids call_fills call_types call_materials
             call_tree call_node fpairs map fst snd app]. unfold node_facts. cbn [fst snd map]. clear. perm.
    + inv Hc. apply bret_inv in Hc as [E ->]. injection E as -> ->. split; [|reflexivity].
      eapply (ri_emit pr known (AtSite s) tr p AtProject q ODrop _ _ _ H H0); auto.
      * apply emits_aggregate. auto.
      * apply (@st_drop_site anything _ _ (fun _ _ _ => eq_refl)).
      * apply (@st_drop_site anything _ _ (fun _ _ _ => eq_refl)).
      * cbn [scope_facts app]. destruct s. apply Permutation_refl.
      * cbn [scope_ok]. tauto.
  - (* building *)
    assert (Hs : upto (size (p_map p)) (snd s) /\ upto (size (p_map p)) (snd b)) by apply H.
    destruct Hs as [Hs Hb].
    destruct x; try discriminate Hc; cbn [step] in Hc.
    + inv Hc. apply bret_inv in Hc as [E ->]. injection E as -> ->. split; [|reflexivity].
      rename a0 into st. destruct (new_storey_inv o _ _ _ _ _ _ H0 Hd) as (Hn & c & Est).
      assert (G : grow quiet p q) by (eapply (@st_new_storey quiet _ _ quiet_ok); eauto).
      assert (F : frame p q) by (eapply (@st_new_storey quiet _ _ quiet_ok); eauto).
      destruct F as [F1 F2]. pose proof (size_grow _ _ _ G Hd) as Hz.
      eapply (ri_quiet pr known (AtBuilding s b) tr p (AtStorey s (fst b, set_add (snd b) (s_id st)) st) q
                (ONewStorey name elevation) [s_id st] H G).
      * split; [eapply upto_mono; eauto|]. split; [cbn [snd]; eapply upto_add; eauto|].
        rewrite Est. unfold bounded. cbn. repeat split; constructor.
      * rewrite F1. eapply upto_mono; eauto.
      * rewrite F2. cbn [call_users]. rewrite app_nil_r. auto.
      * repeat constructor. cbn [snd]. lia.
      * destruct (G Hd) as (_ & _ & Hp & _). unfold proj_facts. rewrite F1, F2, Hp. destruct b as [b l].
        cbn [scope_facts fst snd] in *. rewrite (node_fresh (size (p_map p))) by (auto; lia).
        rewrite Est. unfold storey_facts. cbn [s_id s_elems s_types s_voids_wall s_voids_slab s_fills map flat_map app].
        cbn [scope_ids call_facts call_contains call_storey call_voids call_fills call_types call_materials
             call_tree call_node fpairs map fst snd app]. unfold node_facts. cbn [fst snd map]. clear. perm.
    + inv Hc. apply bret_inv in Hc as [E ->]. injection E as -> ->. split; [|reflexivity].
      eapply (ri_emit pr known (AtBuilding s b) tr p (AtSite s) q ODrop _ _ _ H H0); auto.
      * apply emits_aggregate. auto.
      * apply (@st_drop_building anything _ _ (fun _ _ _ => eq_refl)).
      * apply (@st_drop_building anything _ _ (fun _ _ _ => eq_refl)).
      * cbn [scope_facts app]. destruct b. apply Permutation_refl.
      * cbn [scope_ok]. tauto.
  - (* storey *)
    assert (Hb : bounded (size (p_map p)) st) by apply H.
    pose proof (fun k n => known_le pr known _ tr p x k n H Hu) as Hk.
    assert (Hgen : forall l st', storey_step o st x p = Done (st', l, p') -> a = l -> w' = AtStorey s b st' ->
              opens x l = None -> closes x = false ->
              ri (returned x a ++ known) w' (tr ++ [(scope_ids (AtStorey s b st), x, a)]) p' /\
              scope_ids w' = alive_after (scope_ids (AtStorey s b st)) x a).
    { intros l st' Hs -> -> E1 E2. destruct (storey_step_ri o pr _ _ _ _ _ _ _ _ _ _ H Hs Hu) as [R E].
      split; auto. unfold alive_after. rewrite E1, E2. cbn [scope_ids]. now rewrite E. }
    destruct x; cbn [step] in Hc;
      try (inv Hc; destruct a0 as [st1 l1]; apply bret_inv in Hc as [E ->]; injection E as -> ->;
           first [discriminate H0|exact (Hgen l1 st1 H0 eq_refl eq_refl eq_refl eq_refl)]);
      clear Hgen.
    + (* drop *)
      inv Hc. apply bret_inv in Hc as [E ->]. injection E as -> ->. split; [|reflexivity].
      eapply (ri_emit pr known (AtStorey s b st) tr p (AtBuilding s b) q ODrop _ _ _ H H0); auto.
      * eapply emits_drop_storey; eauto.
      * apply (@st_drop_storey anything _ _ (fun _ _ _ => eq_refl)).
      * apply (@st_drop_storey anything _ _ (fun _ _ _ => eq_refl)).
      * cbn [scope_facts]. rewrite app_assoc. apply Permutation_refl.
      * cbn [scope_ok]. tauto.
    + (* wall *)
      inv Hc. destruct a0 as [n st1]. apply bret_inv in Hc as [E ->]. injection E as -> ->.
      destruct (eff_new_wall o _ _ _ _ _ _ _ _ _ _ H0 Hd) as (G & Hn & -> & S & A). split; [|reflexivity].
      eapply (ri_eff pr known (AtStorey s b st) s b st tr p _ _ _ (OWall material ty name s0 place) [n] n (Some (_, false, material)));
        [exact H|reflexivity|cbn [scope_ok]; tauto|reflexivity|cbn [scope_ok]; tauto|exact G|exact S|exact A| | | | | |].
      * intros k Ek; injection Ek as <-; cbn [fst assoc_tables In]; tauto.
      * reflexivity.
      * rewrite <- app_assoc. apply (Permutation_refl _).
      * apply (elem_push_facts _ CWall ty n st Hb). lia.
      * eapply elem_push_bounded; eauto. eapply Hk. cbn. auto.
      * cbn [returned map snd]. repeat constructor. lia.
    + (* slab *)
      inv Hc. destruct a0 as [n st1]. apply bret_inv in Hc as [E ->]. injection E as -> ->.
      destruct (eff_new_slab o _ _ _ _ _ _ _ _ _ _ H0 Hd) as (G & Hn & -> & S & A). split; [|reflexivity].
      eapply (ri_eff pr known (AtStorey s b st) s b st tr p _ _ _ (OSlab material ty name s0 place) [n] n (Some (_, false, material)));
        [exact H|reflexivity|cbn [scope_ok]; tauto|reflexivity|cbn [scope_ok]; tauto|exact G|exact S|exact A| | | | | |].
      * intros k Ek; injection Ek as <-; cbn [fst assoc_tables In]; tauto.
      * reflexivity.
      * rewrite <- app_assoc. apply (Permutation_refl _).
      * apply (elem_push_facts _ CSlab ty n st Hb). lia.
      * eapply elem_push_bounded; eauto. eapply Hk. cbn. auto.
      * cbn [returned map snd]. repeat constructor. lia.
    + (* set *)
      apply bret_inv in Hc as [E ->]. injection E as -> ->. split; [|reflexivity].
      eapply (ri_same pr known (AtStorey s b st) tr p _ p (OSet name) [] H);
        [apply grow_refl|split; reflexivity|reflexivity|auto|reflexivity|reflexivity|constructor].
  - (* wall or slab *)
    assert (Hgen : forall l st' h', host_step o st h x p = Done (st', h', l, p') -> a = l -> w' = AtHost s b st' h' ->
              opens x l = None -> closes x = false ->
              ri (returned x a ++ known) w' (tr ++ [(scope_ids (AtHost s b st h), x, a)]) p' /\
              scope_ids w' = alive_after (scope_ids (AtHost s b st h)) x a).
    { intros l st' h' Hs -> -> E1 E2. destruct (host_step_ri o pr _ _ _ _ _ _ _ _ _ _ _ _ H Hs Hu) as (R & E & E').
      split; auto. unfold alive_after. rewrite E1, E2. cbn [scope_ids]. now rewrite E, E'. }
    destruct x; cbn [step] in Hc;
      try (inv Hc; destruct a0 as [[st1 h1] l1]; apply bret_inv in Hc as [E ->]; injection E as -> ->;
           first [discriminate H0|exact (Hgen l1 st1 h1 H0 eq_refl eq_refl eq_refl eq_refl)]); clear Hgen.
    + inv Hc. apply bret_inv in Hc as [E ->]. injection E as -> ->. split; [|reflexivity].
      eapply (ri_same pr known (AtHost s b st h) tr p (AtStorey s b st) q ODrop [] H);
        [eapply (@st_drop_host quiet _ _ quiet_ok); [typeclasses eauto|eauto]|eapply (@st_drop_host quiet _ _ quiet_ok); [typeclasses eauto|eauto]
        |reflexivity|auto|reflexivity|reflexivity|constructor].
    + destruct (h_slab h); [discriminate|]. apply bret_inv in Hc as [E ->]. injection E as -> ->.
      split; [|reflexivity].
      eapply (ri_same pr known (AtHost s b st h) tr p (AtWallProps s b st h name []) p (OWallProps name) [] H);
        [apply grow_refl|split; reflexivity|reflexivity|auto|reflexivity|reflexivity|constructor].
  - destruct x; try discriminate Hc; cbn [step] in Hc.
    + inv Hc. inv Hc. apply bret_inv in Hc as [E ->]. injection E as -> ->. split; [|reflexivity].
      assert (G : grow quiet p q0).
      { eapply grow_trans; [eapply (@st_property_set quiet (grow quiet) _ quiet_ok)|
          eapply (@st_relate_properties quiet (grow quiet) _ o _ _ eq_refl)]; eauto. }
      assert (F : frame p q0).
      { eapply pre_trans; [eapply (@st_property_set quiet frame _ quiet_ok)|
          eapply (@st_relate_properties quiet frame _ o _ _ eq_refl)]; eauto. }
      eapply (ri_same pr known (AtWallProps s b st h nm ps) tr p (AtHost s b st h) q0 ODrop [] H);
        [exact G|exact F|reflexivity|auto|reflexivity|reflexivity|constructor].
    + inv Hc. apply bret_inv in Hc as [E ->]. injection E as -> ->. split; [|reflexivity].
      eapply (ri_fresh pr known (AtWallProps s b st h nm ps) tr p _ q (OProperty name value unit) a0 _ H H0);
        [apply (@st_single_property quiet _ _ quiet_ok)|apply (@st_single_property quiet _ _ quiet_ok)
        |apply fr_single_property|reflexivity|auto|reflexivity|reflexivity|eexists; reflexivity].
  - destruct x; try discriminate Hc; cbn [step] in Hc.
    + apply bret_inv in Hc as [E ->]. injection E as -> ->. split; [|reflexivity].
      eapply (ri_same pr known (AtSet s b st nm ps) tr p (AtStorey s b st) p ODrop [] H);
        [apply grow_refl|split; reflexivity|reflexivity|auto|reflexivity|reflexivity|constructor].
    + inv Hc. apply bret_inv in Hc as [E ->]. injection E as -> ->. split; [|reflexivity].
      eapply (ri_fresh pr known (AtSet s b st nm ps) tr p _ q OFinishSet a0 _ H H0);
        [apply (@st_property_set quiet _ _ quiet_ok)|apply (@st_property_set quiet _ _ quiet_ok)
        |apply fr_property_set|reflexivity|auto|reflexivity|reflexivity|eexists; reflexivity].
    + inv Hc. apply bret_inv in Hc as [E ->]. injection E as -> ->. split; [|reflexivity].
      eapply (ri_fresh pr known (AtSet s b st nm ps) tr p _ q (OProperty name value unit) a0 _ H H0);
        [apply (@st_single_property quiet _ _ quiet_ok)|apply (@st_single_property quiet _ _ quiet_ok)
        |apply fr_single_property|reflexivity|auto|reflexivity|reflexivity|eexists; reflexivity].
Qed.

Lemma run_ri xs : forall known w tr p w' ls p',
  ri known w tr p -> run o w xs p = Done (w', ls, p') -> honest known xs ls ->
  exists known', ri known' w' (tr ++ calls (scope_ids w) xs ls) p'.
Proof.
  induction xs as [|x xs IH]; intros known w tr p w' ls p' H Hr Hh; cbn [run] in Hr.
  - apply bret_inv in Hr as [E ->]. injection E as -> ->. exists known. cbn [calls]. now rewrite app_nil_r.
  - inv Hr. destruct a as [w1 a]. inv Hr. destruct a0 as [w2 l]. apply bret_inv in Hr as [E ->].
    injection E as -> ->. cbn [honest] in Hh. destruct Hh as (H1' & _ & H2').
    destruct (step_ri _ _ _ _ _ _ _ _ H H0 H1') as [R E].
    destruct (IH _ _ _ _ _ _ _ R H1 H2') as (known' & R'). exists known'.
    cbn [calls]. rewrite <- E. rewrite <- app_assoc in R'. exact R'.
Qed.
End Calls.

Lemma start_done i p :
  start o i = Done p ->
  exists oh pr q, new_project o i empty_proj = Done (oh, pr, q) /\
    p = mk_proj (p_map q) (p_tick q) oh pr [] [].
Proof.
  unfold start. generalize (new_project o i empty_proj) as r. intros [[[oh pr] q]| |] H; try discriminate.
  injection H as <-. now exists oh, pr, q.
Qed.

Lemma start_inv i p :
  start o i = Done p ->
  dense (p_map p) /\ facts (p_map p) = [] /\ p_sites p = [] /\ p_assoc p = [].
Proof.
  intro H. apply start_done in H as (oh & pr & q & E & ->). cbn [p_map p_sites p_assoc p_project].
  pose proof (@st_new_project quiet (grow quiet) _ quiet_ok o i quiet_project _ _ _ E) as G.
  destruct (G dense_nil) as [D _]. split; auto. split; auto.
  exact (facts_grow _ _ G dense_nil).
Qed.

Lemma start_ri i p : start o i = Done p -> ri (p_project p) [] AtProject [] p.
Proof.
  intro H. apply start_inv in H as (D & F & S & A). unfold ri, upto. rewrite F, S, A. cbn [scope_ok map].
  split; auto. split; auto. split; auto. split; [constructor|]. split; [|split; [constructor|]].
  - split; [constructor|]. split; [reflexivity|constructor].
  - cbn [scope_facts app flat_map]. unfold proj_facts. rewrite S, A. apply Permutation_refl.
Qed.

(** ** Build *)

Lemma bmap_walk_inv {T V} (g : T -> list (N * V)) ts : forall p ls p',
  (forall t, NoDup (map fst (g t))) ->
  bmap (fun t => walk_pairs o (g t)) ts p = Done (ls, p') ->
  Forall2 (fun r t => Permutation r (g t)) ls ts /\ exists k, p' = set_tick k p.
Proof.
  induction ts as [|t ts IH]; intros p ls p' Hn H; cbn [bmap] in H.
  - apply bret_inv in H as [-> ->]. split; [constructor|]. exists (p_tick p). now destruct p.
  - inv H. inv H. apply bret_inv in H as [-> ->]. apply IH in H1 as (F & k & ->); auto.
    split; [constructor; auto; eapply walk_pairs_perm; eauto|]. exists k.
    unfold walk_pairs, walk, tick in H0. apply bbind_inv in H0 as (ks & q1 & W1 & W2).
    apply bbind_inv in W1 as (x & q2 & W3 & W4). injection W3 as <- <-.
    apply bret_inv in W4 as [_ ->]. apply bret_inv in W2 as [_ ->]. reflexivity.
Qed.

Lemma assocs_of_NoDup c t a : NoDup (map fst a) -> NoDup (map fst (assocs_of c t a)).
Proof.
  unfold assocs_of. induction a as [|[[[c' t'] m] v] l IH]; intro H; [constructor|].
  cbn [map filter fst snd] in *. inversion H; subst. destruct (cls_eqb c' c && Bool.eqb t' t) eqn:E; auto.
  apply andb_true_iff in E as [E1 E2]. apply cls_eqb_eq in E1. apply Bool.eqb_prop in E2. subst.
  cbn [map fst snd]. constructor; auto. intro Hi. apply H2.
  rewrite map_map in Hi. cbn [fst] in Hi. apply in_map_iff in Hi as (x & <- & Hx).
  apply filter_In in Hx as [Hx Ex]. apply andb_true_iff in Ex as [X1 X2]. apply cls_eqb_eq in X1.
  apply Bool.eqb_prop in X2. apply in_map_iff. exists x. split; auto.
  destruct x as [[[cx tx] nx] vx]. cbn in *. now subst.
Qed.

Lemma concat_perm {A T} (g : T -> list A) ls ts :
  Forall2 (fun r t => Permutation r (g t)) ls ts -> Permutation (concat ls) (flat_map g ts).
Proof. induction 1; cbn [concat flat_map]; auto. now apply Permutation_app. Qed.

Lemma flat_map_two {A T} (g h : T -> list A) ts :
  Permutation (flat_map (fun t => g t ++ h t) ts) (flat_map g ts ++ flat_map h ts).
Proof.
  induction ts as [|t ts IH]; cbn [flat_map]; auto. rewrite IH, <- !app_assoc. apply Permutation_app_head.
  rewrite !app_assoc. apply Permutation_app_tail. apply Permutation_app_comm.
Qed.

Lemma assocs_split a :
  Forall (fun x => In (fst (fst x)) assoc_tables) a ->
  Permutation (map snd (flat_map (fun t => assocs_of (fst t) (snd t) a) assoc_tables)) (map (@snd akey (list val)) a).
Proof.
  induction a as [|[[[c t] m] v] a IH]; intro H; [reflexivity|].
  inversion H as [|? ? H2 H3]; subst. specialize (IH H3). cbn [fst] in H2.
  assert (E : Permutation (flat_map (fun t' => assocs_of (fst t') (snd t') ((c, t, m, v) :: a)) assoc_tables)
     ((m, v) :: flat_map (fun t' => assocs_of (fst t') (snd t') a) assoc_tables)).
  { transitivity (flat_map (fun t' => (if cls_eqb c (fst t') && Bool.eqb t (snd t') then [(m, v)] else []) ++
       assocs_of (fst t') (snd t') a) assoc_tables).
    - erewrite flat_map_ext; [reflexivity|]. intros [c' t']. unfold assocs_of. cbn [filter fst snd].
      destruct (cls_eqb c c' && Bool.eqb t t'); reflexivity.
    - rewrite flat_map_two. change ((m, v) :: ?l) with ([(m, v)] ++ l). apply Permutation_app_tail.
      unfold assoc_tables in H2. cbn [In] in H2.
      repeat (destruct H2 as [H2|H2]; [injection H2 as <- <-; reflexivity|]). contradiction. }
  rewrite E. cbn [map snd]. now constructor.
Qed.

Lemma flat_map_snd {A C D} (g : C -> list D) (l : list (A * C)) : flat_map (fun x => g (snd x)) l = flat_map g (map snd l).
Proof. induction l; cbn [map flat_map]; congruence. Qed.

Lemma objects_app k a b : objects k (a ++ b) = objects k a ++ objects k b.
Proof. apply flat_map_app. Qed.

Lemma objects_one k n l : objects k [(n, Ent k l)] = [l].
Proof. unfold objects. cbn [flat_map snd]. assert (kind_eqb k k = true) as -> by now apply kind_eqb_eq. reflexivity. Qed.

Lemma objects_grow A k p p' :
  grow A p p' -> A k = false -> k <> KProductDefinitionShape -> dense (p_map p) ->
  objects k (p_map p') = objects k (p_map p).
Proof.
  intros G HA Hk Hd. destruct (G Hd) as (_ & _ & _ & m1 & new & -> & F & Q). rewrite objects_app.
  assert (objects k new = []) as ->.
  { clear - Q HA. induction Q as [|[n e] new H _ IH]; auto. unfold objects. cbn [flat_map snd].
    fold (objects k new). rewrite IH, app_nil_r. destruct e as [k' l|]; auto. cbn [kind_of snd] in H.
    destruct (kind_eqb k' k) eqn:E; auto. apply kind_eqb_eq in E. congruence. }
  rewrite app_nil_r. clear - F Hk. induction F as [|[n e] [n' e'] m m' H _ IH]; auto. unfold objects.
  cbn [flat_map snd]. fold (objects k m) (objects k m'). rewrite IH. f_equal.
  destruct H as [_ [H|(l & l' & H1 & H2 & _)]]; cbn [snd] in *; subst; auto.
  destruct (kind_eqb KProductDefinitionShape k) eqn:E; auto. apply kind_eqb_eq in E. congruence.
Qed.

Lemma objects_ins k ls : forall p u p',
  bmap (fun x : N * list val => ins k (snd x)) ls p = Done (u, p') -> dense (p_map p) ->
  dense (p_map p') /\ objects k (p_map p') = objects k (p_map p) ++ map snd ls.
Proof.
  induction ls as [|x ls IH]; intros p u p' H Hd; cbn [bmap] in H.
  - apply bret_inv in H as [_ ->]. split; auto. now rewrite app_nil_r.
  - inv H. inv H. apply bret_inv in H as [_ ->]. apply ins_inv in H0 as (_ & _ & -> & D); auto.
    apply IH in H1 as [D1 E]; auto. split; auto. rewrite E. cbn [set_map p_map map].
    now rewrite objects_app, objects_one, <- app_assoc.
Qed.

Lemma build_inv p u p' :
  build o p = Done (u, p') -> dense (p_map p) -> NoDup (map fst (p_assoc p)) ->
  Forall (fun x => In (fst (fst x)) assoc_tables) (p_assoc p) ->
  dense (p_map p') /\ Permutation (facts (p_map p')) (facts (p_map p) ++ proj_facts p) /\
  Permutation (objects KRelAssociatesMaterial (p_map p'))
    (objects KRelAssociatesMaterial (p_map p) ++ map snd (p_assoc p)).
Proof.
  unfold build. intros H Hd Hn Hf. inv H. injection H0 as <- <-. inv H.
  apply bmap_walk_inv in H0 as (F & k & ->); [|intro; now apply assocs_of_NoDup].
  apply concat_perm in F. pose proof (assocs_split _ Hf) as HS.
  apply (Permutation_map snd) in F. rewrite HS in F. clear HS.
  set (ls := concat a) in *. clearbody ls. inv H. inv H. apply bret_inv in H as [_ ->].
  assert (E1 : emits (bmap (fun x : N * list val => ins KRelAssociatesMaterial (snd x)) ls)
                (flat_map (fun x => facts_of KRelAssociatesMaterial (snd x)) ls)).
  { apply emits_bmap. intro. apply emits_ins. }
  destruct (E1 _ _ _ H0 Hd) as [D1 P1].
  destruct (emits_aggregate o Ho _ _ _ _ _ _ H1 D1) as [D2 P2]. split; auto. split.
  - rewrite P2, P1. cbn [set_tick p_map]. unfold proj_facts, assoc_facts.
    assert (EQ : Permutation (flat_map (fun x => facts_of KRelAssociatesMaterial (snd x)) ls)
                   (flat_map (fun x => facts_of KRelAssociatesMaterial (snd x)) (p_assoc p))).
    { rewrite !(flat_map_snd (facts_of KRelAssociatesMaterial)). now apply Permutation_flat_map. }
    clear - EQ. perm.
  - apply objects_ins in H0 as [D3 E3]; auto.
    rewrite (objects_grow before_build KRelAssociatesMaterial q q0); auto; try discriminate.
    + rewrite E3. now apply Permutation_app_head.
    + eapply (@st_aggregate before_build _ _ (fun _ _ h => h)); eauto.
Qed.

(** ** Whole programs *)

Lemma program_inv i xs ls m :
  program o i xs = Done (ls, m) ->
  exists p w q, start o i = Done p /\ run o AtProject xs p = Done (w, ls, q) /\ w = AtProject /\
    build o q = Done (tt, m).
Proof.
  unfold program. generalize (start o i) as r. intros [p| |]; [|discriminate|discriminate].
  destruct (run o AtProject xs p) as [[[w l] q]| |] eqn:E2; [|discriminate|discriminate].
  destruct w; try (intro H; discriminate H).
  destruct (build o q) as [[[] r]| |] eqn:E3; [|discriminate|discriminate]. intro H. injection H as -> ->.
  exists p, AtProject, q. auto.
Qed.

Lemma start_objects i p : start o i = Done p -> objects KRelAssociatesMaterial (p_map p) = [].
Proof.
  intro H. apply start_done in H as (oh & n & p0 & E & ->). cbn [p_map].
  rewrite (objects_grow quiet KRelAssociatesMaterial empty_proj p0);
    [reflexivity| |reflexivity|intro X; discriminate X|apply dense_nil].
  exact (@st_new_project quiet (grow quiet) _ quiet_ok _ _ quiet_project _ _ _ E).
Qed.

Theorem program_facts i xs ls r :
  program o i xs = Done (ls, r) -> honest [] xs ls ->
  dense (p_map r) /\
  Permutation (facts (p_map r))
    ([FOne KRelAggregates (p_project r)] ++ flat_map (call_facts (p_project r)) (calls [] xs ls)) /\
  exists a, assoc_ok (users (calls [] xs ls)) a /\
    Permutation (objects KRelAssociatesMaterial (p_map r)) (map snd a).
Proof.
  intros H Hh. apply program_inv in H as (p & w & q & H1 & H2 & -> & H3).
  pose proof (start_ri _ _ H1) as R0. pose proof H1 as Hs. apply start_inv in Hs as (D0 & F0 & _).
  destruct (run_ri _ _ _ _ _ _ _ _ _ R0 H2 Hh) as (known & R). cbn [app scope_ids] in R.
  destruct R as (D & Hp & _ & _ & Ha & _ & HP). cbn [scope_facts app] in HP.
  destruct Ha as (Ha1 & Ha2 & Ha3).
  destruct (build_inv _ _ _ H3 D Ha1) as (D' & P' & O').
  { eapply Forall_impl; [|exact Ha3]. cbn beta. tauto. }
  assert (Hr : p_project r = p_project p).
  { rewrite <- Hp. pose proof (@st_build anything (grow anything) _ (fun _ _ _ => eq_refl) o eq_refl _ _ _ H3) as G.
    now destruct (G D) as (_ & _ & E & _). }
  split; auto. rewrite Hr. split.
  - rewrite P'. exact HP.
  - exists (p_assoc q). split; [repeat split; auto|]; try apply Ha2. rewrite O'.
    assert (Eq : objects KRelAssociatesMaterial (p_map q) = []); [|rewrite Eq; reflexivity].
    rewrite (objects_grow before_build KRelAssociatesMaterial p q);
      [exact (start_objects _ _ H1)| |reflexivity|intro X; discriminate X|exact D0].
    clear H1. eapply (st_run (A := before_build)); eauto.
Qed.

End All.
