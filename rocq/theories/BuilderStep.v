(** Every call keeps the invariant about relations. *)

From Coq Require Import String Ascii List NArith ZArith Bool Lia Permutation.
From Coq Require Import ZifyBool ZifyNat ZifyN.
From Verif Require Import Base Prims Float Arith Kind Types Schema Entity EntityFacts DataMap DataSpec DataMapFacts
  Extractor Builder BuilderRun BuilderBase BuilderGrow BuilderSpec BuilderRel BuilderRel2 BuilderEmit BuilderInv.
Import ListNotations.
Open Scope N_scope.
Open Scope builder_scope.

Lemma elem_push_facts b c ty n st :
  bounded b st -> b < n ->
  Permutation (storey_facts (type_push c ty n (add_elem c n st)))
    (storey_facts st ++ [elem_fact (s_id st) (c, n)] ++
     match c with CSpace => [] | _ => [FPair KRelDefinesByType ty n] end).
Proof.
  intros Hb Hn. pose proof (add_elem_facts b c n st Hb Hn) as E1.
  pose proof (type_push_storey_facts b c ty n st Hb Hn) as E2.
  unfold storey_facts in *.
  change (s_id (type_push c ty n (add_elem c n st))) with (s_id st).
  change (s_elems (type_push c ty n (add_elem c n st))) with (s_elems (add_elem c n st)).
  change (s_types (type_push c ty n (add_elem c n st))) with (s_types (type_push c ty n st)).
  change (s_voids_wall (type_push c ty n (add_elem c n st))) with (s_voids_wall st).
  change (s_voids_slab (type_push c ty n (add_elem c n st))) with (s_voids_slab st).
  change (s_fills (type_push c ty n (add_elem c n st))) with (s_fills st).
  change (s_id (add_elem c n st)) with (s_id st) in E1.
  change (s_types (add_elem c n st)) with (s_types st) in E1.
  change (s_voids_wall (add_elem c n st)) with (s_voids_wall st) in E1.
  change (s_voids_slab (add_elem c n st)) with (s_voids_slab st) in E1.
  change (s_fills (add_elem c n st)) with (s_fills st) in E1.
  change (s_id (type_push c ty n st)) with (s_id st) in E2.
  change (s_elems (type_push c ty n st)) with (s_elems st) in E2.
  change (s_voids_wall (type_push c ty n st)) with (s_voids_wall st) in E2.
  change (s_voids_slab (type_push c ty n st)) with (s_voids_slab st) in E2.
  change (s_fills (type_push c ty n st)) with (s_fills st) in E2.
  perm.
Qed.

Lemma elem_push_bounded b b' c ty n st :
  bounded b st -> ty <= b -> b < n <= b' -> bounded b' (type_push c ty n (add_elem c n st)).
Proof.
  intros Hb Ht Hn. apply (bounded_mono n); [lia|]. apply type_push_bounded; [|lia|lia].
  eapply bounded_add_elem; eauto. lia.
Qed.

Definition window_storey (slab : bool) (h ty a n : N) (st : storey) : storey :=
  type_push CWindow ty n (add_fill a n (add_elem CWindow n (add_void slab a h st))).

Lemma window_facts b slab h ty a n st :
  bounded b st -> b < a -> a < n ->
  Permutation (storey_facts (window_storey slab h ty a n st))
    (storey_facts st ++ [FPair KRelContainedInSpatialStructure (s_id st) n] ++ [FPair KRelDefinesByType ty n] ++
     [FPair KRelVoidsElement h a] ++ [FPair KRelFillsElement a n]).
Proof.
  intros Hb Ha Hn. pose proof (elem_push_facts b CWindow ty n st Hb) as E1.
  pose proof (add_void_facts b slab a h st Hb Ha) as E2. pose proof (add_fill_facts b a n st Hb Ha) as E3.
  assert (b < n) as Hbn by lia. specialize (E1 Hbn). unfold window_storey, storey_facts in *.
  set (t := type_push CWindow ty n (add_elem CWindow n st)) in *.
  set (v := add_void slab a h st) in *. set (f := add_fill a n st) in *.
  set (w := type_push CWindow ty n (add_fill a n (add_elem CWindow n v))).
  assert (s_id w = s_id st) as -> by (now destruct slab). assert (s_elems w = s_elems t) as -> by now destruct slab.
  assert (s_types w = s_types t) as -> by now destruct slab.
  change (s_voids_wall w) with (s_voids_wall v). change (s_voids_slab w) with (s_voids_slab v).
  assert (s_fills w = s_fills f) as -> by now destruct slab.
  change (s_id t) with (s_id st) in *. change (s_voids_wall t) with (s_voids_wall st) in *.
  change (s_voids_slab t) with (s_voids_slab st) in *. change (s_fills t) with (s_fills st) in *.
  assert (s_id v = s_id st) as E by (now destruct slab). rewrite E in E2. clear E.
  assert (s_elems v = s_elems st) as E by (now destruct slab). rewrite E in E2. clear E.
  assert (s_types v = s_types st) as E by (now destruct slab). rewrite E in E2. clear E.
  assert (s_fills v = s_fills st) as E by (now destruct slab). rewrite E in E2. clear E.
  change (s_id f) with (s_id st) in *. change (s_voids_wall f) with (s_voids_wall st) in *.
  change (s_voids_slab f) with (s_voids_slab st) in *. change (s_elems f) with (s_elems st) in *.
  change (s_types f) with (s_types st) in *.
  clearbody t v f w. unfold elem_fact at 3 in E1. cbn [fst snd] in E1.
  perm.
Qed.

Lemma window_bounded b b' slab h ty a n st :
  bounded b st -> ty <= b -> b < a -> a < n -> n <= b' -> bounded b' (window_storey slab h ty a n st).
Proof.
  intros Hb Ht Ha Hn Hb'. apply (bounded_mono n); auto. unfold window_storey.
  apply type_push_bounded; [|lia|lia]. apply add_fill_bounded; [|lia].
  apply (bounded_add_elem a); [|auto]. now apply (add_void_bounded b).
Qed.

Section Step.
Variable o : oracle.
Hypothesis Ho : fair o.
Variable pr : N.
Let ri := ri pr.

(** Calls that change the storey only. *)
Lemma ri_eff known w s c st tr p w' st' p' x a n key F :
  ri known w tr p ->
  scope_facts w = node_facts s ++ node_facts c ++ storey_facts st ->
  (scope_ok (size (p_map p)) w -> upto (size (p_map p)) (snd s) /\ upto (size (p_map p)) (snd c)) ->
  scope_facts w' = node_facts s ++ node_facts c ++ storey_facts st' ->
  (upto (size (p_map p')) (snd s) -> upto (size (p_map p')) (snd c) -> bounded (size (p_map p')) st' ->
   scope_ok (size (p_map p')) w') ->
  grow quiet p p' -> p_sites p' = p_sites p -> assoc_opt key n (p_assoc p) (p_assoc p') ->
  (forall k, key = Some k -> In (fst k) assoc_tables) ->
  call_users (scope_ids w, x, a) = match key with Some k => [(k, n)] | None => [] end ->
  Permutation (call_facts pr (scope_ids w, x, a))
    (F ++ match key with Some k => [FPair KRelAssociatesMaterial (snd k) n] | None => [] end) ->
  Permutation (storey_facts st') (storey_facts st ++ F) -> bounded (size (p_map p')) st' ->
  upto (size (p_map p')) (map snd (returned x a)) ->
  ri (returned x a ++ known) w' (tr ++ [(scope_ids w, x, a)]) p'.
Proof.
  intros H W1 W2 W3 W4 G S A T U C P Hb R. pose proof H as (Hd & Hp & Hs & Hi & Ha & Hk & HP).
  pose proof (size_grow _ _ _ G Hd) as Hz. destruct (G Hd) as (_ & _ & Hp' & _).
  destruct (assoc_opt_ok _ _ _ _ _ Ha T A) as [A1 A2]. apply W2 in Hs as [Hs1 Hs2].
  eapply ri_quiet; eauto.
  - apply W4; auto; eapply upto_mono; eauto.
  - rewrite S. eapply upto_mono; eauto.
  - rewrite U. exact A1.
  - rewrite W1, W3, C. unfold proj_facts. rewrite S, Hp'. clear - P A2. destruct key; perm.
Qed.

Lemma upto_one b n : n <= b -> upto b [n].
Proof. intro. repeat constructor; auto. Qed.

Lemma known_le known w tr p x k n :
  ri known w tr p -> incl (used x) known -> In (k, n) (used x) -> n <= size (p_map p).
Proof.
  intros (_ & _ & _ & _ & _ & H & _) Hi Hx. apply Hi in Hx. unfold upto in H. rewrite Forall_forall in H.
  apply H. apply in_map_iff. now exists (k, n).
Qed.

Ltac inv H :=
  match type of H with
  | bbind _ _ _ = Done _ => let a := fresh "a" in let q := fresh "q" in let H1 := fresh "H" in
      apply bbind_inv in H as (a & q & H1 & H)
  end.

Ltac inv_ret H := apply bret_inv in H as [E ->]; injection E as -> -> ->.
Ltac lem L := first [eapply (L quiet _ _ quiet_ok) | eapply (L quiet _ _)].

(** Calls with one new object and no other effect. *)
Lemma ri_fresh known w tr p w' p' x n (c : B N) :
  ri known w tr p -> c p = Done (n, p') ->
  steps (grow quiet) c -> steps frame c -> fresh c ->
  scope_facts w' = scope_facts w -> (scope_ok (size (p_map p')) w -> scope_ok (size (p_map p')) w') ->
  call_users (scope_ids w, x, [n]) = [] -> call_facts pr (scope_ids w, x, [n]) = [] ->
  (exists k, returned x [n] = [(k, n)]) ->
  ri (returned x [n] ++ known) w' (tr ++ [(scope_ids w, x, [n])]) p'.
Proof.
  intros H Hc G F Hf E1 E2 E3 E4 (k & Hk). eapply ri_same; eauto.
  rewrite Hk. apply upto_one. apply (Hf _ _ _ Hc), H.
Qed.

Ltac gq := first [apply (grow_ins quiet); reflexivity|lem @st_material|lem @st_material_layer|lem @st_material_layer_set
  |lem @st_material_layer_set_usage|lem @st_material_constituent|lem @st_material_constituent_set
  |lem @st_single_property|lem @st_property_set|eapply (@st_relate_properties quiet _ _ _ _ _ eq_refl)|lem @st_transform|lem @st_drop_host].

Lemma fr_material a : fresh (material a).
Proof. apply fresh_ins. Qed.
Lemma fr_material_layer a b : fresh (material_layer a b).
Proof. apply fresh_bind; [apply (st_material (A := anything))|intro; apply fresh_ins]; reflexivity. Qed.
Lemma fr_material_layer_set a : fresh (material_layer_set a).
Proof. apply fresh_ins. Qed.
Lemma fr_usage a b c d : fresh (material_layer_set_usage a b c d).
Proof. apply fresh_ins. Qed.
Lemma fr_constituent a b : fresh (material_constituent a b).
Proof. apply fresh_bind; [apply (st_material (A := anything))|intro; apply fresh_ins]; reflexivity. Qed.
Lemma fr_constituent_set a : fresh (material_constituent_set a).
Proof. apply fresh_ins. Qed.
Lemma fr_single_property a b c : fresh (single_property a b c).
Proof. apply fresh_ins. Qed.
Lemma fr_property_set a b : fresh (property_set o a b).
Proof. apply fresh_bind; [apply (st_root (A := anything))|intro; apply fresh_ins]. Qed.

Ltac fr := first [apply fr_material|apply fr_material_layer|apply fr_material_layer_set|apply fr_usage
  |apply fr_constituent|apply fr_constituent_set|apply fr_single_property|apply fr_property_set].

Ltac simple_call H :=
  match goal with
  | R : ri _ ?w _ ?p, H1 : ?c ?p = Done (?n, ?q) |- ri (returned ?x [?n] ++ _) _ (_ ++ [(?s, _, _)]) ?q =>
      change s with (scope_ids w);
      apply (ri_fresh _ w _ p _ q x n c R H1);
      [gq|gq|fr|reflexivity|auto|reflexivity|reflexivity|eexists; reflexivity]
  end.

Lemma storey_step_ri known s b st tr p st' l p' x :
  ri known (AtStorey s b st) tr p -> storey_step o st x p = Done (st', l, p') -> incl (used x) known ->
  ri (returned x l ++ known) (AtStorey s b st') (tr ++ [([s_id st; fst b; fst s], x, l)]) p' /\ s_id st' = s_id st.
Proof.
  intros H Hc Hu.
  assert (Hd : dense (p_map p)) by apply H.
  assert (Hb : bounded (size (p_map p)) st) by apply H.
  pose proof (fun k n => known_le known _ tr p x k n H Hu) as Hk.
  destruct x; cbn [storey_step] in Hc; try discriminate.
  (* materials *)
  1-6: inv Hc; apply bret_inv in Hc as [E ->]; injection E as -> ->; split; [simple_call H0|reflexivity].
  (* types *)
  - destruct c; try discriminate; inv Hc; destruct a as [n st1]; apply bret_inv in Hc as [E ->];
      injection E as -> ->; destruct (eff_new_type o _ _ _ _ _ _ _ _ _ H0 Hd) as (G & Hn & -> & S & A);
      (split; [|try (rewrite (type_entry_reset _ _ _ _ Hb) by lia); reflexivity]);
      (eapply (ri_eff known (AtStorey s b st) s b st tr p _ _ _ _ [n] n (Some (_, true, material)) []);
       [exact H|reflexivity|cbn [scope_ok]; tauto|reflexivity|cbn [scope_ok]; tauto|exact G|exact S|exact A| | | | | |]);
      try (intros k Ek; injection Ek as <-; cbn [fst assoc_tables In]; tauto);
      try reflexivity; try (cbn [returned map snd]; apply upto_one; lia).
    all: try (rewrite (type_entry_reset _ _ _ _ Hb) by lia).
    all: try (rewrite (type_reset_storey_facts _ _ _ _ Hb), app_nil_r by lia; reflexivity).
    all: apply (bounded_mono n); [lia|apply (type_reset_bounded _ _ _ _ Hb); lia].
  - inv Hc; destruct a as [n st1]; apply bret_inv in Hc as [E ->];
      injection E as -> ->; destruct (eff_new_window_type o _ _ _ _ _ _ _ _ H0 Hd) as (G & Hn & -> & S & A).
    split; [|reflexivity].
    eapply (ri_eff known (AtStorey s b st) s b st tr p _ _ _ _ [n] n None []);
       [exact H|reflexivity|cbn [scope_ok]; tauto|reflexivity|cbn [scope_ok]; tauto|exact G|exact S|exact A|discriminate|reflexivity|reflexivity| | |cbn [returned map snd]; apply upto_one; lia].
    + rewrite (type_reset_storey_facts _ _ _ _ Hb), app_nil_r by lia; reflexivity.
    + apply (bounded_mono n); [lia|apply (type_reset_bounded _ _ _ _ Hb); lia].
  - inv Hc; destruct a as [n st1]; apply bret_inv in Hc as [E ->];
      injection E as -> ->; destruct (eff_new_space_type o _ _ _ _ _ _ _ H0 Hd) as (G & Hn & -> & S & A).
    split; [|reflexivity].
    eapply (ri_eff known (AtStorey s b st) s b st tr p _ _ _ _ [n] n None []);
       [exact H|reflexivity|cbn [scope_ok]; tauto|reflexivity|cbn [scope_ok]; tauto|exact G|exact S|exact A|discriminate|reflexivity|reflexivity| | |cbn [returned map snd]; apply upto_one; lia].
    + rewrite (type_reset_storey_facts _ _ _ _ Hb), app_nil_r by lia; reflexivity.
    + apply (bounded_mono n); [lia|apply (type_reset_bounded _ _ _ _ Hb); lia].
  (* roof *)
  - inv Hc; destruct a as [n st1]; apply bret_inv in Hc as [E ->]; injection E as -> ->.
    destruct (eff_new_roof o _ _ _ _ _ _ _ _ _ _ H0 Hd) as (G & Hn & -> & S & A). split; [|reflexivity].
    eapply (ri_eff known (AtStorey s b st) s b st tr p _ _ _ _ [n] n (Some (_, false, material)));
       [exact H|reflexivity|cbn [scope_ok]; tauto|reflexivity|cbn [scope_ok]; tauto|exact G|exact S|exact A| | | | | |].
    + intros k Ek; injection Ek as <-; cbn [fst assoc_tables In]; tauto.
    + reflexivity.
    + rewrite <- app_assoc. apply (Permutation_refl _).
    + apply (elem_push_facts _ CRoof ty n st Hb). lia.
    + eapply elem_push_bounded; eauto. eapply Hk. cbn. auto.
    + cbn [returned map snd]; apply upto_one; lia.
  - inv Hc; destruct a as [n st1]; apply bret_inv in Hc as [E ->]; injection E as -> ->.
    destruct (eff_new_shading o _ _ _ _ _ _ _ _ _ _ _ H0 Hd) as (G & Hn & -> & S & A). split; [|reflexivity].
    eapply (ri_eff known (AtStorey s b st) s b st tr p _ _ _ _ [n] n (Some (_, false, material)));
       [exact H|reflexivity|cbn [scope_ok]; tauto|reflexivity|cbn [scope_ok]; tauto|exact G|exact S|exact A| | | | | |].
    + intros k Ek; injection Ek as <-; cbn [fst assoc_tables In]; tauto.
    + reflexivity.
    + rewrite <- app_assoc. apply (Permutation_refl _).
    + apply (elem_push_facts _ CShading ty n st Hb). lia.
    + eapply elem_push_bounded; eauto. eapply Hk. cbn. auto.
    + cbn [returned map snd]; apply upto_one; lia.
  - inv Hc; destruct a as [n st1]; apply bret_inv in Hc as [E ->]; injection E as -> ->.
    destruct (eff_new_space o _ _ _ _ _ _ _ _ _ _ H0 Hd) as (G & Hn & -> & S & A). split; [|reflexivity].
    eapply (ri_eff known (AtStorey s b st) s b st tr p _ _ _ _ [n] n None);
       [exact H|reflexivity|cbn [scope_ok]; tauto|reflexivity|cbn [scope_ok]; tauto|exact G|exact S|exact A|discriminate|reflexivity| | | |].
    + rewrite app_nil_r. apply (Permutation_refl _).
    + apply (elem_push_facts _ CSpace ty n st Hb). lia.
    + eapply elem_push_bounded; eauto. eapply Hk. cbn. auto.
    + cbn [returned map snd]; apply upto_one; lia.
  (* transform *)
  - destruct (existsb _ _); [|discriminate]. inv Hc. apply bret_inv in Hc as [E ->]. injection E as -> ->.
    split; [|reflexivity].
    apply (ri_same pr known (AtStorey s b st) tr p (AtStorey s b st) q (OStoreyTransform k n t) [] H); auto; try reflexivity.
    + eapply (@st_transform quiet _ _ quiet_ok); [typeclasses eauto|eauto].
    + eapply (@st_transform quiet _ _ quiet_ok); [typeclasses eauto|eauto].
    + constructor.
  - inv Hc. apply bret_inv in Hc as [E ->]. injection E as -> ->.
    split; [|reflexivity].
    apply (ri_same pr known (AtStorey s b st) tr p (AtStorey s b st) q (ORelate set obj) [] H); auto; try reflexivity.
    + eapply (@st_relate_properties quiet _ _ o _ _ eq_refl); eauto.
    + eapply (@st_relate_properties quiet _ _ o _ _ eq_refl); eauto.
    + constructor.
Qed.

Lemma host_step_ri known s b st h tr p st' h' l p' x :
  ri known (AtHost s b st h) tr p -> host_step o st h x p = Done (st', h', l, p') -> incl (used x) known ->
  ri (returned x l ++ known) (AtHost s b st' h') (tr ++ [([h_id h; s_id st; fst b; fst s], x, l)]) p' /\
  s_id st' = s_id st /\ h_id h' = h_id h.
Proof.
  intros H Hc Hu.
  assert (Hd : dense (p_map p)) by apply H.
  assert (Hb : bounded (size (p_map p)) st) by apply H.
  pose proof (fun k n => known_le known _ tr p x k n H Hu) as Hk.
  unfold host_step in Hc.
  destruct x; try discriminate.
  - destruct (h_slab h) eqn:Es; try discriminate.
    inv Hc; destruct a as [n st1]; apply bret_inv in Hc as [E ->]; injection E as -> -> ->.
    destruct (eff_wall_opening o _ _ _ _ _ _ _ _ _ _ _ H0 Hd) as (G & Hn & -> & S & A).
    split; [|split; [rewrite Es|]; reflexivity].
    eapply (ri_eff known (AtHost s b st h) s b st tr p _ _ _ _ [n] n None);
       [exact H|reflexivity|cbn [scope_ok]; tauto|reflexivity|cbn [scope_ok]; tauto|exact G|exact S|exact A|discriminate|reflexivity| | | |].
    + rewrite app_nil_r. apply (Permutation_refl _).
    + apply (add_void_facts _ _ n (h_id h) st Hb). lia.
    + apply (bounded_mono n); [lia|]. apply (add_void_bounded _ _ _ _ _ Hb). lia.
    + cbn [returned map snd]; apply upto_one; lia.
  - destruct (h_slab h) eqn:Es; try discriminate.
    inv Hc; destruct a as [n st1]; apply bret_inv in Hc as [E ->]; injection E as -> -> ->.
    destruct (eff_slab_opening o _ _ _ _ _ _ _ _ H0 Hd) as (G & Hn & -> & S & A).
    split; [|split; [rewrite Es|]; reflexivity].
    eapply (ri_eff known (AtHost s b st h) s b st tr p _ _ _ _ [n] n None);
       [exact H|reflexivity|cbn [scope_ok]; tauto|reflexivity|cbn [scope_ok]; tauto|exact G|exact S|exact A|discriminate|reflexivity| | | |].
    + rewrite app_nil_r. apply (Permutation_refl _).
    + apply (add_void_facts _ _ n (h_id h) st Hb). lia.
    + apply (bounded_mono n); [lia|]. apply (add_void_bounded _ _ _ _ _ Hb). lia.
    + cbn [returned map snd]; apply upto_one; lia.
  - destruct (h_slab h) eqn:Es; try discriminate.
    inv Hc; destruct a as [[op n] st1]; apply bret_inv in Hc as [E ->]; injection E as -> -> ->.
    destruct (eff2_wall_window o _ _ _ _ _ _ _ _ _ _ _ _ _ _ H0 Hd) as (G & Ha & Hn & -> & S & A).
    split; [|split; [rewrite Es|]; reflexivity].
    eapply (ri_eff known (AtHost s b st h) s b st tr p _ _ _ _ [op; n] n (Some (_, false, material))
       ([FPair KRelContainedInSpatialStructure (s_id st) n] ++ [FPair KRelDefinesByType ty n] ++
        [FPair KRelVoidsElement (h_id h) op] ++ [FPair KRelFillsElement op n]));
       [exact H|reflexivity|cbn [scope_ok]; tauto|reflexivity|cbn [scope_ok]; tauto|exact G|exact S|exact A| |reflexivity| | | |].
    + intros k Ek; injection Ek as <-; cbn [fst assoc_tables In]; tauto.
    + cbn [call_facts call_contains call_storey call_voids call_fills call_types call_materials call_tree call_node
        scope_ids fpairs map fst snd app]. perm.
    + apply (window_facts (size (p_map p))); auto; lia.
    + apply (window_bounded (size (p_map p))); auto; try lia. eapply Hk. cbn. auto.
    + cbn [returned map snd]. repeat constructor; lia.
  - destruct (h_slab h) eqn:Es; try discriminate.
    inv Hc; destruct a as [[op n] st1]; apply bret_inv in Hc as [E ->]; injection E as -> -> ->.
    destruct (eff2_slab_window o _ _ _ _ _ _ _ _ _ _ _ H0 Hd) as (G & Ha & Hn & -> & S & A).
    split; [|split; [rewrite Es|]; reflexivity].
    eapply (ri_eff known (AtHost s b st h) s b st tr p _ _ _ _ [op; n] n (Some (_, false, material))
       ([FPair KRelContainedInSpatialStructure (s_id st) n] ++ [FPair KRelDefinesByType ty n] ++
        [FPair KRelVoidsElement (h_id h) op] ++ [FPair KRelFillsElement op n]));
       [exact H|reflexivity|cbn [scope_ok]; tauto|reflexivity|cbn [scope_ok]; tauto|exact G|exact S|exact A| |reflexivity| | | |].
    + intros k Ek; injection Ek as <-; cbn [fst assoc_tables In]; tauto.
    + cbn [call_facts call_contains call_storey call_voids call_fills call_types call_materials call_tree call_node
        scope_ids fpairs map fst snd app]. perm.
    + apply (window_facts (size (p_map p))); auto; lia.
    + apply (window_bounded (size (p_map p))); auto; try lia. eapply Hk. cbn. auto.
    + cbn [returned map snd]. repeat constructor; lia.
  - destruct (h_slab h) eqn:Es; inv_ret Hc.
    all: split; [|split; reflexivity].
    all: eapply (ri_same pr known (AtHost s b st h) tr p _ p (OTransform t) [] H);
      [apply grow_refl|split; reflexivity|reflexivity|auto|reflexivity|reflexivity|constructor].
Qed.

(** Calls at the end of a scope. *)
Lemma ri_emit {A} known w tr p w' p' x (c : B A) a E :
  ri known w tr p -> c p = Done (a, p') -> emits c E -> steps (grow anything) c -> steps frame c ->
  Permutation (scope_facts w) (scope_facts w' ++ E) -> (forall z, scope_ok z w -> scope_ok z w') ->
  call_users (scope_ids w, x, []) = [] -> call_facts pr (scope_ids w, x, []) = [] ->
  ri known w' (tr ++ [(scope_ids w, x, [])]) p'.
Proof.
  intros (Hd & Hp & Hs & Hi & Ha & Hk & HP) Hc He G F P1 P2 E1 E2.
  pose proof (G _ _ _ Hc) as G1. destruct (F _ _ _ Hc) as [F1 F2]. destruct (He _ _ _ Hc Hd) as [Hd' Pf].
  pose proof (size_grow _ _ _ G1 Hd) as Hz. destruct (G1 Hd) as (_ & _ & Hp' & _).
  split; auto. split; [congruence|]. split; [apply P2; eapply scope_ok_mono; eauto|].
  split; [rewrite F1; eapply upto_mono; eauto|].
  split; [unfold users in *; rewrite flat_map_app; cbn [flat_map]; rewrite E1, !app_nil_r, F2; auto|].
  split; [eapply upto_mono; eauto|].
  rewrite flat_map_app. cbn [flat_map]. rewrite E2, !app_nil_r. unfold proj_facts in *. rewrite F1, F2, Hp'.
  clear - HP Pf P1. perm.
Qed.

Lemma new_site_inv name q p n p' :
  new_site o name q p = Done (n, p') -> dense (p_map p) ->
  grow quiet p p' /\ size (p_map p) < n <= size (p_map p') /\ p_sites p' = set_add (p_sites p) n /\
  p_assoc p' = p_assoc p.
Proof.
  intros H Hd. assert (G : grow quiet p p') by (eapply (@st_new_site quiet _ _ quiet_ok); eauto; typeclasses eauto).
  split; auto. unfold new_site in H.
  inv H. pose proof (@st_axis3d quiet frame _ quiet_ok _ _ _ _ H0) as F1.
  pose proof (@st_axis3d quiet (grow quiet) _ quiet_ok _ _ _ _ H0) as G1.
  inv H. pose proof (@st_placement_new quiet frame _ quiet_ok _ _ _ _ H1) as F2.
  pose proof (@st_placement_new quiet (grow quiet) _ quiet_ok _ _ _ _ H1) as G2.
  inv H. pose proof (@st_owned quiet frame _ o _ _ _ _ H2) as F3.
  pose proof (@st_owned quiet (grow quiet) _ o _ _ _ _ H2) as G3.
  inv H. pose proof (frame_ins _ _ _ _ _ H3) as F4.
  pose proof (grow_ins quiet KLocalPlacement _ eq_refl _ _ _ H3) as G4.
  assert (G5 : grow quiet p q3) by (do 3 (eapply grow_trans; [eassumption|]); assumption).
  pose proof (size_grow _ _ _ G5 Hd) as Z5. destruct (G5 Hd) as [D5 _].
  inv H. pose proof (frame_ins _ _ _ _ _ H4) as F5. pose proof (fresh_ins _ _ _ _ _ H4 D5) as Z6.
  inv H. injection H5 as <- <-. inv H. injection H5 as <- <-. inv H. apply bret_inv in H as [-> ->].
  destruct (@st_sub_context quiet frame _ _ _ _ H5) as [F6 F7].
  pose proof (@st_sub_context quiet (grow quiet) _ _ _ _ H5) as G7.
  pose proof (grow_ins quiet KSite _ eq_refl _ _ _ H4) as G6. destruct (G6 D5) as [D6 _].
  pose proof (size_grow _ _ _ G7 D6) as Z7. cbn [set_sites p_map p_sites p_assoc] in *.
  destruct F1 as [X1 Y1], F2 as [X2 Y2], F3 as [X3 Y3], F4 as [X4 Y4], F5 as [X5 Y5].
  split; [lia|]. split; congruence.
Qed.

Lemma fr_new_building s name q : fresh (new_building o s name q).
Proof.
  unfold new_building. apply fresh_bind; [apply (st_axis3d (A := anything)); reflexivity|intro].
  apply fresh_bind; [apply (st_new_relative (A := anything)); reflexivity|intro].
  apply fresh_bind; [apply (st_owned (A := anything)); reflexivity|intro].
  apply fresh_bind; [apply (grow_ins anything); reflexivity|intro].
  intros p n p' H Hd. inv H. inv H. apply bret_inv in H as [-> ->].
  pose proof (fresh_ins _ _ _ _ _ H0 Hd) as Z. pose proof (grow_ins anything _ _ eq_refl _ _ _ H0) as G.
  destruct (G Hd) as [D _].
  pose proof (size_grow _ _ _ (st_sub_context (A := anything) (R := grow anything) _ _ _ H1) D). lia.
Qed.

Lemma new_storey_inv b name e p st p' :
  new_storey o b name e p = Done (st, p') -> dense (p_map p) ->
  size (p_map p) < s_id st <= size (p_map p') /\ exists c, st = mk_storey (s_id st) c [] [] [] [] [].
Proof.
  unfold new_storey. intros H Hd.
  inv H. pose proof (@st_axis3d anything (grow anything) _ (fun _ _ => eq_refl) _ _ _ _ H0) as G1.
  inv H. pose proof (@st_new_relative anything (grow anything) _ (fun _ _ => eq_refl) _ _ _ _ _ _ H1) as G2.
  inv H. pose proof (@st_owned anything (grow anything) _ o _ _ _ _ H2) as G3.
  inv H. pose proof (grow_ins anything _ _ eq_refl _ _ _ H3) as G4.
  assert (G5 : grow anything p q2) by (do 3 (eapply grow_trans; [eassumption|]); assumption).
  pose proof (size_grow _ _ _ G5 Hd) as Z5. destruct (G5 Hd) as [D5 _].
  inv H. pose proof (fresh_ins _ _ _ _ _ H4 D5) as Z6.
  pose proof (grow_ins anything _ _ eq_refl _ _ _ H4) as G6. destruct (G6 D5) as [D6 _].
  inv H. pose proof (@st_sub_context anything (grow anything) _ _ _ _ H5) as G7.
  inv H. pose proof (@st_single_property anything (grow anything) _ (fun _ _ => eq_refl) _ _ _ _ _ _ H6) as G8.
  inv H. pose proof (@st_property_set anything (grow anything) _ (fun _ _ => eq_refl) _ _ _ _ _ _ H7) as G9.
  apply bret_inv in H as [-> ->]. cbn [s_id].
  assert (G : grow anything q3 q6) by (do 2 (eapply grow_trans; [eassumption|]); assumption).
  pose proof (size_grow _ _ _ G D6). split; [lia|]. now eexists.
Qed.
End Step.
