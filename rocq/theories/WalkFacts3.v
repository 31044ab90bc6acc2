(** Walking through built models: the whole walk. *)

From Coq Require Import String Ascii List NArith ZArith Bool Lia Permutation.
From Verif Require Import Base Prims Float Arith Kind Types Schema Entity EntityFacts DataMap DataSpec DataMapFacts
  Extractor Mapping Walk Builder BuilderRun BuilderSpec BuilderOut BuilderIds ExtractSpec HistorySpec BuilderRead2 MoveSpec FormSpec
  ExtractorSpec BuilderForm2 WalkSpec WalkFacts WalkFacts2.
Import ListNotations.
Open Scope N_scope.

Lemma journey_length n cs ds mvs : journey n cs ds mvs -> (length mvs <= length ds)%nat.
Proof. induction 1; cbn [length]; lia. Qed.

Lemma calls_length xs : forall s ls, (length (calls s xs ls) <= length xs)%nat.
Proof.
  induction xs as [|x xs IH]; intros s [|a ls]; cbn [calls length]; try lia. specialize (IH (alive_after s x a) ls). lia.
Qed.

(** Functions with fuel on all elements of a list. *)
Lemma maps_uniform {A B} (P : A -> B -> Prop) (f : nat -> A -> outcome B) d l :
  (forall a, In a l -> exists b, P a b /\ forall fuel, (d <= fuel)%nat -> f fuel a = Done b) ->
  exists bs, Forall2 P l bs /\ forall fuel, (d <= fuel)%nat -> maps (f fuel) l = Done bs.
Proof.
  induction l as [|a l IH]; intro H.
  - exists []. auto.
  - destruct (H a) as (b & Pb & Hb); [now left|]. destruct IH as (bs & Pbs & Hbs); [intros; apply H; now right|].
    exists (b :: bs). split; [now constructor|]. intros fuel Hf. cbn [maps]. now rewrite (Hb _ Hf), (Hbs _ Hf).
Qed.

Lemma Forall2_fst {A B} (P : A -> A * B -> Prop) l l' : Forall2 P l l' -> (forall a b, P a b -> fst b = a) -> map fst l' = l.
Proof. intros F H. induction F as [|a b l l' Hab _ IH]; auto. cbn [map]. rewrite IH. f_equal. auto. Qed.
Lemma Forall2_right {A B} (P : A -> B -> Prop) (Q : B -> Prop) l l' :
  Forall2 P l l' -> (forall a b, P a b -> Q b) -> Forall Q l'.
Proof. intros F H. induction F; constructor; eauto. Qed.

(** ** What calls make *)

Definition elements : list kind := [KWall; KSlab; KRoof; KShadingDevice; KWindow].

Lemma contains_product c st n : In (st, n) (call_contains c) ->
  exists k ty, In (k, n) (call_products c) /\ In k elements /\ In (ty, n) (call_types c) /\
    (k = KWall -> In (KWallType, ty) (used (snd (fst c)))).
Proof.
  destruct c as [[s x] a]. destruct x; cbn [call_contains]; try (destruct s as [|? [|? [|? [|]]]]; contradiction);
    destruct s as [|s1 [|s2 [|s3 [|s4 [|]]]]]; try contradiction; destruct a as [|a1 [|a2 [|]]]; try contradiction;
    intros [H|[]]; injection H as <- <-; cbn [call_products call_types used fst snd]; unfold elements.
  - exists KWall, ty. cbn [In]; repeat split; auto 8.
  - exists KSlab, ty. cbn [In]; repeat split; auto 8. discriminate.
  - exists KRoof, ty. cbn [In]; repeat split; auto 8. discriminate.
  - exists KShadingDevice, ty. cbn [In]; repeat split; auto 8. discriminate.
  - exists KWindow, ty. cbn [In]; repeat split; auto 8. discriminate.
  - exists KWindow, ty. cbn [In]; repeat split; auto 8. discriminate.
Qed.

Lemma voids_product c h n : In (h, n) (call_voids c) -> In (KOpeningElement, n) (call_products c).
Proof.
  destruct c as [[s x] a]. destruct x; cbn [call_voids]; try (destruct s; contradiction);
    destruct s as [|s1 s]; try contradiction; destruct a as [|a1 [|a2 [|]]]; try contradiction;
    intros [H|[]]; injection H as <- <-; cbn [call_products]; now left.
Qed.

Lemma product_returned c k n : In (k, n) (call_products c) -> In (k, n) (returned (snd (fst c)) (snd c)).
Proof.
  destruct c as [[s x] a]. destruct x; cbn [call_products returned fst snd]; try contradiction;
    destruct a as [|a1 [|a2 [|]]]; auto; contradiction.
Qed.

Lemma child_space pr n c x : In x (call_child KSpace pr n c) -> In (KSpace, x) (returned (snd (fst c)) (snd c)).
Proof.
  destruct c as [[s y] a]. destruct y; cbn [call_child returned fst snd];
    try (destruct s as [|? [|? [|? [|]]]]; contradiction);
    destruct s as [|s1 [|s2 [|s3 [|]]]]; try contradiction; destruct a as [|a1 [|]]; try contradiction;
    try (cbn [kind_eqb andb]; contradiction).
  all: cbn [kind_eqb andb]; try (intro H; now destruct H).
  destruct (s1 =? n); cbn; intuition congruence.
Qed.

Lemma some_site : some_of call_site.
Proof. cases_of. Qed.
Lemma some_building : some_of call_building.
Proof. cases_of. Qed.

Section Tour.
Variable o : oracle.
Hypothesis Ho : fair o.
Variables (i : info) (xs : list op) (ls : list (list N)) (r : proj).
Hypothesis Hr : program o i xs = Done (ls, r).
Hypothesis Hh : honest [] xs ls.
Let m := p_map r.
Let cs := calls [] xs ls.

Lemma product_called k n : In (k, n) (flat_map call_products cs) ->
  exists l s, lookup m n = Some (Ent k l) /\ as_called o cs k n s /\
    forall fuel, (length cs <= fuel)%nat -> visit_product fuel m l = Done s.
Proof.
  intro H. apply in_flat_map in H as (c & Hc & H). pose proof Hc as Hc1. apply in_split in Hc as (c1 & ds & E).
  destruct (built_fits o Ho i xs ls r c1 c ds k n Hr Hh E H) as (f & ax & rs & rs' & mvs & H1 & H2 & H3 & H4 & H5).
  destruct (met_shows _ _ _ _ _ _ _ H2 H4 H5) as (k' & l & L & V). fold m in L, V.
  destruct (rd_returned o i xs ls r Hr c k n Hc1 (product_returned _ _ _ H)) as (l' & L').
  unfold is_a in L'. fold m in L'. rewrite L in L'. injection L' as -> <-.
  exists l, (met f ax mvs). split; auto. split.
  - exists c1, c, ds, f, ax, mvs. auto 8.
  - intros fuel Hf. apply V. apply journey_length in H3. rewrite E, app_length in Hf. cbn [length] in Hf. lia.
Qed.

Let T := built_tells o i xs ls r Ho Hr Hh.

Lemma structure_met st n : In (st, n) (flat_map call_contains cs) ->
  exists s, reported o m cs n s /\ forall fuel, (length cs <= fuel)%nat -> visit_structure fuel m n = Done s.
Proof.
  intro H. apply in_flat_map in H as (c & Hc & H). destruct (contains_product _ _ _ H) as (k & ty & P & K & Ty & W).
  destruct (product_called k n) as (l & s & L & S & V); [apply in_flat_map; eauto|].
  destruct (kind_eqb k KWall) eqn:EK.
  - apply kind_eqb_eq in EK. subst k. destruct T as (_ & _ & T3 & T4 & _ & T6 & _).
    destruct (T4 c ty n KWallType Hc Ty (W eq_refl)) as (tl & Q1 & Q2). destruct (T6 n) as (ms & Q3 & Q4).
    destruct (T3 n) as (vs & ns & Q5 & (Q6 & Q7) & Q8). fold m in Q1, Q2, Q3, Q4, Q5, Q7. fold cs in Q4, Q8.
    destruct (maps_uniform (fun v q => fst q = fst v /\ as_called o cs KOpeningElement (fst q) (snd q))
      (fun fuel (v : N * list val) => x <~ visit_product fuel m (snd v); Done (fst v, x)) (length cs) vs) as (os & F & V').
    { intros [v a] Hv. pose proof (Q7 _ _ Hv) as Lv. assert (Hn : In v ns) by (rewrite <- Q6; now apply (in_map fst) in Hv).
      apply (Permutation_in _ Q8), partners_In, in_flat_map in Hn as (c' & Hc' & Hn).
      destruct (product_called KOpeningElement v) as (a' & x & L1 & S1 & V1).
      { apply in_flat_map. exists c'. split; auto. now apply voids_product in Hn. }
      rewrite Lv in L1. injection L1 as <-. exists (v, x). split; [auto|]. intros fuel Hf. cbn [fst snd]. now rewrite V1. }
    exists (Some (AWall tl ms s os)). split.
    + apply (reported_wall o m cs n c ty); auto.
      * rewrite <- Q8, <- Q6. assert (X : map fst os = map fst vs); [|now rewrite X].
        clear - F. induction F as [|v q vs os [H _] _ IH]; auto. cbn [map]. now rewrite IH, H.
      * eapply Forall2_right; [exact F|]. intros a b [_ X]. exact X.
    + intros fuel Hf. unfold visit_structure. rewrite (untyped_at _ _ _ L). cbn [obind to_structure structure_type andb kind_eqb].
      rewrite kind_eqb_same, Q1, Q3. cbn [obind]. rewrite V, Q5 by auto. cbn [obind]. rewrite V' by auto. reflexivity.
  - exists (Some (AnElement k s)). split.
    + apply reported_other; auto. destruct K as [<-|K]; [discriminate EK|exact K].
    + intros fuel Hf. unfold visit_structure. rewrite (untyped_at _ _ _ L). cbn [obind]. rewrite EK, V by auto.
      cbn [elements In] in K. repeat destruct K as [<-|K]; try contradiction; reflexivity.
Qed.

(** Nothing is contained in a space. *)
Lemma space_empty n x : In x (flat_map (call_child KSpace (p_project r) n) cs) -> contained_structures m x = [].
Proof.
  intro H. apply in_flat_map in H as (c & Hc & H). apply child_space in H.
  destruct (rd_returned o i xs ls r Hr c KSpace x Hc H) as (l & L). fold m in L.
  destruct (contained_structures m x) as [|y q] eqn:E; auto. exfalso.
  assert (X : In y (contained_structures m x)) by (rewrite E; now left).
  unfold contained_structures in X.
  rewrite <- (partners_pairs _ 5 4) in X by (apply shaped_one_many; [exact (rd_shaped o i xs ls r Hr)|auto]).
  apply partners_In in X. destruct (out_contains o Ho i xs ls r Hr Hh) as (_ & _ & P & _).
  assert (Y : In x (ones KRelContainedInSpatialStructure 5 m)).
  { unfold pairs in X. unfold ones. apply in_flat_map in X as (a & Ha & X). apply in_flat_map. exists a. split; auto.
    apply in_prod_iff in X. exact (proj1 X). }
  apply (Permutation_in _ P), in_flat_map in Y as (c' & Hc' & Y).
  destruct (rd_returned o i xs ls r Hr c' KStorey x Hc') as (l' & L').
  { destruct c' as [[s y'] a]. destruct y'; cbn [call_storey] in Y; try contradiction.
    destruct a as [|a1 [|]]; try contradiction. destruct Y as [->|[]]. now left. }
  unfold is_a in *. fold m in L'. rewrite L in L'. discriminate L'.
Qed.

Lemma floor_met n : exists f, (fl_storey f = n /\ floor_ok o m (p_project r) cs f) /\
  forall fuel, (length cs <= fuel)%nat -> visit_storey fuel m n = Done f.
Proof.
  destruct T as (T1 & T2 & _). fold m in T1, T2. fold cs in T1, T2. destruct (T1 KSpace n) as (sp & ns & Q1 & (Q2 & _) & Q3).
  destruct (maps_uniform (fun j q => fst q = j /\ reported o m cs (fst q) (snd q))
    (fun fuel j => s <~ visit_structure fuel m j; Done (j, s)) (length cs) (contained_structures m n)) as (st & F & V).
  { intros j Hj. apply (Permutation_in _ (T2 n)), partners_In in Hj. apply structure_met in Hj as (s & S & V).
    exists (j, s). split; auto. intros fuel Hf. now rewrite V. }
  exists (mk_floor n st (map (fun s => (fst s, contained_structures m (fst s))) sp)). split.
  - split; [reflexivity|]. unfold floor_ok. cbn [fl_storey fl_structures fl_spaces]. repeat split.
    + rewrite (Forall2_fst _ _ _ F); auto. now intros a b [H _].
    + eapply Forall2_right; [exact F|]. intros a b [_ X]. exact X.
    + rewrite map_map. rewrite <- Q2 in Q3. exact Q3.
    + apply Forall_forall. intros q Hq. apply in_map_iff in Hq as ([x a] & <- & Hq). cbn [fst snd].
      apply (space_empty n). apply (Permutation_in _ Q3). rewrite <- Q2. now apply (in_map fst) in Hq.
  - intros fuel Hf. unfold visit_storey. rewrite Q1. cbn [obind]. now rewrite V.
Qed.

Lemma collect_children k ns : exists l, collect (relations_of k m) ns = Done l /\
  Permutation (map fst l) (flat_map (fun n => flat_map (call_child k (p_project r) n) cs) ns).
Proof.
  destruct T as (T1 & _). fold m in T1. fold cs in T1. induction ns as [|n ns (l & E & P)]; cbn [collect flat_map].
  - exists []. auto.
  - destruct (T1 k n) as (l1 & ns1 & E1 & (A1 & _) & P1). rewrite E1, E. eexists. split; [reflexivity|].
    rewrite map_app. apply Permutation_app; auto. now rewrite A1.
Qed.

Lemma nested_all c : In c cs -> nested cs c.
Proof. exact (program_nested o i xs ls r c Hr). Qed.

Lemma made_once f : some_of f -> NoDup (flat_map f cs).
Proof. intro Hf. apply calls_NoDup; auto. pose proof (ids_NoDup _ _ _ _ _ Hr) as D. now inversion D. Qed.

Lemma gather_sites : Permutation (flat_map (fun n => flat_map (call_child KSite (p_project r) n) cs) [p_project r]) (flat_map call_site cs).
Proof.
  apply gather; [repeat constructor; auto|]. intros c Hc. pose proof (nested_all c Hc) as HN. destruct c as [[s x] a].
  destruct x; try (left; split; [reflexivity|]; intros ?; destruct s as [|? [|? [|? [|]]]]; try reflexivity; cbn;
                   destruct a as [|? [|]]; reflexivity).
  cbn [nested] in HN. subst s. destruct a as [|a1 [|]]; [left; auto| |left; auto]. right. exists (p_project r).
  split; [now left|]. reflexivity.
Qed.

Lemma gather_buildings ns : Permutation ns (flat_map call_site cs) ->
  Permutation (flat_map (fun n => flat_map (call_child KBuilding (p_project r) n) cs) ns) (flat_map call_building cs).
Proof.
  intro P. apply gather.
  - apply (Permutation_NoDup (Permutation_sym P)), made_once, some_site.
  - intros c Hc. pose proof (nested_all c Hc) as HN. destruct c as [[s x] a].
    destruct x; try (left; split; [reflexivity|]; intros ?; destruct s as [|? [|? [|? [|]]]]; try reflexivity; cbn;
                     destruct a as [|? [|]]; reflexivity).
    cbn [nested] in HN. destruct HN as (p & -> & Hp). destruct a as [|a1 [|]]; [left; auto| |left; auto]. right. exists p.
    split; [apply (Permutation_in _ (Permutation_sym P)); exact Hp|]. reflexivity.
Qed.

Lemma gather_storeys ns : Permutation ns (flat_map call_building cs) ->
  Permutation (flat_map (fun n => flat_map (call_child KStorey (p_project r) n) cs) ns) (flat_map call_storey cs).
Proof.
  intro P. apply gather.
  - apply (Permutation_NoDup (Permutation_sym P)), made_once, some_building.
  - intros c Hc. pose proof (nested_all c Hc) as HN. destruct c as [[s x] a].
    destruct x; try (left; split; [reflexivity|]; intros ?; destruct s as [|? [|? [|? [|]]]]; try reflexivity; cbn;
                     destruct a as [|? [|]]; reflexivity).
    cbn [nested] in HN. destruct HN as (p & p' & -> & Hp). destruct a as [|a1 [|]]; [left; auto| |left; auto]. right. exists p.
    split; [apply (Permutation_in _ (Permutation_sym P)); exact Hp|]. reflexivity.
Qed.

Theorem tour_built : exists t, tour_ok o m (p_project r) cs t /\
  forall fuel, (length xs <= fuel)%nat -> visit fuel m = Done t.
Proof.
  destruct (collect_children KSite [p_project r]) as (l1 & E1 & P1). rewrite gather_sites in P1.
  destruct (collect_children KBuilding (map fst l1)) as (l2 & E2 & P2). rewrite (gather_buildings _ P1) in P2.
  destruct (collect_children KStorey (map fst l2)) as (l3 & E3 & P3). rewrite (gather_storeys _ P2) in P3.
  destruct (maps_uniform (fun n f => fl_storey f = n /\ floor_ok o m (p_project r) cs f)
    (fun fuel n => visit_storey fuel m n) (length cs) (map fst l3)) as (fs & F & V); [intros n _; apply floor_met|].
  exists (mk_tour [p_project r] (map fst l1) (map fst l2) fs). split.
  - unfold tour_ok. cbn [to_projects to_sites to_buildings to_floors]. repeat split; auto.
    + assert (X : map fl_storey fs = map fst l3); [|now rewrite X].
      clear - F. induction F as [|n f l fs [H _] _ IH]; auto. cbn [map]. now rewrite IH, H.
    + eapply Forall2_right; [exact F|]. intros a b [_ X]. exact X.
  - intros fuel Hf. unfold visit. rewrite (program_one o i xs ls r Hr : projects m = _), E1. cbn [obind].
    rewrite E2. cbn [obind]. rewrite E3. cbn [obind]. rewrite V; [reflexivity|].
    pose proof (calls_length xs [] ls). fold cs in H. lia.
Qed.

End Tour.
