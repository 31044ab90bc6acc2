(** Calls and programs in two runs. *)

From Coq Require Import String Ascii List NArith ZArith Bool Lia Permutation.
From Coq Require Import ZifyBool ZifyNat ZifyN.
From Verif Require Import Base Prims PrimsFacts Float Arith Kind Types Schema Entity EntityFacts DataMap DataSpec DataMapFacts
  Extractor Builder BuilderRun BuilderBase BuilderGrow BuilderAny BuilderSpec BuilderRel BuilderRel2 BuilderInv BuilderAll
  BuilderStep HistorySpec BuilderHist BuilderPlace BuilderKeep MoveSpec BuilderMove BuilderMove2 BuilderMove3 BuilderIds FormSpec BuilderForm BuilderForm2 OrderSpec
  BuilderOrder BuilderOrder2 BuilderOrder3 BuilderOrder4 BuilderOrder5 BuilderOrder6.
Import ListNotations.
Open Scope N_scope.
Open Scope builder_scope.

Ltac inv H :=
  match type of H with
  | bbind _ _ _ = Done _ => let a := fresh "a" in let q := fresh "q" in let H1 := fresh "H" in
      apply bbind_inv in H as (a & q & H1 & H)
  end.

(** ** The ids that builders remember *)

Definition scope_all (w : scope) : list N :=
  match w with
  | AtProject => []
  | AtSite s => fst s :: snd s
  | AtBuilding s b => fst s :: snd s ++ fst b :: snd b
  | AtStorey s b st => fst s :: snd s ++ fst b :: snd b ++ storey_ids st
  | AtHost s b st h => fst s :: snd s ++ fst b :: snd b ++ h_id h :: storey_ids st
  | AtWallProps s b st h _ ps => fst s :: snd s ++ fst b :: snd b ++ h_id h :: ps ++ storey_ids st
  | AtSet s b st _ ps => fst s :: snd s ++ fst b :: snd b ++ ps ++ storey_ids st
  end.
Definition wx (f : N -> N) (b : N) (w : scope) : Prop := Forall (fx f b) (scope_all w).

Definition args (f : N -> N) (b : N) (x : op) : Prop :=
  Forall (fx f b) (map snd (used x)) /\ Forall (fx f b) (used_any x) /\
  match x with
  | OLayer _ l => forallb idless (tl l) = true
  | OProperty _ v u => idless v = true /\ match u with Some n => fx f b n | None => True end
  | _ => True
  end.

Section Two.
Variables o o' : oracle.
Hypothesis Sum : o_neg_sum o = o_neg_sum o'.
Hypothesis Fo : fair o.
Hypothesis Fo' : fair o'.

Definition st_ids (f : N -> N) (b : N) (r r' : storey * list N) : Prop :=
  r' = r /\ sx f b (fst r) /\ Forall (fx f b) (snd r).

Ltac up Hb ::=
  lazymatch type of Hb with
  | ?b <= ?b' =>
      repeat match goal with
      | H : fx ?f b ?n |- _ => apply (fx_mono f b b' n Hb) in H
      | H : sx ?f b ?n |- _ => apply (sx_mono f b b' n Hb) in H
      | H : Forall (fx ?f b) ?l |- _ => apply (fxs_mono f b b' l Hb) in H
      end
  end.

Ltac one T := eapply sim_bind; [T|]; cbn beta; let b := fresh "b" in let x := fresh "x" in let x' := fresh "x" in
  let Hb := fresh "Hb" in let H := fresh "H" in intros b x x' Hb H; up Hb; unfold id_ in H; unfold st_ in H; unfold st2_ in H.

Lemma fxs_set_add f b l n : Forall (fx f b) l -> fx f b n -> Forall (fx f b) (set_add l n).
Proof. intros H Hn. unfold set_add. destruct (existsb _ l); auto. apply Forall_app. auto. Qed.

Ltac id1 := lazymatch goal with H : _ = _ /\ fx _ _ _ |- _ => destruct H as [-> ?] end;
  apply sim_ret; let b := fresh "b" in let Hb := fresh "Hb" in intros b Hb; up Hb; split; [reflexivity|]; split; cbn [fst snd]; auto.
Ltac st1 := lazymatch goal with H : ?y = ?x /\ _ /\ _ |- _ => destruct H as (-> & ? & ?); destruct x; cbn [fst snd] in * end;
  apply sim_ret; let b := fresh "b" in let Hb := fresh "Hb" in intros b Hb; up Hb; split; [reflexivity|]; split; cbn [fst snd]; auto.
Ltac st1' := lazymatch goal with H : ?y = ?x /\ _ /\ _ |- _ => destruct H as (-> & ? & ?); destruct x; cbn [fst snd] in * end;
  apply sim_ret; let b := fresh "b" in let Hb := fresh "Hb" in intros b Hb; up Hb; split; [reflexivity|]; cbn [fst snd]; auto.
Ltac st2' := lazymatch goal with H : ?y = ?x /\ _ /\ _ /\ _ |- _ => destruct H as (-> & ? & ? & ?); destruct x as [[? ?] ?]; cbn [fst snd] in * end;
  apply sim_ret; let b := fresh "b" in let Hb := fresh "Hb" in intros b Hb; up Hb; split; [reflexivity|]; cbn [fst snd]; auto.
Ltac all_fx := unfold wx; cbn [scope_all fst snd]; 
  repeat match goal with
  | |- Forall _ (_ :: _) => apply Forall_cons
  | |- Forall _ [] => apply Forall_nil
  | |- Forall _ (_ ++ _) => apply Forall_app; split
  | |- Forall _ (set_add _ _) => apply fxs_set_add
  end; try assumption.
Ltac fin := apply sim_ret; let b := fresh "b" in let Hb := fresh "Hb" in intros b Hb; up Hb; split; [reflexivity|]; cbn [fst snd];
  split; all_fx.

Lemma sim_storey_step f b st x : sx f b st -> args f b x ->
  sim f b (storey_step o st x) (storey_step o' st x) (st_ids f).
Proof.
  intros Hs (HU & HA & HX). destruct x; cbn [storey_step used used_any map snd] in *; try apply sim_err;
    repeat match goal with H : Forall _ (_ :: _) |- _ => apply Forall_cons_iff in H as [? H] end.
  - one ltac:(apply sim_material). id1.
  - one ltac:(apply sim_layer; assumption). id1.
  - one ltac:(apply sim_layer_set; rewrite map_map in HU; cbn [snd] in HU; rewrite map_id in HU; exact HU). id1.
  - one ltac:(apply sim_usage; assumption). id1.
  - one ltac:(apply sim_constituent). id1.
  - one ltac:(apply sim_constituent_set; rewrite map_map in HU; cbn [snd] in HU; rewrite map_id in HU; exact HU). id1.
  - destruct c; try apply sim_err; one ltac:(apply sim_new_type; assumption); st1.
  - one ltac:(apply sim_window_type; assumption). st1.
  - one ltac:(apply sim_space_type; assumption). st1.
  - one ltac:(apply sim_new_roof; assumption). st1.
  - one ltac:(apply sim_new_shading; assumption). st1.
  - one ltac:(apply sim_new_space; assumption). st1.
  - destruct (existsb (kind_eqb k) transformable) eqn:E; [|apply sim_err].
    one ltac:(apply sim_transform; [|assumption|exact (sx_ctx _ _ _ Hs)]; clear - E; destruct k; try discriminate E; ord).
    apply sim_ret. intros bz Hz. up Hz. split; [reflexivity|split; [assumption|constructor]].
  - one ltac:(apply sim_relate; assumption). apply sim_ret. intros bz Hz. up Hz. split; [reflexivity|split; [assumption|constructor]].
Qed.

Definition host_ids (f : N -> N) (b : N) (r r' : storey * host * list N) : Prop :=
  r' = r /\ sx f b (fst (fst r)) /\ fx f b (h_id (snd (fst r))) /\ Forall (fx f b) (snd r).

Lemma sim_host_step f b st h x : sx f b st -> fx f b (h_id h) -> args f b x ->
  sim f b (host_step o st h x) (host_step o' st h x) (host_ids f).
Proof.
  intros Hs Hh (HU & HA & HX). destruct x; cbn [host_step used used_any map snd] in *; try apply sim_err;
    repeat match goal with H : Forall _ (_ :: _) |- _ => apply Forall_cons_iff in H as [? H] end;
    destruct (h_slab h); try apply sim_err.
  - one ltac:(apply sim_wall_opening; assumption). st1'.
  - one ltac:(apply sim_slab_opening; assumption). st1'.
  - one ltac:(apply sim_wall_window; assumption). st2'.
  - one ltac:(apply sim_slab_window; assumption). st2'.
  - apply sim_ret. intros bz Hz. up Hz. split; [reflexivity|]. cbn [fst snd h_id]. auto.
  - apply sim_ret. intros bz Hz. up Hz. split; [reflexivity|]. cbn [fst snd h_id]. auto.
Qed.

Ltac res Hr := lazymatch goal with H : ?y = ?x /\ _ |- _ => rename H into Hr | H : st_ids _ _ _ _ |- _ => rename H into Hr | H : host_ids _ _ _ _ |- _ => rename H into Hr end.

(** ** One call *)

Definition good (f : N -> N) (b : N) (r r' : scope * list N) : Prop :=
  r' = r /\ wx f b (fst r) /\ Forall (fx f b) (snd r).

Definition simple (w : scope) (x : op) : bool :=
  match w, x with
  | AtStorey _ _ _, ODrop | AtHost _ _ _ _, ODrop => false
  | _, _ => true
  end.

Lemma sim_step f b w x : simple w x = true -> wx f b w -> args f b x ->
  sim f b (step o w x) (step o' w x) (good f).
Proof.
  intros S W A. pose proof A as (HU & HA & HX). unfold wx in W.
  destruct w as [|s|s c|s c st|s c st h|s c st h nm ps|s c st nm ps]; cbn [scope_all] in W;
    repeat match goal with
    | H : Forall _ (_ :: _) |- _ => apply Forall_cons_iff in H as [? H]
    | H : Forall _ (_ ++ _) |- _ => apply Forall_app in H as [? H]
    end.
  - destruct x; cbn [step]; try apply sim_err. one ltac:(apply sim_new_site). res Hr; destruct Hr as [-> F]. fin.
  - destruct x; cbn [step]; try apply sim_err.
    + one ltac:(apply sim_new_building; assumption). res Hr; destruct Hr as [-> F]. fin.
    + unfold drop_site. one ltac:(apply sim_aggregate; assumption). fin.
  - destruct x; cbn [step]; try apply sim_err.
    + one ltac:(apply sim_new_storey; assumption). res Hr; destruct Hr as [-> F]. pose proof (sx_id _ _ _ F) as F1. fin.
    + unfold drop_building. one ltac:(apply sim_aggregate; assumption). fin.
  - change (sx f b st) in W.
    assert (G : sim f b (letp (st', l) <-- storey_step o st x ;; bret (AtStorey s c st', l))
                  (letp (st', l) <-- storey_step o' st x ;; bret (AtStorey s c st', l)) (good f)).
    { one ltac:(apply sim_storey_step; assumption). res Hr; destruct Hr as (-> & F1 & F2). destruct x0 as [st1 l1]. cbn [fst snd] in *. fin. }
    destruct x; cbn [step used map snd] in *; try exact G; try discriminate S; clear G;
      repeat match goal with H : Forall _ (_ :: _) |- _ => apply Forall_cons_iff in H as [? H] end.
    + one ltac:(apply sim_new_wall; assumption). res Hr; destruct Hr as (-> & F1 & F2). destruct x as [n1 st1]. cbn [fst snd] in *. fin.
    + one ltac:(apply sim_new_slab; assumption). res Hr; destruct Hr as (-> & F1 & F2). destruct x as [n1 st1]. cbn [fst snd] in *. fin.
    + fin.
  - change (sx f b st) in W.
    assert (G : sim f b (letp (st', h', l) <-- host_step o st h x ;; bret (AtHost s c st' h', l))
                  (letp (st', h', l) <-- host_step o' st h x ;; bret (AtHost s c st' h', l)) (good f)).
    { one ltac:(apply sim_host_step; assumption). res Hr; destruct Hr as (-> & F1 & F2 & F3). destruct x0 as [[st1 h1] l1]. cbn [fst snd] in *. fin. }
    destruct x; cbn [step] in *; try exact G; try discriminate S; clear G. destruct (h_slab h); [apply sim_err|]. fin.
  - destruct x; cbn [step]; try apply sim_err; change (sx f b st) in W.
    + one ltac:(apply sim_property_set; assumption). res Hr; destruct Hr as [-> F].
      one ltac:(apply sim_relate; assumption). fin.
    + destruct HX as [HX HX']. one ltac:(apply sim_property; assumption). res Hr; destruct Hr as [-> F]. fin.
  - destruct x; cbn [step]; try apply sim_err; change (sx f b st) in W.
    + fin.
    + one ltac:(apply sim_property_set; assumption). res Hr; destruct Hr as [-> F]. fin.
    + destruct HX as [HX HX']. one ltac:(apply sim_property; assumption). res Hr; destruct Hr as [-> F]. fin.
Qed.


Lemma step_two f w x p p' w1 a q cs :
  rel f p p' -> wx f (size (p_map p)) w -> args f (size (p_map p)) x -> step o w x p = Done ((w1, a), q) ->
  tied cs w (p_map p) ->
  (forall k n, In (k, n) (prods cs) -> k = KOpeningElement \/ k = KWindow -> lone (p_map p) k n) ->
  exists q' f', step o' w x p' = Done ((w1, a), q') /\ rel f' q q' /\ agree f f' (size (p_map p)) /\
    size (p_map p) <= size (p_map q) /\ wx f' (size (p_map q)) w1 /\ Forall (fx f' (size (p_map q))) a.
Proof.
  intros R W A H T LN. destruct (simple w x) eqn:S.
  - destruct (sim_step _ _ _ _ S W A _ _ _ _ R (N.le_refl _) H) as (a' & q' & H' & R' & Z & E & W' & A').
    subst a'. exists q', f. split; auto. split; auto. split; [apply agree_refl|auto].
  - destruct w as [|s|s c|s c st|s c st h|s c st h nm ps|s c st nm ps]; try discriminate S; destruct x; try discriminate S; cbn [step] in *.
    + inv H. apply bret_inv in H as [E ->]. injection E as -> ->.
      assert (Hs : sx f (size (p_map p)) st).
      { unfold wx in W. cbn [scope_all] in W. apply Forall_cons_iff in W as [_ W]. apply Forall_app in W as [_ W].
        apply Forall_cons_iff in W as [_ W]. apply Forall_app in W as [_ W]. exact W. }
      destruct (esim_drop_storey o o' Fo Fo' f _ st Hs _ _ _ _ R (N.le_refl _) H0) as (a' & q' & f' & H' & R' & G & Z & _).
      exists q', f'. unfold bbind. rewrite H'. split; [reflexivity|]. split; auto. split; auto. split; auto. split; [|constructor].
      cbn [fst snd]. unfold wx in *. eapply fxs_up; [exact G|exact Z|]. cbn [scope_all] in *.
      clear - W. apply Forall_cons_iff in W as [W1 W]. apply Forall_app in W as [W2 W].
      apply Forall_cons_iff in W as [W3 W]. apply Forall_app in W as [W4 W]. constructor; auto. apply Forall_app. auto.
    + inv H. apply bret_inv in H as [E ->]. injection E as -> ->.
      assert (Ws : sx f (size (p_map p)) st /\ fx f (size (p_map p)) (h_id h)).
      { unfold wx in W. cbn [scope_all] in W. apply Forall_cons_iff in W as [_ W]. apply Forall_app in W as [_ W].
        apply Forall_cons_iff in W as [_ W]. apply Forall_app in W as [_ W]. apply Forall_cons_iff in W as [W0 W]. split; [exact W|exact W0]. }
      destruct Ws as [Hs Hh].
      destruct T as (D & R0 & GC & PR & SI & WV & WF & VP & FP & T). cbn [at_scope] in T.
      destruct T as (T & TP & K & L & V & F). pose proof T as (_ & _ & _ & N1 & N2 & N3 & N4).
      assert (Fig : forall k n, In (k, n) (prods cs) -> figure (p_map p) n /\ exists l, lookup (p_map p) n = Some (Ent k l)).
      { intros k n Hi. rewrite Forall_forall in PR. apply PR in Hi. exact Hi. }
      assert (AP : forall a v, In (a, v) (flat_map call_place cs) -> at_point (p_map p) a v).
      { intros a v Hi. apply in_flat_map in Hi as (c0 & Hc & Hi). rewrite Forall_forall in GC. apply GC in Hc as [_ Hc].
        rewrite Forall_forall in Hc. exact (Hc _ Hi). }
      assert (VA : forall a, In (h_id h, a) (voids cs) -> exists v, In (a, v) (flat_map call_place cs)).
      { intros a Hi. apply in_flat_map in Hi as (c0 & Hc & Hi). destruct (voids_place _ _ _ Hi) as [v Hv].
        exists v. apply in_flat_map. eauto. }
      assert (X1 : NoDup (map fst (table h st))) by (unfold table; destruct (h_slab h); auto).
      assert (X2 : forall k k' n n', In (k, n) (prods cs) -> In (k', n') (prods cs) -> sh (p_map p) n = sh (p_map p) n' -> n = n').
      { intros k k' n n' Hk Hk'. apply (SI (k, n) (k', n') Hk Hk'). }
      assert (X3 : forall a, In (a, h_id h) (table h st) -> In (KOpeningElement, a) (prods cs) /\ (exists v, at_point (p_map p) a v) /\
                     forall w, hget N.eqb (s_fills st) a = Some w -> In (KWindow, w) (prods cs)).
      { intros a Hi. apply V in Hi. split; [eapply VP; eauto|]. split.
        - destruct (VA _ Hi) as [v Hv]. exists v. auto.
        - intros w Hw. apply hget_In' in Hw. apply F in Hw; auto. eapply FP; eauto. }
      destruct (drop_host_two o o' f h st p p' _ _ (fun k n => In (k, n) (prods cs)) Fo Fo' R Hs Hh H0 X1 N4 Fig LN X2 K X3)
        as (u' & q' & f' & H' & R' & G & Z).
      exists q', f'. unfold bbind. rewrite H'. split; [reflexivity|]. split; auto. split; auto. split; auto. split; [|constructor].
      cbn [fst snd]. unfold wx in *. eapply fxs_up; [exact G|exact Z|]. cbn [scope_all] in *.
      clear - W. apply Forall_cons_iff in W as [W1 W]. apply Forall_app in W as [W2 W].
      apply Forall_cons_iff in W as [W3 W]. apply Forall_app in W as [W4 W]. apply Forall_cons_iff in W as [W5 W].
      constructor; auto. apply Forall_app. split; auto. constructor; auto. apply Forall_app. auto.
Qed.

End Two.

(** ** The beginning *)

Section Start.
Variables o o' : oracle.

Lemma lr_idless f b l : forallb idless l = true -> lr f b l l.
Proof.
  induction l as [|v l IH]; cbn [forallb]; intro H; [lrs|]. apply andb_prop in H as [H1 H2]. apply lr_cons; auto.
  apply vr_closed. unfold idless in H1. destruct (ids_in v); [reflexivity|discriminate].
Qed.

Lemma sim_now f b : sim f b (now o) (now o') (fun _ v v' => exists z z', v = VInt z /\ v' = VInt z').
Proof. unfold now. eapply sim_bind; [apply sim_tick|]. cbn beta. intros b' t t' _ _. apply sim_ret. eauto. Qed.

Lemma rel_empty : rel idn empty_proj empty_proj.
Proof.
  assert (W : wf empty_proj).
  { split; cbn; try constructor; try lia; try discriminate; intros; try discriminate. reflexivity. }
  split; auto; cbn; try (split; [reflexivity|]); try constructor; auto.
  - exists idn. auto.
  - intros n H. now destruct H.
  - intros; discriminate.
Qed.

Lemma sim_new_project f b i : plain_info i ->
  sim f b (new_project o i) (new_project o' i) (fun b r r' => r' = r /\ fx f b (fst r) /\ fx f b (snd r)).
Proof.
  intros [H1 H2]. unfold new_project, si_unit.
  sb ltac:(apply sim_ins; [ord|apply lr_idless; assumption]).
  sb ltac:(s_ins). sb ltac:(apply sim_ins; [ord|apply lr_idless; assumption]). sb ltac:(s_ins). sb ltac:(s_ins).
  sb ltac:(apply sim_now). sb ltac:(apply sim_now).
  destruct H6 as (z & z' & -> & ->), H7 as (y & y' & -> & ->).
  eapply sim_bind; [apply sim_ins_gen|].
  - assert (E3 : f x3 = x3) by apply H5. assert (E0 : f x0 = x0) by apply H0.
    cbn [likes part_of like_part ren]. rewrite E3, E0. repeat split; eauto.
  - destruct H5, H0. ams; assumption.
  - destruct H5, H0. ams; assumption.
  - intros b7 n n' Hb Hn. up Hb. unfold id_ in Hn. destruct Hn as [-> Hn].
    sb ltac:(s_ins). sb ltac:(s_ins). sb ltac:(s_ins). sb ltac:(apply sim_axis3d). sb ltac:(s_ins). sb ltac:(s_ins).
    sb ltac:(apply sim_guid). sb ltac:(s_ins). sb ltac:(s_ins). sb ltac:(s_ins). end_ret. auto.
Qed.

Lemma start_made ox i oh pr p : new_project ox i empty_proj = Done ((oh, pr), p) ->
  start ox i = Done (mk_proj (p_map p) (p_tick p) oh pr [] []).
Proof. unfold start. generalize (new_project ox i empty_proj). intros x ->. reflexivity. Qed.

Lemma start_two i p0 : plain_info i -> start o i = Done p0 -> exists p0', start o' i = Done p0' /\ rel idn p0 p0'.
Proof.
  intros HI H. apply start_done in H as (oh & pr & p & E & ->).
  destruct (sim_new_project idn 0 i HI _ _ _ _ rel_empty (N.le_0_l _) E) as (r' & p' & E' & R & _ & -> & F1 & F2).
  cbn [fst snd] in *. eexists. split; [exact (start_made _ _ _ _ _ E')|].
  destruct R as [W W' Z BJ MV LK KD OW PJ SI AS].
  assert (G : forall x t, wf x -> size (p_map x) = size (p_map p) -> wf (mk_proj (p_map x) t oh pr [] [])).
  { intros x t [V1 V2 V3 V4 V5 V6 V7] Zx. destruct F1, F2. split; cbn [p_map p_owner p_project p_sites p_assoc]; auto; try constructor; rewrite Zx; assumption. }
  split; cbn [p_map p_owner p_project p_sites p_assoc]; auto.
Qed.

End Start.

(** ** Runs *)

Section Runs.
Variables o o' : oracle.
Hypothesis Sum : o_neg_sum o = o_neg_sum o'.
Hypothesis Fo : fair o.
Hypothesis Fo' : fair o'.

Lemma run_snoc ox xs : forall x w p w1 ls p1 w2 a p2,
  run ox w xs p = Done ((w1, ls), p1) -> step ox w1 x p1 = Done ((w2, a), p2) ->
  run ox w (xs ++ [x]) p = Done ((w2, ls ++ [a]), p2).
Proof.
  induction xs as [|y xs IH]; intros x w p w1 ls p1 w2 a p2 H1 H2; cbn [app run] in *.
  - apply bret_inv in H1 as [E ->]. injection E as -> ->. unfold bbind. rewrite H2. reflexivity.
  - inv H1. destruct a0 as [w3 b]. inv H1. destruct a0 as [w4 l]. apply bret_inv in H1 as [E ->]. injection E as -> ->.
    unfold bbind. rewrite H. pose proof (IH _ _ _ _ _ _ _ _ _ H0 H2) as X. unfold bbind in X. rewrite X. reflexivity.
Qed.

Lemma returned_incl x a k n : In (k, n) (returned x a) -> In n a.
Proof.
  intro H. destruct x; cbn [returned] in H; try contradiction; destruct a as [|a1 [|a2 [|]]]; cbn [In] in *; try contradiction;
    repeat match goal with H : _ \/ _ |- _ => destruct H as [H|H] end; try contradiction; injection H; intros; subst; auto.
Qed.
Lemma learn_incl xs : forall ls known k n, In (k, n) (learn known xs ls) -> In n (concat ls) \/ In (k, n) known.
Proof.
  induction xs as [|x xs IH]; intros [|a ls] known k n H; cbn [learn concat] in *; auto.
  apply IH in H as [H|H]; [left; apply in_or_app; auto|]. apply in_app_iff in H as [H|H]; auto.
  left. apply in_or_app. left. eapply returned_incl; eauto.
Qed.

(** Openings and windows have one representation. *)
Lemma new_lone i xs ls x a m c k n :
  reached o i (xs ++ [x]) (ls ++ [a]) m -> honest [] (xs ++ [x]) (ls ++ [a]) -> length xs = length ls ->
  calls [] (xs ++ [x]) (ls ++ [a]) = calls [] xs ls ++ [c] -> In (k, n) (call_products c) ->
  k = KOpeningElement \/ k = KWindow -> is_of m (k, n) -> lone m k n.
Proof.
  intros HR HH HL EC HI HK [l L]. cbn [fst snd] in L.
  destruct (reached_fits o Fo _ _ _ _ _ _ _ _ _ HR HH HL EC HI) as (f & ax & rs & F & DR & DP).
  assert (ax = None) as ->.
  { inversion F; subst; auto. cbn [call_products In] in HI. destruct HI as [HI|[]]. assert (EK : k = KWall) by congruence. rewrite EK in HK. destruct HK; discriminate. }
  cbn [depicts] in DP. destruct DP as (r & -> & DP). exists l, r. split; auto. split; [destruct HK; subst; discriminate|].
  split; auto. destruct f as [[? ?] ?]. destruct DP as (ctx & s & p & d & DP & _). eexists. exact DP.
Qed.

Lemma run_two i p0 p0' xs : start o i = Done p0 -> rel idn p0 p0' -> Forall (plain_op (p_map p0)) xs ->
  forall w ls p, run o AtProject xs p0 = Done ((w, ls), p) -> honest [] xs ls ->
  tied (calls [] xs ls) w (p_map p) /\ cover (learn [] xs ls) (calls [] xs ls) /\ length xs = length ls /\
  (forall k n, In (k, n) (prods (calls [] xs ls)) -> k = KOpeningElement \/ k = KWindow -> lone (p_map p) k n) /\
  exists f p', run o' AtProject xs p0' = Done ((w, ls), p') /\ rel f p p' /\ wx f (size (p_map p)) w /\
    Forall (fx f (size (p_map p))) (concat ls) /\ agree idn f (size (p_map p0)) /\ size (p_map p0) <= size (p_map p).
Proof.
  intros HS R0 HX. pose proof (start_inv _ _ _ HS) as (D0 & _).
  induction xs as [|x xs IH] using rev_ind; intros w ls p H HH.
  - cbn [run] in H. apply bret_inv in H as [E ->]. injection E as -> ->. cbn [calls learn].
    split; [exact (tied_start _ D0)|]. split; [exact cover_nil|]. split; [reflexivity|]. split; [intros ? ? []|].
    exists idn, p0'. split; [reflexivity|]. split; [exact R0|]. split; [constructor|]. split; [constructor|].
    split; [apply agree_refl|lia].
  - apply Forall_app in HX as [HX1 HX2]. apply Forall_cons_iff in HX2 as [HX2 _].
    pose proof H as HR. destruct (run_app o _ _ _ _ _ _ _ H) as (w1 & l1 & p1 & l2 & R1 & R2 & ->).
    cbn [run] in R2. inv R2. destruct a as [w2 a]. inv R2. destruct a0 as [w3 l3].
    apply bret_inv in H1 as [E ->]. injection E as -> ->. apply bret_inv in R2 as [E ->]. injection E as -> ->.
    assert (HL : length xs = length l1) by (symmetry; apply (run_ids o _ _ _ _ _ _ R1 D0)).
    pose proof (proj1 (honest_app _ _ _ _ _ HL) HH) as [HA HB].
    destruct (IH HX1 _ _ _ R1 HA) as (T & C & _ & LN & f & p' & R1' & RL & W & FI & AG & Z). clear IH.
    pose proof (honest_move o _ _ _ _ _ _ HB C _ _ _ H0) as HM.
    pose proof (tied_step o _ _ _ _ _ _ _ Fo H0 T HM) as T1.
    pose proof (step_effects o _ _ _ _ _ _ _ Fo H0 T HM) as (E & EE & _).
    destruct (run_calls o _ [x] [a] _ _ _ _ _ R1 D0 ltac:(now left)) as [_ EC]. cbn [scope_ids calls] in EC.
    assert (AR : args f (size (p_map p1)) x).
    { destruct HB as (U1 & U2 & _). rewrite Forall_forall in FI.
      assert (KN : forall k n, In (k, n) (learn [] xs l1) -> fx f (size (p_map p1)) n).
      { intros k n Hi. apply FI. apply learn_incl in Hi as [Hi|[]]. exact Hi. }
      split; [|split].
      - apply Forall_forall. intros n Hi. apply in_map_iff in Hi as ([k n'] & En & Hi). cbn [snd] in En. subst n'.
        exact (KN _ _ (U1 _ Hi)).
      - apply Forall_forall. intros n Hi. apply U2 in Hi. apply in_map_iff in Hi as ([k n'] & En & Hi). cbn [snd] in En. subst n'.
        exact (KN _ _ Hi).
      - destruct x; auto. cbn [plain_op] in HX2. destruct HX2 as [X1 X2]. split; auto. destruct unit as [u|]; auto.
        destruct (lookup (p_map p0) u) as [e|] eqn:L; [|contradiction].
        assert (Hu : u <= size (p_map p0)).
        { pose proof (proj1 (dense_lookup _ u D0) (ex_intro _ e L)). lia. }
        eapply fx_up; [exact AG|exact Z|]. split; [reflexivity|exact Hu]. }
    destruct (step_two o o' Sum Fo Fo' f w1 x p1 p' w2 a q _ RL W AR H0 T LN) as (q' & f' & H' & RL' & AG' & Z' & W' & FA).
    rewrite EC. split; [exact T1|]. split.
    { assert (X : forall ys known ms, length ys = length ms -> learn known (ys ++ [x]) (ms ++ [a]) = returned x a ++ learn known ys ms).
      { clear. induction ys as [|y ys IH]; intros known [|m ms] E; try discriminate E; cbn [app learn]; auto. }
      rewrite (X _ _ _ HL). apply cover_step. exact C. }
    split; [rewrite !app_length, HL; reflexivity|]. split.
    { intros k n Hi Hk. rewrite app_prods in Hi. apply in_app_iff in Hi as [Hi|Hi].
      - apply (lone_effect _ _ _ _ _ EE), LN; auto.
      - eapply new_lone; [|exact HH|exact HL|exact EC|exact Hi|exact Hk|].
        + exists p0, w2, q. split; [exact HS|]. split; [exact H|reflexivity].
        + destruct T1 as (_ & _ & _ & PR & _). rewrite Forall_forall in PR. apply PR.
          rewrite app_prods. apply in_or_app. now right. }
    exists f', q'. split; [exact (run_snoc _ _ _ _ _ _ _ _ _ _ _ R1' H')|]. split; [exact RL'|]. split; [exact W'|].
    split; [|split; [|lia]].
    + rewrite concat_app. apply Forall_app. split; [eapply fxs_up; [exact AG'|exact Z'|exact FI]|].
      cbn [concat]. rewrite app_nil_r. exact FA.
    + eapply agree_trans; [exact AG|exact AG'|exact Z].
Qed.

Lemma program_two i xs ls r :
  plain_program o i xs -> program o i xs = Done (ls, r) -> honest [] xs ls ->
  exists f r', program o' i xs = Done (ls, r') /\ rel f r r' /\ Forall (fun n => f n = n) (concat ls).
Proof.
  intros [HI HX] H HH. apply program_inv in H as (p0 & w & q & HS & HR & -> & HB).
  destruct (start_two o o' _ _ HI HS) as (p0' & HS' & R0).
  destruct (run_two _ _ _ _ HS R0 (HX _ HS) _ _ _ HR HH) as (_ & _ & _ & _ & f & q' & HR' & RL & _ & FI & _ & _).
  destruct (esim_build o o' Fo Fo' f _ _ _ _ _ RL (N.le_refl _) HB) as (u & r' & f' & HB' & R' & AG & _ & _).
  exists f', r'. split; [|split; [exact R'|]].
  - unfold program. rewrite HS', HR', HB'. reflexivity.
  - eapply Forall_impl; [|exact FI]. intros n [E Hn]. rewrite AG; auto.
Qed.

Lemma rel_renames f p p' : rel f p p' -> renames f (p_map p) (p_map p').
Proof.
  intro R. split; [apply R|]. split; [apply R|]. intro n.
  destruct (lookup (p_map p) n) as [e|] eqn:L.
  - destruct (r_like _ _ _ R _ _ L) as (e' & -> & K). exact K.
  - destruct (lookup (p_map p') (f n)) as [e'|] eqn:L'; auto.
    pose proof (wf_dense _ (r_wf _ _ _ R)) as D. pose proof (wf_dense _ (r_wf' _ _ _ R)) as D'.
    assert (X : f n = n).
    { destruct (N.eq_dec (f n) n) as [E|E]; auto. destruct (r_move _ _ _ R n E) as (k & K & _). unfold kind_at in K.
      rewrite L in K. discriminate K. }
    rewrite X in L'. pose proof (r_kind _ _ _ R n) as K. unfold kind_at in K. rewrite L, L' in K. discriminate K.
Qed.

Lemma order_irrelevant i xs ls r :
  plain_program o i xs -> program o i xs = Done (ls, r) -> honest [] xs ls ->
  exists f r', program o' i xs = Done (ls, r') /\ renames f (p_map r) (p_map r') /\
    (forall n, In n (concat ls) -> f n = n) /\ (forall n, kind_at (p_map r') n = kind_at (p_map r) n).
Proof.
  intros HP H HH. destruct (program_two _ _ _ _ HP H HH) as (f & r' & H' & R & F). exists f, r'.
  split; [exact H'|]. split; [apply rel_renames; exact R|]. split; [apply Forall_forall; exact F|apply R].
Qed.

End Runs.
