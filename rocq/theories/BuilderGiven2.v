(** What whole programs store of the arguments of their calls. *)

From Coq Require Import String Ascii List NArith ZArith Bool Lia.
From Verif Require Import Base Prims Kind Types Schema Entity EntityFacts DataMap DataSpec DataMapFacts Extractor
  Float Arith Builder BuilderBase BuilderRun BuilderGrow BuilderAny BuilderSpec BuilderEmit BuilderAll BuilderInv HistorySpec
  BuilderHist BuilderPlace BuilderKeep MoveSpec BuilderMove BuilderMove3 GivenSpec BuilderGiven.
Import ListNotations.
Open Scope N_scope.
Open Scope builder_scope.

(** ** Facts stay *)

Lemma given_kinds c f : In f (call_given c) -> snd (fst f) <> KProductDefinitionShape.
Proof.
  destruct c as [[s x] a]. destruct x as [| | | | | | | | | |c| | | | | | | | | | | | | | | | | |];
    destruct a as [|q1 [|q2 [|]]]; cbn [call_given In]; try tauto;
    intro H; repeat (destruct H as [<-|H]; [cbn; try destruct c; discriminate|]); contradiction.
Qed.

Lemma gives_solid m m' c : solid m m' -> gives m c -> gives m' c.
Proof.
  intros S [H1 H2]. rewrite Forall_forall in H1, H2. split; apply Forall_forall.
  - intros f Hf. eapply says_solid; eauto using given_kinds.
  - intros [[n i] name] Hq. specialize (H2 _ Hq).
    assert (HG : exists k al, In (n, k, al) (call_given c)).
    { clear - Hq. destruct c as [[s x] a]. destruct x; try (destruct Hq; fail);
        destruct a as [|n1 [|]]; cbn [call_material] in Hq; try (destruct Hq; fail);
        try (match type of Hq with context [match ?l with [] => _ | _ => _ end] => destruct l end);
        try (destruct Hq; fail); destruct Hq as [E|[]]; injection E as <- <- <-; do 2 eexists; left; reflexivity. }
    destruct HG as (k & al & HG). pose proof (given_kinds _ _ HG) as K. destruct (H1 _ HG) as (l & L & _).
    eapply made_of_solid; eauto.
Qed.

Section Runs.
Variable o : oracle.

Lemma run_given xs : forall w p w' ls p',
  run o w xs p = Done ((w', ls), p') -> dense (p_map p) -> rooted (p_map p) w ->
  Forall (gives (p_map p')) (calls (scope_ids w) xs ls).
Proof.
  induction xs as [|x xs IH]; intros w p w' ls p' H D R; cbn [run] in H.
  - apply bret_inv in H as [E ->]. injection E as -> ->. constructor.
  - inv H. destruct a as [w1 a]. inv H. destruct a0 as [w2 l]. apply bret_inv in H as [E ->]. injection E as -> ->.
    destruct (step_place o _ _ _ _ _ _ H0 D R) as (R1 & _ & E1).
    pose proof (step_given o _ _ _ _ _ _ H0 D) as G.
    assert (GS : grow anything p q) by (assert (X : steps (grow anything) (step o w x)) by st; exact (X _ _ _ H0)).
    pose proof (proj1 (GS D)) as D1.
    pose proof (run_grow o _ _ _ _ _ H1) as G2. cbn [calls]. rewrite <- E1. constructor; [|eauto].
    eapply gives_solid; [|exact G]. eapply grow_solid; eauto.
Qed.

Lemma reached_given i xs ls m : reached o i xs ls m -> Forall (gives m) (calls [] xs ls).
Proof.
  intros (p0 & w & p & H1 & H2 & ->). apply start_inv in H1 as (D & _).
  exact (run_given _ _ _ _ _ _ H2 D ltac:(now left)).
Qed.

Lemma built_solid i xs ls r : program o i xs = Done (ls, r) ->
  exists m, reached o i xs ls m /\ solid m (p_map r).
Proof.
  intro HP. apply program_inv in HP as (p & w & q & H1 & H2 & -> & H3).
  assert (R2 : reached o i xs ls (p_map q)) by (exists p, AtProject, q; auto).
  pose proof (reached_dense o _ _ _ _ R2) as D. clear H1 H2.
  assert (E : ext q r) by (assert (X : steps ext (build o)) by st; exact (X _ _ _ H3)).
  exists (p_map q). split; auto. eapply ext_solid; eauto.
Qed.

Lemma built_given i xs ls r : program o i xs = Done (ls, r) -> Forall (gives (p_map r)) (calls [] xs ls).
Proof.
  intro H. destruct (built_solid _ _ _ _ H) as (m & R & S). apply reached_given in R.
  eapply Forall_impl; [|exact R]. intros c. now apply gives_solid.
Qed.

(** ** Property sets *)

Definition sheet_of (w : scope) : option (text * list N) :=
  match w with
  | AtWallProps _ _ _ _ nm ps | AtSet _ _ _ nm ps => Some (nm, ps)
  | _ => None
  end.

Lemma storey_step_sheet st x p st' a p' : storey_step o st x p = Done ((st', a), p') ->
  forall s, sheet_after None (s, x, a) = None.
Proof. intros H s. destruct x; try discriminate H; try reflexivity. Qed.
Lemma host_step_sheet st h x p st' h' a p' : host_step o st h x p = Done ((st', h', a), p') ->
  forall s, sheet_after None (s, x, a) = None.
Proof. intros H s. unfold host_step in H. destruct x; try discriminate H; reflexivity. Qed.

Lemma step_sheet w x p w' a p' : step o w x p = Done ((w', a), p') ->
  sheet_of w' = sheet_after (sheet_of w) (scope_ids w, x, a).
Proof.
  intro H. destruct w as [|s|s b|s b st|s b st h|s b st h nm ps|s b st nm ps]; destruct x; try discriminate H;
    cbn [step] in H;
    try (inv H; destruct a0 as [st1 l1]; apply bret_inv in H as [E ->]; injection E as -> ->;
         match goal with H0 : storey_step _ _ _ _ = _ |- _ => symmetry; exact (storey_step_sheet _ _ _ _ _ _ H0 _) end);
    try (inv H; destruct a0 as [[st1 h1] l1]; apply bret_inv in H as [E ->]; injection E as -> ->;
         match goal with H0 : host_step _ _ _ _ _ = _ |- _ => symmetry; exact (host_step_sheet _ _ _ _ _ _ _ _ H0 _) end);
    repeat match type of H with (if ?b then _ else _) _ = _ => destruct b end;
    try discriminate H;
    repeat match type of H with bbind _ _ _ = Done _ => inv H end;
    try discriminate;
    try (match type of H with context [let (_, _) := ?a in _] => destruct a end);
    apply bret_inv in H as [E ->]; injection E as -> ->; reflexivity.
Qed.

Lemma app_one {X} (l : list X) a l2 : l ++ a :: l2 = (l ++ [a]) ++ l2.
Proof. now rewrite <- app_assoc. Qed.

Lemma run_sheet xs : forall cs w p w' ls p',
  run o w xs p = Done ((w', ls), p') -> dense (p_map p) -> rooted (p_map p) w -> sheet cs = sheet_of w ->
  sheet (cs ++ calls (scope_ids w) xs ls) = sheet_of w'.
Proof.
  induction xs as [|x xs IH]; intros cs w p w' ls p' H D R HS; cbn [run] in H.
  - apply bret_inv in H as [E ->]. injection E as -> ->. cbn [calls]. now rewrite app_nil_r.
  - inv H. destruct a as [w1 a]. inv H. destruct a0 as [w2 l]. apply bret_inv in H as [E ->]. injection E as -> ->.
    destruct (step_place o _ _ _ _ _ _ H0 D R) as (R1 & _ & E1). pose proof (step_sheet _ _ _ _ _ _ H0) as ES.
    assert (GS : grow anything p q) by (assert (X : steps (grow anything) (step o w x)) by st; exact (X _ _ _ H0)).
    pose proof (proj1 (GS D)) as D1. cbn [calls]. rewrite <- E1.
    rewrite app_one. eapply IH; eauto. unfold sheet in *. rewrite fold_left_app. cbn [fold_left]. now rewrite HS.
Qed.

Lemma property_set_inv name ps p n p' : property_set o name ps p = Done (n, p') -> dense (p_map p) ->
  says (p_map p') (set_of n (name, ps)) /\ ext p p' /\ dense (p_map p').
Proof.
  intros H D. unfold property_set in H. inv H.
  assert (HR : exists g w, a = [g; w; VStr name; VOmit]).
  { unfold root in H0. inv H0. apply bret_inv in H0 as [-> ->]. eauto. }
  destruct HR as (g & w & ->). ext_of H0. clear H0. fw. split; [done_says|]. split; auto. eapply pre_trans; eauto.
Qed.

(** A finished set. *)
Lemma step_set w x p w' a p' cs : step o w x p = Done ((w', a), p') -> dense (p_map p) -> sheet cs = sheet_of w ->
  Forall (says (p_map p')) (set_given cs (scope_ids w, x, a)) /\
  (x = OFinishSet -> exists n t, a = [n] /\ sheet cs = Some t).
Proof.
  intros H D HS. destruct x; try (split; [destruct a as [|? [|]]; cbn [set_given]; constructor|discriminate]).
  destruct w as [|s|s b|s b st|s b st h|s b st h nm ps|s b st nm ps]; try discriminate H; cbn [step] in H;
    try (inv H; discriminate).
  inv H. apply bret_inv in H as [E ->]. injection E as -> ->. cbn [set_given]. rewrite HS. cbn [sheet_of].
  destruct (property_set_inv _ _ _ _ _ H0 D) as [G _]. split; [repeat constructor; exact G|]. intros _. eauto.
Qed.

(** ** Relations *)

Definition no_props (k : kind) : bool := negb (kind_eqb k KRelDefinesByProperties).
Lemma no_props_project k : project_kind k = true -> no_props k = true.
Proof. unfold no_props. destruct k; intro H; first [reflexivity|discriminate H]. Qed.
Lemma no_props_simple k : simple_kind k = true -> no_props k = true.
Proof. unfold simple_kind, no_props. now destruct (is_rel k), (kind_eqb k KRelDefinesByProperties). Qed.
Lemma no_props_rel k : is_rel k = true -> before_build k = true -> no_props k = true.
Proof. intros H _. unfold no_props. destruct (kind_eqb k KRelDefinesByProperties) eqn:E; auto. apply kind_eqb_eq in E. now subst. Qed.

Lemma step_no_props w x : relates w x = false -> steps (grow no_props) (step o w x).
Proof. intro H. apply (st_step_any no_props_simple no_props_rel). congruence. Qed.

Lemma relates_describes w x a : (exists r p, step o w x p = Done r) -> describes (scope_ids w, x, a) = relates w x.
Proof.
  intros (r & p & H). destruct w, x; try discriminate H; reflexivity.
Qed.

Lemma relate_inv s b p n p' : relate_properties o s b p = Done (n, p') -> dense (p_map p) ->
  dense (p_map p') /\ exists l, objects KRelDefinesByProperties (p_map p') = objects KRelDefinesByProperties (p_map p) ++ [l] /\
    ids_at l 4 = [b] /\ ids_at l 5 = [s].
Proof.
  intros H D. unfold relate_properties in H. inv H. destruct (root_inv _ _ _ _ _ H0) as [L ->].
  apply ins_inv in H as (_ & _ & -> & D'); auto. split; auto. cbn [set_map p_map set_tick].
  eexists. rewrite objects_app, objects_one. split; [reflexivity|].
  now rewrite ids_at_4, ids_at_5, ids_at_list, ids_at_one.
Qed.

Lemma pairs_more m m' l b s : objects KRelDefinesByProperties m' = objects KRelDefinesByProperties m ++ [l] ->
  ids_at l 4 = [b] -> ids_at l 5 = [s] ->
  pairs KRelDefinesByProperties 5 4 m' = pairs KRelDefinesByProperties 5 4 m ++ [(s, b)].
Proof.
  intros E E4 E5. unfold pairs. rewrite E, flat_map_app. cbn [flat_map]. now rewrite E4, E5.
Qed.
Lemma pairs_same A p p' : grow A p p' -> A KRelDefinesByProperties = false -> dense (p_map p) ->
  pairs KRelDefinesByProperties 5 4 (p_map p') = pairs KRelDefinesByProperties 5 4 (p_map p).
Proof. intros G H D. unfold pairs. now rewrite (objects_grow _ _ _ _ G H ltac:(discriminate) D). Qed.

Lemma described_solid m m' : solid m m' -> forall cs ds l, described m cs ds l -> described m' cs ds l.
Proof.
  intros S cs ds l H. induction H; econstructor; eauto. eapply says_solid; eauto. cbn. discriminate.
Qed.

Lemma run_described xs : forall cs w p w' ls p',
  run o w xs p = Done ((w', ls), p') -> dense (p_map p) -> rooted (p_map p) w -> sheet cs = sheet_of w ->
  exists l, pairs KRelDefinesByProperties 5 4 (p_map p') = pairs KRelDefinesByProperties 5 4 (p_map p) ++ l /\
    described (p_map p') cs (calls (scope_ids w) xs ls) l.
Proof.
  induction xs as [|x xs IH]; intros cs w p w' ls p' H D R HS; cbn [run] in H.
  - apply bret_inv in H as [E ->]. injection E as -> ->. exists []. rewrite app_nil_r. split; auto. constructor.
  - inv H. destruct a as [w1 a]. inv H. destruct a0 as [w2 l]. apply bret_inv in H as [E ->]. injection E as -> ->.
    destruct (step_place o _ _ _ _ _ _ H0 D R) as (R1 & _ & E1). pose proof (step_sheet _ _ _ _ _ _ H0) as ES.
    assert (GS : grow anything p q) by (assert (X : steps (grow anything) (step o w x)) by st; exact (X _ _ _ H0)).
    pose proof (proj1 (GS D)) as D1. pose proof (run_grow o _ _ _ _ _ H1) as G2.
    pose proof (grow_solid _ _ G2 D1) as S.
    destruct (IH (cs ++ [(scope_ids w, x, a)]) _ _ _ _ _ H1 D1 R1) as (l2 & P2 & D2).
    { unfold sheet in *. rewrite fold_left_app. cbn [fold_left]. now rewrite HS. }
    cbn [calls]. rewrite <- E1. pose proof (relates_describes w x a (ex_intro _ _ (ex_intro _ _ H0))) as ER.
    destruct (relates w x) eqn:ERx.
    + destruct w as [|s|s b|s b st|s b st h|s b st h nm ps|s b st nm ps]; destruct x; try discriminate ERx; cbn [step] in H0.
      * inv H0. destruct a0 as [st1 l1]. apply bret_inv in H0 as [E ->]. injection E as -> ->.
        cbn [storey_step] in H. inv H. apply bret_inv in H as [E ->]. injection E as -> ->.
        destruct (relate_inv _ _ _ _ _ H0 D) as (_ & lv & EO & E4 & E5).
        exists ((set, obj) :: l2). rewrite P2, (pairs_more _ _ _ _ _ EO E4 E5), <- app_assoc. split; auto. now constructor.
      * inv H0. inv H0. apply bret_inv in H0 as [E ->]. injection E as -> ->.
        destruct (property_set_inv _ _ _ _ _ H D) as (G & X & Dx).
        destruct (relate_inv _ _ _ _ _ H2 Dx) as (_ & lv & EO & E4 & E5).
        assert (PS : grow no_props p q1) by (eapply (st_property_set no_props_simple); exact H).
        exists ((a0, h_id h) :: l2). rewrite P2, (pairs_more _ _ _ _ _ EO E4 E5), (pairs_same _ _ _ PS eq_refl D), <- app_assoc.
        split; auto. cbn [scope_ids]. eapply described_wall; [exact HS| |exact D2].
        cbn [sheet_of]. eapply says_solid; [cbn; discriminate|exact S|]. eapply says_ext; [|exact Dx|exact G].
        assert (X2 : steps ext (relate_properties o a0 (h_id h))) by st. exact (X2 _ _ _ H2).
    + exists l2. pose proof (step_no_props w x ERx _ _ _ H0) as GN. rewrite P2, (pairs_same _ _ _ GN eq_refl D). split; auto.
      apply described_other; auto.
Qed.

Lemma reached_described i xs ls m : reached o i xs ls m ->
  described m [] (calls [] xs ls) (pairs KRelDefinesByProperties 5 4 m).
Proof.
  intros (p0 & w & p & H1 & H2 & ->).
  assert (E0 : pairs KRelDefinesByProperties 5 4 (p_map p0) = []).
  { clear H2. apply start_done in H1 as (oh & n & q & E & ->). cbn [p_map].
    exact (pairs_same _ _ _ (st_new_project no_props_simple o i no_props_project _ _ _ E) eq_refl dense_nil). }
  apply start_inv in H1 as (D & _).
  destruct (run_described _ [] _ _ _ _ _ H2 D ltac:(now left) eq_refl) as (l & -> & HD). now rewrite E0.
Qed.

Lemma built_described i xs ls r : program o i xs = Done (ls, r) ->
  described (p_map r) [] (calls [] xs ls) (pairs KRelDefinesByProperties 5 4 (p_map r)).
Proof.
  intro HP. pose proof HP as HP'. destruct (built_solid _ _ _ _ HP') as (m & R & S). clear HP'.
  apply program_inv in HP as (p & w & q & H1 & H2 & -> & H3).
  assert (R2 : reached o i xs ls (p_map q)) by (exists p, AtProject, q; auto).
  pose proof (reached_dense o _ _ _ _ R2) as D. clear H1 H2 R S m.
  assert (G : grow no_props q r) by exact (st_build no_props_rel o eq_refl _ _ _ H3).
  rewrite (pairs_same _ _ _ G eq_refl D). eapply described_solid; [|now apply reached_described with (i := i)].
  assert (E : ext q r) by (assert (X : steps ext (build o)) by st; exact (X _ _ _ H3)). eapply ext_solid; eauto.
Qed.

(** ** Finished sets *)

Lemma run_sets xs : forall cs w p w' ls p',
  run o w xs p = Done ((w', ls), p') -> dense (p_map p) -> rooted (p_map p) w -> sheet cs = sheet_of w ->
  forall c1 c c2, calls (scope_ids w) xs ls = c1 ++ c :: c2 ->
  Forall (says (p_map p')) (set_given (cs ++ c1) c) /\
  (snd (fst c) = OFinishSet -> exists n t, snd c = [n] /\ sheet (cs ++ c1) = Some t).
Proof.
  induction xs as [|x xs IH]; intros cs w p w' ls p' H D R HS c1 c c2 EC; cbn [run] in H.
  - apply bret_inv in H as [E ->]. injection E as -> ->. destruct c1; discriminate EC.
  - inv H. destruct a as [w1 a]. inv H. destruct a0 as [w2 l]. apply bret_inv in H as [E ->]. injection E as -> ->.
    destruct (step_place o _ _ _ _ _ _ H0 D R) as (R1 & _ & E1). pose proof (step_sheet _ _ _ _ _ _ H0) as ES.
    assert (GS : grow anything p q) by (assert (X : steps (grow anything) (step o w x)) by st; exact (X _ _ _ H0)).
    pose proof (proj1 (GS D)) as D1. pose proof (run_grow o _ _ _ _ _ H1) as G2.
    pose proof (grow_solid _ _ G2 D1) as S. cbn [calls] in EC. rewrite <- E1 in EC.
    destruct c1 as [|c0 c1].
    + injection EC as <- _. rewrite app_nil_r. destruct (step_set _ _ _ _ _ _ _ H0 D HS) as [F X]. split.
      * clear X. unfold set_given in *. destruct x; try constructor. destruct a as [|n [|]]; try constructor.
        destruct (sheet cs); constructor; [|constructor]. inversion F; subst.
        eapply says_solid; eauto. cbn. discriminate.
      * exact X.
    + injection EC as <- EC. rewrite (app_one cs). eapply IH; eauto.
      unfold sheet in *. rewrite fold_left_app. cbn [fold_left]. now rewrite HS.
Qed.

Lemma built_sets i xs ls r : program o i xs = Done (ls, r) ->
  forall c1 c c2, calls [] xs ls = c1 ++ c :: c2 ->
  Forall (says (p_map r)) (set_given c1 c) /\
  (snd (fst c) = OFinishSet -> exists n t, snd c = [n] /\ sheet c1 = Some t).
Proof.
  intros HP c1 c c2 EC. apply program_inv in HP as (p & w & q & H1 & H2 & -> & H3).
  assert (R2 : reached o i xs ls (p_map q)) by (exists p, AtProject, q; auto).
  pose proof (reached_dense o _ _ _ _ R2) as D. clear R2. apply start_inv in H1 as (D0 & _).
  destruct (run_sets _ [] _ _ _ _ _ H2 D0 ltac:(now left) eq_refl _ _ _ EC) as [F X]. cbn [app] in F, X. split; auto.
  assert (E : ext q r) by (assert (Y : steps ext (build o)) by st; exact (Y _ _ _ H3)). apply Forall_forall. intros f Hf. rewrite Forall_forall in F.
  eapply says_ext; eauto.
Qed.

(** ** Elevations *)

Lemma height_solid m m' e : solid m m' -> height_told m e -> height_told m' e.
Proof.
  intros S (q & s & H1 & H2). exists q, s. split; eapply says_solid; eauto; cbn; discriminate.
Qed.

Lemma step_height w x p w' a p' : step o w x p = Done ((w', a), p') -> dense (p_map p) ->
  Forall (height_told (p_map p')) (call_height (scope_ids w, x, a)).
Proof.
  intros H D. destruct x; try apply Forall_nil.
  destruct w as [|s|s b|s b st|s b st h|s b st h nm ps|s b st nm ps]; try discriminate H; cbn [step] in H;
    try (inv H; discriminate).
  inv H. apply bret_inv in H as [E ->]. injection E as -> ->. unfold new_storey in H0.
  do 6 (inv H0; match goal with H1 : _ = Done _ |- _ => lazymatch type of H1 with bbind _ _ _ = _ => fail | _ => ext_of H1; clear H1 end end).
  inv H0. unfold single_property in H. destruct (ins_ext _ _ _ _ _ H ltac:(assumption)) as (L & S & Ex & Dx). clear H.
  inv H0. destruct (property_set_inv _ _ _ _ _ H Dx) as (G & Ey & Dy). apply bret_inv in H0 as [-> ->].
  move_up. constructor; [|constructor]. eexists _, _. split; [done_says|exact G].
Qed.

Lemma built_height i xs ls r : program o i xs = Done (ls, r) ->
  Forall (height_told (p_map r)) (flat_map call_height (calls [] xs ls)).
Proof.
  intro HP. destruct (built_solid _ _ _ _ HP) as (m & (p0 & w & p & H1 & H2 & ->) & S). clear HP.
  apply start_inv in H1 as (D & _). assert (R : rooted (p_map p0) AtProject) by now left.
  enough (F : Forall (height_told (p_map p)) (flat_map call_height (calls (scope_ids AtProject) xs ls))).
  { eapply Forall_impl; [|exact F]. intro. now apply height_solid. }
  clear S. revert p0 D R ls w p H2. generalize AtProject. clear r.
  induction xs as [|x xs IH]; intros w0 p0 D R ls w p H; cbn [run] in H.
  - apply bret_inv in H as [E ->]. injection E as -> ->. constructor.
  - inv H. destruct a as [w1 a]. inv H. destruct a0 as [w2 l]. apply bret_inv in H as [E ->]. injection E as -> ->.
    destruct (step_place o _ _ _ _ _ _ H0 D R) as (R1 & _ & E1).
    assert (GS : grow anything p0 q) by (assert (X : steps (grow anything) (step o w0 x)) by st; exact (X _ _ _ H0)).
    pose proof (proj1 (GS D)) as D1. pose proof (run_grow o _ _ _ _ _ H1) as G2. cbn [calls flat_map]. rewrite <- E1.
    apply Forall_app. split; [|eauto]. eapply Forall_impl; [|exact (step_height _ _ _ _ _ _ H0 D)].
    intro. apply height_solid. eapply grow_solid; eauto.
Qed.

(** ** The project *)

Lemma project_solid m m' i : solid m m' -> project_told m i -> project_told m' i.
Proof.
  intros S (pr & oh & po & app & per & org & dev & ua & u1 & u2 & u3 & H1 & H2 & H3 & H4 & H5 & H6 & H7 & H8 & H9 & H10 & H11).
  exists pr, oh, po, app, per, org, dev, ua, u1, u2, u3.
  assert (U : forall u a b, unit_told m u a b -> unit_told m' u a b).
  { intros u a b (x & y & K1 & K2). exists x, y. split; auto. eapply says_solid; eauto; cbn; discriminate. }
  split; [eapply says_solid; eauto; cbn; discriminate|]. split; [eapply says_solid; eauto; cbn; discriminate|].
  split; [eapply says_solid; eauto; cbn; discriminate|]. split; [find_solid S|].
  split; [eapply says_solid; eauto; cbn; discriminate|]. split; [eapply says_solid; eauto; cbn; discriminate|].
  split; [find_solid S|]. split; [eapply says_solid; eauto; cbn; discriminate|]. auto.
Qed.

Lemma new_project_told i p0 oh pr q : new_project o i p0 = Done ((oh, pr), q) -> dense (p_map p0) ->
  project_told (p_map q) i.
Proof.
  intros H D. unfold new_project, si_unit in H.
  inv H. destruct (ins_ext _ _ _ _ _ H0 D) as (L1 & _ & E1 & D1). clear H0.
  inv H. destruct (ins_ext _ _ _ _ _ H0 D1) as (L2 & _ & E2 & D2). clear H0.
  inv H. destruct (ins_ext _ _ _ _ _ H0 D2) as (L3 & _ & E3 & D3). clear H0.
  inv H. destruct (ins_ext _ _ _ _ _ H0 D3) as (L4 & _ & E4 & D4). clear H0.
  inv H. destruct (ins_ext _ _ _ _ _ H0 D4) as (L5 & _ & E5 & D5). clear H0.
  inv H. ext_of H0. clear H0. inv H. ext_of H0. clear H0.
  inv H. destruct (ins_ext _ _ _ _ _ H0 ltac:(assumption)) as (L8 & _ & E8 & D8). clear H0.
  inv H. destruct (ins_ext _ _ _ _ _ H0 D8) as (L9 & _ & E9 & D9). clear H0.
  inv H. destruct (ins_ext _ _ _ _ _ H0 D9) as (L10 & _ & E10 & D10). clear H0.
  inv H. destruct (ins_ext _ _ _ _ _ H0 D10) as (L11 & _ & E11 & D11). clear H0.
  inv H. ext_of H0. clear H0. inv H. ext_of H0. clear H0. inv H. ext_of H0. clear H0. inv H. ext_of H0. clear H0.
  inv H. destruct (ins_ext _ _ _ _ _ H0 ltac:(assumption)) as (L16 & _ & E16 & D16). clear H0.
  inv H. destruct (ins_ext _ _ _ _ _ H0 D16) as (L17 & _ & E17 & D17). clear H0.
  inv H. ext_of H0. clear H0. apply bret_inv in H as [X ->]. injection X as -> ->.
  move_up. do 11 eexists.
  split; [eexists; split; [exact L17|facts]|]. split; [eexists; split; [exact L8|facts]|].
  split; [eexists; split; [exact L5|facts]|]. split; [exact L3|]. split; [eexists; split; [exact L4|facts]|].
  split; [eexists; split; [exact L2|facts]|]. split; [exact L1|]. split; [eexists; split; [exact L16|facts]|].
  split; [eexists _, _; split; [eexists; split; [exact L9|facts]|split; vm_compute; reflexivity]|].
  split; eexists _, _; (split; [eexists; split; [eassumption|facts]|split; vm_compute; reflexivity]).
Qed.

Lemma start_project i p : start o i = Done p -> project_told (p_map p) i.
Proof.
  intro H. apply start_done in H as (oh & pr & q & E & ->). cbn [p_map].
  exact (new_project_told _ _ _ _ _ E dense_nil).
Qed.

Lemma built_project i xs ls r : program o i xs = Done (ls, r) -> project_told (p_map r) i.
Proof.
  intro HP. destruct (built_solid _ _ _ _ HP) as (m & (p0 & w & p & H1 & H2 & ->) & S). clear HP.
  pose proof (start_project _ _ H1) as G. apply start_inv in H1 as (D & _). pose proof (run_grow o _ _ _ _ _ H2) as G2.
  eapply project_solid; [exact S|]. eapply project_solid; [|exact G]. eapply grow_solid; eauto.
Qed.

(** ** Who has properties *)

Lemma described_only m cs ds l : described m cs ds l -> forall s b, In (s, b) l ->
  exists c, In c ds /\
    ((exists t a, c = (t, ORelate s b, a)) \/ exists z st bu si a, c = ([z; b; st; bu; si], ODrop, a)).
Proof.
  induction 1 as [|cs t set obj a ds l H IH|cs z h st b0 s0 a t n ds l H1 H2 H IH|cs c ds l H0 H IH]; intros s b Hi.
  - destruct Hi.
  - destruct Hi as [E|Hi].
    + injection E as <- <-. eexists. split; [left; reflexivity|]. left. eauto.
    + destruct (IH _ _ Hi) as (c & Hc & X). exists c. split; [now right|auto].
  - destruct Hi as [E|Hi].
    + injection E as <- <-. eexists. split; [left; reflexivity|]. right. do 5 eexists. reflexivity.
    + destruct (IH _ _ Hi) as (c & Hc & X). exists c. split; [now right|auto].
  - destruct (IH _ _ Hi) as (c' & Hc & X). exists c'. split; [now right|auto].
Qed.
End Runs.
