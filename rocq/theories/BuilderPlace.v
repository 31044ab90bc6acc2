(** Placements in the model a program builds. *)

From Coq Require Import String Ascii List NArith ZArith Bool Lia.
From Verif Require Import Base Prims Kind Types Schema Entity EntityFacts DataMap DataSpec DataMapFacts Extractor
  Float Arith Builder BuilderBase BuilderRun BuilderGrow BuilderAny BuilderSpec BuilderInv BuilderAll
  HistorySpec BuilderHist.
Import ListNotations.
Open Scope N_scope.
Open Scope builder_scope.

(** ** Lookups along growth *)

Lemma chg_find m m1 n e : Forall2 chg m m1 -> lookup m n = Some e ->
  exists e', lookup m1 n = Some e' /\ same_but_representations e e'.
Proof.
  induction 1 as [|[a x] [b y] m m1 H _ IH]; cbn [lookup]; [discriminate|].
  destruct H as [H H']. cbn [fst snd] in *. subst b.
  destruct (a =? n); auto. intro E. injection E as <-. eexists. split; [reflexivity|].
  destruct H' as [H'|(l & l' & -> & -> & HL & Hk)]; [now left|]. right. exists l, l'. repeat (split; auto).
  intros i Hi. destruct (nth_error l i) eqn:E; [symmetry; auto|].
  symmetry. apply nth_error_None in E. apply nth_error_None. now rewrite <- HL.
Qed.

Lemma grow_find p p' n e : grow anything p p' -> dense (p_map p) -> lookup (p_map p) n = Some e ->
  exists e', lookup (p_map p') n = Some e' /\ same_but_representations e e'.
Proof.
  intros G D L. destruct (G D) as (_ & _ & _ & m1 & new & -> & F & _).
  destruct (chg_find _ _ _ _ F L) as (e' & L' & S). exists e'. rewrite lookup_app, L'. auto.
Qed.

Lemma grow_find_eq p p' n e : grow anything p p' -> dense (p_map p) -> lookup (p_map p) n = Some e ->
  kind_of e <> KProductDefinitionShape -> lookup (p_map p') n = Some e.
Proof.
  intros G D L K. destruct (grow_find _ _ _ _ G D L) as (e' & L' & [<-|(l & l' & -> & _)]); auto.
  now destruct K.
Qed.

Lemma ext_grow p p' : ext p p' -> p_owner p' = p_owner p -> p_project p' = p_project p -> grow anything p p'.
Proof.
  intros E H1 H2 D. destruct (E D) as (D' & new & Eq). repeat (split; auto).
  exists (p_map p), new. split; auto. split; [apply Forall2_refl, chg_refl|].
  apply Forall_forall. reflexivity.
Qed.

(** Placements stay. *)
Lemma grow_placement p p' n q : grow anything p p' -> dense (p_map p) -> placement (p_map p) n = Some q ->
  placement (p_map p') n = Some q.
Proof.
  unfold placement. intros G D H. destruct (lookup (p_map p) n) as [e|] eqn:E; try discriminate.
  destruct (grow_find _ _ _ _ G D E) as (e' & -> & [<-|(l & l' & -> & -> & _ & S)]); auto.
  now rewrite <- S.
Qed.

Lemma grow_relative p p' n x : grow anything p p' -> dense (p_map p) -> relative (p_map p) n = Some x ->
  relative (p_map p') n = Some x.
Proof.
  unfold relative. intros G D H. destruct (lookup (p_map p) n) as [[k l|s]|] eqn:E; try discriminate.
  destruct k; try discriminate. rewrite (grow_find_eq _ _ _ _ G D E); auto. discriminate.
Qed.

Lemma grow_under p p' a b : grow anything p p' -> dense (p_map p) -> under (p_map p) a b -> under (p_map p') a b.
Proof.
  intros G D (pl & q & H1 & H2 & H3 & H4). exists pl, q.
  split; [eapply grow_placement; eauto|]. split; [eapply grow_placement; eauto|].
  split; [eapply grow_relative; eauto|auto].
Qed.

Lemma grow_path p p' l : grow anything p p' -> dense (p_map p) -> path (p_map p) l -> path (p_map p') l.
Proof.
  intros G D. induction l as [|n [|q t] IH]; cbn [path]; auto.
  - intros (pl & H1 & H2). exists pl. split; [eapply grow_placement; eauto|eapply grow_relative; eauto].
  - intros [H1 H2]. split; [eapply grow_under; eauto|exact (IH H2)].
Qed.

Lemma grow_at_point p p' n v : grow anything p p' -> dense (p_map p) -> at_point (p_map p) n v ->
  at_point (p_map p') n v.
Proof.
  intros G D (pl & l & ax & pt & H1 & H2 & H3 & H4 & H5). exists pl, l, ax, pt.
  split; [eapply grow_placement; eauto|].
  split; [eapply grow_find_eq; eauto; discriminate|]. split; auto.
  split; eapply grow_find_eq; eauto; discriminate.
Qed.

(** ** New products *)

Lemma path_placement m n t : path m (n :: t) -> exists q, placement m n = Some q /\ relative m q <> None.
Proof.
  destruct t as [|a t]; cbn [path].
  - intros (q & H & R). exists q. rewrite R. split; [auto|discriminate].
  - intros [(pl & q & H & _ & R & _) _]. exists pl. rewrite R. split; [auto|discriminate].
Qed.

Lemma relative_le m q : dense m -> relative m q <> None -> q <= size m.
Proof.
  intros D H. unfold relative in H. destruct (lookup m q) eqn:E; [|now destruct H].
  assert (1 <= q <= size m) by (apply dense_lookup; eauto). lia.
Qed.

Lemma placed_at m b k n par v sh : placed m b k n par v sh -> at_point m n v.
Proof.
  intros (pt & (l & pl & ax & H1 & H2 & H3 & H4 & H5 & H6) & L). exists pl. do 3 eexists.
  split; [unfold placement; rewrite H1, H2; reflexivity|]. split; [exact H3|]. split; [reflexivity|]. eauto.
Qed.

Lemma placed_root m b k n v sh : placed m b k n None v sh -> path m [n].
Proof.
  intros (pt & (l & pl & ax & H1 & H2 & H3 & _) & L). cbn [path]. exists pl.
  unfold placement, relative. now rewrite H1, H2, H3.
Qed.

(** The parent is alive and its placement is older than [b]. *)
Lemma placed_path m b k n pk par l q v sh t :
  placed m b k n (Some q) v sh -> lookup m par = Some (Ent pk l) -> nth_error l 5 = Some (VId q) ->
  q <= b -> path m (par :: t) -> path m (n :: par :: t).
Proof.
  intros (pt & (lc & pl & ax & H1 & H2 & H3 & H4 & H5 & _) & _) L E5 Hq HP. split; [|exact HP].
  exists pl, q. unfold placement, relative. rewrite H1, H2, H3, L, E5. repeat (split; auto). lia.
Qed.

(** With the path of the parent in the state before the call. *)
Lemma created p p' k n pk par l q v sh t b :
  grow anything p p' -> dense (p_map p) -> b = size (p_map p) ->
  placed (p_map p') b k n (Some q) v sh -> lookup (p_map p') par = Some (Ent pk l) ->
  nth_error l 5 = Some (VId q) -> path (p_map p) (par :: t) ->
  path (p_map p') (n :: par :: t) /\ at_point (p_map p') n v.
Proof.
  intros G D -> HM L E5 HP. split; [|eapply placed_at; eauto].
  eapply placed_path; eauto; [|eapply grow_path; eauto].
  destruct (path_placement _ _ _ HP) as (q0 & P0 & R0). pose proof (relative_le _ _ D R0).
  apply (grow_placement _ _ _ _ G D) in P0. unfold placement in P0. rewrite L, E5 in P0. congruence.
Qed.

(** ** Scopes *)

(** The builders that are alive and have an id. *)
Definition live (w : scope) : list N :=
  match w with
  | AtProject => []
  | AtSite s => [fst s]
  | AtBuilding s b => [fst b; fst s]
  | AtStorey s b st | AtSet s b st _ _ => [s_id st; fst b; fst s]
  | AtHost s b st h | AtWallProps s b st h _ _ => [h_id h; s_id st; fst b; fst s]
  end.
Definition rooted (m : dmap) (w : scope) : Prop := live w = [] \/ path m (live w).

(** What a call has to establish for the products it creates. *)
Definition goodcall (m : dmap) (c : call) : Prop :=
  Forall (path m) (call_path c) /\ Forall (fun x => at_point m (fst x) (snd x)) (call_place c).

Lemma goodcall_nil m c : call_path c = [] -> call_place c = [] -> goodcall m c.
Proof. unfold goodcall. intros -> ->. split; constructor. Qed.

Section Step.
Variable o : oracle.

Ltac grow_of H :=
  match type of H with
  | ?c ?q = Done (?a, ?q') =>
      let G := fresh "G" in
      assert (G : grow anything q q') by (let X := fresh in assert (X : steps (grow anything) c) by st; exact (X _ _ _ H))
  end.

Lemma goodcall_one m s x n v :
  call_path (s, x, [n]) = [n :: s] -> call_place (s, x, [n]) = [(n, v)] ->
  path m (n :: s) /\ at_point m n v -> goodcall m (s, x, [n]).
Proof.
  intros E1 E2 [H1 H2]. unfold goodcall. rewrite E1, E2. split; constructor; auto.
Qed.

Lemma shaped_created c p p' k n pk par v t :
  shaped c p p' k n pk par v -> grow anything p p' -> dense (p_map p) -> path (p_map p) (par :: t) ->
  path (p_map p') (n :: par :: t) /\ at_point (p_map p') n v.
Proof.
  intros (l & q & b & p1 & H1 & H2 & H3 & _) G D HP. eapply created; eauto.
Qed.

Lemma storey_step_place s b st x p st' a p' :
  storey_step o st x p = Done ((st', a), p') -> dense (p_map p) -> path (p_map p) [s_id st; b; s] ->
  s_id st' = s_id st /\ goodcall (p_map p') ([s_id st; b; s], x, a).
Proof.
  intros H D HP. grow_of H. destruct x; cbn [storey_step] in H; try discriminate.
  all: try (inv H; apply bret_inv in H as [E ->]; injection E as -> ->; split; [reflexivity|];
            apply goodcall_nil; reflexivity).
  all: try (inv H; destruct a0 as [n0 st1]; apply bret_inv in H as [E ->]; injection E as -> ->).
  - destruct c; try discriminate; inv H; destruct a0 as [n0 st1]; apply bret_inv in H as [E ->]; injection E as -> ->;
      (split; [|apply goodcall_nil; reflexivity]);
      unfold new_type in H0; repeat inv H0; apply bret_inv in H0 as [E _]; injection E as _ ->;
      try reflexivity; unfold type_entry; now destruct (hget _ _ _).
  - split; [|apply goodcall_nil; reflexivity].
    unfold new_window_type in H0; repeat inv H0; apply bret_inv in H0 as [E _]; injection E as _ ->; reflexivity.
  - split; [|apply goodcall_nil; reflexivity].
    unfold new_space_type in H0; repeat inv H0; apply bret_inv in H0 as [E _]; injection E as _ ->; reflexivity.
  - split.
    { unfold new_roof, place_element in H0. repeat inv H0. apply bret_inv in H0 as [E _]; injection E as _ ->; reflexivity. }
    apply (goodcall_one _ _ _ _ place); auto. eapply shaped_created; eauto. eapply new_roof_made; eauto.
  - split.
    { unfold new_shading, place_element in H0. repeat inv H0. apply bret_inv in H0 as [E _]; injection E as _ ->; reflexivity. }
    apply (goodcall_one _ _ _ _ place); auto. eapply shaped_created; eauto. eapply new_shading_made; eauto.
  - split.
    { unfold new_space in H0. repeat inv H0. apply bret_inv in H0 as [E _]; injection E as _ ->; reflexivity. }
    apply (goodcall_one _ _ _ _ place); auto. eapply shaped_created; eauto. eapply new_space_shaped; eauto.
  - destruct (existsb _ _); [|discriminate]. inv H. apply bret_inv in H as [E ->]. injection E as -> ->.
    split; [reflexivity|]. apply goodcall_nil; reflexivity.
Qed.


Lemma window_created p p1 p2 p' n w t m ty name d st1 st' :
  path (p_map p1) (n :: t) -> grow anything p p1 -> grow anything p1 p2 -> dense (p_map p1) ->
  place_window o m ty n name d st1 p2 = Done ((w, st'), p') ->
  path (p_map p') (w :: n :: t) /\ at_point (p_map p') w v_zero.
Proof.
  change v_zero with (vadd v_zero v_zero).
  intros HP G0 G1 D H. grow_of H. pose proof (proj1 (G1 D)) as D2.
  destruct (place_window_made _ _ _ _ _ _ _ _ _ _ _ H D2) as (l & q & L & E5 & M).
  eapply created; eauto. eapply grow_path; eauto.
Qed.

Lemma goodcall_two m s x n w v :
  call_path (s, x, [n; w]) = [n :: s; w :: n :: s] ->
  call_place (s, x, [n; w]) = [(n, v); (w, v_zero)] ->
  path m (n :: s) /\ at_point m n v -> path m (w :: n :: s) /\ at_point m w v_zero ->
  goodcall m (s, x, [n; w]).
Proof.
  intros E1 E2 [H1 H2] [H3 H4]. unfold goodcall. rewrite E1, E2.
  split; (constructor; [assumption|constructor; [assumption|constructor]]).
Qed.

Lemma host_step_place s b st h x p st' h' a p' :
  host_step o st h x p = Done ((st', h', a), p') -> dense (p_map p) ->
  path (p_map p) [h_id h; s_id st; b; s] ->
  s_id st' = s_id st /\ h_id h' = h_id h /\ goodcall (p_map p') ([h_id h; s_id st; b; s], x, a).
Proof.
  intros H D HP. grow_of H. unfold host_step in H. destruct x; try discriminate.
  - destruct (h_slab h) eqn:Eh; try discriminate. inv H. destruct a0 as [n0 st1].
    apply bret_inv in H as [E ->]; injection E as -> -> ->. split; [|split; [reflexivity|]].
    { unfold wall_opening, place_opening in H0. repeat inv H0. apply bret_inv in H0 as [E _].
      injection E as _ ->. unfold add_void. now destruct (h_slab h). }
    apply (goodcall_one _ _ _ _ place); auto.
    destruct (wall_opening_made _ _ _ _ _ _ _ _ _ _ _ _ H0 D) as (l & q1 & d & p0 & p1 & L & E5 & M & _).
    eapply created; eauto.
  - destruct (h_slab h) eqn:Eh; try discriminate. inv H. destruct a0 as [n0 st1].
    apply bret_inv in H as [E ->]; injection E as -> -> ->. split; [|split; [reflexivity|]].
    { unfold slab_opening, place_opening in H0. repeat inv H0. apply bret_inv in H0 as [E _].
      injection E as _ ->. unfold add_void. now destruct (h_slab h). }
    apply (goodcall_one _ _ _ _ (opening_place s0)); auto; [now destruct s0|].
    destruct (slab_opening_made _ _ _ _ _ _ _ _ _ H0 D) as (l & q1 & d & p1 & L & E5 & M & _).
    eapply created; eauto.
  - destruct (h_slab h) eqn:Eh; try discriminate. inv H. destruct a0 as [[n0 w0] st1].
    apply bret_inv in H as [E ->]; injection E as -> -> ->.
    destruct (wall_window_made _ _ _ _ _ _ _ _ _ _ _ _ _ _ _ H0 D) as (p1 & p2 & p3 & d & st2 & O1 & O2 & O3 & ->).
    destruct (wall_opening_made _ _ _ _ _ _ _ _ _ _ _ _ O1 D) as (l & q1 & d1 & p0 & p4 & L & E5 & M & _).
    split; [|split; [reflexivity|]].
    { unfold wall_opening, place_opening in O1. repeat inv O1. apply bret_inv in O1 as [E _].
      injection E as _ ->. unfold place_window in O3. repeat inv O3. apply bret_inv in O3 as [E _].
      injection E as _ ->. unfold add_void. now destruct (h_slab h). }
    grow_of O1. pose proof (proj1 (G0 D)) as D1.
    assert (HO : path (p_map p1) [n0; h_id h; s_id st; b; s] /\ at_point (p_map p1) n0 place) by (eapply created; eauto).
    grow_of O2. grow_of O3. assert (G3 : grow anything p1 p3) by (eapply grow_trans; eauto).
    apply (goodcall_two _ _ _ _ _ place); auto.
    + split; [eapply grow_path; eauto; tauto|eapply grow_at_point; eauto; tauto].
    + eapply window_created; [| | | |exact O3]; [apply HO|exact G0|exact G1|exact D1].
  - destruct (h_slab h) eqn:Eh; try discriminate. inv H. destruct a0 as [[n0 w0] st1].
    apply bret_inv in H as [E ->]; injection E as -> -> ->.
    destruct (slab_window_made _ _ _ _ _ _ _ _ _ _ _ _ H0 D) as (p1 & p2 & p3 & d & st2 & O1 & O2 & O3 & ->).
    destruct (slab_opening_made _ _ _ _ _ _ _ _ _ O1 D) as (l & q1 & d1 & p0 & L & E5 & M & _).
    split; [|split; [reflexivity|]].
    { unfold slab_opening, place_opening in O1. repeat inv O1. apply bret_inv in O1 as [E _].
      injection E as _ ->. unfold place_window in O3. repeat inv O3. apply bret_inv in O3 as [E _].
      injection E as _ ->. unfold add_void. now destruct (h_slab h). }
    grow_of O1. pose proof (proj1 (G0 D)) as D1.
    assert (HO : path (p_map p1) [n0; h_id h; s_id st; b; s] /\ at_point (p_map p1) n0 (opening_place s0)) by (eapply created; eauto).
    grow_of O2. grow_of O3. assert (G3 : grow anything p1 p3) by (eapply grow_trans; eauto).
    apply (goodcall_two _ _ _ _ _ (opening_place s0)); auto; [now destruct s0| |].
    + split; [eapply grow_path; eauto; tauto|eapply grow_at_point; eauto; tauto].
    + eapply window_created; [| | | |exact O3]; [apply HO|exact G0|exact G1|exact D1].
  - destruct (h_slab h); apply bret_inv in H as [E ->]; injection E as -> -> ->;
      (split; [reflexivity|]; split; [reflexivity|]; apply goodcall_nil; reflexivity).
Qed.

Lemma step_place w x p w' a p' :
  step o w x p = Done ((w', a), p') -> dense (p_map p) -> rooted (p_map p) w ->
  rooted (p_map p') w' /\ goodcall (p_map p') (scope_ids w, x, a) /\ scope_ids w' = alive_after (scope_ids w) x a.
Proof.
  intros H D HR. grow_of H.
  destruct w as [|s|s b|s b st|s b st h|s b st h nm ps|s b st nm ps]; destruct x; try discriminate H;
    cbn [step] in H;
    try (destruct HR as [HR|HR]; [discriminate HR|]); cbn [live] in HR;
    try (inv H; destruct a0 as [st1 l1]; apply bret_inv in H as [E ->]; injection E as -> ->;
         match goal with H0 : storey_step _ _ _ _ = _ |- _ => destruct (storey_step_place _ _ _ _ _ _ _ _ H0 D HR) as [E1 E2] end;
         split; [right; cbn [live]; rewrite E1; eapply grow_path; eauto|]; split; [exact E2|];
         cbn [scope_ids]; rewrite E1; reflexivity);
    try (inv H; destruct a0 as [[st1 h1] l1]; apply bret_inv in H as [E ->]; injection E as -> ->;
         match goal with H0 : host_step _ _ _ _ _ = _ |- _ => destruct (host_step_place _ _ _ _ _ _ _ _ _ _ H0 D HR) as (E1 & E2 & E3) end;
         split; [right; cbn [live]; rewrite E1, E2; eapply grow_path; eauto|]; split; [exact E3|];
         cbn [scope_ids]; rewrite E1, E2; reflexivity);
    try (inv H; discriminate).
  - inv H. apply bret_inv in H as [E ->]. injection E as -> ->.
    pose proof (new_site_made _ _ _ _ _ _ H0 D) as M. pose proof (placed_root _ _ _ _ _ _ M) as M1.
    split; [right; exact M1|]. split; [|reflexivity].
    apply (goodcall_one _ _ _ _ position); auto. split; [exact M1|eapply placed_at; eauto].
  - inv H. apply bret_inv in H as [E ->]. injection E as -> ->.
    destruct (new_building_made _ _ _ _ _ _ _ H0 D) as (l & q1 & L & E5 & M).
    destruct (created _ _ _ _ _ _ _ _ _ _ _ _ G D eq_refl M L E5 HR) as [M1 M2].
    split; [right; exact M1|]. split; [|reflexivity]. apply (goodcall_one _ _ _ _ position); auto.
  - inv H. apply bret_inv in H as [E ->]. injection E as -> ->.
    split; [now left|]. split; [apply goodcall_nil; reflexivity|reflexivity].
  - inv H. apply bret_inv in H as [E ->]. injection E as -> ->.
    destruct (new_storey_made _ _ _ _ _ _ _ H0 D) as (l & q1 & L & E5 & M).
    destruct (created _ _ _ _ _ _ _ _ _ _ _ _ G D eq_refl M L E5 HR) as [M1 M2].
    split; [right; exact M1|]. split; [|reflexivity].
    apply (goodcall_one _ _ _ _ (vscale v_z elevation)); auto.
  - inv H. apply bret_inv in H as [E ->]. injection E as -> ->.
    split; [right; cbn [live]; apply (grow_path _ _ _ G D), HR|].
    split; [apply goodcall_nil; reflexivity|reflexivity].
  - inv H. apply bret_inv in H as [E ->]. injection E as -> ->.
    split; [right; cbn [live]; apply (grow_path _ _ _ G D), HR|].
    split; [apply goodcall_nil; reflexivity|reflexivity].
  - inv H. destruct a0 as [n st1]. apply bret_inv in H as [E ->]. injection E as -> ->.
    assert (Es : s_id st1 = s_id st).
    { clear - H0. unfold new_wall, place_element in H0. repeat inv H0. apply bret_inv in H0 as [E _]; injection E as _ ->; reflexivity. }
    pose proof (shaped_created _ _ _ _ _ _ _ _ _ (new_wall_made _ _ _ _ _ _ _ _ _ _ _ H0 D) G D HR) as M.
    split; [right; cbn [live h_id]; rewrite Es; apply M|].
    split; [apply (goodcall_one _ _ _ _ place); auto|cbn [scope_ids h_id]; now rewrite Es].
  - inv H. destruct a0 as [n st1]. apply bret_inv in H as [E ->]. injection E as -> ->.
    assert (Es : s_id st1 = s_id st).
    { clear - H0. unfold new_slab, place_element in H0. repeat inv H0. apply bret_inv in H0 as [E _]; injection E as _ ->; reflexivity. }
    pose proof (shaped_created _ _ _ _ _ _ _ _ _ (new_slab_made _ _ _ _ _ _ _ _ _ _ _ H0 D) G D HR) as M.
    split; [right; cbn [live h_id]; rewrite Es; apply M|].
    split; [apply (goodcall_one _ _ _ _ place); auto|cbn [scope_ids h_id]; now rewrite Es].
  - apply bret_inv in H as [E ->]. injection E as -> ->.
    split; [right; exact HR|]. split; [apply goodcall_nil; reflexivity|reflexivity].
  - inv H. apply bret_inv in H as [E ->]. injection E as -> ->.
    split; [right; cbn [live]; apply (grow_path _ _ _ G D), HR|].
    split; [apply goodcall_nil; reflexivity|reflexivity].
  - destruct (h_slab h); [discriminate|]. apply bret_inv in H as [E ->]. injection E as -> ->.
    split; [right; exact HR|]. split; [apply goodcall_nil; reflexivity|reflexivity].
  - inv H. inv H. apply bret_inv in H as [E ->]. injection E as -> ->.
    split; [right; cbn [live]; apply (grow_path _ _ _ G D), HR|].
    split; [apply goodcall_nil; reflexivity|reflexivity].
  - inv H. apply bret_inv in H as [E ->]. injection E as -> ->.
    split; [right; cbn [live]; apply (grow_path _ _ _ G D), HR|].
    split; [apply goodcall_nil; reflexivity|reflexivity].
  - apply bret_inv in H as [E ->]. injection E as -> ->.
    split; [right; exact HR|]. split; [apply goodcall_nil; reflexivity|reflexivity].
  - inv H. apply bret_inv in H as [E ->]. injection E as -> ->.
    split; [right; cbn [live]; apply (grow_path _ _ _ G D), HR|].
    split; [apply goodcall_nil; reflexivity|reflexivity].
  - inv H. apply bret_inv in H as [E ->]. injection E as -> ->.
    split; [right; cbn [live]; apply (grow_path _ _ _ G D), HR|].
    split; [apply goodcall_nil; reflexivity|reflexivity].
Qed.

Lemma goodcall_grow p p' c : grow anything p p' -> dense (p_map p) -> goodcall (p_map p) c -> goodcall (p_map p') c.
Proof.
  intros G D [H1 H2]. split.
  - eapply Forall_impl; [|exact H1]. intros l. apply (grow_path _ _ _ G D).
  - eapply Forall_impl; [|exact H2]. intros [n v]. apply (grow_at_point _ _ _ _ G D).
Qed.

Lemma run_place xs : forall w p w' ls p',
  run o w xs p = Done ((w', ls), p') -> dense (p_map p) -> rooted (p_map p) w ->
  Forall (goodcall (p_map p')) (calls (scope_ids w) xs ls).
Proof.
  induction xs as [|x xs IH]; intros w p w' ls p' H D HR; cbn [run] in H.
  - apply bret_inv in H as [E ->]. injection E as -> ->. constructor.
  - inv H. destruct a as [w1 a]. inv H. destruct a0 as [w2 l]. apply bret_inv in H as [E ->].
    injection E as -> ->. destruct (step_place _ _ _ _ _ _ H0 D HR) as (R1 & G1 & E1).
    grow_of H0. pose proof (proj1 (G D)) as D1. grow_of H1. cbn [calls]. constructor.
    + eapply goodcall_grow; eauto.
    + rewrite <- E1. eapply IH; eauto.
Qed.

End Step.

(** ** All local placements *)

(** Every local placement is absolute or relative to an older one. *)
Definition sound_placements (m : dmap) : Prop :=
  forall n l, lookup m n = Some (Ent KLocalPlacement l) ->
    relative m n = Some None \/ exists q, relative m n = Some (Some q) /\ q < n /\ relative m q <> None.

Definition no_placement (k : kind) : bool := negb (kind_eqb k KLocalPlacement).

Lemma Forall2_lookup_back m m1 n e : Forall2 chg m m1 -> lookup m1 n = Some e ->
  kind_of e <> KProductDefinitionShape -> lookup m n = Some e.
Proof.
  induction 1 as [|[a x] [b y] m m1 H _ IH]; cbn [lookup]; [discriminate|].
  destruct H as [H H']. cbn [fst snd] in *. subst b.
  destruct (a =? n); auto. intros E K. injection E as ->.
  destruct H' as [->|(l & l' & -> & -> & _)]; auto. now destruct K.
Qed.

Lemma sound_grow p p' : grow no_placement p p' -> dense (p_map p) -> sound_placements (p_map p) ->
  sound_placements (p_map p').
Proof.
  intros G D S n l L. assert (GA : grow anything p p') by (eapply grow_weaken; [|exact G]; reflexivity).
  assert (L0 : lookup (p_map p) n = Some (Ent KLocalPlacement l)).
  { destruct (G D) as (D' & _ & _ & m1 & new & Eq & F & A). rewrite Eq, lookup_app in L.
    destruct (lookup m1 n) as [e|] eqn:E.
    - injection L as ->. eapply Forall2_lookup_back; eauto. discriminate.
    - exfalso. apply lookup_In in L. rewrite Forall_forall in A. apply A in L. discriminate L. }
  destruct (S _ _ L0) as [H|(q & H1 & H2 & H3)].
  - left. eapply grow_relative; eauto.
  - right. exists q. split; [eapply grow_relative; eauto|]. split; auto.
    destruct (relative (p_map p) q) as [x|] eqn:E; [|now destruct H3].
    rewrite (grow_relative _ _ _ _ GA D E). discriminate.
Qed.

Lemma sound_ins p n p' par ax :
  ins KLocalPlacement [match par with Some q => VId q | None => VOmit end; VId ax] p = Done (n, p') ->
  dense (p_map p) -> (forall q, par = Some q -> relative (p_map p) q <> None) ->
  sound_placements (p_map p) -> sound_placements (p_map p').
Proof.
  intros H D Hq S k l L. destruct (ins_ext _ _ _ _ _ H D) as (Ln & Hn & E & D').
  assert (G : grow anything p p') by (exact (grow_ins anything _ _ eq_refl _ _ _ H)).
  assert (HK : forall x r, relative (p_map p) x = Some r -> relative (p_map p') x = Some r)
    by (intros; eapply grow_relative; eauto).
  assert (HK' : forall x, relative (p_map p) x <> None -> relative (p_map p') x <> None).
  { intros x Hx. destruct (relative (p_map p) x) eqn:R; [|now destruct Hx]. rewrite (HK _ _ R). discriminate. }
  destruct (N.eq_dec k n) as [->|Hne].
  - destruct par as [q|].
    + right. exists q. split; [unfold relative; now rewrite Ln|].
      specialize (Hq q eq_refl). split; auto. pose proof (relative_le _ _ D Hq). lia.
    + left. unfold relative. now rewrite Ln.
  - assert (L0 : lookup (p_map p) k = Some (Ent KLocalPlacement l)).
    { assert (1 <= k <= size (p_map p')) by (apply dense_lookup; eauto).
      eapply ext_fetch; eauto. destruct (ins_inv _ _ _ _ _ H D) as (_ & _ & -> & _).
      cbn [p_map set_map] in *. unfold size in *. rewrite app_length in *. cbn [length] in *. lia. }
    destruct (S _ _ L0) as [R|(q & H1 & H2 & H3)]; [left; auto|]. right. exists q. auto.
Qed.

Section Sound.
Variable o : oracle.

Ltac unfold_head :=
  match goal with
  | |- steps _ ?c => let rec hd t := lazymatch t with ?f _ => hd f | _ => t end in let h := hd c in unfold h
  end.
Ltac gone :=
  match goal with
  | |- steps _ (bbind _ _) => apply steps_bind; [pre| |intro]
  | |- steps _ (bret _) => apply steps_ret; pre
  | |- steps _ bpanic => apply steps_panic
  | |- steps _ err => intros ? ? ? ?; discriminate
  | |- steps _ bget => apply steps_get; pre
  | |- steps _ (need _) => apply steps_need; pre
  | |- steps _ (fetch _ _) => apply steps_fetch; pre
  | |- steps _ (fetch_any _) => apply steps_fetch_any; pre
  | |- steps _ tick => eapply cl_tick
  | |- steps _ (ins _ _) => eapply cl_ins; reflexivity
  | |- steps _ (modify _ _ _) => eapply cl_modify
  | |- steps _ (bmap _ _) => apply steps_bmap; [pre|intros]
  | |- steps _ (bmap_index _ _ _) => apply steps_bmap_index; [pre|intros]
  | |- steps _ (bfind _ _) => apply steps_bfind; [pre|intros]
  | |- steps _ (match ?x with _ => _ end) => destruct x
  | |- steps _ (associate _ _ _ _ _) =>
      unfold associate; apply steps_bind; [pre|apply steps_get; pre|intro];
      apply steps_bind; [pre| |intro; apply st_put_assoc]
  | |- steps _ _ => unfold_head
  end.
Ltac stn := repeat gone.

Definition np {A} (c : B A) : Prop := steps (grow no_placement) c.

Lemma np_wall_body m s c : np (wall_body o m s c).
Proof. unfold np. stn. Qed.
Lemma np_slab_body m s c : np (slab_body o m s c).
Proof. unfold np. stn. Qed.
Lemma np_roof_body m s c : np (roof_body o m s c).
Proof. unfold np. stn. Qed.
Lemma np_shading_body m a b c : np (shading_body o m a b c).
Proof. unfold np. stn. Qed.
Lemma np_horizontal_shape a b c : np (horizontal_shape a b c).
Proof. unfold np. stn. Qed.
Lemma np_rectangular_shape a b c d e : np (rectangular_shape a b c d e).
Proof. unfold np. stn. Qed.
Lemma np_host_thickness a b : np (host_thickness o a b).
Proof. unfold np. stn. Qed.
Lemma np_slab_filling h s c : np (slab_filling o h s c).
Proof. unfold np. stn. Qed.
Lemma np_axis3d a : np (axis3d a).
Proof. unfold np. stn. Qed.
Lemma np_new_relative a b c : np (new_relative a b c).
Proof. unfold np. stn. Qed.
Lemma np_owned a : np (owned o a).
Proof. unfold np. stn. Qed.
Lemma np_associate a b c d : np (associate o a b c d).
Proof. unfold np. stn. Qed.
Lemma np_sub_context : np sub_context.
Proof. unfold np. stn. Qed.
Lemma np_drop_host a b : np (drop_host o a b).
Proof. unfold np. stn. Qed.
Lemma np_new_project i : np (new_project o i).
Proof. unfold np. stn. Qed.
Lemma np_drop_storey b : np (drop_storey o b).
Proof. unfold np. stn. Qed.
Lemma np_build : np (build o).
Proof. unfold np. stn. Qed.

Lemma np_ins k l : no_placement k = true -> np (ins k l).
Proof. intro H. exact (cl_ins k l H). Qed.
Lemma np_elem c l : np (ins (kind_of_cls c) l).
Proof. apply np_ins. now destruct c. Qed.

Definition sd {A} (c : B A) : Prop :=
  forall p a p', c p = Done (a, p') -> dense (p_map p) -> sound_placements (p_map p) ->
  sound_placements (p_map p') /\ dense (p_map p').

Lemma np_sd {A} (c : B A) : np c -> sd c.
Proof.
  intros H p a p' E D S. specialize (H _ _ _ E). split; [eapply sound_grow; eauto|exact (proj1 (H D))].
Qed.

(** Every quiet call is of this kind. *)
Ltac go H S D :=
  match type of H with
  | ?c ?q = Done (?a, ?q') =>
      let X := fresh "X" in
      assert (X : np c) by first [apply np_elem|unfold np; stn];
      let G := fresh "G" in
      assert (G : grow anything q q') by (eapply grow_weaken; [|exact (X _ _ _ H)]; reflexivity);
      let S' := fresh "S" in let D' := fresh "D" in
      destruct (np_sd c X _ _ _ H D S) as [S' D']; clear X
  end.

Lemma relative_kept p p' q : grow anything p p' -> dense (p_map p) -> relative (p_map p) q <> None ->
  relative (p_map p') q <> None.
Proof.
  intros G D H. destruct (relative (p_map p) q) eqn:R; [|now destruct H].
  rewrite (grow_relative _ _ _ _ G D R). discriminate.
Qed.

Lemma parent_relative p k par t l q :
  path (p_map p) (par :: t) -> lookup (p_map p) par = Some (Ent k l) -> nth_error l 5 = Some (VId q) ->
  relative (p_map p) q <> None.
Proof.
  intros HP L E5. destruct (path_placement _ _ _ HP) as (q0 & P0 & R0). unfold placement in P0.
  rewrite L, E5 in P0. congruence.
Qed.

Lemma place_element_sound c m ty name pos shape st p n st' p' t :
  place_element o c m ty name pos shape st p = Done ((n, st'), p') -> dense (p_map p) ->
  path (p_map p) (s_id st :: t) -> sound_placements (p_map p) -> sound_placements (p_map p').
Proof.
  intros H D HP S. unfold place_element in H. inv H.
  destruct (new_relative_inv _ _ _ _ _ _ H0 D) as (l & q1 & ax & L1 & E5 & -> & L2).
  pose proof (parent_relative _ _ _ _ _ _ HP L1 E5) as R. go H0 S D. inv H. go H1 S0 D0.
  inv H. pose proof (grow_ins anything _ _ eq_refl _ _ _ H2) as G2.
  pose proof (proj1 (G2 D1)) as D2. apply (sound_ins _ _ _ (Some q1)) in H2; auto.
  2: { intros x E. injection E as <-. eapply relative_kept; eauto. eapply relative_kept; eauto. }
  inv H. go H3 H2 D2. inv H. go H4 S2 D3. inv H. go H5 S3 D4. apply bret_inv in H as [_ ->]. auto.
Qed.

Lemma place_opening_sound h name pos shape st p n st' p' t :
  place_opening o h name pos shape st p = Done ((n, st'), p') -> dense (p_map p) ->
  path (p_map p) (h_id h :: t) -> sound_placements (p_map p) -> sound_placements (p_map p').
Proof.
  intros H D HP S. unfold place_opening in H. inv H.
  destruct (new_relative_inv _ _ _ _ _ _ H0 D) as (l & q1 & ax & L1 & E5 & -> & L2).
  pose proof (parent_relative _ _ _ _ _ _ HP L1 E5) as R. go H0 S D. inv H. go H1 S0 D0. inv H. go H2 S1 D1.
  inv H. pose proof (grow_ins anything _ _ eq_refl _ _ _ H3) as G3.
  pose proof (proj1 (G3 D2)) as D3. apply (sound_ins _ _ _ (Some q1)) in H3; auto.
  2: { intros x E. injection E as <-. eapply relative_kept; eauto. eapply relative_kept; eauto. eapply relative_kept; eauto. }
  inv H. go H4 H3 D3. apply bret_inv in H as [_ ->]. auto.
Qed.

Lemma place_window_sound m ty op name shape st p n st' p' t :
  place_window o m ty op name shape st p = Done ((n, st'), p') -> dense (p_map p) ->
  path (p_map p) (op :: t) -> sound_placements (p_map p) -> sound_placements (p_map p').
Proof.
  intros H D HP S. unfold place_window in H. inv H. go H0 S D. inv H.
  apply (grow_path _ _ _ G D) in HP.
  destruct (new_relative_inv _ _ _ _ _ _ H1 D0) as (l & q1 & ax & L1 & E5 & -> & L2).
  pose proof (parent_relative _ _ _ _ _ _ HP L1 E5) as R. go H1 S0 D0. inv H. go H2 S1 D1. inv H. go H3 S2 D2.
  inv H. pose proof (grow_ins anything _ _ eq_refl _ _ _ H4) as G4.
  pose proof (proj1 (G4 D3)) as D4. apply (sound_ins _ _ _ (Some q1)) in H4; auto.
  2: { intros x E. injection E as <-. eapply relative_kept; eauto. eapply relative_kept; eauto. eapply relative_kept; eauto. }
  inv H. go H5 H4 D4. inv H. go H6 S4 D5. apply bret_inv in H as [_ ->]. auto.
Qed.

Ltac element_sound H D HP S :=
  unfold new_wall, new_slab, new_roof, new_shading in H;
  repeat match type of H with
  | bbind ?c _ ?q = _ =>
      match goal with DD : dense (p_map q), SS : sound_placements (p_map q), PP : path (p_map q) _ |- _ =>
        inv H;
        match goal with H1 : c q = Done (_, ?q') |- _ => go H1 SS DD; match goal with G : grow anything q q' |- _ =>
          pose proof (grow_path _ _ _ G DD PP) end; clear H1
        end
      end
  end;
  eapply place_element_sound; eauto.

Lemma new_wall_sound m ty name x v st p n st' p' t :
  new_wall o m ty name x v st p = Done ((n, st'), p') -> dense (p_map p) ->
  path (p_map p) (s_id st :: t) -> sound_placements (p_map p) -> sound_placements (p_map p').
Proof. intros H D HP S. element_sound H D HP S. Qed.
Lemma new_slab_sound m ty name x v st p n st' p' t :
  new_slab o m ty name x v st p = Done ((n, st'), p') -> dense (p_map p) ->
  path (p_map p) (s_id st :: t) -> sound_placements (p_map p) -> sound_placements (p_map p').
Proof. intros H D HP S. element_sound H D HP S. Qed.
Lemma new_roof_sound m ty name x v st p n st' p' t :
  new_roof o m ty name x v st p = Done ((n, st'), p') -> dense (p_map p) ->
  path (p_map p) (s_id st :: t) -> sound_placements (p_map p) -> sound_placements (p_map p').
Proof. intros H D HP S. element_sound H D HP S. Qed.
Lemma new_shading_sound m ty name x y v st p n st' p' t :
  new_shading o m ty name x y v st p = Done ((n, st'), p') -> dense (p_map p) ->
  path (p_map p) (s_id st :: t) -> sound_placements (p_map p) -> sound_placements (p_map p').
Proof. intros H D HP S. element_sound H D HP S. Qed.

Lemma new_space_sound ty name x y v st p n st' p' t :
  new_space o ty name x y v st p = Done ((n, st'), p') -> dense (p_map p) ->
  path (p_map p) (s_id st :: t) -> sound_placements (p_map p) -> sound_placements (p_map p').
Proof.
  intros H D HP S. unfold new_space in H. inv H. go H0 S D. apply (grow_path _ _ _ G D) in HP. inv H.
  go H1 S0 D0. apply (grow_path _ _ _ G0 D0) in HP. inv H.
  destruct (new_relative_inv _ _ _ _ _ _ H2 D1) as (l & q2 & ax & L1 & E5 & -> & L2).
  pose proof (parent_relative _ _ _ _ _ _ HP L1 E5) as R. go H2 S1 D1. inv H. go H3 S2 D2.
  inv H. pose proof (grow_ins anything _ _ eq_refl _ _ _ H4) as G4.
  pose proof (proj1 (G4 D3)) as D4. apply (sound_ins _ _ _ (Some q2)) in H4; auto.
  2: { intros z E. injection E as <-. eapply relative_kept; eauto. eapply relative_kept; eauto. }
  inv H. go H5 H4 D4. inv H. go H6 S4 D5. apply bret_inv in H as [_ ->]. auto.
Qed.

Lemma new_building_sound site name v p n p' t :
  new_building o site name v p = Done (n, p') -> dense (p_map p) ->
  path (p_map p) (site :: t) -> sound_placements (p_map p) -> sound_placements (p_map p').
Proof.
  intros H D HP S. unfold new_building in H. inv H. go H0 S D. apply (grow_path _ _ _ G D) in HP. inv H.
  destruct (new_relative_inv _ _ _ _ _ _ H1 D0) as (l & q2 & ax & L1 & E5 & -> & L2).
  pose proof (parent_relative _ _ _ _ _ _ HP L1 E5) as R. go H1 S0 D0. inv H. go H2 S1 D1.
  inv H. pose proof (grow_ins anything _ _ eq_refl _ _ _ H3) as G4.
  pose proof (proj1 (G4 D2)) as D4. apply (sound_ins _ _ _ (Some q2)) in H3; auto.
  2: { intros z E. injection E as <-. eapply relative_kept; eauto. eapply relative_kept; eauto. }
  inv H. go H4 H3 D4. inv H. go H5 S3 D3. apply bret_inv in H as [_ ->]. auto.
Qed.

Lemma new_storey_sound site name v p n p' t :
  new_storey o site name v p = Done (n, p') -> dense (p_map p) ->
  path (p_map p) (site :: t) -> sound_placements (p_map p) -> sound_placements (p_map p').
Proof.
  intros H D HP S. unfold new_storey in H. inv H. go H0 S D. apply (grow_path _ _ _ G D) in HP. inv H.
  destruct (new_relative_inv _ _ _ _ _ _ H1 D0) as (l & q2 & ax & L1 & E5 & -> & L2).
  pose proof (parent_relative _ _ _ _ _ _ HP L1 E5) as R. go H1 S0 D0. inv H. go H2 S1 D1.
  inv H. pose proof (grow_ins anything _ _ eq_refl _ _ _ H3) as G4.
  pose proof (proj1 (G4 D2)) as D4. apply (sound_ins _ _ _ (Some q2)) in H3; auto.
  2: { intros z E. injection E as <-. eapply relative_kept; eauto. eapply relative_kept; eauto. }
  inv H. go H4 H3 D4. inv H. go H5 S3 D3. inv H. go H6 S4 D5. inv H. go H7 S5 D6. apply bret_inv in H as [_ ->]. auto.
Qed.

Lemma new_site_sound name v p n p' :
  new_site o name v p = Done (n, p') -> dense (p_map p) ->
  sound_placements (p_map p) -> sound_placements (p_map p').
Proof.
  intros H D S. unfold new_site in H. inv H. go H0 S D. inv H.
  unfold placement_new in H1. inv H1. apply bret_inv in H1 as [-> ->]. go H2 S0 D0. inv H. go H1 S1 D1.
  inv H. pose proof (grow_ins anything _ _ eq_refl _ _ _ H3) as G4.
  pose proof (proj1 (G4 D2)) as D4. apply (sound_ins _ _ _ None) in H3; auto; [|discriminate].
  inv H. go H4 H3 D4. inv H. injection H5 as <- <-. inv H. injection H5 as <- <-. inv H.
  apply bret_inv in H as [_ ->]. set (q5 := set_sites _ q3) in H5.
  assert (S5 : sound_placements (p_map q5)) by exact S3. assert (D5 : dense (p_map q5)) by exact D3.
  clearbody q5. go H5 S5 D5. auto.
Qed.

Lemma wall_opening_sound h name a b v dir st p n st' p' t :
  wall_opening o h name a b v dir st p = Done ((n, st'), p') -> dense (p_map p) ->
  path (p_map p) (h_id h :: t) -> sound_placements (p_map p) -> sound_placements (p_map p').
Proof.
  intros H D HP S. unfold wall_opening in H. inv H. go H0 S D. apply (grow_path _ _ _ G D) in HP.
  inv H. go H1 S0 D0. apply (grow_path _ _ _ G0 D0) in HP. inv H. go H2 S1 D1. apply (grow_path _ _ _ G1 D1) in HP.
  eapply place_opening_sound; eauto.
Qed.

Lemma slab_opening_sound h name x st p n st' p' t :
  slab_opening o h name x st p = Done ((n, st'), p') -> dense (p_map p) ->
  path (p_map p) (h_id h :: t) -> sound_placements (p_map p) -> sound_placements (p_map p').
Proof.
  intros H D HP S. unfold slab_opening in H. inv H. go H0 S D. apply (grow_path _ _ _ G D) in HP.
  inv H. go H1 S0 D0. apply (grow_path _ _ _ G0 D0) in HP. eapply place_opening_sound; eauto.
Qed.

Lemma storey_step_sound b s st x p st' a p' :
  storey_step o st x p = Done ((st', a), p') -> dense (p_map p) -> path (p_map p) [s_id st; b; s] ->
  sound_placements (p_map p) -> sound_placements (p_map p').
Proof.
  intros H D HP S. destruct x; cbn [storey_step] in H; try discriminate.
  all: try (inv H; apply bret_inv in H as [E ->]; injection E as -> ->; go H0 S D; assumption).
  all: try (inv H; destruct a0 as [n0 st1]; apply bret_inv in H as [E ->]; injection E as -> ->).
  - destruct c; try discriminate; inv H; destruct a0 as [n0 st1]; apply bret_inv in H as [E ->]; injection E as -> ->;
      go H0 S D; assumption.
  - go H0 S D; assumption.
  - go H0 S D; assumption.
  - eapply new_roof_sound; eauto.
  - eapply new_shading_sound; eauto.
  - eapply new_space_sound; eauto.
  - destruct (existsb _ _); [|discriminate]. inv H. apply bret_inv in H as [E ->]. injection E as -> ->.
    go H0 S D; assumption.
Qed.

Lemma host_step_sound s b st h x p st' h' a p' :
  host_step o st h x p = Done ((st', h', a), p') -> dense (p_map p) ->
  path (p_map p) [h_id h; s_id st; b; s] -> sound_placements (p_map p) -> sound_placements (p_map p').
Proof.
  intros H D HP S. pose proof (host_step_place _ s b _ _ _ _ _ _ _ _ H D HP) as (_ & _ & [GP _]).
  unfold host_step in H. destruct x; try discriminate.
  - destruct (h_slab h) eqn:Eh; try discriminate. inv H. destruct a0 as [n0 st1].
    apply bret_inv in H as [E ->]; injection E as -> -> ->. eapply wall_opening_sound; eauto.
  - destruct (h_slab h) eqn:Eh; try discriminate. inv H. destruct a0 as [n0 st1].
    apply bret_inv in H as [E ->]; injection E as -> -> ->. eapply slab_opening_sound; eauto.
  - destruct (h_slab h) eqn:Eh; try discriminate. inv H. destruct a0 as [[n0 w0] st1].
    apply bret_inv in H as [E ->]; injection E as -> -> ->.
    destruct (wall_window_made _ _ _ _ _ _ _ _ _ _ _ _ _ _ _ H0 D) as (p1 & p2 & p3 & d & st2 & O1 & O2 & O3 & ->).
    destruct (wall_opening_made _ _ _ _ _ _ _ _ _ _ _ _ O1 D) as (l & q1 & d1 & p0 & p4 & L & E5 & M & _).
    assert (G1 : grow anything p p1) by (assert (X : steps (grow anything) (wall_opening o h (window_opening_name name) width height place v_z st)) by st; exact (X _ _ _ O1)).
    pose proof (proj1 (G1 D)) as D1. pose proof (proj1 (created _ _ _ _ _ _ _ _ _ _ _ _ G1 D eq_refl M L E5 HP)) as P1.
    pose proof (wall_opening_sound _ _ _ _ _ _ _ _ _ _ _ _ O1 D HP S) as S1.
    go O2 S1 D1. apply (grow_path _ _ _ G D1) in P1. eapply place_window_sound; eauto.
  - destruct (h_slab h) eqn:Eh; try discriminate. inv H. destruct a0 as [[n0 w0] st1].
    apply bret_inv in H as [E ->]; injection E as -> -> ->.
    destruct (slab_window_made _ _ _ _ _ _ _ _ _ _ _ _ H0 D) as (p1 & p2 & p3 & d & st2 & O1 & O2 & O3 & ->).
    destruct (slab_opening_made _ _ _ _ _ _ _ _ _ O1 D) as (l & q1 & d1 & p0 & L & E5 & M & _).
    assert (G1 : grow anything p p1) by (assert (X : steps (grow anything) (slab_opening o h (window_opening_name name) s0 st)) by st; exact (X _ _ _ O1)).
    pose proof (proj1 (G1 D)) as D1. pose proof (proj1 (created _ _ _ _ _ _ _ _ _ _ _ _ G1 D eq_refl M L E5 HP)) as P1.
    pose proof (slab_opening_sound _ _ _ _ _ _ _ _ _ O1 D HP S) as S1.
    go O2 S1 D1. apply (grow_path _ _ _ G D1) in P1. eapply place_window_sound; eauto.
  - destruct (h_slab h); apply bret_inv in H as [E ->]; injection E as -> -> ->; exact S.
Qed.

Lemma step_sound w x p w' a p' :
  step o w x p = Done ((w', a), p') -> dense (p_map p) -> rooted (p_map p) w ->
  sound_placements (p_map p) -> sound_placements (p_map p').
Proof.
  intros H D HR S.
  destruct w as [|s|s b|s b st|s b st h|s b st h nm ps|s b st nm ps]; destruct x; try discriminate H;
    cbn [step] in H;
    try (destruct HR as [HR|HR]; [discriminate HR|]); cbn [live] in HR;
    try (inv H; destruct a0 as [st1 l1]; apply bret_inv in H as [E ->]; injection E as -> ->;
         match goal with H0 : storey_step _ _ _ _ = _ |- _ => exact (storey_step_sound _ _ _ _ _ _ _ _ H0 D HR S) end);
    try (inv H; destruct a0 as [[st1 h1] l1]; apply bret_inv in H as [E ->]; injection E as -> ->;
         match goal with H0 : host_step _ _ _ _ _ = _ |- _ => exact (host_step_sound _ _ _ _ _ _ _ _ _ _ H0 D HR S) end);
    try (inv H; discriminate);
    try (apply bret_inv in H as [E ->]; exact S).
  - inv H. apply bret_inv in H as [E ->]. eapply new_site_sound; eauto.
  - inv H. apply bret_inv in H as [E ->]. eapply new_building_sound; eauto.
  - inv H. apply bret_inv in H as [E ->]. go H0 S D. auto.
  - inv H. apply bret_inv in H as [E ->]. eapply new_storey_sound; eauto.
  - inv H. apply bret_inv in H as [E ->]. go H0 S D. auto.
  - inv H. apply bret_inv in H as [E ->]. go H0 S D. auto.
  - inv H. destruct a0 as [n st1]. apply bret_inv in H as [E ->]. eapply new_wall_sound; eauto.
  - inv H. destruct a0 as [n st1]. apply bret_inv in H as [E ->]. eapply new_slab_sound; eauto.
  - inv H. apply bret_inv in H as [E ->]. go H0 S D. auto.
  - destruct (h_slab h); [discriminate|]. apply bret_inv in H as [E ->]. auto.
  - inv H. inv H. apply bret_inv in H as [E ->]. go H0 S D. go H1 S0 D0. auto.
  - inv H. apply bret_inv in H as [E ->]. go H0 S D. auto.
  - inv H. apply bret_inv in H as [E ->]. go H0 S D. auto.
  - inv H. apply bret_inv in H as [E ->]. go H0 S D. auto.
Qed.

Lemma run_sound xs : forall w p w' ls p',
  run o w xs p = Done ((w', ls), p') -> dense (p_map p) -> rooted (p_map p) w ->
  sound_placements (p_map p) -> sound_placements (p_map p').
Proof.
  induction xs as [|x xs IH]; intros w p w' ls p' H D HR S; cbn [run] in H.
  - apply bret_inv in H as [E ->]. auto.
  - inv H. destruct a as [w1 a]. inv H. destruct a0 as [w2 l]. apply bret_inv in H as [E ->].
    injection E as -> ->. destruct (step_place _ _ _ _ _ _ _ H0 D HR) as (R1 & G1 & E1).
    assert (G : grow anything p q) by (assert (X : steps (grow anything) (step o w x)) by st; exact (X _ _ _ H0)).
    pose proof (proj1 (G D)) as D1. eapply IH; eauto. eapply step_sound; eauto.
Qed.

(** ** Programs *)

Theorem program_places i xs ls r :
  program o i xs = Done (ls, r) ->
  Forall (goodcall (p_map r)) (calls [] xs ls) /\ sound_placements (p_map r).
Proof.
  intro H. apply program_inv in H as (p & w & q & H1 & H2 & -> & H3).
  assert (S0 : sound_placements (p_map p)).
  { apply start_done in H1 as (oh & pr & p0 & E & ->). cbn [p_map].
    assert (Se : sound_placements (p_map empty_proj)) by (intros n l L; discriminate L).
    exact (proj1 (np_sd _ (np_new_project i) _ _ _ E dense_nil Se)). }
  apply start_inv in H1 as (D0 & _).
  assert (HR : rooted (p_map p) AtProject) by now left.
  pose proof (run_place o _ _ _ _ _ _ H2 D0 HR) as P.
  pose proof (run_sound _ _ _ _ _ _ H2 D0 HR S0) as S1.
  assert (G1 : grow anything p q) by (assert (X : steps (grow anything) (run o AtProject xs)) by st; exact (X _ _ _ H2)).
  pose proof (proj1 (G1 D0)) as D1.
  assert (G2 : grow anything q r) by (assert (X : steps (grow anything) (build o)) by st; exact (X _ _ _ H3)).
  split.
  - eapply Forall_impl; [|exact P]. intros c. apply (goodcall_grow _ _ _ G2 D1).
  - exact (proj1 (np_sd _ np_build _ _ _ H3 D1 S1)).
Qed.

(** Following placements ends. *)
Lemma sound_ends m n : sound_placements m -> relative m n <> None -> exists r, ends m n r /\ relative m r = Some None.
Proof.
  intros S. induction n as [n IH] using (well_founded_induction N.lt_wf_0). intro H.
  unfold relative in H. destruct (lookup m n) as [[k l|s]|] eqn:L; try (now destruct H).
  destruct k; try (now destruct H).
  destruct (S _ _ L) as [R|(q & R & Hq & Rq)].
  - exists n. split; auto. now constructor.
  - destruct (IH q Hq Rq) as (r & E & E'). exists r. split; auto. eapply ends_up; eauto.
Qed.

Lemma path_ends m l : path m l -> forall n pl, hd_error l = Some n -> placement m n = Some pl ->
  exists site r, In site l /\ last l 0 = site /\ placement m site = Some r /\ ends m pl r.
Proof.
  induction l as [|a [|b t] IH]; cbn [path]; [contradiction| |].
  - intros (q & H1 & H2) n pl E P. injection E as ->. exists n, q. rewrite P in H1. injection H1 as ->.
    split; [now left|]. split; [reflexivity|]. split; auto. now constructor.
  - intros [(pl0 & q & H1 & H2 & H3 & H4) HP] n pl E P. injection E as ->.
    destruct (IH HP b q eq_refl H2) as (site & r & I1 & I2 & I3 & I4).
    exists site, r. split; [now right|]. split; [exact I2|]. split; auto.
    rewrite P in H1. injection H1 as ->. eapply ends_up; eauto.
Qed.

(** The last builder that is alive is a site. *)
Lemma run_site xs : forall w p w' ls p' s x a,
  run o w xs p = Done ((w', ls), p') -> dense (p_map p) -> rooted (p_map p) w ->
  In (s, x, a) (calls (scope_ids w) xs ls) ->
  s = [] \/ (scope_ids w <> [] /\ last s 0 = last (scope_ids w) 0) \/
  exists name v, In ([], ONewSite name v, [last s 0]) (calls (scope_ids w) xs ls).
Proof.
  induction xs as [|y xs IH]; intros w p w' ls p' s x a H D HR Hin; cbn [run] in H.
  - apply bret_inv in H as [E ->]. injection E as -> ->. contradiction.
  - inv H. destruct a0 as [w1 b]. inv H. destruct a0 as [w2 l]. apply bret_inv in H as [E ->].
    injection E as -> ->. destruct (step_place _ _ _ _ _ _ _ H0 D HR) as (R1 & _ & E1).
    assert (G : grow anything p q) by (assert (X : steps (grow anything) (step o w y)) by st; exact (X _ _ _ H0)).
    pose proof (proj1 (G D)) as D1. cbn [calls] in *. destruct Hin as [Hin|Hin].
    + injection Hin as <- <- <-. destruct (scope_ids w) as [|n t] eqn:Ew; [now left|right; left].
      split; [discriminate|reflexivity].
    + rewrite <- E1 in *. destruct (IH _ _ _ _ _ _ _ _ H1 D1 R1 Hin) as [->|[[N1 L1]|(name & v & Hs)]].
      * now left.
      * rewrite E1 in N1, L1. destruct (scope_ids w) as [|n t] eqn:Ew.
        { right; right. destruct w; try discriminate Ew. destruct y; try discriminate H0.
          cbn [step] in H0. inv H0. apply bret_inv in H0 as [E ->]. injection E as -> ->.
          cbn in L1. exists name, position. left. now rewrite L1. }
        { right; left. split; [discriminate|]. rewrite L1. unfold alive_after in *. destruct (closes y).
          - cbn [tl] in *. destruct t; [now destruct N1|reflexivity].
          - destruct (opens y b); reflexivity. }
      * right; right. exists name, v. now right.
Qed.

Lemma program_site i xs ls r s x a :
  program o i xs = Done (ls, r) -> In (s, x, a) (calls [] xs ls) ->
  s = [] \/ exists name v, In ([], ONewSite name v, [last s 0]) (calls [] xs ls).
Proof.
  intro H. apply program_inv in H as (p & w & q & H1 & H2 & -> & H3).
  apply start_inv in H1 as (D0 & _). intro Hin.
  assert (HR : rooted (p_map p) AtProject) by now left.
  destruct (run_site _ _ _ _ _ _ _ _ _ H2 D0 HR Hin) as [E|[[N1 _]|E]]; auto. now destruct N1.
Qed.

Lemma path_at_site i xs ls r s x a l :
  program o i xs = Done (ls, r) -> In (s, x, a) (calls [] xs ls) -> In l (call_path (s, x, a)) ->
  exists name v, In ([], ONewSite name v, [last l 0]) (calls [] xs ls) /\
    forall n pl, hd_error l = Some n -> placement (p_map r) n = Some pl ->
      exists q, placement (p_map r) (last l 0) = Some q /\ ends (p_map r) pl q.
Proof.
  intros H Hc Hl. pose proof (proj1 (program_places _ _ _ _ H)) as P. rewrite Forall_forall in P.
  destruct (P _ Hc) as [P1 _]. rewrite Forall_forall in P1. specialize (P1 _ Hl).
  assert (HE : forall n pl, hd_error l = Some n -> placement (p_map r) n = Some pl ->
      exists q, placement (p_map r) (last l 0) = Some q /\ ends (p_map r) pl q).
  { intros n pl E Hp. destruct (path_ends _ _ P1 _ _ E Hp) as (site & q & _ & <- & H2 & H3). eauto. }
  assert (HL : s <> [] -> last l 0 = last s 0).
  { intro Hs. destruct s as [|z s]; [now destruct Hs|].
    destruct x; destruct a as [|a1 [|a2 [|]]]; cbn [call_path In] in Hl; try contradiction;
      repeat (destruct Hl as [<-|Hl]; [reflexivity|]); contradiction. }
  destruct s as [|z s]; [|destruct (program_site _ _ _ _ _ _ _ H Hc) as [E|(name & v & Hs)]; [discriminate E|]].
  - (* only a site is created outside of sites *)
    assert (HX : exists name v n, x = ONewSite name v /\ a = [n] /\ l = [n]).
    { clear - H Hc Hl. apply program_inv in H as (p & w & q & H1 & H2 & -> & H3).
      apply start_inv in H1 as (D0 & _). clear H3 r.
      assert (HR : rooted (p_map p) AtProject) by now left.
      assert (K : forall xs w p w' ls q, run o w xs p = Done ((w', ls), q) -> dense (p_map p) -> rooted (p_map p) w ->
        In ([], x, a) (calls (scope_ids w) xs ls) -> exists name v, x = ONewSite name v).
      { clear. induction xs as [|y xs IH]; intros w p w' ls q H D HR Hin; cbn [run] in H.
        - apply bret_inv in H as [E ->]. injection E as -> ->. contradiction.
        - inv H. destruct a0 as [w1 b]. inv H. destruct a0 as [w2 l]. apply bret_inv in H as [E ->].
          injection E as -> ->. destruct (step_place _ _ _ _ _ _ _ H0 D HR) as (R1 & _ & E1).
          assert (G : grow anything p q0) by (assert (X : steps (grow anything) (step o w y)) by st; exact (X _ _ _ H0)).
          cbn [calls] in Hin. destruct Hin as [Hin|Hin].
          + injection Hin as Ew -> ->. destruct w; try discriminate Ew. destruct x; try discriminate H0. eauto.
          + rewrite <- E1 in Hin. eapply IH; eauto. exact (proj1 (G D)). }
      destruct (K _ _ _ _ _ _ H2 D0 HR Hc) as (name & v & ->).
      destruct a as [|a1 [|]]; cbn [call_path In] in Hl; try contradiction.
      destruct Hl as [<-|[]]. exists name, v, a1. auto. }
    destruct HX as (name & v & n & -> & -> & ->). exists name, v. split; auto.
  - exists name, v. rewrite HL in * by discriminate. auto.
Qed.

Lemma placements_end i xs ls r n l :
  program o i xs = Done (ls, r) -> lookup (p_map r) n = Some (Ent KLocalPlacement l) ->
  exists q, ends (p_map r) n q /\ relative (p_map r) q = Some None.
Proof.
  intros H L. pose proof (proj2 (program_places _ _ _ _ H)) as S. apply sound_ends; auto.
  destruct (S _ _ L) as [->|(q & -> & _)]; discriminate.
Qed.
End Sound.
