(** Which products a call moves. *)

From Coq Require Import String Ascii List NArith ZArith Bool Lia Permutation.
From Coq Require Import ZifyBool ZifyNat ZifyN.
From Verif Require Import Base Prims Float Arith Kind Types Schema Entity EntityFacts DataMap DataSpec DataMapFacts
  Extractor Builder BuilderRun BuilderBase BuilderGrow BuilderAny BuilderSpec BuilderRel BuilderRel2 BuilderInv BuilderStep
  BuilderAll HistorySpec BuilderHist BuilderPlace BuilderKeep MoveSpec BuilderMove.
Import ListNotations.
Open Scope N_scope.
Open Scope builder_scope.

(** ** Shapes of new products *)

Definition figs (f : B (list val)) : Prop := forall p b p', f p = Done (b, p') -> exists rs, b = product_shape rs.

Lemma fig_bind {A} (c : B A) (f : A -> B (list val)) : (forall a, figs (f a)) -> figs (bbind c f).
Proof. intros H p b p' E. inv E. eapply H; eauto. Qed.
Lemma fig_ret rs : figs (bret (product_shape rs)).
Proof. intros p b p' E. apply bret_inv in E as [-> _]. eauto. Qed.
Lemma fig_add c x : figs c -> figs (b <-- c ;; add_representation x b).
Proof.
  intros H p b p' E. inv E. apply H in H0 as [rs ->]. unfold add_representation in E. inv E.
  apply bret_inv in E as [-> _]. exists (rs ++ [a]). unfold push_at, product_shape, ids. cbn [nth_error set_at].
  now rewrite map_app.
Qed.
Lemma fig_extrude f d h ctx : figs (extrude f d h ctx).
Proof. unfold extrude. do 3 (apply fig_bind; intro). apply fig_ret. Qed.
Lemma fig_rectangular a b t d ctx : figs (rectangular_shape a b t d ctx).
Proof. unfold rectangular_shape. do 3 (apply fig_bind; intro). apply fig_extrude. Qed.
Lemma fig_horizontal cs t ctx : figs (horizontal_shape cs t ctx).
Proof. unfold horizontal_shape. apply fig_bind; intro. apply fig_extrude. Qed.
Lemma fig_vertical cs t ctx : figs (vertical_shape cs t ctx).
Proof. unfold vertical_shape. apply fig_bind; intro. apply fig_extrude. Qed.
Lemma fig_arbitrary cs t d ctx : figs (arbitrary_shape cs t d ctx).
Proof. unfold arbitrary_shape. apply fig_bind; intro. apply fig_extrude. Qed.

Section Move.
Variable o : oracle.

Lemma fig_wall_body m s ctx : figs (wall_body o m s ctx).
Proof.
  unfold wall_body. apply fig_bind; intro. destruct s; apply fig_bind; intro; apply fig_add;
    first [apply fig_rectangular|apply fig_vertical|apply fig_arbitrary].
Qed.
Lemma fig_slab_body m s ctx : figs (slab_body o m s ctx).
Proof. unfold slab_body. apply fig_bind; intro. destruct s; first [apply fig_horizontal|apply fig_arbitrary]. Qed.
Lemma fig_roof_body m cs ctx : figs (roof_body o m cs ctx).
Proof. unfold roof_body. apply fig_bind; intro. apply fig_horizontal. Qed.
Lemma fig_shading_body m a b ctx : figs (shading_body o m a b ctx).
Proof. unfold shading_body. apply fig_bind; intro. apply fig_rectangular. Qed.
Lemma fig_wall_hole h a b d ctx : figs (wall_hole o h a b d ctx).
Proof. unfold wall_hole. apply fig_bind; intro. apply fig_rectangular. Qed.
Lemma fig_slab_filling h s ctx : figs (slab_filling o h s ctx).
Proof.
  unfold slab_filling. apply fig_bind; intro. destruct s; try apply fig_horizontal; apply fig_bind; intro;
    first [apply fig_rectangular|apply fig_arbitrary].
Qed.

(** A product with a shape newer than [b]. *)
Definition fig_at (b : N) (m : dmap) (q : kind * N) : Prop := figure m (snd q) /\ is_of m q /\ b < sh m (snd q).

Lemma placed_fig b b' m k n par v d rs :
  placed m b k n par v (Some d) -> d = product_shape rs -> k <> KProductDefinitionShape -> b' <= b -> fig_at b' m (k, n).
Proof.
  intros (pt & (l & pl & ax & L & _ & _ & _ & _ & s & H6 & HP & Hb) & _) -> K Hle.
  assert (HS : shape_of m n = Some s) by (unfold shape_of; now rewrite L, H6).
  split; [|split].
  - exists k, l, s, rs. auto.
  - now exists l.
  - cbn [snd]. unfold sh. rewrite HS. lia.
Qed.

Lemma shaped_fig c p p' k n pk par v : shaped c p p' k n pk par v -> figs c -> k <> KProductDefinitionShape ->
  fig_at (size (p_map p)) (p_map p') (k, n).
Proof.
  intros (l & q & b & p1 & _ & _ & M & E & _) F K. destruct (F _ _ _ E) as [rs ->]. eapply placed_fig; eauto. lia.
Qed.

Lemma fig_at_ext b p p' q : ext p p' -> dense (p_map p) -> fig_at b (p_map p) q -> fig_at b (p_map p') q /\ sh (p_map p') (snd q) = sh (p_map p) (snd q).
Proof.
  intros E D (F & [l L] & Hb). destruct (figure_effect _ _ _ _ (effect_ext _ _ E D) F) as [F' S'].
  split; auto. split; auto. split; [|lia]. exists l. eapply ext_lookup; eauto.
Qed.

Lemma fig_sh_le b m q : dense m -> fig_at b m q -> sh m (snd q) <= size m.
Proof. intros D (F & _). destruct (figure_sh _ _ F) as (rs & _ & L). apply (proj1 (dense_lookup _ _ D)). eauto. Qed.

(** What a call makes. *)
Definition news (b : N) (m : dmap) (l : list (kind * N)) : Prop :=
  Forall (fig_at b m) l /\ forall q q', In q l -> In q' l -> sh m (snd q) = sh m (snd q') -> snd q = snd q'.

Lemma news_nil b m : news b m [].
Proof. split; [constructor|intros ? ? []]. Qed.
Lemma news_one b m q : fig_at b m q -> news b m [q].
Proof. intro H. split; [repeat constructor; apply H|]. intros ? ? [<-|[]] [<-|[]]. auto. Qed.
Lemma news_two b m q q' : fig_at b m q -> fig_at b m q' -> sh m (snd q) < sh m (snd q') -> news b m [q; q'].
Proof.
  intros H H' L. split; [repeat constructor; first [apply H|apply H']|].
  intros ? ? [<-|[<-|[]]] [<-|[<-|[]]]; auto; lia.
Qed.

Lemma storey_step_news st x p st' a p' :
  storey_step o st x p = Done ((st', a), p') -> dense (p_map p) ->
  forall s, news (size (p_map p)) (p_map p') (call_products (s, x, a)).
Proof.
  intros H D s. destruct x; cbn [storey_step] in H; try discriminate;
    try (inv H; try destruct a0 as [n0 st1]; apply bret_inv in H as [E ->]; injection E as -> ->;
         cbn [call_products]; try apply news_nil; try apply news_one).
  - destruct c; try discriminate; inv H; destruct a0 as [n0 st1]; apply bret_inv in H as [E ->]; injection E as -> ->; apply news_nil.
  - eapply shaped_fig; [eapply new_roof_made; eauto|apply fig_roof_body|discriminate].
  - eapply shaped_fig; [eapply new_shading_made; eauto|apply fig_shading_body|discriminate].
  - eapply shaped_fig; [eapply new_space_shaped; eauto|apply fig_horizontal|discriminate].
  - destruct a; apply news_nil.
Qed.

Lemma wall_opening_fig h name a b v dir st p n st' p' :
  wall_opening o h name a b v dir st p = Done ((n, st'), p') -> dense (p_map p) ->
  fig_at (size (p_map p)) (p_map p') (KOpeningElement, n).
Proof.
  intros H D. destruct (wall_opening_made _ _ _ _ _ _ _ _ _ _ _ _ H D) as (l & q1 & d & p0 & p1 & L & E5 & M & B & _).
  destruct (fig_wall_hole _ _ _ _ _ _ _ _ B) as [rs ->]. eapply placed_fig; [exact M|reflexivity|discriminate|lia].
Qed.
Lemma slab_opening_fig h name s st p n st' p' :
  slab_opening o h name s st p = Done ((n, st'), p') -> dense (p_map p) ->
  fig_at (size (p_map p)) (p_map p') (KOpeningElement, n).
Proof.
  intros H D. destruct (slab_opening_made _ _ _ _ _ _ _ _ _ H D) as (l & q1 & d & p1 & L & E5 & M & B & _).
  destruct (fig_slab_filling _ _ _ _ _ _ B) as [rs ->]. eapply placed_fig; [exact M|reflexivity|discriminate|lia].
Qed.

Ltac ext_of' H :=
  match type of H with
  | ?c ?q = Done (?a, ?q') =>
      let E := fresh "X" in
      assert (E : ext q q') by (let X := fresh in assert (X : steps ext c) by (repeat (one || (apply steps_bind; [pre| |intro]))); exact (X _ _ _ H));
      match goal with D : dense (p_map q) |- _ => let D' := fresh "D" in pose proof (proj1 (E D)) as D' end
  end.

Lemma window_news p p1 p2 p' m ty n w name d st1 st' rs :
  ext p p1 -> dense (p_map p) -> dense (p_map p1) -> ext p1 p2 -> dense (p_map p2) ->
  fig_at (size (p_map p)) (p_map p1) (KOpeningElement, n) ->
  place_window o m ty n name d st1 p2 = Done ((w, st'), p') -> d = product_shape rs ->
  news (size (p_map p)) (p_map p') [(KOpeningElement, n); (KWindow, w)].
Proof.
  intros E0 D D1 E1 D2 F H HD.
  destruct (place_window_made _ _ _ _ _ _ _ _ _ _ _ H D2) as (l' & q' & _ & _ & M').
  pose proof (placed_fig _ (size (p_map p2)) _ _ _ _ _ _ _ M' HD ltac:(discriminate) ltac:(lia)) as F2.
  ext_of' H. pose proof (fig_sh_le _ _ _ D1 F) as Z. cbn [snd] in Z.
  destruct (fig_at_ext _ _ _ _ E1 D1 F) as [Fa Sa]. destruct (fig_at_ext _ _ _ _ X D2 Fa) as [Fb Sb].
  pose proof (ext_size _ _ E0 D). pose proof (ext_size _ _ E1 D1). destruct F2 as (G1 & G2 & G3).
  apply news_two; auto.
  - split; auto. split; auto. lia.
  - cbn [snd] in *. lia.
Qed.

Lemma host_step_news st h x p st' h' a p' :
  host_step o st h x p = Done ((st', h', a), p') -> dense (p_map p) ->
  forall s, news (size (p_map p)) (p_map p') (call_products (s, x, a)).
Proof.
  intros H D s. unfold host_step in H. destruct x; try discriminate.
  - destruct (h_slab h); try discriminate. inv H. destruct a0 as [n0 st1].
    apply bret_inv in H as [E ->]; injection E as -> -> ->. cbn [call_products]. apply news_one.
    eapply wall_opening_fig; eauto.
  - destruct (h_slab h); try discriminate. inv H. destruct a0 as [n0 st1].
    apply bret_inv in H as [E ->]; injection E as -> -> ->. cbn [call_products]. apply news_one.
    eapply slab_opening_fig; eauto.
  - destruct (h_slab h); try discriminate. inv H. destruct a0 as [[n0 w0] st1].
    apply bret_inv in H as [E ->]; injection E as -> -> ->.
    destruct (wall_window_made _ _ _ _ _ _ _ _ _ _ _ _ _ _ _ H0 D) as (p1 & p2 & p3 & d & st2 & O1 & O2 & O3 & ->).
    pose proof (wall_opening_fig _ _ _ _ _ _ _ _ _ _ _ O1 D) as F. ext_of' O1. ext_of' O2. cbn [call_products].
    assert (Hd : exists rs, d = product_shape rs).
    { revert O2. apply fig_bind. intro. apply fig_rectangular. }
    destruct Hd as [rs Hd]. eapply (window_news p p1 p2 p3); eauto.
  - destruct (h_slab h); try discriminate. inv H. destruct a0 as [[n0 w0] st1].
    apply bret_inv in H as [E ->]; injection E as -> -> ->.
    destruct (slab_window_made _ _ _ _ _ _ _ _ _ _ _ _ H0 D) as (p1 & p2 & p3 & d & st2 & O1 & O2 & O3 & ->).
    pose proof (slab_opening_fig _ _ _ _ _ _ _ _ O1 D) as F. ext_of' O1. ext_of' O2. cbn [call_products].
    destruct (fig_slab_filling _ _ _ _ _ _ O2) as [rs Hd]. eapply (window_news p p1 p2 p3); eauto.
  - destruct (h_slab h); apply bret_inv in H as [E ->]; injection E as -> -> ->; apply news_nil.
Qed.

Lemma step_news w x p w' a p' :
  step o w x p = Done ((w', a), p') -> dense (p_map p) ->
  news (size (p_map p)) (p_map p') (call_products (scope_ids w, x, a)).
Proof.
  intros H D.
  destruct w as [|s|s b|s b st|s b st h|s b st h nm ps|s b st nm ps]; destruct x; try discriminate H;
    cbn [step] in H;
    try (inv H; destruct a0 as [st1 l1]; apply bret_inv in H as [E ->]; injection E as -> ->;
         match goal with H0 : storey_step _ _ _ _ = _ |- _ => exact (storey_step_news _ _ _ _ _ _ H0 D _) end);
    try (inv H; destruct a0 as [[st1 h1] l1]; apply bret_inv in H as [E ->]; injection E as -> ->;
         match goal with H0 : host_step _ _ _ _ _ = _ |- _ => exact (host_step_news _ _ _ _ _ _ _ _ H0 D _) end);
    try (inv H; discriminate); try (destruct a; apply news_nil).
  - inv H. destruct a0 as [n st1]. apply bret_inv in H as [E ->]. injection E as -> ->. apply news_one.
    eapply shaped_fig; [eapply new_wall_made; eauto|apply fig_wall_body|discriminate].
  - inv H. destruct a0 as [n st1]. apply bret_inv in H as [E ->]. injection E as -> ->. apply news_one.
    eapply shaped_fig; [eapply new_slab_made; eauto|apply fig_slab_body|discriminate].
Qed.

(** ** Calls that change no object *)

Definition still (w : scope) (x : op) : Prop :=
  match w, x with
  | AtHost _ _ _ h, ODrop => h_tr h = None
  | _, OStoreyTransform _ _ _ => False
  | _, _ => True
  end.

Lemma step_still w x p w' a p' : step o w x p = Done ((w', a), p') -> still w x -> ext p p'.
Proof.
  intros H U.
  destruct w as [|s|s b|s b st|s b st h|s b st h nm ps|s b st nm ps]; destruct x; try discriminate H; try contradiction;
    cbn [step] in H;
    try (inv H; destruct a0 as [st1 l1]; apply bret_inv in H as [E ->]; injection E as -> ->;
         match goal with H0 : storey_step _ _ ?x _ = _ |- _ => exact (storey_step_ext o _ x eq_refl _ _ _ H0) end);
    try (inv H; discriminate);
    try (apply bret_inv in H as [E ->]; injection E as -> ->; apply pre_refl);
    try (match type of H with ?c _ = _ => assert (X : steps ext c) by (repeat (one || (apply steps_bind; [pre| |intro]))); exact (X _ _ _ H) end).
  all: try (inv H; destruct a0 as [[st1 h1] l1]; apply bret_inv in H as [E ->]; injection E as -> ->;
         match goal with H0 : ?c _ = _ |- _ => assert (X : steps ext c) by st; exact (X _ _ _ H0) end).
  - cbn [still] in U. unfold drop_host in H. rewrite U in H. inv H. apply bret_inv in H0 as [_ ->].
    apply bret_inv in H as [E ->]. apply pre_refl.
Qed.

(** ** The tables of the storey *)

Definition within (b : N) (l : list (N * N)) : Prop := Forall (fun x => fst x <= b /\ snd x <= b) l.

Lemma within_mono b b' l : b <= b' -> within b l -> within b' l.
Proof. intros Hb H. eapply Forall_impl; [|exact H]. cbn beta. lia. Qed.

Definition tables_ok (b : N) (st : storey) : Prop :=
  within b (s_voids_wall st) /\ within b (s_voids_slab st) /\ within b (s_fills st) /\
  NoDup (map fst (s_voids_wall st)) /\ NoDup (map fst (s_voids_slab st)) /\ NoDup (map fst (s_fills st)) /\
  NoDup (map snd (s_fills st)).

Lemma tables_mono b b' st : b <= b' -> tables_ok b st -> tables_ok b' st.
Proof. unfold tables_ok. intros Hb H. intuition eauto using within_mono. Qed.

Definition same_tables (st st' : storey) : Prop :=
  s_voids_wall st' = s_voids_wall st /\ s_voids_slab st' = s_voids_slab st /\ s_fills st' = s_fills st.

Lemma same_ok b st st' : same_tables st st' -> tables_ok b st -> tables_ok b st'.
Proof. unfold tables_ok. intros (-> & -> & ->). auto. Qed.

Lemma within_fst b l : within b l -> Forall (fun x => fst x <= b) l.
Proof. intro H. eapply Forall_impl; [|exact H]. cbn beta. tauto. Qed.
Lemma within_fresh b l n v : within b l -> b < n -> ~ In (n, v) l.
Proof. intros H Hn Hi. unfold within in H. rewrite Forall_forall in H. apply H in Hi. cbn [fst] in Hi. lia. Qed.
Lemma within_fresh2 b l n v : within b l -> b < n -> ~ In (v, n) l.
Proof. intros H Hn Hi. unfold within in H. rewrite Forall_forall in H. apply H in Hi. cbn [snd] in Hi. lia. Qed.

Lemma NoDup_snoc (l : list N) n : NoDup l -> ~ In n l -> NoDup (l ++ [n]).
Proof.
  intros H Hn. apply Permutation_NoDup with (n :: l); [apply Permutation_cons_append|]. constructor; auto.
Qed.

Lemma within_notin b (f : N * N -> N) l n :
  (forall x, f x = fst x \/ f x = snd x) -> within b l -> b < n -> ~ In n (map f l).
Proof.
  intros Hf H Hn Hi. apply in_map_iff in Hi as (x & <- & Hx). unfold within in H. rewrite Forall_forall in H.
  apply H in Hx. destruct (Hf x); lia.
Qed.

(** Adding an opening. *)
Lemma add_void_ok b b' s n h st :
  tables_ok b st -> b < n -> n <= b' -> h <= b' -> tables_ok b' (add_void s n h st) /\
  (if s then s_voids_slab (add_void s n h st) = s_voids_slab st ++ [(n, h)] /\ s_voids_wall (add_void s n h st) = s_voids_wall st
        else s_voids_wall (add_void s n h st) = s_voids_wall st ++ [(n, h)] /\ s_voids_slab (add_void s n h st) = s_voids_slab st) /\
  s_fills (add_void s n h st) = s_fills st.
Proof.
  intros T Hn Hb Hh. pose proof T as (W1 & W2 & W3 & N1 & N2 & N3 & N4).
  pose proof (tables_mono b b' st ltac:(lia) T) as (V1 & V2 & V3 & _).
  unfold tables_ok, add_void.
  destruct s; cbn [s_voids_wall s_voids_slab s_fills];
    rewrite (hset_fresh b) by (auto using within_fst);
    (split; [|split; [split; reflexivity|reflexivity]]); rewrite map_app; cbn [map fst];
    (split; [|split; [|split; [|split; [|split; [|split]]]]]); auto;
    try (apply Forall_app; split; auto; repeat constructor; cbn; lia);
    (apply NoDup_snoc; [assumption|]); (eapply (within_notin b fst); [intro; now left|eassumption|assumption]).
Qed.

(** Adding a window. *)
Lemma add_fill_ok b a n st :
  tables_ok b st -> (forall x, In x (s_fills st) -> fst x < a /\ snd x < a) -> a < n -> n <= b ->
  tables_ok b (add_fill a n st) /\ s_fills (add_fill a n st) = s_fills st ++ [(a, n)] /\
  s_voids_wall (add_fill a n st) = s_voids_wall st /\ s_voids_slab (add_fill a n st) = s_voids_slab st.
Proof.
  intros (W1 & W2 & W3 & N1 & N2 & N3 & N4) Hf Ha Hn.
  unfold tables_ok, add_fill. cbn [s_voids_wall s_voids_slab s_fills].
  assert (F : hset N.eqb (s_fills st) a n = s_fills st ++ [(a, n)]).
  { destruct (hset_split N.eqb N.eqb_eq (s_fills st) a n) as [(_ & _ & E)|(l1 & v0 & l2 & E & _)]; auto.
    assert (Hi : In (a, v0) (s_fills st)) by (rewrite E; apply in_or_app; right; now left).
    apply Hf in Hi. cbn [fst] in Hi. lia. }
  rewrite F. split; [|auto].
  rewrite !map_app; cbn [map fst snd].
  split; [|split; [|split; [|split; [|split; [|split]]]]]; auto.
  - apply Forall_app; split; auto; repeat constructor; cbn; lia.
  - apply NoDup_snoc; auto. intro Hi. apply in_map_iff in Hi as (x & E & Hx). apply Hf in Hx. lia.
  - apply NoDup_snoc; auto. intro Hi. apply in_map_iff in Hi as (x & E & Hx). apply Hf in Hx. lia.
Qed.

Definition plain (c : call) : Prop := call_voids c = [] /\ call_fills c = [].

Lemma storey_step_tables st x p st' a p' :
  storey_step o st x p = Done ((st', a), p') -> dense (p_map p) ->
  same_tables st st' /\ forall s, plain (s, x, a).
Proof.
  intros H D. destruct x; cbn [storey_step] in H; try discriminate;
    try (inv H; try destruct a0 as [n0 st1]; apply bret_inv in H as [E ->]; injection E as -> ->;
         split; [|intros [|]; split; reflexivity]; try (repeat split; reflexivity)).
  - destruct c; try discriminate; inv H; destruct a0 as [n0 st1]; apply bret_inv in H as [E ->]; injection E as -> ->;
      (split; [|intros [|]; split; reflexivity]);
      destruct (eff_new_type o _ _ _ _ _ _ _ _ _ H0 D) as (_ & _ & -> & _);
      unfold type_entry; try destruct (hget _ _ _); repeat split; reflexivity.
  - destruct (eff_new_window_type o _ _ _ _ _ _ _ _ H0 D) as (_ & _ & -> & _). repeat split; reflexivity.
  - destruct (eff_new_space_type o _ _ _ _ _ _ _ H0 D) as (_ & _ & -> & _). repeat split; reflexivity.
  - destruct (eff_new_roof o _ _ _ _ _ _ _ _ _ _ H0 D) as (_ & _ & -> & _). repeat split; reflexivity.
  - destruct (eff_new_shading o _ _ _ _ _ _ _ _ _ _ _ H0 D) as (_ & _ & -> & _). repeat split; reflexivity.
  - destruct (eff_new_space o _ _ _ _ _ _ _ _ _ _ H0 D) as (_ & _ & -> & _). repeat split; reflexivity.
  - destruct (existsb _ _); [|discriminate]. inv H. apply bret_inv in H as [E ->]. injection E as -> ->.
    split; [repeat split; reflexivity|intros [|]; split; reflexivity].
Qed.

(** ** The invariant *)

Definition voids (cs : list call) := flat_map call_voids cs.
Definition fills (cs : list call) := flat_map call_fills cs.
Definition prods (cs : list call) := flat_map call_products cs.

Definition host_tie (cs : list call) (b : N) (st : storey) (h : host) : Prop :=
  tables_ok b st /\ pending cs = h_tr h /\ In (host_kind h, h_id h) (prods cs) /\ h_id h <= b /\
  (forall a, In (a, h_id h) (table h st) <-> In (h_id h, a) (voids cs)) /\
  (forall a n, In (h_id h, a) (voids cs) -> In (a, n) (s_fills st) <-> In (a, n) (fills cs)).

Definition at_scope (cs : list call) (b : N) (w : scope) : Prop :=
  match w with
  | AtStorey _ _ st | AtSet _ _ st _ _ => tables_ok b st /\ pending cs = None
  | AtHost _ _ st h | AtWallProps _ _ st h _ _ =>
      host_tie cs b st h
  | _ => pending cs = None
  end.

Definition tied (cs : list call) (w : scope) (m : dmap) : Prop :=
  dense m /\ rooted m w /\ Forall (goodcall m) cs /\
  Forall (fun q => figure m (snd q) /\ is_of m q) (prods cs) /\
  (forall q q', In q (prods cs) -> In q' (prods cs) -> sh m (snd q) = sh m (snd q') -> snd q = snd q') /\
  within (size m) (voids cs) /\ within (size m) (fills cs) /\
  (forall h a, In (h, a) (voids cs) -> In (KOpeningElement, a) (prods cs)) /\
  (forall a n, In (a, n) (fills cs) -> In (KWindow, n) (prods cs)) /\
  at_scope cs (size m) w.

Lemma app_voids cs c : voids (cs ++ [c]) = voids cs ++ call_voids c.
Proof. unfold voids. rewrite flat_map_app. cbn [flat_map]. now rewrite app_nil_r. Qed.
Lemma app_fills cs c : fills (cs ++ [c]) = fills cs ++ call_fills c.
Proof. unfold fills. rewrite flat_map_app. cbn [flat_map]. now rewrite app_nil_r. Qed.
Lemma app_prods cs c : prods (cs ++ [c]) = prods cs ++ call_products c.
Proof. unfold prods. rewrite flat_map_app. cbn [flat_map]. now rewrite app_nil_r. Qed.
Lemma app_pending cs c : pending (cs ++ [c]) = pend (pending cs) c.
Proof. unfold pending. now rewrite fold_left_app. Qed.

Lemma pend_other t s x a :
  match x with OTransform _ | ODrop => False | _ => True end -> pend t (s, x, a) = t.
Proof. intro H. destruct s as [|? [|? [|? [|? [|? ?]]]]]; destruct x; try reflexivity; destruct H. Qed.

Lemma tie_plain cs c b b' st st' h h' :
  host_tie cs b st h -> plain c -> pend (pending cs) c = h_tr h' -> h_id h' = h_id h -> h_slab h' = h_slab h ->
  b <= b' -> same_tables st st' -> host_tie (cs ++ [c]) b' st' h'.
Proof.
  intros (T & P & K & L & V & F) (PV & PF) PE Hi Hs Hb S.
  unfold host_tie. rewrite app_pending, app_voids, app_fills, app_prods, PV, PF, !app_nil_r, Hi.
  pose proof S as (S1 & S2 & S3). unfold table, host_kind, host_cls in *. rewrite Hs, S1, S2, S3.
  split; [eapply tables_mono; [exact Hb|]; eapply same_ok; eauto|]. split; auto.
  split; [apply in_or_app; auto|]. split; [lia|]. auto.
Qed.

Lemma tie_void cs c b b' st h n :
  host_tie cs b st h -> within b (voids cs) -> within b (fills cs) ->
  call_voids c = [(h_id h, n)] -> call_fills c = [] -> pend (pending cs) c = pending cs ->
  b < n -> n <= b' -> host_tie (cs ++ [c]) b' (add_void (h_slab h) n (h_id h) st) h.
Proof.
  intros (T & P & K & L & V & F) WV WF PV PF PE Hn Hb.
  destruct (add_void_ok b b' (h_slab h) n (h_id h) st T Hn Hb ltac:(lia)) as (T' & E1 & E2).
  unfold host_tie. rewrite app_pending, app_voids, app_fills, app_prods, PV, PF, app_nil_r, PE, E2.
  split; auto. split; auto. split; [apply in_or_app; auto|]. split; [lia|].
  assert (ET : table h (add_void (h_slab h) n (h_id h) st) = table h st ++ [(n, h_id h)]).
  { unfold table. destruct (h_slab h); apply E1. }
  rewrite ET. split.
  - intro a. rewrite !in_app_iff, V. cbn [In]. split; (intros [H|[H|[]]]; [auto|right; left; congruence]).
  - intros a k Hi. apply in_app_iff in Hi as [Hi|[E|[]]]; [auto|]. injection E as ->.
    destruct T as (_ & _ & W3 & _). split; intro Hx; exfalso.
    + apply (within_fresh _ _ _ _ W3 Hn Hx).
    + apply (within_fresh _ _ _ _ WF Hn Hx).
Qed.

Lemma tie_window cs c b b' st h ty a n :
  host_tie cs b st h -> within b (voids cs) -> within b (fills cs) ->
  call_voids c = [(h_id h, a)] -> call_fills c = [(a, n)] -> pend (pending cs) c = pending cs ->
  b < a -> a < n -> n <= b' ->
  host_tie (cs ++ [c]) b'
    (type_push CWindow ty n (add_fill a n (add_elem CWindow n (add_void (h_slab h) a (h_id h) st)))) h.
Proof.
  intros (T & P & K & L & V & F) WV WF PV PF PE Ha Hn Hb.
  destruct (add_void_ok b b' (h_slab h) a (h_id h) st T Ha ltac:(lia) ltac:(lia)) as (T' & E1 & E2).
  set (st1 := add_elem CWindow n (add_void (h_slab h) a (h_id h) st)).
  assert (S1 : same_tables (add_void (h_slab h) a (h_id h) st) st1) by (repeat split; reflexivity).
  pose proof (same_ok _ _ _ S1 T') as T1. pose proof S1 as (Q1 & Q2 & Q3).
  assert (WS : within b (s_fills st)) by apply T.
  destruct (add_fill_ok b' a n st1 T1) as (T2 & E3 & E4 & E5); auto.
  { intros x Hx. rewrite Q3, E2 in Hx. unfold within in WS. rewrite Forall_forall in WS. apply WS in Hx. lia. }
  set (st2 := add_fill a n st1) in *. clearbody st2.
  assert (S2 : same_tables st2 (type_push CWindow ty n st2)) by (repeat split; reflexivity).
  pose proof (same_ok _ _ _ S2 T2) as T3. pose proof S2 as (R1 & R2 & R3).
  unfold host_tie. rewrite app_pending, app_voids, app_fills, app_prods, PV, PF, PE.
  split; auto. split; auto. split; [apply in_or_app; auto|]. split; [lia|].
  assert (ET : table h (type_push CWindow ty n st2) = table h st ++ [(a, h_id h)]).
  { unfold table. rewrite R1, R2, E4, E5, Q1, Q2. destruct (h_slab h); apply E1. }
  rewrite ET, R3, E3, Q3, E2. split.
  - intro a0. rewrite !in_app_iff, V. cbn [In]. split; (intros [H|[H|[]]]; [auto|right; left; congruence]).
  - intros a0 k Hi. rewrite !in_app_iff. apply in_app_iff in Hi as [Hi|[E|[]]]; [rewrite (F _ _ Hi); tauto|].
    injection E as <-. split; (intros [Hx|Hx]; [exfalso|right; exact Hx]).
    + apply (within_fresh _ _ _ _ WS Ha Hx).
    + apply (within_fresh _ _ _ _ WF Ha Hx).
Qed.

Lemma host_step_tie cs st h x p st' h' a p' s :
  host_step o st h x p = Done ((st', h', a), p') -> dense (p_map p) ->
  host_tie cs (size (p_map p)) st h -> within (size (p_map p)) (voids cs) -> within (size (p_map p)) (fills cs) ->
  host_tie (cs ++ [(h_id h :: s, x, a)]) (size (p_map p')) st' h' /\
  within (size (p_map p')) (call_voids (h_id h :: s, x, a)) /\ within (size (p_map p')) (call_fills (h_id h :: s, x, a)).
Proof.
  intros H D T WV WF. assert (L : h_id h <= size (p_map p)) by apply T. unfold host_step in H. destruct x; try discriminate.
  - destruct (h_slab h) eqn:Es; try discriminate. inv H. destruct a0 as [n0 st1].
    apply bret_inv in H as [E ->]; injection E as -> -> ->.
    destruct (eff_wall_opening o _ _ _ _ _ _ _ _ _ _ _ H0 D) as (G & Hn & -> & _). split; [|split].
    + eapply tie_void; eauto; try reflexivity; try (now apply pend_other); lia.
    + repeat constructor; cbn [fst snd]; lia.
    + constructor.
  - destruct (h_slab h) eqn:Es; try discriminate. inv H. destruct a0 as [n0 st1].
    apply bret_inv in H as [E ->]; injection E as -> -> ->.
    destruct (eff_slab_opening o _ _ _ _ _ _ _ _ H0 D) as (G & Hn & -> & _). split; [|split].
    + eapply tie_void; eauto; try reflexivity; try (now apply pend_other); lia.
    + repeat constructor; cbn [fst snd]; lia.
    + constructor.
  - destruct (h_slab h) eqn:Es; try discriminate. inv H. destruct a0 as [[n0 w0] st1].
    apply bret_inv in H as [E ->]; injection E as -> -> ->.
    destruct (eff2_wall_window o _ _ _ _ _ _ _ _ _ _ _ _ _ _ H0 D) as (G & Ha & Hn & -> & _). split; [|split].
    + eapply tie_window; eauto; try reflexivity; try (now apply pend_other); lia.
    + repeat constructor; cbn [fst snd]; lia.
    + repeat constructor; cbn [fst snd]; lia.
  - destruct (h_slab h) eqn:Es; try discriminate. inv H. destruct a0 as [[n0 w0] st1].
    apply bret_inv in H as [E ->]; injection E as -> -> ->.
    destruct (eff2_slab_window o _ _ _ _ _ _ _ _ _ _ _ H0 D) as (G & Ha & Hn & -> & _). split; [|split].
    + eapply tie_window; eauto; try reflexivity; try (now apply pend_other); lia.
    + repeat constructor; cbn [fst snd]; lia.
    + repeat constructor; cbn [fst snd]; lia.
  - destruct (h_slab h) eqn:Es; apply bret_inv in H as [E ->]; injection E as -> -> ->;
      (split; [|split; constructor]);
      (eapply tie_plain; [exact T|split; reflexivity|now destruct s as [|? [|? [|? [|? ?]]]]|reflexivity|cbn [h_slab]; congruence|lia|repeat split; reflexivity]).
Qed.

Lemma new_host_tie cs c b b' st st' h :
  tables_ok b st -> same_tables st st' -> within b (voids cs) -> within b (fills cs) -> plain c ->
  call_products c = [(host_kind h, h_id h)] -> pend (pending cs) c = h_tr h -> b < h_id h -> h_id h <= b' ->
  host_tie (cs ++ [c]) b' st' h.
Proof.
  intros T S WV WF (PV & PF) PP PE Hn Hb. unfold host_tie.
  rewrite app_pending, app_voids, app_fills, app_prods, PV, PF, PP, !app_nil_r.
  split; [eapply tables_mono; [|eapply same_ok; eauto]; lia|]. split; auto.
  split; [apply in_or_app; right; now left|]. split; auto. pose proof T as (W1 & W2 & W3 & _).
  pose proof S as (S1 & S2 & S3). split.
  - intro a. split; intro Hi; exfalso.
    + unfold table in Hi. rewrite S1, S2 in Hi.
      destruct (h_slab h); eapply within_fresh2; [exact W2| | |exact W1| |]; eauto.
    + eapply within_fresh; [exact WV| |]; eauto.
  - intros a n Hi. exfalso. eapply within_fresh; [exact WV| |]; eauto.
Qed.

Lemma step_scope cs w x p w' a p' :
  step o w x p = Done ((w', a), p') -> dense (p_map p) ->
  at_scope cs (size (p_map p)) w -> within (size (p_map p)) (voids cs) -> within (size (p_map p)) (fills cs) ->
  let c := (scope_ids w, x, a) in
  at_scope (cs ++ [c]) (size (p_map p')) w' /\
  within (size (p_map p')) (call_voids c) /\ within (size (p_map p')) (call_fills c).
Proof.
  intros H D T WV WF c.
  assert (Hz : size (p_map p) <= size (p_map p')).
  { eapply (size_grow anything); eauto. eapply (run_grow o w [x] p (w', [a]) p'). cbn [run]. unfold bbind. now rewrite H. }
  assert (NV : forall l : list (N * N), l = [] -> within (size (p_map p')) l) by (intros l ->; constructor).
  destruct w as [|s|s b|s b st|s b st h|s b st h nm ps|s b st nm ps]; destruct x; try discriminate H;
    cbn [step] in H; cbn [at_scope] in T.
  all: try (inv H; destruct a0 as [[st1 h1] l1]; apply bret_inv in H as [E ->]; injection E as -> ->;
         match goal with H0 : host_step _ _ _ _ _ = _ |- _ => exact (host_step_tie _ _ _ _ _ _ _ _ _ _ H0 D T WV WF) end).
  all: try (inv H; destruct a0 as [st1 l1]; apply bret_inv in H as [E ->]; injection E as -> ->;
         match goal with H0 : storey_step _ _ _ _ = _ |- _ => destruct (storey_step_tables _ _ _ _ _ _ H0 D) as [S1 Pl] end;
         destruct (Pl (scope_ids (AtStorey s b st))) as [PV PF]; subst c;
         split; [|split; apply NV; [exact PV|exact PF]];
         destruct T as [T TP]; split; [eapply tables_mono; [exact Hz|eapply same_ok; eauto]|rewrite app_pending, TP; reflexivity]).
  all: try (inv H; discriminate).
  all: split; [|split; apply NV; destruct a as [|? [|? ?]]; reflexivity].
  all: subst c.
  all: try (inv H; apply bret_inv in H as [E ->]; injection E as -> ->; cbn [at_scope];
            rewrite app_pending; first [rewrite T; reflexivity|rewrite (proj2 T); reflexivity]).
  - inv H. apply bret_inv in H as [E ->]. injection E as -> ->. cbn [at_scope].
    destruct (new_storey_inv o _ _ _ _ _ _ H0 D) as (_ & z & ->). rewrite app_pending, T.
    split; [|reflexivity]. unfold tables_ok. cbn. repeat split; constructor.
  - inv H. destruct a0 as [n st1]. apply bret_inv in H as [E ->]. injection E as -> ->. destruct T as [T TP]. cbn [at_scope].
    destruct (eff_new_wall o _ _ _ _ _ _ _ _ _ _ H0 D) as (_ & Hn & -> & _).
    eapply (new_host_tie _ _ (size (p_map p))); eauto; try (repeat split; reflexivity); cbn [h_id]; try lia.
    all: try (rewrite TP; reflexivity).
  - inv H. destruct a0 as [n st1]. apply bret_inv in H as [E ->]. injection E as -> ->. destruct T as [T TP]. cbn [at_scope].
    destruct (eff_new_slab o _ _ _ _ _ _ _ _ _ _ H0 D) as (_ & Hn & -> & _).
    eapply (new_host_tie _ _ (size (p_map p))); eauto; try (repeat split; reflexivity); cbn [h_id]; try lia.
    all: try (rewrite TP; reflexivity).
  - apply bret_inv in H as [E ->]. injection E as -> ->. cbn [at_scope]. rewrite app_pending, (proj2 T).
    split; [apply T|reflexivity].
  - inv H. apply bret_inv in H as [E ->]. injection E as -> ->. cbn [at_scope]. rewrite app_pending.
    split; [eapply tables_mono; [exact Hz|apply T]|reflexivity].
  - destruct (h_slab h); [discriminate|]. apply bret_inv in H as [E ->]. injection E as -> ->. cbn [at_scope].
    eapply tie_plain; [exact T|split; reflexivity|apply T|reflexivity|reflexivity|lia|repeat split; reflexivity].
  - inv H. inv H. apply bret_inv in H as [E ->]. injection E as -> ->. cbn [at_scope].
    eapply tie_plain; [exact T|split; reflexivity|apply T|reflexivity|reflexivity|lia|repeat split; reflexivity].
  - inv H. apply bret_inv in H as [E ->]. injection E as -> ->. cbn [at_scope].
    eapply tie_plain; [exact T|split; reflexivity|apply T|reflexivity|reflexivity|lia|repeat split; reflexivity].
  - apply bret_inv in H as [E ->]. injection E as -> ->. cbn [at_scope]. rewrite app_pending.
    split; [eapply tables_mono; [exact Hz|apply T]|reflexivity].
  - inv H. apply bret_inv in H as [E ->]. injection E as -> ->. cbn [at_scope]. rewrite app_pending, (proj2 T).
    split; [eapply tables_mono; [exact Hz|apply T]|reflexivity].
  - inv H. apply bret_inv in H as [E ->]. injection E as -> ->. cbn [at_scope]. rewrite app_pending, (proj2 T).
    split; [eapply tables_mono; [exact Hz|apply T]|reflexivity].
Qed.

(** ** What a call moves *)

Lemma voids_place c h a : In (h, a) (call_voids c) -> exists v, In (a, v) (call_place c).
Proof.
  destruct c as [[s x] l]. destruct s as [|z s], x, l as [|n1 [|w1 [|]]]; cbn [call_voids call_place In]; try tauto;
    try (intros [E|[]]; injection E as <- <-; eexists; left; reflexivity).
  all: destruct s0; cbn [In]; intros [E|[]]; injection E as <- <-; eexists; left; reflexivity.
Qed.
Lemma voids_products c h a : In (h, a) (call_voids c) -> In (KOpeningElement, a) (call_products c).
Proof.
  destruct c as [[s x] l]. destruct s as [|z s], x, l as [|n1 [|w1 [|]]]; cbn [call_voids call_products In]; try tauto;
    intros [E|[]]; injection E as <- <-; auto.
Qed.
Lemma fills_products c a n : In (a, n) (call_fills c) -> In (KWindow, n) (call_products c).
Proof.
  destruct c as [[s x] l]. destruct x, l as [|z [|w [|]]]; cbn [call_fills call_products In]; try tauto;
    intros [E|[]]; injection E as <- <-; auto.
Qed.

Definition effects (cs : list call) (c : call) (m m' : dmap) : Prop :=
  exists E, effect E m m' /\ forall s mv, In (s, mv) E <-> exists n, moves cs c n mv /\ s = sh m n.

Lemma still_moves cs w x a n mv b : still w x -> at_scope cs b w -> ~ moves cs (scope_ids w, x, a) n mv.
Proof.
  intros S T H.
  destruct w as [|s|s c|s c st|s c st h|s c st h nm ps|s c st nm ps]; cbn [scope_ids at_scope still] in *;
    inversion H; subst; try contradiction; try (destruct T as [_ T]; congruence).
  all: destruct T as (_ & T & _); congruence.
Qed.

Lemma step_effects cs w x p w' a p' :
  fair o -> step o w x p = Done ((w', a), p') -> tied cs w (p_map p) ->
  match x with OStoreyTransform k n _ => In (k, n) (prods cs) | _ => True end ->
  effects cs (scope_ids w, x, a) (p_map p) (p_map p').
Proof.
  intros Ho H (D & R & GC & PR & SI & WV & WF & VP & FP & T) HX.
  assert (Dec : still w x \/ ~ still w x).
  { destruct w, x; cbn [still]; try tauto. destruct (h_tr h); [right; discriminate|now left]. }
  destruct Dec as [S|S].
  - exists []. split; [apply effect_ext; auto; eapply step_still; eauto|].
    intros s mv. split; [intros []|]. intros (n & Hm & _). eapply still_moves; eauto.
  - assert (Fig : forall k n, In (k, n) (prods cs) -> figure (p_map p) n /\ exists l, lookup (p_map p) n = Some (Ent k l)).
    { intros k n Hi. rewrite Forall_forall in PR. apply PR in Hi. exact Hi. }
    destruct w as [|s|s b|s b st|s b st h|s b st h nm ps|s b st nm ps]; destruct x; try discriminate H; cbn [still] in S; try tauto;
      cbn [step] in H; try (inv H; discriminate).
    + inv H. destruct a0 as [st1 l1]. apply bret_inv in H as [E ->]. injection E as -> ->.
      cbn [storey_step] in H0. destruct (existsb _ _); [|discriminate]. inv H0. apply bret_inv in H0 as [E ->].
      injection E as -> ->. destruct (Fig _ _ HX) as [F _]. destruct (figure_sh _ _ F) as (rs & HS & HP).
      exists [(sh (p_map p) n, (false, t, v_zero))]. split; [eapply transform_effect; eauto|].
      intros s' mv. split.
      * intros [E|[]]. injection E as <- <-. exists n. split; [constructor|reflexivity].
      * intros (n' & Hm & ->). inversion Hm; subst. now left.
    + inv H. apply bret_inv in H as [E ->]. injection E as -> ->. cbn [at_scope] in T.
      destruct T as (T & TP & K & L & V & F). destruct (h_tr h) as [t|] eqn:Et; [|tauto].
      pose proof T as (_ & _ & _ & N1 & N2 & N3 & N4).
      assert (AP : forall a v, In (a, v) (flat_map call_place cs) -> at_point (p_map p) a v).
      { intros a v Hi. apply in_flat_map in Hi as (c & Hc & Hi). rewrite Forall_forall in GC. apply GC in Hc as [_ Hc].
        rewrite Forall_forall in Hc. exact (Hc _ Hi). }
      assert (VA : forall a, In (h_id h, a) (voids cs) -> exists v, In (a, v) (flat_map call_place cs)).
      { intros a Hi. apply in_flat_map in Hi as (c & Hc & Hi). destruct (voids_place _ _ _ Hi) as [v Hv].
        exists v. apply in_flat_map. eauto. }
      destruct (drop_host_effect o h st p a0 q t (fun k n => In (k, n) (prods cs)) Ho H0 D Et) as (E & EE & Hin); auto.
      * unfold table. destruct (h_slab h); auto.
      * intros k k' n n' Hk Hk'. apply (SI (k, n) (k', n') Hk Hk').
      * intros a Hi. apply V in Hi. split; [eapply VP; eauto|]. split.
        -- destruct (VA _ Hi) as [v Hv]. exists v. auto.
        -- intros w Hw. apply (hget_In N.eqb N.eqb_eq) in Hw. apply F in Hw; auto. eapply FP; eauto.
      * exists E. split; auto. intros s' mv. rewrite Hin. split.
        -- intros (n & -> & Hm). exists n. split; auto. cbn [scope_ids].
           destruct Hm as [[-> ->]|(a & v & Hi & Hp & -> & Hn)]; [now constructor|].
           apply V in Hi. destruct (VA _ Hi) as [v' Hv]. pose proof (at_point_fun _ _ _ _ Hp (AP _ _ Hv)) as <-.
           destruct Hn as [->|Hn]; [eapply moves_opening; eauto|]. apply (hget_In N.eqb N.eqb_eq) in Hn. apply F in Hn; auto.
           eapply moves_window; eauto.
        -- intros (n & Hm & ->). exists n. split; auto. cbn [scope_ids] in Hm. inversion Hm; subst.
           ++ left. split; auto. congruence.
           ++ right. exists n, v. rewrite V. split; auto. split; auto. split; [congruence|auto].
           ++ right. exists n0, v. rewrite V. split; auto. split; auto. split; [congruence|]. right.
              apply (hget_NoDup N.eqb N.eqb_eq); auto. apply F; auto.
Qed.

Lemma moves_product cs w x a b n mv : at_scope cs b w ->
  (forall h a, In (h, a) (voids cs) -> In (KOpeningElement, a) (prods cs)) ->
  (forall a n, In (a, n) (fills cs) -> In (KWindow, n) (prods cs)) ->
  match x with OStoreyTransform k n _ => In (k, n) (prods cs) | _ => True end ->
  moves cs (scope_ids w, x, a) n mv -> exists k, In (k, n) (prods cs).
Proof.
  intros T VP FP HX H.
  destruct w as [|s|s c|s c st|s c st h|s c st h nm ps|s c st nm ps]; cbn [scope_ids at_scope] in *;
    inversion H; subst; eauto.
  - destruct T as (_ & _ & T & _). eauto.
  - destruct T as [_ T]. congruence.
Qed.

Lemma tied_step cs w x p w' a p' :
  fair o -> step o w x p = Done ((w', a), p') -> tied cs w (p_map p) ->
  match x with OStoreyTransform k n _ => In (k, n) (prods cs) | _ => True end ->
  tied (cs ++ [(scope_ids w, x, a)]) w' (p_map p').
Proof.
  intros Ho H HT HX. pose proof (step_effects _ _ _ _ _ _ _ Ho H HT HX) as (E & EE & _).
  destruct HT as (D & R & GC & PR & SI & WV & WF & VP & FP & T).
  assert (G : grow anything p p').
  { eapply (run_grow o w [x] p (w', [a]) p'). cbn [run]. unfold bbind. now rewrite H. }
  pose proof (proj1 (G D)) as D'. pose proof (size_grow _ _ _ G D) as Hz.
  destruct (step_place o _ _ _ _ _ _ H D R) as (R' & GC' & _).
  destruct (step_news _ _ _ _ _ _ H D) as [NF NS].
  destruct (step_scope cs _ _ _ _ _ _ H D T WV WF) as (T' & WV' & WF').
  assert (Old : forall q, In q (prods cs) -> figure (p_map p') (snd q) /\ is_of (p_map p') q /\
            sh (p_map p') (snd q) = sh (p_map p) (snd q) /\ sh (p_map p) (snd q) <= size (p_map p)).
  { intros q Hq. rewrite Forall_forall in PR. destruct (PR _ Hq) as [F I].
    destruct (figure_effect _ _ _ _ EE F) as [F' S']. split; auto. split; [eapply grow_is_of; eauto|]. split; auto.
    destruct (figure_sh _ _ F) as (rs & _ & L). apply (proj1 (dense_lookup _ _ D)). eauto. }
  unfold tied. rewrite app_voids, app_fills, app_prods.
  split; auto. split; auto.
  split. { apply Forall_app. split; [|repeat constructor; auto; apply GC']. eapply Forall_impl; [|exact GC].
           intro c. apply goodcall_grow; auto. }
  split. { apply Forall_app. split; [apply Forall_forall; intros q Hq; destruct (Old _ Hq) as (? & ? & _); auto|].
           eapply Forall_impl; [|exact NF]. intros q (? & ? & _). auto. }
  split.
  { rewrite Forall_forall in NF. intros q q' Hq Hq' Es. apply in_app_iff in Hq as [Hq|Hq], Hq' as [Hq'|Hq'].
    - apply SI; auto. destruct (Old _ Hq) as (_ & _ & E1 & _), (Old _ Hq') as (_ & _ & E2 & _). congruence.
    - destruct (Old _ Hq) as (_ & _ & E1 & L), (NF _ Hq') as (_ & _ & L'). lia.
    - destruct (Old _ Hq') as (_ & _ & E1 & L), (NF _ Hq) as (_ & _ & L'). lia.
    - auto. }
  split; [apply Forall_app; split; auto; eapply within_mono; eauto|].
  split; [apply Forall_app; split; auto; eapply within_mono; eauto|].
  split. { intros h b Hi. apply in_app_iff in Hi as [Hi|Hi]; apply in_or_app; [left; eauto|right; eapply voids_products; eauto]. }
  split; [|exact T'].
  intros b n Hi. apply in_app_iff in Hi as [Hi|Hi]; apply in_or_app; [left; eauto|right; eapply fills_products; eauto].
Qed.

End Move.
