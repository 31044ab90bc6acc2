(** The calls of the builder that walk no hash table keep the renaming. *)

From Coq Require Import String Ascii List NArith ZArith Bool Lia Permutation.
From Coq Require Import ZifyBool ZifyNat ZifyN.
From Verif Require Import Base Prims PrimsFacts Float Arith Kind Types Schema Entity EntityFacts DataMap DataSpec DataMapFacts
  Extractor Builder BuilderRun BuilderSpec BuilderBase OrderSpec BuilderOrder.
Import ListNotations.
Open Scope N_scope.
Open Scope builder_scope.

(** ** Tactics *)

(** Hypotheses at the new bound. *)
Ltac up Hb :=
  lazymatch type of Hb with
  | ?b <= ?b' =>
      repeat match goal with
      | H : fx ?f b ?n |- _ => apply (fx_mono f b b' n Hb) in H
      | H : ir ?f b ?n ?n' |- _ => apply (ir_mono f b b' n n' Hb) in H
      | H : vr ?f b ?n ?n' |- _ => apply (vr_mono f b b' n n' Hb) in H
      | H : lr ?f b ?n ?n' |- _ => apply (lr_mono f b b' n n' Hb) in H
      | H : Forall (fx ?f b) ?l |- _ => apply (fxs_mono f b b' l Hb) in H
      | H : Forall2 (ir ?f b) ?l ?l' |- _ => apply (irs_mono f b b' l l' Hb) in H
      end
  end.

Ltac ord := let i := fresh in intro i; reflexivity.

Lemma vec_closed v : ids_in (vec v) = [].
Proof. now destruct v as [[? ?] ?]. Qed.
Lemma list_closed {A} (g : A -> val) l : (forall a, ids_in (g a) = []) -> ids_in (VList (map g l)) = [].
Proof. intro H. cbn [ids_in]. induction l as [|a l IH]; cbn [map flat_map]; auto. now rewrite H, IH. Qed.

Lemma lr_cons f b v v' l l' : vr f b v v' -> lr f b l l' -> lr f b (v :: l) (v' :: l').
Proof. apply Forall2_cons. Qed.
Lemma lr_nil f b : lr f b [] [].
Proof. apply Forall2_nil. Qed.

Ltac closed_val :=
  first [reflexivity | assumption | apply vec_closed
        | apply list_closed; intros; first [reflexivity | apply vec_closed]].
Ltac fxs := repeat (apply Forall_cons; [assumption|]); first [assumption | apply Forall_nil].
Ltac vrs :=
  match goal with
  | |- vr _ _ (VId _) (VId _) => first [apply vr_fx; assumption | apply vr_id; assumption]
  | |- vr _ _ (ids _) (ids _) => first [apply vr_ids; assumption | apply vr_fxs; fxs]
  | |- vr _ _ ?v ?v => apply vr_closed; closed_val
  | |- _ => assumption
  end.
Ltac lrs :=
  match goal with
  | |- lr _ _ (_ ++ _) (_ ++ _) => apply lr_app; lrs
  | |- lr _ _ (_ :: _) (_ :: _) => apply lr_cons; [vrs|lrs]
  | |- lr _ _ [] [] => apply lr_nil
  | |- lr _ _ (push_at _ _ _) (push_at _ _ _) => apply lr_push_at; [lrs|assumption]
  | |- _ => assumption
  end.

(** After a call: its results. *)
Ltac results Hb H :=
  cbn beta in H; unfold id_ in H;
  try lazymatch type of H with
      | _ /\ fx _ _ _ => let E := fresh in destruct H as [E H]; subst
      | is_ _ _ _ => unfold is_ in H; subst
      end.
Ltac sb T :=
  eapply sim_bind; [T|];
  let b := fresh "b" in let x := fresh "x" in let x' := fresh "x" in let Hb := fresh "Hb" in let H := fresh "H" in
  intros b x x' Hb H; up Hb; results Hb H; try clear Hb.
Ltac end_ret :=
  apply sim_ret; let b := fresh "b" in let Hb := fresh "Hb" in intros b Hb; up Hb.
Ltac s_ins := apply sim_ins; [ord|lrs].

Section Sims.
Variables o o' : oracle.
Hypothesis Sum : o_neg_sum o = o_neg_sum o'.

(** ** Constructors *)

Lemma sim_axis3d f b v : sim f b (axis3d v) (axis3d v) (lr f).
Proof. unfold axis3d. sb s_ins. end_ret. lrs. Qed.

Lemma sim_placement_new f b l l' : lr f b l l' -> sim f b (placement_new l) (placement_new l') (lr f).
Proof. intro H. unfold placement_new. sb s_ins. end_ret. lrs. Qed.

Lemma sim_need_attr f b l l' i : lr f b l l' -> sim f b (need (attr_id l i)) (need (attr_id l' i)) (ir f).
Proof.
  intro H. apply sim_need. intros n E. destruct (lr_attr_id _ _ _ _ _ _ H E) as (n' & E' & Hn). exists n'. split; auto.
  intros. eapply ir_mono; eauto.
Qed.

Lemma sim_new_relative f b l l' k n : ordinary k -> lr f b l l' -> fx f b n ->
  sim f b (new_relative l k n) (new_relative l' k n) (lr f).
Proof.
  intros K H Hn. unfold new_relative. sb ltac:(apply sim_fetch; [exact K|apply fx_ir; exact Hn]).
  sb ltac:(apply sim_need_attr; eassumption). sb s_ins. end_ret. lrs.
Qed.

Lemma sim_extrude f b pr dir d ctx : fx f b pr -> fx f b ctx -> sim f b (extrude pr dir d ctx) (extrude pr dir d ctx) (lr f).
Proof.
  intros H1 H2. unfold extrude, shape_repr, product_shape.
  sb s_ins. sb s_ins. sb s_ins. end_ret. lrs.
Qed.

Lemma sim_rectangular f b l h t dir ctx : fx f b ctx ->
  sim f b (rectangular_shape l h t dir ctx) (rectangular_shape l h t dir ctx) (lr f).
Proof. intro Hc. unfold rectangular_shape. sb s_ins. sb s_ins. sb s_ins. apply sim_extrude; assumption. Qed.

Lemma sim_profile f b k l : ordinary k -> ids_in (VList l) = [] ->
  sim f b (arbitrary_profile k l) (arbitrary_profile k l) (id_ f).
Proof.
  intros K Hl. unfold arbitrary_profile. sb ltac:(apply sim_ins; [exact K|lrs]). sb s_ins. s_ins.
Qed.

Ltac s_profile := apply sim_profile; [ord|closed_val].

Lemma sim_horizontal f b cs t ctx : fx f b ctx -> sim f b (horizontal_shape cs t ctx) (horizontal_shape cs t ctx) (lr f).
Proof. intro Hc. unfold horizontal_shape. sb s_profile. apply sim_extrude; assumption. Qed.
Lemma sim_vertical f b cs t ctx : fx f b ctx -> sim f b (vertical_shape cs t ctx) (vertical_shape cs t ctx) (lr f).
Proof. intro Hc. unfold vertical_shape. sb s_profile. apply sim_extrude; assumption. Qed.
Lemma sim_arbitrary f b cs t d ctx : fx f b ctx -> sim f b (arbitrary_shape cs t d ctx) (arbitrary_shape cs t d ctx) (lr f).
Proof. intro Hc. unfold arbitrary_shape. sb s_profile. apply sim_extrude; assumption. Qed.

Lemma sim_add_representation f b r r' s s' : lr f b r r' -> lr f b s s' ->
  sim f b (add_representation r s) (add_representation r' s') (lr f).
Proof. intros H1 H2. unfold add_representation. sb s_ins. end_ret. lrs. Qed.

(** ** Materials *)

Lemma sim_material f b name : sim f b (material name) (material name) (id_ f).
Proof. s_ins. Qed.

Lemma sim_layer f b name l : forallb idless (tl l) = true ->
  sim f b (material_layer name l) (material_layer name l) (id_ f).
Proof.
  intro H. unfold material_layer. sb ltac:(apply sim_material). apply sim_ins; [ord|].
  destruct l as [|v l]; cbn [set_at tl] in *; [lrs|]. apply lr_cons; [vrs|]. clear - H.
  induction l as [|w l IH]; [lrs|]. cbn [forallb] in H. apply andb_prop in H as [H1 H2]. apply lr_cons; auto.
  apply vr_closed. unfold idless in H1. destruct (ids_in w); [reflexivity|discriminate].
Qed.

Lemma sim_layer_set f b l : Forall (fx f b) l -> sim f b (material_layer_set l) (material_layer_set l) (id_ f).
Proof. intro H. s_ins. Qed.
Lemma sim_usage f b s d e x : fx f b s -> sim f b (material_layer_set_usage s d e x) (material_layer_set_usage s d e x) (id_ f).
Proof. intro H. s_ins. Qed.
Lemma sim_constituent f b x y : sim f b (material_constituent x y) (material_constituent x y) (id_ f).
Proof. unfold material_constituent. sb ltac:(apply sim_material). s_ins. Qed.
Lemma sim_constituent_set f b l : Forall (fx f b) l -> sim f b (material_constituent_set l) (material_constituent_set l) (id_ f).
Proof. intro H. s_ins. Qed.

Lemma lr_thickness f b l l' : lr f b l l' -> layer_thickness l' = layer_thickness l.
Proof.
  intro H. pose proof (lr_nth _ _ _ _ 1 H) as Hn. unfold layer_thickness. destruct (nth_error l 1) as [v|]; [|now rewrite Hn].
  destruct Hn as (v' & -> & H1 & _). apply ren_fun in H1. destruct v; same_form H1; reflexivity.
Qed.

Lemma Forall2_is {A} b (l l' : list A) : Forall2 (is_ b) l l' -> l' = l.
Proof. induction 1; [reflexivity|]. unfold is_ in *. congruence. Qed.

Lemma sim_thickness f b m : fx f b m -> sim f b (thickness o m) (thickness o' m) is_.
Proof.
  intro H. unfold thickness. sb ltac:(apply sim_fetch; [ord|apply fx_ir; exact H]).
  sb ltac:(apply sim_need_attr; eassumption). sb ltac:(apply sim_fetch; [ord|eassumption]).
  eapply sim_bind.
  - apply (sim_bmap f b2 _ _ (ir f) is_); auto.
    2: { apply lr_attr_ids. eassumption. }
    intros b3 n n' Hb3 Hn. up Hb3. sb ltac:(apply sim_fetch; [ord|eassumption]).
    match goal with H : lr _ _ ?l ?l' |- sim _ _ (need (layer_thickness ?l)) _ _ => rewrite (lr_thickness _ _ _ _ H) end.
    apply sim_need_eq.
  - cbn beta. intros b3 ds ds' Hb3 E. apply Forall2_is in E. subst. apply sim_ret. intros. unfold is_. now rewrite Sum.
Qed.

(** ** Types *)

Definition storey_ids (st : storey) : list N :=
  s_id st :: s_ctx st :: map snd (s_elems st) ++ flat_map (fun x => snd (fst x) :: snd x) (s_types st) ++
  flat_map (fun x => [fst x; snd x]) (s_voids_wall st) ++ flat_map (fun x => [fst x; snd x]) (s_voids_slab st) ++
  flat_map (fun x => [fst x; snd x]) (s_fills st).
Definition sx (f : N -> N) (b : N) (st : storey) : Prop := Forall (fx f b) (storey_ids st).

(** The results of a call that returns an id and the storey. *)
Definition st_ (f : N -> N) (b : N) (x x' : N * storey) : Prop := x' = x /\ fx f b (fst x) /\ sx f b (snd x).

Lemma sx_mono f b b' st : b <= b' -> sx f b st -> sx f b' st.
Proof. apply fxs_mono. Qed.

Lemma Forall_iff {A} (P Q : A -> Prop) l : (forall a, P a <-> Q a) -> Forall P l <-> Forall Q l.
Proof. intro H. split; apply Forall_impl; intro a; apply H. Qed.

Lemma sx_iff f b st : sx f b st <->
  fx f b (s_id st) /\ fx f b (s_ctx st) /\ Forall (fun x => fx f b (snd x)) (s_elems st) /\
  Forall (fun x => fx f b (snd (fst x)) /\ Forall (fx f b) (snd x)) (s_types st) /\
  Forall (fun x => fx f b (fst x) /\ fx f b (snd x)) (s_voids_wall st) /\
  Forall (fun x => fx f b (fst x) /\ fx f b (snd x)) (s_voids_slab st) /\
  Forall (fun x => fx f b (fst x) /\ fx f b (snd x)) (s_fills st).
Proof.
  unfold sx, storey_ids. rewrite !Forall_cons_iff, !Forall_app, Forall_map, !Forall_flat_map.
  assert (G : forall l : list (N * N), Forall (fun x => Forall (fx f b) [fst x; snd x]) l <->
             Forall (fun x => fx f b (fst x) /\ fx f b (snd x)) l).
  { intro l. apply Forall_iff. intro x. rewrite !Forall_cons_iff. pose proof (Forall_nil (fx f b)). tauto. }
  rewrite !G. assert (G' : Forall (fun x : cls * N * list N => Forall (fx f b) (snd (fst x) :: snd x)) (s_types st) <->
             Forall (fun x => fx f b (snd (fst x)) /\ Forall (fx f b) (snd x)) (s_types st)).
  { apply Forall_iff. intro x. apply Forall_cons_iff. }
  rewrite G'. tauto.
Qed.

Lemma hset_all {K V} (eqb : K -> K -> bool) (P : K * V -> Prop) l k v : Forall P l -> P (k, v) -> Forall P (hset eqb l k v).
Proof.
  intros H Hk. induction H as [|[k' v'] l Hx H IH]; cbn [hset]; [now constructor|].
  destruct (eqb k' k); constructor; auto.
Qed.
Lemma hget_all {K V} (eqb : K -> K -> bool) (P : V -> Prop) (l : list (K * V)) k v :
  Forall (fun x => P (snd x)) l -> hget eqb l k = Some v -> P v.
Proof.
  induction 1 as [|[k' v'] l Hx H IH]; cbn [hget]; [discriminate|]. destruct (eqb k' k); auto. intro E. injection E as <-. exact Hx.
Qed.
Lemma set_add_all (P : N -> Prop) l n : Forall P l -> P n -> Forall P (set_add l n).
Proof. intros H Hn. unfold set_add. destruct (existsb (N.eqb n) l); auto. apply Forall_app. auto. Qed.

Lemma sx_add_elem f b c n st : sx f b st -> fx f b n -> sx f b (add_elem c n st).
Proof.
  rewrite !sx_iff. unfold add_elem. cbn [s_id s_ctx s_elems s_types s_voids_wall s_voids_slab s_fills].
  intros (H1 & H2 & H3 & H) Hn. split; auto. split; auto. split; auto.
  match goal with |- context [if ?c then _ else _] => destruct c end; auto. apply Forall_app. split; auto.
Qed.
Lemma sx_set_types f b k l st : sx f b st -> fx f b (snd k) -> Forall (fx f b) l ->
  sx f b (set_types (hset tkey_eqb (s_types st) k l) st).
Proof.
  rewrite !sx_iff. unfold set_types. cbn [s_id s_ctx s_elems s_types s_voids_wall s_voids_slab s_fills].
  intros (H1 & H2 & H3 & H4 & H) Hn Hl. repeat (split; auto; try tauto). apply hset_all; auto.
Qed.
Lemma sx_reset f b c t st : sx f b st -> fx f b t -> sx f b (type_reset c t st).
Proof. intros H Ht. apply sx_set_types; auto. Qed.
Lemma sx_entry f b c t st : sx f b st -> fx f b t -> sx f b (type_entry c t st).
Proof. intros H Ht. unfold type_entry. destruct (hget _ _ _); auto. apply sx_set_types; auto. Qed.
Lemma sx_push f b c t n st : sx f b st -> fx f b t -> fx f b n -> sx f b (type_push c t n st).
Proof.
  intros H Ht Hn. apply sx_set_types; auto. apply set_add_all; auto.
  destruct (hget tkey_eqb (s_types st) (c, t)) as [l|] eqn:E; [|constructor]. apply sx_iff in H as (_ & _ & _ & H & _).
  eapply (hget_all tkey_eqb (Forall (fx f b))); [|exact E]. eapply Forall_impl; [|exact H]. intros x Hx. apply Hx.
Qed.
Lemma sx_void f b s n h st : sx f b st -> fx f b n -> fx f b h -> sx f b (add_void s n h st).
Proof.
  rewrite !sx_iff. intros (H1 & H2 & H3 & H4 & H5 & H6 & H7) Hn Hh.
  destruct s; cbn [add_void s_id s_ctx s_elems s_types s_voids_wall s_voids_slab s_fills];
    repeat (split; auto); apply hset_all; auto.
Qed.
Lemma sx_fill f b n w st : sx f b st -> fx f b n -> fx f b w -> sx f b (add_fill n w st).
Proof.
  rewrite !sx_iff. intros (H1 & H2 & H3 & H4 & H5 & H6 & H7) Hn Hh.
  cbn [add_fill s_id s_ctx s_elems s_types s_voids_wall s_voids_slab s_fills]. repeat (split; auto); apply hset_all; auto.
Qed.
Lemma sx_ctx f b st : sx f b st -> fx f b (s_ctx st).
Proof. intro H. apply sx_iff in H. tauto. Qed.
Lemma sx_id f b st : sx f b st -> fx f b (s_id st).
Proof. intro H. apply sx_iff in H. tauto. Qed.
Hint Resolve sx_add_elem sx_reset sx_entry sx_push sx_void sx_fill sx_ctx sx_id : sx.

Ltac up Hb ::=
  lazymatch type of Hb with
  | ?b <= ?b' =>
      repeat match goal with
      | H : fx ?f b ?n |- _ => apply (fx_mono f b b' n Hb) in H
      | H : ir ?f b ?n ?n' |- _ => apply (ir_mono f b b' n n' Hb) in H
      | H : vr ?f b ?n ?n' |- _ => apply (vr_mono f b b' n n' Hb) in H
      | H : lr ?f b ?n ?n' |- _ => apply (lr_mono f b b' n n' Hb) in H
      | H : sx ?f b ?n |- _ => apply (sx_mono f b b' n Hb) in H
      | H : Forall (fx ?f b) ?l |- _ => apply (fxs_mono f b b' l Hb) in H
      | H : Forall2 (ir ?f b) ?l ?l' |- _ => apply (irs_mono f b b' l l' Hb) in H
      end
  end.

Ltac fin_st := split; [reflexivity|split; cbn [fst snd]; auto with sx].

Lemma sim_new_type f b c m name i st : sx f b st -> fx f b m ->
  sim f b (new_type o c m name i st) (new_type o' c m name i st) (st_ f).
Proof.
  intros Hs Hm. unfold new_type, element_type. sb ltac:(apply sim_owned). apply sim_ins_associate.
  - destruct c; ord.
  - lrs.
  - assumption.
  - intros b1 n Hb Hn. up Hb. end_ret. split; auto. split; auto. destruct c; cbn [snd]; auto with sx.
Qed.

Lemma sim_window_type f b name i j st : sx f b st ->
  sim f b (new_window_type o name i j st) (new_window_type o' name i j st) (st_ f).
Proof.
  intro Hs. unfold new_window_type, element_type. sb ltac:(apply sim_owned). sb s_ins. end_ret. fin_st.
Qed.
Lemma sim_space_type f b name i st : sx f b st ->
  sim f b (new_space_type o name i st) (new_space_type o' name i st) (st_ f).
Proof.
  intro Hs. unfold new_space_type, element_type. sb ltac:(apply sim_owned). sb s_ins. end_ret. fin_st.
Qed.

(** ** Elements *)

Lemma sim_axis_repr f b v ctx : fx f b ctx -> sim f b (axis_repr v ctx) (axis_repr v ctx) (lr f).
Proof. intro H. unfold axis_repr, shape_repr. sb s_ins. sb s_ins. sb s_ins. end_ret. lrs. Qed.

Lemma sim_place_element f b c m ty name a a' s s' st : lr f b a a' -> lr f b s s' -> sx f b st -> fx f b m -> fx f b ty ->
  sim f b (place_element o c m ty name a s st) (place_element o' c m ty name a' s' st) (st_ f).
Proof.
  intros H1 H2 H3 H4 H5. pose proof (sx_id _ _ _ H3) as Hi. unfold place_element, element.
  sb ltac:(apply sim_new_relative; [ord|assumption|exact Hi]). sb ltac:(apply sim_owned). sb s_ins. sb s_ins.
  apply sim_ins_associate.
  - destruct c; ord.
  - destruct c; cbn [elem_rest]; lrs.
  - assumption.
  - intros b4 n Hb Hn. up Hb. end_ret. split; auto. split; auto. cbn [snd]. auto with sx.
Qed.

Lemma sim_wall_body f b m s ctx : fx f b m -> fx f b ctx -> sim f b (wall_body o m s ctx) (wall_body o' m s ctx) (lr f).
Proof.
  intros H1 H2. unfold wall_body. sb ltac:(apply sim_thickness; assumption).
  destruct s; sb ltac:(apply sim_axis_repr; assumption).
  - sb ltac:(apply sim_rectangular; assumption). apply sim_add_representation; assumption.
  - sb ltac:(apply sim_vertical; assumption). apply sim_add_representation; assumption.
  - sb ltac:(apply sim_arbitrary; assumption). apply sim_add_representation; assumption.
Qed.

Lemma sim_slab_body f b m s ctx : fx f b m -> fx f b ctx -> sim f b (slab_body o m s ctx) (slab_body o' m s ctx) (lr f).
Proof.
  intros H1 H2. unfold slab_body. sb ltac:(apply sim_thickness; assumption).
  destruct s; [apply sim_horizontal|apply sim_arbitrary|apply sim_arbitrary]; assumption.
Qed.

Lemma sim_new_wall f b m ty name s v st : sx f b st -> fx f b m -> fx f b ty ->
  sim f b (new_wall o m ty name s v st) (new_wall o' m ty name s v st) (st_ f).
Proof.
  intros H1 H2 H3. unfold new_wall. sb ltac:(apply sim_wall_body; [assumption|apply sx_ctx; assumption]).
  sb ltac:(apply sim_axis3d). apply sim_place_element; assumption.
Qed.
Lemma sim_new_slab f b m ty name s v st : sx f b st -> fx f b m -> fx f b ty ->
  sim f b (new_slab o m ty name s v st) (new_slab o' m ty name s v st) (st_ f).
Proof.
  intros H1 H2 H3. unfold new_slab. sb ltac:(apply sim_slab_body; [assumption|apply sx_ctx; assumption]).
  sb ltac:(apply sim_axis3d). apply sim_place_element; assumption.
Qed.
Lemma sim_new_roof f b m ty name cs v st : sx f b st -> fx f b m -> fx f b ty ->
  sim f b (new_roof o m ty name cs v st) (new_roof o' m ty name cs v st) (st_ f).
Proof.
  intros H1 H2 H3. unfold new_roof. sb ltac:(apply sim_thickness; assumption).
  sb ltac:(apply sim_horizontal; apply sx_ctx; assumption).
  sb ltac:(apply sim_axis3d). apply sim_place_element; assumption.
Qed.
Lemma sim_new_shading f b m ty name l h v st : sx f b st -> fx f b m -> fx f b ty ->
  sim f b (new_shading o m ty name l h v st) (new_shading o' m ty name l h v st) (st_ f).
Proof.
  intros H1 H2 H3. unfold new_shading. sb ltac:(apply sim_thickness; assumption).
  sb ltac:(apply sim_rectangular; apply sx_ctx; assumption).
  sb ltac:(apply sim_axis3d). apply sim_place_element; assumption.
Qed.
Lemma sim_new_space f b ty name cs h v st : sx f b st -> fx f b ty ->
  sim f b (new_space o ty name cs h v st) (new_space o' ty name cs h v st) (st_ f).
Proof.
  intros H1 H3. unfold new_space, spatial. sb ltac:(apply sim_horizontal; apply sx_ctx; assumption).
  sb ltac:(apply sim_axis3d). sb ltac:(apply sim_new_relative; [ord|assumption|apply sx_id; assumption]).
  sb ltac:(apply sim_owned). sb s_ins. sb s_ins. sb ltac:(cbn [elem_rest]; s_ins). end_ret. fin_st.
Qed.

(** ** The thickness of a wall or slab *)

Hypothesis Fo : fair o.
Hypothesis Fo' : fair o'.

Definition pick {V} (l : list (N * V)) (k : N) : list (N * V) :=
  match hget N.eqb l k with Some a => [(k, a)] | None => [] end.

Lemma sim_walk_pairs {V} f b (l l' : list (N * V)) :
  sim f b (walk_pairs o l) (walk_pairs o' l')
    (fun _ x y => Permutation x (flat_map (pick l) (map fst l)) /\ Permutation y (flat_map (pick l') (map fst l'))).
Proof.
  unfold walk_pairs, walk. eapply (sim_bind f b _ _ _ _ (fun _ x y => Permutation x (map fst l) /\ Permutation y (map fst l'))).
  - eapply sim_bind; [apply sim_tick|]. intros b1 t t' Hb _. apply sim_ret. intros. split; [apply Fo|apply Fo'].
  - cbn beta. intros b1 ks ks' Hb [P P']. apply sim_ret. intros _ _. split; apply Permutation_flat_map; assumption.
Qed.

Lemma NoDup_app' {A} (l k : list A) : NoDup (l ++ k) -> NoDup l /\ NoDup k /\ forall a, In a l -> ~ In a k.
Proof.
  induction l as [|a l IH]; cbn [app]; intro H; [repeat split; auto; constructor|]. inversion H as [|? ? H1 H2]; subst.
  destruct (IH H2) as (I1 & I2 & I3). rewrite in_app_iff in H1. split; [constructor; tauto|]. split; auto.
  intros x [->|Hx]; [tauto|auto].
Qed.

Lemma flat_map_unique {A} (g : A -> list N) l a b n :
  NoDup (flat_map g l) -> In a l -> In b l -> In n (g a) -> In n (g b) -> a = b.
Proof.
  induction l as [|x l IH]; intros H Ha Hb Na Nb; [destruct Ha|]. cbn [flat_map] in H. apply NoDup_app' in H as (H1 & H2 & H3).
  destruct Ha as [->|Ha], Hb as [->|Hb]; auto.
  - exfalso. apply (H3 n Na). apply in_flat_map. eauto.
  - exfalso. apply (H3 n Nb). apply in_flat_map. eauto.
Qed.

Lemma hget_In' {V} (l : list (N * V)) k v : hget N.eqb l k = Some v -> In (k, v) l.
Proof.
  induction l as [|[k' v'] l IH]; cbn [hget]; [discriminate|]. destruct (N.eqb_spec k' k) as [->|].
  - intro H. injection H as ->. now left.
  - intro H. right. auto.
Qed.

Lemma in_pick {V} (l : list (N * V)) ks x : In x (flat_map (pick l) ks) -> In (fst x) ks /\ hget N.eqb l (fst x) = Some (snd x).
Proof.
  intro H. apply in_flat_map in H as (k & Hk & H). unfold pick in H. destruct (hget N.eqb l k) as [a|] eqn:E; [|destruct H].
  destruct H as [<-|[]]. cbn [fst snd]. auto.
Qed.

Lemma assocs_In c t l k r : In (k, r) (assocs_of c t l) -> In (c, t, k, r) l.
Proof.
  unfold assocs_of. intro H. apply in_map_iff in H as ([[[c' t'] k'] r'] & E & H). cbn [fst snd] in E. injection E as -> ->.
  apply filter_In in H as [H1 H2]. cbn [fst snd] in H2. apply andb_prop in H2 as [H2 H3]. apply Bool.eqb_prop in H3. subst.
  destruct c, c'; try discriminate; exact H1.
Qed.

Definition ar' (f : N -> N) (x y : N * list val) : Prop :=
  fst y = fst x /\ Forall2 (fun v v' => ren f v = ren idn v') (snd x) (snd y).

Lemma assocs_ar f c t l l' : Forall2 (ar f) l l' -> Forall2 (ar' f) (assocs_of c t l) (assocs_of c t l').
Proof.
  unfold assocs_of. induction 1 as [|[k r] [k' r'] l l' (E & _ & Hr) H IH]; cbn [filter map]; [constructor|].
  cbn [fst snd] in *. subst k'. destruct (cls_eqb (fst (fst k)) c && Bool.eqb (snd (fst k)) t); cbn [map]; auto.
  constructor; auto. split; auto.
Qed.

Lemma hget_ar' f l l' k : Forall2 (ar' f) l l' ->
  match hget N.eqb l k, hget N.eqb l' k with
  | Some r, Some r' => Forall2 (fun v v' => ren f v = ren idn v') r r'
  | None, None => True
  | _, _ => False
  end.
Proof.
  induction 1 as [|[k1 r] [k2 r'] l l' (E & Hr) H IH]; cbn [hget]; auto. cbn [fst snd] in *. subst k2.
  destruct (k1 =? k); auto.
Qed.

Lemma ar'_keys f l l' : Forall2 (ar' f) l l' -> map fst l' = map fst l.
Proof. induction 1 as [|x y l l' [E _] H IH]; cbn [map]; congruence. Qed.

Lemma find_some' {A} (P : A -> bool) l a : In a l -> P a = true -> exists x, find P l = Some x.
Proof.
  intros Ha Hp. destruct (find P l) as [x|] eqn:E; eauto. pose proof (find_none _ _ E _ Ha). congruence.
Qed.

Lemma in_attr_ren f b n r r' : f n = n -> lr f b r r' -> in_attr r 4 n = true -> in_attr r' 4 n = true.
Proof.
  intros Hn H E. unfold in_attr in *. apply existsb_exists in E as (k & Hk & E). apply N.eqb_eq in E. subst k.
  apply existsb_exists. exists n. split; [|apply N.eqb_refl]. pose proof (lr_attr_ids _ _ _ _ 4 H) as G. clear - G Hk Hn.
  induction G as [|x y l l' (-> & _) G IH]; [destruct Hk|]. destruct Hk as [->|Hk]; [left; auto|right; auto].
Qed.

Lemma sim_host_thickness f b c n : fx f b n -> sim f b (host_thickness o c n) (host_thickness o' c n) is_.
Proof.
  intro Hn. unfold host_thickness. eapply sim_bind; [apply sim_get|]. cbn beta. intros b1 p p' Hb [R Hs]. up Hb.
  eapply sim_bind; [apply sim_walk_pairs|]. cbn beta. intros b2 x y Hb2 [Px Py]. up Hb2.
  pose proof (assocs_ar f c false _ _ (r_assoc _ _ _ R)) as A. pose proof (r_size _ _ _ R) as Hz.
  eapply (sim_bind f b2 _ _ _ _ (fun b m m' => fst m' = fst m /\ fx f b (fst m))).
  - apply sim_need. intros m Em. apply find_some in Em as [Hm Hi].
    apply (Permutation_in _ Px) in Hm. apply in_pick in Hm as [K1 K2].
    pose proof (hget_ar' f _ _ (fst m) A) as G. rewrite K2 in G.
    destruct (hget N.eqb (assocs_of c false (p_assoc p')) (fst m)) as [r'|] eqn:K2'; [|contradiction].
    pose proof (assocs_In _ _ _ _ _ (hget_In' _ _ _ K2)) as I1. pose proof (assocs_In _ _ _ _ _ (hget_In' _ _ _ K2')) as I2.
    pose proof (wf_assoc _ (r_wf _ _ _ R)) as W. rewrite Forall_forall in W. specialize (W _ I1). cbn [fst snd] in W. destruct W as [W1 W2].
    pose proof (wf_assoc _ (r_wf' _ _ _ R)) as W'. rewrite Forall_forall in W'. specialize (W' _ I2). cbn [fst snd] in W'. destruct W' as [W1' W2'].
    rewrite Hz in W2'. pose proof (to_lr f _ _ _ G W2 W2') as L.
    assert (Hi' : in_attr r' 4 n = true) by (eapply in_attr_ren; eauto; apply Hn).
    assert (Hy : In (fst m, r') y).
    { apply (Permutation_in _ (Permutation_sym Py)). apply in_flat_map. exists (fst m).
      rewrite (ar'_keys _ _ _ A). split; auto. unfold pick. rewrite K2'. now left. }
    destruct (find_some' (fun x => in_attr (snd x) 4 n) y _ Hy Hi') as [m' Em']. exists m'. split; auto.
    apply find_some in Em' as [Hm' Hj]. apply (Permutation_in _ Py) in Hm'. apply in_pick in Hm' as [_ K3].
    apply hget_In', assocs_In in K3.
    assert (E : (c, false, fst m', snd m') = (c, false, fst m, r')).
    { apply (flat_map_unique (fun x : akey * list val => attr_ids (snd x) 4) (p_assoc p') _ _ n); auto.
      - apply R.
      - cbn [snd]. unfold in_attr in Hj. apply existsb_exists in Hj as (k & Hk & E). apply N.eqb_eq in E. now subst k.
      - cbn [snd]. unfold in_attr in Hi'. apply existsb_exists in Hi' as (k & Hk & E). apply N.eqb_eq in E. now subst k. }
    intros b3 Hb3. injection E as E1 E2. split; auto. split; [|lia].
    assert (F : Forall (fun x : akey * list val => f (snd (fst x)) = snd (fst x)) (p_assoc p)).
    { pose proof (r_assoc _ _ _ R) as F2. clear - F2. induction F2 as [|a a' l l' (_ & H & _) F2 IH]; constructor; auto. }
    rewrite Forall_forall in F. exact (F _ I1).
  - cbn beta. intros b3 m m' Hb3 [E Hm]. rewrite E. now apply sim_thickness.
Qed.

(** ** Openings and windows *)

Lemma sim_vec {A} f b l l' (k : vec3 -> A) : lr f b l l' ->
  sim f b (match l with [VVec [x; y; z]] => bret (k (x, y, z)) | _ => bpanic end)
          (match l' with [VVec [x; y; z]] => bret (k (x, y, z)) | _ => bpanic end) is_.
Proof.
  intro H. destruct l as [|v [|w l]]; try apply sim_panic; [|destruct v; try apply sim_panic; destruct l0 as [|x [|y [|z [|]]]]; apply sim_panic].
  destruct v; try apply sim_panic. destruct l as [|x [|y [|z [|]]]]; try apply sim_panic.
  inversion H as [|v v' t t' (H1 & _) Ht E1 E2]; subst. inversion Ht; subst. apply ren_fun in H1. subst. apply sim_ret. reflexivity.
Qed.

Lemma host_ord h : ordinary (host_kind h).
Proof. destruct h as [[] n t]; ord. Qed.

Lemma sim_place_opening f b h name a a' s s' st : lr f b a a' -> lr f b s s' -> sx f b st -> fx f b (h_id h) ->
  sim f b (place_opening o h name a s st) (place_opening o' h name a' s' st) (st_ f).
Proof.
  intros H1 H2 H3 H4. unfold place_opening, element.
  sb ltac:(apply sim_new_relative; [apply host_ord|assumption|assumption]). sb ltac:(apply sim_owned). sb s_ins. sb s_ins. sb s_ins.
  end_ret. fin_st.
Qed.

Lemma sim_wall_opening f b h name l ht v d st : sx f b st -> fx f b (h_id h) ->
  sim f b (wall_opening o h name l ht v d st) (wall_opening o' h name l ht v d st) (st_ f).
Proof.
  intros H1 H2. unfold wall_opening. sb ltac:(apply sim_axis3d). sb ltac:(apply sim_host_thickness; assumption).
  sb ltac:(apply sim_rectangular; apply sx_ctx; assumption). apply sim_place_opening; assumption.
Qed.

Lemma sim_shapes f b l l' : lr f b l l' -> sim f b (shapes l) (shapes l') (fun b => Forall2 (lr f b)).
Proof.
  intro H. unfold shapes. destruct (attr_id l 6) as [n|] eqn:E.
  - destruct (lr_attr_id _ _ _ _ _ _ H E) as (n' & -> & Hn). sb ltac:(apply sim_fetch; [ord|eassumption]).
    apply (sim_bmap f b0 _ _ (ir f) (lr f)); auto.
    + intros b1 b2 x1 y1 Hb. apply lr_mono. exact Hb.
    + intros b1 a a' Hb Ha. up Hb. apply sim_fetch; [ord|assumption].
    + apply lr_attr_ids. assumption.
  - rewrite (lr_attr_none _ _ _ _ _ H E). end_ret. constructor.
Qed.

Lemma sim_solid_direction f b l l' : lr f b l l' -> sim f b (solid_direction l) (solid_direction l') is_.
Proof.
  intro H. unfold solid_direction. sb ltac:(apply sim_need_attr; eassumption). sb ltac:(apply sim_fetch; [ord|eassumption]).
  apply (sim_vec f b1 _ _ (fun x => x)). assumption.
Qed.

Lemma sim_some {A} f b (c c' : B A) : sim f b c c' is_ ->
  sim f b (d <-- c ;; bret (Some d)) (d <-- c' ;; bret (Some d)) is_.
Proof. intro H. sb ltac:(exact H). end_ret. reflexivity. Qed.

Lemma sim_product_direction f b l l' : lr f b l l' -> sim f b (product_direction l) (product_direction l') is_.
Proof.
  intro H. unfold product_direction. sb ltac:(apply sim_shapes; eassumption).
  apply (sim_bfind f b0 _ _ (lr f)); [|assumption]. intros b1 s s' Hb Hs. up Hb.
  apply (sim_bfind f b1 _ _ (ir f)); [|apply lr_attr_ids; assumption]. intros b2 i i' Hb2 Hi. up Hb2.
  eapply sim_bind; [apply sim_fetch_any; eassumption|]. cbn beta. intros b3 e e' Hb3 He. up Hb3.
  destruct e as [k y|s0], e' as [k' y'|s0']; cbn [er] in He; try contradiction; [|end_ret; reflexivity].
  destruct He as [-> He]. destruct k; try (end_ret; reflexivity).
  - assert (Hy : lr f b3 y y') by (apply He; ord). apply sim_some, sim_solid_direction. exact Hy.
  - assert (Hy : lr f b3 y y') by (apply He; ord). sb ltac:(apply sim_need_attr; eassumption).
    sb ltac:(apply sim_fetch; [ord|eassumption]). sb ltac:(apply sim_need_attr; eassumption).
    sb ltac:(apply sim_fetch; [ord|eassumption]).
    match goal with H : lr _ ?b ?l ?l' |- sim _ ?b (bfind _ (attr_ids ?l _)) _ _ =>
      apply (sim_bfind f b _ _ (ir f)); [|apply lr_attr_ids; exact H] end.
    intros b8 j j' Hb8 Hj. up Hb8.
    eapply sim_bind; [apply sim_fetch_any; eassumption|]. cbn beta. intros b9 e e' Hb9 He'. up Hb9.
    destruct e as [k z|s0], e' as [k' z'|s0']; cbn [er] in He'; try contradiction; [|end_ret; reflexivity].
    destruct He' as [-> He']. destruct k; try (end_ret; reflexivity).
    assert (Hz : lr f b9 z z') by (apply He'; ord). apply sim_some, sim_solid_direction. exact Hz.
Qed.

Lemma sim_slab_direction f b n : fx f b n -> sim f b (slab_direction n) (slab_direction n) is_.
Proof.
  intro H. unfold slab_direction. sb ltac:(apply sim_fetch; [ord|apply fx_ir; exact H]).
  sb ltac:(apply sim_product_direction; eassumption). apply sim_need_eq.
Qed.

Lemma sim_slab_filling f b h s ctx : fx f b ctx -> fx f b (h_id h) ->
  sim f b (slab_filling o h s ctx) (slab_filling o' h s ctx) (lr f).
Proof.
  intros H1 H2. unfold slab_filling. sb ltac:(apply sim_host_thickness; assumption). destruct s.
  - sb ltac:(apply sim_slab_direction; assumption). apply sim_rectangular; assumption.
  - apply sim_horizontal; assumption.
  - sb ltac:(apply sim_slab_direction; assumption). apply sim_arbitrary; assumption.
Qed.

Lemma sim_slab_opening f b h name s st : sx f b st -> fx f b (h_id h) ->
  sim f b (slab_opening o h name s st) (slab_opening o' h name s st) (st_ f).
Proof.
  intros H1 H2. unfold slab_opening. sb ltac:(apply sim_slab_filling; [apply sx_ctx; assumption|assumption]).
  sb ltac:(apply sim_axis3d). apply sim_place_opening; assumption.
Qed.

Lemma sim_place_window f b m ty op name s s' st : lr f b s s' -> sx f b st -> fx f b m -> fx f b ty -> fx f b op ->
  sim f b (place_window o m ty op name s st) (place_window o' m ty op name s' st) (st_ f).
Proof.
  intros H1 H2 H3 H4 H5. unfold place_window, element. sb ltac:(apply sim_axis3d).
  sb ltac:(apply sim_new_relative; [ord|assumption|assumption]). sb ltac:(apply sim_owned). sb s_ins. sb s_ins.
  apply sim_ins_associate.
  - ord.
  - cbn [elem_rest]. lrs.
  - assumption.
  - intros b9 n Hb Hn. up Hb. end_ret. fin_st.
Qed.

Definition st2_ (f : N -> N) (b : N) (x x' : N * N * storey) : Prop :=
  x' = x /\ fx f b (fst (fst x)) /\ fx f b (snd (fst x)) /\ sx f b (snd x).

Ltac st_res H := let E := fresh in let H1 := fresh "F" in let H2 := fresh "F" in
  destruct H as (E & H1 & H2); subst.

Lemma sim_wall_window f b h m ty name w ht v d st : sx f b st -> fx f b (h_id h) -> fx f b m -> fx f b ty ->
  sim f b (wall_window o h m ty name w ht v d st) (wall_window o' h m ty name w ht v d st) (st2_ f).
Proof.
  intros H1 H2 H3 H4. unfold wall_window. eapply sim_bind; [apply sim_wall_opening; assumption|]. cbn beta.
  intros b1 [op st1] x' Hb (-> & F1 & F2). cbn [fst snd] in *. up Hb. sb ltac:(apply sim_host_thickness; assumption).
  sb ltac:(apply sim_rectangular; apply sx_ctx; assumption).
  eapply sim_bind; [apply sim_place_window; eassumption|]. cbn beta. intros b4 [n st2] x' Hb4 (-> & F3 & F4).
  cbn [fst snd] in *. up Hb4. end_ret. split; [reflexivity|]. cbn [fst snd]. auto.
Qed.

Lemma sim_slab_window f b h m ty name s st : sx f b st -> fx f b (h_id h) -> fx f b m -> fx f b ty ->
  sim f b (slab_window o h m ty name s st) (slab_window o' h m ty name s st) (st2_ f).
Proof.
  intros H1 H2 H3 H4. unfold slab_window. eapply sim_bind; [apply sim_slab_opening; assumption|]. cbn beta.
  intros b1 [op st1] x' Hb (-> & F1 & F2). cbn [fst snd] in *. up Hb.
  sb ltac:(apply sim_slab_filling; [apply sx_ctx; assumption|assumption]).
  eapply sim_bind; [apply sim_place_window; eassumption|]. cbn beta. intros b4 [n st2] x' Hb4 (-> & F3 & F4).
  cbn [fst snd] in *. up Hb4. end_ret. split; [reflexivity|]. cbn [fst snd]. auto.
Qed.

(** ** Transforms *)

Lemma sim_transform_object f b t : sim f b (transform_object t) (transform_object t) (id_ f).
Proof. unfold transform_object. sb s_ins. sb s_ins. sb s_ins. sb s_ins. s_ins. Qed.

Lemma lr_identifier f b l l' i : lr f b l l' ->
  match nth_error l' 1 with Some (VEnum j) => j | _ => i end = match nth_error l 1 with Some (VEnum j) => j | _ => i end.
Proof.
  intro H. pose proof (lr_nth _ _ _ _ 1 H) as Hn. destruct (nth_error l 1) as [v|]; [|now rewrite Hn].
  destruct Hn as (v' & -> & H1 & _). apply ren_fun in H1. destruct v; same_form H1; reflexivity.
Qed.

Lemma sim_mapped_repr f b keep ctx tr v r r' : fx f b ctx -> ir f b tr tr -> ir f b r r' ->
  sim f b (mapped_repr keep ctx tr v r) (mapped_repr keep ctx tr v r') (id_ f).
Proof.
  intros H1 H2 H3. unfold mapped_repr, shape_repr. sb ltac:(apply sim_axis3d). sb s_ins.
  eapply (sim_bind f b1 _ _ _ _ is_).
  - destruct keep; [|end_ret; reflexivity]. sb ltac:(apply sim_fetch; [ord|eassumption]). end_ret. unfold is_. apply (lr_identifier f b3). assumption.
  - cbn beta. intros b2 i i' Hb ->. up Hb. sb s_ins. sb s_ins. s_ins.
Qed.

Lemma sim_transform f b keep k n ctx t v : ordinary k -> fx f b n -> fx f b ctx ->
  sim f b (transform keep k n ctx t v) (transform keep k n ctx t v) (fun _ _ _ => True).
Proof.
  intros K H1 H2. unfold transform. sb ltac:(apply sim_fetch; [exact K|apply fx_ir; exact H1]).
  destruct (attr_id x 6) as [sh|] eqn:E.
  - destruct (lr_attr_id _ _ _ _ _ _ H E) as (sh' & -> & Hsh). sb ltac:(apply sim_transform_object).
    sb ltac:(apply sim_fetch; [ord|eassumption]). apply fx_ir in H0.
    eapply sim_bind.
    + apply (sim_bmap f b2 _ _ (ir f) (id_ f)); auto.
      * intros b3 b4 x4 y4 Hb [E4 F4]. split; auto. eapply fx_mono; eauto.
      * intros b3 r r' Hb Hr. up Hb. apply sim_mapped_repr; assumption.
      * apply lr_attr_ids. assumption.
    + cbn beta. intros b3 rs rs' Hb Hrs. up Hb. apply sim_modify; [ord|assumption|]. intros b4 l l' Hb4 Hl.
      apply lr_set_at; auto. apply vr_ids. clear - Hrs Hb4. induction Hrs as [|a a' l l' [-> Ha] Hrs IH]; constructor; auto.
      apply fx_ir. eapply fx_mono; eauto.
  - rewrite (lr_attr_none _ _ _ _ _ H E). end_ret. exact I.
Qed.

Lemma sim_local_placement f b l l' : lr f b l l' -> sim f b (local_placement l) (local_placement l') is_.
Proof.
  intro H. unfold local_placement. destruct (attr_id l 5) as [n|] eqn:E.
  - destruct (lr_attr_id _ _ _ _ _ _ H E) as (n' & -> & Hn). sb ltac:(apply sim_fetch; [ord|eassumption]).
    sb ltac:(apply sim_need_attr; eassumption).
    eapply sim_bind; [apply sim_fetch_any; eassumption|]. cbn beta. intros b3 e e' Hb3 He. up Hb3.
    destruct e as [k z|s0], e' as [k' z'|s0']; cbn [er] in He; try contradiction; [|end_ret; reflexivity].
    destruct He as [-> He]. destruct k; try (end_ret; reflexivity).
    assert (Hz : lr f b3 z z') by (apply He; ord). sb ltac:(apply sim_need_attr; eassumption).
    sb ltac:(apply sim_fetch; [ord|eassumption]). apply (sim_vec f _ _ _ Some). assumption.
  - rewrite (lr_attr_none _ _ _ _ _ H E). end_ret. reflexivity.
Qed.

(** ** Properties *)

Lemma sim_property f b name v u : idless v = true -> (match u with Some n => fx f b n | None => True end) ->
  sim f b (single_property name v u) (single_property name v u) (id_ f).
Proof.
  intros H1 H2. apply sim_ins; [ord|]. apply lr_cons; [vrs|]. apply lr_cons; [vrs|]. apply lr_cons.
  - apply vr_closed. unfold idless in H1. destruct (ids_in v); [reflexivity|discriminate].
  - destruct u; lrs.
Qed.

Lemma sim_property_set f b name l : Forall (fx f b) l -> sim f b (property_set o name l) (property_set o' name l) (id_ f).
Proof. intro H. unfold property_set. sb ltac:(apply sim_root). s_ins. Qed.

Lemma sim_relate f b s n : fx f b s -> fx f b n -> sim f b (relate_properties o s n) (relate_properties o' s n) (id_ f).
Proof. intros H1 H2. unfold relate_properties. sb ltac:(apply sim_root). s_ins. Qed.

(** ** Sites, buildings, storeys *)

Lemma id_of_kinds k m m' : dense m -> dense m' -> size m' = size m -> (forall n, kind_at m' n = kind_at m n) -> id_of k m' = id_of k m.
Proof.
  assert (G : forall m, dense m -> id_of k m = filter (fun n => match kind_at m n with Some k' => kind_eqb k' k | None => false end) (map fst m)).
  { clear. intros m D. unfold id_of.
    rewrite (filter_ext_in (fun p : N * entity => kind_eqb (kind_of (snd p)) k)
              (fun p => match kind_at m (fst p) with Some k' => kind_eqb k' k | None => false end)).
    - assert (A : forall (Q : N -> bool) (l : dmap), map fst (filter (fun p => Q (fst p)) l) = filter Q (map fst l)).
      { intro Q. induction l as [|[n e] l IH]; cbn [filter map fst]; auto. destruct (Q n); cbn [map fst]; now rewrite IH. }
      apply (A (fun n => match kind_at m n with Some k' => kind_eqb k' k | None => false end)).
    - intros [n e] Hi. cbn [fst snd]. unfold kind_at. rewrite (In_lookup _ _ _ (dense_increasing _ D) Hi). reflexivity. }
  intros D D' Hs Hk. rewrite (G m D), (G m' D'). destruct D as [D _], D' as [D' _]. rewrite D, D'.
  unfold size in Hs. apply Nat2N.inj in Hs. rewrite Hs. apply filter_ext. intro n. now rewrite Hk.
Qed.

Lemma sim_sub_context f b : sim f b sub_context sub_context (id_ f).
Proof.
  unfold sub_context. eapply sim_bind; [apply sim_get|]. cbn beta. intros b1 p p' Hb [R Hs]. apply sim_need.
  intros n E. rewrite (id_of_kinds _ (p_map p) (p_map p')); [|apply R|apply R|apply R|apply R]. exists n. split; auto. intros b2 Hb2.
  split; auto. destruct (rev (id_of KGeometricRepresentationSubContext (p_map p))) as [|x l] eqn:Er; [discriminate|]. injection E as ->.
  assert (Hn : In n (id_of KGeometricRepresentationSubContext (p_map p))) by (apply in_rev; rewrite Er; now left).
  apply id_of_spec in Hn as (e & He & Hk). assert (D : dense (p_map p)) by apply R.
  apply In_lookup in He; [|now apply dense_increasing]. split.
  - destruct (N.eq_dec (f n) n) as [|Hf]; auto. destruct (r_move _ _ _ R n Hf) as (k & K & Sh).
    unfold kind_at in K. rewrite He in K. cbn [option_map] in K. injection K as <-. rewrite Hk in Sh. discriminate.
  - pose proof (proj1 (dense_lookup _ _ D) (ex_intro _ _ He)). lia.
Qed.

Lemma sim_add_site f b n : fx f b n ->
  sim f b (p <-- bget ;; bput (set_sites (set_add (p_sites p) n) p)) (p <-- bget ;; bput (set_sites (set_add (p_sites p) n) p))
    (fun _ _ _ => True).
Proof.
  intros [Hf Hn] p p' u q R Hb E. injection E as <- <-. exists tt, (set_sites (set_add (p_sites p') n) p'). split; [reflexivity|].
  destruct (r_sites _ _ _ R) as [E1 E2]. pose proof (r_size _ _ _ R) as Hs.
  split; [|split; [cbn [set_sites p_map]; lia|exact I]]. constructor; try apply R.
  - constructor; try apply R. cbn [set_sites p_sites p_map]. apply set_add_all; [apply R|lia].
  - constructor; try apply R. cbn [set_sites p_sites p_map]. apply set_add_all; [apply R|lia].
  - cbn [set_sites p_sites]. rewrite E1. split; auto. apply set_add_all; auto.
Qed.

Lemma bind_assoc {A C D} f b (c c' : B A) (k k' : A -> B C) (h h' : C -> B D) R :
  sim f b (y <-- (x <-- c ;; k x) ;; h y) (y <-- (x <-- c' ;; k' x) ;; h' y) R ->
  sim f b (x <-- c ;; y <-- k x ;; h y) (x <-- c' ;; y <-- k' x ;; h' y) R.
Proof.
  intros H p p' a q Hr Hb E. destruct (H p p' a q Hr Hb) as (a' & q' & E' & H').
  - unfold bbind in *. destruct (c p) as [[x p1]| |]; auto.
  - exists a', q'. split; auto. unfold bbind in *. destruct (c' p') as [[x p1]| |]; auto.
Qed.

Lemma sim_new_site f b name v : sim f b (new_site o name v) (new_site o' name v) (id_ f).
Proof.
  unfold new_site, spatial. sb ltac:(apply sim_axis3d). sb ltac:(apply sim_placement_new; eassumption). sb ltac:(apply sim_owned).
  sb s_ins. sb s_ins. apply bind_assoc. eapply sim_bind; [apply sim_add_site; eassumption|]. cbn beta. intros b5 u u' Hb _. up Hb.
  sb ltac:(apply sim_sub_context). end_ret. split; auto.
Qed.

Lemma sim_new_building f b s name v : fx f b s -> sim f b (new_building o s name v) (new_building o' s name v) (id_ f).
Proof.
  intro H. unfold new_building, spatial. sb ltac:(apply sim_axis3d).
  sb ltac:(apply sim_new_relative; [ord|assumption|assumption]). sb ltac:(apply sim_owned).
  sb s_ins. sb s_ins. sb ltac:(apply sim_sub_context). end_ret. split; auto.
Qed.

Lemma sim_new_storey f b n name v : fx f b n ->
  sim f b (new_storey o n name v) (new_storey o' n name v) (fun b x x' => x' = x /\ sx f b x).
Proof.
  intro H. unfold new_storey, spatial. sb ltac:(apply sim_axis3d).
  sb ltac:(apply sim_new_relative; [ord|assumption|assumption]). sb ltac:(apply sim_owned).
  sb s_ins. sb s_ins. sb ltac:(apply sim_sub_context). sb ltac:(apply sim_property; [reflexivity|exact I]).
  sb ltac:(apply sim_property_set; fxs). end_ret. split; auto. apply sx_iff. cbn. auto 10.
Qed.

(** ** Relations with members *)

Lemma sim_root4 f b name : sim f b (root o name) (root o' name)
  (fun b x y => exists g g', x = [VGuid g; VOmit; VStr name; VOmit] /\ y = [VGuid g'; VOmit; VStr name; VOmit]).
Proof.
  unfold root, fresh_guid. eapply (sim_bind f b _ _ _ _ (fun _ x y => exists g g', x = VGuid g /\ y = VGuid g')).
  - eapply sim_bind; [apply sim_tick|]. intros b1 t t' Hb _. apply sim_ret. eauto.
  - cbn beta. intros b1 x y Hb (g & g' & -> & ->). apply sim_ret. eauto.
Qed.
Lemma sim_owned4 f b name : sim f b (owned o name) (owned o' name)
  (fun b x y => exists g g' w, x = [VGuid g; VId w; VStr name; VOmit] /\ y = [VGuid g'; VId w; VStr name; VOmit] /\ fx f b w).
Proof.
  unfold owned, fresh_guid. eapply (sim_bind f b _ _ _ _ (fun _ x y => exists g g', x = VGuid g /\ y = VGuid g')).
  - eapply sim_bind; [apply sim_tick|]. intros b1 t t' Hb _. apply sim_ret. eauto.
  - cbn beta. intros b1 x y Hb (g & g' & -> & ->). eapply sim_bind; [apply sim_get|]. intros b2 p p' Hb2 [R Hs].
    apply sim_ret. intros b3 Hb3. destruct (r_owner _ _ _ R) as [E1 E2]. rewrite E1. exists g, g', (p_owner p).
    repeat split; auto. pose proof (wf_owner _ (r_wf _ _ _ R)). lia.
Qed.

Lemma map_fix f b l : Forall (fx f b) l -> map f l = l.
Proof. induction 1 as [|n l [H _] Hl IH]; cbn [map]; congruence. Qed.
Lemma ids_at_most b l : Forall (fun n => n <= b) l -> at_most b (ids l).
Proof. unfold at_most, ids. cbn [ids_in]. induction 1; cbn [map flat_map ids_in app]; constructor; auto. Qed.
Lemma fxs_at_most f b l : Forall (fx f b) l -> at_most b (ids l).
Proof. intro H. apply ids_at_most. eapply Forall_impl; [|exact H]. intros n Hn. apply Hn. Qed.
Lemma fx_at_most f b n : fx f b n -> at_most b (VId n).
Proof. intros [_ H]. now constructor. Qed.
Lemma perm_fxs f b l k : Permutation l k -> Forall (fx f b) k -> Forall (fx f b) l.
Proof. intros P H. eapply Permutation_Forall; [symmetry; exact P|exact H]. Qed.

Lemma sim_aggregate f b name n l : fx f b n -> Forall (fx f b) l ->
  sim f b (aggregate o name n l) (aggregate o' name n l) (id_ f).
Proof.
  intros Hn Hl. unfold aggregate. eapply sim_bind; [apply sim_walk; assumption|]. cbn beta. intros b1 x y Hb [Px Py]. up Hb.
  pose proof (perm_fxs _ _ _ _ Px Hl) as Hx. pose proof (perm_fxs _ _ _ _ Py Hl) as Hy.
  eapply sim_bind; [apply sim_root4|]. cbn beta. intros b2 r r' Hb2 (g & g' & -> & ->). up Hb2.
  apply sim_ins_gen; cbn [app likes part_of like_part ren].
  - repeat split; auto; [destruct Hn as [-> _]; reflexivity|]. exists x, y. repeat split; auto.
    rewrite (map_fix _ _ _ Hx), Px. now symmetry.
  - repeat constructor; eauto using fx_at_most, fxs_at_most. destruct Hn as [_ Hn]. exact Hn.
  - repeat constructor; eauto using fx_at_most, fxs_at_most. destruct Hn as [_ Hn]. exact Hn.
Qed.
End Sims.
