(** The identifiers of a built model are the answers of the generator, each used once. *)

From Coq Require Import String Ascii List NArith ZArith Bool Lia Permutation.
From Coq Require Import ZifyBool ZifyNat ZifyN.
From Verif Require Import Base Prims Kind Types Schema Entity EntityFacts WellTyped DataMap DataSpec DataMapFacts Extractor
  Float Arith Builder BuilderBase BuilderRun BuilderGrow BuilderSpec BuilderRel2 BuilderAll FloatFacts Header File HeaderSpec SectionFacts FileSpec FileFacts StrictTime BuilderLoadSpec BuilderLoad UniqueSpec.
Import ListNotations.
Open Scope N_scope.
Open Scope builder_scope.

(** First attributes of the objects that have an identifier, and of the associations that are
    not in the map yet. *)
Definition head_of (e : entity) : list val :=
  match e with Ent k l => if rooted k then [hd VOmit l] else [] | _ => [] end.
Definition heads (m : dmap) : list val := flat_map (fun x => head_of (snd x)) m.
Definition waiting (p : proj) : list val := map (fun x => hd VOmit (snd x)) (p_assoc p).
Definition gs (p : proj) : list val := heads (p_map p) ++ waiting p.

Section Unique.
Variable o : oracle.
Definition gid (t : nat) : val := VGuid (o_guid o t).

(** From [p] to [p'] the given identifiers and fresh ones were put down. *)
Definition adds (us : list val) (p p' : proj) : Prop :=
  dense (p_map p) -> NoDup (map fst (p_assoc p)) ->
  dense (p_map p') /\ NoDup (map fst (p_assoc p')) /\ (p_tick p <= p_tick p')%nat /\
  exists ts, Permutation (gs p') (gs p ++ us ++ map gid ts) /\ NoDup ts /\
    Forall (fun t => p_tick p <= t < p_tick p')%nat ts.
Definition fr := adds [].

Lemma heads_app a b : heads (a ++ b) = heads a ++ heads b.
Proof. apply flat_map_app. Qed.

Lemma NoDup_split (a b : list nat) x y z : NoDup a -> NoDup b ->
  Forall (fun t => x <= t < y)%nat a -> Forall (fun t => y <= t < z)%nat b -> NoDup (a ++ b).
Proof.
  intros Na Nb Fa Fb. induction Na as [|t a Ht Na IH]; cbn [app]; auto.
  inversion Fa; subst. constructor; auto. rewrite in_app_iff. intros [H|H]; auto.
  rewrite Forall_forall in Fb. apply Fb in H. lia.
Qed.

Lemma adds_trans us vs p q r : adds us p q -> adds vs q r -> adds (us ++ vs) p r.
Proof.
  intros H1 H2 D A. destruct (H1 D A) as (D1 & A1 & T1 & ts1 & P1 & N1 & F1).
  destruct (H2 D1 A1) as (D2 & A2 & T2 & ts2 & P2 & N2 & F2).
  split; auto. split; auto. split; [lia|]. exists (ts1 ++ ts2). split; [|split].
  - rewrite P2, P1, map_app, <- !app_assoc. apply Permutation_app_head, Permutation_app_head.
    rewrite !app_assoc. apply Permutation_app_tail, Permutation_app_comm.
  - eapply NoDup_split; eauto.
  - apply Forall_app. split; eapply Forall_impl; try eassumption; cbn beta; lia.
Qed.

Global Instance fr_pre : preorder fr.
Proof.
  split.
  - intros p D A. split; auto. split; auto. split; auto. exists []. cbn [map app]. rewrite !app_nil_r.
    split; auto. split; constructor.
  - intros p q r H1 H2. exact (adds_trans [] [] p q r H1 H2).
Qed.

Lemma adds_ins k l : rooted k = true -> steps (adds [hd VOmit l]) (ins k l).
Proof.
  intros Hk p n p' H D A. apply ins_inv in H as (H1 & H2 & -> & H3); auto.
  split; auto. split; auto. split; [cbn; lia|]. exists []. split; [|split; constructor].
  unfold gs, waiting. cbn [set_map p_map p_assoc map app]. rewrite heads_app. unfold heads at 2. cbn [flat_map snd head_of].
  rewrite Hk. cbn [app]. rewrite <- !app_assoc. apply Permutation_app_head. cbn [app]. apply Permutation_cons_append.
Qed.

Definition unrooted (k : kind) : bool := negb (rooted k).

Global Instance closed_fr : closed unrooted fr.
Proof.
  split; [typeclasses eauto| |].
  - intros k l Hk p n p' H D A. apply ins_inv in H as (H1 & H2 & -> & H3); auto.
    split; auto. split; auto. split; [cbn; lia|]. exists []. split; [|split; constructor].
    unfold gs, waiting. cbn [set_map p_map p_assoc map app]. rewrite heads_app. unfold heads at 2. cbn [flat_map snd head_of].
    unfold unrooted in Hk. destruct (rooted k); [discriminate|]. cbn [app]. rewrite !app_nil_r. apply Permutation_refl.
  - intros p t p' H D A. injection H as <- <-. split; auto. split; auto. split; [cbn; lia|]. exists [].
    cbn [map app]. rewrite app_nil_r. split; [apply Permutation_refl|split; constructor].
Qed.

Global Instance modify_fr : with_modify fr.
Proof.
  split. intros n v p u p' H D A.
  pose proof (grow_modify anything n v _ _ _ H D) as (D' & _). apply modify_inv in H as (l & Hl & ->).
  split; auto. split; auto. split; [cbn; lia|]. exists []. cbn [map app]. rewrite app_nil_r. split; [|split; constructor].
  unfold gs, waiting. cbn [set_map p_map p_assoc]. apply Permutation_app_tail.
  rewrite (put_present _ _ _ _ (dense_increasing _ D) Hl). apply dense_increasing in D.
  assert (E : forall q, In q (p_map p) ->
    head_of (snd (if fst q =? n then (n, Ent KProductDefinitionShape (set_at 2 v l)) else q)) = head_of (snd q)).
  { intros [k e] Hq. cbn [fst]. destruct (N.eqb_spec k n); auto. subst k. apply In_lookup in Hq; auto.
    rewrite Hl in Hq. injection Hq as <-. reflexivity. }
  clear - E. unfold heads. induction (p_map p) as [|q m IH]; cbn [map flat_map]; auto.
  rewrite (E q) by now left. apply Permutation_app_head. apply IH. intros x Hx. apply E. now right.
Qed.

Global Instance sites_fr : with_sites fr.
Proof.
  split. intros l p D A. split; auto. split; auto. split; [cbn; lia|]. exists []. cbn [map app]. rewrite app_nil_r.
  split; [apply Permutation_refl|split; constructor].
Qed.

(** A call that puts down an identifier drawn before. *)
Definition spends {A} (g : val) (c : B A) : Prop := steps (adds [g]) c.

Lemma spends_ins g k l : rooted k = true -> hd VOmit l = g -> spends g (ins k l).
Proof. intros H <-. now apply adds_ins. Qed.
Lemma spends_later {A C} g (c : B A) (f : A -> B C) :
  steps fr c -> (forall a, spends g (f a)) -> spends g (bbind c f).
Proof.
  intros Hc Hf p b p' H. apply bbind_inv in H as (a & q & H1 & H2).
  exact (adds_trans [] [g] _ _ _ (Hc _ _ _ H1) (Hf _ _ _ _ H2)).
Qed.
Lemma spends_now {A C} g (c : B A) (f : A -> B C) :
  spends g c -> (forall a, steps fr (f a)) -> spends g (bbind c f).
Proof.
  intros Hc Hf p b p' H. apply bbind_inv in H as (a & q & H1 & H2).
  exact (adds_trans [g] [] _ _ _ (Hc _ _ _ H1) (Hf _ _ _ _ H2)).
Qed.

(** Drawing an identifier that the rest puts down. *)
Lemma fr_draw {C} (f : val -> B C) : (forall g, spends g (f g)) -> steps fr (bbind (fresh_guid o) f).
Proof.
  intros Hf p b p' H. unfold fresh_guid, tick in H. apply bbind_inv in H as (a & q & H1 & H2).
  apply bbind_inv in H1 as (t & q1 & E & H1). injection E as <- <-. apply bret_inv in H1 as [-> ->].
  intros D A. destruct (Hf _ _ _ _ H2) as (D1 & A1 & T1 & ts & P & N1 & F); auto.
  cbn [set_tick p_tick p_map p_assoc] in *. split; auto. split; auto. split; [lia|].
  exists (p_tick p :: ts). split; [|split].
  - rewrite P. reflexivity.
  - constructor; auto. intro Hi. rewrite Forall_forall in F. apply F in Hi. lia.
  - constructor; [lia|]. eapply Forall_impl; [|exact F]. cbn beta. lia.
Qed.
Lemma steps_assoc {X Y Z} R (c : B X) (f : X -> B Y) (g : Y -> B Z) :
  steps R (bbind c (fun x => bbind (f x) g)) -> steps R (bbind (bbind c f) g).
Proof. intros H p a p' E. apply (H p a p'). now rewrite <- bbind_assoc. Qed.
Lemma fr_owned {C} n (f : list val -> B C) :
  (forall g h, spends g (f [g; VId h; VStr n; VOmit])) -> steps fr (bbind (owned o n) f).
Proof.
  intro Hf. unfold owned. apply steps_assoc. apply fr_draw. intro g. apply steps_assoc.
  intros p b p' H. apply bbind_inv in H as (a & q & E & H). injection E as <- <-.
  apply bbind_inv in H as (b0 & q & E & H). apply bret_inv in E as [-> ->]. exact (Hf _ _ _ _ _ H).
Qed.
Lemma fr_root {C} n (f : list val -> B C) :
  (forall g, spends g (f [g; VOmit; VStr n; VOmit])) -> steps fr (bbind (root o n) f).
Proof.
  intro Hf. unfold root. apply steps_assoc. apply fr_draw. intro g.
  intros p b p' H. apply bbind_inv in H as (b0 & q & E & H). apply bret_inv in E as [-> ->]. exact (Hf _ _ _ _ H).
Qed.

(** Calls that draw nothing and put down nothing. *)
Let st_w := @st_walk unrooted fr _.
Let st_wp := @st_walk_pairs unrooted fr _.
Let st_n := @st_now unrooted fr _.
Hint Resolve st_w st_wp st_n : calls.

Ltac sp :=
  match goal with
  | |- spends _ (ins _ _) => apply spends_ins; reflexivity
  | |- spends _ (bbind (ins _ _) _) =>
      first [apply spends_now; [apply spends_ins; reflexivity|intro] | apply spends_later; [one|intro]]
  | |- spends _ (bbind _ _) => apply spends_later; [stq|intro]
  | |- steps fr (bbind (owned _ _) _) => apply fr_owned; intros
  | |- steps fr (bbind (root _ _) _) => apply fr_root; intros
  | |- steps fr (bbind (fresh_guid _) _) => apply fr_draw; intros
  end
with stq := repeat (sp || one).

Lemma u_axis3d v : steps fr (axis3d v). Proof. unfold axis3d. stq. Qed.
Hint Resolve u_axis3d : calls.
Lemma u_placement_new v : steps fr (placement_new v). Proof. unfold placement_new. stq. Qed.
Hint Resolve u_placement_new : calls.
Lemma u_new_relative v k n : steps fr (new_relative v k n). Proof. unfold new_relative. stq. Qed.
Hint Resolve u_new_relative : calls.
Lemma u_extrude a b c d : steps fr (extrude a b c d). Proof. unfold extrude. stq. Qed.
Hint Resolve u_extrude : calls.
Lemma u_rectangular a b c d e : steps fr (rectangular_shape a b c d e). Proof. unfold rectangular_shape. stq. Qed.
Hint Resolve u_rectangular : calls.
Lemma u_profile2 l : steps fr (arbitrary_profile KPointList2D l). Proof. unfold arbitrary_profile. stq. Qed.
Lemma u_profile3 l : steps fr (arbitrary_profile KPointList3D l). Proof. unfold arbitrary_profile. stq. Qed.
Hint Resolve u_profile2 u_profile3 : calls.
Lemma u_horizontal a b c : steps fr (horizontal_shape a b c). Proof. unfold horizontal_shape. stq. Qed.
Hint Resolve u_horizontal : calls.
Lemma u_vertical a b c : steps fr (vertical_shape a b c). Proof. unfold vertical_shape. stq. Qed.
Hint Resolve u_vertical : calls.
Lemma u_arbitrary a b c d : steps fr (arbitrary_shape a b c d). Proof. unfold arbitrary_shape. stq. Qed.
Hint Resolve u_arbitrary : calls.
Lemma u_add_representation a b : steps fr (add_representation a b). Proof. unfold add_representation. stq. Qed.
Hint Resolve u_add_representation : calls.
Lemma u_material a : steps fr (material a). Proof. unfold material. stq. Qed.
Hint Resolve u_material : calls.
Lemma u_material_layer a b : steps fr (material_layer a b). Proof. unfold material_layer. stq. Qed.
Hint Resolve u_material_layer : calls.
Lemma u_material_layer_set a : steps fr (material_layer_set a). Proof. unfold material_layer_set. stq. Qed.
Hint Resolve u_material_layer_set : calls.
Lemma u_usage a b c d : steps fr (material_layer_set_usage a b c d). Proof. unfold material_layer_set_usage. stq. Qed.
Hint Resolve u_usage : calls.
Lemma u_constituent a b : steps fr (material_constituent a b). Proof. unfold material_constituent. stq. Qed.
Hint Resolve u_constituent : calls.
Lemma u_constituent_set a : steps fr (material_constituent_set a). Proof. unfold material_constituent_set. stq. Qed.
Hint Resolve u_constituent_set : calls.
Lemma u_thickness a : steps fr (thickness o a). Proof. unfold thickness. stq. Qed.
Hint Resolve u_thickness : calls.
Lemma u_host_thickness a b : steps fr (host_thickness o a b). Proof. unfold host_thickness. stq. Qed.
Hint Resolve u_host_thickness : calls.
Lemma u_new_window_type a b c d : steps fr (new_window_type o a b c d). Proof. unfold new_window_type. stq. Qed.
Hint Resolve u_new_window_type : calls.
Lemma u_new_space_type a b d : steps fr (new_space_type o a b d). Proof. unfold new_space_type. stq. Qed.
Hint Resolve u_new_space_type : calls.
Lemma u_axis_repr a b : steps fr (axis_repr a b). Proof. unfold axis_repr. stq. Qed.
Hint Resolve u_axis_repr : calls.
Lemma u_wall_body a b c : steps fr (wall_body o a b c). Proof. unfold wall_body. stq. Qed.
Hint Resolve u_wall_body : calls.
Lemma u_slab_body a b c : steps fr (slab_body o a b c). Proof. unfold slab_body. stq. Qed.
Hint Resolve u_slab_body : calls.
Lemma u_new_space a b c d e st : steps fr (new_space o a b c d e st). Proof. unfold new_space. stq. Qed.
Hint Resolve u_new_space : calls.
Lemma u_place_opening a b c d st : steps fr (place_opening o a b c d st). Proof. unfold place_opening. stq. Qed.
Hint Resolve u_place_opening : calls.
Lemma u_wall_opening a b c d e f st : steps fr (wall_opening o a b c d e f st). Proof. unfold wall_opening. stq. Qed.
Hint Resolve u_wall_opening : calls.
Lemma u_shapes a : steps fr (shapes a). Proof. unfold shapes. stq. Qed.
Hint Resolve u_shapes : calls.
Lemma u_solid_direction a : steps fr (solid_direction a). Proof. unfold solid_direction. stq. Qed.
Hint Resolve u_solid_direction : calls.
Lemma u_product_direction a : steps fr (product_direction a). Proof. unfold product_direction. stq. Qed.
Hint Resolve u_product_direction : calls.
Lemma u_slab_direction a : steps fr (slab_direction a). Proof. unfold slab_direction. stq. Qed.
Hint Resolve u_slab_direction : calls.
Lemma u_slab_filling a b c : steps fr (slab_filling o a b c). Proof. unfold slab_filling. stq. Qed.
Hint Resolve u_slab_filling : calls.
Lemma u_slab_opening a b c st : steps fr (slab_opening o a b c st). Proof. unfold slab_opening. stq. Qed.
Hint Resolve u_slab_opening : calls.
Lemma u_transform_object a : steps fr (transform_object a). Proof. unfold transform_object. stq. Qed.
Hint Resolve u_transform_object : calls.
Lemma u_mapped_repr a b c d e : steps fr (mapped_repr a b c d e). Proof. unfold mapped_repr. stq. Qed.
Hint Resolve u_mapped_repr : calls.
Lemma u_local_placement a : steps fr (local_placement a). Proof. unfold local_placement. stq. Qed.
Hint Resolve u_local_placement : calls.
Lemma u_transform a b c d e f : steps fr (transform a b c d e f). Proof. unfold transform. stq. Qed.
Hint Resolve u_transform : calls.
Lemma u_drop_host a st : steps fr (drop_host o a st). Proof. unfold drop_host. stq. Qed.
Hint Resolve u_drop_host : calls.
Lemma u_single_property a b c : steps fr (single_property a b c). Proof. unfold single_property. stq. Qed.
Hint Resolve u_single_property : calls.
Lemma u_property_set a b : steps fr (property_set o a b). Proof. unfold property_set. stq. Qed.
Hint Resolve u_property_set : calls.
Lemma u_relate_properties a b : steps fr (relate_properties o a b). Proof. unfold relate_properties. stq. Qed.
Hint Resolve u_relate_properties : calls.
Lemma u_si_unit a b : steps fr (si_unit a b). Proof. unfold si_unit. stq. Qed.
Hint Resolve u_si_unit : calls.
Lemma u_sub_context  : steps fr (sub_context). Proof. unfold sub_context. stq. Qed.
Hint Resolve u_sub_context : calls.
Lemma u_new_project i : steps fr (new_project o i). Proof. unfold new_project. stq. Qed.
Hint Resolve u_new_project : calls.
Lemma u_new_building a b c : steps fr (new_building o a b c). Proof. unfold new_building. stq. Qed.
Hint Resolve u_new_building : calls.
Lemma u_new_storey a b c : steps fr (new_storey o a b c). Proof. unfold new_storey. stq. Qed.
Hint Resolve u_new_storey : calls.

(** The table of associations. *)
Lemma hd_push i n l : hd VOmit (push_at (S i) n l) = hd VOmit l.
Proof. unfold push_at. destruct (nth_error l (S i)) as [[]|]; auto. destruct l; auto. Qed.

Lemma hset_same l k (v v' : list val) : hget akey_eqb l k = Some v -> hd VOmit v' = hd VOmit v ->
  map (fun x => hd VOmit (snd x)) (hset akey_eqb l k v') = map (fun x => hd VOmit (snd x)) l.
Proof.
  intros H E. induction l as [|[k1 v1] l IH]; cbn [hget hset] in *; [discriminate|].
  destruct (akey_eqb k1 k); cbn [map snd].
  - injection H as ->. now rewrite E.
  - rewrite IH; auto.
Qed.
Lemma hset_new l k (v : list val) : hget akey_eqb l k = None -> hset akey_eqb l k v = l ++ [(k, v)].
Proof.
  induction l as [|[k1 v1] l IH]; cbn [hget hset app]; auto. destruct (akey_eqb k1 k); [discriminate|].
  intro H. now rewrite IH.
Qed.
Lemma hset_keys l k (v : list val) : NoDup (map fst l) -> NoDup (map fst (hset akey_eqb l k v)).
Proof. apply hset_NoDup. exact akey_eqb_eq. Qed.

Lemma u_associate c t m n : steps fr (associate o c t m n).
Proof.
  intros p u p' H. unfold associate in H. apply bbind_inv in H as (q & q1 & E & H). injection E as <- <-.
  destruct (hget akey_eqb (p_assoc p) (c, t, m)) as [rel|] eqn:E.
  - apply bbind_inv in H as (a & q1 & E1 & H). apply bret_inv in E1 as [-> ->].
    apply bbind_inv in H as (a & q1 & E1 & H). injection E1 as <- <-. injection H as <- <-.
    intros D A. split; auto. split; [now apply hset_keys|]. split; [cbn; lia|]. exists []. cbn [map app]. rewrite app_nil_r.
    split; [|split; constructor]. unfold gs, waiting. cbn [set_assoc p_map p_assoc].
    now rewrite (hset_same _ _ rel) by auto using hd_push.
  - apply bbind_inv in H as (rel & q1 & E1 & H). apply bbind_inv in H as (a & q2 & E2 & H). injection E2 as <- <-.
    injection H as <- <-. unfold owned, fresh_guid, tick in E1. cbn [bbind bret bget] in E1.
    unfold bbind, bret, bget in E1. injection E1 as <- <-. intros D A. cbn [set_assoc set_tick p_map p_assoc p_tick] in *.
    split; auto. split; [now apply hset_keys|]. split; [cbn; lia|]. exists [p_tick p]. split; [|split].
    + unfold gs, waiting. cbn [set_assoc set_tick p_map p_assoc]. rewrite hset_new by exact E. rewrite map_app. cbn [map snd].
      rewrite hd_push. cbn [app hd]. rewrite <- app_assoc. apply Permutation_refl.
    + constructor; [intros []|constructor].
    + constructor; [cbn; lia|constructor].
Qed.
Hint Resolve u_associate : calls.

Lemma u_new_type c a b i s : steps fr (new_type o c a b i s).
Proof. unfold new_type. destruct c; cbn [type_kind]; stq. Qed.
Lemma u_place_element c a b n x y s : steps fr (place_element o c a b n x y s).
Proof. unfold place_element. destruct c; cbn [kind_of_cls elem_rest]; stq. Qed.
Hint Resolve u_new_type u_place_element : calls.
Lemma u_new_wall a b n x y s : steps fr (new_wall o a b n x y s). Proof. unfold new_wall. stq. Qed.
Hint Resolve u_new_wall : calls.
Lemma u_new_slab a b n x y s : steps fr (new_slab o a b n x y s). Proof. unfold new_slab. stq. Qed.
Hint Resolve u_new_slab : calls.
Lemma u_new_roof a b n x y s : steps fr (new_roof o a b n x y s). Proof. unfold new_roof. stq. Qed.
Hint Resolve u_new_roof : calls.
Lemma u_new_shading a b n x y z s : steps fr (new_shading o a b n x y z s). Proof. unfold new_shading. stq. Qed.
Hint Resolve u_new_shading : calls.
Lemma u_place_window a b n x y s : steps fr (place_window o a b n x y s). Proof. unfold place_window. stq. Qed.
Hint Resolve u_place_window : calls.
Lemma u_wall_window a b c n x y z w s : steps fr (wall_window o a b c n x y z w s). Proof. unfold wall_window. stq. Qed.
Hint Resolve u_wall_window : calls.
Lemma u_slab_window a b c n x s : steps fr (slab_window o a b c n x s). Proof. unfold slab_window. stq. Qed.
Hint Resolve u_slab_window : calls.
Lemma u_host_step s h x : steps fr (host_step o s h x). Proof. unfold host_step. stq. Qed.
Hint Resolve u_host_step : calls.
Lemma u_storey_step s x : steps fr (storey_step o s x). Proof. unfold storey_step. stq. Qed.
Hint Resolve u_storey_step : calls.
Lemma u_aggregate a b c : steps fr (aggregate o a b c). Proof. unfold aggregate. stq. Qed.
Hint Resolve u_aggregate : calls.
Lemma u_type_relations a b c : steps fr (type_relations o a b c). Proof. unfold type_relations. stq. Qed.
Hint Resolve u_type_relations : calls.
Lemma u_void_relations a b : steps fr (void_relations o a b). Proof. unfold void_relations. stq. Qed.
Hint Resolve u_void_relations : calls.
Lemma u_fill_relations a : steps fr (fill_relations o a). Proof. unfold fill_relations. stq. Qed.
Hint Resolve u_fill_relations : calls.
Lemma u_drop_storey a : steps fr (drop_storey o a). Proof. unfold drop_storey. stq. Qed.
Hint Resolve u_drop_storey : calls.
Lemma u_drop_building a b : steps fr (drop_building o a b). Proof. unfold drop_building. stq. Qed.
Hint Resolve u_drop_building : calls.
Lemma u_drop_site a b : steps fr (drop_site o a b). Proof. unfold drop_site. stq. Qed.
Hint Resolve u_drop_site : calls.
Lemma u_new_site n v : steps fr (new_site o n v).
Proof.
  unfold new_site. apply steps_bind; [pre|stq|intro]. apply steps_bind; [pre|stq|intro].
  apply fr_owned. intros g h. apply spends_later; [stq|intro]. apply spends_now; [apply spends_ins; reflexivity|intro m].
  intros p x p' H.
  rewrite <- (bbind_assoc bget (fun q => bput (set_sites (set_add (p_sites q) m) q))
             (fun _ => c <-- sub_context ;; bret m)) in H.
  revert p x p' H. change (steps fr (bbind (q <-- bget ;; bput (set_sites (set_add (p_sites q) m) q))
             (fun _ => c <-- sub_context ;; bret m))).
  apply steps_bind; [pre|apply (st_put_sites (R := fr))|intro]. stq.
Qed.
Hint Resolve u_new_site : calls.
Lemma u_step w x : steps fr (step o w x).
Proof. destruct w, x; cbn [step]; stq. Qed.
Lemma u_run xs : forall w, steps fr (run o w xs).
Proof.
  induction xs as [|x xs IH]; intro w; cbn [run]; [stq|].
  apply steps_bind; [pre|apply u_step|]. intros [w' a]. apply steps_bind; [pre|apply IH|]. intros [w'' l]. stq.
Qed.

(** ** Build *)

(** The tables that are written are a part of the table. *)
Lemma assocs_part a :
  exists rest, Permutation (map snd (flat_map (fun t => assocs_of (fst t) (snd t) a) assoc_tables) ++ rest)
    (map (@snd akey (list val)) a).
Proof.
  induction a as [|[[[c t] m] v] a [rest IH]]; [exists []; reflexivity|].
  assert (E : exists pre, (pre = [] \/ pre = [(m, v)]) /\
     Permutation (flat_map (fun t' => assocs_of (fst t') (snd t') ((c, t, m, v) :: a)) assoc_tables)
       (pre ++ flat_map (fun t' => assocs_of (fst t') (snd t') a) assoc_tables)).
  { exists (flat_map (fun t' => if cls_eqb c (fst t') && Bool.eqb t (snd t') then [(m, v)] else []) assoc_tables). split.
    - destruct c, t; cbn; auto.
    - transitivity (flat_map (fun t' => (if cls_eqb c (fst t') && Bool.eqb t (snd t') then [(m, v)] else []) ++
         assocs_of (fst t') (snd t') a) assoc_tables).
      + erewrite flat_map_ext; [reflexivity|]. intros [c' t']. unfold assocs_of. cbn [filter fst snd].
        destruct (cls_eqb c c' && Bool.eqb t t'); reflexivity.
      + now rewrite flat_map_two. }
  destruct E as (pr & [->| ->] & E).
  - exists (v :: rest). rewrite E. cbn [app map snd]. rewrite <- IH. symmetry. apply Permutation_middle.
  - exists rest. rewrite E. cbn [app map snd]. now constructor.
Qed.

Lemma heads_ins ls : forall p u p',
  bmap (fun x : N * list val => ins KRelAssociatesMaterial (snd x)) ls p = Done (u, p') -> dense (p_map p) ->
  dense (p_map p') /\ p_tick p' = p_tick p /\ heads (p_map p') = heads (p_map p) ++ map (fun x => hd VOmit (snd x)) ls.
Proof.
  induction ls as [|x ls IH]; intros p u p' H Hd; cbn [bmap] in H.
  - apply bret_inv in H as [_ ->]. split; auto. split; auto. now rewrite app_nil_r.
  - apply bbind_inv in H as (a & q & H0 & H). apply bbind_inv in H as (b & q1 & H1 & H). apply bret_inv in H as [_ ->].
    apply ins_inv in H0 as (_ & _ & -> & D); auto. apply IH in H1 as (D1 & T1 & E); auto. split; auto. split; auto.
    rewrite E. cbn [set_map p_map map]. rewrite heads_app, <- app_assoc. reflexivity.
Qed.

Lemma u_build p u p' : fair o -> build o p = Done (u, p') -> dense (p_map p) -> NoDup (map fst (p_assoc p)) ->
  (p_tick p <= p_tick p')%nat /\ exists rest ts, Permutation (heads (p_map p') ++ rest) (gs p ++ map gid ts) /\ NoDup ts /\
    Forall (fun t => p_tick p <= t < p_tick p')%nat ts.
Proof.
  intros Ho H D A. unfold build in H. apply bbind_inv in H as (q & q1 & E & H). injection E as <- <-.
  apply bbind_inv in H as (ls & q1 & H0 & H).
  assert (T : (p_tick p <= p_tick q1)%nat).
  { assert (S : steps fr (bmap (fun t => walk_pairs o (assocs_of (fst t) (snd t) (p_assoc p))) assoc_tables)) by stq.
    now destruct (S _ _ _ H0 D A) as (_ & _ & T & _). }
  apply (bmap_walk_inv o Ho) in H0 as (F & k & ->); [|intro; now apply assocs_of_NoDup].
  apply concat_perm in F. destruct (assocs_part (p_assoc p)) as [rest HS].
  apply (Permutation_map snd) in F. rewrite <- F in HS. clear F.
  set (l := concat ls) in *. clearbody l. apply bbind_inv in H as (b & q2 & H1 & H).
  apply bbind_inv in H as (n & q3 & H2 & H). apply bret_inv in H as [_ ->].
  assert (A2 : p_assoc q2 = p_assoc p).
  { assert (S : steps frame (bmap (fun x : N * list val => ins KRelAssociatesMaterial (snd x)) l)).
    { apply steps_bmap; [typeclasses eauto|]. intros. apply frame_ins. }
    now destruct (S _ _ _ H1) as [_ ->]. }
  apply heads_ins in H1 as (D1 & T1 & E1); auto. cbn [set_tick p_map p_tick] in *.
  destruct (u_aggregate _ _ _ _ _ _ H2 D1) as (D2 & A3 & T2 & ts & P & N2 & F2); [now rewrite A2|].
  assert (W : waiting q3 = waiting q2).
  { assert (S : steps frame (aggregate o (lit "ProjectSitesLink") (p_project p) (p_sites p))).
    { apply (st_aggregate (A := before_build)). auto. }
    unfold waiting. now destruct (S _ _ _ H2) as [_ ->]. }
  split; [lia|]. exists (map (hd VOmit) rest), ts. split; [|split; auto].
  - unfold gs in P. rewrite W in P. cbn [app] in P.
    assert (P' : Permutation (heads (p_map q3)) (heads (p_map q2) ++ map gid ts)).
    { apply (Permutation_app_inv_r (waiting q2)). rewrite P, <- !app_assoc. apply Permutation_app_head, Permutation_app_comm. }
    rewrite P', E1. apply (Permutation_map (hd VOmit)) in HS. rewrite map_app in HS. rewrite !map_map in HS.
    unfold gs, waiting. rewrite <- !app_assoc. apply Permutation_app_head. rewrite <- HS, <- app_assoc.
    apply Permutation_app_head, Permutation_app_comm.
  - eapply Forall_impl; [|exact F2]. cbn beta. lia.
Qed.

(** ** Whole programs *)

Lemma program_heads i xs ls r : fair o -> program o i xs = Done (ls, r) ->
  dense (p_map r) /\ exists rest ts, Permutation (heads (p_map r) ++ rest) (map gid ts) /\ NoDup ts /\
    Forall (fun t => t < p_tick r)%nat ts.
Proof.
  intros Ho H. assert (Dr : dense (p_map r)).
  { pose proof H as H'. apply program_inv in H' as (p & w & q & H1 & H2 & -> & H3).
    apply start_inv in H1 as (D0 & _).
    assert (G1 : grow anything p q) by (eapply (st_run (A := anything)); eauto).
    assert (G2 : grow anything q r) by (eapply (st_build (A := anything)); eauto).
    exact (proj1 (G2 (proj1 (G1 D0)))). }
  split; auto. apply program_inv in H as (p & w & q & H1 & H2 & -> & H3).
  apply start_done in H1 as (oh & pr & q0 & E & ->).
  assert (A0 : NoDup (map fst (p_assoc empty_proj))) by constructor.
  destruct (u_new_project _ _ _ _ E dense_nil A0) as (D1 & A1 & T1 & ts1 & P1 & N1 & F1).
  assert (W : p_assoc q0 = []).
  { assert (S : steps frame (new_project o i)) by (apply (st_new_project (A := anything)); auto).
    now destruct (S _ _ _ E) as [_ ->]. }
  set (p := mk_proj (p_map q0) (p_tick q0) oh pr [] []) in *.
  destruct (u_run _ _ _ _ _ H2) as (D2 & A2 & T2 & ts2 & P2 & N2 & F2); [exact D1|constructor|].
  destruct (u_build _ _ _ Ho H3 D2 A2) as (T3 & rest & ts3 & P3 & N3 & F3).
  exists rest, (ts1 ++ ts2 ++ ts3). cbn [p p_tick empty_proj] in *. split; [|split].
  - rewrite P3, P2. unfold gs, waiting in *. rewrite W in P1. cbn [p p_map p_assoc map empty_proj heads flat_map app] in *.
    rewrite app_nil_r in P1. rewrite app_nil_r. rewrite P1, !map_app, <- !app_assoc. apply Permutation_refl.
  - assert (N23 : NoDup (ts2 ++ ts3)) by (eapply NoDup_split; eauto).
    apply (NoDup_split _ _ 0 (p_tick q0) (p_tick r)); auto. apply Forall_app.
    split; eapply Forall_impl; try eassumption; cbn beta; lia.
  - repeat (apply Forall_app; split); eapply Forall_impl; try eassumption; cbn beta; lia.
Qed.

Lemma in_heads m n k l : increasing m -> lookup m n = Some (Ent k l) -> rooted k = true -> In (hd VOmit l) (heads m).
Proof.
  intros _ Hl Hk. apply lookup_In in Hl. unfold heads. apply in_flat_map. exists (n, Ent k l). split; auto.
  cbn [snd head_of]. rewrite Hk. now left.
Qed.

Lemma program_drawn i xs ls r n k l : fair o -> program o i xs = Done (ls, r) ->
  lookup (p_map r) n = Some (Ent k l) -> rooted k = true ->
  exists t tl, (t < p_tick r)%nat /\ l = VGuid (o_guid o t) :: tl.
Proof.
  intros Ho H Hl Hk. destruct (program_heads _ _ _ _ Ho H) as (D & rest & ts & P & N1 & F).
  apply in_heads in Hl as Hi; auto using dense_increasing.
  assert (X : In (hd VOmit l) (map gid ts)) by (eapply Permutation_in; [exact P|]; apply in_or_app; now left).
  apply in_map_iff in X as (t & E & Ht). rewrite Forall_forall in F. exists t, (tl l). split; [now apply F|].
  destruct l as [|v l]; [discriminate E|]. cbn [hd tl] in *. now rewrite <- E.
Qed.

Lemma flat_map_NoDup {A C} (f : A -> list C) l a b x :
  NoDup (flat_map f l) -> In a l -> In b l -> In x (f a) -> In x (f b) -> a = b.
Proof.
  induction l as [|c l IH]; cbn [flat_map]; intros Hn Ha Hb Hx Hy; [contradiction|].
  assert (D : forall z, In z (f c) -> forall d, In d l -> ~ In z (f d)).
  { intros z Hz d Hd Hz'. clear - Hn Hz Hd Hz'. induction (f c) as [|y t IHt]; [contradiction|]. cbn [app] in Hn.
    inversion Hn as [|? ? H1 H2]; subst. destruct Hz as [->|Hz]; auto. apply H1, in_or_app. right. apply in_flat_map. eauto. }
  destruct Ha as [->|Ha], Hb as [->|Hb]; auto.
  - exfalso. eapply D; eauto.
  - exfalso. eapply D; eauto.
  - apply IH; auto. clear - Hn. induction (f c); auto. inversion Hn; auto.
Qed.

Lemma NoDup_app_l {A} (a b : list A) : NoDup (a ++ b) -> NoDup a.
Proof.
  induction a as [|x a IH]; cbn [app]; intro H; constructor; inversion H; subst; auto.
  intro Hi. apply H2, in_or_app. now left.
Qed.

Lemma program_unique i xs ls r : fair o -> program o i xs = Done (ls, r) -> no_collision o (p_tick r) ->
  unique_guids (p_map r).
Proof.
  intros Ho H Hc n n' g (k & l & H1 & K1) (k' & l' & H2 & K2).
  destruct (program_heads _ _ _ _ Ho H) as (D & rest & ts & P & N1 & F).
  assert (Nd : NoDup (heads (p_map r))).
  { apply (NoDup_app_l _ rest). eapply Permutation_NoDup; [symmetry; exact P|].
    rewrite Forall_forall in F. clear - N1 F Hc. induction N1 as [|t ts Ht N1 IH]; cbn [map]; constructor.
    - intro Hi. apply in_map_iff in Hi as (t' & E & Hi). injection E as E. apply Ht.
      rewrite <- (Hc _ _ (F t' (or_intror Hi)) (F t (or_introl eq_refl)) E). exact Hi.
    - apply IH. intros x Hx. apply F. now right. }
  apply lookup_In in H1, H2. assert (E : (n, Ent k (VGuid g :: l)) = (n', Ent k' (VGuid g :: l'))).
  { eapply (flat_map_NoDup _ _ _ _ (VGuid g) Nd H1 H2); cbn [snd head_of]; rewrite ?K1, ?K2; now left. }
  now injection E.
Qed.

End Unique.

(** ** After saving and loading *)

Lemma norm_guid v g : norm_val norm_real v = VGuid g -> v = VGuid g.
Proof.
  destruct v; cbn [norm_val]; intro H; try discriminate H; [exact H|].
  repeat match type of H with match ?i with _ => _ end = _ => destruct i end; discriminate H.
Qed.

Lemma has_guid_norm m n g : has_guid (map norm_def m) n g -> has_guid m n g.
Proof.
  intros (k & l & H & K). rewrite lookup_norm in H. destruct (lookup m n) as [[k' l'|s]|] eqn:E; try discriminate.
  cbn [option_map norm_entity] in H. injection H as -> H. destruct l' as [|v l']; [discriminate|]. cbn [map] in H.
  injection H as Hv _. apply norm_guid in Hv as ->. exists k, l'. auto.
Qed.

Lemma loaded_unique v o t i xs ls r :
  sane o -> info_ok i = true -> forallb op_ok xs = true -> existsb is_shading xs = false ->
  program o i xs = Done (ls, r) -> honest [] xs ls -> civil t -> chrono_reads v t -> no_collision o (p_tick r) ->
  exists y, load v (save (mk_ifc (default_header t) (p_map r))) = Done y /\ unique_guids (i_data y).
Proof.
  intros Ho Hi Hx Hs H Hh H1 H2 Hc.
  pose proof (proj1 (builder_loads v o t i xs ls r Ho Hi Hx Hs H Hh H1 H2)) as L.
  eexists. split; [exact L|]. cbn [i_data]. intros n n' g X Y.
  eapply (program_unique o i xs ls r (proj1 Ho) H Hc); eapply has_guid_norm; [exact X|exact Y].
Qed.
