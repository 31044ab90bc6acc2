(** Walking through built models: the items of products. *)

From Coq Require Import String Ascii List NArith ZArith Bool Lia Permutation.
From Verif Require Import Base Prims Float Arith Kind Types Schema Entity EntityFacts DataMap Extractor Mapping Walk
  Builder BuilderRun BuilderSpec ExtractSpec HistorySpec MoveSpec FormSpec BuilderForm2 WalkSpec.
Import ListNotations.
Open Scope N_scope.

Lemma kind_eqb_same k : kind_eqb k k = true.
Proof. now apply kind_eqb_eq. Qed.

Lemma get_at k m n l : lookup m n = Some (Ent k l) -> get k m n = Done l.
Proof. intro H. unfold get. now rewrite H, kind_eqb_same. Qed.
Lemma untyped_at m n e : lookup m n = Some e -> get_untyped m n = Done e.
Proof. intro H. unfold get_untyped. now rewrite H. Qed.
Lemma vec_coords v : coords [vec v] = coords3 v.
Proof. now destruct v as [[x y] z]. Qed.
Lemma get_vec_at k m n v : lookup m n = Some (Ent k [vec v]) -> get_vec k m n = Done (coords3 v).
Proof. intro H. unfold get_vec. rewrite (get_at _ _ _ _ H). cbn [obind]. now rewrite vec_coords. Qed.

Lemma coord_list2 l : coord_list [VList (map vec_2 l); VOmit] = map coords2 l.
Proof. unfold coord_list. cbn [nth_error]. induction l as [|v l IH]; auto. cbn [map flat_map]. now rewrite IH. Qed.
Lemma coord_list3 l : coord_list [VList (map vec l); VOmit] = map coords3 l.
Proof.
  unfold coord_list. cbn [nth_error]. induction l as [|[[x y] z] l IH]; auto. cbn [map flat_map vec]. now rewrite IH.
Qed.

Section Items.
Variable m : dmap.

Lemma outlined_read p f : outlined m p f ->
  exists k l, lookup m p = Some (Ent k l) /\
    match k with
    | KRectangleProfileDef => map_rectangle m l = Done (outline_read f)
    | KArbitraryClosedProfileDef => map_arbitrary m l = Done (outline_read f)
    | _ => False
    end.
Proof.
  destruct f as [a b|l|l]; cbn [outlined].
  - intros (ax & c & H1 & H2 & H3). do 2 eexists. split; [exact H1|]. cbn.
    unfold map_rectangle. cbn [attr_id nth_error omap]. unfold map_axis. rewrite (untyped_at _ _ _ H2). cbn [obind].
    unfold map_axis2. cbn [the_id attr_id nth_error obind]. unfold get_vec. rewrite (get_at _ _ _ _ H3). reflexivity.
  - intros (c & q & H1 & H2 & H3). do 2 eexists. split; [exact H1|]. cbn.
    unfold map_arbitrary. cbn [the_id attr_id nth_error obind]. unfold curve_points.
    rewrite (untyped_at _ _ _ H2). cbn [obind the_id attr_id nth_error]. rewrite (untyped_at _ _ _ H3). cbn [obind].
    now rewrite coord_list2.
  - intros (c & q & H1 & H2 & H3). do 2 eexists. split; [exact H1|]. cbn.
    unfold map_arbitrary. cbn [the_id attr_id nth_error obind]. unfold curve_points.
    rewrite (untyped_at _ _ _ H2). cbn [obind the_id attr_id nth_error]. rewrite (untyped_at _ _ _ H3). cbn [obind].
    now rewrite coord_list3.
Qed.

(** The representation [r] shows the items [x] if the recursion may go [d] deeper. *)
Definition shows (d : nat) (r : N) (x : list item) : Prop :=
  exists l, lookup m r = Some (Ent KShapeRepresentation l) /\ forall fuel, (d < fuel)%nat -> visit_items fuel m l = Done x.

Lemma body_shows r f : body m r f -> shows 0 r [ISolid (form_read f)].
Proof.
  destruct f as [[out dir] len]. intros (ctx & s & p & d & H1 & H2 & H3 & H4). eexists. split; [exact H1|].
  intros [|fuel] Hf; [lia|]. cbn [visit_items attr_ids nth_error val_ids flat_map app maps].
  rewrite (untyped_at _ _ _ H2). cbn [obind]. unfold map_solid. cbn [the_id attr_id nth_error obind omap].
  apply outlined_read in H4 as (k & l & Hk & H4). rewrite (untyped_at _ _ _ Hk). cbn [obind].
  rewrite (get_vec_at _ _ _ _ H3). destruct k; try contradiction; rewrite H4; reflexivity.
Qed.

Lemma axis_shows r v : FormSpec.axis m r v -> shows 0 r [IOther].
Proof.
  intros (ctx & l & a & b & H1 & H2 & _). eexists. split; [exact H1|].
  intros [|fuel] Hf; [lia|]. cbn [visit_items attr_ids nth_error val_ids flat_map app maps].
  rewrite (untyped_at _ _ _ H2). reflexivity.
Qed.

Lemma directed_get n v : directed m n v -> get_vec KDirection3D m n = Done (coords3 (vnormalize v)).
Proof. apply get_vec_at. Qed.
Lemma pointed_get n v : pointed m n v -> get_vec KPoint3D m n = Done (coords3 v).
Proof. apply get_vec_at. Qed.

Lemma operator_read tr keep t origin : operator m tr t ->
  exists l, lookup m tr = Some (Ent KCartesianTransformationOperator3DnonUniform l) /\
    map_transform false m l = Done (move_read (keep, t, origin)).
Proof.
  intros (x & y & q & z & H & Hx & Hy & Hq & Hz). eexists. split; [exact H|].
  unfold map_transform, opt_vec. cbn [nth_error the_opt_real].
  rewrite (pointed_get _ _ Hq), (directed_get _ _ Hx), (directed_get _ _ Hy), (directed_get _ _ Hz). reflexivity.
Qed.

Lemma mapped_shows d mv r r' x : MoveSpec.mapped m mv r r' -> shows d r' x ->
  shows (S d) r [IMapped (move_axis mv) (move_read mv) x].
Proof.
  destruct mv as [[keep t] origin].
  intros (ctx & i & it & mp & tr & ax & pt & H1 & H2 & H3 & H4 & H5 & H6 & _) (l & Hl & Hx).
  eexists. split; [exact H1|]. intros [|fuel] Hf; [lia|].
  cbn [visit_items attr_ids nth_error val_ids flat_map app maps].
  rewrite (untyped_at _ _ _ H2). cbn [obind]. unfold map_item. cbn [nth_error id_or_get].
  rewrite (get_at _ _ _ _ H3). cbn [obind nth_error id_or_get]. rewrite (get_at _ _ _ _ H4), (get_at _ _ _ _ Hl).
  cbn [obind the_id attr_id nth_error]. apply (operator_read tr keep t origin) in H6 as (lt & H6 & Ht).
  rewrite (untyped_at _ _ _ H6). cbn [obind]. rewrite Ht. cbn [obind].
  unfold map_axis3. cbn [the_id attr_id nth_error obind omap]. rewrite (pointed_get _ _ H5). cbn [obind fst snd].
  rewrite Hx by lia. reflexivity.
Qed.

Lemma moved_shows mvs r r' x d : moved m mvs r r' -> shows d r' x -> shows (length mvs + d) r (after mvs x).
Proof.
  induction 1 as [r|mvs mv r r1 r' _ IH Hm]; intro Hx; [exact Hx|].
  rewrite app_length, PeanoNat.Nat.add_comm. cbn [length PeanoNat.Nat.add].
  replace (d + (length mvs + 1))%nat with (S (length mvs + d)) by lia.
  unfold after. rewrite fold_left_app. cbn [fold_left]. apply (mapped_shows _ _ _ r1); auto.
Qed.

Lemma maps_shows d rs xs : Forall2 (shows d) rs xs ->
  exists ss, maps (get KShapeRepresentation m) rs = Done ss /\
    forall fuel, (d < fuel)%nat -> maps (visit_items fuel m) ss = Done xs.
Proof.
  induction 1 as [|r x rs xs (l & Hl & Hx) _ (ss & E & Hs)].
  - exists []. auto.
  - exists (l :: ss). cbn [maps]. rewrite (get_at _ _ _ _ Hl), E. split; auto.
    intros fuel Hf. rewrite Hx, Hs by auto. reflexivity.
Qed.

Lemma val_ids_map ns : val_ids (map VId ns) = ns.
Proof. induction ns as [|n ns IH]; auto. cbn [map val_ids flat_map app]. f_equal. exact IH. Qed.

Lemma product_shows n d rs xs : drawn m n rs -> Forall2 (shows d) rs xs ->
  exists k l, lookup m n = Some (Ent k l) /\ forall fuel, (d < fuel)%nat -> visit_product fuel m l = Done xs.
Proof.
  intros (sh & H1 & H2) HF. unfold shape_of in H1. destruct (lookup m n) as [[k l|s]|]; try discriminate H1.
  exists k, l. split; auto. intros fuel Hf. unfold visit_product, product_shapes, attr_id.
  destruct (nth_error l 6) as [v|]; [|discriminate H1]. destruct v; try discriminate H1. injection H1 as ->.
  rewrite (get_at _ _ _ _ H2). cbn [obind attr_ids nth_error]. rewrite val_ids_map.
  apply maps_shows in HF as (ss & -> & Hs). cbn [obind]. auto.
Qed.

Lemma met_shows n rs rs' f ax mvs :
  depicts m rs f ax -> drawn m n rs' -> Forall2 (moved m mvs) rs' rs ->
  exists k l, lookup m n = Some (Ent k l) /\
    forall fuel, (length mvs < fuel)%nat -> visit_product fuel m l = Done (met f ax mvs).
Proof.
  intros Hd Hn HF. eapply product_shows; [exact Hn|]. unfold met.
  destruct ax as [v|]; cbn [depicts] in Hd.
  - destruct Hd as (r & x & -> & Hb & Ha). inversion HF as [|r1 ? l1 ? M1 M2]; subst. inversion M2 as [|r2 ? l2 ? M3 M4]; subst.
    inversion M4; subst. apply body_shows in Hb. apply axis_shows in Ha.
    constructor; [|constructor; [|constructor]]; rewrite (plus_n_O (length mvs)); eapply moved_shows; eauto.
  - destruct Hd as (r & -> & Hb). inversion HF as [|r1 ? l1 ? M1 M2]; subst. inversion M2; subst. apply body_shows in Hb.
    constructor; [|constructor]. rewrite (plus_n_O (length mvs)). eapply moved_shows; eauto.
Qed.

End Items.
