(** What the extractor answers on built models: the shape of the relations. *)

From Coq Require Import String Ascii List NArith ZArith Bool Lia Permutation.
From Verif Require Import Base Prims Kind Types Schema Entity EntityFacts DataMap DataSpec DataMapFacts Extractor
  Float Arith Builder BuilderBase BuilderRun BuilderGrow BuilderSpec BuilderRel BuilderInv BuilderAll.
Import ListNotations.
Open Scope N_scope.
Open Scope builder_scope.

(** ** Shapes of relations *)

Definition shaped (k : kind) (l : list val) : Prop :=
  match k with
  | KRelAggregates => exists r a b, length r = 4%nat /\ l = r ++ [VId a; ids b]
  | KRelContainedInSpatialStructure | KRelDefinesByType =>
      exists r a b, length r = 4%nat /\ l = r ++ [ids b; VId a]
  | KRelVoidsElement | KRelFillsElement => exists r a b, length r = 4%nat /\ l = r ++ [VId a; VId b]
  | _ => True
  end.
Definition shaped_all (m : dmap) : Prop := forall n k l, In (n, Ent k l) m -> shaped k l.
Definition Shp (p p' : proj) : Prop :=
  dense (p_map p) -> dense (p_map p') /\ (shaped_all (p_map p) -> shaped_all (p_map p')).

Lemma shp_pre : preorder Shp.
Proof.
  split.
  - intros p D. auto.
  - intros p q r H1 H2 D. destruct (H1 D) as [D1 S1]. destruct (H2 D1) as [D2 S2]. auto.
Qed.

Definition unrel (k : kind) : bool := negb (is_rel k) || kind_eqb k KRelAssociatesMaterial.

Lemma shp_ins k l : shaped k l -> steps Shp (ins k l).
Proof.
  intros Hs p n p' H D. apply ins_inv in H as (_ & _ & -> & D'); auto. cbn [set_map p_map]. split; auto.
  intros S n' k' l' Hin. apply in_app_or in Hin as [Hin|[E|[]]]; [eauto|]. injection E as _ <- <-. exact Hs.
Qed.

Lemma unrel_shaped k l : unrel k = true -> shaped k l.
Proof. destruct k; intro H; try discriminate H; exact I. Qed.

Global Instance closed_shp : closed unrel Shp.
Proof.
  split; [apply shp_pre|intros k l H; now apply shp_ins, unrel_shaped|].
  intros p n p' H. unfold tick in H. injection H as <- <-. intro D. auto.
Qed.
Global Instance with_modify_shp : with_modify Shp.
Proof.
  split. intros n v p u p' H D. apply modify_inv in H as (l & H & ->). cbn [set_map p_map].
  split.
  - rewrite (put_present _ _ _ _ (dense_increasing _ D) H). destruct D as [D1 D2].
    split; unfold size in *; rewrite map_length; auto.
    rewrite <- D1, map_map. apply map_ext. intros [k e]. cbn [fst]. destruct (N.eqb_spec k n); auto.
  - intros S n' k l' Hin. apply put_keys in Hin as [Hin|Hin]; [|eauto]. injection Hin as _ -> _. exact I.
Qed.
Global Instance with_assoc_shp : with_assoc Shp.
Proof. split. intros l p D. auto. Qed.
Global Instance with_sites_shp : with_sites Shp.
Proof. split. intros l p D. auto. Qed.

Lemma unrel_project k : project_kind k = true -> unrel k = true.
Proof. unfold unrel. destruct k; intro H; first [reflexivity|discriminate H]. Qed.
Lemma simple_unrel k : simple_kind k = true -> unrel k = true.
Proof. unfold simple_kind, unrel. destruct (is_rel k); [discriminate|reflexivity]. Qed.

Section Shapes.
Variable o : oracle.

Let st_w := @st_walk unrel Shp _ o.
Let st_wp := fun X => @st_walk_pairs unrel Shp _ o X.

Lemma shp_owned {X} name (f : list val -> B X) :
  (forall r, length r = 4%nat -> steps Shp (f r)) -> steps Shp (bbind (owned o name) f).
Proof.
  intros H p x p' E. apply bbind_inv in E as (r & q & E1 & E). pose proof (owned_inv _ _ _ _ _ E1) as [Hl _].
  eapply pre_trans; [exact (@st_owned unrel Shp _ o name _ _ _ E1)|exact (H r Hl _ _ _ E)].
  Unshelve. apply shp_pre.
Qed.
Lemma shp_root {X} name (f : list val -> B X) :
  (forall r, length r = 4%nat -> steps Shp (f r)) -> steps Shp (bbind (root o name) f).
Proof.
  intros H p x p' E. apply bbind_inv in E as (r & q & E1 & E).
  assert (Hl : length r = 4%nat).
  { unfold root in E1. apply bbind_inv in E1 as (g & q' & _ & E1). apply bret_inv in E1 as [-> _]. reflexivity. }
  eapply pre_trans; [exact (@st_root unrel Shp _ o name _ _ _ E1)|exact (H r Hl _ _ _ E)].
  Unshelve. apply shp_pre.
Qed.

Ltac sx :=
  repeat first
    [ apply shp_owned; intros ? ?
    | apply shp_root; intros ? ?
    | apply shp_ins; cbn [shaped]; eauto 6; fail
    | apply st_w | apply st_wp
    | one ].

Lemma shp_aggregate a b c : steps Shp (aggregate o a b c).
Proof. unfold aggregate. sx. Qed.
Lemma shp_type_relations a b c : steps Shp (type_relations o a b c).
Proof. unfold type_relations. sx. Qed.
Lemma shp_void_relations a b : steps Shp (void_relations o a b).
Proof. unfold void_relations. sx. Qed.
Lemma shp_fill_relations a : steps Shp (fill_relations o a).
Proof. unfold fill_relations. sx. Qed.
Hint Resolve shp_aggregate shp_type_relations shp_void_relations shp_fill_relations : calls.
Lemma shp_drop_storey a : steps Shp (drop_storey o a).
Proof. unfold drop_storey. sx. Qed.
Lemma shp_drop_building a b : steps Shp (drop_building o a b).
Proof. unfold drop_building. sx. Qed.
Lemma shp_drop_site a b : steps Shp (drop_site o a b).
Proof. unfold drop_site. sx. Qed.
Lemma shp_build : steps Shp (build o).
Proof. unfold build. sx. Qed.

Lemma shp_step w x : steps Shp (step o w x).
Proof.
  pose proof simple_unrel as Hq.
  destruct w, x; cbn [step]; repeat first
    [ one
    | (apply (st_storey_step (A := unrel) Hq); try exact I; try reflexivity) | apply (st_host_step (A := unrel) Hq)
    | apply (st_new_site (A := unrel) Hq) | apply (st_new_building (A := unrel) Hq)
    | apply (st_new_storey (A := unrel) Hq) | apply (st_new_wall (A := unrel) Hq)
    | apply (st_new_slab (A := unrel) Hq) | apply (st_drop_host (A := unrel) Hq)
    | apply (st_single_property (A := unrel) Hq) | apply (st_property_set (A := unrel) Hq)
    | apply (st_relate_properties (A := unrel) _ _ _ eq_refl) | apply shp_drop_storey
    | apply shp_drop_building | apply shp_drop_site ].
  all: typeclasses eauto.
Qed.

Lemma shp_run w xs : steps Shp (run o w xs).
Proof.
  revert w. induction xs as [|x xs IH]; intro w; cbn [run]; [apply steps_ret, shp_pre|].
  apply steps_bind; [apply shp_pre|apply shp_step|]. intros [w' a]. apply steps_bind; [apply shp_pre|apply IH|].
  intros [w'' l]. apply steps_ret, shp_pre.
Qed.

Lemma shp_program i xs ls r : program o i xs = Done (ls, r) -> shaped_all (p_map r).
Proof.
  intro H. apply program_inv in H as (p & w & q & H1 & H2 & -> & H3).
  pose proof H1 as Hs. apply start_inv in Hs as (D0 & _).
  assert (S0 : shaped_all (p_map p)).
  { apply start_done in H1 as (oh & pr & p0 & E & ->). cbn [p_map].
    apply (@st_new_project unrel Shp _ simple_unrel o i unrel_project) in E. apply (E dense_nil). intros n k l []. }
  destruct (shp_run _ _ _ _ _ H2 D0) as [D1 S1]. destruct (shp_build _ _ _ H3 D1) as [D2 S2]. auto.
Qed.

End Shapes.
