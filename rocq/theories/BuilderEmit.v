(** The relations made when a scope is left are the ones that were waiting. *)

From Coq Require Import String Ascii List NArith ZArith Bool Lia Permutation.
From Coq Require Import ZifyBool ZifyNat ZifyN.
From Verif Require Import Base Prims Float Arith Kind Types Schema Entity EntityFacts DataMap DataSpec DataMapFacts
  Extractor Builder BuilderRun BuilderBase BuilderGrow BuilderSpec BuilderRel BuilderRel2.
Import ListNotations.
Open Scope N_scope.
Open Scope builder_scope.

(** [c] adds the facts [E]. *)
Definition emits {A} (c : B A) (E : list fact) : Prop :=
  forall p a p', c p = Done (a, p') -> dense (p_map p) ->
    dense (p_map p') /\ Permutation (facts (p_map p')) (facts (p_map p) ++ E).

Lemma emits_perm {A} (c : B A) E E' : Permutation E E' -> emits c E -> emits c E'.
Proof. intros HE H p a p' Hc Hd. destruct (H _ _ _ Hc Hd) as [D P]. split; auto. now rewrite P, HE. Qed.

Lemma emits_bind {A C} (c : B A) (f : A -> B C) E F :
  emits c E -> (forall a, emits (f a) F) -> emits (bbind c f) (E ++ F).
Proof.
  intros H1 H2 p b p' H Hd. apply bbind_inv in H as (a & q & Ha & Hb).
  destruct (H1 _ _ _ Ha Hd) as [D1 P1]. destruct (H2 _ _ _ _ Hb D1) as [D2 P2].
  split; auto. now rewrite P2, P1, app_assoc.
Qed.

Lemma emits_quiet {A} (c : B A) : steps (grow quiet) c -> emits c [].
Proof.
  intros H p a p' Hc Hd. pose proof (H _ _ _ Hc) as G. destruct (G Hd) as [D _]. split; auto.
  now rewrite (facts_grow _ _ G Hd), app_nil_r.
Qed.

Lemma emits_ins k l : emits (ins k l) (facts_of k l).
Proof.
  intros p n p' H Hd. apply ins_inv in H as (_ & _ & -> & D); auto. split; auto. cbn [set_map p_map].
  rewrite facts_app. unfold facts at 2. cbn [flat_map snd]. now rewrite app_nil_r.
Qed.

Lemma emits_ret {A} (a : A) : emits (bret a) [].
Proof. apply emits_quiet. apply steps_ret. apply grow_pre. Qed.

Lemma emits_bmap_index {A C} (f : N -> A -> B C) (g : A -> list fact) i l :
  (forall i a, emits (f i a) (g a)) -> emits (bmap_index f i l) (flat_map g l).
Proof.
  intro H. revert i. induction l as [|a l IH]; intro i; cbn [bmap_index flat_map]; [apply emits_ret|].
  apply emits_bind; [apply H|]. intro c. rewrite <- (app_nil_r (flat_map g l)).
  apply emits_bind; [apply IH|]. intro. apply emits_ret.
Qed.

Lemma emits_bmap {A C} (f : A -> B C) (g : A -> list fact) l :
  (forall a, emits (f a) (g a)) -> emits (bmap f l) (flat_map g l).
Proof.
  intro H. induction l as [|a l IH]; cbn [bmap flat_map]; [apply emits_ret|].
  apply emits_bind; [apply H|]. intro c. rewrite <- (app_nil_r (flat_map g l)).
  apply emits_bind; [apply IH|]. intro. apply emits_ret.
Qed.

(** ** Facts of the relations *)

Lemma ids_of l : flat_map (fun v => match v with VId n => [n] | _ => [] end) (map VId l) = l.
Proof. induction l; cbn [map flat_map app]; congruence. Qed.

Lemma ids_at_4 r v w : length r = 4%nat -> ids_at (r ++ [v; w]) 4 = ids_at [v] 0.
Proof. destruct r as [|a [|b [|c [|d [|e r]]]]]; intro H; try discriminate H. reflexivity. Qed.
Lemma ids_at_5 r v w : length r = 4%nat -> ids_at (r ++ [v; w]) 5 = ids_at [w] 0.
Proof. destruct r as [|a [|b [|c [|d [|e r]]]]]; intro H; try discriminate H. reflexivity. Qed.
Lemma ids_at_list l : ids_at [ids l] 0 = l.
Proof. unfold ids_at, ids. cbn [nth_error]. apply ids_of. Qed.
Lemma ids_at_one n : ids_at [VId n] 0 = [n].
Proof. reflexivity. Qed.

Lemma fpairs_one k a l : fpairs k (list_prod [a] l) = map (FPair k a) l.
Proof. cbn [list_prod]. rewrite app_nil_r. unfold fpairs. rewrite map_map. reflexivity. Qed.

Lemma facts_agg r a l :
  length r = 4%nat -> facts_of KRelAggregates (r ++ [VId a; ids l]) = node_facts (a, l).
Proof.
  intro H. cbn [facts_of]. rewrite ids_at_4, ids_at_5, ids_at_list, ids_at_one, fpairs_one by auto. reflexivity.
Qed.

Lemma facts_cont r a l :
  length r = 4%nat ->
  facts_of KRelContainedInSpatialStructure (r ++ [ids l; VId a]) =
  [FOne KRelContainedInSpatialStructure a] ++ map (FPair KRelContainedInSpatialStructure a) l.
Proof.
  intro H. cbn [facts_of]. rewrite ids_at_4, ids_at_5, ids_at_list, ids_at_one, fpairs_one by auto. reflexivity.
Qed.

Lemma facts_types r a l :
  length r = 4%nat -> facts_of KRelDefinesByType (r ++ [ids l; VId a]) = map (FPair KRelDefinesByType a) l.
Proof.
  intro H. cbn [facts_of]. now rewrite ids_at_4, ids_at_5, ids_at_list, ids_at_one, fpairs_one.
Qed.

Lemma facts_voids r a b :
  length r = 4%nat -> facts_of KRelVoidsElement (r ++ [VId a; VId b]) = [FPair KRelVoidsElement a b].
Proof. intro H. cbn [facts_of]. now rewrite ids_at_4, ids_at_5, !ids_at_one. Qed.
Lemma facts_fills r a b :
  length r = 4%nat -> facts_of KRelFillsElement (r ++ [VId a; VId b]) = [FPair KRelFillsElement a b].
Proof. intro H. cbn [facts_of]. now rewrite ids_at_4, ids_at_5, !ids_at_one. Qed.
Lemma facts_assoc r a l :
  length r = 4%nat ->
  facts_of KRelAssociatesMaterial (r ++ [ids l; VId a]) = map (FPair KRelAssociatesMaterial a) l.
Proof.
  intro H. cbn [facts_of]. now rewrite ids_at_4, ids_at_5, ids_at_list, ids_at_one, fpairs_one.
Qed.

(** ** Leaving scopes *)

Section Emit.
Variable o : oracle.
Hypothesis Ho : fair o.

Lemma root_inv name p r p' :
  root o name p = Done (r, p') -> length r = 4%nat /\ p' = set_tick (S (p_tick p)) p.
Proof.
  unfold root, fresh_guid. intro H. apply bbind_inv in H as (g & q & H1 & H2).
  apply bbind_inv in H1 as (t & q1 & H1 & H3). apply bret_inv in H3 as [-> ->].
  unfold tick in H1. injection H1 as <- <-.
  apply bret_inv in H2 as [-> ->]. split; reflexivity.
Qed.

Lemma emits_owned {A} name (f : list val -> B A) E :
  (forall r, length r = 4%nat -> emits (f r) E) -> emits (bbind (owned o name) f) E.
Proof.
  intros H p a p' Hc Hd. apply bbind_inv in Hc as (r & q & H1 & H2).
  apply owned_inv in H1 as [Hl ->]. exact (H r Hl _ _ _ H2 Hd).
Qed.

Lemma emits_root {A} name (f : list val -> B A) E :
  (forall r, length r = 4%nat -> emits (f r) E) -> emits (bbind (root o name) f) E.
Proof.
  intros H p a p' Hc Hd. apply bbind_inv in Hc as (r & q & H1 & H2).
  apply root_inv in H1 as [Hl ->]. exact (H r Hl _ _ _ H2 Hd).
Qed.

Lemma emits_walk {A} l (f : list N -> B A) E :
  (forall r, Permutation r l -> emits (f r) E) -> emits (bbind (walk o l) f) E.
Proof.
  intros H p a p' Hc Hd. apply bbind_inv in Hc as (r & q & H1 & H2).
  pose proof (walk_perm _ _ _ _ _ Ho H1) as Hp. unfold walk, tick in H1. apply bbind_inv in H1 as (t & q1 & H1 & H3).
  injection H1 as <- <-. apply bret_inv in H3 as [_ ->]. exact (H r Hp _ _ _ H2 Hd).
Qed.

Lemma emits_walk_pairs {V A} (l : list (N * V)) (f : list (N * V) -> B A) E :
  NoDup (map fst l) -> (forall r, Permutation r l -> emits (f r) E) -> emits (bbind (walk_pairs o l) f) E.
Proof.
  intros Hn H p a p' Hc Hd. apply bbind_inv in Hc as (r & q & H1 & H2).
  pose proof (walk_pairs_perm _ _ _ _ _ Ho Hn H1) as Hp.
  pose proof (st_walk_pairs (A := anything) (R := frame) o l _ _ _ H1) as F.
  unfold walk_pairs, walk, tick in H1. apply bbind_inv in H1 as (ks & q1 & H1 & H3).
  apply bbind_inv in H1 as (t & q2 & H1 & H4). injection H1 as <- <-.
  apply bret_inv in H4 as [_ ->]. apply bret_inv in H3 as [_ ->]. exact (H r Hp _ _ _ H2 Hd).
Qed.

Lemma emits_aggregate name a l : emits (aggregate o name a l) (node_facts (a, l)).
Proof.
  unfold aggregate. apply emits_walk. intros r Hr. apply emits_root. intros t Ht.
  eapply emits_perm; [|apply emits_ins]. rewrite facts_agg by auto. unfold node_facts. cbn [fst snd].
  apply Permutation_app_head. now apply Permutation_map.
Qed.

Definition types_facts (l : list (N * list N)) : list fact :=
  flat_map (fun x => map (FPair KRelDefinesByType (fst x)) (snd x)) l.

Lemma types_of_NoDup c st : NoDup (map fst (s_types st)) -> NoDup (map fst (types_of c st)).
Proof.
  unfold types_of. generalize (s_types st) as l. induction l as [|[[c' n] vs] l IH]; intro H; [constructor|].
  cbn [map filter fst snd] in *. inversion H; subst. destruct (cls_eqb c' c) eqn:E; auto.
  apply cls_eqb_eq in E. subst c'. cbn [map fst snd]. constructor; auto. intro Hi. apply H2.
  rewrite map_map in Hi. cbn [fst] in Hi. apply in_map_iff in Hi as (x & <- & Hx).
  apply filter_In in Hx as [Hx Ex]. apply cls_eqb_eq in Ex. apply in_map_iff. exists x. split; auto.
  destruct x as [[cx nx] vx]. cbn in *. now subst.
Qed.

Lemma emits_type_relations c name st :
  NoDup (map fst (s_types st)) -> emits (type_relations o c name st) (types_facts (types_of c st)).
Proof.
  intro Hn. unfold type_relations. apply emits_walk_pairs; [now apply types_of_NoDup|]. intros r Hr.
  eapply emits_perm; [apply Permutation_flat_map, Hr|].
  apply emits_bmap_index. intros i x. apply emits_owned. intros t Ht. apply emits_walk. intros w Hw.
  eapply emits_perm; [|apply emits_ins]. rewrite facts_types by auto. now apply Permutation_map.
Qed.

Lemma flat_map_single {A C} (f : A -> C) l : flat_map (fun x => [f x]) l = map f l.
Proof. induction l; cbn; congruence. Qed.

Lemma emits_void_relations name l :
  NoDup (map fst l) -> emits (void_relations o name l) (map void_fact l).
Proof.
  intro Hn. unfold void_relations. apply emits_walk_pairs; auto. intros r Hr.
  eapply emits_perm; [apply Permutation_map, Hr|]. rewrite <- flat_map_single.
  apply emits_bmap_index. intros i x. apply emits_owned. intros t Ht.
  eapply emits_perm; [|apply emits_ins]. now rewrite facts_voids.
Qed.

Lemma emits_fill_relations st :
  NoDup (map fst (s_fills st)) -> emits (fill_relations o st) (map fill_fact (s_fills st)).
Proof.
  intro Hn. unfold fill_relations. apply emits_walk_pairs; auto. intros r Hr.
  eapply emits_perm; [apply Permutation_map, Hr|]. rewrite <- flat_map_single.
  apply emits_bmap_index. intros i x. apply emits_owned. intros t Ht.
  eapply emits_perm; [|apply emits_ins]. now rewrite facts_fills.
Qed.

Lemma types_split st :
  Permutation (flat_map type_facts (s_types st))
    (types_facts (types_of CWall st) ++ types_facts (types_of CSlab st) ++ types_facts (types_of CRoof st) ++
     types_facts (types_of CWindow st) ++ types_facts (types_of CShading st)).
Proof.
  unfold types_of, types_facts. induction (s_types st) as [|[[c n] vs] l IH]; auto.
  cbn [filter fst snd flat_map]. destruct c; cbn [cls_eqb map flat_map type_facts fst snd]; perm.
Qed.

Lemma elems_split st :
  Permutation (map (elem_fact (s_id st)) (s_elems st))
    (map (FPair KRelContainedInSpatialStructure (s_id st))
       (elems_of CWall st ++ elems_of CSlab st ++ elems_of CRoof st ++ elems_of CWindow st ++ elems_of CShading st) ++
     map (FPair KRelAggregates (s_id st)) (elems_of CSpace st)).
Proof.
  generalize (s_id st) as i. intro i. unfold elems_of. induction (s_elems st) as [|[c n] l IH]; auto.
  change (map (elem_fact i) ((c, n) :: l)) with ([elem_fact i (c, n)] ++ map (elem_fact i) l).
  cbn [filter fst snd]. destruct c; cbn [cls_eqb elem_fact map fst snd];
    match goal with
    | |- context [n :: ?t] => change (n :: t) with ([n] ++ t)
    | |- context [FPair KRelAggregates i n :: map ?f ?t] =>
        change (FPair KRelAggregates i n :: map f t) with ([FPair KRelAggregates i n] ++ map f t)
    end; rewrite ?map_app in *; cbn [map] in *; perm.
Qed.

Lemma emits_drop_storey b st : bounded b st -> emits (drop_storey o st) (storey_facts st).
Proof.
  intros (H1 & H2 & H3 & H4 & _). unfold drop_storey.
  eapply emits_perm; [|apply emits_owned; intros r Hr;
    apply emits_bind; [apply (emits_type_relations CWall); auto|intro];
    apply emits_walk; intros walls Hw;
    apply emits_bind; [apply (emits_type_relations CSlab); auto|intro];
    apply emits_walk; intros slabs Hs;
    apply emits_bind; [apply (emits_type_relations CRoof); auto|intro];
    apply emits_walk; intros roofs Hf;
    apply emits_bind; [apply emits_void_relations; auto|intro];
    apply emits_bind; [apply emits_void_relations; auto|intro];
    apply emits_bind; [apply (emits_type_relations CWindow); auto|intro];
    apply emits_bind; [apply emits_fill_relations; auto|intro];
    apply emits_walk; intros windows Hx;
    apply emits_bind; [apply (emits_type_relations CShading); auto|intro];
    apply emits_walk; intros shadings Hh;
    apply emits_bind;
      [eapply emits_perm; [|apply emits_ins]; rewrite facts_cont by auto; rewrite Hw, Hs, Hf, Hx, Hh; apply Permutation_refl|intro];
    apply emits_bind; [apply emits_aggregate|intro; apply emits_ret]].
  pose proof (types_split st) as T. pose proof (elems_split st) as L.
  unfold storey_facts, node_facts. cbn [fst snd]. perm.
Qed.
End Emit.
