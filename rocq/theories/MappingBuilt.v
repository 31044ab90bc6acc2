(** Reading geometry from built models. *)

From Coq Require Import String Ascii List NArith ZArith Bool Lia.
From Verif Require Import Base Prims Float Kind Types WellTyped TypesFacts Schema Entity EntitySpec EntityFacts
  DataMap DataSpec DataMapFacts Header File HeaderSpec FileSpec FileFacts Extractor Builder BuilderRun BuilderBase
  BuilderSpec BuilderLoadSpec BuilderGood BuilderLoad Mapping MapSpec MappingFacts MappingFacts2.
Import ListNotations.
Open Scope N_scope.

Section Built.
Variables (m : dmap) (sh : bool).
Hypothesis inc : increasing m.
Hypothesis all : forall n e, lookup m n = Some e -> good_ent (kinds m) sh e.

Lemma built_typed n k l : lookup m n = Some (Ent k l) -> wf_ent k l.
Proof. intro H. now apply all, good_wf in H. Qed.

Lemma built_leads i k l ks n : lookup m i = Some (Ent k l) -> leads k l ks n ->
  exists k' a, lookup m n = Some (Ent k' a) /\ In k' ks.
Proof.
  intros Hi Hl. pose proof Hl as (j & v & Hj & _).
  destruct (leads_checked _ _ _ _ (built_typed _ _ _ Hi) Hl) as (ks' & Hk & Hc).
  apply entity_refs_checked in Hc. destruct (all _ _ Hi) as (r & H1 & _ & H & _). cbn [entity_refs] in Hc. rewrite H1 in Hc.
  assert (HF : loose sh k = false).
  { unfold loose. destruct k; try (now rewrite andb_false_r); destruct Hj. }
  specialize (H HF). apply refs_good in H. rewrite Forall_forall in H. destruct (H _ Hc) as (k' & Hk' & Hin).
  cbn [fst snd] in *. apply kinds_some in Hk' as (e & He & <-). pose proof (all _ _ He) as Hg.
  destruct e as [k1 a|s]; [|destruct Hg]. exists k1, a. auto.
Qed.

Lemma built_flat j k l i a : lookup m j = Some (Ent k l) -> In i (map fst (follows k)) -> nth_error l i <> Some (VEnt a).
Proof.
  intros Hj Hi Hv. pose proof (built_typed _ _ _ Hj) as Hw. destruct (all _ _ Hj) as (r & Hr & _ & _ & _ & Hd).
  assert (Hin : In (VEnt a) l) by (eapply nth_error_In; eauto).
  destruct k; cbn [follows map fst In] in Hi; try contradiction; cbn [drawn] in Hd;
    try (rewrite forallb_forall in Hd; apply Hd in Hin; discriminate);
    clear - Hw Hv Hi; take Hw;
    repeat match goal with
    | H : wt (TRef _ _) _ = true |- _ => apply wt_ref in H as (? & ->)
    | H : wt (TList _) _ = true |- _ => apply wt_list in H as (? & -> & H)
    | H : wt (TOpt (TRef _ _)) _ = true |- _ => apply opt_refs in H as [->|[->|(? & ->)]]
    end;
    repeat (destruct Hi as [<-|Hi]; [cbn [nth_error] in Hv; discriminate|]); destruct Hi.
Qed.

Lemma built_uses k l k' l' : uses m k l k' l' ->
  forall i, lookup m i = Some (Ent k l) -> exists j, lookup m j = Some (Ent k' l').
Proof.
  induction 1 as [k l|k l ks n k1 l1 k2 l2 Hl Hn Hk Hu IH|k l i k1 l1 k2 l2 Hi Hv Hu IH]; intros j Hj; eauto.
  exfalso. revert Hv. eapply built_flat; [exact Hj|]. change i with (fst (i, [k1])). now apply in_map.
Qed.

Lemma kind_at n k a : kinds m n = Some k -> lookup m n = Some a -> kind_of a = k.
Proof. intros H1 H2. apply kinds_some in H1 as (e & H & <-). congruence. Qed.

Lemma built_not_lacking i k l : lookup m i = Some (Ent k l) -> ~ lacking m k l.
Proof.
  intros Hi [(k' & l' & ks & n & Hu & Hl & Hn)|(l' & Hu & Hn)]; destruct (built_uses _ _ _ _ Hu _ Hi) as (j & Hj).
  - destruct (built_leads _ _ _ _ _ Hj Hl) as (k1 & a & H1 & H2). now apply (Hn _ _ H1).
  - destruct (all _ _ Hj) as (r & _ & _ & _ & _ & (a & b & -> & Ha & Hb) & _).
    change (ids [a; b]) with (VList (map VId [a; b])) in Hn. apply uneven_line in Hn as [Hn|(n & n' & v & v' & H1 & _ & H2 & _)]; [discriminate|].
    destruct H1 as [<-|[<-|[]]]; [apply (kind_at _ _ _ Ha) in H2|apply (kind_at _ _ _ Hb) in H2]; discriminate.
Qed.

Lemma built_maps i k l : lookup m i = Some (Ent k l) -> In k readable_kinds ->
  exists x, mapping m k l = Some (Done x) /\ says m k l x.
Proof.
  intros Hi Hk. destruct (mapping m k l) as [x|] eqn:E; [|now apply mapping_none in E].
  destruct (mapping_reads m built_typed _ _ _ (built_typed _ _ _ Hi) E) as [(a & -> & H & _)|[_ H]]; eauto.
  exfalso. exact (built_not_lacking _ _ _ Hi H).
Qed.

Lemma no_unknown n : ~ unknown_at m n.
Proof. intros (s & Hs). now apply all in Hs. Qed.

Lemma built_good i k l : lookup m i = Some (Ent k l) -> k <> KRelContainedInSpatialStructure -> good_refs m (Ent k l).
Proof.
  intros Hi Hk ks n Hc. destruct (all _ _ Hi) as (r & H1 & _ & H & _).
  apply entity_refs_checked in Hc. cbn [entity_refs] in Hc. rewrite H1 in Hc.
  assert (HF : loose sh k = false).
  { unfold loose. destruct (kind_eqb k KRelContainedInSpatialStructure) eqn:E; [apply kind_eqb_eq in E; contradiction|].
    apply andb_false_r. }
  specialize (H HF). apply refs_good in H.
  rewrite Forall_forall in H. destruct (H _ Hc) as (k' & Hk' & Hin). cbn [fst snd] in *.
  apply kinds_some in Hk' as (e & He & <-). exists e. split; auto. now left.
Qed.

Lemma built_context i l : lookup m i = Some (Ent KShapeRepresentation l) ->
  exists c, parent_context m l = Done c /\ context_of m l c.
Proof.
  intro Hi. destruct (context_cases m built_typed built_good _ _ Hi) as [(c & H1 & H2 & _)|[_ (n & _ & H)]]; eauto.
  exfalso. destruct H as [H|(a & p & _ & _ & H)]; now apply no_unknown in H.
Qed.

Lemma built_shapes i k l : lookup m i = Some (Ent k l) -> In k product_kinds ->
  exists ss, product_shapes m l = Done ss /\ shapes_are m l ss.
Proof.
  intros Hi Hk. destruct (shapes_cases m built_typed built_good _ _ _ Hi Hk) as [(c & H1 & H2 & _)|[_ (n & _ & H)]]; eauto.
  exfalso. destruct H as [H|(a & b & ns & j & _ & _ & H)]; now apply no_unknown in H.
Qed.

End Built.

Lemma program_reads o i xs ls r :
  sane o -> info_ok i = true -> forallb op_ok xs = true ->
  program o i xs = Done (ls, r) -> honest [] xs ls ->
  forall n k l, lookup (p_map r) n = Some (Ent k l) -> In k readable_kinds ->
  exists x, mapping (p_map r) k l = Some (Done x) /\ says (p_map r) k l x.
Proof.
  intros Ho Hi Hx H Hh n k l Hn Hk. destruct (program_good _ _ _ _ _ Ho Hi Hx H Hh) as [(D & G & _) _].
  eapply built_maps; eauto.
Qed.

Lemma program_shapes o i xs ls r :
  sane o -> info_ok i = true -> forallb op_ok xs = true ->
  program o i xs = Done (ls, r) -> honest [] xs ls ->
  (forall n k l, lookup (p_map r) n = Some (Ent k l) -> In k product_kinds ->
     exists ss, product_shapes (p_map r) l = Done ss /\ shapes_are (p_map r) l ss) /\
  (forall n l, lookup (p_map r) n = Some (Ent KShapeRepresentation l) ->
     exists c, parent_context (p_map r) l = Done c /\ context_of (p_map r) l c).
Proof.
  intros Ho Hi Hx H Hh. destruct (program_good _ _ _ _ _ Ho Hi Hx H Hh) as [(D & G & _) _].
  split; intros; [eapply built_shapes|eapply built_context]; eauto.
Qed.
