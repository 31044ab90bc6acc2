(** Every object of a built model has a row of its kind. *)

From Coq Require Import String Ascii List NArith ZArith Bool Lia Permutation.
From Coq Require Import ZifyBool ZifyNat ZifyN.
From Verif Require Import Base Prims Float Kind Types WellTyped Schema Entity EntityFacts DataMap DataSpec DataMapFacts
  Arith Builder BuilderRun BuilderBase BuilderGrow BuilderAny BuilderSpec BuilderLoadSpec TemplateSpec BuilderGood
  BuilderGood2 BuilderGood3 BuilderAll BuilderLoad.
Import ListNotations.
Open Scope N_scope.

(** ** The start of a model *)

Lemma start_explicit o i : start o i = Done (mk_proj (opening_objects o i) 3 6 14 [] []).
Proof. vm_compute. reflexivity. Qed.

Definition unproject (k : kind) : bool := negb (project_kind k).

Lemma simple_unproject k : simple_kind k = true -> unproject k = true.
Proof. unfold simple_kind, unproject. destruct k; intro H; first [reflexivity|discriminate H]. Qed.
Lemma rel_unproject k : is_rel k = true -> before_build k = true -> unproject k = true.
Proof. intros H _. destruct k; first [reflexivity|discriminate H]. Qed.

Lemma run_unproject o w xs : steps (grow unproject) (run o w xs).
Proof.
  revert w. induction xs as [|x xs IH]; intro w; cbn [run]; [apply steps_ret; pre|].
  apply steps_bind; [pre| |].
  - apply (st_step_any (A := unproject) simple_unproject rel_unproject). reflexivity.
  - intros [w' a]. apply steps_bind; [pre|apply IH|]. intros [w'' l]. apply steps_ret. pre.
Qed.
Lemma build_unproject o : steps (grow unproject) (build o).
Proof. apply (st_build (A := unproject) rel_unproject). reflexivity. Qed.

Lemma chg_same m m1 : Forall2 chg m m1 -> Forall (fun x => kind_of (snd x) <> KProductDefinitionShape) m -> m1 = m.
Proof.
  induction 1 as [|[n e] [n' e'] m m1 H _ IH]; intro F; auto. inversion F as [|? ? Hk F']; subst.
  rewrite (IH F'). f_equal. destruct H as [E [H|(l & l' & H1 & H2 & _)]]; cbn [fst snd] in *; subst; auto.
  now destruct Hk.
Qed.

Lemma program_first o i xs ls r : program o i xs = Done (ls, r) ->
  p_owner r = 6 /\
  exists new, p_map r = opening_objects o i ++ new /\
    Forall (fun x => project_kind (kind_of (snd x)) = false) new.
Proof.
  intro H. apply program_inv in H as (p & w & q & H1 & H2 & -> & H3).
  pose proof (start_inv o i p H1) as (D0 & _). rewrite start_explicit in H1. injection H1 as <-.
  assert (G : grow unproject (mk_proj (opening_objects o i) 3 6 14 [] []) r).
  { eapply grow_trans; [eapply run_unproject; eauto|eapply build_unproject; eauto]. }
  destruct (G D0) as (_ & E1 & _ & m1 & new & E & F & Q). cbn [p_map p_owner] in *. split; [exact E1|].
  exists new. split.
  - rewrite E. f_equal. apply chg_same; [exact F|].
    unfold opening_objects. repeat (constructor; [cbn [snd kind_of]; discriminate|]). constructor.
  - eapply Forall_impl; [|exact Q]. cbv beta. intros x Hx. unfold unproject in Hx. now apply negb_true_iff in Hx.
Qed.

Theorem program_opening o i xs ls r : program o i xs = Done (ls, r) ->
  p_owner r = 6 /\
  exists new, p_map r = opening_objects o i ++ new /\ Forall (fun x => ~ In (kind_of (snd x)) opening_kinds) new.
Proof.
  intro H. destruct (program_first _ _ _ _ _ H) as (E & new & E1 & F). split; [exact E|]. exists new. split; [exact E1|].
  eapply Forall_impl; [|exact F]. cbv beta. intros x Hx Hin. clear - Hx Hin. cbn [opening_kinds In] in Hin.
  repeat (destruct Hin as [Hin|Hin]; [rewrite <- Hin in Hx; discriminate Hx|]). contradiction.
Qed.

Lemma program_owner o i xs ls r n : program o i xs = Done (ls, r) ->
  kinds (p_map r) n = Some KOwnerHistory -> n = p_owner r.
Proof.
  intros H Hn. destruct (program_first _ _ _ _ _ H) as (-> & new & E & F). clear H.
  apply kinds_some in Hn as (e & He & Hk). rewrite E, lookup_app in He.
  destruct (lookup (opening_objects o i) n) as [e'|] eqn:L.
  - injection He as ->. apply lookup_In in L. unfold opening_objects in L. cbn [In] in L.
    repeat (destruct L as [L|L]; [injection L as <- <-; first [reflexivity|discriminate Hk]|]). contradiction.
  - apply lookup_In in He. rewrite Forall_forall in F. specialize (F _ He). cbn [snd] in F. rewrite Hk in F. discriminate F.
Qed.

(** ** Rows *)

Lemma tighten K own all s v :
  (forall n, K n = Some KOwnerHistory -> n = own) -> fits K 0 all (loosen s) v -> fits K own all s v.
Proof.
  intros H. destruct s; cbn [loosen fits]; auto. intros (n & -> & Hn). now rewrite (H _ Hn).
Qed.
Lemma tighten_all K own all row :
  (forall n, K n = Some KOwnerHistory -> n = own) ->
  forall l, fits_all K 0 all (map loosen row) l -> fits_all K own all row l.
Proof.
  intro H. induction row as [|s row IH]; intros l F; [exact F|]. cbn [map] in F.
  destruct l as [|v l]; [destruct s; exact F|].
  assert (HF : s = Rest \/ (fits K 0 all (loosen s) v /\ fits_all K 0 all (map loosen row) l)).
  { destruct s; cbn [loosen fits_all] in F |- *; auto. }
  destruct HF as [->|[F1 F2]]; [exact I|]. apply (tighten _ own) in F1; auto. apply IH in F2.
  destruct s; cbn [fits_all]; auto.
Qed.

Theorem program_template o i xs ls r n e :
  sane o -> info_ok i = true -> forallb op_ok xs = true ->
  program o i xs = Done (ls, r) -> honest [] xs ls ->
  lookup (p_map r) n = Some e -> fits_ent (p_map r) (p_owner r) e.
Proof.
  intros Ho Hi Hx H Hh Hn. destruct (program_good _ _ _ _ _ Ho Hi Hx H Hh) as ((_ & G & _) & _).
  specialize (G _ _ Hn). destruct e as [k l|]; [|destruct G].
  destruct G as (_ & _ & _ & _ & _ & _ & row & Hr & F). exists row. split; [exact Hr|].
  eapply tighten_all; [|exact F]. intros n' Hn'. eapply program_owner; eauto.
Qed.

Theorem program_kinds o i xs ls r n e :
  sane o -> info_ok i = true -> forallb op_ok xs = true ->
  program o i xs = Done (ls, r) -> honest [] xs ls ->
  lookup (p_map r) n = Some e -> In (kind_of e) made_kinds.
Proof.
  intros Ho Hi Hx H Hh Hn. pose proof (program_template _ _ _ _ _ _ _ Ho Hi Hx H Hh Hn) as F.
  destruct e as [k l|]; [|destruct F]. destruct F as (row & Hr & _). cbn [kind_of].
  destruct k; try contradiction; unfold made_kinds, opening_kinds; cbn [app]; member.
Qed.
