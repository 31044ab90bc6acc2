(** The invariant of all programs about relations. *)

From Coq Require Import String Ascii List NArith ZArith Bool Lia Permutation.
From Coq Require Import ZifyBool ZifyNat ZifyN.
From Verif Require Import Base Prims Float Arith Kind Types Schema Entity EntityFacts DataMap DataSpec DataMapFacts
  Extractor Builder BuilderRun BuilderBase BuilderGrow BuilderSpec BuilderRel BuilderRel2 BuilderEmit.
Import ListNotations.
Open Scope N_scope.
Open Scope builder_scope.

(** ** Calls that return a new id *)

Definition fresh (c : B N) : Prop :=
  forall p n p', c p = Done (n, p') -> dense (p_map p) -> size (p_map p) < n <= size (p_map p').

Lemma fresh_ins k l : fresh (ins k l).
Proof.
  intros p n p' H Hd. apply ins_inv in H as (-> & _ & -> & _); auto. cbn [set_map p_map].
  unfold size. rewrite app_length. cbn [length]. lia.
Qed.

Lemma fresh_bind {A} (c : B A) (f : A -> B N) :
  steps (grow anything) c -> (forall a, fresh (f a)) -> fresh (bbind c f).
Proof.
  intros H1 H2 p n p' H Hd. apply bbind_inv in H as (a & q & Ha & Hb).
  pose proof (H1 _ _ _ Ha) as G. pose proof (size_grow _ _ _ G Hd). destruct (G Hd) as [D _].
  specialize (H2 _ _ _ _ Hb D). lia.
Qed.


(** ** Associations *)

Definition assoc_ok (us : list (akey * N)) (a : list (akey * list val)) : Prop :=
  NoDup (map fst a) /\ (forall k, In k (map fst a) <-> In k (map fst us)) /\
  Forall (fun x => In (fst (fst x)) assoc_tables /\
                   exists r, length r = 4%nat /\ snd x = r ++ [ids (users_of (fst x) us); VId (snd (fst x))]) a.

Lemma push_at_ids r l n v : length r = 4%nat -> push_at 4 n (r ++ [ids l; v]) = r ++ [ids (l ++ [n]); v].
Proof.
  destruct r as [|a [|b [|c [|d [|e r]]]]]; intro H; try discriminate H. unfold push_at, ids. cbn.
  now rewrite map_app.
Qed.

Lemma users_of_app k a b : users_of k (a ++ b) = users_of k a ++ users_of k b.
Proof. unfold users_of. now rewrite filter_app, map_app. Qed.

Lemma users_of_same k n : users_of k [(k, n)] = [n].
Proof. unfold users_of. cbn [filter fst]. assert (akey_eqb k k = true) as -> by now apply akey_eqb_eq. reflexivity. Qed.

Lemma users_of_other k k' n : k <> k' -> users_of k' [(k, n)] = [].
Proof.
  unfold users_of. cbn [filter fst]. destruct (akey_eqb k k') eqn:E; auto. apply akey_eqb_eq in E. contradiction.
Qed.

Lemma users_of_none k us : ~ In k (map fst us) -> users_of k us = [].
Proof.
  induction us as [|[k' n] us IH]; auto. cbn [map fst In]. intro H.
  change ((k', n) :: us) with ([(k', n)] ++ us). rewrite users_of_app, users_of_other, IH; tauto.
Qed.

Lemma assoc_step_ok us key n a a' :
  assoc_ok us a -> In (fst key) assoc_tables -> assoc_step key n a a' ->
  assoc_ok (us ++ [(key, n)]) a' /\
  Permutation (assoc_facts a') (assoc_facts a ++ [FPair KRelAssociatesMaterial (snd key) n]).
Proof.
  intros (Hn & Hk & Hf) Ht (r & Hr & ->).
  set (w := push_at 4 n _).
  assert (Hw : exists r, length r = 4%nat /\ w = r ++ [ids (users_of key us ++ [n]); VId (snd key)] /\
      match hget akey_eqb a key with
      | Some v0 => v0 = r ++ [ids (users_of key us); VId (snd key)]
      | None => users_of key us = [] end).
  { unfold w. destruct (hget akey_eqb a key) as [rel|] eqn:E.
    - apply hget_In in E; [|apply akey_eqb_eq]. rewrite Forall_forall in Hf.
      destruct (Hf _ E) as [_ (r0 & Hr0 & E0)]. cbn [fst snd] in E0. exists r0. split; auto.
      rewrite E0, push_at_ids by auto. auto.
    - exists r. split; auto. assert (users_of key us = []) as E0.
      { apply users_of_none. rewrite <- Hk. intro Hi. apply in_map_iff in Hi as ([k v] & Ek & Hi).
        cbn in Ek. subst k. apply (hget_NoDup akey_eqb akey_eqb_eq) in Hi; auto. congruence. }
      split; auto. rewrite E0. change (VList []) with (ids []). now rewrite push_at_ids. }
  destruct Hw as (r1 & Hr1 & Ew & Hv). clearbody w. subst w.
  destruct (hset_split akey_eqb akey_eqb_eq a key (r1 ++ [ids (users_of key us ++ [n]); VId (snd key)]))
    as [(E1 & E2 & ->)|(l1 & v0 & l2 & E1 & E2 & ->)].
  - split.
    + split; [|split].
      * rewrite map_app. cbn [map fst]. apply Permutation_NoDup with (key :: map fst a);
          [apply Permutation_cons_append|]. now constructor.
      * intro k. rewrite !map_app, !in_app_iff, Hk. reflexivity.
      * apply Forall_app. split.
        -- rewrite Forall_forall in *. intros x Hx. destruct (Hf x Hx) as [X1 (rx & X2 & X3)]. split; auto.
           exists rx. split; auto. rewrite users_of_app, users_of_other, app_nil_r; auto.
           intros ->. apply E2. now apply in_map.
        -- constructor; auto. cbn [fst snd]. split; auto. exists r1. split; auto.
           now rewrite users_of_app, users_of_same.
    + unfold assoc_facts. rewrite flat_map_app. apply Permutation_app_head. cbn [flat_map snd].
      rewrite app_nil_r, facts_assoc by auto. rewrite E1 in Hv. rewrite Hv. apply Permutation_refl.
  - rewrite E2 in Hv. subst v0. subst a. split.
    + split; [|split].
      * rewrite map_app in *. exact Hn.
      * intro k. specialize (Hk k). rewrite !map_app, !in_app_iff in *. cbn [map fst In] in *. rewrite <- Hk. tauto.
      * rewrite map_app in Hn. cbn [map fst] in Hn. apply NoDup_remove in Hn as [_ Hn].
        rewrite Forall_forall in *. intros x Hx. apply in_app_or in Hx as [Hx|[<-|Hx]].
        2: { cbn [fst snd]. split; auto. exists r1. split; auto. now rewrite users_of_app, users_of_same. }
        all: destruct (Hf x) as [X1 (rx & X2 & X3)]; [apply in_or_app; cbn [In]; tauto|]; split; auto;
          exists rx; split; auto; rewrite users_of_app, users_of_other, app_nil_r; auto;
          intros ->; apply Hn; apply in_or_app; first [left; now apply in_map | right; now apply in_map].
    + unfold assoc_facts. rewrite !flat_map_app. cbn [flat_map snd]. rewrite !facts_assoc by auto.
      rewrite map_app. cbn [map]. perm.
Qed.

Lemma assoc_opt_ok us o n a a' :
  assoc_ok us a -> (forall k, o = Some k -> In (fst k) assoc_tables) -> assoc_opt o n a a' ->
  assoc_ok (us ++ match o with Some k => [(k, n)] | None => [] end) a' /\
  Permutation (assoc_facts a')
    (assoc_facts a ++ match o with Some k => [FPair KRelAssociatesMaterial (snd k) n] | None => [] end).
Proof.
  destruct o as [k|]; cbn [assoc_opt].
  - intros H1 H2 H3. eapply assoc_step_ok; eauto.
  - intros H1 _ ->. rewrite !app_nil_r. auto.
Qed.

(** ** The invariant *)

Definition scope_ids (w : scope) : list N :=
  match w with
  | AtProject => []
  | AtSite s => [fst s]
  | AtBuilding s b => [fst b; fst s]
  | AtStorey s b st => [s_id st; fst b; fst s]
  | AtHost s b st h => [h_id h; s_id st; fst b; fst s]
  | AtWallProps s b st h _ _ => [0; h_id h; s_id st; fst b; fst s]
  | AtSet s b st _ _ => [0; s_id st; fst b; fst s]
  end.

Definition upto (b : N) (l : list N) : Prop := Forall (fun n => n <= b) l.

Lemma upto_mono b b' l : b <= b' -> upto b l -> upto b' l.
Proof. intros Hb H. eapply Forall_impl; [|exact H]. cbn beta. lia. Qed.

Definition scope_ok (b : N) (w : scope) : Prop :=
  match w with
  | AtProject => True
  | AtSite s => upto b (snd s)
  | AtBuilding s c => upto b (snd s) /\ upto b (snd c)
  | AtStorey s c st | AtHost s c st _ | AtWallProps s c st _ _ _ | AtSet s c st _ _ =>
      upto b (snd s) /\ upto b (snd c) /\ bounded b st
  end.

Lemma scope_ok_mono b b' w : b <= b' -> scope_ok b w -> scope_ok b' w.
Proof.
  intro Hb. destruct w; cbn [scope_ok]; intuition eauto using upto_mono, bounded_mono.
Qed.

Section Invariant.
Variable o : oracle.
Hypothesis Ho : fair o.
Variable pr : N.

Definition users (tr : list call) : list (akey * N) := flat_map call_users tr.

Definition ri (known : list (kind * N)) (w : scope) (tr : list call) (p : proj) : Prop :=
  dense (p_map p) /\ p_project p = pr /\ scope_ok (size (p_map p)) w /\ upto (size (p_map p)) (p_sites p) /\
  assoc_ok (users tr) (p_assoc p) /\ upto (size (p_map p)) (map snd known) /\
  Permutation (facts (p_map p) ++ scope_facts w ++ proj_facts p)
    ([FOne KRelAggregates pr] ++ flat_map (call_facts pr) tr).

(** A call with its effects. *)
Lemma ri_quiet known w tr p w' p' x a :
  ri known w tr p -> grow quiet p p' ->
  scope_ok (size (p_map p')) w' -> upto (size (p_map p')) (p_sites p') ->
  assoc_ok (users tr ++ call_users (scope_ids w, x, a)) (p_assoc p') ->
  upto (size (p_map p')) (map snd (returned x a)) ->
  Permutation (scope_facts w' ++ proj_facts p')
    (scope_facts w ++ proj_facts p ++ call_facts pr (scope_ids w, x, a)) ->
  ri (returned x a ++ known) w' (tr ++ [(scope_ids w, x, a)]) p'.
Proof.
  intros (Hd & Hp & Hs & Hi & Ha & Hk & HP) G Hs' Hi' Ha' Hr HF.
  pose proof (size_grow _ _ _ G Hd) as Hz. pose proof (facts_grow _ _ G Hd) as Hf.
  destruct (G Hd) as (Hd' & _ & Hp' & _). unfold ri. rewrite Hf, Hp'.
  split; auto. split; auto. split; auto. split; auto. split.
  { unfold users. rewrite flat_map_app. cbn [flat_map]. now rewrite app_nil_r. }
  split. { unfold upto. rewrite map_app. apply Forall_app. split; auto. eapply upto_mono; eauto. }
  rewrite flat_map_app. cbn [flat_map]. rewrite app_nil_r. clear - HP HF. perm.
Qed.

(** Calls that only add objects. *)
Lemma ri_same known w tr p w' p' x a :
  ri known w tr p -> grow quiet p p' -> frame p p' ->
  scope_facts w' = scope_facts w -> (scope_ok (size (p_map p')) w -> scope_ok (size (p_map p')) w') ->
  call_users (scope_ids w, x, a) = [] -> call_facts pr (scope_ids w, x, a) = [] ->
  upto (size (p_map p')) (map snd (returned x a)) ->
  ri (returned x a ++ known) w' (tr ++ [(scope_ids w, x, a)]) p'.
Proof.
  intros H G [F1 F2] E1 E2 E3 E4 Hr. pose proof H as (Hd & Hp & Hs & Hi & Ha & Hk & HP).
  pose proof (size_grow _ _ _ G Hd) as Hz. destruct (G Hd) as (_ & _ & Hp' & _).
  eapply ri_quiet; eauto.
  - apply E2. eapply scope_ok_mono; eauto.
  - rewrite F1. eapply upto_mono; eauto.
  - rewrite E3, app_nil_r, F2. auto.
  - rewrite E1, E4, app_nil_r. unfold proj_facts. rewrite F1, F2, Hp'. apply Permutation_refl.
Qed.
End Invariant.
