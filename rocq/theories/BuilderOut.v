(** From facts to relations: what programs leave in the model, relation by relation. *)

From Coq Require Import String Ascii List NArith ZArith Bool Lia Permutation Sorted.
From Coq Require Import ZifyBool ZifyNat ZifyN.
From Verif Require Import Base Prims Float Arith Kind Types Schema Entity EntityFacts DataMap DataSpec DataMapFacts
  Extractor Builder BuilderRun BuilderBase BuilderGrow BuilderSpec BuilderRel BuilderRel2 BuilderEmit BuilderInv
  BuilderStep BuilderAll BuilderIds.
Import ListNotations.
Open Scope N_scope.

(** ** Facts of one kind *)

Definition sel2 (k : kind) (f : fact) : list (N * N) :=
  match f with
  | FPair k' a b => if kind_eqb k' k then [(a, b)] else []
  | _ => []
  end.
Definition sel1 (k : kind) (f : fact) : list N :=
  match f with
  | FOne k' a => if kind_eqb k' k then [a] else []
  | _ => []
  end.

Lemma sel2_pairs k k' l : flat_map (sel2 k) (fpairs k' l) = if kind_eqb k' k then l else [].
Proof.
  unfold fpairs. induction l as [|[a b] l IH]; cbn [map flat_map sel2 fst snd].
  - now destruct (kind_eqb k' k).
  - rewrite IH. now destruct (kind_eqb k' k).
Qed.
Lemma sel2_ones k k' l : flat_map (sel2 k) (map (FOne k') l) = [].
Proof. induction l; cbn [map flat_map sel2]; auto. Qed.
Lemma sel1_ones k k' l : flat_map (sel1 k) (map (FOne k') l) = if kind_eqb k' k then l else [].
Proof.
  induction l as [|a l IH]; cbn [map flat_map sel1].
  - now destruct (kind_eqb k' k).
  - rewrite IH. now destruct (kind_eqb k' k).
Qed.
Lemma sel1_pairs k k' l : flat_map (sel1 k) (fpairs k' l) = [].
Proof. unfold fpairs. induction l as [|[a b] l IH]; cbn [map flat_map sel1]; auto. Qed.

Ltac sel := rewrite ?flat_map_app, ?sel2_pairs, ?sel2_ones, ?sel1_ones, ?sel1_pairs; cbn [kind_eqb app];
  rewrite ?app_nil_r.

(** Places of the two sides in a relation. *)
Definition sides (k : kind) : option (nat * nat) :=
  match k with
  | KRelAggregates | KRelVoidsElement | KRelFillsElement => Some (4%nat, 5%nat)
  | KRelContainedInSpatialStructure | KRelDefinesByType | KRelAssociatesMaterial => Some (5%nat, 4%nat)
  | _ => None
  end.

Lemma sel2_of k k' l i j : sides k = Some (i, j) ->
  flat_map (sel2 k) (facts_of k' l) = if kind_eqb k' k then list_prod (ids_at l i) (ids_at l j) else [].
Proof.
  intro H. destruct (kind_eqb k' k) eqn:E.
  - apply kind_eqb_eq in E. subst k'. destruct k; try discriminate H; injection H as <- <-;
      cbn [facts_of]; sel; reflexivity.
  - destruct k'; cbn [facts_of]; try reflexivity; sel; rewrite ?E; reflexivity.
Qed.

Lemma sel2_facts k i j m : sides k = Some (i, j) -> flat_map (sel2 k) (facts m) = pairs k i j m.
Proof.
  intro H. unfold facts, pairs, objects. induction m as [|[n e] m IH]; auto.
  cbn [flat_map snd]. rewrite flat_map_app, IH. destruct e as [k' l|s]; auto.
  rewrite (sel2_of _ _ _ _ _ H), flat_map_app. destruct (kind_eqb k' k); auto. cbn [flat_map].
  now rewrite app_nil_r.
Qed.

Definition head_side (k : kind) : option nat :=
  match k with KRelAggregates => Some 4%nat | KRelContainedInSpatialStructure => Some 5%nat | _ => None end.

Lemma sel1_of k k' l i : head_side k = Some i ->
  flat_map (sel1 k) (facts_of k' l) = if kind_eqb k' k then ids_at l i else [].
Proof.
  intro H. destruct (kind_eqb k' k) eqn:E.
  - apply kind_eqb_eq in E. subst k'. destruct k; try discriminate H; injection H as <-;
      cbn [facts_of]; sel; reflexivity.
  - destruct k'; cbn [facts_of]; try reflexivity; sel; rewrite ?E; reflexivity.
Qed.

Lemma sel1_facts k i m : head_side k = Some i -> flat_map (sel1 k) (facts m) = ones k i m.
Proof.
  intro H. unfold facts, ones, objects. induction m as [|[n e] m IH]; auto.
  cbn [flat_map snd]. rewrite flat_map_app, IH. destruct e as [k' l|s]; auto.
  rewrite (sel1_of _ _ _ _ H), flat_map_app. destruct (kind_eqb k' k); auto. cbn [flat_map].
  now rewrite app_nil_r.
Qed.

(** ** What each call is responsible for *)

Definition call_pairs (k : kind) (pr : N) (c : call) : list (N * N) :=
  match k with
  | KRelContainedInSpatialStructure => call_contains c
  | KRelVoidsElement => call_voids c
  | KRelFillsElement => call_fills c
  | KRelDefinesByType => call_types c
  | KRelAssociatesMaterial => call_materials c
  | KRelAggregates => call_tree pr c
  | _ => []
  end.

Lemma sel2_call k pr c : flat_map (sel2 k) (call_facts pr c) = call_pairs k pr c.
Proof. unfold call_facts, call_pairs. destruct k; sel; reflexivity. Qed.

Lemma sel1_call k pr c i : head_side k = Some i ->
  flat_map (sel1 k) (call_facts pr c) = match k with KRelAggregates => call_node c | _ => call_storey c end.
Proof. intro H. unfold call_facts. destruct k; try discriminate H; sel; reflexivity. Qed.

Lemma flat_flat {A B C} (f : B -> list C) (g : A -> list B) l :
  flat_map f (flat_map g l) = flat_map (fun a => flat_map f (g a)) l.
Proof. induction l as [|a l IH]; cbn [flat_map]; auto. now rewrite flat_map_app, IH. Qed.

Lemma flat_perm {A B} (f : A -> list B) l l' : Permutation l l' -> Permutation (flat_map f l) (flat_map f l').
Proof.
  induction 1; cbn [flat_map]; auto.
  - now apply Permutation_app_head.
  - rewrite !app_assoc. apply Permutation_app_tail, Permutation_app_comm.
  - etransitivity; eauto.
Qed.

(** ** New ids are listed once *)

Lemma NoDup_app_parts {A} (a b : list A) : NoDup (a ++ b) ->
  NoDup a /\ NoDup b /\ (forall x, In x a -> ~ In x b).
Proof.
  induction a as [|x a IH]; cbn [app]; intro H; [split; [constructor|auto]|].
  inversion H as [|? ? H1 H2]; subst. destruct (IH H2) as (I1 & I2 & I3). split.
  - constructor; auto. intro Hx. apply H1, in_or_app. now left.
  - split; auto. intros y [<-|Hy]; auto. intro Hb. apply H1, in_or_app. now right.
Qed.

Lemma NoDup_app_make {A} (a b : list A) : NoDup a -> NoDup b -> (forall x, In x a -> ~ In x b) -> NoDup (a ++ b).
Proof.
  induction a as [|x a IH]; cbn [app]; intros H1 H2 H3; auto. inversion H1; subst. constructor.
  - intro Hi. apply in_app_or in Hi as [Hi|Hi]; auto. apply (H3 x); auto. now left.
  - apply IH; auto. intros y Hy. apply H3. now right.
Qed.

Definition some_of (f : call -> list N) : Prop :=
  forall s x a, incl (f (s, x, a)) a /\ (NoDup a -> NoDup (f (s, x, a))).

Lemma calls_In f xs : some_of f -> forall s ls n, In n (flat_map f (calls s xs ls)) -> In n (concat ls).
Proof.
  intro Hf. induction xs as [|x xs IH]; intros s ls n H; [destruct H|].
  destruct ls as [|a ls]; [destruct H|]. cbn [calls flat_map concat] in *. apply in_app_or in H as [H|H];
    apply in_or_app; [left; now apply (Hf s x a)|right; eauto].
Qed.

Lemma calls_NoDup f xs : some_of f -> forall s ls, NoDup (concat ls) -> NoDup (flat_map f (calls s xs ls)).
Proof.
  intro Hf. induction xs as [|x xs IH]; intros s ls H; [constructor|].
  destruct ls as [|a ls]; [constructor|]. cbn [calls flat_map concat] in *.
  apply NoDup_app_parts in H as (H1 & H2 & H3). apply NoDup_app_make.
  - now apply (Hf s x a).
  - auto.
  - intros n Hn Hi. apply (Hf s x a) in Hn. apply (calls_In _ _ Hf) in Hi. exact (H3 n Hn Hi).
Qed.

Lemma map_flat' {A B C} (f : B -> C) (g : A -> list B) l : map f (flat_map g l) = flat_map (fun a => map f (g a)) l.
Proof. induction l as [|a l IH]; cbn [flat_map]; auto. now rewrite map_app, IH. Qed.

Ltac cases_of :=
  intros s x a; destruct x; cbn;
  repeat match goal with
  | |- context [match ?l with [] => _ | _ :: _ => _ end] => is_var l; destruct l; cbn
  end; split; try (intros ? []; fail); try (intros _; constructor; fail);
  try (intros y Hy; cbn in *; tauto);
  try (intro H; repeat match goal with H : NoDup (_ :: _) |- _ => inversion H; clear H; subst end;
       repeat constructor; cbn in *; tauto).

Lemma some_contains : some_of (fun c => map snd (call_contains c)).
Proof. cases_of. Qed.
Lemma some_storey : some_of call_storey.
Proof. cases_of. Qed.
Lemma some_voids : some_of (fun c => map snd (call_voids c)).
Proof. cases_of. Qed.
Lemma some_fills1 : some_of (fun c => map fst (call_fills c)).
Proof. cases_of. Qed.
Lemma some_fills2 : some_of (fun c => map snd (call_fills c)).
Proof. cases_of. Qed.
Lemma some_types : some_of (fun c => map snd (call_types c)).
Proof. cases_of. Qed.
Lemma some_types_all : some_of (fun c => map snd (call_types_all c)).
Proof. cases_of. Qed.
Lemma some_materials : some_of (fun c => map snd (call_materials c)).
Proof. cases_of. Qed.
Lemma some_tree pr : some_of (fun c => map snd (call_tree pr c)).
Proof. cases_of. Qed.
Lemma some_node : some_of call_node.
Proof. cases_of. Qed.

(** ** Programs *)

Section Out.
Variable o : oracle.
Hypothesis Ho : fair o.
Variables (i : info) (xs : list op) (ls : list (list N)) (r : proj).
Hypothesis Hr : program o i xs = Done (ls, r).
Hypothesis Hh : honest [] xs ls.

Local Notation tr := (calls [] xs ls).

Lemma ids_NoDup : NoDup (p_project r :: concat ls).
Proof.
  destruct (program_ids _ _ _ _ _ Hr) as [H _]. now apply sorted_NoDup.
Qed.

Lemma out_pairs k a b : sides k = Some (a, b) ->
  Permutation (pairs k a b (p_map r)) (flat_map (call_pairs k (p_project r)) tr).
Proof.
  intro H. destruct (program_facts _ Ho _ _ _ _ Hr Hh) as (_ & P & _).
  apply (flat_perm (sel2 k)) in P. rewrite (sel2_facts _ _ _ _ H) in P. rewrite P.
  rewrite flat_map_app, flat_flat. cbn [flat_map sel2 app].
  erewrite flat_map_ext; [reflexivity|]. intro c. apply sel2_call.
Qed.

Lemma out_ones k a : head_side k = Some a ->
  Permutation (ones k a (p_map r))
    (match k with KRelAggregates => [p_project r] | _ => [] end ++
     flat_map (match k with KRelAggregates => call_node | _ => call_storey end) tr).
Proof.
  intro H. destruct (program_facts _ Ho _ _ _ _ Hr Hh) as (_ & P & _).
  apply (flat_perm (sel1 k)) in P. rewrite (sel1_facts _ _ _ H) in P. rewrite P.
  rewrite flat_map_app, flat_flat.
  replace (flat_map (fun c => flat_map (sel1 k) (call_facts (p_project r) c)) tr)
    with (flat_map (match k with KRelAggregates => call_node | _ => call_storey end) tr).
  - destruct k; try discriminate H; reflexivity.
  - apply flat_map_ext. intro c. rewrite (sel1_call _ _ _ _ H). now destruct k.
Qed.

Lemma out_NoDup f : some_of f -> NoDup (flat_map f tr).
Proof. intro H. apply calls_NoDup; auto. pose proof ids_NoDup as D. now inversion D. Qed.

Lemma perm_NoDup_map {A B} (f : A -> B) l l' : Permutation l l' -> NoDup (map f l') -> NoDup (map f l).
Proof. intros P H. eapply Permutation_NoDup; [|exact H]. apply Permutation_map, Permutation_sym, P. Qed.

Theorem out_contains :
  Permutation (pairs KRelContainedInSpatialStructure 5 4 (p_map r)) (flat_map call_contains tr) /\
  NoDup (map snd (pairs KRelContainedInSpatialStructure 5 4 (p_map r))) /\
  Permutation (ones KRelContainedInSpatialStructure 5 (p_map r)) (flat_map call_storey tr) /\
  NoDup (ones KRelContainedInSpatialStructure 5 (p_map r)).
Proof.
  pose proof (out_pairs KRelContainedInSpatialStructure 5 4 eq_refl) as P.
  pose proof (out_ones KRelContainedInSpatialStructure 5 eq_refl) as Q. cbn [call_pairs app] in *.
  split; [exact P|]. split.
  - eapply perm_NoDup_map; [exact P|]. rewrite map_flat'. apply out_NoDup, some_contains.
  - split; [exact Q|]. eapply Permutation_NoDup; [apply Permutation_sym, Q|]. apply out_NoDup, some_storey.
Qed.

Theorem out_voids :
  Permutation (pairs KRelVoidsElement 4 5 (p_map r)) (flat_map call_voids tr) /\
  NoDup (map snd (pairs KRelVoidsElement 4 5 (p_map r))).
Proof.
  pose proof (out_pairs KRelVoidsElement 4 5 eq_refl) as P. split; [exact P|].
  eapply perm_NoDup_map; [exact P|]. rewrite map_flat'. apply out_NoDup, some_voids.
Qed.

Theorem out_fills :
  Permutation (pairs KRelFillsElement 4 5 (p_map r)) (flat_map call_fills tr) /\
  NoDup (map fst (pairs KRelFillsElement 4 5 (p_map r))) /\
  NoDup (map snd (pairs KRelFillsElement 4 5 (p_map r))).
Proof.
  pose proof (out_pairs KRelFillsElement 4 5 eq_refl) as P. split; [exact P|].
  split; (eapply perm_NoDup_map; [exact P|]); rewrite map_flat'; apply out_NoDup;
    [apply some_fills1|apply some_fills2].
Qed.

Theorem out_types :
  Permutation (pairs KRelDefinesByType 5 4 (p_map r)) (flat_map call_types tr) /\
  NoDup (map snd (pairs KRelDefinesByType 5 4 (p_map r))).
Proof.
  pose proof (out_pairs KRelDefinesByType 5 4 eq_refl) as P. split; [exact P|].
  eapply perm_NoDup_map; [exact P|]. rewrite map_flat'. apply out_NoDup, some_types.
Qed.

Theorem out_materials :
  Permutation (pairs KRelAssociatesMaterial 5 4 (p_map r)) (flat_map call_materials tr) /\
  NoDup (map snd (pairs KRelAssociatesMaterial 5 4 (p_map r))).
Proof.
  pose proof (out_pairs KRelAssociatesMaterial 5 4 eq_refl) as P. split; [exact P|].
  eapply perm_NoDup_map; [exact P|]. rewrite map_flat'. apply out_NoDup, some_materials.
Qed.

Theorem out_tree :
  Permutation (pairs KRelAggregates 4 5 (p_map r)) (flat_map (call_tree (p_project r)) tr) /\
  NoDup (map snd (pairs KRelAggregates 4 5 (p_map r))) /\
  Permutation (ones KRelAggregates 4 (p_map r)) (p_project r :: flat_map call_node tr) /\
  NoDup (ones KRelAggregates 4 (p_map r)).
Proof.
  pose proof (out_pairs KRelAggregates 4 5 eq_refl) as P.
  pose proof (out_ones KRelAggregates 4 eq_refl) as Q. cbn [call_pairs app] in *.
  split; [exact P|]. split.
  - eapply perm_NoDup_map; [exact P|]. rewrite map_flat'. apply out_NoDup, some_tree.
  - split; [exact Q|]. eapply Permutation_NoDup; [apply Permutation_sym, Q|]. constructor.
    + intro Hi. apply (calls_In _ _ some_node) in Hi. pose proof ids_NoDup as D. now inversion D.
    + apply out_NoDup, some_node.
Qed.

(** One association for each class and material, with the elements in order. *)
Theorem out_associations : exists keys,
  NoDup keys /\ (forall k, In k keys <-> In k (map fst (flat_map call_users tr))) /\
  Permutation (map (fun l => (ids_at l 5, ids_at l 4)) (objects KRelAssociatesMaterial (p_map r)))
    (map (fun k => ([snd k], users_of k (flat_map call_users tr))) keys).
Proof.
  destruct (program_facts _ Ho _ _ _ _ Hr Hh) as (_ & _ & a & (A1 & A2 & A3) & P).
  exists (map fst a). split; auto. split; auto.
  apply (Permutation_map (fun l => (ids_at l 5, ids_at l 4))) in P. rewrite P, !map_map.
  match goal with |- Permutation ?x ?y => replace x with y; [reflexivity|] end. apply map_ext_in. intros x Hx. rewrite Forall_forall in A3.
  destruct (A3 x Hx) as (_ & q & Hq & E). destruct x as [k v]. cbn [fst snd] in *. subst v. now rewrite ids_at_4, ids_at_5, ids_at_list, ids_at_one.
Qed.
End Out.

(** A space is in no type relation. *)
Theorem out_spaces_untyped o i xs ls r s ty name cs h q n :
  fair o -> program o i xs = Done (ls, r) -> honest [] xs ls ->
  In (s, OSpace ty name cs h q, [n]) (calls [] xs ls) ->
  ~ In n (map snd (pairs KRelDefinesByType 5 4 (p_map r))).
Proof.
  intros Ho Hr Hh Hi Hn. destruct (out_types _ Ho _ _ _ _ Hr Hh) as [P _].
  apply (Permutation_map snd) in P. apply (Permutation_in _ P) in Hn. rewrite map_flat' in Hn.
  assert (D : NoDup (flat_map (fun c => map snd (call_types_all c)) (calls [] xs ls))).
  { apply (out_NoDup _ _ _ _ _ Hr), some_types_all. }
  apply in_split in Hi as (t1 & t2 & E). rewrite E in *. rewrite flat_map_app in *. cbn [flat_map] in *.
  cbn [call_types_all map snd app] in D. apply NoDup_remove_2 in D. apply D.
  assert (H : forall t, In n (flat_map (fun c => map snd (call_types c)) t) ->
                        In n (flat_map (fun c => map snd (call_types_all c)) t)).
  { intros t Ht. apply in_flat_map in Ht as (c & Hc & Ht). apply in_flat_map. exists c. split; auto.
    destruct c as [[s' x] a]. destruct x; auto. cbn in Ht. destruct s' as [|? [|? [|? [|? [|? ?]]]]]; cbn in Ht; contradiction. }
  apply in_app_or in Hn as [Hn|Hn]; apply in_or_app; [left; auto|]. right. apply H.
  exact Hn.
Qed.

(** ** Deciding honesty of concrete programs *)

Definition memb {A} (eqb : A -> A -> bool) (l l' : list A) : bool := forallb (fun x => existsb (eqb x) l') l.
Definition kn_eqb (a b : kind * N) : bool := kind_eqb (fst a) (fst b) && (snd a =? snd b).

Fixpoint honestb (known : list (kind * N)) (xs : list op) (ls : list (list N)) : bool :=
  match xs, ls with
  | x :: xs', a :: ls' =>
      memb kn_eqb (used x) known && memb N.eqb (used_any x) (map snd known) &&
      honestb (returned x a ++ known) xs' ls'
  | _, _ => true
  end.

Lemma memb_incl {A} (eqb : A -> A -> bool) l l' :
  (forall a b, eqb a b = true -> a = b) -> memb eqb l l' = true -> incl l l'.
Proof.
  intros He H x Hx. unfold memb in H. rewrite forallb_forall in H. specialize (H x Hx).
  apply existsb_exists in H as (y & Hy & E). apply He in E. now subst.
Qed.

Lemma honestb_ok xs : forall known ls, honestb known xs ls = true -> honest known xs ls.
Proof.
  induction xs as [|x xs IH]; intros known ls H; cbn; auto. destruct ls as [|a ls]; auto. cbn [honestb] in H.
  apply andb_true_iff in H as [H H3]. apply andb_true_iff in H as [H1 H2]. split; [|split; auto].
  - eapply memb_incl; [|exact H1]. intros [k n] [k' n'] E. unfold kn_eqb in E. cbn [fst snd] in E.
    apply andb_true_iff in E as [E1 E2]. apply kind_eqb_eq in E1. apply N.eqb_eq in E2. now subst.
  - eapply memb_incl; [|exact H2]. intros a0 b0 E. now apply N.eqb_eq.
Qed.
