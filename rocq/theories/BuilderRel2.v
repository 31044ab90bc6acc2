(** Tables of the builder and the relations made of them. *)

From Coq Require Import String Ascii List NArith ZArith Bool Lia Permutation.
From Coq Require Import ZifyBool ZifyNat ZifyN.
From Verif Require Import Base Prims Float Arith Kind Types Schema Entity EntityFacts DataMap DataSpec DataMapFacts
  Extractor Builder BuilderRun BuilderBase BuilderGrow BuilderSpec BuilderRel.
Import ListNotations.
Open Scope N_scope.
Open Scope builder_scope.

(** ** Hash tables *)

Lemma cls_eqb_eq a b : cls_eqb a b = true <-> a = b.
Proof. destruct a, b; cbn; split; congruence. Qed.

Lemma tkey_eqb_eq a b : tkey_eqb a b = true <-> a = b.
Proof.
  destruct a as [c n], b as [c' n']. unfold tkey_eqb. cbn [fst snd].
  rewrite andb_true_iff, cls_eqb_eq, N.eqb_eq. split; [intros [-> ->]; auto|intro H; injection H; auto].
Qed.

Lemma akey_eqb_eq a b : akey_eqb a b = true <-> a = b.
Proof.
  destruct a as [[c t] n], b as [[c' t'] n']. unfold akey_eqb. cbn [fst snd].
  rewrite !andb_true_iff, cls_eqb_eq, N.eqb_eq, Bool.eqb_true_iff.
  split; [intros [[-> ->] ->]; auto|intro H; injection H; auto].
Qed.

Section Tables.
Context {K V : Type} (eqb : K -> K -> bool) (Heq : forall a b, eqb a b = true <-> a = b).

Lemma hset_split (l : list (K * V)) k v :
  (hget eqb l k = None /\ ~ In k (map fst l) /\ hset eqb l k v = l ++ [(k, v)]) \/
  (exists l1 v0 l2, l = l1 ++ (k, v0) :: l2 /\ hget eqb l k = Some v0 /\ hset eqb l k v = l1 ++ (k, v) :: l2).
Proof.
  induction l as [|[k' v'] l IH]; [left; cbn; tauto|]. cbn [hset hget map fst In].
  destruct (eqb k' k) eqn:E.
  - right. apply Heq in E. subst k'. exists [], v', l. auto.
  - assert (k' <> k) by (intro E'; apply Heq in E'; congruence).
    destruct IH as [(H1 & H2 & H3)|(l1 & v0 & l2 & -> & H2 & H3)].
    + left. rewrite H3. split; auto. split; [intuition congruence|reflexivity].
    + right. exists ((k', v') :: l1), v0, l2. rewrite H3. split; auto.
Qed.

Lemma hget_In (l : list (K * V)) k v : hget eqb l k = Some v -> In (k, v) l.
Proof.
  destruct (hset_split l k v) as [(H & _)|(l1 & v0 & l2 & -> & H & _)]; rewrite H; intro E; [discriminate|].
  injection E as ->. apply in_or_app. right. now left.
Qed.

Lemma hget_NoDup (l : list (K * V)) k v : NoDup (map fst l) -> In (k, v) l -> hget eqb l k = Some v.
Proof.
  induction l as [|[k' v'] l IH]; intros Hn Hi; [contradiction|]. cbn [map fst hget] in *.
  inversion Hn; subst. destruct Hi as [E|Hi].
  - injection E as -> ->. assert (eqb k k = true) as -> by now apply Heq. auto.
  - destruct (eqb k' k) eqn:E; auto. apply Heq in E. subst. exfalso. apply H1.
    apply in_map_iff. now exists (k, v).
Qed.

Lemma hset_NoDup (l : list (K * V)) k v : NoDup (map fst l) -> NoDup (map fst (hset eqb l k v)).
Proof.
  intro H. destruct (hset_split l k v) as [(_ & Hn & ->)|(l1 & v0 & l2 & -> & _ & ->)].
  - rewrite map_app. apply Permutation_NoDup with (k :: map fst l); [apply Permutation_cons_append|].
    constructor; auto.
  - rewrite map_app in *. exact H.
Qed.

Lemma hset_Forall (P : K * V -> Prop) (l : list (K * V)) k v :
  Forall P l -> P (k, v) -> Forall P (hset eqb l k v).
Proof.
  intros H Hk. destruct (hset_split l k v) as [(_ & _ & ->)|(l1 & v0 & l2 & -> & _ & ->)].
  - apply Forall_app. auto.
  - apply Forall_app in H as [H1 H2]. apply Forall_app. inversion H2; auto.
Qed.
End Tables.

Lemma fold_pairs {V} (l l' : list (N * V)) :
  NoDup (map fst l) -> incl l' l ->
  flat_map (fun k => match hget N.eqb l k with Some a => [(k, a)] | None => [] end) (map fst l') = l'.
Proof.
  intros Hn Hi. induction l' as [|[k v] l' IH]; auto. cbn [map fst flat_map].
  rewrite (hget_NoDup N.eqb N.eqb_eq l k v); auto; [|apply Hi; now left].
  cbn [app]. f_equal. apply IH. intros q Hq. apply Hi. now right.
Qed.

Lemma walk_pairs_perm o {V} (l : list (N * V)) p r p' :
  fair o -> NoDup (map fst l) -> walk_pairs o l p = Done (r, p') -> Permutation r l.
Proof.
  intros Ho Hn H. unfold walk_pairs, walk in H. apply bbind_inv in H as (ks & q & H1 & H).
  apply bbind_inv in H1 as (t & q1 & H1 & H2). apply bret_inv in H2 as [-> _]. apply bret_inv in H as [-> _].
  rewrite (Permutation_flat_map _ (Ho t (map fst l))). rewrite fold_pairs; auto. apply incl_refl.
Qed.

Lemma walk_perm o l p r p' : fair o -> walk o l p = Done (r, p') -> Permutation r l.
Proof.
  intros Ho H. unfold walk in H. apply bbind_inv in H as (t & q1 & H1 & H2).
  apply bret_inv in H2 as [-> _]. apply Ho.
Qed.

(** ** Facts of changed tables *)

Definition bounded (b : N) (st : storey) : Prop :=
  NoDup (map fst (s_types st)) /\ NoDup (map fst (s_voids_wall st)) /\ NoDup (map fst (s_voids_slab st)) /\
  NoDup (map fst (s_fills st)) /\
  Forall (fun x => snd x <= b) (s_elems st) /\
  Forall (fun x => snd (fst x) <= b /\ Forall (fun n => n <= b) (snd x)) (s_types st) /\
  Forall (fun x => fst x <= b) (s_voids_wall st) /\ Forall (fun x => fst x <= b) (s_voids_slab st) /\
  Forall (fun x => fst x <= b) (s_fills st).

Lemma bounded_mono b b' st : b <= b' -> bounded b st -> bounded b' st.
Proof.
  intros Hb (H1 & H2 & H3 & H4 & H5 & H6 & H7 & H8 & H9). unfold bounded.
  repeat split; auto.
  - eapply Forall_impl; [|exact H5]. cbn beta. lia.
  - eapply Forall_impl; [|exact H6]. cbn beta. intros x [A1 A2]. split; [lia|].
    eapply Forall_impl; [|exact A2]. cbn beta. lia.
  - eapply Forall_impl; [|exact H7]. cbn beta. lia.
  - eapply Forall_impl; [|exact H8]. cbn beta. lia.
  - eapply Forall_impl; [|exact H9]. cbn beta. lia.
Qed.

Lemma set_add_fresh b l n : Forall (fun x => x <= b) l -> b < n -> set_add l n = l ++ [n].
Proof.
  intros H Hn. unfold set_add. destruct (existsb (N.eqb n) l) eqn:E; auto.
  apply existsb_exists in E as (x & Hx & E). rewrite Forall_forall in H. specialize (H x Hx). lia.
Qed.

Lemma add_elem_fresh b c n st :
  bounded b st -> b < n ->
  s_elems (add_elem c n st) = s_elems st ++ [(c, n)].
Proof.
  intros (_ & _ & _ & _ & H & _) Hn. unfold add_elem. cbn [s_elems].
  destruct (existsb _ (s_elems st)) eqn:E; auto.
  apply existsb_exists in E as (x & Hx & E). rewrite Forall_forall in H. specialize (H x Hx).
  apply tkey_eqb_eq in E. subst x. cbn [snd] in H. lia.
Qed.

Lemma bounded_add_elem b c n st :
  bounded b st -> b < n -> bounded n (add_elem c n st).
Proof.
  intros Hb Hn. pose proof (add_elem_fresh b c n st Hb Hn) as E.
  apply (bounded_mono b n) in Hb; [|lia]. destruct Hb as (H1 & H2 & H3 & H4 & H5 & H6 & H7 & H8 & H9).
  unfold bounded. rewrite E. repeat split; auto. apply Forall_app. split; auto. constructor; auto. cbn. lia.
Qed.

Definition table_of (c : cls) (ty : N) (st : storey) : list N :=
  match hget tkey_eqb (s_types st) (c, ty) with Some l => l | None => [] end.

Lemma table_of_bounded b c ty st : bounded b st -> Forall (fun n => n <= b) (table_of c ty st).
Proof.
  intros (_ & _ & _ & _ & _ & H & _). unfold table_of.
  destruct (hget tkey_eqb (s_types st) (c, ty)) eqn:E; [|constructor].
  apply hget_In in E; [|apply tkey_eqb_eq]. rewrite Forall_forall in H. apply (H _ E).
Qed.

Lemma type_push_facts b c ty n st :
  bounded b st -> b < n ->
  Permutation (flat_map type_facts (s_types (type_push c ty n st)))
    (flat_map type_facts (s_types st) ++ match c with CSpace => [] | _ => [FPair KRelDefinesByType ty n] end).
Proof.
  intros Hb Hn. unfold type_push. cbn [set_types s_types].
  change (match hget tkey_eqb (s_types st) (c, ty) with Some l => l | None => [] end) with (table_of c ty st).
  pose proof (table_of_bounded b c ty st Hb) as Ht. rewrite (set_add_fresh b) by auto.
  destruct (hset_split tkey_eqb tkey_eqb_eq (s_types st) (c, ty) (table_of c ty st ++ [n]))
    as [(H1 & _ & ->)|(l1 & v0 & l2 & H1 & H2 & ->)].
  - unfold table_of. rewrite H1. rewrite flat_map_app. apply Permutation_app_head.
    cbn [flat_map app]. rewrite app_nil_r. unfold type_facts. cbn [fst snd]. destruct c; auto.
  - unfold table_of. rewrite H2. rewrite H1. rewrite !flat_map_app. cbn [flat_map].
    unfold type_facts at 2 5. cbn [fst snd]. rewrite <- !app_assoc. apply Permutation_app_head.
    destruct c; rewrite ?app_nil_r; auto; rewrite map_app, <- !app_assoc; apply Permutation_app_head;
      cbn [map]; apply Permutation_app_comm.
Qed.

Lemma type_push_bounded b c ty n st :
  bounded b st -> ty <= b -> n <= b -> bounded b (type_push c ty n st).
Proof.
  intros Hb Ht Hn. pose proof (table_of_bounded b c ty st Hb) as Hx.
  destruct Hb as (H1 & H2 & H3 & H4 & H5 & H6 & H7 & H8 & H9). unfold bounded, type_push, set_types.
  cbn [s_types s_elems s_voids_wall s_voids_slab s_fills]. repeat split; auto.
  - apply hset_NoDup; auto. apply tkey_eqb_eq.
  - apply hset_Forall; auto; [apply tkey_eqb_eq|]. cbn [fst snd]. split; auto.
    fold (table_of c ty st). unfold set_add. destruct (existsb _ _); auto. apply Forall_app. auto.
Qed.

Lemma fresh_type b c n st : bounded b st -> b < n -> hget tkey_eqb (s_types st) (c, n) = None.
Proof.
  intros (_ & _ & _ & _ & _ & H & _) Hn. destruct (hget tkey_eqb (s_types st) (c, n)) eqn:E; auto.
  apply hget_In in E; [|apply tkey_eqb_eq]. rewrite Forall_forall in H. destruct (H _ E) as [H1 _]. cbn in H1. lia.
Qed.

Lemma type_reset_fresh b c n st : bounded b st -> b < n -> s_types (type_reset c n st) = s_types st ++ [(c, n, [])].
Proof.
  intros Hb Hn. pose proof (fresh_type b c n st Hb Hn) as E. unfold type_reset. cbn [set_types s_types].
  destruct (hset_split tkey_eqb tkey_eqb_eq (s_types st) (c, n) []) as [(_ & _ & ->)|(l1 & v0 & l2 & _ & H & _)];
    auto. congruence.
Qed.

Lemma type_entry_reset b c n st : bounded b st -> b < n -> type_entry c n st = type_reset c n st.
Proof. intros Hb Hn. unfold type_entry. now rewrite (fresh_type b c n st Hb Hn). Qed.

Lemma type_reset_facts b c n st :
  bounded b st -> b < n -> flat_map type_facts (s_types (type_reset c n st)) = flat_map type_facts (s_types st).
Proof.
  intros Hb Hn. rewrite (type_reset_fresh b c n st Hb Hn), flat_map_app. cbn [flat_map].
  unfold type_facts at 2. cbn [fst snd map]. destruct c; now rewrite !app_nil_r.
Qed.

Lemma type_reset_bounded b c n st : bounded b st -> b < n -> bounded n (type_reset c n st).
Proof.
  intros Hb Hn. apply (bounded_mono b n) in Hb; [|lia]. destruct Hb as (H1 & H2 & H3 & H4 & H5 & H6 & H7 & H8 & H9).
  unfold bounded, type_reset, set_types.
  cbn [s_types s_elems s_voids_wall s_voids_slab s_fills]. repeat split; auto.
  - apply hset_NoDup; auto. apply tkey_eqb_eq.
  - apply hset_Forall; auto; [apply tkey_eqb_eq|]. cbn [fst snd]. split; [lia|constructor].
Qed.

Lemma hset_fresh b (l : list (N * N)) n v : Forall (fun x => fst x <= b) l -> b < n -> hset N.eqb l n v = l ++ [(n, v)].
Proof.
  intros H Hn. destruct (hset_split N.eqb N.eqb_eq l n v) as [(_ & _ & ->)|(l1 & v0 & l2 & -> & _ & _)]; auto.
  apply Forall_app in H as [_ H]. inversion H. cbn in *. lia.
Qed.

Lemma add_void_facts b s n h st :
  bounded b st -> b < n ->
  Permutation (storey_facts (add_void s n h st)) (storey_facts st ++ [FPair KRelVoidsElement h n]).
Proof.
  intros (_ & _ & _ & _ & _ & _ & H1 & H2 & _) Hn. unfold add_void, storey_facts.
  destruct s; cbn [s_id s_elems s_types s_voids_wall s_voids_slab s_fills];
    rewrite (hset_fresh b) by auto; rewrite map_app; cbn [map]; change (void_fact (n, h)) with (FPair KRelVoidsElement h n); perm.
Qed.

Lemma add_void_bounded b s n h st : bounded b st -> b < n -> bounded n (add_void s n h st).
Proof.
  intros Hb Hn. apply (bounded_mono b n) in Hb; [|lia]. destruct Hb as (H1 & H2 & H3 & H4 & H5 & H6 & H7 & H8 & H9).
  unfold bounded, add_void. destruct s; cbn [s_types s_elems s_voids_wall s_voids_slab s_fills]; repeat split; auto;
    try (apply hset_NoDup; auto; apply N.eqb_eq); apply hset_Forall; auto; try apply N.eqb_eq; cbn; lia.
Qed.

Lemma add_fill_facts b a n st :
  bounded b st -> b < a ->
  Permutation (storey_facts (add_fill a n st)) (storey_facts st ++ [FPair KRelFillsElement a n]).
Proof.
  intros (_ & _ & _ & _ & _ & _ & _ & _ & H) Hn. unfold add_fill, storey_facts.
  cbn [s_id s_elems s_types s_voids_wall s_voids_slab s_fills].
  rewrite (hset_fresh b) by auto. rewrite map_app; cbn [map]; change (fill_fact (a, n)) with (FPair KRelFillsElement a n); perm.
Qed.

Lemma add_fill_bounded b a n st : bounded b st -> a <= b -> bounded b (add_fill a n st).
Proof.
  intros (H1 & H2 & H3 & H4 & H5 & H6 & H7 & H8 & H9) Hn.
  unfold bounded, add_fill. cbn [s_types s_elems s_voids_wall s_voids_slab s_fills]; repeat split; auto;
    try (apply hset_NoDup; auto; apply N.eqb_eq). apply hset_Forall; auto; apply N.eqb_eq.
Qed.

Lemma add_elem_facts b c n st :
  bounded b st -> b < n ->
  Permutation (storey_facts (add_elem c n st)) (storey_facts st ++ [elem_fact (s_id st) (c, n)]).
Proof.
  intros Hb Hn. pose proof (add_elem_fresh b c n st Hb Hn) as E. unfold storey_facts.
  change (s_id (add_elem c n st)) with (s_id st). rewrite E.
  change (s_types (add_elem c n st)) with (s_types st).
  change (s_voids_wall (add_elem c n st)) with (s_voids_wall st).
  change (s_voids_slab (add_elem c n st)) with (s_voids_slab st).
  change (s_fills (add_elem c n st)) with (s_fills st). rewrite map_app. cbn [map]. perm.
Qed.

Lemma type_push_storey_facts b c ty n st :
  bounded b st -> b < n ->
  Permutation (storey_facts (type_push c ty n st))
    (storey_facts st ++ match c with CSpace => [] | _ => [FPair KRelDefinesByType ty n] end).
Proof.
  intros Hb Hn. pose proof (type_push_facts b c ty n st Hb Hn) as E. unfold storey_facts.
  change (s_id (type_push c ty n st)) with (s_id st).
  change (s_elems (type_push c ty n st)) with (s_elems st).
  change (s_voids_wall (type_push c ty n st)) with (s_voids_wall st).
  change (s_voids_slab (type_push c ty n st)) with (s_voids_slab st).
  change (s_fills (type_push c ty n st)) with (s_fills st). perm.
Qed.

Lemma type_reset_storey_facts b c n st :
  bounded b st -> b < n -> storey_facts (type_reset c n st) = storey_facts st.
Proof.
  intros Hb Hn. pose proof (type_reset_facts b c n st Hb Hn) as E. unfold storey_facts.
  change (s_id (type_reset c n st)) with (s_id st).
  change (s_elems (type_reset c n st)) with (s_elems st).
  change (s_voids_wall (type_reset c n st)) with (s_voids_wall st).
  change (s_voids_slab (type_reset c n st)) with (s_voids_slab st).
  change (s_fills (type_reset c n st)) with (s_fills st). now rewrite E.
Qed.
