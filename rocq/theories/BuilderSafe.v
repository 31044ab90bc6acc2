(** Calls that return: a logic of total correctness with the number of objects a call
    may add. *)

From Coq Require Import String Ascii List NArith ZArith Bool Lia Permutation.
From Coq Require Import ZifyBool ZifyNat ZifyN.
From Verif Require Import Base Prims Float Kind Types Schema Entity EntityFacts DataMap DataSpec DataMapFacts Extractor
  Arith Builder BuilderRun BuilderBase BuilderSpec.
Import ListNotations.
Open Scope N_scope.
Open Scope builder_scope.

(** From a state with [A] and room for [n] objects, the call returns, and [P] holds
    afterwards. *)
Definition safe {X} (A : proj -> Prop) (n : N) (c : B X) (P : X -> proj -> Prop) : Prop :=
  forall p, A p -> size (p_map p) + n <= max_usize ->
  exists a p', c p = Done (a, p') /\ size (p_map p') <= size (p_map p) + n /\ P a p'.

(** What new objects do not destroy. *)
Definition stable (A : proj -> Prop) : Prop :=
  (forall p, A p -> dense (p_map p)) /\
  (forall p p', A p -> dense (p_map p') -> (exists new, p_map p' = p_map p ++ new) -> frame p p' -> A p').

Section Rules.
Context {A : proj -> Prop}.

Lemma safe_ret {X} (a : X) n (P : X -> proj -> Prop) : (forall p, A p -> P a p) -> safe A n (bret a) P.
Proof. intros H p Hp Hn. exists a, p. split; [reflexivity|]. split; [lia|auto]. Qed.

Lemma safe_bind {X Y} (c : B X) (f : X -> B Y) n n1 (P : X -> proj -> Prop) (R : Y -> proj -> Prop) :
  safe A n1 c P -> n1 <= n -> (forall a, safe (P a) (n - n1) (f a) R) -> safe A n (bbind c f) R.
Proof.
  intros Hc Hn Hf p Hp Hs. destruct (Hc p Hp) as (a & p1 & E1 & S1 & H1); [lia|].
  destruct (Hf a p1 H1) as (b & p2 & E2 & S2 & H2); [lia|].
  exists b, p2. unfold bbind. rewrite E1. split; [exact E2|]. split; [lia|auto].
Qed.

Lemma safe_weaken {X} (c : B X) n n' (P R : X -> proj -> Prop) :
  safe A n c P -> n <= n' -> (forall a p, P a p -> R a p) -> safe A n' c R.
Proof.
  intros H Hn HR p Hp Hs. destruct (H p Hp) as (a & p1 & E1 & S1 & H1); [lia|].
  exists a, p1. split; auto. split; [lia|auto].
Qed.

Lemma safe_pre {X} (A' : proj -> Prop) (c : B X) n P : (forall p, A p -> A' p) -> safe A' n c P -> safe A n c P.
Proof. intros H Hs p Hp Hn. apply Hs; auto. Qed.

Lemma safe_pure {X} (F : Prop) (c : B X) n P : (F -> safe A n c P) -> safe (fun p => A p /\ F) n c P.
Proof. intros H p [Hp HF] Hn. apply H; auto. Qed.

Lemma safe_get n : safe A n bget (fun a p => A p /\ a = p).
Proof. intros p Hp Hn. exists p, p. split; [reflexivity|]. split; [lia|auto]. Qed.

Lemma safe_need {X} (x : option X) n a : x = Some a -> safe A n (need x) (fun b p => A p /\ b = a).
Proof. intros -> p Hp Hn. exists a, p. split; [reflexivity|]. split; [lia|auto]. Qed.

Lemma safe_fetch k n m (F : list val -> Prop) :
  (forall p, A p -> exists l, lookup (p_map p) m = Some (Ent k l) /\ F l) ->
  safe A n (fetch k m) (fun l p => A p /\ F l).
Proof.
  intros H p Hp Hn. destruct (H p Hp) as (l & Hl & HF). exists l, p. unfold fetch, get. rewrite Hl.
  assert (E : kind_eqb k k = true) by now apply kind_eqb_eq. rewrite E. split; [reflexivity|]. split; [lia|auto].
Qed.

Lemma safe_fetch_any n m (F : entity -> Prop) :
  (forall p, A p -> exists e, lookup (p_map p) m = Some e /\ F e) ->
  safe A n (fetch_any m) (fun e p => A p /\ F e).
Proof.
  intros H p Hp Hn. destruct (H p Hp) as (e & He & HF). exists e, p. unfold fetch_any, get_untyped. rewrite He.
  split; [reflexivity|]. split; [lia|auto].
Qed.

Lemma safe_bmap {X Y} (f : X -> B Y) l n :
  (forall a, In a l -> safe A n (f a) (fun _ => A)) ->
  safe A (n * N.of_nat (length l)) (bmap f l) (fun cs p => A p /\ length cs = length l).
Proof.
  induction l as [|a l IH]; intro H; cbn [bmap length].
  - apply safe_ret. auto.
  - eapply safe_bind; [apply H; now left|lia|]. intro c.
    eapply safe_bind; [apply IH; intros; apply H; now right|lia|]. intro cs. apply safe_pure. intro E.
    apply safe_ret. intros. cbn [length]. auto.
Qed.

Lemma safe_bmap_index {X Y} (f : N -> X -> B Y) l n : forall i,
  (forall i a, In a l -> safe A n (f i a) (fun _ => A)) ->
  safe A (n * N.of_nat (length l)) (bmap_index f i l) (fun _ => A).
Proof.
  induction l as [|a l IH]; intros i H; cbn [bmap_index length].
  - apply safe_ret. auto.
  - eapply safe_bind; [apply H; now left|lia|]. intro c.
    eapply safe_bind; [apply IH; intros; apply H; now right|lia|]. intro cs. apply safe_ret. auto.
Qed.

Hypothesis HA : stable A.

Lemma safe_ins k l : safe A 1 (ins k l) (fun n p => A p /\ lookup (p_map p) n = Some (Ent k l)).
Proof.
  intros p Hp Hn. destruct HA as [HD HS]. pose proof (HD p Hp) as D.
  destruct (insert_new (p_map p) (Ent k l)) as [[m n]|] eqn:E.
  - assert (Hi : ins k l p = Done (n, set_map m p)) by (unfold ins; now rewrite E).
    exists n, (set_map m p). split; [exact Hi|].
    destruct (ins_inv _ _ _ _ _ Hi D) as (E1 & E2 & E3 & D'). cbn [set_map p_map] in *.
    injection E3 as Em. subst m. split; [unfold size; rewrite app_length; cbn [length]; lia|]. split.
    + apply (HS p); auto; [eexists; reflexivity|]. split; reflexivity.
    + rewrite lookup_app. cbn [lookup]. rewrite N.eqb_refl. destruct (lookup (p_map p) n) eqn:L; auto.
      assert (1 <= n <= size (p_map p)) by (apply dense_lookup; eauto). lia.
  - exfalso. unfold insert_new in E. destruct (max_key (p_map p)) as [x|] eqn:M; [|discriminate E].
    destruct (N.eqb_spec x max_usize) as [Ex|]; [|discriminate E].
    apply max_key_spec in M as [Hx _]. apply dense_In in Hx; auto. lia.
Qed.

Lemma safe_new k l : safe A 1 (ins k l) (fun _ => A).
Proof. eapply safe_weaken; [apply safe_ins|lia|]. cbv beta. tauto. Qed.

Lemma safe_tick : safe A 0 tick (fun _ => A).
Proof.
  intros p Hp Hn. exists (p_tick p), (set_tick (S (p_tick p)) p). split; [reflexivity|]. split; [cbn; lia|].
  destruct HA as [HD HS]. apply (HS p); auto; [exact (HD p Hp)| |split; reflexivity]. exists []. now rewrite app_nil_r.
Qed.
End Rules.

Create HintDb safe.
Ltac known := solve [eauto with safe].
Ltac sb := eapply safe_bind; [known|lia|intro; cbv beta].
Ltac fin :=
  first [ apply safe_ret; solve [intros; cbv beta in *; try exact I; tauto]
        | eapply safe_weaken; [known|lia|solve [intros; cbv beta in *; try exact I; tauto]] ].
Ltac go := repeat first [progress cbv beta | fin | sb].

(** ** Calls that look nothing up *)

Section Plain.
Variable o : oracle.
Context {A : proj -> Prop}.
Hypothesis HA : stable A.
Hint Resolve safe_new safe_tick : safe.

Lemma safe_guid : safe A 0 (fresh_guid o) (fun _ => A).
Proof. unfold fresh_guid. go. Qed.
Lemma safe_now : safe A 0 (now o) (fun _ => A).
Proof. unfold now. go. Qed.
Lemma safe_walk l : safe A 0 (walk o l) (fun _ => A).
Proof. unfold walk. go. Qed.
Hint Resolve safe_guid safe_now safe_walk : safe.

Lemma safe_root name : safe A 0 (root o name) (fun _ => A).
Proof. unfold root. go. Qed.
Lemma safe_owned name : safe A 0 (owned o name) (fun _ => A).
Proof.
  unfold owned. sb. eapply (safe_bind _ _ _ 0); [apply safe_get|lia|]. intro. go.
Qed.
Lemma safe_axis3d v : safe A 1 (axis3d v) (fun _ => A).
Proof. unfold axis3d. go. Qed.
Lemma safe_placement_new l : safe A 1 (placement_new l) (fun _ => A).
Proof. unfold placement_new. go. Qed.
Hint Resolve safe_root safe_owned safe_axis3d safe_placement_new : safe.

Lemma safe_extrude f v d ctx : safe A 3 (extrude f v d ctx) (fun _ => A).
Proof. unfold extrude. go. Qed.
Hint Resolve safe_extrude : safe.
Lemma safe_rectangular a b c v ctx : safe A 6 (rectangular_shape a b c v ctx) (fun _ => A).
Proof. unfold rectangular_shape. go. Qed.
Lemma safe_profile k l : safe A 3 (arbitrary_profile k l) (fun _ => A).
Proof. unfold arbitrary_profile. go. Qed.
Hint Resolve safe_rectangular safe_profile : safe.
Lemma safe_horizontal l d ctx : safe A 6 (horizontal_shape l d ctx) (fun _ => A).
Proof. unfold horizontal_shape. go. Qed.
Lemma safe_vertical l d ctx : safe A 6 (vertical_shape l d ctx) (fun _ => A).
Proof. unfold vertical_shape. go. Qed.
Lemma safe_arbitrary l d v ctx : safe A 6 (arbitrary_shape l d v ctx) (fun _ => A).
Proof. unfold arbitrary_shape. go. Qed.
Lemma safe_add_repr r l : safe A 1 (add_representation r l) (fun _ => A).
Proof. unfold add_representation. go. Qed.
Lemma safe_axis_repr v ctx : safe A 3 (axis_repr v ctx) (fun _ => A).
Proof. unfold axis_repr. go. Qed.
Hint Resolve safe_horizontal safe_vertical safe_arbitrary safe_add_repr safe_axis_repr : safe.

Lemma safe_material name : safe A 1 (material name) (fun _ => A).
Proof. unfold material. go. Qed.
Hint Resolve safe_material : safe.
Lemma safe_layer name l : safe A 2 (material_layer name l) (fun _ => A).
Proof. unfold material_layer. go. Qed.
Lemma safe_layer_set l : safe A 1 (material_layer_set l) (fun _ => A).
Proof. unfold material_layer_set. go. Qed.
Lemma safe_usage s a b c : safe A 1 (material_layer_set_usage s a b c) (fun _ => A).
Proof. unfold material_layer_set_usage. go. Qed.
Lemma safe_constituent a b : safe A 2 (material_constituent a b) (fun _ => A).
Proof. unfold material_constituent. go. Qed.
Lemma safe_constituent_set l : safe A 1 (material_constituent_set l) (fun _ => A).
Proof. unfold material_constituent_set. go. Qed.

(** The table of associations changes. *)
Lemma safe_associate c t m k : safe A 0 (associate o c t m k) (fun _ _ => True).
Proof.
  unfold associate. eapply (safe_bind _ _ _ 0); [apply safe_get|lia|]. intro p0. cbv beta.
  apply (safe_pre A); [tauto|].
  eapply (safe_bind _ _ _ 0 (fun _ => A)); [|lia|].
  - destruct (hget akey_eqb (p_assoc p0) (c, t, m)); go.
  - intro rel. eapply (safe_bind _ _ _ 0); [apply safe_get|lia|]. intro q. cbv beta.
    intros p [Hp E] Hn. eexists tt, _. split; [reflexivity|]. split; [|exact I]. subst q. cbn [set_assoc p_map]. lia.
Qed.
Hint Resolve safe_layer safe_layer_set safe_usage safe_constituent safe_constituent_set safe_associate : safe.

Lemma safe_new_type c m name i st : safe A 1 (new_type o c m name i st) (fun _ _ => True).
Proof. unfold new_type. go. Qed.
Lemma safe_window_type name i j st : safe A 1 (new_window_type o name i j st) (fun _ _ => True).
Proof. unfold new_window_type. go. Qed.
Lemma safe_space_type name i st : safe A 1 (new_space_type o name i st) (fun _ _ => True).
Proof. unfold new_space_type. go. Qed.
Lemma safe_property name v u : safe A 1 (single_property name v u) (fun _ => A).
Proof. unfold single_property. go. Qed.
Lemma safe_property_set name l : safe A 1 (property_set o name l) (fun _ => A).
Proof. unfold property_set. go. Qed.
Lemma safe_relate a b : safe A 1 (relate_properties o a b) (fun _ => A).
Proof. unfold relate_properties. go. Qed.
Lemma safe_transform_object t : safe A 5 (transform_object t) (fun _ => A).
Proof. unfold transform_object. go. Qed.
Lemma safe_aggregate name p l : safe A 1 (aggregate o name p l) (fun _ => A).
Proof. unfold aggregate. go. Qed.
Hint Resolve safe_property safe_property_set safe_relate safe_aggregate : safe.
Lemma safe_drop_building n l : safe A 1 (drop_building o n l) (fun _ => A).
Proof. apply safe_aggregate. Qed.
Lemma safe_drop_site n l : safe A 1 (drop_site o n l) (fun _ => A).
Proof. apply safe_aggregate. Qed.

(** ** Hash tables *)

Lemma flat_map_short {X Y} (f : X -> list Y) l : (forall x, (length (f x) <= 1)%nat) -> (length (flat_map f l) <= length l)%nat.
Proof. intro H. induction l as [|x l IH]; auto. cbn [flat_map length]. rewrite app_length. specialize (H x). lia. Qed.

Hypothesis Ho : fair o.

Lemma safe_walk_pairs {V} (l : list (N * V)) :
  safe A 0 (walk_pairs o l) (fun r p => A p /\ ((length r <= length l)%nat /\ incl r l)).
Proof.
  unfold walk_pairs. eapply (safe_bind _ _ _ 0 (fun ks p => A p /\ Permutation ks (map fst l))); [|lia|].
  - unfold walk. sb. apply safe_ret. intros. split; auto.
  - intro ks. cbv beta. apply safe_pure. intro HP. apply safe_ret. intros p Hp. split; auto. split.
    + rewrite flat_map_short by (intro x; destruct (hget N.eqb l x); auto).
      now rewrite (Permutation_length HP), map_length.
    + intros [k v] Hi. apply in_flat_map in Hi as (k' & _ & Hi). destruct (hget N.eqb l k') eqn:E; [|destruct Hi].
      destruct Hi as [Ek|[]]. injection Ek as <- <-. clear - E. induction l as [|[k1 v1] l IH]; [discriminate E|].
      cbn [hget] in E. destruct (N.eqb_spec k1 k') as [->|]; [|right; auto]. injection E as ->. now left.
Qed.

Lemma safe_type_relations c name st :
  safe A (N.of_nat (length (types_of c st))) (type_relations o c name st) (fun _ => A).
Proof.
  unfold type_relations. eapply (safe_bind _ _ _ 0); [apply safe_walk_pairs|lia|]. intro ts. cbv beta.
  apply safe_pure. intros [Hl _]. eapply safe_weaken; [apply (safe_bmap_index _ _ 1)|lia|auto].
  intros i x _. go.
Qed.
Lemma safe_void_relations name l : safe A (N.of_nat (length l)) (void_relations o name l) (fun _ => A).
Proof.
  unfold void_relations. eapply (safe_bind _ _ _ 0); [apply safe_walk_pairs|lia|]. intro ts. cbv beta.
  apply safe_pure. intros [Hl _]. eapply safe_weaken; [apply (safe_bmap_index _ _ 1)|lia|auto].
  intros i x _. go.
Qed.
Lemma safe_fill_relations st : safe A (N.of_nat (length (s_fills st))) (fill_relations o st) (fun _ => A).
Proof.
  unfold fill_relations. eapply (safe_bind _ _ _ 0); [apply safe_walk_pairs|lia|]. intro ts. cbv beta.
  apply safe_pure. intros [Hl _]. eapply safe_weaken; [apply (safe_bmap_index _ _ 1)|lia|auto].
  intros i x _. go.
Qed.
Hint Resolve safe_type_relations safe_void_relations safe_fill_relations : safe.

(** How many relations the tables of a storey lead to. *)
Definition weight (st : storey) : N :=
  N.of_nat (length (s_types st) + length (s_voids_wall st) + length (s_voids_slab st) + length (s_fills st)).

Lemma types_weight st :
  (length (types_of CWall st) + length (types_of CSlab st) + length (types_of CRoof st) +
   length (types_of CWindow st) + length (types_of CShading st) <= length (s_types st))%nat.
Proof.
  unfold types_of. rewrite !map_length. induction (s_types st) as [|[[c t] l] ts IH]; [cbn; lia|].
  cbn [filter fst snd]. destruct c; cbn [cls_eqb length]; lia.
Qed.

Lemma safe_drop_storey st : safe A (weight st + 2) (drop_storey o st) (fun _ => A).
Proof.
  pose proof (types_weight st) as H. unfold weight. unfold drop_storey.
  go.
Qed.

Lemma assocs_weight l : (length (concat (map (fun t => assocs_of (fst t) (snd t) l) assoc_tables)) <= length l)%nat.
Proof.
  unfold assocs_of. cbn [assoc_tables map concat fst snd]. rewrite !app_length, !map_length. cbn [length].
  induction l as [|[[[c t] m] v] l IH]; [cbn; lia|]. cbn [filter fst snd].
  destruct c, t; cbn [cls_eqb Bool.eqb andb length]; lia.
Qed.

Lemma safe_build a : safe (fun p => A p /\ p_assoc p = a) (N.of_nat (length a) + 1) (build o) (fun _ => A).
Proof.
  unfold build. eapply (safe_bind _ _ _ 0); [apply safe_get|lia|]. intro p0. cbv beta.
  apply (safe_pre (fun p => (A p /\ p_assoc p = a) /\ p_assoc p0 = a)); [intros p [[Hp E] ->]; auto|].
  apply safe_pure. intro E0.
  eapply (safe_bind _ _ _ 0 (fun ls p => A p /\ (length (concat ls) <= length a)%nat)); [|lia|].
  - intros p [Hp _] Hn. rewrite E0. clear E0 p0.
    pose proof (assocs_weight a) as W.
    enough (X : forall ts, exists ls p', bmap (fun t : cls * bool => walk_pairs o (assocs_of (fst t) (snd t) a)) ts p = Done (ls, p') /\
      size (p_map p') <= size (p_map p) + 0 /\ A p' /\ (length (concat ls) <= length (concat (map (fun t => assocs_of (fst t) (snd t) a) ts)))%nat).
    { destruct (X assoc_tables) as (ls & p' & X1 & X2 & X3 & X4). exists ls, p'. split; auto. split; auto. split; auto. lia. }
    intro ts. revert p Hp Hn. induction ts as [|t ts IH]; intros p Hp Hn; cbn [bmap map concat].
    + exists [], p. split; [reflexivity|]. split; [lia|]. split; auto.
    + destruct (safe_walk_pairs (assocs_of (fst t) (snd t) a) p Hp Hn) as (r & p1 & E1 & S1 & A1 & L1 & _).
      destruct (IH p1 A1) as (ls & p2 & E2 & S2 & A2 & L2); [lia|].
      exists (r :: ls), p2. unfold bbind. rewrite E1, E2. split; [reflexivity|]. split; [lia|]. split; auto.
      cbn [concat]. rewrite !app_length. lia.
  - intro ls. cbv beta. apply safe_pure. intro HL.
    eapply safe_bind; [apply (safe_bmap _ _ 1); intros; go|lia|]. intro. cbv beta. apply safe_pure. intros _. go.
Qed.
End Plain.
