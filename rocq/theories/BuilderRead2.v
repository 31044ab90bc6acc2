(** What the extractor answers on built models. *)

From Coq Require Import String Ascii List NArith ZArith Bool Lia Permutation.
From Verif Require Import Base Prims Kind Types Schema Entity EntityFacts DataMap DataSpec DataMapFacts Extractor
  ExtractorSpec ExtractorFacts Float Arith Builder BuilderBase BuilderRun BuilderGrow BuilderSpec BuilderRel BuilderInv
  BuilderAll BuilderGood3 BuilderKeep BuilderIds BuilderOut HistorySpec GivenSpec BuilderGiven BuilderGiven2
  ExtractSpec BuilderRead WellTyped.
Import ListNotations.
Open Scope N_scope.

(** ** Lists *)

Lemma filter_app_flat {A B} (g : B -> bool) (f : A -> list B) l :
  filter g (flat_map f l) = flat_map (fun a => filter g (f a)) l.
Proof. induction l as [|a l IH]; cbn [flat_map]; auto. now rewrite filter_app, IH. Qed.

Lemma filter_perm {A} (g : A -> bool) l l' : Permutation l l' -> Permutation (filter g l) (filter g l').
Proof.
  induction 1; cbn [filter]; auto.
  - destruct (g x); auto.
  - destruct (g x), (g y); auto using perm_swap.
  - etransitivity; eauto.
Qed.

Lemma partners_perm n l l' : Permutation l l' -> Permutation (partners n l) (partners n l').
Proof. intro H. now apply Permutation_map, filter_perm. Qed.
Lemma owners_perm n l l' : Permutation l l' -> Permutation (owners n l) (owners n l').
Proof. intro H. now apply Permutation_map, filter_perm. Qed.

Lemma owners_In n t l : In t (owners n l) <-> In (t, n) l.
Proof.
  unfold owners. rewrite in_map_iff. split.
  - intros ([a b] & <- & H). apply filter_In in H as [H E]. cbn [fst snd] in *. apply N.eqb_eq in E. now subst.
  - intro H. exists (t, n). split; auto. apply filter_In. split; auto. apply N.eqb_refl.
Qed.
Lemma partners_In n t l : In t (partners n l) <-> In (n, t) l.
Proof.
  unfold partners. rewrite in_map_iff. split.
  - intros ([a b] & <- & H). apply filter_In in H as [H E]. cbn [fst snd] in *. apply N.eqb_eq in E. now subst.
  - intro H. exists (n, t). split; auto. apply filter_In. split; auto. apply N.eqb_refl.
Qed.

Lemma owners_none n l : ~ In n (map snd l) -> owners n l = [].
Proof.
  intro H. destruct (owners n l) as [|t q] eqn:E; auto. exfalso. apply H.
  assert (X : In t (owners n l)) by (rewrite E; now left). apply owners_In in X. now apply (in_map snd) in X.
Qed.

Lemma owners_one n l : NoDup (map snd l) -> owners n l = [] \/ exists t, owners n l = [t].
Proof.
  induction l as [|[a b] l IH]; intro H; [now left|]. cbn [map snd] in H. inversion H as [|? ? H1 H2]; subst.
  unfold owners. cbn [filter snd]. destruct (N.eqb_spec b n).
  - subst b. right. exists a. cbn [map fst]. f_equal. now apply owners_none.
  - now apply IH.
Qed.

Lemma owners_same n l l' : Permutation l l' -> NoDup (map snd l) -> owners n l = owners n l'.
Proof.
  intros P H. pose proof (owners_perm n _ _ P) as Q. destruct (owners_one n l H) as [E|[t E]]; rewrite E in *.
  - now apply Permutation_nil in Q.
  - now apply Permutation_length_1_inv in Q.
Qed.

Lemma collect_flat {A B C} (f : B -> outcome (list C)) (g : A -> list B) l :
  collect (fun a => collect f (g a)) l = collect f (flat_map g l).
Proof.
  assert (App : forall x y, collect f (x ++ y) = match collect f x with
            Done u => match collect f y with Done v => Done (u ++ v) | Err => Err | Panic => Panic end
          | Err => Err | Panic => Panic end).
  { induction x as [|b x IH]; intro y; cbn [app collect].
    - destruct (collect f y); reflexivity.
    - destruct (f b); auto. rewrite IH. destruct (collect f x); auto. destruct (collect f y); auto.
      now rewrite app_assoc. }
  induction l as [|a l IH]; cbn [collect flat_map]; auto. rewrite App, IH. reflexivity.
Qed.

(** ** Relations as pairs *)

Lemma objects_find k m : objects k m = map snd (find_all_of_type k m).
Proof.
  unfold objects, find_all_of_type. induction m as [|[n e] m IH]; auto. cbn [flat_map snd fst].
  rewrite map_app, IH. f_equal. destruct e as [k' l|s]; auto. destruct (kind_eqb k' k); auto.
Qed.

Lemma flat_map_map {A B C} (f : B -> list C) (g : A -> B) l : flat_map f (map g l) = flat_map (fun a => f (g a)) l.
Proof. induction l as [|a l IH]; cbn [map flat_map]; auto. now rewrite IH. Qed.

Lemma list_prod_one {A B} (a : A) (l : list B) : list_prod [a] l = map (pair a) l.
Proof. cbn [list_prod]. apply app_nil_r. Qed.

Lemma partners_prod n a l : partners n (list_prod [a] l) = if a =? n then l else [].
Proof.
  unfold partners. rewrite list_prod_one. induction l as [|b l IH]; cbn [map filter fst].
  - now destruct (a =? n).
  - destruct (a =? n) eqn:E; cbn [map snd]; rewrite ?IH; auto. 
Qed.

Lemma owners_prod n a l : NoDup l -> owners n (list_prod [a] l) = if existsb (N.eqb n) l then [a] else [].
Proof.
  intro H. destruct (existsb (N.eqb n) l) eqn:E.
  - apply existsb_exists in E as (x & Hx & E). apply N.eqb_eq in E. subst x.
    destruct (owners_one n (list_prod [a] l)) as [E|[t E]].
    + rewrite list_prod_one, map_map. cbn [snd]. now rewrite map_id.
    + exfalso. assert (X : In a (owners n (list_prod [a] l))).
      { apply owners_In. rewrite list_prod_one. now apply in_map. }
      rewrite E in X. destruct X.
    + rewrite E. f_equal. assert (X : In t (owners n (list_prod [a] l))) by (rewrite E; now left).
      apply owners_In in X. rewrite list_prod_one in X. apply in_map_iff in X as (y & X & _). now injection X as <- _.
  - apply owners_none. rewrite list_prod_one, map_map. cbn [snd]. rewrite map_id. intro X.
    assert (existsb (N.eqb n) l = true); [|congruence]. apply existsb_exists. exists n. split; auto. apply N.eqb_refl.
Qed.

(** One id here, a list there. *)
Definition one_many (i j : nat) (l : list val) : Prop :=
  exists a b, nth_error l i = Some (VId a) /\ ids_at l i = [a] /\ nth_error l j = Some b /\ ids_at l j = attr_ids l j.

Lemma partners_pairs k i j m n :
  (forall l, In l (objects k m) -> one_many i j l) ->
  partners n (pairs k i j m) =
  flat_map (fun q => attr_ids (snd q) j) (filter (fun q => is_attr (snd q) i n) (find_all_of_type k m)).
Proof.
  intro H. unfold pairs, partners. rewrite objects_find in *. rewrite flat_map_map, filter_app_flat.
  rewrite map_flat'. induction (find_all_of_type k m) as [|q l IH]; auto. cbn [flat_map filter].
  rewrite IH by (intros x Hx; apply H; now right).
  destruct (H (snd q)) as (a & b & E1 & E2 & E3 & E4); [now left|].
  pose proof (partners_prod n a (ids_at (snd q) j)) as P. unfold partners in P. rewrite E2, P.
  unfold is_attr, attr_id. rewrite E1. destruct (a =? n); auto. cbn [flat_map]. now rewrite E4.
Qed.

Lemma owners_pairs k i j m n :
  (forall l, In l (objects k m) -> one_many i j l) -> NoDup (map snd (pairs k i j m)) ->
  owners n (pairs k i j m) =
  flat_map (fun q => field_id (snd q) i) (filter (fun q => in_attr (snd q) j n) (find_all_of_type k m)).
Proof.
  intros H D. unfold pairs, owners in *. rewrite objects_find in *. rewrite flat_map_map in *. rewrite filter_app_flat.
  rewrite map_flat'. induction (find_all_of_type k m) as [|q l IH]; auto. cbn [flat_map filter map] in *.
  rewrite map_app in D. apply NoDup_app_parts in D as (D1 & D2 & _).
  rewrite IH by (auto; intros x Hx; apply H; now right).
  destruct (H (snd q)) as (a & b & E1 & E2 & E3 & E4); [now left|].
  pose proof (owners_prod n a (ids_at (snd q) j)) as P. unfold owners in P.
  rewrite E2 in D1. rewrite list_prod_one, map_map in D1. cbn [snd] in D1. rewrite map_id in D1.
  rewrite E2, (P D1). unfold in_attr. rewrite <- E4. destruct (existsb _ _); auto. cbn [flat_map].
  unfold field_id, attr_id. now rewrite E1.
Qed.

Lemma shaped_one_many m k i j : shaped_all m ->
  match k with
  | KRelAggregates => i = 4%nat /\ j = 5%nat
  | KRelContainedInSpatialStructure | KRelDefinesByType => i = 5%nat /\ j = 4%nat
  | _ => False
  end -> forall l, In l (objects k m) -> one_many i j l.
Proof.
  intros S Hk l H. rewrite objects_find in H. apply in_map_iff in H as ([n l'] & E & H). cbn [snd] in E. subst l'.
  apply find_all_spec in H. specialize (S _ _ _ H).
  destruct k; try contradiction; destruct Hk as [-> ->]; destruct S as (r & a & b & Hl & ->);
    destruct r as [|? [|? [|? [|? [|]]]]]; try discriminate Hl; eexists; eexists; cbn;
    (split; [reflexivity|]); (split; [reflexivity|]); (split; [reflexivity|]); reflexivity.
Qed.

(** ** Calls *)

Lemma calls_combine s xs : forall ls c, In c (calls s xs ls) -> In (snd (fst c), snd c) (combine xs ls).
Proof.
  revert s. induction xs as [|x xs IH]; intros s [|a ls] c H; try (destruct H; fail); try contradiction.
  cbn [calls combine] in *. destruct H as [<-|H]; [now left|right; eauto].
Qed.

Lemma honest_used kn s xs : forall ls c q, honest kn xs ls -> In c (calls s xs ls) -> In q (used (snd (fst c))) ->
  In q kn \/ exists c', In c' (calls s xs ls) /\ In q (returned (snd (fst c')) (snd c')).
Proof.
  revert kn s. induction xs as [|x xs IH]; intros kn s [|a ls] c q Hh H Hq; try (destruct H; fail); try contradiction.
  cbn [honest calls] in *. destruct Hh as (H1 & _ & Hh). destruct H as [<-|H].
  - left. now apply H1.
  - destruct (IH _ _ _ _ _ Hh H Hq) as [X|(c' & X & Y)].
    + apply in_app_or in X as [X|X]; [right|now left]. exists (s, x, a). split; [now left|exact X].
    + right. exists c'. split; [now right|exact Y].
Qed.

Lemma unique_call {A} (F : call -> list A) n cs c :
  NoDup (flat_map snd cs) -> In c cs -> snd c = [n] -> (forall c', snd c' <> [n] -> F c' = []) ->
  flat_map F cs = F c.
Proof.
  induction cs as [|c0 cs IH]; intros D H E HF; [destruct H|]. cbn [flat_map] in *.
  apply NoDup_app_parts in D as (D1 & D2 & D3). destruct H as [->|H].
  - assert (Z : flat_map F cs = []); [|rewrite Z; apply app_nil_r].
    assert (N0 : forall c', In c' cs -> F c' = []).
    { intros c' H. apply HF. intro E'. apply (D3 n); [rewrite E; now left|]. apply in_flat_map. exists c'.
      split; auto. rewrite E'. now left. }
    clear - N0. induction cs as [|c' cs IH]; auto. cbn [flat_map].
    rewrite N0 by now left. apply IH. intros x Hx. apply N0. now right.
  - rewrite IH; auto. rewrite (HF c0); auto. intro E0. apply (D3 n); [rewrite E0; now left|].
    apply in_flat_map. exists c. split; auto. rewrite E. now left.
Qed.

Lemma some_snd : some_of snd.
Proof. intros s x a. split; [apply incl_refl|auto]. Qed.

(** Which call returned an object of some kinds. *)
Lemma returned_usage x a u : In (KMaterialLayerSetUsage, u) (returned x a) -> exists s d e f, x = OUsage s d e f /\ a = [u].
Proof.
  destruct x; cbn [returned]; destruct a as [|a1 [|a2 [|]]]; cbn [In]; intro H;
    repeat match goal with H : _ \/ _ |- _ => destruct H end; try contradiction;
    match goal with H : (?a, _) = (_, _) |- _ => try discriminate H; injection H; intros; subst; eauto 8 end.
  match goal with c : cls |- _ => destruct c; discriminate end.
Qed.
Lemma returned_layer_set x a u : In (KMaterialLayerSet, u) (returned x a) -> exists l, x = OLayerSet l /\ a = [u].
Proof.
  destruct x; cbn [returned]; destruct a as [|a1 [|a2 [|]]]; cbn [In]; intro H;
    repeat match goal with H : _ \/ _ |- _ => destruct H end; try contradiction;
    match goal with H : (?a, _) = (_, _) |- _ => try discriminate H; injection H; intros; subst; eauto 8 end.
  match goal with c : cls |- _ => destruct c; discriminate end.
Qed.
Lemma returned_constituents x a u : In (KMaterialConstituentSet, u) (returned x a) -> exists l, x = OConstituentSet l /\ a = [u].
Proof.
  destruct x; cbn [returned]; destruct a as [|a1 [|a2 [|]]]; cbn [In]; intro H;
    repeat match goal with H : _ \/ _ |- _ => destruct H end; try contradiction;
    match goal with H : (?a, _) = (_, _) |- _ => try discriminate H; injection H; intros; subst; eauto 8 end.
  match goal with c : cls |- _ => destruct c; discriminate end.
Qed.

(** ** The program *)

Section Read.
Variable o : oracle.
Hypothesis Ho : fair o.
Variables (i : info) (xs : list op) (ls : list (list N)) (r : proj).
Hypothesis Hr : program o i xs = Done (ls, r).
Hypothesis Hh : honest [] xs ls.
Let m := p_map r.
Let cs := calls [] xs ls.

Lemma rd_increasing : increasing m.
Proof. destruct (program_facts _ Ho _ _ _ _ Hr Hh) as (D & _). now apply dense_increasing. Qed.

Lemma rd_shaped : shaped_all m.
Proof. exact (shp_program _ _ _ _ _ Hr). Qed.

Lemma rd_returned c k n : In c cs -> In (k, n) (returned (snd (fst c)) (snd c)) -> exists l, is_a m k n l.
Proof.
  intros Hc Hk. pose proof Hr as H. apply program_inv in H as (p & w & q & H1 & H2 & -> & H3).
  assert (HQ : reached o i xs ls (p_map q)) by (exists p, AtProject, q; auto).
  pose proof (history_built o i xs [] ls ls (p_map q) r HQ) as K. rewrite app_nil_r in K.
  apply (proj2 (proj2 (K Hr))). apply in_flat_map. exists (snd (fst c), snd c). split; auto.
  now apply calls_combine in Hc.
Qed.

Lemma rd_used c k n : In c cs -> In (k, n) (used (snd (fst c))) ->
  exists c', In c' cs /\ In (k, n) (returned (snd (fst c')) (snd c')).
Proof. intros Hc Hk. destruct (honest_used _ _ _ _ _ _ Hh Hc Hk) as [[]|H]. exact H. Qed.

Lemma rd_said c f : In c cs -> In f (call_given c) -> says m f.
Proof.
  exact (fun Hc => proj1 (Forall_forall _ _) (proj1 (proj1 (Forall_forall _ _) (built_given o i xs ls r Hr) c Hc)) f).
Qed.

Lemma rd_NoDup : NoDup (flat_map snd cs).
Proof.
  apply calls_NoDup; [apply some_snd|]. pose proof (ids_NoDup _ _ _ _ _ Hr) as D. now inversion D.
Qed.

(** *** Containment *)

Lemma rd_contained n : Permutation (contained_structures m n) (partners n (flat_map call_contains cs)).
Proof.
  unfold contained_structures. rewrite <- (partners_pairs _ 5 4).
  - apply partners_perm. exact (proj1 (out_contains o Ho i xs ls r Hr Hh)).
  - apply shaped_one_many; [exact rd_shaped|auto].
Qed.

(** *** The tree *)

Definition of_kind (k : kind) (n : N) : bool :=
  match lookup m n with Some (Ent k' _) => kind_eqb k' k | _ => false end.

Lemma collect_downcast k ns : Forall (fun n => lookup m n <> None) ns ->
  exists l, collect (downcast k m) ns = Done l /\ answers m k l (filter (of_kind k) ns).
Proof.
  induction 1 as [|n ns H _ (l & E & A1 & A2)]; cbn [collect filter].
  - exists []. repeat split; auto. intros n a [].
  - rewrite E. unfold downcast at 1, get_untyped, of_kind at 1. destruct (lookup m n) as [[k' a|s]|] eqn:L; [| |contradiction].
    + destruct (kind_eqb k' k) eqn:K.
      * apply kind_eqb_eq in K. subst k'. eexists. split; [reflexivity|]. split; cbn [app map fst]; [now rewrite A1|].
        intros n' a' [X|X]; [injection X as <- <-; exact L|eauto].
      * eexists. split; [reflexivity|]. split; auto.
    + eexists. split; [reflexivity|]. split; auto.
Qed.

Lemma call_tree_kinds k pr n c : In c cs ->
  filter (of_kind k) (partners n (call_tree pr c)) = call_child k pr n c.
Proof.
  intro Hc. pose proof (rd_returned c) as K. destruct c as [[s x] a]. cbn [fst snd] in K.
  assert (Z : forall y k', (forall l, is_a m k' y l -> True) -> (exists l, is_a m k' y l) -> of_kind k y = kind_eqb k' k).
  { intros y k' _ (l & E). unfold of_kind. unfold is_a in E. now rewrite E. }
  assert (Y : forall p y k', (exists l, is_a m k' y l) ->
    filter (of_kind k) (partners n [(p, y)]) = if kind_eqb k k' && (p =? n) then [y] else []).
  { intros p y k' H. unfold partners. cbn [filter fst]. destruct (p =? n); cbn [map snd filter].
    - rewrite (Z y k'); auto. assert (kind_eqb k' k = kind_eqb k k') as ->; [|destruct (kind_eqb k k'); reflexivity].
      apply eq_true_iff_eq. rewrite !kind_eqb_eq. split; congruence.
    - now rewrite andb_false_r. }
  destruct x; cbn [call_tree call_child]; try (destruct s as [|? [|? [|? [|]]]]; reflexivity);
    destruct s as [|s1 [|s2 [|s3 [|]]]]; try reflexivity; destruct a as [|a1 [|]]; try reflexivity;
    apply Y; apply K; auto; now left.
Qed.

Lemma rd_children k n : exists l ns, relations_of k m n = Done l /\ answers m k l ns /\
  Permutation ns (flat_map (call_child k (p_project r) n) cs).
Proof.
  destruct (out_tree o Ho i xs ls r Hr Hh) as (P & _). apply (partners_perm n) in P.
  unfold relations_of. rewrite collect_flat. rewrite <- (partners_pairs _ 4 5) by (apply shaped_one_many; [exact rd_shaped|auto]).
  destruct (collect_downcast k (partners n (pairs KRelAggregates 4 5 m))) as (l & E & A).
  - apply Forall_forall. intros x Hx. apply (Permutation_in _ P) in Hx. apply partners_In in Hx.
    apply in_flat_map in Hx as (c & Hc & Hx). fold cs in Hc.
    assert (X : exists k' l, is_a m k' x l).
    { pose proof (rd_returned c) as K. destruct c as [[s y] a]. cbn [fst snd] in K.
      destruct y; cbn [call_tree] in Hx; destruct s as [|s1 [|s2 [|s3 [|]]]]; try contradiction;
        destruct a as [|a1 [|]]; try contradiction; destruct Hx as [Hx|[]]; injection Hx as _ <-;
        eexists; apply K; auto; now left. }
    destruct X as (k' & l & X). unfold is_a in X. rewrite X. discriminate.
  - exists l, (filter (of_kind k) (partners n (pairs KRelAggregates 4 5 m))). split; auto. split; auto.
    apply (filter_perm (of_kind k)) in P. fold m cs in P. rewrite P.
    unfold partners. rewrite filter_app_flat, map_flat', filter_app_flat.
    assert (X : forall l', incl l' cs ->
      flat_map (fun a => filter (of_kind k) (map snd (filter (fun q => fst q =? n) (call_tree (p_project r) a)))) l' =
      flat_map (call_child k (p_project r) n) l').
    { induction l' as [|c l' IH]; intro Hi; auto. cbn [flat_map]. rewrite IH by (intros z Hz; apply Hi; now right).
      f_equal. apply (call_tree_kinds k (p_project r) n c). apply Hi. now left. }
    rewrite X by apply incl_refl. reflexivity.
Qed.

(** *** Openings *)

Lemma collect_get k ns : Forall (fun n => exists l, is_a m k n l) ns ->
  exists l, collect (get_with_id k m) ns = Done l /\ answers m k l ns.
Proof.
  induction 1 as [|n ns (a & H) _ (l & E & A1 & A2)]; cbn [collect].
  - exists []. repeat split; auto. intros n a [].
  - rewrite E. assert (G : get_with_id k m n = Done [(n, a)]).
    { unfold get_with_id. now rewrite (proj2 (get_is_a k m n a) H). }
    rewrite G. eexists. split; [reflexivity|]. split; cbn [app map fst]; [now rewrite A1|].
    intros n' a' [X|X]; [injection X as <- <-; exact H|eauto].
Qed.

Lemma partners_fields n : partners n (pairs KRelVoidsElement 4 5 m) =
  flat_map (fun q => field_id (snd q) 5) (filter (fun q => is_attr (snd q) 4 n) (find_all_of_type KRelVoidsElement m)).
Proof.
  assert (H : forall q, In q (find_all_of_type KRelVoidsElement m) ->
    exists a b, nth_error (snd q) 4 = Some (VId a) /\ nth_error (snd q) 5 = Some (VId b)).
  { intros [x l] H. apply find_all_spec in H. apply rd_shaped in H. destruct H as (h & a & b & Hl & ->). cbn [snd].
    destruct h as [|? [|? [|? [|? [|]]]]]; try discriminate Hl. exists a, b. split; reflexivity. }
  unfold pairs, partners. rewrite objects_find, flat_map_map, filter_app_flat, map_flat'.
  induction (find_all_of_type KRelVoidsElement m) as [|q l IH]; auto. cbn [flat_map filter].
  rewrite IH by (intros x Hx; apply H; now right).
  destruct (H q) as (a & b & E1 & E2); [now left|].
  unfold is_attr, attr_id, ids_at. rewrite E1, E2. cbn [list_prod map app filter fst].
  destruct (a =? n); cbn [map snd app flat_map]; auto. unfold field_id, attr_id. now rewrite E2.
Qed.

Lemma rd_openings n : exists l ns, related_voids m n = Done l /\ answers m KOpeningElement l ns /\
  Permutation ns (partners n (flat_map call_voids cs)).
Proof.
  destruct (out_voids o Ho i xs ls r Hr Hh) as (P & _). apply (partners_perm n) in P. fold m cs in P.
  unfold related_voids. rewrite collect_flat, <- partners_fields.
  destruct (collect_get KOpeningElement (partners n (pairs KRelVoidsElement 4 5 m))) as (l & E & A); [|eauto].
  apply Forall_forall. intros x Hx. apply (Permutation_in _ P) in Hx. apply partners_In in Hx.
  apply in_flat_map in Hx as (c & Hc & Hx). pose proof (rd_returned c) as K. destruct c as [[s y] a]. cbn [fst snd] in K.
  destruct y; cbn [call_voids] in Hx; destruct s as [|s1 s]; try contradiction;
    destruct a as [|a1 [|a2 [|]]]; try contradiction; destruct Hx as [Hx|[]]; injection Hx as _ <-;
    apply K; auto; now left.
Qed.

(** *** Types *)

Lemma rd_type c ty n k : In c cs -> In (ty, n) (call_types c) -> In (k, ty) (used (snd (fst c))) ->
  exists l, related_type k m n = Done (ty, l) /\ is_a m k ty l.
Proof.
  intros Hc Ht Hk. destruct (out_types o Ho i xs ls r Hr Hh) as (P & D). fold m cs in P, D.
  destruct (rd_used _ _ _ Hc Hk) as (c' & Hc' & K). destruct (rd_returned _ _ _ Hc' K) as (l & L).
  exists l. split; auto.
  assert (Hin : In (ty, n) (pairs KRelDefinesByType 5 4 m)).
  { apply (Permutation_in _ (Permutation_sym P)). apply in_flat_map. eauto. }
  pose proof (shaped_one_many m KRelDefinesByType 5 4 rd_shaped (conj eq_refl eq_refl)) as S.
  assert (Ow : owners n (pairs KRelDefinesByType 5 4 m) = [ty]).
  { apply owners_In in Hin. destruct (owners_one n _ D) as [E|[t E]]; rewrite E in *; [destruct Hin|].
    destruct Hin as [->|[]]. reflexivity. }
  rewrite owners_pairs in Ow by (auto; exact D). unfold related_type.
  rewrite objects_find in S.
  assert (F : forall rl, (forall q, In q rl -> one_many 5 4 (snd q)) ->
    flat_map (fun q => field_id (snd q) 5) (filter (fun q => in_attr (snd q) 4 n) rl) = [ty] ->
    exists q, find (fun q : N * list val => in_attr (snd q) 4 n) rl = Some q /\ attr_id (snd q) 5 = Some ty).
  { induction rl as [|q rl IH]; intros S' E; [discriminate|]. cbn [filter find] in *.
    destruct (in_attr (snd q) 4 n).
    - exists q. split; auto. destruct (S' q) as (a & b & E1 & _); [now left|].
      cbn [flat_map] in E. unfold field_id, attr_id in E. unfold attr_id. rewrite E1 in *. cbn [app] in E.
      injection E as -> _. reflexivity.
    - apply IH; auto. intros x Hx. apply S'. now right. }
  destruct (F (find_all_of_type KRelDefinesByType m)) as (q & F1 & F2); auto.
  { intros q Hq. apply S. now apply in_map. }
  rewrite F1, F2. now rewrite (proj2 (get_is_a k m ty l) L).
Qed.

Lemma rd_untyped k n : ~ In n (map snd (flat_map call_types cs)) -> related_type k m n = Panic.
Proof.
  intro H. destruct (out_types o Ho i xs ls r Hr Hh) as (P & D). fold m cs in P, D.
  unfold related_type. destruct (find _ _) as [q|] eqn:F; auto. exfalso. apply find_some in F as [Hq F].
  apply H. apply (Permutation_map snd) in P. apply (Permutation_in _ P).
  pose proof (shaped_one_many m KRelDefinesByType 5 4 rd_shaped (conj eq_refl eq_refl)) as S.
  rewrite objects_find in S. destruct (S (snd q) (in_map snd _ _ Hq)) as (a & b & E1 & E2 & E3 & E4).
  apply in_map_iff. exists (a, n). split; auto. unfold pairs. rewrite objects_find. apply in_flat_map. exists (snd q).
  split; [now apply in_map|]. apply in_prod_iff. rewrite E2, E4. split; [now left|].
  unfold in_attr in F. apply existsb_exists in F as (x & Hx & F). apply N.eqb_eq in F. now subst.
Qed.

(** *** Materials *)

Lemma assoc_one_many l : In l (objects KRelAssociatesMaterial m) -> one_many 5 4 l.
Proof.
  destruct (program_facts _ Ho _ _ _ _ Hr Hh) as (_ & _ & a & (_ & _ & Ha) & P). fold m in P. intro H.
  apply (Permutation_in _ P) in H. apply in_map_iff in H as ([kx vx] & E & H). cbn [snd] in E. subst vx. rewrite Forall_forall in Ha.
  destruct (Ha _ H) as (_ & h & Hl & E). cbn [snd fst] in E. rewrite E. destruct h as [|? [|? [|? [|? [|]]]]]; try discriminate Hl.
  eexists; eexists; cbn. split; [reflexivity|]. split; [reflexivity|]. split; reflexivity.
Qed.

Lemma rd_owners n :
  flat_map (fun q => field_id (snd q) 5)
    (filter (fun q => in_attr (snd q) 4 n) (find_all_of_type KRelAssociatesMaterial m)) =
  owners n (flat_map call_materials cs) /\
  Forall (fun u => exists k l, is_a m k u l /\
    (k = KMaterialLayerSetUsage \/ k = KMaterialLayerSet \/ k = KMaterialConstituentSet) /\
    exists c, In c cs /\ In (k, u) (returned (snd (fst c)) (snd c))) (owners n (flat_map call_materials cs)).
Proof.
  destruct (out_materials o Ho i xs ls r Hr Hh) as (P & D). fold m cs in P, D.
  rewrite <- owners_pairs; [|exact assoc_one_many|exact D]. split; [now apply owners_same|].
  apply Forall_forall. intros u Hu. apply owners_In in Hu. apply in_flat_map in Hu as (c & Hc & Hu).
  assert (X : exists k, In (k, u) (used (snd (fst c))) /\
    (k = KMaterialLayerSetUsage \/ k = KMaterialLayerSet \/ k = KMaterialConstituentSet)).
  { destruct c as [[s x] a]. cbn [fst snd]. destruct x; cbn [call_materials] in Hu; try contradiction;
      destruct a as [|a1 [|a2 [|]]]; try contradiction; destruct Hu as [Hu|[]]; injection Hu as <- _;
      (eexists; split; [left; reflexivity|]); auto. }
  destruct X as (k & X & Y). destruct (rd_used _ _ _ Hc X) as (c' & Hc' & K). destruct (rd_returned _ _ _ Hc' K) as (l & L).
  exists k, l. eauto 6.
Qed.

Lemma usage_layers_other u k l : is_a m k u l -> k <> KMaterialLayerSetUsage -> usage_layers cs u = [].
Proof.
  intros L Hk. unfold usage_layers.
  assert (X : forall l', incl l' cs -> flat_map (fun c : call => match c with
    | (_, OUsage s _ _ _, [n]) => if n =? u then set_layers cs s else [] | _ => [] end) l' = []).
  { induction l' as [|c l' IH]; intro Hi; auto. cbn [flat_map]. rewrite IH by (intros z Hz; apply Hi; now right).
    rewrite app_nil_r. pose proof (rd_returned c KMaterialLayerSetUsage u (Hi _ (or_introl eq_refl))) as K.
    destruct c as [[s x] a]. destruct x; auto. destruct a as [|n [|]]; auto. destruct (N.eqb_spec n u); auto. subst n.
    exfalso. destruct K as (l0 & K); [now left|]. unfold is_a in *. congruence. }
  apply X, incl_refl.
Qed.
Lemma set_constituents_other u k l : is_a m k u l -> k <> KMaterialConstituentSet -> set_constituents cs u = [].
Proof.
  intros L Hk. unfold set_constituents.
  assert (X : forall l', incl l' cs -> flat_map (fun c : call => match c with
    | (_, OConstituentSet l, [n]) => if n =? u then l else [] | _ => [] end) l' = []).
  { induction l' as [|c l' IH]; intro Hi; auto. cbn [flat_map]. rewrite IH by (intros z Hz; apply Hi; now right).
    rewrite app_nil_r. pose proof (rd_returned c KMaterialConstituentSet u (Hi _ (or_introl eq_refl))) as K.
    destruct c as [[s x] a]. destruct x; auto. destruct a as [|n [|]]; auto. destruct (N.eqb_spec n u); auto. subst n.
    exfalso. destruct K as (l0 & K); [now left|]. unfold is_a in *. congruence. }
  apply X, incl_refl.
Qed.

Lemma said_at n k i0 v al c : In c cs -> In (n, k, al) (call_given c) -> In (i0, v) al ->
  exists l, is_a m k n l /\ nth_error l i0 = Some v.
Proof.
  intros Hc Hf Hv. destruct (rd_said _ _ Hc Hf) as (l & L & F). exists l. split; auto.
  rewrite Forall_forall in F. exact (F _ Hv).
Qed.

Lemma val_ids_map l : val_ids (map VId l) = l.
Proof. unfold val_ids. induction l as [|a l IH]; auto. cbn [map flat_map app]. now rewrite IH. Qed.

Lemma rd_usage u c : In c cs -> In (KMaterialLayerSetUsage, u) (returned (snd (fst c)) (snd c)) ->
  exists lu s ly a, is_a m KMaterialLayerSetUsage u lu /\ attr_id lu 0 = Some s /\
    get KMaterialLayerSet m s = Done a /\ attr_ids a 0 = ly /\ Forall (fun n => exists l, is_a m KMaterialLayer n l) ly /\
    usage_layers cs u = ly.
Proof.
  intros Hc Hk. destruct c as [[t x] a]. cbn [fst snd] in Hk. apply returned_usage in Hk as (s & d & e & f & -> & ->).
  destruct (said_at u KMaterialLayerSetUsage 0 (VId s) [(0%nat, VId s); (1%nat, VEnum d); (2%nat, VEnum e); (3%nat, VReal f)] _ Hc) as (lu & Lu & Eu);
    [now left|now left|].
  destruct (rd_used _ KMaterialLayerSet s Hc) as (c' & Hc' & K); [now left|].
  destruct c' as [[t' x'] a']. cbn [fst snd] in K. apply returned_layer_set in K as (ly & -> & ->).
  destruct (said_at s KMaterialLayerSet 0 (VList (map VId ly)) [(0%nat, VList (map VId ly))] _ Hc') as (la & La & Ea);
    [now left|now left|].
  exists lu, s, ly, la. split; auto. split; [unfold attr_id; now rewrite Eu|].
  split; [now apply get_is_a|]. split; [unfold attr_ids; rewrite Ea; apply val_ids_map|]. split.
  - apply Forall_forall. intros n Hn.
    destruct (rd_used _ KMaterialLayer n Hc') as (c & Hc0 & K); [cbn [snd fst used]; now apply in_map|].
    exact (rd_returned _ _ _ Hc0 K).
  - unfold usage_layers. rewrite (unique_call _ u cs _ rd_NoDup Hc eq_refl).
    + rewrite N.eqb_refl. unfold set_layers. rewrite (unique_call _ s cs _ rd_NoDup Hc' eq_refl).
      * now rewrite N.eqb_refl.
      * intros [[t0 x0] a0] H. cbn [snd] in H. destruct x0; auto. destruct a0 as [|n0 [|]]; auto.
        destruct (N.eqb_spec n0 s); auto. subst. now destruct H.
    + intros [[t0 x0] a0] H. cbn [snd] in H. destruct x0; auto. destruct a0 as [|n0 [|]]; auto.
      destruct (N.eqb_spec n0 u); auto. subst. now destruct H.
Qed.

Lemma rd_set u c : In c cs -> In (KMaterialConstituentSet, u) (returned (snd (fst c)) (snd c)) ->
  exists lu, is_a m KMaterialConstituentSet u lu /\ attr_ids lu 2 = set_constituents cs u /\
    Forall (fun n => exists l, is_a m KMaterialConstituent n l) (set_constituents cs u).
Proof.
  intros Hc Hk. destruct c as [[t x] a]. cbn [fst snd] in Hk. apply returned_constituents in Hk as (ly & -> & ->).
  destruct (said_at u KMaterialConstituentSet 2 (VList (map VId ly)) [(2%nat, VList (map VId ly))] _ Hc) as (la & La & Ea);
    [now left|now left|].
  assert (E : set_constituents cs u = ly).
  { unfold set_constituents. rewrite (unique_call _ u cs _ rd_NoDup Hc eq_refl).
    - now rewrite N.eqb_refl.
    - intros [[t0 x0] a0] H. cbn [snd] in H. destruct x0; auto. destruct a0 as [|n0 [|]]; auto.
      destruct (N.eqb_spec n0 u); auto. subst. now destruct H. }
  exists la. split; auto. rewrite E. split; [unfold attr_ids; rewrite Ea; apply val_ids_map|].
  apply Forall_forall. intros n Hn.
  destruct (rd_used _ KMaterialConstituent n Hc) as (c & Hc0 & K); [cbn [snd fst used]; now apply in_map|].
  exact (rd_returned _ _ _ Hc0 K).
Qed.

Lemma collect_answers k (g : N -> outcome (list (N * list val))) (h : N -> list N) us :
  Forall (fun u => exists l, g u = Done l /\ answers m k l (h u)) us ->
  exists l, collect g us = Done l /\ answers m k l (flat_map h us).
Proof.
  induction 1 as [|u us (l & E & A1 & A2) _ (l' & E' & A1' & A2')]; cbn [collect flat_map].
  - exists []. repeat split; auto. intros n a [].
  - rewrite E, E'. eexists. split; [reflexivity|]. split; [now rewrite map_app, A1, A1'|].
    intros n a H. apply in_app_or in H as [H|H]; auto.
Qed.

Lemma answers_nil k : answers m k [] [].
Proof. split; auto. intros n a []. Qed.

Lemma downcast_is k u l : is_a m k u l -> downcast k m u = Done [(u, l)].
Proof.
  unfold downcast, get_untyped, is_a. intros ->. assert (kind_eqb k k = true) as -> by now apply kind_eqb_eq. reflexivity.
Qed.
Lemma downcast_other k k' u l : is_a m k' u l -> k' <> k -> downcast k m u = Done [].
Proof.
  unfold downcast, get_untyped, is_a. intros -> H. destruct (kind_eqb k' k) eqn:E; auto. apply kind_eqb_eq in E. contradiction.
Qed.

Lemma rd_layers n : exists l, related_materials m n = Done l /\
  answers m KMaterialLayer l (flat_map (usage_layers cs) (owners n (flat_map call_materials cs))).
Proof.
  unfold related_materials. rewrite collect_flat. destruct (rd_owners n) as [-> F].
  apply collect_answers. eapply Forall_impl; [|exact F]. cbn beta. intros u (k & l & L & Hk & c & Hc & K).
  destruct Hk as [->|Hk].
  - destruct (rd_usage u c Hc K) as (lu & s & ly & a & H1 & H2 & H3 & H4 & H5 & H6).
    rewrite (downcast_is _ _ _ H1). cbn [collect snd]. unfold field_id. rewrite H2. cbn [collect]. rewrite H3, H4.
    destruct (collect_get KMaterialLayer ly H5) as (l' & E & A). rewrite E, H6.
    exists l'. rewrite !app_nil_r. auto.
  - assert (Hn : k <> KMaterialLayerSetUsage) by (destruct Hk; subst; discriminate).
    rewrite (downcast_other _ _ _ _ L Hn). cbn [collect]. exists []. split; auto.
    rewrite (usage_layers_other _ _ _ L Hn). apply answers_nil.
Qed.

Lemma rd_constituents n : exists l, related_constituents m n = Done l /\
  answers m KMaterialConstituent l (flat_map (set_constituents cs) (owners n (flat_map call_materials cs))).
Proof.
  unfold related_constituents. rewrite collect_flat. destruct (rd_owners n) as [-> F].
  apply collect_answers. eapply Forall_impl; [|exact F]. cbn beta. intros u (k & l & L & Hk & c & Hc & K).
  assert (Dec : k = KMaterialConstituentSet \/ k <> KMaterialConstituentSet)
    by (destruct Hk as [->|[->| ->]]; [right; discriminate|right; discriminate|now left]).
  destruct Dec as [->|Hn].
  - destruct (rd_set u c Hc K) as (lu & H1 & H2 & H3).
    rewrite (downcast_is _ _ _ H1). cbn [collect snd]. rewrite H2.
    destruct (collect_get KMaterialConstituent _ H3) as (l' & E & A). rewrite E.
    exists l'. rewrite !app_nil_r. auto.
  - rewrite (downcast_other _ _ _ _ L Hn). cbn [collect]. exists []. split; auto.
    rewrite (set_constituents_other _ _ _ L Hn). apply answers_nil.
Qed.

End Read.

Theorem built_tells o i xs ls r :
  fair o -> program o i xs = Done (ls, r) -> honest [] xs ls -> tells (p_map r) (p_project r) (calls [] xs ls).
Proof.
  intros Ho Hr Hh. unfold tells. repeat match goal with |- _ /\ _ => split end.
  - exact (rd_children o Ho i xs ls r Hr Hh).
  - exact (rd_contained o Ho i xs ls r Hr Hh).
  - exact (rd_openings o Ho i xs ls r Hr Hh).
  - exact (rd_type o Ho i xs ls r Hr Hh).
  - exact (rd_untyped o Ho i xs ls r Hr Hh).
  - exact (rd_layers o Ho i xs ls r Hr Hh).
  - exact (rd_constituents o Ho i xs ls r Hr Hh).
Qed.

(** ** Changing values that are no ids *)

Section Change.
Variable g : val -> val.
Hypothesis g_id : forall n, g (VId n) = VId n.
Hypothesis g_list : forall l, g (VList l) = VList (map g l).
Hypothesis g_other : forall v, match g v with
  | VId n => v = VId n
  | VList _ => exists l, v = VList l
  | _ => True
  end.

Definition chg_ent (e : entity) : entity := match e with Ent k l => Ent k (map g l) | EDummy s => EDummy s end.
Definition chg_map (m : dmap) : dmap := map (fun p => (fst p, chg_ent (snd p))) m.
Definition chg_obj (q : N * list val) : N * list val := (fst q, map g (snd q)).

Lemma cm_lookup m n : lookup (chg_map m) n = option_map chg_ent (lookup m n).
Proof.
  unfold chg_map. induction m as [|[k e] m IH]; auto. cbn [map fst snd lookup]. destruct (_ =? _); auto.
Qed.
Lemma cm_attr_id l j : attr_id (map g l) j = attr_id l j.
Proof.
  unfold attr_id. rewrite nth_error_map. destruct (nth_error l j) as [v|]; auto. cbn [option_map].
  pose proof (g_other v) as H. destruct v; cbn; rewrite ?g_id; auto; destruct (g _) eqn:E; auto; discriminate.
Qed.
Lemma cm_val_ids l : val_ids (map g l) = val_ids l.
Proof.
  unfold val_ids. induction l as [|v l IH]; auto. cbn [map flat_map]. rewrite IH. f_equal.
  pose proof (g_other v) as H. destruct v; cbn; rewrite ?g_id; auto; destruct (g _) eqn:E; auto; discriminate.
Qed.
Lemma cm_attr_ids l j : attr_ids (map g l) j = attr_ids l j.
Proof.
  unfold attr_ids. rewrite nth_error_map. destruct (nth_error l j) as [v|]; auto. cbn [option_map].
  pose proof (g_other v) as H. destruct v; rewrite ?g_list; try apply cm_val_ids; destruct (g _) eqn:E; auto;
    destruct H as (? & H); discriminate.
Qed.
Lemma cm_field_id l j : field_id (map g l) j = field_id l j.
Proof. unfold field_id. now rewrite cm_attr_id. Qed.
Lemma cm_is_attr l j n : is_attr (map g l) j n = is_attr l j n.
Proof. unfold is_attr. now rewrite cm_attr_id. Qed.
Lemma cm_in_attr l j n : in_attr (map g l) j n = in_attr l j n.
Proof. unfold in_attr. now rewrite cm_attr_ids. Qed.

Lemma cm_find k m : find_all_of_type k (chg_map m) = map chg_obj (find_all_of_type k m).
Proof.
  unfold find_all_of_type, chg_map. induction m as [|[n e] m IH]; auto. cbn [map flat_map snd fst].
  rewrite IH, map_app. f_equal. destruct e as [k' l|s]; auto. cbn [chg_ent]. now destruct (kind_eqb k' k).
Qed.

Lemma filter_map {A B} (p : B -> bool) (f : A -> B) l : filter p (map f l) = map f (filter (fun a => p (f a)) l).
Proof. induction l as [|a l IH]; auto. cbn [map filter]. destruct (p (f a)); cbn [map]; now rewrite IH. Qed.

Lemma cm_filter_is k m j n :
  filter (fun q => is_attr (snd q) j n) (find_all_of_type k (chg_map m)) =
  map chg_obj (filter (fun q => is_attr (snd q) j n) (find_all_of_type k m)).
Proof.
  rewrite cm_find, filter_map. f_equal. apply filter_ext. intros [x l]. cbn [chg_obj snd]. apply cm_is_attr.
Qed.
Lemma cm_filter_in k m j n :
  filter (fun q => in_attr (snd q) j n) (find_all_of_type k (chg_map m)) =
  map chg_obj (filter (fun q => in_attr (snd q) j n) (find_all_of_type k m)).
Proof.
  rewrite cm_find, filter_map. f_equal. apply filter_ext. intros [x l]. cbn [chg_obj snd]. apply cm_in_attr.
Qed.

Definition omap {A B} (f : A -> B) (x : outcome A) : outcome B :=
  match x with Done a => Done (f a) | Err => Err | Panic => Panic end.
Definition chg_out := omap (map chg_obj).

Lemma collect_chg {A} (f f' : A -> outcome (list (N * list val))) l :
  (forall a, f' a = chg_out (f a)) -> collect f' l = chg_out (collect f l).
Proof.
  intro H. induction l as [|a l IH]; auto. cbn [collect]. rewrite H, IH. destruct (f a) as [x| |]; auto.
  cbn [chg_out omap]. destruct (collect f l) as [y| |]; auto. cbn. now rewrite map_app.
Qed.
Lemma collect_map {A B C} (f : B -> outcome (list C)) (h : A -> B) l : collect f (map h l) = collect (fun a => f (h a)) l.
Proof. induction l as [|a l IH]; auto. cbn [map collect]. now rewrite IH. Qed.
Lemma collect_ext {A B} (f f' : A -> outcome (list B)) l : (forall a, f a = f' a) -> collect f l = collect f' l.
Proof. intro H. induction l as [|a l IH]; auto. cbn [collect]. now rewrite H, IH. Qed.

Lemma cm_downcast k m n : downcast k (chg_map m) n = chg_out (downcast k m n).
Proof.
  unfold downcast, get_untyped. rewrite cm_lookup. destruct (lookup m n) as [[k' l|s]|]; auto. cbn [option_map chg_ent].
  destruct (kind_eqb k' k); auto.
Qed.
Lemma cm_get k m n : get k (chg_map m) n = omap (map g) (get k m n).
Proof.
  unfold get. rewrite cm_lookup. destruct (lookup m n) as [[k' l|s]|]; auto. cbn [option_map chg_ent].
  destruct (kind_eqb k' k); auto.
Qed.
Lemma cm_with_id k m n : get_with_id k (chg_map m) n = chg_out (get_with_id k m n).
Proof. unfold get_with_id. rewrite cm_get. destruct (get k m n); auto. Qed.

Lemma cm_relations k m n : relations_of k (chg_map m) n = chg_out (relations_of k m n).
Proof.
  unfold relations_of. rewrite cm_filter_is, collect_map. apply collect_chg. intros [x l]. cbn [chg_obj snd].
  rewrite cm_attr_ids. apply collect_chg. intro a. apply cm_downcast.
Qed.
Lemma cm_contained m n : contained_structures (chg_map m) n = contained_structures m n.
Proof.
  unfold contained_structures. rewrite cm_filter_is, flat_map_map. apply flat_map_ext. intros [x l]. apply cm_attr_ids.
Qed.
Lemma cm_voids m n : related_voids (chg_map m) n = chg_out (related_voids m n).
Proof.
  unfold related_voids. rewrite cm_filter_is, collect_map. apply collect_chg. intros [x l]. cbn [chg_obj snd].
  rewrite cm_field_id. apply collect_chg. intro a. apply cm_with_id.
Qed.
Lemma find_map {A B} (p : B -> bool) (f : A -> B) l : find p (map f l) = option_map f (find (fun a => p (f a)) l).
Proof. induction l as [|a l IH]; auto. cbn [map find]. destruct (p (f a)); auto. Qed.
Lemma find_ext {A} (p p' : A -> bool) l : (forall a, p a = p' a) -> find p l = find p' l.
Proof. intro H. induction l as [|a l IH]; auto. cbn [find]. now rewrite H, IH. Qed.
Lemma cm_type k m n : related_type k (chg_map m) n = omap chg_obj (related_type k m n).
Proof.
  unfold related_type. rewrite cm_find, find_map.
  rewrite (find_ext (fun a => in_attr (snd (chg_obj a)) 4 n) (fun a => in_attr (snd a) 4 n))
    by (intros [x l]; apply cm_in_attr).
  destruct (find _ _) as [[x l]|]; auto. cbn [option_map chg_obj snd]. rewrite cm_attr_id.
  destruct (attr_id l 5) as [t|]; auto. rewrite cm_get. destruct (get k m t); auto.
Qed.
Lemma cm_materials m n : related_materials (chg_map m) n = chg_out (related_materials m n).
Proof.
  unfold related_materials. rewrite cm_filter_in, collect_map. apply collect_chg. intros [x l]. cbn [chg_obj snd].
  rewrite cm_field_id. apply collect_chg. intro u. rewrite cm_downcast.
  destruct (downcast KMaterialLayerSetUsage m u) as [us| |]; auto. cbn [chg_out omap]. rewrite collect_map.
  apply collect_chg. intros [y ly]. cbn [chg_obj snd]. rewrite cm_field_id. apply collect_chg. intro s.
  rewrite cm_get. destruct (get KMaterialLayerSet m s) as [a| |]; auto. cbn [omap]. rewrite cm_attr_ids.
  apply collect_chg. intro z. apply cm_with_id.
Qed.
Lemma cm_constituents m n : related_constituents (chg_map m) n = chg_out (related_constituents m n).
Proof.
  unfold related_constituents. rewrite cm_filter_in, collect_map. apply collect_chg. intros [x l]. cbn [chg_obj snd].
  rewrite cm_field_id. apply collect_chg. intro u. rewrite cm_downcast.
  destruct (downcast KMaterialConstituentSet m u) as [us| |]; auto. cbn [chg_out omap]. rewrite collect_map.
  apply collect_chg. intros [y ly]. cbn [chg_obj snd]. rewrite cm_attr_ids.
  apply collect_chg. intro z. apply cm_with_id.
Qed.

Lemma cm_answers m k l ns : answers m k l ns -> answers (chg_map m) k (map chg_obj l) ns.
Proof.
  intros [A1 A2]. split.
  - rewrite map_map. rewrite <- A1. apply map_ext. now intros [].
  - intros n a H. apply in_map_iff in H as ([n' a'] & E & H). injection E as <- <-. rewrite cm_lookup, (A2 _ _ H). reflexivity.
Qed.

Lemma cm_tells m pr cs : tells m pr cs -> tells (chg_map m) pr cs.
Proof.
  intros (H1 & H2 & H3 & H4 & H5 & H6 & H7). unfold tells. repeat match goal with |- _ /\ _ => split end.
  - intros k n. destruct (H1 k n) as (l & ns & E & A & P). rewrite cm_relations, E.
    exists (map chg_obj l), ns. split; auto. split; auto. now apply cm_answers.
  - intro n. rewrite cm_contained. apply H2.
  - intro n. destruct (H3 n) as (l & ns & E & A & P). rewrite cm_voids, E.
    exists (map chg_obj l), ns. split; auto. split; auto. now apply cm_answers.
  - intros c ty n k Hc Ht Hk. destruct (H4 c ty n k Hc Ht Hk) as (l & E & L). rewrite cm_type, E.
    exists (map g l). split; auto. now rewrite cm_lookup, L.
  - intros k n Hn. now rewrite cm_type, H5.
  - intro n. destruct (H6 n) as (l & E & A). rewrite cm_materials, E. exists (map chg_obj l). split; auto. now apply cm_answers.
  - intro n. destruct (H7 n) as (l & E & A). rewrite cm_constituents, E. exists (map chg_obj l). split; auto. now apply cm_answers.
Qed.
End Change.

Lemma norm_tells f m pr cs : tells m pr cs ->
  tells (map (fun p => (fst p, match snd p with Ent k l => Ent k (map (norm_val f) l) | EDummy s => EDummy s end)) m) pr cs.
Proof.
  apply (cm_tells (norm_val f)); auto. intro v. destruct v; cbn [norm_val]; eauto.
  all: repeat match goal with n : nat |- _ => destruct n; cbn; auto end.
Qed.
