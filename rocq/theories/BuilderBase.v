(** Builder calls and the data map: maps with keys 1, 2, ..., n, and what a call can do
    to them. *)

From Coq Require Import String Ascii List NArith ZArith Bool Lia Sorted.
From Coq Require Import ZifyBool ZifyNat ZifyN.
From Verif Require Import Base Prims Kind Types Schema Entity EntityFacts DataMap DataSpec DataMapFacts Extractor
  Float Arith Builder.
Import ListNotations.
Open Scope N_scope.
Open Scope builder_scope.

(** ** Dense maps *)

Definition size (m : dmap) : N := N.of_nat (length m).

Definition dense (m : dmap) : Prop :=
  map fst m = map N.of_nat (seq 1 (length m)) /\ size m <= max_usize.

Lemma dense_nil : dense [].
Proof. split; [reflexivity|]. unfold size, max_usize. cbn [length]. lia. Qed.

Lemma dense_In m n : dense m -> In n (map fst m) <-> 1 <= n <= size m.
Proof.
  intros [H _]. rewrite H, in_map_iff. unfold size. split.
  - intros (i & <- & Hi). apply in_seq in Hi. lia.
  - intro Hn. exists (N.to_nat n). split; [lia|]. apply in_seq. lia.
Qed.

Lemma seq_sorted a n : StronglySorted N.lt (map N.of_nat (seq a n)).
Proof.
  revert a. induction n as [|n IH]; intro a; cbn [seq map]; constructor; auto.
  rewrite Forall_map. apply Forall_forall. intros x Hx. apply in_seq in Hx. lia.
Qed.

Lemma dense_increasing m : dense m -> increasing m.
Proof. intros [H _]. unfold increasing. rewrite H. apply seq_sorted. Qed.

Lemma put_last m n e : (forall k, In k (map fst m) -> k < n) -> put m n e = m ++ [(n, e)].
Proof.
  induction m as [|[k x] m IH]; intro H; cbn [put app]; auto.
  assert (k < n) by (apply H; now left).
  destruct (N.ltb_spec n k); [lia|]. destruct (N.eqb_spec n k); [lia|].
  rewrite IH; auto. intros j Hj. apply H. now right.
Qed.

Lemma dense_snoc m e : dense m -> size m < max_usize -> dense (m ++ [(size m + 1, e)]).
Proof.
  intros [H Hs] Hlt. unfold dense, size in *. rewrite app_length. cbn [length].
  split; [|lia]. rewrite Nat.add_1_r, seq_S, !map_app, H. cbn [map fst]. f_equal. f_equal. lia.
Qed.

Lemma dense_insert_new m e m' n :
  dense m -> insert_new m e = Some (m', n) ->
  n = size m + 1 /\ n <= max_usize /\ m' = m ++ [(n, e)] /\ dense m'.
Proof.
  intros Hd H. unfold insert_new in H. destruct (max_key m) as [k|] eqn:E.
  - assert (Hk : k = size m).
    { apply max_key_spec in E as [E1 E2]. apply dense_In in E1; auto.
      assert (In (size m) (map fst m)) by (apply dense_In; auto; lia).
      specialize (E2 _ H0). lia. }
    destruct (N.eqb_spec k max_usize); [discriminate|]. injection H as <- <-. subst k.
    assert (size m <= max_usize) by apply Hd.
    assert (Hp : put m (size m + 1) e = m ++ [(size m + 1, e)]).
    { apply put_last. intros j Hj. apply dense_In in Hj; auto. lia. }
    rewrite Hp. split; auto. split; [lia|]. split; auto. apply dense_snoc; auto. lia.
  - apply max_key_None in E. subst m. injection H as <- <-. cbn [put app]. unfold size. cbn [length].
    split; [reflexivity|]. unfold max_usize. split; [lia|]. split; auto.
    split; [reflexivity|]. unfold size, max_usize. cbn [length]. lia.
Qed.

Lemma lookup_app m m' n : lookup (m ++ m') n = match lookup m n with Some e => Some e | None => lookup m' n end.
Proof. induction m as [|[k e] m IH]; cbn [app lookup]; auto. destruct (k =? n); auto. Qed.

Lemma dense_lookup m n : dense m -> (exists e, lookup m n = Some e) <-> 1 <= n <= size m.
Proof.
  intro Hd. rewrite <- dense_In by auto. split.
  - intros [e He]. apply lookup_In in He. apply in_map_iff. now exists (n, e).
  - intro H. destruct (lookup m n) eqn:E; eauto. apply lookup_None in E. contradiction.
Qed.

Lemma put_present m n e x :
  increasing m -> lookup m n = Some x ->
  put m n e = map (fun q => if fst q =? n then (n, e) else q) m.
Proof.
  induction m as [|[k y] m IH]; intros Hs Hl; cbn [lookup] in Hl; [discriminate|].
  cbn [put map fst]. pose proof Hs as Hs'. apply increasing_cons in Hs' as [Hs' Hf].
  rewrite Forall_forall in Hf. destruct (N.eqb_spec k n).
  - subst k. destruct (N.ltb_spec n n); [lia|]. rewrite N.eqb_refl. f_equal.
    rewrite <- (map_id m) at 1. apply map_ext_in. intros q Hq. specialize (Hf q Hq).
    destruct (N.eqb_spec (fst q) n); [lia|auto].
  - apply lookup_In in Hl as Hi. specialize (Hf _ Hi). cbn [fst] in Hf.
    destruct (N.ltb_spec n k); [lia|]. destruct (N.eqb_spec n k); [lia|]. f_equal. auto.
Qed.

(** ** Inversion of calls *)

Lemma bbind_inv {A C} (c : B A) (f : A -> B C) p b p'' :
  bbind c f p = Done (b, p'') -> exists a p', c p = Done (a, p') /\ f a p' = Done (b, p'').
Proof. unfold bbind. destruct (c p) as [[a p']| |]; [eauto|discriminate|discriminate]. Qed.

Lemma bret_inv {A} (a : A) p b p' : bret a p = Done (b, p') -> b = a /\ p' = p.
Proof. unfold bret. intro H. injection H as <- <-. auto. Qed.

Lemma ins_inv k l p n p' :
  ins k l p = Done (n, p') -> dense (p_map p) ->
  n = size (p_map p) + 1 /\ n <= max_usize /\
  p' = set_map (p_map p ++ [(n, Ent k l)]) p /\ dense (p_map p').
Proof.
  unfold ins. destruct (insert_new (p_map p) (Ent k l)) as [[m n0]|] eqn:E; [|discriminate].
  intros H Hd. injection H as <- <-. destruct (dense_insert_new _ _ _ _ Hd E) as (H1 & H2 & H3 & H4).
  repeat split; auto; try congruence; apply H4.
Qed.

Lemma get_inv k m n l : get k m n = Done l -> lookup m n = Some (Ent k l).
Proof.
  unfold get. destruct (lookup m n) as [[k' l'|s]|]; try discriminate.
  destruct (kind_eqb k' k) eqn:E; [|discriminate]. intro H. injection H as ->.
  apply kind_eqb_eq in E. now subst.
Qed.

Lemma fetch_inv k n p l p' :
  fetch k n p = Done (l, p') -> p' = p /\ lookup (p_map p) n = Some (Ent k l).
Proof.
  unfold fetch. destruct (get k (p_map p) n) eqn:E; try discriminate.
  intro H. injection H as <- <-. apply get_inv in E. auto.
Qed.

Lemma fetch_any_inv n p e p' :
  fetch_any n p = Done (e, p') -> p' = p /\ lookup (p_map p) n = Some e.
Proof.
  unfold fetch_any, get_untyped. destruct (lookup (p_map p) n) eqn:E; try discriminate.
  intro H. injection H as <- <-. auto.
Qed.

Lemma need_inv {A} (x : option A) p a p' : need x p = Done (a, p') -> p' = p /\ x = Some a.
Proof.
  destruct x; cbn [need]; [|discriminate]. intro H. apply bret_inv in H as [-> ->]. auto.
Qed.

Lemma modify_inv k n f p u p' :
  modify k n f p = Done (u, p') ->
  exists l, lookup (p_map p) n = Some (Ent k l) /\ p' = set_map (put (p_map p) n (Ent k (f l))) p.
Proof.
  unfold modify, update. destruct (get k (p_map p) n) as [l| |] eqn:E; try discriminate.
  intro H. injection H as <- <-. apply get_inv in E. eauto.
Qed.

(** ** What calls do to the state *)

(** Every attribute other than the third is kept, and their number. *)
Definition kept (l l' : list val) : Prop :=
  length l = length l' /\ forall i x, i <> 2%nat -> nth_error l i = Some x -> nth_error l' i = Some x.

Lemma kept_refl l : kept l l.
Proof. split; auto. Qed.

Lemma kept_trans a b c : kept a b -> kept b c -> kept a c.
Proof. intros [L1 H1] [L2 H2]. split; [congruence|]. intros i x Hi H. auto. Qed.

Lemma kept_set_at v l : kept l (set_at 2 v l).
Proof.
  split; [destruct l as [|? [|? [|? ?]]]; reflexivity|].
  intros i x Hi H. destruct l as [|a [|b [|c l]]].
  - destruct i; discriminate.
  - destruct i as [|i]; [exact H|destruct i; discriminate].
  - destruct i as [|[|i]]; try exact H; destruct i; discriminate.
  - destruct i as [|[|[|i]]]; try exact H. contradiction.
Qed.

Definition chg (q q' : N * entity) : Prop :=
  fst q = fst q' /\
  (snd q = snd q' \/
   exists l l', snd q = Ent KProductDefinitionShape l /\ snd q' = Ent KProductDefinitionShape l' /\ kept l l').

Lemma chg_refl q : chg q q.
Proof. split; auto. Qed.

Lemma chg_trans a b c : chg a b -> chg b c -> chg a c.
Proof.
  intros [F1 H1] [F2 H2]. split; [congruence|].
  destruct H1 as [H1|(l & l' & A1 & A2 & A3)].
  - destruct H2 as [H2|(l & l' & A1 & A2 & A3)]; [left; congruence|].
    right. exists l, l'. split; [congruence|auto].
  - destruct H2 as [H2|(l2 & l2' & B1 & B2 & B3)].
    + right. exists l, l'. rewrite <- H2. auto.
    + right. exists l, l2'. split; auto. split; auto. rewrite A2 in B1. injection B1 as ->.
      eapply kept_trans; eauto.
Qed.

Lemma Forall2_refl {A} (R : A -> A -> Prop) l : (forall a, R a a) -> Forall2 R l l.
Proof. intro H. induction l; constructor; auto. Qed.

Lemma Forall2_trans {A} (R : A -> A -> Prop) l1 l2 l3 :
  (forall a b c, R a b -> R b c -> R a c) -> Forall2 R l1 l2 -> Forall2 R l2 l3 -> Forall2 R l1 l3.
Proof.
  intros H H1. revert l3. induction H1; intros l3 H2; inversion H2; subst; constructor; eauto.
Qed.

(** [p'] has the objects of [p], changed at most in the representations of a product
    definition shape, and new objects of kinds [A]. *)
Definition grow (A : kind -> bool) (p p' : proj) : Prop :=
  dense (p_map p) ->
  dense (p_map p') /\ p_owner p' = p_owner p /\ p_project p' = p_project p /\
  exists m1 new, p_map p' = m1 ++ new /\ Forall2 chg (p_map p) m1 /\
    Forall (fun q => A (kind_of (snd q)) = true) new.

Lemma grow_refl A p : grow A p p.
Proof.
  intro H. split; auto. split; auto. split; auto. exists (p_map p), []. rewrite app_nil_r.
  split; auto. split; [apply Forall2_refl, chg_refl|constructor].
Qed.

Lemma chg_kind q q' : chg q q' -> kind_of (snd q) = kind_of (snd q').
Proof. intros [_ [H|(l & l' & H1 & H2 & _)]]; [congruence|]. now rewrite H1, H2. Qed.

Lemma grow_trans A p q r : grow A p q -> grow A q r -> grow A p r.
Proof.
  intros H1 H2 Hd. destruct (H1 Hd) as (Hd1 & O1 & P1 & m1 & n1 & E1 & F1 & G1).
  destruct (H2 Hd1) as (Hd2 & O2 & P2 & m2 & n2 & E2 & F2 & G2).
  split; auto. split; [congruence|]. split; [congruence|].
  rewrite E1 in F2. apply Forall2_app_inv_l in F2 as (m3 & n3 & F3 & F4 & ->).
  exists m3, (n3 ++ n2). rewrite app_assoc. split; auto. split.
  - eapply Forall2_trans; eauto using chg_trans.
  - apply Forall_app. split; auto. clear - F4 G1. induction F4; auto.
    inversion G1; subst. constructor; auto. now rewrite <- (chg_kind _ _ H).
Qed.

Lemma grow_weaken (A A' : kind -> bool) p p' :
  (forall k, A k = true -> A' k = true) -> grow A p p' -> grow A' p p'.
Proof.
  intros HA H Hd. destruct (H Hd) as (H1 & H2 & H3 & m1 & new & H4 & H5 & H6).
  repeat (split; auto). exists m1, new. repeat (split; auto).
  eapply Forall_impl; [|exact H6]. cbn beta. auto.
Qed.

(** A relation between the states before and after. *)
Definition steps {A} (R : proj -> proj -> Prop) (c : B A) : Prop :=
  forall p a p', c p = Done (a, p') -> R p p'.

Class preorder (R : proj -> proj -> Prop) := {
  pre_refl : forall p, R p p;
  pre_trans : forall p q r, R p q -> R q r -> R p r }.

Global Instance grow_pre A : preorder (grow A).
Proof. split; [apply grow_refl|apply grow_trans]. Qed.

(** Same tables. *)
Definition frame (p p' : proj) : Prop := p_sites p' = p_sites p /\ p_assoc p' = p_assoc p.
Global Instance frame_pre : preorder frame.
Proof. split; [split; auto|]. intros p q r [H1 H2] [H3 H4]. split; congruence. Qed.

Section Steps.
Context (R : proj -> proj -> Prop) {P : preorder R}.

Lemma steps_bind {A C} (c : B A) (f : A -> B C) :
  steps R c -> (forall a, steps R (f a)) -> steps R (bbind c f).
Proof.
  intros Hc Hf p b p'' H. apply bbind_inv in H as (a & p' & H1 & H2).
  eapply pre_trans; [eapply Hc; eauto|eapply Hf; eauto].
Qed.

Lemma steps_ret {A} (a : A) : steps R (bret a).
Proof. intros p b p' H. apply bret_inv in H as [_ ->]. apply pre_refl. Qed.

Lemma steps_panic {A} : steps R (@bpanic A).
Proof. intros p b p' H. discriminate. Qed.

Lemma steps_bmap {A C} (f : A -> B C) l : (forall a, In a l -> steps R (f a)) -> steps R (bmap f l).
Proof.
  induction l as [|a l IH]; intro H; cbn [bmap]; [apply steps_ret|].
  apply steps_bind; [apply H; now left|]. intro c.
  apply steps_bind; [apply IH; intros; apply H; now right|]. intro. apply steps_ret.
Qed.

Lemma steps_bmap_index {A C} (f : N -> A -> B C) i l :
  (forall i a, steps R (f i a)) -> steps R (bmap_index f i l).
Proof.
  intro H. revert i. induction l as [|a l IH]; intro i; cbn [bmap_index]; [apply steps_ret|].
  apply steps_bind; [apply H|]. intro c. apply steps_bind; [apply IH|]. intro. apply steps_ret.
Qed.

Lemma steps_bfind {A C} (f : A -> B (option C)) l : (forall a, steps R (f a)) -> steps R (bfind f l).
Proof.
  intro H. induction l as [|a l IH]; cbn [bfind]; [apply steps_ret|].
  apply steps_bind; [apply H|]. intros [c|]; [apply steps_ret|auto].
Qed.

Lemma steps_get : steps R bget.
Proof. intros p a p' H. injection H as <- <-. apply pre_refl. Qed.

Lemma steps_need {A} (x : option A) : steps R (need x).
Proof. intros p a p' H. apply need_inv in H as [-> _]. apply pre_refl. Qed.

Lemma steps_fetch k n : steps R (fetch k n).
Proof. intros p a p' H. apply fetch_inv in H as [-> _]. apply pre_refl. Qed.

Lemma steps_fetch_any n : steps R (fetch_any n).
Proof. intros p a p' H. apply fetch_any_inv in H as [-> _]. apply pre_refl. Qed.

Lemma steps_if {A} (b : bool) (c d : B A) : steps R c -> steps R d -> steps R (if b then c else d).
Proof. destruct b; auto. Qed.

End Steps.

Lemma grow_ins A k l : A k = true -> steps (grow A) (ins k l).
Proof.
  intros HA p n p' H Hd. apply ins_inv in H as (H1 & H2 & -> & H3); auto.
  split; auto. split; auto. split; auto. exists (p_map p), [(n, Ent k l)].
  split; auto. split; [apply Forall2_refl, chg_refl|]. constructor; auto.
Qed.

Lemma grow_tick A : steps (grow A) tick.
Proof. intros p t p' H. injection H as <- <-. intro Hd. apply (grow_refl A p Hd). Qed.

Lemma grow_modify A n v : steps (grow A) (modify KProductDefinitionShape n (set_at 2 v)).
Proof.
  intros p u p' H Hd. apply modify_inv in H as (l & Hl & ->). cbn [set_map p_map p_owner p_project].
  rewrite (put_present _ _ _ _ (dense_increasing _ Hd) Hl).
  set (f := fun q : N * entity => if fst q =? n then (n, Ent KProductDefinitionShape (set_at 2 v l)) else q).
  assert (Hf : Forall2 chg (p_map p) (map f (p_map p))).
  { pose proof (dense_increasing _ Hd) as Hi.
    assert (Hin : forall q, In q (p_map p) -> chg q (f q)).
    { intros [k e] Hq. unfold f. cbn [fst]. destruct (N.eqb_spec k n); [|apply chg_refl]. subst k.
      apply In_lookup in Hq; auto. rewrite Hl in Hq. injection Hq as <-. split; auto. right.
      cbn [snd]. exists l, (set_at 2 v l). split; auto. split; auto. apply kept_set_at. }
    clear - Hin. induction (p_map p); constructor.
    - apply Hin. now left.
    - apply IHd. intros q Hq. apply Hin. now right. }
  split.
  - destruct Hd as [D1 D2]. split; unfold size in *; rewrite map_length; auto.
    rewrite <- D1, map_map. apply map_ext. intros [k e]. unfold f. cbn [fst].
    destruct (N.eqb_spec k n); auto.
  - split; auto. split; auto. exists (map f (p_map p)), []. rewrite app_nil_r. auto.
Qed.

Lemma frame_ins k l : steps frame (ins k l).
Proof.
  intros p n p' H. unfold ins in H. destruct (insert_new (p_map p) (Ent k l)) as [[m n0]|]; [|discriminate].
  injection H as <- <-. split; auto.
Qed.

Lemma frame_tick : steps frame tick.
Proof. intros p t p' H. injection H as <- <-. split; auto. Qed.

Lemma frame_modify k n f : steps frame (modify k n f).
Proof. intros p u p' H. apply modify_inv in H as (l & _ & ->). split; auto. Qed.
