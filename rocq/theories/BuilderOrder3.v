(** Calls that walk a hash table: the objects they make are permuted. *)

From Coq Require Import String Ascii List NArith ZArith Bool Lia Permutation.
From Coq Require Import ZifyBool ZifyNat ZifyN.
From Verif Require Import Base Prims PrimsFacts Float Arith Kind Types Schema Entity EntityFacts DataMap DataSpec DataMapFacts
  Extractor Builder BuilderRun BuilderSpec BuilderBase OrderSpec BuilderOrder BuilderOrder2.
Import ListNotations.
Open Scope N_scope.
Open Scope builder_scope.

(** ** Renamings compose *)

Lemma ids_inj l l' : ids l = ids l' -> l = l'.
Proof.
  unfold ids. intro H. injection H as H. revert l' H. induction l as [|n l IH]; intros [|n' l'] H; try discriminate H; auto.
  injection H as -> H. f_equal. auto.
Qed.

Lemma ren_idn f v : ren f (ren idn v) = ren f v.
Proof. rewrite ren_ren. apply ren_ext. reflexivity. Qed.

Lemma like_part_comp f g r v v' v'' : like_part f r v v' -> like_part g r v' v'' -> like_part (fun n => g (f n)) r v v''.
Proof.
  destruct r; cbn [like_part].
  - change (fun n : N => n) with idn. intros H1 H2. rewrite <- ren_ren, H1, ren_idn. exact H2.
  - intros (l & l' & -> & -> & P) (l1 & l2 & E & -> & P'). apply ids_inj in E. subst l1. exists l, l2. repeat split; auto.
    rewrite <- map_map, P. exact P'.
  - intros (s & s' & -> & -> & P) (s1 & s2 & E & -> & P'). injection E as <-. exists s, s2. repeat split; auto. congruence.
  - intros (z & z' & -> & -> ) (s1 & s2 & E & -> ). exists z, s2. auto.
Qed.

Lemma likes_comp f g k l : forall i l' l'', likes f k i l l' -> likes g k i l' l'' -> likes (fun n => g (f n)) k i l l''.
Proof.
  induction l as [|v l IH]; intros i [|v' l'] [|v'' l'']; cbn [likes]; try tauto. intros [H1 H2] [H3 H4].
  split; eauto using like_part_comp.
Qed.

Lemma like_comp f g e e' e'' : like f e e' -> like g e' e'' -> like (fun n => g (f n)) e e''.
Proof.
  destruct e, e', e''; cbn [like]; try tauto.
  - intros [-> H1] [-> H2]. split; eauto using likes_comp.
  - congruence.
Qed.

Lemma rel_comp f g p q r : rel f p q -> rel g q r -> rel (fun n => g (f n)) p r.
Proof.
  intros R1 R2. constructor; try apply R1; try apply R2.
  - rewrite (r_size _ _ _ R2). apply R1.
  - destruct (r_bij _ _ _ R1) as [f' Hf], (r_bij _ _ _ R2) as [g' Hg]. exists (fun n => f' (g' n)). intro n.
    destruct (Hg (f n)) as [H1 _], (Hf n) as [H2 _], (Hf (g' n)) as [_ H3], (Hg n) as [_ H4]. rewrite H1, H3. auto.
  - intros n Hn. destruct (N.eq_dec (f n) n) as [E|E]; [|exact (r_move _ _ _ R1 n E)].
    rewrite E in Hn. rewrite <- (r_kind _ _ _ R1). exact (r_move _ _ _ R2 n Hn).
  - intros n e L. destruct (r_like _ _ _ R1 n e L) as (e' & L' & H1). destruct (r_like _ _ _ R2 _ e' L') as (e'' & L'' & H2).
    exists e''. split; auto. eapply like_comp; eauto.
  - intro n. now rewrite (r_kind _ _ _ R2), (r_kind _ _ _ R1).
  - destruct (r_owner _ _ _ R1) as [E1 E2], (r_owner _ _ _ R2) as [E3 E4]. rewrite E1 in *. rewrite E2. auto.
  - destruct (r_project _ _ _ R1) as [E1 E2], (r_project _ _ _ R2) as [E3 E4]. rewrite E1 in *. rewrite E2. auto.
  - destruct (r_sites _ _ _ R1) as [E1 E2], (r_sites _ _ _ R2) as [E3 E4]. rewrite E1 in *. split; auto.
    rewrite Forall_forall in *. intros n Hn. rewrite (E2 n Hn). auto.
  - pose proof (r_assoc _ _ _ R1) as A1. pose proof (r_assoc _ _ _ R2) as A2. clear R1 R2. revert A2. generalize (p_assoc r).
    induction A1 as [|x y l l' (E1 & E2 & E3) A1 IH]; intros k A2; inversion A2 as [|? z ? l'' (F1 & F2 & F3) A2']; subst; constructor; auto.
    rewrite E1 in F2. rewrite F1, E1, E2. repeat split; auto. clear - E3 F3. revert F3. generalize (snd z).
    induction E3 as [|v v' a a' Hv E3 IH]; intros t F3; inversion F3 as [|? w ? a'' Hw F3']; subst; constructor; auto.
    rewrite <- ren_ren, Hv, ren_idn. exact Hw.
Qed.

Lemma like_part_left f r v v' : like_part f r v v' -> like_part idn r v v.
Proof.
  destruct r; cbn [like_part]; auto.
  - intros (l & l' & -> & _). exists l, l. repeat split; auto. now rewrite map_id.
  - intros (s & s' & -> & _). eauto.
  - intros (s & s' & -> & _). eauto.
Qed.
Lemma like_part_right f r v v' : like_part f r v v' -> like_part idn r v' v'.
Proof.
  destruct r; cbn [like_part]; auto.
  - intros (l & l' & _ & -> & _). exists l', l'. repeat split; auto. now rewrite map_id.
  - intros (s & s' & _ & -> & _). eauto.
  - intros (s & s' & _ & ->). eauto.
Qed.
Lemma like_left f e e' : like f e e' -> like idn e e.
Proof.
  destruct e as [k l|s], e' as [k' l'|s']; cbn [like]; auto; try tauto. intros [-> H]. split; auto. revert l' H.
  generalize 0%nat. induction l as [|v l IH]; intros i [|v' l']; cbn [likes]; try tauto. intros [H1 H2]. split; eauto using like_part_left.
Qed.
Lemma like_right f e e' : like f e e' -> like idn e' e'.
Proof.
  destruct e as [k l|s], e' as [k' l'|s']; cbn [like]; auto; try tauto. intros [-> H]. split; auto. revert l' H.
  generalize 0%nat. induction l as [|v l IH]; intros i [|v' l']; cbn [likes]; try tauto. intros [H1 H2]. split; eauto using like_part_right.
Qed.

Lemma one_to_one_idn : one_to_one idn.
Proof. exists idn. auto. Qed.

Lemma rel_idn p : wf p -> (forall n e, lookup (p_map p) n = Some e -> like idn e e) -> rel idn p p.
Proof.
  intros W H. constructor; auto; try (split; auto).
  - apply one_to_one_idn.
  - intros n Hn. now elim Hn.
  - intros n e L. exists e. split; auto. eapply H; eauto.
  - induction (p_sites p); constructor; auto.
  - induction (p_assoc p) as [|x l IH]; constructor; auto. repeat split; auto. apply Forall2_refl. auto.
Qed.

Lemma rel_left f p p' : rel f p p' -> rel idn p p.
Proof.
  intro R. apply rel_idn; [apply R|]. intros n e L. destruct (r_like _ _ _ R n e L) as (e' & _ & H). eapply like_left; eauto.
Qed.
Lemma rel_right f p p' : rel f p p' -> rel idn p' p'.
Proof.
  intro R. apply rel_idn; [apply R|]. intros n e L. destruct (r_bij _ _ _ R) as [g Hg]. destruct (Hg n) as [_ E].
  assert (D : dense (p_map p)) by apply R. assert (D' : dense (p_map p')) by apply R.
  pose proof (proj1 (dense_lookup _ _ D') (ex_intro _ _ L)) as Hn. rewrite (r_size _ _ _ R) in Hn.
  assert (exists x, lookup (p_map p) (g n) = Some x) as [x Lx].
  { destruct (lookup (p_map p) (g n)) as [x|] eqn:Lg; eauto. exfalso.
    destruct (N.eq_dec (f (g n)) (g n)) as [F|F].
    - assert (G : g n = n) by congruence. rewrite G in Lg. destruct (proj2 (dense_lookup _ n D) Hn) as [y Ly]. congruence.
    - destruct (r_move _ _ _ R _ F) as (k & K & _). unfold kind_at in K. rewrite Lg in K. discriminate. }
  destruct (r_like _ _ _ R _ _ Lx) as (e' & L' & H). rewrite E, L in L'. injection L' as <-. eapply like_right; eauto.
Qed.

(** ** The renaming may change for new objects *)

Definition agree (f f' : N -> N) (b : N) : Prop := forall n, n <= b -> f' n = f n.

Lemma agree_refl f b : agree f f b.
Proof. intros n _. reflexivity. Qed.
Lemma agree_trans f g h b b' : agree f g b -> agree g h b' -> b <= b' -> agree f h b.
Proof. intros H1 H2 Hb n Hn. rewrite H2, H1; auto. lia. Qed.
Lemma agree_mono f g b b' : b <= b' -> agree f g b' -> agree f g b.
Proof. intros Hb H n Hn. apply H. lia. Qed.
Lemma agree_fx f f' b b' n : agree f f' b' -> b <= b' -> fx f b n -> fx f' b n.
Proof. intros H Hb [H1 H2]. split; auto. rewrite H; auto. lia. Qed.
Lemma agree_fxs f f' b b' l : agree f f' b' -> b <= b' -> Forall (fx f b) l -> Forall (fx f' b) l.
Proof. intros H Hb. apply Forall_impl. intro n. now apply (agree_fx f f' b b'). Qed.

Lemma bmap_index_app {A C} (F : N -> A -> B C) l1 : forall l2 i p cs q,
  bmap_index F i (l1 ++ l2) p = Done (cs, q) <->
  exists c1 q1 c2, bmap_index F i l1 p = Done (c1, q1) /\ bmap_index F (i + N.of_nat (length l1)) l2 q1 = Done (c2, q) /\ cs = c1 ++ c2.
Proof.
  induction l1 as [|x l1 IH]; intros l2 i p cs q; cbn [app bmap_index length].
  - rewrite N.add_0_r. split.
    + intro H. exists [], p, cs. repeat split; auto.
    + intros (c1 & q1 & c2 & H1 & H2 & ->). apply bret_inv in H1 as [-> ->]. exact H2.
  - replace (i + N.of_nat (S (length l1))) with (i + 1 + N.of_nat (length l1)) by lia. split.
    + intro H. apply bbind_inv in H as (c & p1 & H1 & H). apply bbind_inv in H as (cs' & p2 & H2 & H). apply bret_inv in H as [-> ->].
      apply IH in H2 as (c1 & q1 & c2 & H3 & H4 & ->). exists (c :: c1), q1, c2. split; [|auto].
      unfold bbind. rewrite H1, H3. reflexivity.
    + intros (c1 & q1 & c2 & H1 & H2 & ->). apply bbind_inv in H1 as (c & p1 & H1 & H). apply bbind_inv in H as (cs' & p2 & H3 & H).
      apply bret_inv in H as [-> ->]. unfold bbind. rewrite H1.
      assert (E : bmap_index F (i + 1) (l1 ++ l2) p1 = Done (cs' ++ c2, q)) by (apply IH; exists cs', p2, c2; auto).
      rewrite E. reflexivity.
Qed.

Section Perm.
Context {A C : Type}.
Variable F : oracle -> N -> A -> B C.
Variable names : A -> list N.
Variable J : proj -> list A -> Prop.
Hypothesis Fsim : forall o o' i i' f b x, fair o -> fair o' -> Forall (fx f b) (names x) ->
  sim f b (F o i x) (F o' i' x) (fun _ _ _ => True).
Hypothesis Jperm : forall p l l', Permutation l l' -> J p l -> J p l'.
Hypothesis Jrel : forall f p p' l, rel f p p' -> Forall (fx f (size (p_map p))) (flat_map names l) -> J p l -> J p' l.
Hypothesis Jstep : forall o i p x l c q, fair o -> rel idn p p -> J p (x :: l) -> F o i x p = Done (c, q) -> J q l.
Hypothesis Fswap : forall o i p x y l cs q, fair o -> rel idn p p ->
  Forall (fx idn (size (p_map p))) (flat_map names [x; y]) -> J p (x :: y :: l) ->
  bmap_index (F o) i [x; y] p = Done (cs, q) ->
  exists cs' q' g, bmap_index (F o) i [y; x] p = Done (cs', q') /\ rel g q q' /\ agree idn g (size (p_map p)).

Lemma sim_all o o' f l : fair o -> fair o' -> forall b i i', Forall (fx f b) (flat_map names l) ->
  sim f b (bmap_index (F o) i l) (bmap_index (F o') i' l) (fun _ _ _ => True).
Proof.
  intros Ho Ho'. induction l as [|x l IH]; intros b i i' H; cbn [bmap_index].
  - apply sim_ret. auto.
  - cbn [flat_map] in H. apply Forall_app in H as [H1 H2].
    eapply sim_bind; [apply Fsim; assumption|]. intros b1 c c' Hb _. up Hb.
    eapply sim_bind; [apply IH; assumption|]. intros b2 d d' Hb2 _. apply sim_ret. auto.
Qed.

Lemma J_all o l : fair o -> forall r i p cs q, rel idn p p -> Forall (fx idn (size (p_map p))) (flat_map names (l ++ r)) ->
  J p (l ++ r) -> bmap_index (F o) i l p = Done (cs, q) -> J q r /\ rel idn q q /\ size (p_map p) <= size (p_map q).
Proof.
  intro Ho. induction l as [|x l IH]; intros r i p cs q R H HJ E; cbn [bmap_index app] in E, H, HJ.
  - apply bret_inv in E as [_ ->]. split; [auto|split; [auto|lia]].
  - apply bbind_inv in E as (c & p1 & E1 & E). apply bbind_inv in E as (cs' & p2 & E2 & E). apply bret_inv in E as [_ ->].
    cbn [flat_map] in H. apply Forall_app in H as [H1 H2].
    destruct (Fsim o o i i idn (size (p_map p)) x Ho Ho H1 _ _ _ _ R (N.le_refl _) E1) as (c' & p1' & E1' & R1 & Hs & _).
    assert (p1' = p1) as -> by congruence.
    up Hs. pose proof (Jstep _ _ _ _ _ _ _ Ho R HJ E1) as J1.
    destruct (IH r (i + 1) p1 cs' p2 R1 H2 J1 E2) as (I1 & I2 & I3). split; [auto|split; [auto|lia]].
Qed.

Lemma perm_all l l' : Permutation l l' -> forall o o' i i' f p p' cs q, fair o -> fair o' -> rel f p p' ->
  Forall (fx f (size (p_map p))) (flat_map names l) -> J p l -> bmap_index (F o) i l p = Done (cs, q) ->
  exists cs' q' f', bmap_index (F o') i' l' p' = Done (cs', q') /\ rel f' q q' /\ agree f f' (size (p_map p)) /\
    size (p_map p) <= size (p_map q).
Proof.
  assert (Id : forall f p p' l, rel f p p' -> Forall (fx f (size (p_map p))) l -> Forall (fx idn (size (p_map p))) l).
  { intros f p p' k _ H. eapply Forall_impl; [|exact H]. intros n [_ Hn]. split; auto. }
  induction 1 as [|x l l' P IH|x y l|l l1 l' P1 IH1 P2 IH2]; intros o o' i i' f p p' cs q Ho Ho' R H HJ E.
  - cbn [bmap_index] in E |- *. apply bret_inv in E as [_ ->]. exists [], p', f. split; [auto|]. split; [auto|]. split; [apply agree_refl|lia].
  - cbn [bmap_index flat_map] in E, H |- *. apply Forall_app in H as [H1 H2].
    apply bbind_inv in E as (c & p1 & E1 & E). apply bbind_inv in E as (cs' & p2 & E2 & E). apply bret_inv in E as [_ ->].
    destruct (Fsim o o' i i' f _ x Ho Ho' H1 _ _ _ _ R (N.le_refl _) E1) as (c' & p1' & E1' & R1 & Hs & _).
    pose proof (Jstep _ _ _ _ _ _ _ Ho (rel_left _ _ _ R) HJ E1) as J1.
    up Hs. destruct (IH o o' (i + 1) (i' + 1) f p1 p1' _ _ Ho Ho' R1 H2 J1 E2) as (cs2 & q' & f' & E' & R' & Ag & Hs').
    exists (c' :: cs2), q', f'. split; [unfold bbind; now rewrite E1', E'|]. split; auto. split; [|lia].
    eapply agree_mono; [|exact Ag]. exact Hs.
  - change (y :: x :: l) with ([y; x] ++ l) in E, H, HJ. apply bmap_index_app in E as (c1 & q1 & c2 & E1 & E2 & ->).
    pose proof (rel_left _ _ _ R) as Ri. pose proof (Id _ _ _ _ R H) as Hi.
    assert (Hi2 : Forall (fx idn (size (p_map p))) (flat_map names [y; x])).
    { rewrite flat_map_app in Hi. apply Forall_app in Hi. apply Hi. }
    destruct (Fswap o i p y x l c1 q1 Ho Ri Hi2 HJ E1) as (d1 & q2 & g & S1 & S2 & S3).
    destruct (J_all o _ Ho l i p c1 q1 Ri Hi HJ E1) as (J1 & R1 & Hs1).
    assert (Hg : Forall (fx g (size (p_map q1))) (flat_map names l)).
    { rewrite flat_map_app in Hi. apply Forall_app in Hi as [_ Hi]. apply (fxs_mono _ _ _ _ Hs1).
      apply (agree_fxs idn g _ _ _ S3 (N.le_refl _) Hi). }
    destruct (sim_all o o g l Ho Ho _ _ (i + N.of_nat (length [x; y])) Hg _ _ _ _ S2 (N.le_refl _) E2) as (d2 & q3 & T1 & T2 & T3 & _).
    assert (W : bmap_index (F o) i ([x; y] ++ l) p = Done (d1 ++ d2, q3)).
    { apply bmap_index_app. exists d1, q2, d2. auto. }
    assert (Hf : Forall (fx f (size (p_map p))) (flat_map names ([x; y] ++ l))).
    { eapply Permutation_Forall; [|exact H]. apply Permutation_flat_map. cbn [app]. apply perm_swap. }
    destruct (sim_all o o' f _ Ho Ho' _ i i' Hf _ _ _ _ R (N.le_refl _) W) as (d3 & q4 & U1 & U2 & U3 & _).
    exists d3, q4, (fun n => f (g n)). cbn [app] in U1. split; auto. split; [exact (rel_comp _ _ _ _ _ T2 U2)|].
    split; [|lia]. intros n Hn. now rewrite S3.
  - destruct (IH1 o o' i i' f p p' cs q Ho Ho' R H HJ E) as (c1 & q1 & f1 & E1 & R1 & A1 & Hs1).
    pose proof (r_size _ _ _ R) as Hz.
    assert (H' : Forall (fx idn (size (p_map p'))) (flat_map names l1)).
    { rewrite Hz. eapply Permutation_Forall; [apply Permutation_flat_map; exact P1|]. eapply Id; eauto. }
    destruct (IH2 o' o' i' i' idn p' p' c1 q1 Ho' Ho' (rel_right _ _ _ R) H') as (c2 & q2 & f2 & E2 & R2 & A2 & Hs2); auto.
    { apply (Jperm _ l); auto. eapply Jrel; eauto. }
    exists c2, q2, (fun n => f2 (f1 n)). split; auto. split; [exact (rel_comp _ _ _ _ _ R1 R2)|]. split; auto.
    intros n Hn. rewrite (A1 n Hn). rewrite A2; [reflexivity|]. rewrite Hz. eapply r_in; eauto.
Qed.
End Perm.

(** ** Two blocks of new objects change places *)

Fixpoint number (n : N) (es : list entity) : dmap :=
  match es with [] => [] | e :: t => (n + 1, e) :: number (n + 1) t end.

Lemma number_app es1 : forall n es2, number n (es1 ++ es2) = number n es1 ++ number (n + N.of_nat (length es1)) es2.
Proof.
  induction es1 as [|e es1 IH]; intros n es2; cbn [app number length]; [now rewrite N.add_0_r|].
  rewrite IH. do 3 f_equal. lia.
Qed.
Lemma number_length es : forall n, length (number n es) = length es.
Proof. induction es as [|e es IH]; intro n; cbn [number length]; auto. Qed.

Lemma lookup_number es : forall n k, lookup (number n es) k = if k <=? n then None else nth_error es (N.to_nat (k - n - 1)).
Proof.
  induction es as [|e es IH]; intros n k; cbn [number lookup].
  - destruct (k <=? n); auto. now destruct (N.to_nat (k - n - 1)).
  - rewrite IH. destruct (N.eqb_spec (n + 1) k) as [<-|Hk].
    + destruct (N.leb_spec (n + 1) n); [lia|]. replace (n + 1 - n - 1) with 0 by lia. reflexivity.
    + destruct (N.leb_spec k (n + 1)), (N.leb_spec k n); auto; try lia.
      replace (N.to_nat (k - n - 1)) with (S (N.to_nat (k - (n + 1) - 1))) by lia. reflexivity.
Qed.

Lemma lookup_block m n es k : dense m -> size m = n ->
  lookup (m ++ number n es) k = if k <=? n then lookup m k else nth_error es (N.to_nat (k - n - 1)).
Proof.
  intros D <-. rewrite lookup_app, lookup_number. destruct (lookup m k) as [e|] eqn:E.
  - pose proof (proj1 (dense_lookup _ _ D) (ex_intro _ _ E)). destruct (N.leb_spec k (size m)); [auto|lia].
  - destruct (k <=? size m); auto.
Qed.

Definition turn (n l k : N) : N :=
  if k <=? n then k else if k <=? n + l then k + l else if k <=? n + l + l then k - l else k.

Lemma turn_turn n l k : turn n l (turn n l k) = k.
Proof.
  unfold turn. destruct (N.leb_spec k n); [destruct (N.leb_spec k n); lia|].
  destruct (N.leb_spec k (n + l)).
  - destruct (N.leb_spec (k + l) n), (N.leb_spec (k + l) (n + l)), (N.leb_spec (k + l) (n + l + l)); lia.
  - destruct (N.leb_spec k (n + l + l)).
    + destruct (N.leb_spec (k - l) n), (N.leb_spec (k - l) (n + l)); lia.
    + destruct (N.leb_spec k n), (N.leb_spec k (n + l)), (N.leb_spec k (n + l + l)); lia.
Qed.
Lemma turn_one n l : one_to_one (turn n l).
Proof. exists (turn n l). intro k. split; apply turn_turn. Qed.
Lemma turn_old n l : agree idn (turn n l) n.
Proof. intros k Hk. unfold turn. destruct (N.leb_spec k n); [reflexivity|lia]. Qed.

Lemma ren_agree f f' b v : agree f f' b -> at_most b v -> ren f' v = ren f v.
Proof. intros A H. apply ren_ext. intros n Hn. apply A. unfold at_most in H. rewrite Forall_forall in H. auto. Qed.

Lemma likes_agree f f' b k l : agree f f' b -> Forall (at_most b) l -> forall i l', likes f k i l l' -> likes f' k i l l'.
Proof.
  intros A H. induction H as [|v l Hv H IH]; intros i [|v' l']; cbn [likes]; auto. intros [H1 H2]. split; auto. clear H2.
  destruct (part_of k i); cbn [like_part] in *; auto.
  - now rewrite (ren_agree f f' b v A Hv).
  - destruct H1 as (x & x' & -> & -> & P). exists x, x'. repeat split; auto. rewrite <- P. apply Permutation_refl'.
    apply map_ext_in. intros n Hn. apply A. unfold at_most, ids in Hv. cbn [ids_in] in Hv. rewrite Forall_forall in Hv. apply Hv.
    apply in_flat_map. exists (VId n). split; [now apply in_map|now left].
Qed.

Definition bounded_ent (b : N) (e : entity) : Prop := match e with Ent _ l => Forall (at_most b) l | EDummy _ => True end.

Lemma like_agree f f' b e e' : agree f f' b -> bounded_ent b e -> like f e e' -> like f' e e'.
Proof.
  intros A H. destruct e as [k l|s], e' as [k' l'|s']; cbn [like]; auto. intros [-> HL]. split; auto. eapply likes_agree; eauto.
Qed.

Lemma wf_bounded p n e : wf p -> lookup (p_map p) n = Some e -> bounded_ent (size (p_map p)) e.
Proof. intros W L. destruct e as [k l|s]; cbn; auto. exact (wf_refs _ W _ _ _ L). Qed.

Lemma like_kind f e e' : like f e e' -> kind_of e' = kind_of e.
Proof. destruct e, e'; cbn [like kind_of]; tauto. Qed.

Definition keeps (p q : proj) : Prop :=
  p_owner q = p_owner p /\ p_project q = p_project p /\ p_sites q = p_sites p /\ p_assoc q = p_assoc p.

Lemma Forall2_nth {A} (R : A -> A -> Prop) l l' j a : Forall2 R l l' -> nth_error l j = Some a -> exists a', nth_error l' j = Some a' /\ R a a'.
Proof.
  intro H. revert j. induction H as [|x y l l' Hx H IH]; intros [|j] E; try discriminate E; cbn [nth_error] in *.
  - injection E as <-. eauto.
  - apply IH, E.
Qed.

Lemma swap_blocks p q q' n L es1 es2 es1' es2' m m' :
  rel idn p p -> size (p_map p) = n -> wf q -> wf q' -> keeps p q -> keeps p q' ->
  dense m -> dense m' -> size m = n -> size m' = n ->
  p_map q = m ++ number n (es1 ++ es2) -> p_map q' = m' ++ number n (es1' ++ es2') ->
  N.of_nat (length es1) = L -> N.of_nat (length es2) = L -> N.of_nat (length es1') = L -> N.of_nat (length es2') = L ->
  Forall2 (like (turn n L)) es1 es2' -> Forall2 (like (turn n L)) es2 es1' ->
  map kind_of es1' = map kind_of es1 -> map kind_of es2' = map kind_of es2 ->
  forallb (fun e => shuffled (kind_of e)) (es1 ++ es2) = true ->
  (forall k e, lookup m k = Some e -> exists e', lookup m' k = Some e' /\ like (turn n L) e e') ->
  rel (turn n L) q q'.
Proof.
  intros R Hn W W' (K1 & K2 & K3 & K4) (K1' & K2' & K3' & K4') D D' Hm Hm' Eq Eq' L1 L2 L1' L2' F1 F2 C1 C2 Sh Old.
  assert (Hk : forall k, kind_at (p_map q') k = kind_at (p_map q) k).
  { intro k. unfold kind_at. rewrite Eq, Eq', !lookup_block by auto.
    destruct (N.leb_spec k n) as [Hkn|Hkn].
    - destruct (lookup m k) as [e|] eqn:E.
      + destruct (Old _ _ E) as (e' & -> & He). cbn [option_map]. f_equal. eapply like_kind; eauto.
      + destruct (lookup m' k) as [e'|] eqn:E'; auto. pose proof (proj1 (dense_lookup _ _ D') (ex_intro _ _ E')) as B.
        destruct (proj2 (dense_lookup m k D)) as [x Hx]; [lia|congruence].
    - rewrite <- !nth_error_map, !map_app, C1, C2. reflexivity. }
  constructor; auto.
  - rewrite Eq, Eq'. unfold size. rewrite !app_length, !number_length, !app_length. unfold size in Hm, Hm'. lia.
  - apply turn_one.
  - intros k Hf. unfold turn in Hf. destruct (N.leb_spec k n); [now elim Hf|].
    assert (Hk2 : k <= n + L + L).
    { destruct (N.leb_spec k (n + L)); [lia|]. destruct (N.leb_spec k (n + L + L)); [lia|]. now elim Hf. }
    unfold kind_at. rewrite Eq, lookup_block by auto. destruct (N.leb_spec k n); [lia|].
    destruct (nth_error (es1 ++ es2) (N.to_nat (k - n - 1))) as [e|] eqn:E.
    + exists (kind_of e). split; auto. rewrite forallb_forall in Sh. apply Sh. eapply nth_error_In; eauto.
    + apply nth_error_None in E. rewrite app_length in E. lia.
  - intros k e E. rewrite Eq, lookup_block in E by auto.
    rewrite Eq', lookup_block by auto. unfold turn.
    destruct (N.leb_spec k n) as [Hkn|Hkn].
    + destruct (N.leb_spec k n); [|lia]. exact (Old _ _ E).
    + assert (Hlt : (N.to_nat (k - n - 1) < length (es1 ++ es2))%nat) by (apply nth_error_Some; congruence).
      rewrite app_length in Hlt. destruct (N.leb_spec k (n + L)).
      * destruct (N.leb_spec (k + L) n); [lia|]. rewrite nth_error_app1 in E by lia.
        destruct (Forall2_nth _ _ _ _ _ F1 E) as (e' & E' & He). exists e'. split; auto.
        rewrite nth_error_app2 by lia. rewrite <- E'. f_equal. lia.
      * destruct (N.leb_spec k (n + L + L)); [|lia]. destruct (N.leb_spec (k - L) n); [lia|]. rewrite nth_error_app2 in E by lia.
        destruct (Forall2_nth _ _ _ _ _ F2 E) as (e' & E' & He). exists e'. split; auto.
        rewrite nth_error_app1 by lia. rewrite <- E'. f_equal. lia.
  - rewrite K1, K1'. split; auto. apply turn_old. pose proof (wf_owner _ (r_wf _ _ _ R)). lia.
  - rewrite K2, K2'. split; auto. apply turn_old. pose proof (wf_project _ (r_wf _ _ _ R)). lia.
  - rewrite K3, K3'. split; auto. eapply Forall_impl; [|exact (wf_sites _ (r_wf _ _ _ R))]. cbn beta. intros x Hx. apply turn_old. lia.
  - rewrite K4, K4'. pose proof (wf_assoc _ (r_wf _ _ _ R)) as WA. clear - WA Hn. induction WA as [|x l [H1 H2] WA IH]; constructor; auto.
    split; auto. split; [apply turn_old; lia|]. clear - H2 Hn. rewrite Hn in H2. induction H2 as [|v l Hv H2 IH]; constructor; auto.
    rewrite (ren_agree idn (turn n L) n); auto. apply turn_old.
Qed.

(** ** Relations: one object each *)

Section Single.
Context {A : Type}.
Variable K : kind.
Variable F : oracle -> N -> A -> B N.
Variable names : A -> list N.
Variable Q : N -> A -> list val -> Prop.
Hypothesis Fins : forall o i x p, fair o -> exists l t, F o i x p = ins K l (set_tick t p) /\ Q (p_owner p) x l.
Hypothesis Qlike : forall f w x l l', Q w x l -> Q w x l' -> f w = w -> Forall (fun n => f n = n) (names x) -> likes f K 0 l l'.
Hypothesis Qids : forall b w x l, Q w x l -> w <= b -> Forall (fun n => n <= b) (names x) -> Forall (at_most b) l.
Hypothesis Ksh : shuffled K = true.

Lemma single_sim o o' i i' f b x : fair o -> fair o' -> Forall (fx f b) (names x) ->
  sim f b (F o i x) (F o' i' x) (fun _ _ _ => True).
Proof.
  intros Ho Ho' H p p' n q R Hb E. destruct (Fins o i x p Ho) as (l & t & E1 & Q1). destruct (Fins o' i' x p' Ho') as (l' & t' & E2 & Q2).
  rewrite E1 in E. up Hb. destruct (r_owner _ _ _ R) as [O1 O2]. rewrite O1 in Q2. pose proof (wf_owner _ (r_wf _ _ _ R)) as O3.
  assert (N1 : Forall (fun n => f n = n) (names x)) by (eapply Forall_impl; [|exact H]; intros k [Hk _]; exact Hk).
  assert (N2 : Forall (fun n => n <= size (p_map p)) (names x)) by (eapply Forall_impl; [|exact H]; intros k [_ Hk]; exact Hk).
  destruct (sim_ins_gen f (size (p_map p)) K l l') with (p := set_tick t p) (p' := set_tick t' p') (a := n) (q := q)
    as (a' & q' & E' & R' & Hs & _); auto.
  - eapply Qlike; eauto.
  - eapply Qids; eauto.
  - eapply Qids; eauto.
  - now apply rel_tick.
  - cbn [set_tick p_map]. lia.
  - exists a', q'. rewrite E2. auto.
Qed.

Lemma single_two o i x y p cs q : fair o -> dense (p_map p) -> bmap_index (F o) i [x; y] p = Done (cs, q) ->
  size (p_map p) + 2 <= max_usize.
Proof.
  intros Ho D E. cbn [bmap_index] in E. apply bbind_inv in E as (c1 & q1 & E1 & E). apply bbind_inv in E as (c2 & q2 & E2 & E).
  apply bbind_inv in E2 as (c3 & q3 & E2 & _). destruct (Fins o i x p Ho) as (l & t & F1 & _). rewrite F1 in E1.
  apply ins_inv in E1 as (_ & _ & -> & D1); auto.
  match type of E2 with F _ _ _ ?p1 = _ => destruct (Fins o (i + 1) y p1 Ho) as (l2 & t2 & F2 & _) end. rewrite F2 in E2.
  apply ins_inv in E2 as (-> & B2 & _ & _); auto. cbn [set_map set_tick p_map] in B2. rewrite size_snoc in B2. lia.
Qed.

Lemma single_run o i x y p : fair o -> dense (p_map p) -> size (p_map p) + 2 <= max_usize ->
  exists l1 l2 cs q, bmap_index (F o) i [x; y] p = Done (cs, q) /\ Q (p_owner p) x l1 /\ Q (p_owner p) y l2 /\
    p_map q = p_map p ++ number (size (p_map p)) ([Ent K l1] ++ [Ent K l2]) /\ keeps p q.
Proof.
  intros Ho D Hs. destruct (Fins o i x p Ho) as (l1 & t1 & F1 & Q1). cbn [bmap_index].
  assert (E1 : ins K l1 (set_tick t1 p) = Done (size (p_map p) + 1, set_map (p_map p ++ [(size (p_map p) + 1, Ent K l1)]) (set_tick t1 p))).
  { rewrite ins_done; auto. cbn [set_tick p_map]. lia. }
  pose proof (ins_inv _ _ _ _ _ E1 D) as (_ & _ & _ & D1).
  remember (set_map (p_map p ++ [(size (p_map p) + 1, Ent K l1)]) (set_tick t1 p)) as p1 eqn:P1.
  assert (S1 : size (p_map p1) = size (p_map p) + 1) by (subst p1; cbn [set_map p_map]; apply size_snoc).
  destruct (Fins o (i + 1) y p1 Ho) as (l2 & t2 & F2 & Q2).
  assert (E2 : ins K l2 (set_tick t2 p1) = Done (size (p_map p1) + 1, set_map (p_map p1 ++ [(size (p_map p1) + 1, Ent K l2)]) (set_tick t2 p1))).
  { rewrite ins_done; auto. cbn [set_tick p_map]. lia. }
  do 4 eexists. split; [unfold bbind; rewrite F1, E1, F2, E2; unfold bret; reflexivity|].
  split; [exact Q1|]. split; [subst p1; exact Q2|]. split.
  - cbn [set_map p_map app number]. rewrite S1. subst p1. cbn [set_map set_tick p_map]. rewrite <- app_assoc. reflexivity.
  - subst p1. repeat split.
Qed.

Lemma single_swap o i p x y (l : list A) cs q : fair o -> rel idn p p ->
  Forall (fx idn (size (p_map p))) (flat_map names [x; y]) -> True ->
  bmap_index (F o) i [x; y] p = Done (cs, q) ->
  exists cs' q' g, bmap_index (F o) i [y; x] p = Done (cs', q') /\ rel g q q' /\ agree idn g (size (p_map p)).
Proof.
  intros Ho R H _ E. assert (D : dense (p_map p)) by apply R. pose proof (single_two _ _ _ _ _ _ _ Ho D E) as Hs.
  destruct (single_run o i x y p Ho D Hs) as (l1 & l2 & cs1 & q1 & E1 & Q1 & Q2 & M1 & K1).
  destruct (single_run o i y x p Ho D Hs) as (l3 & l4 & cs2 & q2 & E2 & Q3 & Q4 & M2 & K2).
  rewrite E in E1. injection E1 as <- <-. exists cs2, q2, (turn (size (p_map p)) 1). split; auto. split; [|apply turn_old].
  assert (H' : Forall (fx idn (size (p_map p))) (flat_map names [y; x])).
  { eapply Permutation_Forall; [|exact H]. apply Permutation_flat_map, perm_swap. }
  destruct (sim_all F names single_sim o o idn _ Ho Ho _ i i H _ _ _ _ R (N.le_refl _) E) as (? & q' & Eq & Rq & _ & _).
  assert (q' = q) as -> by congruence.
  destruct (sim_all F names single_sim o o idn _ Ho Ho _ i i H' _ _ _ _ R (N.le_refl _) E2) as (? & q2' & Eq2 & Rq2 & _ & _).
  assert (q2' = q2) as -> by congruence.
  pose proof (wf_owner _ (r_wf _ _ _ R)) as O3.
  assert (T : forall z, In z [x; y] -> Forall (fun n => turn (size (p_map p)) 1 n = n) (names z)).
  { intros z Hz. rewrite Forall_forall in H |- *. intros n Hn. apply turn_old. apply (H n). apply in_flat_map. eauto. }
  assert (O : turn (size (p_map p)) 1 (p_owner p) = p_owner p) by (apply turn_old; exact O3).
  apply (swap_blocks p q q2 (size (p_map p)) 1 [Ent K l1] [Ent K l2] [Ent K l3] [Ent K l4] (p_map p) (p_map p)); auto.
  - apply Rq.
  - apply Rq2.
  - constructor; [|constructor]. split; auto. eapply Qlike; eauto. apply T. now left.
  - constructor; [|constructor]. split; auto. eapply Qlike; eauto. apply T. right. now left.
  - cbn [app forallb kind_of]. now rewrite Ksh.
  - intros k e L. destruct (r_like _ _ _ R k e L) as (e' & L' & He). exists e'. split; auto. eapply (like_agree idn); [|eapply wf_bounded; eauto; apply R|exact He].
    apply turn_old.
Qed.

Lemma single_perm l l' o o' i i' f p p' cs q : Permutation l l' -> fair o -> fair o' -> rel f p p' ->
  Forall (fx f (size (p_map p))) (flat_map names l) -> bmap_index (F o) i l p = Done (cs, q) ->
  exists cs' q' f', bmap_index (F o') i' l' p' = Done (cs', q') /\ rel f' q q' /\ agree f f' (size (p_map p)) /\
    size (p_map p) <= size (p_map q).
Proof.
  intros P Ho Ho' R H E.
  apply (perm_all F names (fun _ _ => True) single_sim (fun _ _ _ _ _ => I) (fun _ _ _ _ _ _ _ => I) (fun _ _ _ _ _ _ _ _ _ _ _ => I) single_swap l l' P o o' i i' f p p' cs q Ho Ho' R H I E).
Qed.
End Single.
