(** Transforms of the openings and windows of one wall or slab, in any order. *)

From Coq Require Import String Ascii List NArith ZArith Bool Lia Permutation.
From Coq Require Import ZifyBool ZifyNat ZifyN.
From Verif Require Import Base Prims PrimsFacts Float Arith Kind Types Schema Entity EntityFacts DataMap DataSpec DataMapFacts
  Extractor Builder BuilderRun BuilderSpec BuilderBase OrderSpec BuilderOrder BuilderOrder2 BuilderOrder3 BuilderOrder4.
Import ListNotations.
Open Scope N_scope.
Open Scope builder_scope.

(** ** What one transform makes *)

Definition tr_block (n ctx : N) (t : tparam) (v : vec3) (i : nat) (r : N) : list entity :=
  [ Ent KDirection3D [vec (direction_from (t_x t))]
  ; Ent KDirection3D [vec (direction_from (t_y t))]
  ; Ent KPoint3D [vec (t_move t)]
  ; Ent KDirection3D [vec (direction_from (t_z t))]
  ; Ent KCartesianTransformationOperator3DnonUniform
      [VId (n + 1); VId (n + 2); VId (n + 3); VReal f_one; VId (n + 4); VReal f_one; VReal f_one]
  ; Ent KPoint3D [vec v]
  ; Ent KAxis3D [VId (n + 6); VOmit; VOmit]
  ; Ent KRepresentationMap [VId (n + 7); VId r]
  ; Ent KMappedItem [VId (n + 8); VId (n + 5)]
  ; Ent KShapeRepresentation (shape_repr ctx i ty_mapped [n + 9]) ].

Definition ident (l : list val) : nat := match nth_error l 1 with Some (VEnum i) => i | _ => id_body end.

(** A product with one representation. *)
Definition one_repr (m : dmap) (k : kind) (n s : N) (d : list val) (r : N) (e : list val) : Prop :=
  (exists l, lookup m n = Some (Ent k l) /\ attr_id l 6 = Some s) /\
  lookup m s = Some (Ent KProductDefinitionShape d) /\ attr_ids d 2 = [r] /\
  lookup m r = Some (Ent KShapeRepresentation e).

Definition after_tr (m : dmap) (ctx : N) (t : tparam) (v : vec3) (s : N) (d : list val) (r : N) (e : list val) : dmap :=
  put m s (Ent KProductDefinitionShape (set_at 2 (ids [size m + 10]) d)) ++ number (size m) (tr_block (size m) ctx t v (ident e) r).

Lemma number_keys es : forall n, map fst (number (N.of_nat n) es) = map N.of_nat (seq (S n) (length es)).
Proof.
  induction es as [|e es IH]; intro n; cbn [number map seq length fst]; auto. replace (N.of_nat n + 1) with (N.of_nat (S n)) by lia.
  now rewrite IH.
Qed.
Lemma size_number m es : size (m ++ number (size m) es) = size m + N.of_nat (length es).
Proof. unfold size. rewrite app_length, number_length. lia. Qed.
Lemma dense_number m es : dense m -> size m + N.of_nat (length es) <= max_usize -> dense (m ++ number (size m) es).
Proof.
  intros [D1 D2] H. split; [|rewrite size_number; exact H]. unfold size at 1. rewrite map_app, D1, number_keys, app_length, number_length, seq_app, map_app.
  reflexivity.
Qed.
Lemma number_above es : forall n x, In x (number n es) -> n < fst x.
Proof.
  induction es as [|e es IH]; intros n x; cbn [number]; intros H; [destruct H|]. destruct H as [<-|H]; [cbn [fst]; lia|].
  apply IH in H. lia.
Qed.
Lemma put_number m es n e e0 : dense (m ++ number (size m) es) -> dense m -> lookup m n = Some e0 ->
  put (m ++ number (size m) es) n e = put m n e ++ number (size m) es.
Proof.
  intros D Dm L. rewrite (put_present _ n e e0 (dense_increasing _ D)) by (rewrite lookup_app, L; reflexivity).
  rewrite (put_present m n e e0 (dense_increasing _ Dm) L), map_app. f_equal.
  pose proof (proj1 (dense_lookup _ _ Dm) (ex_intro _ _ L)) as Hn.
  erewrite map_ext_in; [apply map_id|]. intros x Hx. apply number_above in Hx. cbn beta.
  destruct (N.eqb_spec (fst x) n); [lia|auto].
Qed.

Lemma put_number' m es n0 n e e0 : size m = n0 -> dense (m ++ number n0 es) -> dense m -> lookup m n = Some e0 ->
  put (m ++ number n0 es) n e = put m n e ++ number n0 es.
Proof. intros <-. apply put_number. Qed.

Lemma ins_number m es k l p n : dense m -> size m + N.of_nat (length es) + 1 = n -> n <= max_usize ->
  ins k l (set_map (m ++ number (size m) es) p) = Done (n, set_map (m ++ number (size m) (es ++ [Ent k l])) p).
Proof.
  intros D Hn H. rewrite ins_done.
  - cbn [set_map p_map]. rewrite size_number, Hn. f_equal. f_equal. rewrite number_app, app_assoc. cbn [number].
    now rewrite Hn.
  - apply dense_number; auto. lia.
  - cbn [set_map p_map]. rewrite size_number. lia.
Qed.

Lemma fetch_number m es k l p n : lookup m n = Some (Ent k l) ->
  fetch k n (set_map (m ++ number (size m) es) p) = Done (l, set_map (m ++ number (size m) es) p).
Proof.
  intro L. unfold fetch. cbn [set_map p_map]. rewrite (get_of k _ n l); auto. now rewrite lookup_app, L.
Qed.

Lemma set_map_same p : set_map (p_map p ++ number (size (p_map p)) []) p = p.
Proof. cbn [number]. rewrite app_nil_r. now destruct p. Qed.

Lemma transform_done p k n ctx t v s d r e : dense (p_map p) -> one_repr (p_map p) k n s d r e -> size (p_map p) + 10 <= max_usize ->
  transform true k n ctx t v p = Done (tt, set_map (after_tr (p_map p) ctx t v s d r e) p).
Proof.
  intros D ((l & L1 & E1) & L2 & E2 & L3) H. set (m := p_map p) in *.
  unfold transform, bbind. rewrite <- (set_map_same p) at 1. fold m. rewrite (fetch_number m [] k l p n L1). rewrite E1.
  unfold transform_object, bbind.
  rewrite (ins_number m [] _ _ p (size m + 1)) by (auto; cbn [length]; lia).
  rewrite (ins_number m _ _ _ p (size m + 2)) by (auto; cbn [app length]; lia).
  rewrite (ins_number m _ _ _ p (size m + 3)) by (auto; cbn [app length]; lia).
  rewrite (ins_number m _ _ _ p (size m + 4)) by (auto; cbn [app length]; lia).
  rewrite (ins_number m _ _ _ p (size m + 5)) by (auto; cbn [app length]; lia).
  rewrite (fetch_number m _ _ _ p s L2), E2. cbn [bmap]. unfold bbind. unfold mapped_repr, axis3d, bbind.
  rewrite (ins_number m _ _ _ p (size m + 6)) by (auto; cbn [app length]; lia). unfold bret at 1.
  rewrite (ins_number m _ _ _ p (size m + 7)) by (auto; cbn [app length]; lia).
  rewrite (fetch_number m _ _ _ p r L3). unfold bret at 1.
  rewrite (ins_number m _ _ _ p (size m + 8)) by (auto; cbn [app length]; lia).
  rewrite (ins_number m _ _ _ p (size m + 9)) by (auto; cbn [app length]; lia).
  rewrite (ins_number m _ _ _ p (size m + 10)) by (auto; cbn [app length]; lia). unfold bret.
  unfold modify. cbn [set_map p_map].
  rewrite (update_of _ _ s _ d) by (rewrite lookup_app, L2; reflexivity).
  rewrite (put_number m _ s _ (Ent KProductDefinitionShape d)); [reflexivity| |exact D|exact L2].
  apply dense_number; [exact D|]. cbn [app length]. lia.
Qed.

Lemma ins_room k l p n p' : ins k l p = Done (n, p') -> dense (p_map p) ->
  n = size (p_map p) + 1 /\ n <= max_usize /\ size (p_map p') = n /\ dense (p_map p') /\
  (forall x y, lookup (p_map p) x = Some y -> lookup (p_map p') x = Some y).
Proof.
  intros H D. apply ins_inv in H as (Hn & Hm & -> & D'); auto. split; [auto|]. split; [auto|]. cbn [set_map p_map].
  split; [rewrite size_snoc; lia|]. split; [auto|]. intros x y L. now rewrite lookup_app, L.
Qed.

Lemma transform_room p k n ctx t v s d r e q : dense (p_map p) -> one_repr (p_map p) k n s d r e ->
  transform true k n ctx t v p = Done (tt, q) -> size (p_map p) + 10 <= max_usize.
Proof.
  intros D ((l & L1 & E1) & L2 & E2 & L3) E.
  unfold transform in E. apply bbind_inv in E as (l0 & p0 & F0 & E). apply fetch_inv in F0 as [-> F0]. rewrite L1 in F0. injection F0 as <-.
  rewrite E1 in E. apply bbind_inv in E as (tr & p5 & T & E). unfold transform_object in T.
  apply bbind_inv in T as (x1 & p1 & I1 & T). apply ins_room in I1 as (N1 & _ & S1 & D1 & K1); auto.
  apply bbind_inv in T as (x2 & p2 & I1 & T). apply ins_room in I1 as (N2 & _ & S2 & D2 & K2); auto.
  apply bbind_inv in T as (x3 & p3 & I1 & T). apply ins_room in I1 as (N3 & _ & S3 & D3 & K3); auto.
  apply bbind_inv in T as (x4 & p4 & I1 & T). apply ins_room in I1 as (N4 & _ & S4 & D4 & K4); auto.
  apply ins_room in T as (N5 & _ & S5 & D5 & K5); auto.
  apply bbind_inv in E as (d0 & p0 & F0 & E). apply fetch_inv in F0 as [-> F0].
  rewrite (K5 _ _ (K4 _ _ (K3 _ _ (K2 _ _ (K1 _ _ L2))))) in F0. injection F0 as <-.
  rewrite E2 in E. apply bbind_inv in E as (rs & p0 & M & _). cbn [bmap] in M. apply bbind_inv in M as (r0 & p10 & M & _).
  unfold mapped_repr in M. apply bbind_inv in M as (y & p6' & I1 & M). unfold axis3d in I1. apply bbind_inv in I1 as (x6 & p6 & I1 & I2).
  apply bret_inv in I2 as [-> ->]. apply ins_room in I1 as (N6 & _ & S6 & D6 & K6); auto.
  apply bbind_inv in M as (x7 & p7 & I1 & M). apply ins_room in I1 as (N7 & _ & S7 & D7 & K7); auto.
  apply bbind_inv in M as (i & p7' & I1 & M). apply bbind_inv in I1 as (i' & p7'' & I1 & I2). apply bret_inv in I2 as [-> ->].
  apply fetch_inv in I1 as [-> _].
  apply bbind_inv in M as (x8 & p8 & I1 & M). apply ins_room in I1 as (N8 & _ & S8 & D8 & K8); auto.
  apply bbind_inv in M as (x9 & p9 & I1 & M). apply ins_room in I1 as (N9 & _ & S9 & D9 & K9); auto.
  apply ins_room in M as (N10 & B & _ & _); auto. clear - N1 N2 N3 N4 N5 N6 N7 N8 N9 N10 S1 S2 S3 S4 S5 S6 S7 S8 S9 B. lia.
Qed.

(** ** Two transforms *)

Lemma block_like f n n' ctx t v i r : (forall j, 1 <= j <= 10 -> f (n + j) = n' + j) -> f ctx = ctx -> f r = r ->
  Forall2 (like f) (tr_block n ctx t v i r) (tr_block n' ctx t v i r).
Proof.
  intros H Hc Hr. unfold tr_block, shape_repr, ids.
  assert (V : forall w, ren f (vec w) = ren (fun n => n) (vec w)) by (intro w; now destruct w as [[x y] z]).
  repeat (apply Forall2_cons || apply Forall2_nil); cbn [like]; (split; [reflexivity|]);
    cbn [likes part_of like_part ren map]; rewrite ?H, ?Hc, ?Hr by lia; repeat split; apply V.
Qed.

Lemma turn_up n j : 1 <= j <= 10 -> turn n 10 (n + j) = n + 10 + j.
Proof.
  intro H. unfold turn. destruct (N.leb_spec (n + j) n); [lia|]. destruct (N.leb_spec (n + j) (n + 10)); lia.
Qed.
Lemma turn_down n j : 1 <= j <= 10 -> turn n 10 (n + 10 + j) = n + j.
Proof.
  intro H. unfold turn. destruct (N.leb_spec (n + 10 + j) n); [lia|]. destruct (N.leb_spec (n + 10 + j) (n + 10)); [lia|].
  destruct (N.leb_spec (n + 10 + j) (n + 10 + 10)); lia.
Qed.

Lemma one_repr_put m k n s d r e s' d' es : dense m -> k <> KProductDefinitionShape -> s <> s' ->
  lookup m s' = Some (Ent KProductDefinitionShape d') ->
  one_repr m k n s d r e -> forall d2, one_repr (put m s' (Ent KProductDefinitionShape d2) ++ number (size m) es) k n s d r e.
Proof.
  intros D K Hs Ls ((l & L1 & E1) & L2 & E2 & L3) d2. pose proof (dense_increasing _ D) as I.
  assert (G : forall x y, lookup m x = Some y -> x <> s' -> lookup (put m s' (Ent KProductDefinitionShape d2) ++ number (size m) es) x = Some y).
  { intros x y L Hx. rewrite lookup_app, lookup_put by auto. apply N.eqb_neq in Hx. now rewrite Hx, L. }
  split; [exists l; split; auto; apply G; auto; intros ->; congruence|]. split; [now apply G|]. split; auto.
  apply G; auto. intros ->. congruence.
Qed.

Section Two.
Variable k : kind.
Variable ctx : N.
Variable t : tparam.
Hypothesis Kp : k <> KProductDefinitionShape.
Hypothesis Ko : ordinary k.

Definition tr_one (o : oracle) (i : N) (x : N * vec3) : B unit :=
  transform true k (fst x) ctx (shift_back t (snd x)) (snd x).
Definition n_tr (x : N * vec3) : list N := [fst x; ctx].

Definition single (p : proj) (x : N * vec3) (s : N) : Prop := exists d r e, one_repr (p_map p) k (fst x) s d r e.
Definition singles (p : proj) (l : list (N * vec3)) : Prop := exists ss, Forall2 (single p) l ss /\ NoDup ss.

Lemma singles_perm p l l' : Permutation l l' -> singles p l -> singles p l'.
Proof.
  intros P (ss & F & ND). destruct (Permutation_Forall2 P F) as (ss' & P' & F'). exists ss'. split; auto.
  now apply (Permutation_NoDup P').
Qed.

Lemma single_rel f p p' x s : rel f p p' -> f (fst x) = fst x -> single p x s -> single p' x s.
Proof.
  intros R Hx (d & r & e & (l & L1 & E1) & L2 & E2 & L3).
  destruct (rel_lookup _ _ _ _ _ _ R Ko L1) as (l' & L1' & R1). rewrite Hx in L1'.
  assert (Kd : ordinary KProductDefinitionShape) by (intro; reflexivity).
  assert (Ke : ordinary KShapeRepresentation) by (intro; reflexivity).
  assert (Fs : f s = s).
  { destruct (N.eq_dec (f s) s) as [E|E]; auto. destruct (r_move _ _ _ R _ E) as (k0 & K1 & K2). unfold kind_at in K1. rewrite L2 in K1.
    cbn [option_map kind_of] in K1. injection K1 as <-. discriminate K2. }
  destruct (rel_lookup _ _ _ _ _ _ R Kd L2) as (d' & L2' & R2). rewrite Fs in L2'.
  destruct (rel_lookup _ _ _ _ _ _ R Ke L3) as (e' & L3' & R3).
  exists d', (f r), e'. split; [exists l'; split; auto|split; auto].
  - destruct (lr_attr_id _ _ _ _ _ _ R1 E1) as (s' & Es & (-> & _)). now rewrite Fs in Es.
  - split; auto. pose proof (lr_attr_ids _ _ _ _ 2 R2) as G. rewrite E2 in G. inversion G as [|? r' ? ? Hr G']; subst. inversion G'; subst.
    destruct Hr as (-> & _). reflexivity.
Qed.

Lemma singles_rel f p p' l : rel f p p' -> Forall (fx f (size (p_map p))) (flat_map n_tr l) -> singles p l -> singles p' l.
Proof.
  intros R H (ss & F & ND). exists ss. split; auto. clear ND. induction F as [|x s l ss Hs F IH]; constructor; cbn [flat_map n_tr app] in H.
  - inversion H as [|? ? H1 _]; subst. eapply single_rel; eauto. apply H1.
  - inversion H as [|? ? _ H1]; subst. inversion H1; subst. auto.
Qed.

Lemma singles_step o i p x l c q : fair o -> rel idn p p -> singles p (x :: l) -> tr_one o i x p = Done (c, q) -> singles q l.
Proof.
  intros _ R (ss & F & ND) E. inversion F as [|? s ? ss' (d & r & e & O) F']; subst. inversion ND as [|? ? Hs ND']; subst.
  assert (D : dense (p_map p)) by apply R. destruct c. unfold tr_one in E.
  pose proof (transform_room _ _ _ _ _ _ _ _ _ _ _ D O E) as Hr.
  rewrite (transform_done _ _ _ _ _ _ _ _ _ _ D O Hr) in E. injection E as <-. exists ss'. split; auto. clear ND' ND F.
  induction F' as [|y s' l ss' (d' & r' & e' & O') F' IH]; constructor.
  - exists d', r', e'. cbn [set_map p_map]. unfold after_tr. eapply one_repr_put; auto; [|apply O]. intros ->. apply Hs. now left.
  - apply IH. intro Hi. apply Hs. now right.
Qed.

Lemma tr_sim o o' i i' f b x : fair o -> fair o' -> Forall (fx f b) (n_tr x) ->
  sim f b (tr_one o i x) (tr_one o' i' x) (fun _ _ _ => True).
Proof.
  intros _ _ H. unfold n_tr in H. apply Forall_cons_iff in H as [H1 H]. apply Forall_cons_iff in H as [H2 _].
  apply sim_transform; auto.
Qed.

Definition new_shape (d : list val) (n : N) : entity := Ent KProductDefinitionShape (set_at 2 (ids [n]) d).
Definition blk (n : N) (x : N * vec3) (r : N) (e : list val) : list entity := tr_block n ctx (shift_back t (snd x)) (snd x) (ident e) r.

Lemma after_facts m n s d r e x : dense m -> size m + 10 <= max_usize -> one_repr m k n s d r e ->
  let m1 := put m s (new_shape d (size m + 10)) in
  dense m1 /\ size m1 = size m /\ dense (m1 ++ number (size m) (blk (size m) x r e)) /\ size (m1 ++ number (size m) (blk (size m) x r e)) = size m + 10.
Proof.
  intros D H O m1. assert (D1 : dense m1) by (eapply put_dense; [exact D|apply O]).
  assert (S1 : size m1 = size m) by (eapply put_size; [apply dense_increasing, D|apply O]).
  split; [auto|]. split; [auto|]. rewrite <- S1 at 1 3. split.
  - apply dense_number; auto. rewrite S1. exact H.
  - rewrite size_number, S1. reflexivity.
Qed.

Lemma tr_two o i p x y s1 s2 d1 d2 r1 r2 e1 e2 : let m := p_map p in let n := size m in
  dense m -> one_repr m k (fst x) s1 d1 r1 e1 -> one_repr m k (fst y) s2 d2 r2 e2 -> s1 <> s2 -> n + 20 <= max_usize ->
  bmap_index (tr_one o) i [x; y] p =
    Done ([tt; tt], set_map (put (put m s1 (new_shape d1 (n + 10))) s2 (new_shape d2 (n + 20)) ++ number n (blk n x r1 e1 ++ blk (n + 10) y r2 e2)) p).
Proof.
  intros m n D O1 O2 Hs H. cbn [bmap_index]. unfold bbind, tr_one.
  assert (H1 : size (p_map p) + 10 <= max_usize) by (subst n m; lia).
  rewrite (transform_done p k (fst x) ctx _ (snd x) s1 d1 r1 e1 D O1 H1).
  destruct (after_facts m (fst x) s1 d1 r1 e1 x D H1 O1) as (D1 & S1 & D2 & S2).
  set (p1 := set_map _ p).
  assert (Em : p_map p1 = put m s1 (new_shape d1 (n + 10)) ++ number n (blk n x r1 e1)) by reflexivity.
  assert (O3 : one_repr (p_map p1) k (fst y) s2 d2 r2 e2).
  { rewrite Em. eapply one_repr_put; auto. apply O1. }
  fold n in S2, D2, S1. assert (Sp : size (p_map p1) = n + 10) by (rewrite Em; exact S2).
  rewrite (transform_done p1 k (fst y) ctx _ (snd y) s2 d2 r2 e2); auto.
  - unfold bret. f_equal. f_equal. assert (Hp : forall X, set_map X p1 = set_map X p) by reflexivity. rewrite Hp. f_equal.
    unfold after_tr. rewrite Sp, Em. clear Hp Em O3 Sp. clearbody p1.
    change (tr_block (n + 10) ctx (shift_back t (snd y)) (snd y) (ident e2) r2) with (blk (n + 10) y r2 e2).
    replace (n + 10 + 10) with (n + 20) by lia. fold (new_shape d2 (n + 20)).
    rewrite number_app, app_assoc. f_equal.
    destruct O2 as (_ & L & _ & _).
    assert (L2 : lookup (put m s1 (new_shape d1 (n + 10))) s2 = Some (Ent KProductDefinitionShape d2)).
    { rewrite lookup_put by now apply dense_increasing. assert (E : s2 =? s1 = false) by (apply N.eqb_neq; congruence). now rewrite E. }
    fold n in D1. now rewrite (put_number' _ _ n _ _ _ S1 D2 D1 L2).
  - rewrite Sp. clear - H. lia.
Qed.

Lemma tr_two_room o i p x y s1 s2 d1 d2 r1 r2 e1 e2 cs q :
  dense (p_map p) -> one_repr (p_map p) k (fst x) s1 d1 r1 e1 -> one_repr (p_map p) k (fst y) s2 d2 r2 e2 -> s1 <> s2 ->
  bmap_index (tr_one o) i [x; y] p = Done (cs, q) -> size (p_map p) + 20 <= max_usize.
Proof.
  intros D O1 O2 Hs E. cbn [bmap_index] in E. apply bbind_inv in E as ([] & p1 & E1 & E). apply bbind_inv in E as (c & p2 & E2 & _).
  apply bbind_inv in E2 as ([] & p3 & E2 & _). unfold tr_one in E1, E2.
  pose proof (transform_room _ _ _ _ _ _ _ _ _ _ _ D O1 E1) as H1.
  rewrite (transform_done _ _ _ _ _ _ _ _ _ _ D O1 H1) in E1. injection E1 as <-.
  destruct (after_facts (p_map p) (fst x) s1 d1 r1 e1 x D H1 O1) as (D1 & S1 & D2 & S2).
  assert (H2 : size (after_tr (p_map p) ctx (shift_back t (snd x)) (snd x) s1 d1 r1 e1) + 10 <= max_usize).
  { eapply (transform_room (set_map (after_tr (p_map p) ctx (shift_back t (snd x)) (snd x) s1 d1 r1 e1) p)); [exact D2| |exact E2].
    apply (one_repr_put (p_map p) k (fst y) s2 d2 r2 e2 s1 d1); [exact D|exact Kp|congruence|apply O1|exact O2]. }
  unfold after_tr in H2. change (tr_block (size (p_map p)) ctx (shift_back t (snd x)) (snd x) (ident e1) r1) with (blk (size (p_map p)) x r1 e1) in H2.
  fold (new_shape d1 (size (p_map p) + 10)) in H2. rewrite S2 in H2. clear - H2. lia.
Qed.

Lemma set_at_likes f v v' d : forall j i, Forall2 (fun a b => ren f a = ren idn b) d d -> ren f v = ren idn v' ->
  likes f KProductDefinitionShape i (set_at j v d) (set_at j v' d).
Proof.
  intros j i H Hv. apply likes_ordinary; [intro; reflexivity|]. revert j. generalize H. generalize d at 1 3 as d'. 
  clear H. induction d as [|a d IH]; intros d' H j; inversion H as [|a' ? d0 ? Ha H']; subst; destruct j; cbn [set_at]; constructor; auto.
Qed.

Lemma tr_swap o i p x y l cs q : fair o -> rel idn p p ->
  Forall (fx idn (size (p_map p))) (flat_map n_tr [x; y]) -> singles p (x :: y :: l) ->
  bmap_index (tr_one o) i [x; y] p = Done (cs, q) ->
  exists cs' q' g, bmap_index (tr_one o) i [y; x] p = Done (cs', q') /\ rel g q q' /\ agree idn g (size (p_map p)).
Proof.
  intros Ho R H (ss & F & ND) E. inversion F as [|? s1 ? ss' (d1 & r1 & e1 & O1) F']; subst. inversion F' as [|? s2 ? ss'' (d2 & r2 & e2 & O2) _]; subst.
  assert (Hs : s1 <> s2) by (intros ->; inversion ND as [|? ? Hn _]; subst; apply Hn; now left).
  assert (D : dense (p_map p)) by apply R.
  pose proof (tr_two_room _ _ _ _ _ _ _ _ _ _ _ _ _ _ _ D O1 O2 Hs E) as Hr.
  pose proof (tr_two o i p x y s1 s2 d1 d2 r1 r2 e1 e2 D O1 O2 Hs Hr) as E1. rewrite E in E1. injection E1 as -> ->.
  assert (Hs' : s2 <> s1) by congruence.
  pose proof (tr_two o i p y x s2 s1 d2 d1 r2 r1 e2 e1 D O2 O1 Hs' Hr) as E2.
  do 2 eexists. exists (turn (size (p_map p)) 10). split; [exact E2|]. split; [|apply turn_old].
  assert (H' : Forall (fx idn (size (p_map p))) (flat_map n_tr [y; x])).
  { eapply Permutation_Forall; [|exact H]. apply Permutation_flat_map, perm_swap. }
  destruct (sim_all tr_one n_tr tr_sim o o idn _ Ho Ho _ i i H _ _ _ _ R (N.le_refl _) E) as (? & q1 & Eq1 & Rq1 & _ & _).
  rewrite E in Eq1. injection Eq1 as _ <-.
  destruct (sim_all tr_one n_tr tr_sim o o idn _ Ho Ho _ i i H' _ _ _ _ R (N.le_refl _) E2) as (? & q2 & Eq2 & Rq2 & _ & _).
  rewrite E2 in Eq2. injection Eq2 as _ <-.
  set (m := p_map p) in *. set (n := size m) in *.
  assert (Hc : turn n 10 ctx = ctx) by (apply turn_old; cbn [flat_map n_tr app] in H; rewrite Forall_forall in H; apply (H ctx); right; now left).
  assert (B : forall s e0, lookup m s = Some e0 -> s <= n) by (intros s e0 L; apply (proj1 (dense_lookup _ _ D) (ex_intro _ _ L))).
  assert (Hr1 : turn n 10 r1 = r1) by (apply turn_old; destruct O1 as (_ & _ & _ & L); eapply B; exact L).
  assert (Hr2 : turn n 10 r2 = r2) by (apply turn_old; destruct O2 as (_ & _ & _ & L); eapply B; exact L).
  assert (H10 : n + 10 <= max_usize) by (clear - Hr; lia).
  assert (Sw : forall s s' d d' a a', lookup m s = Some (Ent KProductDefinitionShape d) -> lookup m s' = Some (Ent KProductDefinitionShape d') -> s <> s' ->
     let m2 := put (put m s (new_shape d a)) s' (new_shape d' a') in
     dense m2 /\ size m2 = n /\ forall j, lookup m2 j = if j =? s' then Some (new_shape d' a') else if j =? s then Some (new_shape d a) else lookup m j).
  { intros s s' d d' a a' L L' Hd m2. assert (D1 : dense (put m s (new_shape d a))) by (eapply put_dense; [exact D|exact L]).
    assert (I : increasing m) by now apply dense_increasing. assert (I1 : increasing (put m s (new_shape d a))) by now apply dense_increasing.
    assert (L2 : lookup (put m s (new_shape d a)) s' = Some (Ent KProductDefinitionShape d')).
    { rewrite lookup_put by auto. assert (E0 : s' =? s = false) by (apply N.eqb_neq; congruence). now rewrite E0. }
    split; [eapply put_dense; eauto|]. split.
    - unfold m2. erewrite put_size; eauto. erewrite put_size; eauto.
    - intro j. unfold m2. rewrite !lookup_put by auto. reflexivity. }
  destruct O1 as (O1a & L1 & O1b & L1r). destruct O2 as (O2a & L2 & O2b & L2r).
  destruct (Sw s1 s2 d1 d2 (n + 10) (n + 20) L1 L2 Hs) as (Da & Sa & La).
  destruct (Sw s2 s1 d2 d1 (n + 10) (n + 20) L2 L1 Hs') as (Db & Sb & Lb).
  assert (Od : forall s d, lookup m s = Some (Ent KProductDefinitionShape d) -> Forall2 (fun a b => ren (turn n 10) a = ren idn b) d d).
  { intros s d L. pose proof (wf_refs _ (r_wf _ _ _ R) _ _ _ L) as W. clear - W. induction W as [|v d Hv W IH]; constructor; auto.
    apply (ren_agree idn (turn n 10) n); auto. apply turn_old. }
  eapply (swap_blocks p _ _ n 10 (blk n x r1 e1) (blk (n + 10) y r2 e2) (blk n y r2 e2) (blk (n + 10) x r1 e1)
     (put (put m s1 (new_shape d1 (n + 10))) s2 (new_shape d2 (n + 20))) (put (put m s2 (new_shape d2 (n + 10))) s1 (new_shape d1 (n + 20))));
    try reflexivity; auto; try apply Rq1; try apply Rq2; try (repeat split).
  - apply block_like; auto. intros j Hj. now apply turn_up.
  - apply block_like; auto. intros j Hj. now apply turn_down.
  - intros j e0 Le. rewrite La in Le. rewrite Lb. destruct (N.eqb_spec j s2) as [->|H2].
    + injection Le as <-. assert (E0 : s2 =? s1 = false) by now apply N.eqb_neq. rewrite E0. eexists. split; [reflexivity|].
      split; [reflexivity|]. apply set_at_likes; [eapply Od; eauto|]. unfold ids. cbn [map ren]. do 3 f_equal.
      unfold idn. replace (n + 20) with (n + 10 + 10) by lia. apply turn_down. lia.
    + destruct (N.eqb_spec j s1) as [->|H1].
      * injection Le as <-. eexists. split; [reflexivity|]. split; [reflexivity|]. apply set_at_likes; [eapply Od; eauto|].
        unfold ids. cbn [map ren]. do 3 f_equal. unfold idn. rewrite turn_up by lia. lia.
      * destruct (r_like _ _ _ R _ _ Le) as (e' & L' & He). fold m in L'. unfold idn in L'. rewrite Le in L'. injection L' as <-. exists e0. split; auto.
        eapply (like_agree idn); [apply turn_old|eapply wf_bounded; eauto; apply R|exact He].
Qed.

Lemma tr_perm l l' o o' i i' f p p' cs q : Permutation l l' -> fair o -> fair o' -> rel f p p' ->
  Forall (fx f (size (p_map p))) (flat_map n_tr l) -> singles p l -> bmap_index (tr_one o) i l p = Done (cs, q) ->
  exists cs' q' f', bmap_index (tr_one o') i' l' p' = Done (cs', q') /\ rel f' q q' /\ agree f f' (size (p_map p)) /\
    size (p_map p) <= size (p_map q).
Proof.
  intros P. intros. eapply (perm_all tr_one n_tr singles tr_sim singles_perm singles_rel singles_step tr_swap l l' P o o' i i' f p p' cs q); assumption.
Qed.
End Two.
