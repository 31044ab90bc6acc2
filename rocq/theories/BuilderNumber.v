(** The relations a storey writes are counted from zero. *)

From Coq Require Import String Ascii List NArith ZArith Bool Lia.
From Coq Require Import ZifyBool ZifyNat ZifyN.
From Verif Require Import Base Prims PrimsFacts Kind Types Schema Entity EntityFacts DataMap DataSpec DataMapFacts Extractor
  Float Arith Builder BuilderBase BuilderRun BuilderGrow BuilderAll NumberSpec.
Import ListNotations.
Open Scope N_scope.
Open Scope builder_scope.

(** ** Words and numbers *)

Lemma filter_word (w : text) i : forallb (fun c => negb (is_digit c)) w = true ->
  filter (fun c => negb (is_digit c)) (w ++ show_N i) = w /\ filter is_digit (w ++ show_N i) = show_N i.
Proof.
  intro H. rewrite !filter_app.
  assert (A : forall s, forallb (fun c => negb (is_digit c)) s = true ->
    filter (fun c => negb (is_digit c)) s = s /\ filter is_digit s = []).
  { induction s as [|c s IH]; cbn [forallb filter]; auto. intro Hs. apply andb_true_iff in Hs as [Hc Hs].
    rewrite Hc. destruct (is_digit c); [discriminate|]. destruct (IH Hs) as [-> ->]. auto. }
  assert (D : forall s, forallb is_digit s = true -> filter (fun c => negb (is_digit c)) s = [] /\ filter is_digit s = s).
  { induction s as [|c s IH]; cbn [forallb filter]; auto. intro Hs. apply andb_true_iff in Hs as [Hc Hs].
    rewrite Hc. cbn [negb]. destruct (IH Hs) as [-> ->]. auto. }
  destruct (A w H) as [-> ->]. destruct (D _ (show_N_digits i)) as [-> ->]. now rewrite app_nil_r.
Qed.

Lemma word_letters k w : In (k, w) numbered_words -> forallb (fun c => negb (is_digit c)) (lit w) = true.
Proof. intro H. cbn [numbered_words In] in H. repeat (destruct H as [H|H]; [injection H as <- <-; vm_compute; reflexivity|]). contradiction. Qed.

Lemma word_inj k w k' w' : In (k, w) numbered_words -> In (k', w') numbered_words -> lit w = lit w' -> w = w'.
Proof.
  intros H H' E. cbn [numbered_words In] in H, H'.
  repeat (destruct H as [H|H]; [injection H as <- <-;
    repeat (destruct H' as [H'|H']; [injection H' as <- <-; first [reflexivity|discriminate E]|]); contradiction|]).
  contradiction.
Qed.

Lemma name_inj k w i k' w' i' : In (k, w) numbered_words -> In (k', w') numbered_words ->
  lit w ++ show_N i = lit w' ++ show_N i' -> w = w' /\ i = i'.
Proof.
  intros H H' E. destruct (filter_word _ i (word_letters _ _ H)) as [A1 A2].
  destruct (filter_word _ i' (word_letters _ _ H')) as [B1 B2]. rewrite E in A1, A2. split.
  - eapply word_inj; eauto. congruence.
  - apply show_N_inj. congruence.
Qed.

(** ** Adding objects *)

Definition num_kind (k : kind) : bool := existsb (kind_eqb k) [KRelDefinesByType; KRelVoidsElement; KRelFillsElement].

Lemma numbered_kind k w : In (k, w) numbered_words -> num_kind k = true.
Proof. intro H. cbn [numbered_words In] in H. repeat (destruct H as [H|H]; [injection H as <- <-; reflexivity|]). contradiction. Qed.

Lemma lookup_snoc m n k l : dense m ->
  lookup (m ++ [(size m + 1, Ent k l)]) n = if n =? size m + 1 then Some (Ent k l) else lookup m n.
Proof.
  intro Hd. rewrite lookup_app. cbn [lookup]. rewrite (N.eqb_sym (size m + 1) n).
  destruct (N.eqb_spec n (size m + 1)) as [->|E].
  - destruct (lookup m (size m + 1)) eqn:L; auto. exfalso.
    assert (1 <= size m + 1 <= size m) by (apply dense_lookup; eauto). lia.
  - now destruct (lookup m n).
Qed.

Lemma number_bound m n k w i : dense m -> has_number m n k w i -> 1 <= n <= size m.
Proof. intros Hd (_ & l & H & _). apply dense_lookup; eauto. Qed.

Lemma number_snoc m n k l k' w i : dense m ->
  has_number (m ++ [(size m + 1, Ent k l)]) n k' w i <->
  has_number m n k' w i \/
  (n = size m + 1 /\ k' = k /\ In (k, w) numbered_words /\ nth_error l 2 = Some (VStr (lit w ++ show_N i))).
Proof.
  intro Hd. unfold has_number. rewrite lookup_snoc by auto. split.
  - intros (H1 & l' & H2 & H3). destruct (N.eqb_spec n (size m + 1)); [|left; eauto].
    injection H2 as <- <-. auto.
  - intros [(H1 & l' & H2 & H3)|(-> & -> & H1 & H2)].
    + split; auto. exists l'. destruct (N.eqb_spec n (size m + 1)) as [->|]; auto. exfalso.
      assert (1 <= size m + 1 <= size m) by (apply dense_lookup; eauto). lia.
    + rewrite N.eqb_refl. eauto.
Qed.

Lemma size_snoc m x : size (m ++ [x]) = size m + 1.
Proof. unfold size. rewrite app_length. cbn [length]. lia. Qed.

(** Counted so far, and the last object has a word of [S] if any. *)
Definition upto (S : list (kind * string)) (m : dmap) : Prop :=
  dense m /\ counted m /\ forall k w i, has_number m (size m) k w i -> In (k, w) S.

Lemma upto_other S m k l : num_kind k = false -> upto S m -> dense (m ++ [(size m + 1, Ent k l)]) ->
  upto [] (m ++ [(size m + 1, Ent k l)]).
Proof.
  intros Hk (Hd & Hc & Hs) Hd'. split; [exact Hd'|].
  assert (X : forall n k' w i, has_number (m ++ [(size m + 1, Ent k l)]) n k' w i <-> has_number m n k' w i).
  { intros n k' w i. rewrite number_snoc by auto. split; [|auto]. intros [H|(_ & _ & H & _)]; auto.
    apply numbered_kind in H. congruence. }
  split.
  - intros n k' w i H. apply X in H. destruct (Hc _ _ _ _ H) as [[-> H1]|[H1 H2]]; [left|right]; split; auto.
    + intros j Hj. apply X in Hj. exact (H1 j Hj).
    + now apply X.
  - intros k' w i H. apply X in H. rewrite size_snoc in H. apply number_bound in H; auto. lia.
Qed.

Lemma upto_number S m k w i l :
  In (k, w) numbered_words -> nth_error l 2 = Some (VStr (lit w ++ show_N i)) ->
  upto S m -> dense (m ++ [(size m + 1, Ent k l)]) ->
  (i = 0 /\ ~ In (k, w) S) \/ (0 < i /\ has_number m (size m) k w (i - 1)) ->
  upto [(k, w)] (m ++ [(size m + 1, Ent k l)]) /\
  has_number (m ++ [(size m + 1, Ent k l)]) (size m + 1) k w i.
Proof.
  intros Hw Hl (Hd & Hc & Hs) Hd' Hi.
  assert (Z : forall k' w' j, In (k', w') numbered_words -> nth_error l 2 = Some (VStr (lit w' ++ show_N j)) -> w' = w /\ j = i).
  { intros k' w' j H1 H2. rewrite Hl in H2. injection H2 as H2. symmetry in H2. exact (name_inj _ _ _ _ _ _ H1 Hw H2). }
  split; [|apply number_snoc; auto]. split; [exact Hd'|]. split.
  - intros n k' w' j H. apply number_snoc in H as [H|(-> & -> & H1 & H2)]; auto.
    + pose proof (number_bound _ _ _ _ _ Hd H) as Hb. destruct (Hc _ _ _ _ H) as [[-> H1]|[H1 H2]]; [left|right]; split; auto.
      * intros j Hj. apply number_snoc in Hj as [Hj|(E & _)]; auto; [exact (H1 j Hj)|lia].
      * apply number_snoc; auto.
    + destruct (Z _ _ _ H1 H2) as [-> ->]. replace (size m + 1 - 1) with (size m) by lia.
      destruct Hi as [[-> Hi]|[Hi1 Hi2]]; [left|right]; split; auto.
      * intros j Hj. apply number_snoc in Hj as [Hj|(E & _)]; auto; [exact (Hi (Hs _ _ _ Hj))|lia].
      * apply number_snoc; auto.
  - intros k' w' j H. rewrite size_snoc in H. apply number_snoc in H as [H|(_ & -> & H1 & H2)]; auto.
    + apply number_bound in H; auto. lia.
    + destruct (Z _ _ _ H1 H2) as [-> _]. now left.
Qed.

Lemma upto_weaken S S' m : (forall x, In x S -> In x S') -> upto S m -> upto S' m.
Proof. intros H (H1 & H2 & H3). split; auto. split; auto. intros k w i Hn. apply H. eauto. Qed.

(** ** Calls that write none *)

Definition plain (k : kind) : bool := negb (num_kind k).
Definition keeps (p p' : proj) : Prop := upto [] (p_map p) -> upto [] (p_map p').

Global Instance keeps_pre : preorder keeps.
Proof. split; unfold keeps; auto. Qed.

Lemma keeps_modify n v : steps keeps (modify KProductDefinitionShape n (set_at 2 v)).
Proof.
  intros p u p' H (Hd & Hc & Hs).
  destruct (grow_modify anything n v p u p' H Hd) as (Hd' & _).
  apply modify_inv in H as (l & Hl & ->). cbn [set_map p_map] in *.
  assert (X : forall x k w i, has_number (put (p_map p) n (Ent KProductDefinitionShape (set_at 2 v l))) x k w i <-> has_number (p_map p) x k w i).
  { intros x k w i. unfold has_number. rewrite lookup_put by auto using dense_increasing.
    destruct (N.eqb_spec x n) as [->|E]; [|reflexivity]. rewrite Hl.
    split; intros (Hw & l' & E' & _); injection E' as <- _; apply numbered_kind in Hw; discriminate Hw. }
  assert (Y : size (put (p_map p) n (Ent KProductDefinitionShape (set_at 2 v l))) = size (p_map p)).
  { rewrite (put_present _ _ _ _ (dense_increasing _ Hd) Hl). unfold size. now rewrite map_length. }
  split; [exact Hd'|]. split.
  - intros x k w i H. apply X in H. destruct (Hc _ _ _ _ H) as [[-> H1]|[H1 H2]]; [left|right]; split; auto.
    + intros j Hj. apply X in Hj. exact (H1 j Hj).
    + now apply X.
  - intros k w i H. rewrite Y in H. apply X in H. eauto.
Qed.

Lemma keeps_ins k l : plain k = true -> steps keeps (ins k l).
Proof.
  intros Hk p n p' H Hu. apply ins_inv in H as (-> & _ & -> & Hd); [|apply Hu]. cbn [set_map p_map] in *.
  apply (upto_other []); auto. unfold plain in Hk. now destruct (num_kind k).
Qed.

Global Instance keeps_closed : closed plain keeps.
Proof.
  split; [apply keeps_pre|apply keeps_ins|]. intros p t p' H. injection H as <- <-. exact (fun H => H).
Qed.
Global Instance keeps_with_modify : with_modify keeps.
Proof. split. apply keeps_modify. Qed.
Global Instance keeps_with_assoc : with_assoc keeps.
Proof. split. intros l p H. exact H. Qed.
Global Instance keeps_with_sites : with_sites keeps.
Proof. split. intros l p H. exact H. Qed.

Lemma plain_simple k : simple_kind k = true -> plain k = true.
Proof. unfold plain. destruct k; intro H; first [reflexivity|discriminate H]. Qed.

(** ** Calls that only ask the oracle *)

Definition same_map (p p' : proj) : Prop := p_map p' = p_map p.
Definition nothing (k : kind) : bool := false.
Global Instance same_pre : preorder same_map.
Proof. split; unfold same_map; congruence. Qed.
Global Instance same_closed : closed nothing same_map.
Proof. split; [apply same_pre|discriminate|]. intros p t p' H. injection H as <- <-. reflexivity. Qed.

Section Loops.
Variable o : oracle.

Lemma same_owned n p a p' : owned o n p = Done (a, p') -> p_map p' = p_map p.
Proof. exact (@st_owned nothing same_map same_closed o n p a p'). Qed.
Lemma same_root n p a p' : root o n p = Done (a, p') -> p_map p' = p_map p.
Proof. exact (@st_root nothing same_map same_closed o n p a p'). Qed.
Lemma same_walk n p a p' : walk o n p = Done (a, p') -> p_map p' = p_map p.
Proof. exact (@st_walk nothing same_map same_closed o n p a p'). Qed.
Lemma same_walk_pairs {X} (n : list (N * X)) p a p' : walk_pairs o n p = Done (a, p') -> p_map p' = p_map p.
Proof. exact (@st_walk_pairs nothing same_map same_closed o X n p a p'). Qed.

Lemma owned_name n p a p' : owned o n p = Done (a, p') -> nth_error a 2 = Some (VStr n) /\ length a = 4%nat.
Proof.
  intro H. unfold owned in H. apply bbind_inv in H as (g & q & _ & H). apply bbind_inv in H as (q1 & q2 & _ & H).
  apply bret_inv in H as [-> _]. auto.
Qed.

(** One relation is written, with this name. *)
Definition writes {X} (k : kind) (w : string) (f : N -> X -> B N) : Prop :=
  forall i x p n p', dense (p_map p) -> f i x p = Done (n, p') ->
    exists l, nth_error l 2 = Some (VStr (lit w ++ show_N i)) /\
      p_map p' = p_map p ++ [(size (p_map p) + 1, Ent k l)] /\ dense (p_map p').

Lemma loop_from {X} k w (f : N -> X -> B N) : In (k, w) numbered_words -> writes k w f -> forall l S i p a p',
  upto S (p_map p) -> (i = 0 /\ ~ In (k, w) S) \/ (0 < i /\ has_number (p_map p) (size (p_map p)) k w (i - 1)) ->
  bmap_index f i l p = Done (a, p') -> upto ((k, w) :: S) (p_map p').
Proof.
  intros Hw Hf l. induction l as [|x l IH]; intros S i p a p' Hu Hi H; cbn [bmap_index] in H.
  - apply bret_inv in H as [_ ->]. eapply upto_weaken; [|exact Hu]. now right.
  - apply bbind_inv in H as (n & q & H1 & H). apply bbind_inv in H as (ns & q' & H2 & H). apply bret_inv in H as [_ ->].
    destruct (Hf _ _ _ _ _ (proj1 Hu) H1) as (r & Hr & Em & Hd). rewrite Em in Hd.
    destruct (upto_number S _ k w i r Hw Hr Hu Hd Hi) as [U Hn]. rewrite <- Em in U, Hn.
    apply (IH [(k, w)] (i + 1) q ns q') in H2; auto.
    + eapply upto_weaken; [|exact H2]. intros y [<-|[<-|[]]]; now left.
    + right. split; [lia|]. replace (i + 1 - 1) with i by lia. rewrite Em at 2. now rewrite size_snoc.
Qed.

Lemma loop {X} k w (f : N -> X -> B N) l S p a p' : In (k, w) numbered_words -> writes k w f ->
  upto S (p_map p) -> ~ In (k, w) S -> bmap_index f 0 l p = Done (a, p') -> upto ((k, w) :: S) (p_map p').
Proof. intros Hw Hf Hu Hs H. eapply loop_from; eauto. Qed.

Lemma name_app a (r : list val) n : nth_error a 2 = Some (VStr n) -> nth_error (a ++ r) 2 = Some (VStr n).
Proof. destruct a as [|? [|? [|? ?]]]; try discriminate. auto. Qed.

Lemma type_upto c w st S p a p' : In (KRelDefinesByType, w) numbered_words -> ~ In (KRelDefinesByType, w) S ->
  upto S (p_map p) -> type_relations o c (lit w) st p = Done (a, p') -> upto ((KRelDefinesByType, w) :: S) (p_map p').
Proof.
  intros Hw Hs Hu H. unfold type_relations in H. apply bbind_inv in H as (ts & q & H1 & H2).
  apply same_walk_pairs in H1. rewrite <- H1 in Hu. revert Hu Hs H2. apply loop; auto.
  intros i x p0 n p1 Hd H. apply bbind_inv in H as (r & q1 & R1 & H). apply bbind_inv in H as (y & q2 & R2 & H).
  apply owned_name in R1 as Rn. apply same_owned in R1. apply same_walk in R2. rewrite <- R1, <- R2 in *.
  apply ins_inv in H as (-> & _ & -> & D); auto. eexists. split; [|split; [reflexivity|exact D]].
  apply name_app, Rn.
Qed.

Lemma void_upto w vs S p a p' : In (KRelVoidsElement, w) numbered_words -> ~ In (KRelVoidsElement, w) S ->
  upto S (p_map p) -> void_relations o (lit w) vs p = Done (a, p') -> upto ((KRelVoidsElement, w) :: S) (p_map p').
Proof.
  intros Hw Hs Hu H. unfold void_relations in H. apply bbind_inv in H as (ts & q & H1 & H2).
  apply same_walk_pairs in H1. rewrite <- H1 in Hu. revert Hu Hs H2. apply loop; auto.
  intros i x p0 n p1 Hd H. apply bbind_inv in H as (r & q1 & R1 & H).
  apply owned_name in R1 as Rn. apply same_owned in R1. rewrite <- R1 in *.
  apply ins_inv in H as (-> & _ & -> & D); auto. eexists. split; [|split; [reflexivity|exact D]].
  apply name_app, Rn.
Qed.

Lemma fill_upto st S p a p' : ~ In (KRelFillsElement, "OpeningElementToWindow"%string) S ->
  upto S (p_map p) -> fill_relations o st p = Done (a, p') ->
  upto ((KRelFillsElement, "OpeningElementToWindow"%string) :: S) (p_map p').
Proof.
  intros Hs Hu H. unfold fill_relations in H. apply bbind_inv in H as (ts & q & H1 & H2).
  apply same_walk_pairs in H1. rewrite <- H1 in Hu. revert Hu Hs H2. apply loop; [cbn; auto 10|].
  intros i x p0 n p1 Hd H. apply bbind_inv in H as (r & q1 & R1 & H).
  apply owned_name in R1 as Rn. apply same_owned in R1. rewrite <- R1 in *.
  apply ins_inv in H as (-> & _ & -> & D); auto. eexists. split; [|split; [reflexivity|exact D]].
  apply name_app, Rn.
Qed.

Lemma aggregate_upto n a l : steps keeps (aggregate o n a l).
Proof.
  unfold aggregate. apply steps_bind; [typeclasses eauto|apply (@st_walk plain keeps keeps_closed)|intro].
  apply steps_bind; [typeclasses eauto|apply (@st_root plain keeps keeps_closed)|intro]. now apply keeps_ins.
Qed.

Lemma drop_storey_upto st : steps keeps (drop_storey o st).
Proof.
  intros p u p' H Hu. unfold drop_storey in H.
  apply bbind_inv in H as (r & q0 & H0 & H). apply same_owned in H0. rewrite <- H0 in Hu. clear H0.
  apply bbind_inv in H as (a1 & q1 & H1 & H). apply (type_upto _ "WallTypeToWall" _ []) in H1; [|cbn; auto 10|cbn; tauto|exact Hu].
  apply bbind_inv in H as (x1 & q2 & H2 & H). apply same_walk in H2. rewrite <- H2 in H1. clear H2.
  apply bbind_inv in H as (a2 & q3 & H2 & H). eapply (type_upto _ "SlabTypeToSlab") in H2; [|cbn; auto 10| |exact H1]; [|cbn; intuition congruence].
  apply bbind_inv in H as (x2 & q4 & H3 & H). apply same_walk in H3. rewrite <- H3 in H2. clear H3.
  apply bbind_inv in H as (a3 & q5 & H3 & H). eapply (type_upto _ "RoofTypeToRoof") in H3; [|cbn; auto 10| |exact H2]; [|cbn; intuition congruence].
  apply bbind_inv in H as (x3 & q6 & H4 & H). apply same_walk in H4. rewrite <- H4 in H3. clear H4.
  apply bbind_inv in H as (a4 & q7 & H4 & H). eapply (void_upto "OpeningElementToWall") in H4; [|cbn; auto 10| |exact H3]; [|cbn; intuition congruence].
  apply bbind_inv in H as (a5 & q8 & H5 & H). eapply (void_upto "OpeningElementToSlab") in H5; [|cbn; auto 10| |exact H4]; [|cbn; intuition congruence].
  apply bbind_inv in H as (a6 & q9 & H6 & H). eapply (type_upto _ "WindowTypeToWindow") in H6; [|cbn; auto 10| |exact H5]; [|cbn; intuition congruence].
  apply bbind_inv in H as (a7 & q10 & H7 & H). eapply fill_upto in H7; [| |exact H6]; [|cbn; intuition congruence].
  apply bbind_inv in H as (x4 & q11 & H8 & H). apply same_walk in H8. rewrite <- H8 in H7. clear H8.
  apply bbind_inv in H as (a8 & q12 & H8 & H). eapply (type_upto _ "ShadingDeviceTypeToShadingDevice") in H8; [|cbn; auto 10| |exact H7]; [|cbn; intuition congruence].
  apply bbind_inv in H as (x5 & q13 & H9 & H). apply same_walk in H9. rewrite <- H9 in H8. clear H9.
  apply bbind_inv in H as (c & q14 & H9 & H). apply ins_inv in H9 as (-> & _ & -> & D); [|apply H8].
  apply bbind_inv in H as (b & q15 & H9 & H). apply bret_inv in H as [_ ->].
  eapply aggregate_upto; [exact H9|]. cbn [set_map p_map] in *. eapply upto_other; [reflexivity|exact H8|exact D].
Qed.

Lemma step_upto w x : steps keeps (step o w x).
Proof.
  pose proof plain_simple as Hq.
  assert (HS : match x with ORelate _ _ => plain KRelDefinesByProperties = true | _ => True end) by (destruct x; reflexivity || exact I).
  destruct w, x; cbn [step]; repeat first
    [ one
    | (apply (st_storey_step (A := plain) Hq); try exact HS) | apply (st_host_step (A := plain) Hq)
    | apply (st_new_site (A := plain) Hq) | apply (st_new_building (A := plain) Hq)
    | apply (st_new_storey (A := plain) Hq) | apply (st_new_wall (A := plain) Hq)
    | apply (st_new_slab (A := plain) Hq) | apply (st_drop_host (A := plain) Hq)
    | apply (st_single_property (A := plain) Hq) | apply (st_property_set (A := plain) Hq)
    | apply (st_relate_properties (A := plain) _ _ _ eq_refl) | apply drop_storey_upto
    | apply aggregate_upto ].
  all: first [exact I|typeclasses eauto].
Qed.

Lemma run_upto xs : forall w, steps keeps (run o w xs).
Proof.
  induction xs as [|x xs IH]; intro w; cbn [run]; [apply steps_ret; pre|].
  apply steps_bind; [pre|apply step_upto|]. intros [w' a]. apply steps_bind; [pre|apply IH|].
  intros [w'' l]. apply steps_ret. pre.
Qed.

Lemma build_upto : steps keeps (build o).
Proof.
  unfold build. repeat first [one|apply aggregate_upto|apply (@st_walk_pairs plain keeps keeps_closed)].
Qed.

Lemma program_counted i xs ls r : program o i xs = Done (ls, r) -> counted (p_map r).
Proof.
  intro H. apply program_inv in H as (p & w & q & H1 & H2 & -> & H3).
  assert (U0 : upto [] (p_map p)).
  { apply start_done in H1 as (oh & n & p0 & E & ->). cbn [p_map].
    refine (@st_new_project plain keeps _ plain_simple o i _ _ _ _ E _).
    - intros k Hk. destruct k; first [reflexivity|discriminate Hk].
    - split; [apply dense_nil|]. split; [intros x k w j (_ & l & L & _); discriminate L|].
      intros k w j (_ & l & L & _); discriminate L. }
  apply run_upto in H2. apply build_upto in H3. exact (proj1 (proj2 (H3 (H2 U0)))).
Qed.

End Loops.
