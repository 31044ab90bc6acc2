(** Facts about the queries of the extractor. *)

From Coq Require Import String Ascii List NArith ZArith Bool Lia ZifyBool ZifyN ZifyNat Sorted.
From Verif Require Import Base Kind Types Schema Entity DataMap DataSpec Header File HeaderSpec FileSpec Extractor ExtractorSpec
  TypesFacts TypesFacts2 EntityFacts DataMapFacts SectionFacts HeaderFacts FileFacts FileFacts2.
Import ListNotations.
Open Scope N_scope.

(** ** Collecting *)

Definition done_or {A} (d : A) (x : outcome A) : A := match x with Done a => a | _ => d end.

Lemma collect_done {A B} (f : A -> outcome (list B)) l y : collect f l = Done y ->
  y = flat_map (fun a => done_or [] (f a)) l /\ forall a, In a l -> exists x, f a = Done x.
Proof.
  revert y. induction l as [|a l IH]; intros y H; cbn [collect flat_map] in *.
  - injection H as <-. split; auto. intros a [].
  - destruct (f a) as [x| |] eqn:E; try discriminate. destruct (collect f l) as [z| |]; try discriminate.
    injection H as <-. destruct (IH z eq_refl) as [-> Hl]. split; auto.
    intros b [<-|Hb]; eauto.
Qed.

Lemma collect_fails {A B} (f : A -> outcome (list B)) l :
  (forall a, In a l -> f a <> Err) ->
  collect f l <> Err /\ (collect f l = Panic <-> exists a, In a l /\ f a = Panic).
Proof.
  induction l as [|a l IH]; intro H; cbn [collect].
  - split; [discriminate|]. split; [discriminate|intros (a & [] & _)].
  - destruct IH as [I1 I2]; [intros b Hb; apply H; now right|].
    pose proof (H a (or_introl eq_refl)) as Ha.
    destruct (f a) as [x| |] eqn:E; [|contradiction|].
    + destruct (collect f l) as [z| |] eqn:C; [|contradiction|].
      * split; [discriminate|]. split; [discriminate|]. intros (b & [<-|Hb] & Hp); [congruence|].
        assert (Done z = Panic) by (apply I2; eauto). discriminate.
      * split; [discriminate|]. split; auto. intros _. destruct (proj1 I2 eq_refl) as (b & Hb & Hp).
        exists b. split; auto. now right.
    + split; [discriminate|]. split; auto. intros _. exists a. split; auto. now left.
Qed.

Lemma collect_total {A B} (f : A -> outcome (list B)) l :
  (forall a, In a l -> f a <> Err) -> ~ (exists a, In a l /\ f a = Panic) ->
  collect f l = Done (flat_map (fun a => done_or [] (f a)) l).
Proof.
  intros H1 H2. destruct (collect_fails f l H1) as [E P]. destruct (collect f l) as [y| |] eqn:C.
  - apply collect_done in C as [-> _]. reflexivity.
  - contradiction.
  - exfalso. tauto.
Qed.

(** ** Places *)

Fixpoint tagged (r : N) (i : nat) (l : list (option N)) : list ((N * nat) * N) :=
  match l with
  | [] => []
  | Some c :: l' => ((r, i), c) :: tagged r (S i) l'
  | None :: l' => tagged r (S i) l'
  end.

Definition somes {A} (l : list (option A)) : list A :=
  flat_map (fun o => match o with Some a => [a] | None => [] end) l.

Lemma tagged_snd r l : forall i, map snd (tagged r i l) = somes l.
Proof.
  induction l as [|[c|] l IH]; intro i; cbn [tagged somes flat_map map app]; auto.
  rewrite IH. reflexivity.
Qed.

Lemma tagged_In r l : forall i r' j c, In ((r', j), c) (tagged r i l) <->
  r' = r /\ (i <= j)%nat /\ nth_error l (j - i) = Some (Some c).
Proof.
  induction l as [|o l IH]; intros i r' j c.
  - cbn. split; [intros []|]. intros (_ & _ & H). destruct (j - i)%nat; discriminate.
  - assert (S : In ((r', j), c) (tagged r (S i) l) <-> r' = r /\ (i < j)%nat /\ nth_error (o :: l) (j - i) = Some (Some c)).
    { rewrite IH. split; intros (-> & Hj & H).
      - split; auto. split; [lia|]. now replace (j - i)%nat with (S (j - S i)) by lia.
      - split; auto. split; [lia|]. now replace (j - i)%nat with (S (j - S i)) in H by lia. }
    destruct o as [d|]; cbn [tagged In].
    + rewrite S. split.
      * intros [E|(-> & Hj & H)]; [|split; auto; split; auto; lia].
        injection E as <- <- <-. split; auto. split; auto. now rewrite Nat.sub_diag.
      * intros (-> & Hj & H). destruct (Nat.eq_dec i j) as [E|E].
        -- subst j. rewrite Nat.sub_diag in H. injection H as <-. now left.
        -- right. split; auto. split; auto. lia.
    + rewrite S. split; intros (-> & Hj & H); (split; [auto|]); (split; [|auto]); [lia|].
      destruct (Nat.eq_dec i j) as [E|E]; [|lia]. subst j. rewrite Nat.sub_diag in H. discriminate.
Qed.

Lemma sorted_app {A} (R : A -> A -> Prop) a b :
  StronglySorted R a -> StronglySorted R b -> (forall x y, In x a -> In y b -> R x y) ->
  StronglySorted R (a ++ b).
Proof.
  intros Ha Hb H. induction Ha as [|x a Ha IH Hf]; cbn [app]; auto.
  constructor.
  - apply IH. intros y z Hy Hz. apply H; auto. now right.
  - apply Forall_app. split; auto. apply Forall_forall. intros z Hz. apply H; auto. now left.
Qed.

Lemma tagged_sorted r l : forall i, StronglySorted earlier (map fst (tagged r i l)).
Proof.
  induction l as [|[c|] l IH]; intro i; cbn [tagged map]; auto; try constructor; auto.
  apply Forall_forall. intros [r' j] H. apply in_map_iff in H as ([[r'' j'] c'] & E & H).
  cbn in E. injection E as -> ->. apply tagged_In in H as (-> & Hj & _). right. cbn. auto.
Qed.

Lemma lists_flat {B} (rels : list (N * B)) (g : B -> list (option N)) :
  StronglySorted N.lt (map fst rels) ->
  lists (fun r i c => exists b, In (r, b) rels /\ nth_error (g b) i = Some (Some c))
    (flat_map (fun p => somes (g (snd p))) rels).
Proof.
  induction rels as [|[r b] rels IH]; intro H.
  - exists []. split; auto. split; [constructor|]. intros r i c. split; [intros []|intros (b & [] & _)].
  - cbn [map fst] in H. apply StronglySorted_inv in H as [Hs Hf]. destruct (IH Hs) as (ps & Hp & Ho & Hi).
    exists (tagged r 0 (g b) ++ ps). split; [|split].
    + rewrite map_app, tagged_snd, Hp. reflexivity.
    + rewrite map_app. apply sorted_app; auto; [apply tagged_sorted|].
      intros [r1 i1] [r2 i2] H1 H2. apply in_map_iff in H1 as ([[? ?] c1] & E1 & H1).
      apply in_map_iff in H2 as ([[? ?] c2] & E2 & H2). cbn in E1, E2. injection E1 as -> ->. injection E2 as -> ->.
      apply tagged_In in H1 as (-> & _ & _). apply Hi in H2 as (b2 & H2 & _). left. cbn.
      rewrite Forall_forall in Hf. apply Hf. apply in_map_iff. exists (r2, b2). auto.
    + intros r' i c. rewrite in_app_iff, tagged_In, Hi, Nat.sub_0_r. split.
      * intros [(-> & _ & H)|(b' & H & H')].
        -- exists b. split; auto. now left.
        -- exists b'. split; auto. now right.
      * intros (b' & [E|H] & H').
        -- injection E as <- <-. left. split; auto. split; auto. lia.
        -- right. exists b'. auto.
Qed.

Lemma lists_iff (P Q : N -> nat -> N -> Prop) l :
  (forall r i c, P r i c <-> Q r i c) -> lists P l -> lists Q l.
Proof.
  intros H (ps & H1 & H2 & H3). exists ps. split; auto. split; auto. intros r i c. now rewrite H3.
Qed.

Lemma sorted_filter {B} (f : N * B -> bool) rels :
  StronglySorted N.lt (map fst rels) -> StronglySorted N.lt (map fst (filter f rels)).
Proof.
  induction rels as [|p rels IH]; intro H; cbn [filter map]; auto.
  cbn [map] in H. apply StronglySorted_inv in H as [Hs Hf]. destruct (f p); cbn [map]; auto.
  constructor; auto. rewrite Forall_forall in *. intros x Hx. apply Hf.
  apply in_map_iff in Hx as (q & <- & Hq). apply filter_In in Hq as [Hq _]. now apply in_map.
Qed.

(** ** Attributes *)

Lemma attr_id_spec l i n : attr_id l i = Some n <-> holds_id l i n.
Proof.
  unfold attr_id, holds_id. destruct (nth_error l i) as [[]|]; split; intro H; try discriminate; now injection H as ->.
Qed.

Lemma is_attr_spec l i n : is_attr l i n = true <-> holds_id l i n.
Proof.
  unfold is_attr. rewrite <- attr_id_spec. destruct (attr_id l i) as [k|]; [|split; discriminate].
  rewrite N.eqb_eq. split; [now intros ->|now intros [= ->]].
Qed.

Definition id_val (v : val) : option N := match v with VId n => Some n | _ => None end.
Definition attr_vals (l : list val) (i : nat) : list val :=
  match nth_error l i with Some (VList vs) => vs | _ => [] end.

Lemma attr_ids_somes l i : attr_ids l i = somes (map id_val (attr_vals l i)).
Proof.
  unfold attr_ids, attr_vals. destruct (nth_error l i) as [[]|]; auto. unfold somes, val_ids.
  rewrite flat_map_concat_map, flat_map_concat_map, map_map. f_equal. apply map_ext. now intros [].
Qed.

Lemma attr_vals_spec l i j n : nth_error (attr_vals l i) j = Some (VId n) <-> holds_at l i j n.
Proof.
  unfold attr_vals, holds_at. destruct (nth_error l i) as [[]|] eqn:E;
    try (split; [destruct j; discriminate|intros (vs & [=] & _)]).
  split; [eauto|]. intros (vs & [= ->] & H). exact H.
Qed.

Lemma id_val_some v n : id_val v = Some n <-> v = VId n.
Proof. destruct v; cbn; split; intro H; try discriminate; now injection H as ->. Qed.

Lemma nth_map_id vs j n : nth_error (map id_val vs) j = Some (Some n) <-> nth_error vs j = Some (VId n).
Proof.
  rewrite nth_error_map. destruct (nth_error vs j) as [v|]; cbn; [|split; discriminate].
  split; intro H; injection H as H; [apply id_val_some in H; now rewrite H|now rewrite H].
Qed.

Lemma attr_ids_In l i n : In n (attr_ids l i) <-> exists j, holds_at l i j n.
Proof.
  rewrite attr_ids_somes. unfold somes. rewrite in_flat_map. split.
  - intros ([c|] & H & Hn); [|destruct Hn]. destruct Hn as [->|[]].
    apply In_nth_error in H as (j & H). exists j. now apply attr_vals_spec, nth_map_id.
  - intros (j & H). apply attr_vals_spec, nth_map_id in H. exists (Some n). split; [|now left].
    eapply nth_error_In; eauto.
Qed.

Lemma in_attr_spec l i n : in_attr l i n = true <-> exists j, holds_at l i j n.
Proof.
  unfold in_attr. rewrite existsb_exists, <- attr_ids_In. split.
  - intros (x & Hx & E). apply N.eqb_eq in E as ->. exact Hx.
  - intro H. exists n. split; auto. apply N.eqb_refl.
Qed.

Lemma find_all_is_a k m n l : increasing m -> (In (n, l) (find_all_of_type k m) <-> is_a m k n l).
Proof.
  intro Hi. rewrite find_all_spec. unfold is_a. split.
  - now apply In_lookup.
  - now apply lookup_In.
Qed.

Lemma field_id_In l i n : In n (field_id l i) <-> holds_id l i n.
Proof.
  unfold field_id. rewrite <- attr_id_spec. destruct (attr_id l i) as [k|]; cbn; split; try tauto; try discriminate.
  - now intros [->|[]].
  - intros [= ->]. auto.
Qed.

(** ** Looking up *)

Lemma downcast_no_err k m n : downcast k m n <> Err.
Proof. unfold downcast, get_untyped. destruct (lookup m n) as [[]|]; discriminate. Qed.

Lemma downcast_panic k m n : downcast k m n = Panic <-> lookup m n = None.
Proof. unfold downcast, get_untyped. destruct (lookup m n) as [[]|]; split; congruence. Qed.

Lemma downcast_done k m n x : downcast k m n = Done x ->
  (x = [] /\ forall l, ~ is_a m k n l) \/ exists l, x = [(n, l)] /\ is_a m k n l.
Proof.
  unfold downcast, get_untyped, is_a. destruct (lookup m n) as [[k' l|s]|]; intro H; try discriminate.
  - injection H as <-. destruct (kind_eqb k' k) eqn:E.
    + apply kind_eqb_eq in E as ->. right. eauto.
    + left. split; auto. intros l' [= -> ->]. assert (kind_eqb k k = true) by (now apply kind_eqb_eq). congruence.
  - injection H as <-. left. split; auto. intros l [=].
Qed.

Lemma get_no_err k m n : get k m n <> Err.
Proof. unfold get. destruct (lookup m n) as [[k' l|]|]; try discriminate. destruct (kind_eqb k' k); discriminate. Qed.

Lemma get_is_a k m n l : get k m n = Done l <-> is_a m k n l.
Proof. apply get_spec. Qed.

Lemma get_panics k m n : get k m n = Panic <-> forall l, ~ is_a m k n l.
Proof.
  split.
  - intros H l Hl. apply get_is_a in Hl. congruence.
  - intro H. now apply get_panic.
Qed.

Lemma with_id_no_err k m n : get_with_id k m n <> Err.
Proof. unfold get_with_id. pose proof (get_no_err k m n). destruct (get k m n); congruence. Qed.

Lemma with_id_panics k m n : get_with_id k m n = Panic <-> forall l, ~ is_a m k n l.
Proof.
  rewrite <- get_panics. unfold get_with_id. destruct (get k m n); split; congruence.
Qed.

Lemma with_id_done k m n x : get_with_id k m n = Done x -> exists l, x = [(n, l)] /\ is_a m k n l.
Proof.
  unfold get_with_id. destruct (get k m n) as [l| |] eqn:E; intro H; try discriminate. injection H as <-.
  exists l. split; auto. now apply get_is_a.
Qed.

(** ** A relation that has a list of places *)

(** [f] looks up the objects of one place: nothing, or the object of this id. *)
Definition looks (f : N -> outcome (list (N * list val))) : Prop :=
  forall c x, f c = Done x -> x = [] \/ exists a, x = [(c, a)].

Lemma map_flat {A B C} (f : B -> C) (g : A -> list B) l : map f (flat_map g l) = flat_map (fun a => map f (g a)) l.
Proof. rewrite !flat_map_concat_map, concat_map, map_map. reflexivity. Qed.

Definition keep (f : N -> outcome (list (N * list val))) (v : val) : option N :=
  match v with
  | VId c => match done_or [] (f c) with [] => None | _ => Some c end
  | _ => None
  end.

Lemma flat_somes (f : N -> outcome (list (N * list val))) vs : looks f ->
  (forall c, In c (somes (map id_val vs)) -> exists x, f c = Done x) ->
  map fst (flat_map (fun c => done_or [] (f c)) (somes (map id_val vs))) =
  somes (map (keep f) vs).
Proof.
  intros Hf. induction vs as [|v vs IH]; intro H; auto.
  cbn [map somes flat_map] in *. unfold somes in *. rewrite flat_map_app, map_app, IH.
  - f_equal. destruct v; cbn [id_val keep flat_map map app]; auto. rewrite app_nil_r.
    destruct (H n) as [x Hx]; [cbn; auto|]. rewrite Hx. cbn [done_or].
    destruct (Hf n x Hx) as [->|(a & ->)]; reflexivity.
  - intros c Hc. apply H. apply in_or_app. now right.
Qed.

Lemma collect_lists (f : N -> outcome (list (N * list val))) (g : list val -> list val) rels l : looks f ->
  StronglySorted N.lt (map fst rels) ->
  collect (fun p => collect f (somes (map id_val (g (snd p))))) rels = Done l ->
  lists (fun r i c => exists b, In (r, b) rels /\ nth_error (g b) i = Some (VId c) /\ exists a, f c = Done [(c, a)])
    (map fst l) /\
  (forall c a, In (c, a) l -> f c = Done [(c, a)]).
Proof.
  intros Hf Hs H. apply collect_done in H as [-> Hd].
  assert (D : forall p, In p rels -> forall c, In c (somes (map id_val (g (snd p)))) -> exists x, f c = Done x).
  { intros p Hp c Hc. destruct (Hd p Hp) as [x Hx]. apply collect_done in Hx as [_ Hx]. auto. }
  split.
  - rewrite map_flat.
    assert (E : flat_map (fun p => map fst (done_or [] (collect f (somes (map id_val (g (snd p))))))) rels =
      flat_map (fun p => somes ((fun b => map (keep f) (g b)) (snd p))) rels).
    { rewrite !flat_map_concat_map. f_equal. apply map_ext_in. intros p Hp.
      destruct (Hd p Hp) as [x Hx]. rewrite Hx. cbn [done_or]. apply collect_done in Hx as [-> _].
      apply flat_somes; [exact Hf|exact (D p Hp)]. }
    rewrite E. eapply lists_iff; [|exact (lists_flat rels (fun b => map (keep f) (g b)) Hs)].
    intros r i c. cbn beta. split; intros (b & Hb & H).
    + exists b. split; auto. rewrite nth_error_map in H.
      destruct (nth_error (g b) i) as [v|] eqn:Ev; [|discriminate]. cbn in H. injection H as H.
      destruct v; try discriminate. cbn [keep] in H. destruct (done_or [] (f n)) as [|q x] eqn:Ed; [discriminate|]. injection H as ->.
      split; auto. destruct (f c) as [y| |] eqn:Ef; try discriminate. cbn in Ed. subst y.
      destruct (Hf c _ Ef) as [?|(a & Ha)]; [discriminate|]. rewrite Ha. eauto.
    + destruct H as (H & a & Ha). exists b. split; auto. rewrite nth_error_map, H. cbn. now rewrite Ha.
  - intros c a H. apply in_flat_map in H as (p & Hp & H). destruct (Hd p Hp) as [x Hx]. rewrite Hx in H. cbn in H.
    apply collect_done in Hx as [-> Hx]. apply in_flat_map in H as (d & Hc & H). destruct (Hx d Hc) as [y Hy].
    rewrite Hy in H. cbn in H. destruct (Hf d y Hy) as [->|(a' & ->)]; [destruct H|].
    destruct H as [E|[]]. injection E as -> ->. exact Hy.
Qed.

Lemma looks_downcast k m : looks (downcast k m).
Proof. intros c x H. apply downcast_done in H as [[-> _]|(l & -> & _)]; eauto. Qed.

Lemma looks_get k m : looks (get_with_id k m).
Proof. intros c x H. apply with_id_done in H as (l & -> & _). eauto. Qed.

Lemma downcast_is_a k m c a : downcast k m c = Done [(c, a)] <-> is_a m k c a.
Proof.
  split.
  - intro H. apply downcast_done in H as [[H _]|(l & H & Hl)]; [discriminate|]. now injection H as ->.
  - unfold is_a, downcast, get_untyped. intros ->. assert (E : kind_eqb k k = true) by (now apply kind_eqb_eq). now rewrite E.
Qed.

Lemma with_id_is_a k m c a : get_with_id k m c = Done [(c, a)] <-> is_a m k c a.
Proof.
  split.
  - intro H. apply with_id_done in H as (l & H & Hl). now injection H as ->.
  - intro H. apply get_is_a in H. unfold get_with_id. now rewrite H.
Qed.

(** ** The queries *)

Lemma relations_of_spec k m n l : increasing m -> relations_of k m n = Done l ->
  lists (fun r i c => aggregated m n r i c /\ exists a, is_a m k c a) (map fst l) /\
  (forall c a, In (c, a) l -> is_a m k c a).
Proof.
  intros Hi H. unfold relations_of in H.
  assert (E : forall rels, collect (fun p => collect (downcast k m) (attr_ids (snd p) 5)) rels =
     collect (fun p : N * list val => collect (downcast k m) (somes (map id_val (attr_vals (snd p) 5)))) rels).
  { induction rels as [|p rels IH]; auto. cbn [collect]. now rewrite attr_ids_somes, IH. }
  rewrite E in H. clear E. apply (collect_lists _ (fun b => attr_vals b 5)) in H as [H1 H2].
  - split.
    + eapply lists_iff; [|exact H1]. intros r i c. cbn beta. split.
      * intros (b & Hb & Hv & a & Ha). apply filter_In in Hb as [Hb Hn]. cbn in Hn.
        apply find_all_is_a in Hb; auto. apply is_attr_spec in Hn. apply downcast_is_a in Ha. split; [|eauto].
        exists b. split; auto. split; auto. now apply attr_vals_spec.
      * intros [(b & Hb & Hn & Hv) (a & Ha)]. exists b. split; [|split; [now apply attr_vals_spec|]].
        -- apply filter_In. split; [now apply find_all_is_a|]. now apply is_attr_spec.
        -- exists a. now apply downcast_is_a.
    + intros c a Hc. now apply downcast_is_a, H2.
  - apply looks_downcast.
  - apply sorted_filter, find_all_sorted, Hi.
Qed.

Lemma relations_of_panic k m n : increasing m -> relations_of k m n <> Err /\
  (relations_of k m n = Panic <-> exists r i c, aggregated m n r i c /\ lookup m c = None).
Proof.
  intro Hi. unfold relations_of.
  assert (C : forall l, collect (downcast k m) l <> Err /\
    (collect (downcast k m) l = Panic <-> exists a, In a l /\ downcast k m a = Panic)).
  { intro l. apply collect_fails. intros a _. apply downcast_no_err. }
  match goal with |- collect ?f ?l <> _ /\ _ => destruct (collect_fails f l) as [E P] end.
  { intros p _. apply C. }
  split; auto. rewrite P. split.
  - intros ((r, b) & Hr & Hp). apply C in Hp as (c & Hc & Hp). apply downcast_panic in Hp.
    cbn [snd] in Hc. apply attr_ids_In in Hc as (i & Hc). apply filter_In in Hr as [Hr Hn]. cbn in Hn.
    apply find_all_is_a in Hr; auto. apply is_attr_spec in Hn.
    exists r, i, c. split; auto. exists b. auto.
  - intros (r & i & c & (b & Hb & Hn & Hc) & Hl). exists (r, b). split.
    + apply filter_In. split; [now apply find_all_is_a|]. now apply is_attr_spec.
    + apply C. exists c. split; [apply attr_ids_In; eauto|now apply downcast_panic].
Qed.

Lemma contained_structures_spec m n : increasing m -> lists (contained m n) (contained_structures m n).
Proof.
  intro Hi. unfold contained_structures.
  rewrite (flat_map_ext _ (fun p => somes ((fun b => map id_val (attr_vals b 4)) (snd p))))
    by (intro p; apply attr_ids_somes).
  eapply lists_iff; [|apply (lists_flat _ (fun b => map id_val (attr_vals b 4))), sorted_filter, find_all_sorted, Hi].
  intros r i c. cbn beta. split.
  - intros (b & Hb & Hv). apply filter_In in Hb as [Hb Hn]. cbn in Hn. apply nth_map_id, attr_vals_spec in Hv.
    apply find_all_is_a in Hb; auto. apply is_attr_spec in Hn. exists b. auto.
  - intros (b & Hb & Hn & Hv). exists b. split.
    + apply filter_In. split; [now apply find_all_is_a|]. now apply is_attr_spec.
    + now apply nth_map_id, attr_vals_spec.
Qed.

(** The first element of a sorted list that satisfies a test. *)
Lemma find_first {B} (f : N * B -> bool) rels r b : StronglySorted N.lt (map fst rels) ->
  find f rels = Some (r, b) ->
  In (r, b) rels /\ f (r, b) = true /\ forall r' b', In (r', b') rels -> f (r', b') = true -> r <= r'.
Proof.
  induction rels as [|p rels IH]; intros Hs H; [discriminate|]. cbn [find] in H. cbn [map] in Hs.
  apply StronglySorted_inv in Hs as [Hs Hf]. destruct (f p) eqn:E.
  - injection H as ->. split; [now left|]. split; auto. intros r' b' [[= <- <-]|Hr] _; [lia|].
    rewrite Forall_forall in Hf. specialize (Hf r'). cbn in Hf.
    assert (r < r') by (apply Hf; apply in_map_iff; exists (r', b'); auto). lia.
  - destruct (IH Hs H) as (H1 & H2 & H3). split; [now right|]. split; auto.
    intros r' b' [->|Hr] Ht; [congruence|eauto].
Qed.

(** Well-typed relations: an id in each id attribute. *)
Lemma related_type_spec k m n t l : increasing m -> related_type k m n = Done (t, l) ->
  exists r, typed m n r t /\ is_a m k t l /\
    forall r' l', is_a m KRelDefinesByType r' l' -> (exists i, holds_at l' 4 i n) -> r <= r'.
Proof.
  intros Hi H. unfold related_type in H. destruct (find _ _) as [[r b]|] eqn:E; [|discriminate].
  apply find_first in E as (H1 & H2 & H3); [|apply find_all_sorted, Hi]. cbn [snd] in *.
  destruct (attr_id b 5) as [t'|] eqn:Et; [|discriminate]. destruct (get k m t') as [l'| |] eqn:Eg; try discriminate.
  injection H as -> ->. exists r. apply get_is_a in Eg. apply attr_id_spec in Et.
  apply find_all_is_a in H1; auto. apply in_attr_spec in H2. split; [exists b; auto|]. split; auto.
  intros r' l' Hr Hn. apply (H3 r' l'); [now apply find_all_is_a|now apply in_attr_spec].
Qed.

Lemma related_type_total k m n r t l :
  increasing m -> typed m n r t -> is_a m k t l ->
  (forall r' l', is_a m KRelDefinesByType r' l' -> (exists i, holds_at l' 4 i n) -> r <= r') ->
  related_type k m n = Done (t, l).
Proof.
  intros Hi (b & Hb & Hn & Ht) Hl Hmin. unfold related_type.
  destruct (find _ _) as [[r' b']|] eqn:E.
  - apply find_first in E as (H1 & H2 & H3); [|apply find_all_sorted, Hi]. cbn [snd] in *.
    apply find_all_is_a in H1; auto. apply in_attr_spec in H2.
    assert (r <= r') by eauto.
    assert (r' <= r) by (apply (H3 r b); [now apply find_all_is_a|now apply in_attr_spec]).
    assert (r' = r) by lia. subst r'. unfold is_a in *. rewrite H1 in Hb. injection Hb as <-.
    apply attr_id_spec in Ht. rewrite Ht. apply get_is_a in Hl. now rewrite Hl.
  - assert (F : in_attr b 4 n = false).
    { apply (find_none _ _ E (r, b)). now apply find_all_is_a. }
    apply in_attr_spec in Hn. congruence.
Qed.

Lemma field_id_somes l i : field_id l i = somes (map id_val (match nth_error l i with Some v => [v] | None => [] end)).
Proof. unfold field_id, attr_id. destruct (nth_error l i) as [[]|]; reflexivity. Qed.

Lemma related_voids_spec m n l : increasing m -> related_voids m n = Done l ->
  lists (fun r i c => i = 0%nat /\ voided m n r c) (map fst l) /\
  (forall c a, In (c, a) l -> is_a m KOpeningElement c a).
Proof.
  intros Hi H. unfold related_voids in H.
  assert (E : forall rels, collect (fun p => collect (get_with_id KOpeningElement m) (field_id (snd p) 5)) rels =
     collect (fun p : N * list val => collect (get_with_id KOpeningElement m)
       (somes (map id_val ((fun b => match nth_error b 5 with Some v => [v] | None => [] end) (snd p))))) rels).
  { induction rels as [|p rels IH]; auto. cbn [collect]. now rewrite field_id_somes, IH. }
  rewrite E in H. clear E. pose proof H as HD. apply collect_done in HD as [_ HD].
  apply (collect_lists _ (fun b => match nth_error b 5 with Some v => [v] | None => [] end)) in H as [H1 H2].
  - split.
    + eapply lists_iff; [|exact H1]. intros r i c. cbn beta. split.
      * intros (b & Hb & Hv & a & Ha). apply filter_In in Hb as [Hb Hn]. cbn in Hn.
        apply find_all_is_a in Hb; auto. apply is_attr_spec in Hn.
        destruct (nth_error b 5) as [v|] eqn:Ev; [|destruct i; discriminate].
        destruct i as [|[|i]]; try discriminate. injection Hv as ->. split; auto. exists b. auto.
      * intros [-> (b & Hb & Hn & Hv)].
        assert (Hr : In (r, b) (filter (fun p => is_attr (snd p) 4 n) (find_all_of_type KRelVoidsElement m))).
        { apply filter_In. split; [now apply find_all_is_a|]. now apply is_attr_spec. }
        exists b. split; auto. unfold holds_id in Hv. rewrite Hv. split; auto.
        destruct (HD _ Hr) as [x Hx]. cbn [snd] in Hx. rewrite Hv in Hx. apply collect_done in Hx as [_ Hx].
        destruct (Hx c) as [y Hy]; [now left|]. apply with_id_done in Hy as (a & -> & Ha). exists a. now apply with_id_is_a.
    + intros c a Hc. now apply with_id_is_a, H2.
  - apply looks_get.
  - apply sorted_filter, find_all_sorted, Hi.
Qed.

Lemma related_voids_panic m n : increasing m -> related_voids m n <> Err /\
  (related_voids m n = Panic <-> exists r c, voided m n r c /\ forall a, ~ is_a m KOpeningElement c a).
Proof.
  intro Hi. unfold related_voids.
  assert (C : forall l, collect (get_with_id KOpeningElement m) l <> Err /\
    (collect (get_with_id KOpeningElement m) l = Panic <-> exists a, In a l /\ get_with_id KOpeningElement m a = Panic)).
  { intro l. apply collect_fails. intros a _. apply with_id_no_err. }
  match goal with |- collect ?f ?l <> _ /\ _ => destruct (collect_fails f l) as [E P] end.
  { intros p _. apply C. }
  split; auto. rewrite P. split.
  - intros ((r, b) & Hr & Hp). apply C in Hp as (c & Hc & Hp). rewrite with_id_panics in Hp.
    cbn [snd] in Hc. apply field_id_In in Hc. apply filter_In in Hr as [Hr Hn]. cbn in Hn.
    apply find_all_is_a in Hr; auto. apply is_attr_spec in Hn.
    exists r, c. split; auto. exists b. auto.
  - intros (r & c & (b & Hb & Hn & Hc) & Hl). exists (r, b). split.
    + apply filter_In. split; [now apply find_all_is_a|]. now apply is_attr_spec.
    + apply C. exists c. split; [now apply field_id_In|now apply with_id_panics].
Qed.

(** ** Materials *)

Lemma collect_weaken {A B} (f g : A -> outcome (list B)) l : forall y,
  (forall a x, In a l -> f a = Done x -> g a = Done x) -> collect f l = Done y -> collect g l = Done y.
Proof.
  induction l as [|a l IH]; intros y H C; cbn [collect] in *; auto.
  destruct (f a) as [x| |] eqn:E; try discriminate. rewrite (H a x); auto; [|now left].
  destruct (collect f l) as [z| |]; try discriminate. rewrite (IH z); auto. intros b w Hb. apply H. now right.
Qed.

Lemma collect_one {A B} (f : A -> outcome (list B)) a : collect f [a] = match f a with Done x => Done x | Err => Err | Panic => Panic end.
Proof. cbn [collect]. destruct (f a); auto. now rewrite app_nil_r. Qed.

(** The values at the places of the layer set that relation attributes [b] lead to. *)
Definition layer_vals (m : dmap) (b : list val) : list val :=
  match attr_id b 5 with
  | Some u =>
      match get KMaterialLayerSetUsage m u with
      | Done lu =>
          match attr_id lu 0 with
          | Some s => match get KMaterialLayerSet m s with Done ls => attr_vals ls 0 | _ => [] end
          | None => []
          end
      | _ => []
      end
  | None => []
  end.

Definition constituent_vals (m : dmap) (b : list val) : list val :=
  match attr_id b 5 with
  | Some u => match get KMaterialConstituentSet m u with Done lu => attr_vals lu 2 | _ => [] end
  | None => []
  end.

Lemma layer_vals_spec m b i c : nth_error (layer_vals m b) i = Some (VId c) <->
  exists u lu s ls, holds_id b 5 u /\ is_a m KMaterialLayerSetUsage u lu /\ holds_id lu 0 s /\
    is_a m KMaterialLayerSet s ls /\ holds_at ls 0 i c.
Proof.
  unfold layer_vals. split.
  - destruct (attr_id b 5) as [u|] eqn:Eu; [|destruct i; discriminate].
    destruct (get KMaterialLayerSetUsage m u) as [lu| |] eqn:El; try (destruct i; discriminate).
    destruct (attr_id lu 0) as [s|] eqn:Es; [|destruct i; discriminate].
    destruct (get KMaterialLayerSet m s) as [ls| |] eqn:E; try (destruct i; discriminate).
    intro H. exists u, lu, s, ls. apply attr_id_spec in Eu, Es. apply get_is_a in El, E.
    apply attr_vals_spec in H. auto.
  - intros (u & lu & s & ls & H1 & H2 & H3 & H4 & H5). apply attr_id_spec in H1, H3. apply get_is_a in H2, H4.
    rewrite H1, H2, H3, H4. now apply attr_vals_spec.
Qed.

Lemma constituent_vals_spec m b i c : nth_error (constituent_vals m b) i = Some (VId c) <->
  exists u lu, holds_id b 5 u /\ is_a m KMaterialConstituentSet u lu /\ holds_at lu 2 i c.
Proof.
  unfold constituent_vals. split.
  - destruct (attr_id b 5) as [u|] eqn:Eu; [|destruct i; discriminate].
    destruct (get KMaterialConstituentSet m u) as [lu| |] eqn:El; try (destruct i; discriminate).
    intro H. exists u, lu. apply attr_id_spec in Eu. apply get_is_a in El.
    apply attr_vals_spec in H. auto.
  - intros (u & lu & H1 & H2 & H5). apply attr_id_spec in H1. apply get_is_a in H2.
    rewrite H1, H2. now apply attr_vals_spec.
Qed.

Lemma get_downcast k m u us : downcast k m u = Done us ->
  (us = [] /\ get k m u = Panic) \/ exists l, us = [(u, l)] /\ get k m u = Done l.
Proof.
  intro H. apply downcast_done in H as [[-> H]|(l & -> & H)].
  - left. split; auto. now apply get_panics.
  - right. exists l. split; auto. now apply get_is_a.
Qed.

Lemma related_materials_spec m n l : increasing m -> related_materials m n = Done l ->
  lists (layered m n) (map fst l) /\ (forall c a, In (c, a) l -> is_a m KMaterialLayer c a).
Proof.
  intros Hi H. unfold related_materials in H.
  apply (collect_weaken _ (fun p => collect (get_with_id KMaterialLayer m) (somes (map id_val (layer_vals m (snd p)))))) in H.
  - pose proof H as HD. apply collect_done in HD as [_ HD].
    apply (collect_lists _ (layer_vals m)) in H as [H1 H2]; [|apply looks_get|apply sorted_filter, find_all_sorted, Hi].
    split; [|intros c a Hc; now apply with_id_is_a, H2].
    eapply lists_iff; [|exact H1]. intros r i c. cbn beta. split.
    + intros (b & Hb & Hv & a & Ha). apply filter_In in Hb as [Hb Hn]. cbn in Hn.
      apply find_all_is_a in Hb; auto. apply in_attr_spec in Hn. apply layer_vals_spec in Hv as (u & lu & s & ls & Hu & Hr).
      exists u, lu, s, ls. split; auto. exists b. auto.
    + intros (u & lu & s & ls & (b & Hb & Hn & Hu) & Hr). 
      assert (Hin : In (r, b) (filter (fun p => in_attr (snd p) 4 n) (find_all_of_type KRelAssociatesMaterial m))).
      { apply filter_In. split; [now apply find_all_is_a|]. now apply in_attr_spec. }
      assert (Hv : nth_error (layer_vals m b) i = Some (VId c)) by (apply layer_vals_spec; exists u, lu, s, ls; auto).
      exists b. split; auto. split; auto. destruct (HD _ Hin) as [x Hx]. apply collect_done in Hx as [_ Hx]. cbn [snd] in Hx.
      destruct (Hx c) as [y Hy].
      { unfold somes. apply in_flat_map. exists (Some c). split; [|now left]. apply nth_error_In with i. now apply nth_map_id. }
      apply with_id_done in Hy as (a & -> & Ha). exists a. now apply with_id_is_a.
  - intros [r b] x _. cbn [snd]. unfold field_id, layer_vals. destruct (attr_id b 5) as [u|]; [|intro E; cbn in E; injection E as <-; reflexivity].
    rewrite collect_one. destruct (downcast KMaterialLayerSetUsage m u) as [us| |] eqn:Ed; try discriminate.
    apply get_downcast in Ed as [[-> Eg]|(lu & -> & Eg)]; rewrite Eg.
    + intro E. cbn in E. injection E as <-. reflexivity.
    + rewrite collect_one. cbn [snd]. destruct (attr_id lu 0) as [s|]; [|intro E; cbn in E; injection E as <-; reflexivity].
      rewrite collect_one. destruct (get KMaterialLayerSet m s) as [ls| |]; try discriminate.
      rewrite attr_ids_somes. destruct (collect (get_with_id _ m) _) as [z| |]; try discriminate; auto.
Qed.

Lemma related_constituents_spec m n l : increasing m -> related_constituents m n = Done l ->
  lists (constituted m n) (map fst l) /\ (forall c a, In (c, a) l -> is_a m KMaterialConstituent c a).
Proof.
  intros Hi H. unfold related_constituents in H.
  apply (collect_weaken _ (fun p => collect (get_with_id KMaterialConstituent m) (somes (map id_val (constituent_vals m (snd p)))))) in H.
  - pose proof H as HD. apply collect_done in HD as [_ HD].
    apply (collect_lists _ (constituent_vals m)) in H as [H1 H2]; [|apply looks_get|apply sorted_filter, find_all_sorted, Hi].
    split; [|intros c a Hc; now apply with_id_is_a, H2].
    eapply lists_iff; [|exact H1]. intros r i c. cbn beta. split.
    + intros (b & Hb & Hv & a & Ha). apply filter_In in Hb as [Hb Hn]. cbn in Hn.
      apply find_all_is_a in Hb; auto. apply in_attr_spec in Hn. apply constituent_vals_spec in Hv as (u & lu & Hu & Hr).
      exists u, lu. split; auto. exists b. auto.
    + intros (u & lu & (b & Hb & Hn & Hu) & Hr).
      assert (Hin : In (r, b) (filter (fun p => in_attr (snd p) 4 n) (find_all_of_type KRelAssociatesMaterial m))).
      { apply filter_In. split; [now apply find_all_is_a|]. now apply in_attr_spec. }
      assert (Hv : nth_error (constituent_vals m b) i = Some (VId c)) by (apply constituent_vals_spec; exists u, lu; auto).
      exists b. split; auto. split; auto. destruct (HD _ Hin) as [x Hx]. apply collect_done in Hx as [_ Hx]. cbn [snd] in Hx.
      destruct (Hx c) as [y Hy].
      { unfold somes. apply in_flat_map. exists (Some c). split; [|now left]. apply nth_error_In with i. now apply nth_map_id. }
      apply with_id_done in Hy as (a & -> & Ha). exists a. now apply with_id_is_a.
  - intros [r b] x _. cbn [snd]. unfold field_id, constituent_vals. destruct (attr_id b 5) as [u|]; [|intro E; cbn in E; injection E as <-; reflexivity].
    rewrite collect_one. destruct (downcast KMaterialConstituentSet m u) as [us| |] eqn:Ed; try discriminate.
    apply get_downcast in Ed as [[-> Eg]|(lu & -> & Eg)]; rewrite Eg.
    + intro E. cbn in E. injection E as <-. reflexivity.
    + rewrite collect_one. cbn [snd]. rewrite attr_ids_somes. destruct (collect (get_with_id _ m) _) as [z| |]; try discriminate; auto.
Qed.

(** ** Panics of the material queries *)

Lemma related_materials_panic m n : increasing m -> related_materials m n <> Err /\
  (related_materials m n = Panic <->
     (exists r u, made_of m n r u /\ lookup m u = None) \/
     (exists r u lu s, made_of m n r u /\ is_a m KMaterialLayerSetUsage u lu /\ holds_id lu 0 s /\
        forall ls, ~ is_a m KMaterialLayerSet s ls) \/
     (exists r i c, layered m n r i c /\ forall a, ~ is_a m KMaterialLayer c a)).
Proof.
  intro Hi. unfold related_materials.
  set (F4 := get_with_id KMaterialLayer m).
  set (F3 := fun s => match get KMaterialLayerSet m s with
                      | Done a => collect F4 (attr_ids a 0) | Err => Err | Panic => Panic end).
  set (F2 := fun q : N * list val => collect F3 (field_id (snd q) 0)).
  set (F1 := fun u => match downcast KMaterialLayerSetUsage m u with
                      | Done us => collect F2 us | Err => Err | Panic => Panic end).
  assert (C4 : forall l, collect F4 l <> Err /\ (collect F4 l = Panic <-> exists a, In a l /\ F4 a = Panic)).
  { intro l. apply collect_fails. intros a _. apply with_id_no_err. }
  assert (E3 : forall s, F3 s <> Err).
  { intro s. unfold F3. pose proof (get_no_err KMaterialLayerSet m s). destruct (get _ m s); try congruence. apply C4. }
  assert (P3 : forall s, F3 s = Panic <-> (forall ls, ~ is_a m KMaterialLayerSet s ls) \/
    exists ls i c, is_a m KMaterialLayerSet s ls /\ holds_at ls 0 i c /\ forall a, ~ is_a m KMaterialLayer c a).
  { intro s. unfold F3. destruct (get KMaterialLayerSet m s) as [ls| |] eqn:Eg.
    - apply get_is_a in Eg. rewrite (proj2 (C4 _)). split.
      + intros (c & Hc & Hp). apply attr_ids_In in Hc as (i & Hc). unfold F4 in Hp. rewrite with_id_panics in Hp.
        right. exists ls, i, c. auto.
      + intros [H|(ls' & i & c & H1 & H2 & H3)]; [now apply H in Eg|]. unfold is_a in *. rewrite H1 in Eg. injection Eg as ->.
        exists c. split; [apply attr_ids_In; eauto|now apply with_id_panics].
    - now apply get_no_err in Eg.
    - split; auto. intros _. left. now apply get_panics. }
  assert (C3 : forall l, collect F3 l <> Err /\ (collect F3 l = Panic <-> exists a, In a l /\ F3 a = Panic)).
  { intro l. apply collect_fails. auto. }
  assert (C2 : forall l, collect F2 l <> Err /\ (collect F2 l = Panic <-> exists a, In a l /\ F2 a = Panic)).
  { intro l. apply collect_fails. intros a _. apply C3. }
  assert (E1 : forall u, F1 u <> Err).
  { intro u. unfold F1. pose proof (downcast_no_err KMaterialLayerSetUsage m u).
    destruct (downcast _ m u); try congruence. apply C2. }
  assert (P1 : forall u, F1 u = Panic <-> lookup m u = None \/
     exists lu s, is_a m KMaterialLayerSetUsage u lu /\ holds_id lu 0 s /\ F3 s = Panic).
  { intro u. unfold F1. destruct (downcast KMaterialLayerSetUsage m u) as [us| |] eqn:Ed.
    - rewrite (proj2 (C2 us)). split.
      + intros (q & Hq & Hp). apply downcast_done in Ed as [[-> _]|(lu & -> & Hl)]; [destruct Hq|].
        destruct Hq as [<-|[]]. apply C3 in Hp as (s & Hs & Hp). cbn [snd] in Hs. apply field_id_In in Hs. right. eauto.
      + intros [H|(lu & s & H1 & H2 & H3)].
        * apply (downcast_panic KMaterialLayerSetUsage) in H. congruence.
        * apply downcast_is_a in H1. rewrite Ed in H1. injection H1 as ->. exists (u, lu). split; [now left|].
          apply C3. exists s. split; auto. now apply field_id_In.
    - now apply downcast_no_err in Ed.
    - split; auto. intros _. left. now apply downcast_panic in Ed. }
  assert (C1 : forall l, collect F1 l <> Err /\ (collect F1 l = Panic <-> exists a, In a l /\ F1 a = Panic)).
  { intro l. apply collect_fails. auto. }
  match goal with |- collect ?f ?l <> _ /\ _ => destruct (collect_fails f l) as [E P] end.
  { intros p _. apply C1. }
  split; auto. rewrite P. clear P E. split.
  - intros ([r b] & Hr & Hp). apply C1 in Hp as (u & Hu & Hp). cbn [snd] in Hu. apply field_id_In in Hu.
    apply filter_In in Hr as [Hr Hn]. cbn in Hn. apply find_all_is_a in Hr; auto. apply in_attr_spec in Hn.
    assert (Hm : made_of m n r u) by (exists b; auto).
    apply P1 in Hp as [Hp|(lu & s & H1 & H2 & Hp)]; [left; eauto|]. right.
    apply P3 in Hp as [Hp|(ls & i & c & H3 & H4 & H5)].
    + left. exists r, u, lu, s. auto.
    + right. exists r, i, c. split; auto. exists u, lu, s, ls. auto.
  - intro H.
    assert (Hx : exists r u, made_of m n r u /\ F1 u = Panic).
    { destruct H as [(r & u & H1 & H2)|[(r & u & lu & s & H1 & H2 & H3 & H4)|(r & i & c & (u & lu & s & ls & H1 & H2 & H3 & H4 & H5) & H6)]];
        exists r, u; (split; [exact H1|]); apply P1; auto; right; exists lu, s; (split; [exact H2|]); (split; [exact H3|]); apply P3; auto.
      right. exists ls, i, c. auto. }
    destruct Hx as (r & u & (b & Hb & Hn & Hu) & Hp). exists (r, b). split.
    + apply filter_In. split; [now apply find_all_is_a|]. now apply in_attr_spec.
    + apply C1. exists u. split; auto. now apply field_id_In.
Qed.

Lemma related_constituents_panic m n : increasing m -> related_constituents m n <> Err /\
  (related_constituents m n = Panic <->
     (exists r u, made_of m n r u /\ lookup m u = None) \/
     (exists r i c, constituted m n r i c /\ forall a, ~ is_a m KMaterialConstituent c a)).
Proof.
  intro Hi. unfold related_constituents.
  set (F4 := get_with_id KMaterialConstituent m).
  set (F2 := fun q : N * list val => collect F4 (attr_ids (snd q) 2)).
  set (F1 := fun u => match downcast KMaterialConstituentSet m u with
                      | Done us => collect F2 us | Err => Err | Panic => Panic end).
  assert (C4 : forall l, collect F4 l <> Err /\ (collect F4 l = Panic <-> exists a, In a l /\ F4 a = Panic)).
  { intro l. apply collect_fails. intros a _. apply with_id_no_err. }
  assert (C2 : forall l, collect F2 l <> Err /\ (collect F2 l = Panic <-> exists a, In a l /\ F2 a = Panic)).
  { intro l. apply collect_fails. intros a _. apply C4. }
  assert (E1 : forall u, F1 u <> Err).
  { intro u. unfold F1. pose proof (downcast_no_err KMaterialConstituentSet m u).
    destruct (downcast _ m u); try congruence. apply C2. }
  assert (P1 : forall u, F1 u = Panic <-> lookup m u = None \/
     exists lu i c, is_a m KMaterialConstituentSet u lu /\ holds_at lu 2 i c /\ forall a, ~ is_a m KMaterialConstituent c a).
  { intro u. unfold F1. destruct (downcast KMaterialConstituentSet m u) as [us| |] eqn:Ed.
    - rewrite (proj2 (C2 us)). split.
      + intros (q & Hq & Hp). apply downcast_done in Ed as [[-> _]|(lu & -> & Hl)]; [destruct Hq|].
        destruct Hq as [<-|[]]. apply C4 in Hp as (c & Hc & Hp). cbn [snd] in Hc. apply attr_ids_In in Hc as (i & Hc).
        right. exists lu, i, c. unfold F4 in Hp. rewrite with_id_panics in Hp. auto.
      + intros [H|(lu & i & c & H1 & H2 & H3)].
        * apply (downcast_panic KMaterialConstituentSet) in H. congruence.
        * apply downcast_is_a in H1. rewrite Ed in H1. injection H1 as ->. exists (u, lu). split; [now left|].
          apply C4. exists c. split; [apply attr_ids_In; eauto|now apply with_id_panics].
    - now apply downcast_no_err in Ed.
    - split; auto. intros _. left. now apply downcast_panic in Ed. }
  assert (C1 : forall l, collect F1 l <> Err /\ (collect F1 l = Panic <-> exists a, In a l /\ F1 a = Panic)).
  { intro l. apply collect_fails. auto. }
  match goal with |- collect ?f ?l <> _ /\ _ => destruct (collect_fails f l) as [E P] end.
  { intros p _. apply C1. }
  split; auto. rewrite P. clear P E. split.
  - intros ([r b] & Hr & Hp). apply C1 in Hp as (u & Hu & Hp). cbn [snd] in Hu. apply field_id_In in Hu.
    apply filter_In in Hr as [Hr Hn]. cbn in Hn. apply find_all_is_a in Hr; auto. apply in_attr_spec in Hn.
    assert (Hm : made_of m n r u) by (exists b; auto).
    apply P1 in Hp as [Hp|(lu & i & c & H1 & H2 & H3)]; [left; eauto|]. right.
    exists r, i, c. split; auto. exists u, lu. auto.
  - intro H.
    assert (Hx : exists r u, made_of m n r u /\ F1 u = Panic).
    { destruct H as [(r & u & H1 & H2)|(r & i & c & (u & lu & H1 & H2 & H5) & H6)];
        exists r, u; (split; [exact H1|]); apply P1; auto. right. exists lu, i, c. auto. }
    destruct Hx as (r & u & (b & Hb & Hn & Hu) & Hp). exists (r, b). split.
    + apply filter_In. split; [now apply find_all_is_a|]. now apply in_attr_spec.
    + apply C1. exists u. split; auto. now apply field_id_In.
Qed.

Lemma related_type_no_err k m n : related_type k m n <> Err.
Proof.
  unfold related_type. destruct (find _ _) as [p|]; [|discriminate]. destruct (attr_id (snd p) 5) as [t|]; [|discriminate].
  pose proof (get_no_err k m t). destruct (get k m t); congruence.
Qed.

(** ** After loading *)

Lemma aggregated_checked m n r i c : increasing m -> aggregated m n r i c ->
  has_ref m [KSite; KBuilding; KStorey; KSpace] c.
Proof.
  intros Hi (l & Hl & _ & vs & Hv & Hc). exists r, (Ent KRelAggregates l). split; [now apply lookup_In|].
  exists KRelAggregates, l, row_RelAggregates, 5%nat, (TList (TRef [KSite; KBuilding; KStorey; KSpace] true)), (VList vs).
  split; [reflexivity|]. split; [reflexivity|]. split; [reflexivity|]. split; [exact Hv|].
  apply points_list with (VId c); [now apply nth_error_In in Hc|]. constructor.
Qed.

Lemma voided_checked m n r c : increasing m -> voided m n r c -> has_ref m [KOpeningElement] c.
Proof.
  intros Hi (l & Hl & _ & Hc). exists r, (Ent KRelVoidsElement l). split; [now apply lookup_In|].
  exists KRelVoidsElement, l, row_RelVoidsElement, 5%nat, (TRef [KOpeningElement] true), (VId c).
  split; [reflexivity|]. split; [reflexivity|]. split; [reflexivity|]. split; [exact Hc|]. constructor.
Qed.

Lemma refs_ok_relations_of k m n : increasing m -> refs_ok m -> exists l, relations_of k m n = Done l.
Proof.
  intros Hi Ho. destruct (relations_of_panic k m n Hi) as [E P]. destruct (relations_of k m n) as [l| |]; eauto; [congruence|].
  exfalso. destruct (proj1 P eq_refl) as (r & i & c & Hc & Hl). apply aggregated_checked in Hc; auto.
  destruct (Ho _ _ Hc) as (e & He & _). congruence.
Qed.

Lemma refs_ok_related_voids m n : increasing m -> refs_ok m ->
  (related_voids m n = Panic <-> exists r c e, voided m n r c /\ lookup m c = Some e /\ kind_of e = KDummy).
Proof.
  intros Hi Ho. rewrite (proj2 (related_voids_panic m n Hi)). split.
  - intros (r & c & Hc & Hl). pose proof (voided_checked _ _ _ _ Hi Hc) as Hr. destruct (Ho _ _ Hr) as (e & He & Hp).
    exists r, c, e. split; auto. split; auto. destruct Hp as [[E|[]]|E]; auto. exfalso.
    destruct e as [k l|s]; [|discriminate]. cbn in E. subst k. now apply (Hl l).
  - intros (r & c & e & Hc & Hl & Hk). exists r, c. split; auto. intros a Ha. unfold is_a in Ha. rewrite Hl in Ha.
    injection Ha as ->. discriminate.
Qed.

Lemma loaded_queries v s x n : load v s = Done x ->
  (forall k, exists l, relations_of k (i_data x) n = Done l) /\
  (related_voids (i_data x) n = Panic <->
     exists r c e, voided (i_data x) n r c /\ lookup (i_data x) c = Some e /\ kind_of e = KDummy).
Proof.
  intro H. destruct (load_done v s x H) as [Hp Ho]. apply parse_whole_done in Hp.
  assert (Hi : increasing (i_data x)).
  { unfold p_ifc in Hp. apply bind_ok in Hp as (h & r1 & Hh & Hp). apply bind_ok in Hp as (m & r2 & Hm & Hp).
    apply bind_ok in Hp as (? & ? & _ & Hp). injection Hp as <- _. exact (proj1 (p_data_ok _ _ _ Hm)). }
  split; [intro k; now apply refs_ok_relations_of|now apply refs_ok_related_voids].
Qed.

Lemma earlier_irrefl p : ~ earlier p p.
Proof. unfold earlier. lia. Qed.

Lemma earlier_trans p q r : earlier p q -> earlier q r -> earlier p r.
Proof. unfold earlier. lia. Qed.

(** Two strictly sorted lists with the same elements are equal. *)
Lemma sorted_unique {A} (R : A -> A -> Prop) (l l' : list A) :
  (forall p, ~ R p p) -> (forall p q r, R p q -> R q r -> R p r) ->
  StronglySorted R l -> StronglySorted R l' -> (forall p, In p l <-> In p l') -> l = l'.
Proof.
  intros Irr Tr Hl. revert l'. induction Hl as [|a l Hs IH Hf]; intros l' Hl' H.
  - destruct l' as [|b l']; auto. exfalso. apply (H b). now left.
  - destruct Hl' as [|b l' Hs' Hf']; [exfalso; apply (H a); now left|].
    rewrite Forall_forall in Hf, Hf'.
    assert (E : a = b).
    { destruct (proj1 (H a) (or_introl eq_refl)) as [E|E]; auto.
      destruct (proj2 (H b) (or_introl eq_refl)) as [E'|E']; auto.
      exfalso. apply (Irr a). apply Tr with b; auto. }
    subst b. f_equal. apply IH; auto. intro p. split; intro Hp.
    + destruct (proj1 (H p) (or_intror Hp)) as [E|E]; auto. subst p. exfalso. now apply (Irr a), Hf.
    + destruct (proj2 (H p) (or_intror Hp)) as [E|E]; auto. subst p. exfalso. now apply (Irr a), Hf'.
Qed.

Lemma sorted_fst {A B} (R : A -> A -> Prop) (l : list (A * B)) :
  StronglySorted R (map fst l) -> StronglySorted (fun p q => R (fst p) (fst q)) l.
Proof.
  induction l as [|p l IH]; intro H; constructor; cbn [map] in H; apply StronglySorted_inv in H as [Hs Hf]; auto.
  rewrite Forall_forall in *. intros q Hq. apply Hf. now apply in_map.
Qed.

Lemma lists_unique P l l' : lists P l -> lists P l' -> l = l'.
Proof.
  intros (ps & H1 & H2 & H3) (ps' & H1' & H2' & H3'). subst l l'. f_equal.
  apply sorted_unique with (fun p q => earlier (fst p) (fst q)).
  - intro p. apply earlier_irrefl.
  - intros p q r. apply earlier_trans.
  - now apply sorted_fst.
  - now apply sorted_fst.
  - intros [[r i] c]. now rewrite H3, H3'.
Qed.
