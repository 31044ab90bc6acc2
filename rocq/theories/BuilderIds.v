(** The ids that calls return are new and increasing. *)

From Coq Require Import String Ascii List NArith ZArith Bool Lia Permutation Sorted.
From Coq Require Import ZifyBool ZifyNat ZifyN.
From Verif Require Import Base Prims Float Arith Kind Types Schema Entity EntityFacts DataMap DataSpec DataMapFacts
  Extractor Builder BuilderRun BuilderBase BuilderGrow BuilderSpec BuilderRel BuilderRel2 BuilderEmit BuilderInv
  BuilderStep BuilderAll.
Import ListNotations.
Open Scope N_scope.
Open Scope builder_scope.

(** Strictly increasing, above [a] and up to [b]. *)
Fixpoint ladder (a : N) (l : list N) (b : N) : Prop :=
  match l with
  | [] => a <= b
  | n :: l' => a < n /\ ladder n l' b
  end.

Lemma ladder_le l : forall a b, ladder a l b -> a <= b.
Proof. induction l as [|n l IH]; cbn [ladder]; intros a b H; auto. destruct H as [H1 H2]. apply IH in H2. lia. Qed.

Lemma ladder_weak l : forall a a' b, a' <= a -> ladder a l b -> ladder a' l b.
Proof. destruct l; cbn [ladder]; intros a a' b H1 H2; [lia|]. destruct H2. split; auto. lia. Qed.

Lemma ladder_app l l' : forall a b c, ladder a l b -> ladder b l' c -> ladder a (l ++ l') c.
Proof.
  induction l as [|n l IH]; cbn [ladder app]; intros a b c H1 H2.
  - eapply ladder_weak; eauto.
  - destruct H1. split; eauto.
Qed.

Lemma ladder_In l : forall a b n, ladder a l b -> In n l -> a < n <= b.
Proof.
  induction l as [|m l IH]; cbn [ladder In]; intros a b n H Hi; [contradiction|].
  destruct H as [H1 H2]. destruct Hi as [->|Hi].
  - apply ladder_le in H2. lia.
  - specialize (IH _ _ _ H2 Hi). lia.
Qed.

Lemma ladder_sorted l : forall a b, ladder a l b -> StronglySorted N.lt l.
Proof.
  induction l as [|m l IH]; cbn [ladder]; intros a b H; constructor.
  - eapply IH, H.
  - apply Forall_forall. intros n Hn. destruct H as [_ H]. apply (ladder_In _ _ _ _ H Hn).
Qed.

Lemma sorted_NoDup l : StronglySorted N.lt l -> NoDup l.
Proof.
  induction 1 as [|a l _ IH H]; constructor; auto. intro Hi. rewrite Forall_forall in H. specialize (H _ Hi). lia.
Qed.

Section Ids.
Variable o : oracle.

Ltac inv H :=
  match type of H with
  | bbind _ _ _ = Done _ => let a := fresh "a" in let q := fresh "q" in let H1 := fresh "H" in
      apply bbind_inv in H as (a & q & H1 & H)
  end.

Ltac one_new Hn := cbn [ladder]; lia.

Lemma storey_step_ids st x p st' l p' :
  storey_step o st x p = Done (st', l, p') -> dense (p_map p) -> ladder (size (p_map p)) l (size (p_map p')).
Proof.
  intros Hc Hd. destruct x; cbn [storey_step] in Hc; try discriminate.
  1-6: inv Hc; apply bret_inv in Hc as [E ->]; injection E as -> ->;
    first [pose proof (fr_material _ _ _ _ H Hd)|pose proof (fr_material_layer _ _ _ _ _ H Hd)
          |pose proof (fr_material_layer_set _ _ _ _ H Hd)|pose proof (fr_usage _ _ _ _ _ _ _ H Hd)
          |pose proof (fr_constituent _ _ _ _ _ H Hd)|pose proof (fr_constituent_set _ _ _ _ H Hd)]; cbn [ladder]; lia.
  - destruct c; try discriminate; inv Hc; destruct a as [n st1]; apply bret_inv in Hc as [E ->];
      injection E as -> ->; destruct (eff_new_type o _ _ _ _ _ _ _ _ _ H Hd) as (G & Hn & _); cbn [ladder]; lia.
  - inv Hc; destruct a as [n st1]; apply bret_inv in Hc as [E ->]; injection E as -> ->;
      destruct (eff_new_window_type o _ _ _ _ _ _ _ _ H Hd) as (G & Hn & _); cbn [ladder]; lia.
  - inv Hc; destruct a as [n st1]; apply bret_inv in Hc as [E ->]; injection E as -> ->;
      destruct (eff_new_space_type o _ _ _ _ _ _ _ H Hd) as (G & Hn & _); cbn [ladder]; lia.
  - inv Hc; destruct a as [n st1]; apply bret_inv in Hc as [E ->]; injection E as -> ->.
    destruct (eff_new_roof o _ _ _ _ _ _ _ _ _ _ H Hd) as (G & Hn & _). cbn [ladder]; lia.
  - inv Hc; destruct a as [n st1]; apply bret_inv in Hc as [E ->]; injection E as -> ->.
    destruct (eff_new_shading o _ _ _ _ _ _ _ _ _ _ _ H Hd) as (G & Hn & _). cbn [ladder]; lia.
  - inv Hc; destruct a as [n st1]; apply bret_inv in Hc as [E ->]; injection E as -> ->.
    destruct (eff_new_space o _ _ _ _ _ _ _ _ _ _ H Hd) as (G & Hn & _). cbn [ladder]; lia.
  - destruct (existsb _ _); [|discriminate]. inv Hc. apply bret_inv in Hc as [E ->]. injection E as -> ->.
    apply (@st_transform quiet (grow quiet) _ quiet_ok _) in H. cbn [ladder]. apply (size_grow _ _ _ H Hd).
  - inv Hc. apply bret_inv in Hc as [E ->]. injection E as -> ->.
    apply (@st_relate_properties quiet (grow quiet) _ o _ _ eq_refl) in H. cbn [ladder]. apply (size_grow _ _ _ H Hd).
Qed.

Lemma host_step_ids st h x p st' h' l p' :
  host_step o st h x p = Done (st', h', l, p') -> dense (p_map p) -> ladder (size (p_map p)) l (size (p_map p')).
Proof.
  intros Hc Hd. unfold host_step in Hc. destruct x; try discriminate.
  - destruct (h_slab h); try discriminate.
    inv Hc; destruct a as [n st1]; apply bret_inv in Hc as [E ->]; injection E as -> -> ->.
    destruct (eff_wall_opening o _ _ _ _ _ _ _ _ _ _ _ H Hd) as (G & Hn & _). cbn [ladder]; lia.
  - destruct (h_slab h); try discriminate.
    inv Hc; destruct a as [n st1]; apply bret_inv in Hc as [E ->]; injection E as -> -> ->.
    destruct (eff_slab_opening o _ _ _ _ _ _ _ _ H Hd) as (G & Hn & _). cbn [ladder]; lia.
  - destruct (h_slab h); try discriminate.
    inv Hc; destruct a as [[op n] st1]; apply bret_inv in Hc as [E ->]; injection E as -> -> ->.
    destruct (eff2_wall_window o _ _ _ _ _ _ _ _ _ _ _ _ _ _ H Hd) as (G & Ha & Hn & _). cbn [ladder]; lia.
  - destruct (h_slab h); try discriminate.
    inv Hc; destruct a as [[op n] st1]; apply bret_inv in Hc as [E ->]; injection E as -> -> ->.
    destruct (eff2_slab_window o _ _ _ _ _ _ _ _ _ _ _ H Hd) as (G & Ha & Hn & _). cbn [ladder]; lia.
  - destruct (h_slab h); apply bret_inv in Hc as [E ->]; injection E as -> -> ->; cbn [ladder]; lia.
Qed.

Lemma step_grow w x p w' a p' : step o w x p = Done (w', a, p') -> grow anything p p'.
Proof. intro H. eapply (st_step (A := anything) (R := grow anything)); eauto. Qed.

Lemma step_ids w x p w' a p' :
  step o w x p = Done (w', a, p') -> dense (p_map p) -> ladder (size (p_map p)) a (size (p_map p')).
Proof.
  intros Hc Hd. pose proof (step_grow _ _ _ _ _ _ Hc) as G. pose proof (size_grow _ _ _ G Hd) as Hz.
  destruct w as [|s|s b|s b st|s b st h|s b st h nm ps|s b st nm ps]; destruct x; try discriminate Hc;
    cbn [step] in Hc;
    try (inv Hc; destruct a0 as [st1 l1]; apply bret_inv in Hc as [E ->]; injection E as -> ->;
         solve [eapply storey_step_ids; eauto]);
    try (inv Hc; destruct a0 as [[st1 h1] l1]; apply bret_inv in Hc as [E ->]; injection E as -> ->;
         solve [eapply host_step_ids; eauto]);
    try (inv Hc; discriminate);
    try (inv Hc; apply bret_inv in Hc as [E ->]; injection E as -> ->; exact Hz);
    try (inv Hc; inv Hc; apply bret_inv in Hc as [E ->]; injection E as -> ->; exact Hz);
    try (apply bret_inv in Hc as [E ->]; injection E as -> ->; exact Hz).
  - inv Hc. apply bret_inv in Hc as [E ->]. injection E as -> ->. apply new_site_inv in H as (_ & Hn & _); [|exact Hd].
    cbn [ladder]. lia.
  - inv Hc. apply bret_inv in Hc as [E ->]. injection E as -> ->.
    pose proof (fr_new_building o _ _ _ _ _ _ H Hd) as Hn. cbn [ladder]. lia.
  - inv Hc. apply bret_inv in Hc as [E ->]. injection E as -> ->.
    destruct (new_storey_inv o _ _ _ _ _ _ H Hd) as (Hn & _). cbn [ladder]. lia.
  - inv Hc. destruct a0 as [n st1]. apply bret_inv in Hc as [E ->]. injection E as -> ->.
    destruct (eff_new_wall o _ _ _ _ _ _ _ _ _ _ H Hd) as (_ & Hn & _). cbn [ladder]. lia.
  - inv Hc. destruct a0 as [n st1]. apply bret_inv in Hc as [E ->]. injection E as -> ->.
    destruct (eff_new_slab o _ _ _ _ _ _ _ _ _ _ H Hd) as (_ & Hn & _). cbn [ladder]. lia.
  - destruct (h_slab h); [discriminate|]. apply bret_inv in Hc as [E ->]. injection E as -> ->. exact Hz.
  - inv Hc. apply bret_inv in Hc as [E ->]. injection E as -> ->.
    pose proof (fr_single_property _ _ _ _ _ _ H Hd). cbn [ladder]. lia.
  - inv Hc. apply bret_inv in Hc as [E ->]. injection E as -> ->.
    pose proof (fr_property_set o _ _ _ _ _ H Hd). cbn [ladder]. lia.
  - inv Hc. apply bret_inv in Hc as [E ->]. injection E as -> ->.
    pose proof (fr_single_property _ _ _ _ _ _ H Hd). cbn [ladder]. lia.
Qed.

Lemma run_ids xs : forall w p w' ls p',
  run o w xs p = Done (w', ls, p') -> dense (p_map p) ->
  ladder (size (p_map p)) (concat ls) (size (p_map p')) /\ dense (p_map p') /\ length ls = length xs.
Proof.
  induction xs as [|x xs IH]; intros w p w' ls p' H Hd; cbn [run] in H.
  - apply bret_inv in H as [E ->]. injection E as -> ->. cbn. split; auto. lia.
  - inv H. destruct a as [w1 a]. inv H. destruct a0 as [w2 l]. apply bret_inv in H as [E ->].
    injection E as -> ->. pose proof (step_ids _ _ _ _ _ _ H0 Hd) as L.
    destruct (step_grow _ _ _ _ _ _ H0 Hd) as [D _].
    destruct (IH _ _ _ _ _ H1 D) as (L1 & D1 & E1). cbn [concat length]. split; [eapply ladder_app; eauto|]. auto.
Qed.

Lemma new_project_id i p oh pr q :
  new_project o i p = Done ((oh, pr), q) -> dense (p_map p) -> size (p_map p) < pr <= size (p_map q).
Proof.
  intros E D0. unfold new_project in E.
  do 16 (inv E). assert (D : dense (p_map q15) /\ size (p_map p) <= size (p_map q15)).
  { assert (grow anything p q15) as G; [|split; [exact (proj1 (G D0))|exact (size_grow _ _ _ G D0)]].
    repeat match goal with
    | H : ins _ _ ?a = Done (_, ?b) |- _ => apply (grow_ins anything) in H; [|reflexivity]
    | H : now o ?a = Done (_, ?b) |- _ => apply (st_now (A := anything) (R := grow anything)) in H
    | H : si_unit _ _ ?a = Done (_, ?b) |- _ =>
        apply (st_si_unit (A := anything) (R := grow anything) _ _ eq_refl) in H
    | H : fresh_guid o ?a = Done (_, ?b) |- _ => apply (st_fresh_guid (A := anything) (R := grow anything)) in H
    | H : axis3d _ ?a = Done (_, ?b) |- _ =>
        apply (st_axis3d (A := anything) (R := grow anything) (fun _ _ => eq_refl)) in H
    end.
    clear E. repeat (eapply grow_trans; [eassumption|]). apply grow_refl. }
  destruct D as [D Z0]. inv E. pose proof (fresh_ins _ _ _ _ _ H15 D) as Z. pose proof (grow_ins anything _ _ eq_refl _ _ _ H15) as G.
  destruct (G D) as [D1 _]. inv E. apply bret_inv in E as [E ->]. injection E as -> ->.
  pose proof (size_grow _ _ _ (grow_ins anything _ _ eq_refl _ _ _ H16) D1). lia.
Qed.

(** The project is older than everything that is returned. *)
Lemma start_project i p : start o i = Done p -> 1 <= p_project p <= size (p_map p).
Proof.
  intro H. apply start_done in H as (oh & pr & q & E & ->). cbn [p_map p_project].
  pose proof (new_project_id _ _ _ _ _ E dense_nil) as Z. clear E. change (size (p_map empty_proj)) with 0 in Z. lia.
Qed.

Theorem program_ids i xs ls r :
  program o i xs = Done (ls, r) ->
  StronglySorted N.lt (p_project r :: concat ls) /\ length ls = length xs /\
  forall n, In n (concat ls) -> n <= size (p_map r).
Proof.
  intro H. apply program_inv in H as (p & w & q & H1 & H2 & -> & H3).
  pose proof (start_project _ _ H1) as Hp. apply start_inv in H1 as (D0 & _).
  pose proof (st_run (A := anything) (R := grow anything) (fun _ _ => eq_refl) o _ _ _ _ _ H2) as G1.
  apply run_ids in H2 as (L & D & E); auto.
  pose proof (@st_build anything (grow anything) _ (fun _ _ _ => eq_refl) o eq_refl _ _ _ H3) as G2.
  destruct (G1 D0) as (_ & _ & P1 & _). destruct (G2 D) as (_ & _ & P2 & _). rewrite P2, P1.
  pose proof (size_grow _ _ _ G2 D) as Z.
  split; [|split; auto].
  - constructor; [eapply ladder_sorted, L|]. apply Forall_forall. intros n Hn.
    apply (ladder_In _ _ _ _ L) in Hn. lia.
  - intros n Hn. apply (ladder_In _ _ _ _ L) in Hn. lia.
Qed.
End Ids.
