(** What single calls store of their arguments. *)

From Coq Require Import String Ascii List NArith ZArith Bool Lia.
From Verif Require Import Base Prims Kind Types Schema Entity EntityFacts DataMap DataSpec DataMapFacts Extractor
  Float Arith Builder BuilderBase BuilderRun BuilderGrow BuilderAny BuilderSpec BuilderAll BuilderInv HistorySpec BuilderHist
  MoveSpec BuilderMove GivenSpec.
Import ListNotations.
Open Scope N_scope.
Open Scope builder_scope.

Ltac inv H :=
  match type of H with
  | bbind _ _ _ = Done _ => let a := fresh "a" in let q := fresh "q" in let H1 := fresh "H" in
      apply bbind_inv in H as (a & q & H1 & H)
  end.
Ltac ext_of H :=
  match type of H with
  | ?c ?q = Done (?a, ?q') =>
      let E := fresh "E" in
      assert (E : ext q q') by (let X := fresh in assert (X : steps ext c) by st; exact (X _ _ _ H));
      match goal with D : dense (p_map q) |- _ => let D' := fresh "D" in pose proof (proj1 (E D)) as D' end
  end.
Ltac fw :=
  repeat match goal with
  | H : ins ?k ?l ?q = Done (?n, ?q'), D : dense (p_map ?q) |- _ =>
      let L := fresh "L" in let S := fresh "S" in let E := fresh "E" in let D' := fresh "D" in
      apply ins_ext in H as (L & S & E & D'); [|exact D]
  | H : ?c ?q = Done (?a, ?q'), D : dense (p_map ?q) |- _ => ext_of H; clear H
  end.
Ltac move_up :=
  repeat match goal with
  | L : lookup (p_map ?q) ?n = Some ?e, E : ext ?q ?q', D : dense (p_map ?q) |- _ =>
      apply (ext_lookup _ _ _ _ E D) in L
  end.

(** ** Facts stay *)

Lemma says_solid m m' f : snd (fst f) <> KProductDefinitionShape -> solid m m' -> says m f -> says m' f.
Proof.
  destruct f as [[n k] al]. cbn [fst snd]. intros K S (l & L & F). exists l. split; auto.
Qed.
Lemma says_ext p p' f : ext p p' -> dense (p_map p) -> says (p_map p) f -> says (p_map p') f.
Proof.
  destruct f as [[n k] al]. intros E D (l & L & F). exists l. split; auto. eapply ext_lookup; eauto.
Qed.

Lemma made_of_solid m m' n i name k l : solid m m' -> lookup m n = Some (Ent k l) -> k <> KProductDefinitionShape ->
  made_of m (n, i, name) -> made_of m' (n, i, name).
Proof.
  intros S L K (k' & l' & u & L' & H & G). exists k', l', u. assert (k' = k /\ l' = l) as [-> ->] by (split; congruence).
  split; [apply S; auto|]. split; auto. eapply says_solid; eauto. cbn. discriminate.
Qed.

Ltac facts := repeat (constructor; [reflexivity|]); constructor.
Ltac done_says := eexists; split; [eassumption|facts].

Section Given.
Variable o : oracle.

Lemma place_element_given c m ty name pos shape st p n st' p' :
  place_element o c m ty name pos shape st p = Done ((n, st'), p') -> dense (p_map p) ->
  says (p_map p') (named n (kind_of_cls c) name).
Proof.
  intros H D. unfold place_element in H. inv H. ext_of H0. clear H0. inv H.
  destruct (owned_shape _ _ _ _ _ H0) as (g & ow & ->). ext_of H0. clear H0.
  inv H. inv H. inv H. inv H. apply bret_inv in H as [X ->]. injection X as -> ->.
  fw. move_up. done_says.
Qed.

Lemma place_opening_given h name pos shape st p n st' p' :
  place_opening o h name pos shape st p = Done ((n, st'), p') -> dense (p_map p) ->
  says (p_map p') (named n KOpeningElement name).
Proof.
  intros H D. unfold place_opening in H. inv H. ext_of H0. clear H0. inv H.
  destruct (owned_shape _ _ _ _ _ H0) as (g & ow & ->). ext_of H0. clear H0.
  inv H. inv H. inv H. apply bret_inv in H as [X ->]. injection X as -> ->.
  fw. move_up. done_says.
Qed.

Lemma place_window_given m ty op name shape st p n st' p' :
  place_window o m ty op name shape st p = Done ((n, st'), p') -> dense (p_map p) ->
  says (p_map p') (named n KWindow name).
Proof.
  intros H D. unfold place_window in H. inv H. ext_of H0. clear H0. inv H. ext_of H0. clear H0. inv H.
  destruct (owned_shape _ _ _ _ _ H0) as (g & ow & ->). ext_of H0. clear H0.
  inv H. inv H. inv H. inv H. apply bret_inv in H as [X ->]. injection X as -> ->.
  fw. move_up. done_says.
Qed.

Lemma new_type_given c m name i st p n st' p' :
  new_type o c m name i st p = Done ((n, st'), p') -> dense (p_map p) ->
  says (p_map p') (n, type_kind c, [(2%nat, VStr name); (9%nat, VEnum i)]).
Proof.
  intros H D. unfold new_type in H. inv H. destruct (owned_shape _ _ _ _ _ H0) as (g & ow & ->). ext_of H0. clear H0.
  inv H. inv H. apply bret_inv in H as [X ->]. injection X as -> ->. fw. move_up. done_says.
Qed.

Lemma new_window_type_given name i j st p n st' p' :
  new_window_type o name i j st p = Done ((n, st'), p') -> dense (p_map p) ->
  says (p_map p') (n, KWindowType, [(2%nat, VStr name); (9%nat, VEnum i); (10%nat, VEnum j)]).
Proof.
  intros H D. unfold new_window_type in H. inv H. destruct (owned_shape _ _ _ _ _ H0) as (g & ow & ->). ext_of H0. clear H0.
  inv H. apply bret_inv in H as [X ->]. injection X as -> ->. fw. move_up. done_says.
Qed.

Lemma new_space_type_given name i st p n st' p' :
  new_space_type o name i st p = Done ((n, st'), p') -> dense (p_map p) ->
  says (p_map p') (n, KSpaceType, [(2%nat, VStr name); (9%nat, VEnum i)]).
Proof.
  intros H D. unfold new_space_type in H. inv H. destruct (owned_shape _ _ _ _ _ H0) as (g & ow & ->). ext_of H0. clear H0.
  inv H. apply bret_inv in H as [X ->]. injection X as -> ->. fw. move_up. done_says.
Qed.

(** The shape of a call does not matter for the name. *)
Ltac shape_first H :=
  repeat match type of H with
  | bbind _ _ _ = _ => let H0 := fresh "K" in
      let a := fresh "a" in let q := fresh "q" in apply bbind_inv in H as (a & q & H0 & H); ext_of H0; clear H0
  end.

Lemma new_wall_given m ty name s v st p n st' p' :
  new_wall o m ty name s v st p = Done ((n, st'), p') -> dense (p_map p) -> says (p_map p') (named n KWall name).
Proof. intros H D. unfold new_wall in H. shape_first H. exact (place_element_given CWall _ _ _ _ _ _ _ _ _ _ H ltac:(assumption)). Qed.
Lemma new_slab_given m ty name s v st p n st' p' :
  new_slab o m ty name s v st p = Done ((n, st'), p') -> dense (p_map p) -> says (p_map p') (named n KSlab name).
Proof. intros H D. unfold new_slab in H. shape_first H. exact (place_element_given CSlab _ _ _ _ _ _ _ _ _ _ H ltac:(assumption)). Qed.
Lemma new_roof_given m ty name s v st p n st' p' :
  new_roof o m ty name s v st p = Done ((n, st'), p') -> dense (p_map p) -> says (p_map p') (named n KRoof name).
Proof. intros H D. unfold new_roof in H. shape_first H. exact (place_element_given CRoof _ _ _ _ _ _ _ _ _ _ H ltac:(assumption)). Qed.
Lemma new_shading_given m ty name a b v st p n st' p' :
  new_shading o m ty name a b v st p = Done ((n, st'), p') -> dense (p_map p) -> says (p_map p') (named n KShadingDevice name).
Proof. intros H D. unfold new_shading in H. shape_first H. exact (place_element_given CShading _ _ _ _ _ _ _ _ _ _ H ltac:(assumption)). Qed.

Lemma new_space_given ty name cs h v st p n st' p' :
  new_space o ty name cs h v st p = Done ((n, st'), p') -> dense (p_map p) -> says (p_map p') (named n KSpace name).
Proof.
  intros H D. unfold new_space in H. inv H. ext_of H0. clear H0. inv H. ext_of H0. clear H0. inv H. ext_of H0. clear H0.
  inv H. destruct (owned_shape _ _ _ _ _ H0) as (g & ow & ->). ext_of H0. clear H0.
  inv H. inv H. inv H. apply bret_inv in H as [X ->]. injection X as -> ->. fw. move_up. done_says.
Qed.

Lemma new_site_given name v p n p' :
  new_site o name v p = Done (n, p') -> dense (p_map p) -> says (p_map p') (named n KSite name).
Proof.
  intros H D. unfold new_site in H. inv H. ext_of H0. clear H0. inv H. ext_of H0. clear H0. inv H.
  destruct (owned_shape _ _ _ _ _ H0) as (g & ow & ->). ext_of H0. clear H0.
  inv H. ext_of H0. clear H0. inv H. destruct (ins_ext _ _ _ _ _ H0 ltac:(assumption)) as (L & S & Ex & Dx). clear H0.
  inv H. injection H0 as <- <-. inv H. injection H0 as <- <-. inv H. apply bret_inv in H as [-> ->].
  match type of H0 with sub_context (set_sites ?x ?q) = _ =>
    set (qz := set_sites x q) in H0; assert (Ez : ext q qz) by exact (pre_refl q) end.
  pose proof (proj1 (Ez Dx)) as Dz. clearbody qz. ext_of H0. clear H0. move_up. done_says.
Qed.

Lemma new_building_given site name v p n p' :
  new_building o site name v p = Done (n, p') -> dense (p_map p) -> says (p_map p') (named n KBuilding name).
Proof.
  intros H D. unfold new_building in H. inv H. ext_of H0. clear H0. inv H. ext_of H0. clear H0. inv H.
  destruct (owned_shape _ _ _ _ _ H0) as (g & ow & ->). ext_of H0. clear H0. inv H. inv H. inv H.
  apply bret_inv in H as [-> ->]. fw. move_up. done_says.
Qed.

Lemma new_storey_given building name e p st p' :
  new_storey o building name e p = Done (st, p') -> dense (p_map p) -> says (p_map p') (named (s_id st) KStorey name).
Proof.
  intros H D. unfold new_storey in H. inv H. ext_of H0. clear H0. inv H. ext_of H0. clear H0. inv H.
  destruct (owned_shape _ _ _ _ _ H0) as (g & ow & ->). ext_of H0. clear H0. inv H. inv H. inv H. inv H. inv H.
  apply bret_inv in H as [-> ->]. cbn [s_id]. fw. move_up. done_says.
Qed.

Lemma combine_seq (l : list val) : forall x y, Forall (fun iv => nth_error (x ++ y :: l) (fst iv) = Some (snd iv)) (combine (seq (S (length x)) (length l)) l).
Proof.
  induction l as [|v l IH]; intros x y; cbn [length seq combine]; constructor.
  - cbn [fst snd]. rewrite nth_error_app2 by lia. replace (S (length x) - length x)%nat with 1%nat by lia. reflexivity.
  - specialize (IH (x ++ [y]) v). rewrite app_length in IH. cbn [length] in IH. rewrite Nat.add_1_r in IH.
    rewrite <- app_assoc in IH. exact IH.
Qed.

Lemma layer_given name l p n p' :
  material_layer name l p = Done (n, p') -> dense (p_map p) ->
  says (p_map p') (n, KMaterialLayer, combine (seq 1 (length (tl l))) (tl l)) /\
  (l <> [] -> made_of (p_map p') (n, 0%nat, name)).
Proof.
  intros H D. unfold material_layer, material in H. inv H. fw. move_up. split.
  - eexists. split; [eassumption|]. destruct l as [|v l]; [constructor|]. cbn [tl set_at]. exact (combine_seq l [] (VId a)).
  - intro Hl. destruct l as [|v l]; [congruence|]. cbn [set_at] in *. do 3 eexists. split; [eassumption|]. split; [reflexivity|]. done_says.
Qed.

Lemma constituent_given mname name p n p' :
  material_constituent mname name p = Done (n, p') -> dense (p_map p) ->
  says (p_map p') (n, KMaterialConstituent, [(0%nat, VStr name)]) /\ made_of (p_map p') (n, 2%nat, mname).
Proof.
  intros H D. unfold material_constituent, material in H. inv H. fw. move_up. split; [done_says|].
  do 3 eexists. split; [eassumption|]. split; [reflexivity|]. done_says.
Qed.

Lemma wall_opening_given h name a b v dir st p n st' p' :
  wall_opening o h name a b v dir st p = Done ((n, st'), p') -> dense (p_map p) -> says (p_map p') (named n KOpeningElement name).
Proof. intros H D. unfold wall_opening in H. shape_first H. exact (place_opening_given _ _ _ _ _ _ _ _ _ H ltac:(assumption)). Qed.
Lemma slab_opening_given h name s st p n st' p' :
  slab_opening o h name s st p = Done ((n, st'), p') -> dense (p_map p) -> says (p_map p') (named n KOpeningElement name).
Proof. intros H D. unfold slab_opening in H. shape_first H. exact (place_opening_given _ _ _ _ _ _ _ _ _ H ltac:(assumption)). Qed.

Definition gives (m : dmap) (c : call) : Prop := Forall (says m) (call_given c) /\ Forall (made_of m) (call_material c).

Lemma gives_one m s x n f : call_given (s, x, [n]) = [f] -> call_material (s, x, [n]) = [] -> says m f -> gives m (s, x, [n]).
Proof. intros E1 E2 H. unfold gives. rewrite E1, E2. auto. Qed.

Lemma storey_step_given st x p st' a p' :
  storey_step o st x p = Done ((st', a), p') -> dense (p_map p) -> forall s, gives (p_map p') (s, x, a).
Proof.
  intros H D s. destruct x; cbn [storey_step] in H; try discriminate.
  - inv H. apply bret_inv in H as [E ->]. injection E as -> ->. eapply gives_one; try reflexivity.
    unfold material in H0. fw. done_says.
  - inv H. apply bret_inv in H as [E ->]. injection E as -> ->. destruct (layer_given _ _ _ _ _ H0 D) as [G1 G2].
    split; [repeat constructor; auto|]. cbn [call_material]. destruct layer; repeat constructor. apply G2. discriminate.
  - inv H. apply bret_inv in H as [E ->]. injection E as -> ->. eapply gives_one; try reflexivity.
    unfold material_layer_set in H0. fw. done_says.
  - inv H. apply bret_inv in H as [E ->]. injection E as -> ->. eapply gives_one; try reflexivity.
    unfold material_layer_set_usage in H0. fw. done_says.
  - inv H. apply bret_inv in H as [E ->]. injection E as -> ->. destruct (constituent_given _ _ _ _ _ H0 D) as [G1 G2].
    split; repeat constructor; auto.
  - inv H. apply bret_inv in H as [E ->]. injection E as -> ->. eapply gives_one; try reflexivity.
    unfold material_constituent_set in H0. fw. done_says.
  - destruct c; try discriminate; inv H; destruct a0 as [n1 st1]; apply bret_inv in H as [E ->]; injection E as -> ->;
      (eapply gives_one; try reflexivity; eapply new_type_given; eauto).
  - inv H. destruct a0 as [n1 st1]. apply bret_inv in H as [E ->]. injection E as -> ->. eapply gives_one; try reflexivity.
    eapply new_window_type_given; eauto.
  - inv H. destruct a0 as [n1 st1]. apply bret_inv in H as [E ->]. injection E as -> ->. eapply gives_one; try reflexivity.
    eapply new_space_type_given; eauto.
  - inv H. destruct a0 as [n1 st1]. apply bret_inv in H as [E ->]. injection E as -> ->. eapply gives_one; try reflexivity.
    eapply new_roof_given; eauto.
  - inv H. destruct a0 as [n1 st1]. apply bret_inv in H as [E ->]. injection E as -> ->. eapply gives_one; try reflexivity.
    eapply new_shading_given; eauto.
  - inv H. destruct a0 as [n1 st1]. apply bret_inv in H as [E ->]. injection E as -> ->. eapply gives_one; try reflexivity.
    eapply new_space_given; eauto.
  - destruct (existsb (kind_eqb k) transformable); [|discriminate]. inv H. apply bret_inv in H as [E ->]. injection E as -> ->.
    split; constructor.
  - inv H. apply bret_inv in H as [E ->]. injection E as -> ->. split; constructor.
Qed.

Lemma host_step_given st h x p st' h' a p' :
  host_step o st h x p = Done ((st', h', a), p') -> dense (p_map p) -> forall s, gives (p_map p') (s, x, a).
Proof.
  intros H D s. unfold host_step in H. destruct x; try discriminate; destruct (h_slab h); try discriminate.
  - inv H. destruct a0 as [n1 st1]. apply bret_inv in H as [E ->]. injection E as -> -> ->. eapply gives_one; try reflexivity.
    eapply wall_opening_given; eauto.
  - inv H. destruct a0 as [n1 st1]. apply bret_inv in H as [E ->]. injection E as -> -> ->. eapply gives_one; try reflexivity.
    eapply slab_opening_given; eauto.
  - inv H. destruct a0 as [[n1 w1] st1]. apply bret_inv in H as [E ->]. injection E as -> -> ->.
    destruct (wall_window_made _ _ _ _ _ _ _ _ _ _ _ _ _ _ _ H0 D) as (p1 & p2 & p3 & d & st2 & O1 & O2 & O3 & ->).
    pose proof (wall_opening_given _ _ _ _ _ _ _ _ _ _ _ O1 D) as G. ext_of O1.
    assert (X2 : ext p1 p2). { 
      assert (X : steps ext (t <-- host_thickness o CWall (h_id h) ;; rectangular_shape width height t dir (s_ctx st))) by st.
      exact (X _ _ _ O2). }
    pose proof (proj1 (X2 D0)) as D2. pose proof (place_window_given _ _ _ _ _ _ _ _ _ _ O3 D2) as G2. ext_of O3.
    split; [|constructor]. cbn [call_given]. constructor; [|repeat constructor; auto].
    eapply says_ext; [exact E0|auto|]. eapply says_ext; [exact X2|auto|]. exact G.
  - inv H. destruct a0 as [[n1 w1] st1]. apply bret_inv in H as [E ->]. injection E as -> -> ->.
    destruct (slab_window_made _ _ _ _ _ _ _ _ _ _ _ _ H0 D) as (p1 & p2 & p3 & d & st2 & O1 & O2 & O3 & ->).
    pose proof (slab_opening_given _ _ _ _ _ _ _ _ O1 D) as G. ext_of O1. ext_of O2.
    pose proof (place_window_given _ _ _ _ _ _ _ _ _ _ O3 D1) as G2. ext_of O3.
    split; [|constructor]. cbn [call_given]. constructor; [|repeat constructor; auto].
    eapply says_ext; [exact E1|auto|]. eapply says_ext; [exact E0|auto|]. exact G.
  - apply bret_inv in H as [E ->]; injection E as -> -> ->. split; constructor.
  - apply bret_inv in H as [E ->]; injection E as -> -> ->. split; constructor.
Qed.

Lemma step_given w x p w' a p' :
  step o w x p = Done ((w', a), p') -> dense (p_map p) -> gives (p_map p') (scope_ids w, x, a).
Proof.
  intros H D.
  destruct w as [|s|s b|s b st|s b st h|s b st h nm ps|s b st nm ps]; destruct x; try discriminate H;
    cbn [step] in H;
    try (inv H; destruct a0 as [st1 l1]; apply bret_inv in H as [E ->]; injection E as -> ->;
         match goal with H0 : storey_step _ _ _ _ = _ |- _ => exact (storey_step_given _ _ _ _ _ _ H0 D _) end);
    try (inv H; destruct a0 as [[st1 h1] l1]; apply bret_inv in H as [E ->]; injection E as -> ->;
         match goal with H0 : host_step _ _ _ _ _ = _ |- _ => exact (host_step_given _ _ _ _ _ _ _ _ H0 D _) end);
    try (inv H; discriminate); try (destruct a; split; constructor).
  - inv H. apply bret_inv in H as [E ->]. injection E as -> ->. eapply gives_one; try reflexivity. eapply new_site_given; eauto.
  - inv H. apply bret_inv in H as [E ->]. injection E as -> ->. eapply gives_one; try reflexivity. eapply new_building_given; eauto.
  - inv H. apply bret_inv in H as [E ->]. injection E as -> ->. eapply gives_one; try reflexivity. eapply new_storey_given; eauto.
  - inv H. destruct a0 as [n st1]. apply bret_inv in H as [E ->]. injection E as -> ->. eapply gives_one; try reflexivity.
    eapply new_wall_given; eauto.
  - inv H. destruct a0 as [n st1]. apply bret_inv in H as [E ->]. injection E as -> ->. eapply gives_one; try reflexivity.
    eapply new_slab_given; eauto.
  - inv H. apply bret_inv in H as [E ->]. injection E as -> ->. eapply gives_one; try reflexivity.
    unfold single_property in H0. fw. done_says.
  - inv H. apply bret_inv in H as [E ->]. injection E as -> ->. eapply gives_one; try reflexivity.
    unfold single_property in H0. fw. done_says.
Qed.
End Given.
