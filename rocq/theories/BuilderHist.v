(** What single calls create: products with placement and shape. *)

From Coq Require Import String Ascii List NArith ZArith Bool Lia.
From Verif Require Import Base Prims Kind Types Schema Entity EntityFacts DataMap DataSpec DataMapFacts Extractor
  Float Arith Builder BuilderBase BuilderRun BuilderGrow BuilderAny BuilderSpec BuilderAll HistorySpec.
Import ListNotations.
Open Scope N_scope.
Open Scope builder_scope.

(** ** Calls that change nothing that exists *)

Definition ext (p p' : proj) : Prop :=
  dense (p_map p) -> dense (p_map p') /\ exists new, p_map p' = p_map p ++ new.

Global Instance ext_pre : preorder ext.
Proof.
  split.
  - intros p D. split; auto. exists []. now rewrite app_nil_r.
  - intros p q r H1 H2 D. destruct (H1 D) as (D1 & n1 & E1). destruct (H2 D1) as (D2 & n2 & E2).
    split; auto. exists (n1 ++ n2). now rewrite E2, E1, app_assoc.
Qed.

Lemma ext_ins k l : steps ext (ins k l).
Proof.
  intros p n p' H D. destruct (ins_inv _ _ _ _ _ H D) as (_ & _ & -> & D'). split; auto.
  exists [(n, Ent k l)]. reflexivity.
Qed.

Global Instance closed_ext : closed anything ext.
Proof.
  split; [typeclasses eauto|intros; apply ext_ins|].
  intros p t p' H. injection H as <- <-. intro D. split; auto. exists []. now rewrite app_nil_r.
Qed.
Global Instance with_assoc_ext : with_assoc ext.
Proof. split. intros l p. exact (pre_refl p). Qed.
Global Instance with_sites_ext : with_sites ext.
Proof. split. intros l p. exact (pre_refl p). Qed.

Lemma ext_lookup p p' n e : ext p p' -> dense (p_map p) -> lookup (p_map p) n = Some e ->
  lookup (p_map p') n = Some e.
Proof. intros H D L. destruct (H D) as (_ & new & ->). now rewrite lookup_app, L. Qed.

Lemma ins_ext k l p n p' : ins k l p = Done (n, p') -> dense (p_map p) ->
  lookup (p_map p') n = Some (Ent k l) /\ n = size (p_map p) + 1 /\ ext p p' /\ dense (p_map p').
Proof.
  intros H D. pose proof (ext_ins _ _ _ _ _ H) as E. destruct (ins_inv _ _ _ _ _ H D) as (Hn & _ & -> & D').
  split; auto. cbn [p_map set_map] in *. rewrite lookup_app.
  destruct (lookup (p_map p) n) eqn:L.
  - assert (1 <= n <= size (p_map p)) by (apply dense_lookup; eauto). lia.
  - cbn [lookup]. now rewrite N.eqb_refl.
Qed.

Ltac inv H :=
  match type of H with
  | bbind _ _ _ = Done _ => let a := fresh "a" in let q := fresh "q" in let H1 := fresh "H" in
      apply bbind_inv in H as (a & q & H1 & H)
  end.
Ltac invs H := repeat inv H; try (let E := fresh "E" in apply bret_inv in H as [E ->]).

Section Hist.
Variable o : oracle.

Lemma owned_shape name p r p' : owned o name p = Done (r, p') ->
  exists g ow, r = [g; ow; VStr name; VOmit].
Proof.
  intro H. unfold owned in H. inv H. inv H. apply bret_inv in H as [-> ->]. eauto.
Qed.

Lemma new_relative_inv axis k parent p lp p' : new_relative axis k parent p = Done (lp, p') ->
  dense (p_map p) ->
  exists l q ax, lookup (p_map p) parent = Some (Ent k l) /\ nth_error l 5 = Some (VId q) /\
    lp = [VId q; VId ax] /\ lookup (p_map p') ax = Some (Ent KAxis3D axis).
Proof.
  intros H D. unfold new_relative in H. inv H. apply fetch_inv in H0 as [-> L]. inv H.
  apply need_inv in H0 as [-> E]. unfold placement_of, attr_id in E. inv H.
  apply bret_inv in H as [-> ->]. destruct (ins_ext _ _ _ _ _ H0 D) as (La & _).
  destruct (nth_error a 5) as [[]|] eqn:E5; try discriminate. injection E as ->. eauto 8.
Qed.

(** A product of kind [k] with placement relative to [par], axis and shape. *)
Definition made (m : dmap) (b : N) (k : kind) (n : N) (par : option N) (axis : list val) (shape : option (list val)) : Prop :=
  exists l pl ax, lookup m n = Some (Ent k l) /\ nth_error l 5 = Some (VId pl) /\
    lookup m pl = Some (Ent KLocalPlacement [match par with Some q => VId q | None => VOmit end; VId ax]) /\
    lookup m ax = Some (Ent KAxis3D axis) /\ b < pl /\
    match shape with
    | Some d => exists sh, nth_error l 6 = Some (VId sh) /\ lookup m sh = Some (Ent KProductDefinitionShape d) /\ b < sh
    | None => nth_error l 6 = Some VOmit
    end.

(** Forward reasoning along the states of a call. *)
Ltac ext_of H :=
  match type of H with
  | ?c ?q = Done (?a, ?q') =>
      let E := fresh "E" in
      assert (E : ext q q') by (let X := fresh in assert (X : steps ext c) by st; exact (X _ _ _ H));
      match goal with D : dense (p_map q) |- _ => let D' := fresh "D" in pose proof (proj1 (E D)) as D' end
  end.
Ltac fw :=
  repeat match goal with
  | H : ins ?k ?l ?q = Done (?n, ?q'), D : dense (p_map ?q) |- _ =>
      let L := fresh "L" in let S := fresh "S" in let E := fresh "E" in let D' := fresh "D" in
      apply ins_ext in H as (L & S & E & D'); [|exact D]
  | H : ?c ?q = Done (?a, ?q'), D : dense (p_map ?q) |- _ => ext_of H; clear H
  end.
Ltac move_up :=
  repeat match goal with
  | L : lookup (p_map ?q) ?n = Some ?e, E : ext ?q ?q', D : dense (p_map ?q) |- _ =>
      apply (ext_lookup _ _ _ _ E D) in L
  end.


Ltac finish_made :=
  fw; move_up;
  match goal with L : lookup _ ?n = Some (Ent _ (_ ++ _)) |- made _ _ _ ?n _ _ _ => idtac end;
  unfold made; do 3 eexists;
  split; [eassumption|]; split; [reflexivity|]; split; [eassumption|]; split; [eassumption|];
  split; [|first [reflexivity|eexists; split; [reflexivity|split; [eassumption|]]]].

Lemma ext_size p p' : ext p p' -> dense (p_map p) -> size (p_map p) <= size (p_map p').
Proof. intros H D. destruct (H D) as (_ & new & ->). unfold size. rewrite app_length. lia. Qed.

Ltac sizes :=
  repeat match goal with
  | E : ext ?q ?q', D : dense (p_map ?q) |- _ => pose proof (ext_size _ _ E D); clear E
  end; lia.

Lemma place_element_made c m ty name pos shape st p n st' p' :
  place_element o c m ty name pos shape st p = Done ((n, st'), p') -> dense (p_map p) ->
  exists l q, lookup (p_map p) (s_id st) = Some (Ent KStorey l) /\ nth_error l 5 = Some (VId q) /\
    made (p_map p') (size (p_map p)) (kind_of_cls c) n (Some q) pos (Some shape).
Proof.
  intros H D. unfold place_element in H. inv H.
  destruct (new_relative_inv _ _ _ _ _ _ H0 D) as (l & q1 & ax & L1 & E5 & -> & L2).
  exists l, q1. split; auto. split; auto. clear L1. ext_of H0. clear H0. inv H.
  destruct (owned_shape _ _ _ _ H0) as (g & ow & ->). ext_of H0. clear H0.
  inv H. inv H. inv H. inv H. apply bret_inv in H as [E1 ->]. injection E1 as -> ->.
  finish_made; sizes.
Qed.

Lemma place_opening_made h name pos shape st p n st' p' :
  place_opening o h name pos shape st p = Done ((n, st'), p') -> dense (p_map p) ->
  exists l q, lookup (p_map p) (h_id h) = Some (Ent (host_kind h) l) /\ nth_error l 5 = Some (VId q) /\
    made (p_map p') (size (p_map p)) KOpeningElement n (Some q) pos (Some shape).
Proof.
  intros H D. unfold place_opening in H. inv H.
  destruct (new_relative_inv _ _ _ _ _ _ H0 D) as (l & q1 & ax & L1 & E5 & -> & L2).
  exists l, q1. split; auto. split; auto. clear L1. ext_of H0. clear H0. inv H.
  destruct (owned_shape _ _ _ _ H0) as (g & ow & ->). ext_of H0. clear H0.
  inv H. inv H. inv H. apply bret_inv in H as [E1 ->]. injection E1 as -> ->.
  finish_made; sizes.
Qed.

(** The same with the coordinates of the placement. *)
Definition placed (m : dmap) (b : N) (k : kind) (n : N) (par : option N) (v : vec3) (shape : option (list val)) : Prop :=
  exists pt, made m b k n par [VId pt; VOmit; VOmit] shape /\ lookup m pt = Some (Ent KPoint3D [vec v]).

Lemma axis3d_inv v p a p' : axis3d v p = Done (a, p') -> dense (p_map p) ->
  exists pt, a = [VId pt; VOmit; VOmit] /\ lookup (p_map p') pt = Some (Ent KPoint3D [vec v]) /\
    ext p p' /\ dense (p_map p').
Proof.
  intros H D. unfold axis3d in H. inv H. apply bret_inv in H as [-> ->].
  destruct (ins_ext _ _ _ _ _ H0 D) as (L & _ & E & D'). eauto 8.
Qed.

Lemma made_ext p p' b k n par a sh : made (p_map p) b k n par a sh -> ext p p' -> dense (p_map p) ->
  made (p_map p') b k n par a sh.
Proof.
  intros (l & pl & ax & H1 & H2 & H3 & H4 & H5 & H6) E D. exists l, pl, ax.
  split; [eapply ext_lookup; eauto|]. split; auto. split; [eapply ext_lookup; eauto|].
  split; [eapply ext_lookup; eauto|]. split; auto. destruct sh; auto.
  destruct H6 as (s & H6 & H7 & H8). exists s. split; auto. split; auto. eapply ext_lookup; eauto.
Qed.

Lemma placed_ext p p' b k n par v sh : placed (p_map p) b k n par v sh -> ext p p' -> dense (p_map p) ->
  placed (p_map p') b k n par v sh.
Proof.
  intros (pt & H & L) E D. exists pt. split; [eapply made_ext; eauto|eapply ext_lookup; eauto].
Qed.

Lemma made_weaken m b b' k n par a sh : made m b k n par a sh -> b' <= b -> made m b' k n par a sh.
Proof.
  intros (l & pl & ax & H1 & H2 & H3 & H4 & H5 & H6) Hb. exists l, pl, ax. repeat (split; auto); [lia|].
  destruct sh; auto. destruct H6 as (s & H6 & H7 & H8). exists s. repeat (split; auto). lia.
Qed.

(** The parent's placement as it was before the call. *)
Lemma ext_fetch p p' n k l : ext p p' -> dense (p_map p) -> lookup (p_map p') n = Some (Ent k l) ->
  n <= size (p_map p) -> lookup (p_map p) n = Some (Ent k l).
Proof.
  intros E D L Hn. destruct (E D) as (D' & new & Eq).
  assert (1 <= n <= size (p_map p')) by (apply dense_lookup; eauto).
  destruct (proj2 (dense_lookup (p_map p) n D)) as [e He]; [lia|].
  rewrite Eq, lookup_app, He in L. congruence.
Qed.

Lemma place_window_made m ty op name shape st p n st' p' :
  place_window o m ty op name shape st p = Done ((n, st'), p') -> dense (p_map p) ->
  exists l q, lookup (p_map p') op = Some (Ent KOpeningElement l) /\ nth_error l 5 = Some (VId q) /\
    placed (p_map p') (size (p_map p)) KWindow n (Some q) (vadd v_zero v_zero) (Some shape).
Proof.
  intros H D. unfold place_window in H. inv H.
  destruct (axis3d_inv _ _ _ _ H0 D) as (pt & -> & Lp & E0 & D0). clear H0. inv H.
  destruct (new_relative_inv _ _ _ _ _ _ H0 D0) as (l & q1 & ax & L1 & E5 & -> & L2).
  exists l, q1. ext_of H0. clear H0. inv H.
  destruct (owned_shape _ _ _ _ H0) as (g & ow & ->). ext_of H0. clear H0.
  inv H. inv H. inv H. inv H. apply bret_inv in H as [E1' ->]. injection E1' as -> ->.
  fw. move_up. split; auto. split; auto. exists pt. split; auto. finish_made; sizes.
Qed.

Lemma new_space_made ty name cs h v st p n st' p' :
  new_space o ty name cs h v st p = Done ((n, st'), p') -> dense (p_map p) ->
  exists l q b, lookup (p_map p') (s_id st) = Some (Ent KStorey l) /\ nth_error l 5 = Some (VId q) /\
    placed (p_map p') (size (p_map p)) KSpace n (Some q) v (Some b) /\
    exists p1, horizontal_shape cs h (s_ctx st) p = Done (b, p1) /\ ext p1 p' /\ dense (p_map p1).
Proof.
  intros H D. unfold new_space in H. inv H. pose proof H0 as HB. ext_of H0. clear H0. inv H.
  destruct (axis3d_inv _ _ _ _ H0 D0) as (pt & -> & Lp & E0 & D1). clear H0. inv H.
  destruct (new_relative_inv _ _ _ _ _ _ H0 D1) as (l & q2 & ax & L1 & E5 & -> & L2).
  exists l, q2, a. ext_of H0. clear H0. inv H.
  destruct (owned_shape _ _ _ _ H0) as (g & ow & ->). ext_of H0. clear H0.
  inv H. inv H. inv H. apply bret_inv in H as [E1' ->]. injection E1' as -> ->.
  revert HB. fw. move_up. intro HB. split; auto. split; auto.
  split; [exists pt; split; auto; finish_made; sizes|].
  exists q. split; auto. split; auto.
  repeat first [eassumption|eapply pre_trans; [eassumption|]].
Qed.

Lemma new_building_made site name v p n p' :
  new_building o site name v p = Done (n, p') -> dense (p_map p) ->
  exists l q, lookup (p_map p') site = Some (Ent KSite l) /\ nth_error l 5 = Some (VId q) /\
    placed (p_map p') (size (p_map p)) KBuilding n (Some q) v None.
Proof.
  intros H D. unfold new_building in H. inv H.
  destruct (axis3d_inv _ _ _ _ H0 D) as (pt & -> & Lp & E0 & D0). clear H0. inv H.
  destruct (new_relative_inv _ _ _ _ _ _ H0 D0) as (l & q1 & ax & L1 & E5 & -> & L2).
  exists l, q1. ext_of H0. clear H0. inv H.
  destruct (owned_shape _ _ _ _ H0) as (g & ow & ->). ext_of H0. clear H0.
  inv H. inv H. inv H. apply bret_inv in H as [-> ->].
  fw. move_up. split; auto. split; auto. exists pt. split; auto. finish_made; sizes.
Qed.

Lemma new_storey_made building name e p st p' :
  new_storey o building name e p = Done (st, p') -> dense (p_map p) ->
  exists l q, lookup (p_map p') building = Some (Ent KBuilding l) /\ nth_error l 5 = Some (VId q) /\
    placed (p_map p') (size (p_map p)) KStorey (s_id st) (Some q) (vscale v_z e) None.
Proof.
  intros H D. unfold new_storey in H. inv H.
  destruct (axis3d_inv _ _ _ _ H0 D) as (pt & -> & Lp & E0 & D0). clear H0. inv H.
  destruct (new_relative_inv _ _ _ _ _ _ H0 D0) as (l & q1 & ax & L1 & E5 & -> & L2).
  exists l, q1. ext_of H0. clear H0. inv H.
  destruct (owned_shape _ _ _ _ H0) as (g & ow & ->). ext_of H0. clear H0.
  inv H. inv H. inv H. inv H. inv H. apply bret_inv in H as [-> ->]. cbn [s_id].
  fw. move_up. split; auto. split; auto. exists pt. split; auto. finish_made; sizes.
Qed.

Lemma new_site_made name v p n p' :
  new_site o name v p = Done (n, p') -> dense (p_map p) ->
  placed (p_map p') (size (p_map p)) KSite n None v None.
Proof.
  intros H D. unfold new_site in H. inv H.
  destruct (axis3d_inv _ _ _ _ H0 D) as (pt & -> & Lp & E0 & D0). clear H0. inv H.
  unfold placement_new in H0. inv H0. apply bret_inv in H0 as [-> ->]. inv H.
  destruct (ins_ext _ _ _ _ _ H1 D0) as (L1 & S1 & E1 & D1). clear H1.
  destruct (owned_shape _ _ _ _ H0) as (g & ow & ->). ext_of H0. clear H0.
  inv H. inv H. destruct (ins_ext _ _ _ _ _ H0 D2) as (L3 & S3 & E3 & D3). clear H0.
  destruct (ins_ext _ _ _ _ _ H1 D3) as (L4 & S4 & E4 & D4). clear H1.
  inv H. injection H0 as <- <-. inv H. injection H0 as <- <-.
  inv H. apply bret_inv in H as [-> ->].
  set (q5 := set_sites _ q3) in H0. assert (E5 : ext q3 q5) by exact (pre_refl q3).
  pose proof (proj1 (E5 D4)) as D5. clearbody q5. ext_of H0. clear H0. move_up. exists pt. split; auto. finish_made; sizes.
Qed.

(** A call that first makes a shape and then a product. *)
Definition shaped (c : B (list val)) (p p' : proj) (k : kind) (n : N) (pk : kind) (par : N) (v : vec3) : Prop :=
  exists l q b p1, lookup (p_map p') par = Some (Ent pk l) /\ nth_error l 5 = Some (VId q) /\
    placed (p_map p') (size (p_map p)) k n (Some q) v (Some b) /\
    c p = Done (b, p1) /\ ext p p1 /\ ext p1 p' /\ dense (p_map p1).

Lemma axis_place c m ty name v b st p n st' p' :
  (a <-- axis3d v ;; place_element o c m ty name a b st) p = Done ((n, st'), p') -> dense (p_map p) ->
  exists l q, lookup (p_map p') (s_id st) = Some (Ent KStorey l) /\ nth_error l 5 = Some (VId q) /\
    placed (p_map p') (size (p_map p)) (kind_of_cls c) n (Some q) v (Some b) /\ ext p p'.
Proof.
  intros H D. inv H. destruct (axis3d_inv _ _ _ _ H0 D) as (pt & -> & Lp & E0 & D0). clear H0.
  destruct (place_element_made _ _ _ _ _ _ _ _ _ _ _ H D0) as (l & q1 & L & E5 & M).
  ext_of H. clear H. assert (E' : ext p p') by (eapply pre_trans; eauto).
  exists l, q1. move_up. split; auto. split; auto. split; auto. exists pt. split; auto.
  eapply made_weaken; eauto. sizes.
Qed.

Lemma shape_place (f : B (list val)) c m ty name v st p n st' p' :
  steps ext f ->
  (b <-- f ;; a <-- axis3d v ;; place_element o c m ty name a b st) p = Done ((n, st'), p') -> dense (p_map p) ->
  shaped f p p' (kind_of_cls c) n KStorey (s_id st) v.
Proof.
  intros Hf H D. inv H. pose proof (Hf _ _ _ H0) as E. pose proof (proj1 (E D)) as D'.
  destruct (axis_place _ _ _ _ _ _ _ _ _ _ _ H D') as (l & q1 & H1 & H2 & (pt & M & L) & E').
  exists l, q1, a, q. split; auto. split; auto. split; [exists pt; split; auto; eapply made_weaken; eauto; sizes|]. auto.
Qed.

Lemma new_wall_made m ty name s v st p n st' p' :
  new_wall o m ty name s v st p = Done ((n, st'), p') -> dense (p_map p) ->
  shaped (wall_body o m s (s_ctx st)) p p' KWall n KStorey (s_id st) v.
Proof. intros. apply (shape_place _ CWall m ty name v st p n st' p'); auto; st. Qed.

Lemma new_slab_made m ty name s v st p n st' p' :
  new_slab o m ty name s v st p = Done ((n, st'), p') -> dense (p_map p) ->
  shaped (slab_body o m s (s_ctx st)) p p' KSlab n KStorey (s_id st) v.
Proof. intros. apply (shape_place _ CSlab m ty name v st p n st' p'); auto; st. Qed.

Definition roof_body (m : N) (cs : list vec2) (ctx : N) : B (list val) :=
  t <-- thickness o m ;; horizontal_shape cs t ctx.
Lemma new_roof_made m ty name cs v st p n st' p' :
  new_roof o m ty name cs v st p = Done ((n, st'), p') -> dense (p_map p) ->
  shaped (roof_body m cs (s_ctx st)) p p' KRoof n KStorey (s_id st) v.
Proof.
  intros. apply (shape_place _ CRoof m ty name v st p n st' p'); auto; [unfold roof_body; st|].
  unfold roof_body. rewrite bbind_assoc. exact H.
Qed.

Definition shading_body (m : N) (a b : f64) (ctx : N) : B (list val) :=
  t <-- thickness o m ;; rectangular_shape a t b (direction_from v_z) ctx.
Lemma new_shading_made m ty name a b v st p n st' p' :
  new_shading o m ty name a b v st p = Done ((n, st'), p') -> dense (p_map p) ->
  shaped (shading_body m a b (s_ctx st)) p p' KShadingDevice n KStorey (s_id st) v.
Proof.
  intros. apply (shape_place _ CShading m ty name v st p n st' p'); auto; [unfold shading_body; st|].
  unfold shading_body. rewrite bbind_assoc. exact H.
Qed.

Lemma new_space_shaped ty name cs h v st p n st' p' :
  new_space o ty name cs h v st p = Done ((n, st'), p') -> dense (p_map p) ->
  shaped (horizontal_shape cs h (s_ctx st)) p p' KSpace n KStorey (s_id st) v.
Proof.
  intros H D. destruct (new_space_made _ _ _ _ _ _ _ _ _ _ H D) as (l & q & b & H1 & H2 & H3 & p1 & H4 & H5 & H6).
  exists l, q, b, p1. repeat (split; auto).
  assert (X : steps ext (horizontal_shape cs h (s_ctx st))) by st. apply (X _ _ _ H4 D).
Qed.

Definition wall_hole (h : host) (a b : f64) (dir : vec3) (ctx : N) : B (list val) :=
  t <-- host_thickness o CWall (h_id h) ;; rectangular_shape a b t (direction_from dir) ctx.

Lemma wall_opening_made h name a b v dir st p n st' p' :
  wall_opening o h name a b v dir st p = Done ((n, st'), p') -> dense (p_map p) ->
  exists l q d p0 p1, lookup (p_map p') (h_id h) = Some (Ent (host_kind h) l) /\ nth_error l 5 = Some (VId q) /\
    placed (p_map p') (size (p_map p)) KOpeningElement n (Some q) v (Some d) /\
    wall_hole h a b dir (s_ctx st) p0 = Done (d, p1) /\ ext p p0 /\ dense (p_map p0) /\ ext p1 p' /\ dense (p_map p1).
Proof.
  intros H D. unfold wall_opening in H. inv H.
  destruct (axis3d_inv _ _ _ _ H0 D) as (pt & -> & Lp & E0 & D0). clear H0.
  change ((t <-- host_thickness o CWall (h_id h) ;;
           (fun t => d <-- rectangular_shape a b t (direction_from dir) (s_ctx st) ;;
            place_opening o h name [VId pt; VOmit; VOmit] d st) t) q = Done ((n, st'), p')) in H.
  rewrite <- (bbind_assoc (host_thickness o CWall (h_id h))
    (fun t => rectangular_shape a b t (direction_from dir) (s_ctx st))
    (fun d => place_opening o h name [VId pt; VOmit; VOmit] d st)) in H.
  inv H. pose proof H0 as HB. assert (X : steps ext (wall_hole h a b dir (s_ctx st))) by (unfold wall_hole; st).
  pose proof (X _ _ _ H0) as E1. pose proof (proj1 (E1 D0)) as D1. clear H0 X.
  destruct (place_opening_made _ _ _ _ _ _ _ _ _ H D1) as (l & q1 & L & E5 & M).
  ext_of H. exists l, q1, a0, q, q0. assert (Ep : ext q0 p') by auto. move_up.
  split; auto. split; auto. split; [exists pt; split; auto; eapply made_weaken; eauto; sizes|]. auto.
Qed.

Lemma slab_opening_made h name s st p n st' p' :
  slab_opening o h name s st p = Done ((n, st'), p') -> dense (p_map p) ->
  exists l q d p1, lookup (p_map p') (h_id h) = Some (Ent (host_kind h) l) /\ nth_error l 5 = Some (VId q) /\
    placed (p_map p') (size (p_map p)) KOpeningElement n (Some q) (opening_place s) (Some d) /\
    slab_filling o h s (s_ctx st) p = Done (d, p1) /\ ext p p1 /\ ext p1 p' /\ dense (p_map p1).
Proof.
  intros H D. unfold slab_opening in H. inv H. pose proof H0 as HB. ext_of H0. clear H0. inv H.
  destruct (axis3d_inv _ _ _ _ H0 D0) as (pt & -> & Lp & E0 & D1). clear H0.
  destruct (place_opening_made _ _ _ _ _ _ _ _ _ H D1) as (l & q1 & L & E5 & M).
  ext_of H. exists l, q1, a, q. assert (Ep : ext q p') by (eapply pre_trans; eauto). move_up.
  split; auto. split; auto. split; [exists pt; split; auto; eapply made_weaken; eauto; sizes|]. auto.
Qed.

Lemma wall_window_made h m ty name a b v dir st p n w st' p' :
  wall_window o h m ty name a b v dir st p = Done ((n, w, st'), p') -> dense (p_map p) ->
  exists p1 p2 p3 d st1,
    wall_opening o h (window_opening_name name) a b v v_z st p = Done ((n, st1), p1) /\
    (t <-- host_thickness o CWall (h_id h) ;; rectangular_shape a b t dir (s_ctx st)) p1 = Done (d, p2) /\
    place_window o m ty n name d st1 p2 = Done ((w, st'), p3) /\ p' = p3.
Proof.
  intros H D. unfold wall_window in H. inv H. destruct a0 as [n1 st1].
  rewrite <- (bbind_assoc (host_thickness o CWall (h_id h)) (fun t => rectangular_shape a b t dir (s_ctx st))
    (fun d => letp (w, st2) <-- place_window o m ty n1 name d st1 ;; bret (n1, w, st2))) in H.
  inv H. inv H. destruct a1 as [w1 st2]. apply bret_inv in H as [E ->]. injection E as -> -> ->.
  exists q, q0, q1, a0, st1. auto.
Qed.

Lemma slab_window_made h m ty name s st p n w st' p' :
  slab_window o h m ty name s st p = Done ((n, w, st'), p') -> dense (p_map p) ->
  exists p1 p2 p3 d st1,
    slab_opening o h (window_opening_name name) s st p = Done ((n, st1), p1) /\
    slab_filling o h s (s_ctx st) p1 = Done (d, p2) /\
    place_window o m ty n name d st1 p2 = Done ((w, st'), p3) /\ p' = p3.
Proof.
  intros H D. unfold slab_window in H. inv H. destruct a as [n1 st1].
  inv H. inv H. destruct a0 as [w1 st2]. apply bret_inv in H as [E ->]. injection E as -> -> ->.
  exists q, q0, q1, a, st1. auto.
Qed.
End Hist.
