(** Every direction in a built model has length one. *)

From Coq Require Import String Ascii List NArith ZArith Bool Lia.
From Coq Require Import QArith Qpower Qabs Lqa.
From Coq Require Import ZifyBool ZifyNat ZifyN.
From Verif Require Import Base Prims Kind Types Schema Entity EntityFacts DataMap DataSpec DataMapFacts Extractor
  Float RoundFacts Arith ArithSpec ArithRound ArithUnit Builder BuilderBase BuilderRun BuilderGrow BuilderAll DirSpec.
Import ListNotations.
Open Scope N_scope.
Open Scope builder_scope.

(** ** Vectors *)

Lemma unit_moderate v : unit3 v -> moderate3 v.
Proof.
  destruct v as [[x y] z]. unfold unit3, moderate3, coords. intros [F H].
  apply Qabs_Qle_condition in H. destruct H as [H1 H2].
  assert (C : (inject_Z 2 ^ (-47) <= 1 # 2)%Q) by (vm_compute; discriminate).
  assert (S1 : (1 # 2 <= sum_sq [x; y; z])%Q) by lra. assert (S2 : (sum_sq [x; y; z] <= 3 # 2)%Q) by lra.
  cbn [sum_sq fold_right] in S1, S2.
  inversion F as [|? ? Fx F1]; subst. inversion F1 as [|? ? Fy F2]; subst. inversion F2 as [|? ? Fz _]; subst.
  assert (P : forall a : Q, (0 <= a * a)%Q) by (intro; nra).
  assert (E : forall a : Q, (Qabs a * Qabs a == a * a)%Q).
  { intro a. rewrite <- Qabs_Qmult. apply Qabs_pos, P. }
  assert (B : forall a : Q, (a * a <= 3 # 2)%Q -> (Qabs a <= inject_Z 2 ^ 400)%Q).
  { intros a Ha. rewrite <- E in Ha. pose proof (Qabs_nonneg a).
    assert (Qabs a <= 2)%Q.
    { destruct (Qlt_le_dec 2 (Qabs a)) as [L|]; auto. exfalso. nra. }
    assert (2 <= inject_Z 2 ^ 400)%Q by (vm_compute; discriminate). lra. }
  assert (L : forall a : Q, (1 # 6 <= a * a)%Q -> (inject_Z 2 ^ (-400) <= Qabs a)%Q).
  { intros a Ha. rewrite <- E in Ha. pose proof (Qabs_nonneg a).
    assert (1 # 6 <= Qabs a)%Q.
    { destruct (Qlt_le_dec (Qabs a) (1 # 6)) as [G|]; auto. exfalso. nra. }
    assert (inject_Z 2 ^ (-400) <= 1 # 6)%Q by (vm_compute; discriminate). lra. }
  pose proof (P (fv x)). pose proof (P (fv y)). pose proof (P (fv z)).
  split.
  - constructor; [split; auto; apply B; lra|]. constructor; [split; auto; apply B; lra|].
    constructor; [split; auto; apply B; lra|constructor].
  - destruct (Qlt_le_dec (fv x * fv x) (1 # 6)) as [G|G]; [|apply Exists_cons_hd; now apply L].
    destruct (Qlt_le_dec (fv y * fv y) (1 # 6)) as [G'|G']; [|apply Exists_cons_tl, Exists_cons_hd; now apply L].
    apply Exists_cons_tl, Exists_cons_tl, Exists_cons_hd. apply L. lra.
Qed.

Lemma normalize_unit v : moderate3 v -> unit3 (vnormalize v).
Proof.
  destruct v as [[x y] z]. intro H. pose proof (normalize3 x y z H) as N.
  destruct (vnormalize (x, y, z)) as [[a b] c]. exact (proj1 N).
Qed.

Ltac mod_z := split; [repeat (constructor; [split; [split; [reflexivity|split; [split; discriminate|first [now left|right; discriminate]]]|vm_compute; discriminate]|]); constructor
  | first [apply Exists_cons_hd; vm_compute; discriminate
          |apply Exists_cons_tl, Exists_cons_hd; vm_compute; discriminate
          |apply Exists_cons_tl, Exists_cons_tl, Exists_cons_hd; vm_compute; discriminate]].
Lemma moderate_x : moderate3 v_x. Proof. mod_z. Qed.
Lemma moderate_y : moderate3 v_y. Proof. mod_z. Qed.
Lemma moderate_z : moderate3 v_z. Proof. mod_z. Qed.

(** Exact results. *)
Lemma exact_value x d f : rounded x d -> finite f -> (fv f == x)%Q -> (Qabs x <= b2 400)%Q -> finite d /\ (fv d == x)%Q.
Proof.
  intros R F E L. assert (C : (b2 400 < limit)%Q) by reflexivity.
  destruct R as [d _ (Fd & Hn & _) _ _|s L' _]; [|lra]. split; auto.
  specialize (Hn f F). assert (Z : (x - fv f == 0)%Q) by lra. rewrite Z in Hn. change (Qabs 0) with 0%Q in Hn.
  apply Qabs_Qle_condition in Hn. lra.
Qed.

Definition is (d : f64) (x : Q) : Prop := finite d /\ (fv d == x)%Q.

Lemma is_mul a b x y f :
  is a x -> is b y -> finite f -> (fv f == x * y)%Q -> (Qabs (x * y) <= b2 400)%Q -> is (fmul a b) (x * y).
Proof.
  intros [Fa Ea] [Fb Eb] Ff E L. eapply exact_value; [|exact Ff|exact E|exact L].
  eapply rounded_eq; [|apply fmul_rounded; auto]. now rewrite Ea, Eb.
Qed.
Lemma is_sub a b x y f :
  is a x -> is b y -> finite f -> (fv f == x - y)%Q -> (Qabs (x - y) <= b2 400)%Q -> is (fsub a b) (x - y).
Proof.
  intros [Fa Ea] [Fb Eb] Ff E L. eapply exact_value; [|exact Ff|exact E|exact L].
  eapply rounded_eq; [|apply fsub_rounded; auto]. now rewrite Ea, Eb.
Qed.
Lemma is_eq d x y : (x == y)%Q -> is d x -> is d y.
Proof. intros E [F H]. split; auto. now rewrite H. Qed.

Lemma zero_finite : finite f_zero.
Proof. split; [reflexivity|split; [split; discriminate|now left]]. Qed.
Lemma value_zero : is f_zero 0.
Proof. split; [apply zero_finite|reflexivity]. Qed.
Lemma is_one : is f_one 1.
Proof. split; [apply f_one_finite|reflexivity]. Qed.

(** The cross product with the z axis. *)
Lemma cross_values a b c :
  moderate a -> moderate b -> finite c ->
  let '(p, q, r) := vcross (a, b, c) v_z in is p (fv b) /\ is q (- fv a) /\ is r 0.
Proof.
  intros [Fa Ba] [Fb Bb] Fc.
  assert (Z0 : (Qabs 0 <= b2 400)%Q) by (vm_compute; discriminate).
  assert (Iz : is c (fv c)) by (split; [auto|reflexivity]).
  assert (Ia : is a (fv a)) by (split; [auto|reflexivity]). assert (Ib : is b (fv b)) by (split; [auto|reflexivity]).
  assert (M0 : forall d, is d (fv d) -> is (fmul d f_zero) 0).
  { intros d I. eapply is_eq; [|eapply (is_mul d f_zero (fv d) 0 f_zero I value_zero zero_finite)].
    - ring.
    - setoid_replace (fv d * 0)%Q with 0%Q by ring. reflexivity.
    - setoid_replace (fv d * 0)%Q with 0%Q by ring. exact Z0. }
  assert (M0' : forall d x, is d x -> is (fmul f_zero d) 0).
  { intros d x I. eapply is_eq; [|eapply (is_mul f_zero d 0 x f_zero value_zero I zero_finite)].
    - ring.
    - setoid_replace (0 * x)%Q with 0%Q by ring. reflexivity.
    - setoid_replace (0 * x)%Q with 0%Q by ring. exact Z0. }
  assert (M1' : is (fmul b f_one) (fv b)).
  { eapply is_eq; [|eapply (is_mul b f_one (fv b) 1 b Ib is_one Fb)].
    - ring.
    - ring.
    - setoid_replace (fv b * 1)%Q with (fv b) by ring. exact Bb. }
  assert (M1'' : is (fmul f_one a) (fv a)).
  { eapply is_eq; [|eapply (is_mul f_one a 1 (fv a) a is_one Ia Fa)].
    - ring.
    - ring.
    - setoid_replace (1 * fv a)%Q with (fv a) by ring. exact Ba. }
  assert (I1 : is (fsub (fmul b f_one) (fmul f_zero c)) (fv b)).
  { eapply is_eq; [|eapply (is_sub _ _ (fv b) 0 b M1' (M0' _ _ Iz) Fb)].
    - ring.
    - ring.
    - setoid_replace (fv b - 0)%Q with (fv b) by ring. exact Bb. }
  assert (I2 : is (fsub (fmul c f_zero) (fmul f_one a)) (- fv a)).
  { eapply is_eq; [|eapply (is_sub _ _ 0 (fv a) (fopp a))].
    - ring.
    - eapply M0. split; [apply Iz|reflexivity].
    - exact M1''.
    - now apply fopp_finite.
    - rewrite fopp_value. ring.
    - setoid_replace (0 - fv a)%Q with (- fv a)%Q by ring. rewrite Qabs_opp. exact Ba. }
  assert (I3 : is (fsub (fmul a f_zero) (fmul f_zero b)) 0).
  { eapply is_eq; [|eapply (is_sub _ _ 0 0 f_zero (M0 _ Ia) (M0' _ _ Ib) zero_finite)]; [reflexivity|reflexivity|exact Z0]. }
  exact (conj I1 (conj I2 I3)).
Qed.

Lemma zero_zero : is (fsub f_zero f_zero) 0.
Proof.
  eapply is_eq; [|eapply (is_sub _ _ 0 0 f_zero); [apply value_zero|apply value_zero|apply zero_finite| |]];
    [reflexivity|reflexivity|vm_compute; discriminate].
Qed.

Lemma cross_moderate a b c :
  moderate_vector [a; b] -> finite c -> moderate3 (vcross (a, b, c) v_z).
Proof.
  intros [M E] Fc. inversion M as [|? ? Ma M1]; subst. inversion M1 as [|? ? Mb _]; subst.
  pose proof (cross_values a b c Ma Mb Fc) as H. destruct (vcross (a, b, c) v_z) as [[p q] r].
  destruct H as ([F1 E1] & [F2 E2] & [F3 E3]). destruct Ma as [_ Ba], Mb as [_ Bb]. unfold moderate3, coords. split.
  - constructor; [split; auto; rewrite E1; exact Bb|]. constructor; [split; auto; rewrite E2, Qabs_opp; exact Ba|].
    constructor; [split; auto; rewrite E3; vm_compute; discriminate|constructor].
  - inversion E as [? ? H|? ? E4]; subst.
    + apply Exists_cons_tl, Exists_cons_hd. rewrite E2, Qabs_opp. exact H.
    + inversion E4 as [? ? H|? ? E5]; subst; [|inversion E5]. apply Exists_cons_hd. rewrite E1. exact H.
Qed.

Lemma cross_z a b :
  moderate_vector [a; b] -> moderate3 (vcross (a, b, fsub f_zero f_zero) v_z).
Proof. intro M. exact (cross_moderate a b _ M (proj1 zero_zero)). Qed.

(** ** Calls *)

Definition dinv (p : proj) : Prop := dense (p_map p) /\ unit_directions (p_map p).
Definition dir_keep (p p' : proj) : Prop := dinv p -> dinv p'.
Definition no_dir (k : kind) : bool := negb (kind_eqb k KDirection3D).

Global Instance dir_pre : preorder dir_keep.
Proof. split; unfold dir_keep; auto. Qed.

Lemma dir_ins_gen k l : (k = KDirection3D -> exists v, l = [vec v] /\ unit3 v) -> steps dir_keep (ins k l).
Proof.
  intros Hk p n p' H [Hd Hu]. apply ins_inv in H as (H1 & H2 & -> & H3); auto. split; auto.
  cbn [set_map p_map]. intros i x Hi. rewrite lookup_app in Hi.
  destruct (lookup (p_map p) i) eqn:E.
  - injection Hi as ->. eauto.
  - cbn [lookup] in Hi. destruct (n =? i)%N; [|discriminate]. injection Hi as -> ->. auto.
Qed.
Lemma dir_ins k l : no_dir k = true -> steps dir_keep (ins k l).
Proof. intro H. apply dir_ins_gen. intros ->. discriminate. Qed.
Lemma dir_tick : steps dir_keep tick.
Proof. intros p t p' H. injection H as <- <-. intro Hd. exact Hd. Qed.
Lemma dir_modify n v : steps dir_keep (modify KProductDefinitionShape n (set_at 2 v)).
Proof.
  intros p u p' H [Hd Hu]. pose proof (proj1 (grow_modify anything n v p u p' H Hd)) as Hd'. split; auto.
  apply modify_inv in H as (l & Hl & ->). cbn [set_map p_map]. intros i x Hi.
  rewrite lookup_put in Hi by now apply dense_increasing. destruct (i =? n)%N; [discriminate|]. eauto.
Qed.
Global Instance closed_dir : closed no_dir dir_keep.
Proof. split; [apply dir_pre|intros; now apply dir_ins|apply dir_tick]. Qed.
Global Instance modify_dir : with_modify dir_keep.
Proof. split. intros; apply dir_modify. Qed.
Global Instance assoc_dir : with_assoc dir_keep.
Proof. split. intros l p Hd. exact Hd. Qed.
Global Instance sites_dir : with_sites dir_keep.
Proof. split. intros l p Hd. exact Hd. Qed.

(** Results that depend on the state. *)
Definition gives {A} (c : B A) (Q : A -> Prop) : Prop :=
  forall p a p', c p = Done (a, p') -> dinv p -> dinv p' /\ Q a.

Lemma gives_steps {A} (c : B A) Q : gives c Q -> steps dir_keep c.
Proof. intros H p a p' E Hi. exact (proj1 (H p a p' E Hi)). Qed.
Lemma gives_true {A} (c : B A) : steps dir_keep c -> gives c (fun _ => True).
Proof. intros H p a p' E Hi. split; auto. exact (H p a p' E Hi). Qed.
Lemma gives_bind {A C} (c : B A) (f : A -> B C) Q R :
  gives c Q -> (forall a, Q a -> gives (f a) R) -> gives (bbind c f) R.
Proof.
  intros Hc Hf p b p'' H Hi. apply bbind_inv in H as (a & p' & H1 & H2).
  destruct (Hc _ _ _ H1 Hi) as [Hi' HQ]. exact (Hf a HQ _ _ _ H2 Hi').
Qed.
Lemma gives_ret {A} (a : A) (Q : A -> Prop) : Q a -> gives (bret a) Q.
Proof. intros HQ p b p' H Hi. apply bret_inv in H as [-> ->]. auto. Qed.
Lemma gives_panic {A} (Q : A -> Prop) : gives bpanic Q.
Proof. intros p a p' H. discriminate. Qed.
Lemma gives_need {A} (x : option A) (Q : A -> Prop) : (forall a, x = Some a -> Q a) -> gives (need x) Q.
Proof. intros H p a p' E Hi. apply need_inv in E as [-> E]. auto. Qed.
Lemma gives_bfind {A C} (f : A -> B (option C)) (l : list A) (Q : C -> Prop) :
  (forall a, gives (f a) (fun r => forall c, r = Some c -> Q c)) ->
  gives (bfind f l) (fun r => forall c, r = Some c -> Q c).
Proof.
  intro H. induction l as [|a l IH]; cbn [bfind].
  - apply gives_ret. intros c E. discriminate.
  - eapply gives_bind; [apply H|]. intros [c|] Hc; [now apply gives_ret|exact IH].
Qed.

Section Calls.
Variable o : oracle.
Notation keeps c := (steps dir_keep c).
Ltac stq := repeat one.

Lemma k_guid : keeps (fresh_guid o). Proof. unfold fresh_guid. stq. Qed.
Lemma k_now : keeps (now o). Proof. unfold now. stq. Qed.
Lemma k_walk l : keeps (walk o l). Proof. unfold walk. stq. Qed.
Hint Resolve k_guid k_now k_walk : calls.
Lemma k_walk_pairs {X} (l : list (N * X)) : keeps (walk_pairs o l). Proof. unfold walk_pairs. stq. Qed.
Lemma k_root n : keeps (root o n). Proof. unfold root. stq. Qed.
Lemma k_owned n : keeps (owned o n). Proof. unfold owned. stq. Qed.
Hint Resolve k_walk_pairs k_root k_owned : calls.
Lemma k_axis3d v : keeps (axis3d v). Proof. unfold axis3d. stq. Qed.
Lemma k_placement_new v : keeps (placement_new v). Proof. unfold placement_new. stq. Qed.
Lemma k_new_relative v k n : keeps (new_relative v k n). Proof. unfold new_relative. stq. Qed.
Hint Resolve k_axis3d k_placement_new k_new_relative : calls.

(** The direction of an extrusion. *)
Lemma k_extrude a d b c : unit3 d -> keeps (extrude a d b c).
Proof. intro H. unfold extrude. apply steps_bind; [pre|apply dir_ins_gen; eauto|intro]. stq. Qed.
Lemma k_rectangular a b c d e : unit3 d -> keeps (rectangular_shape a b c d e).
Proof. intro H. unfold rectangular_shape. stq. now apply k_extrude. Qed.
Lemma k_profile k l : no_dir k = true -> keeps (arbitrary_profile k l).
Proof. intro. unfold arbitrary_profile. stq. Qed.
Lemma k_horizontal a b c : keeps (horizontal_shape a b c).
Proof.
  unfold horizontal_shape. apply steps_bind; [pre|now apply k_profile|intro].
  apply k_extrude, normalize_unit, moderate_z.
Qed.
Lemma k_vertical a b c : keeps (vertical_shape a b c).
Proof.
  unfold vertical_shape. apply steps_bind; [pre|now apply k_profile|intro].
  apply k_extrude, normalize_unit, moderate_y.
Qed.
Lemma k_arbitrary a b d c : moderate3 d -> keeps (arbitrary_shape a b d c).
Proof.
  intro H. unfold arbitrary_shape. apply steps_bind; [pre|now apply k_profile|intro].
  apply k_extrude, normalize_unit, H.
Qed.
Lemma k_rect_from a b c d e : moderate3 d -> keeps (rectangular_shape a b c (direction_from d) e).
Proof. intro H. apply k_rectangular, normalize_unit, H. Qed.
Lemma k_rect_z a b c e : keeps (rectangular_shape a b c (direction_from v_z) e).
Proof. apply k_rect_from, moderate_z. Qed.
Lemma k_add_repr a b : keeps (add_representation a b). Proof. unfold add_representation. stq. Qed.
Lemma k_material a : keeps (material a). Proof. unfold material. stq. Qed.
Hint Resolve k_horizontal k_vertical k_rect_z k_add_repr k_material : calls.
Lemma k_layer a b : keeps (material_layer a b). Proof. unfold material_layer. stq. Qed.
Lemma k_layer_set a : keeps (material_layer_set a). Proof. unfold material_layer_set. stq. Qed.
Lemma k_usage a b c d : keeps (material_layer_set_usage a b c d). Proof. unfold material_layer_set_usage. stq. Qed.
Lemma k_constituent a b : keeps (material_constituent a b). Proof. unfold material_constituent. stq. Qed.
Lemma k_constituent_set a : keeps (material_constituent_set a). Proof. unfold material_constituent_set. stq. Qed.
Lemma k_thickness a : keeps (thickness o a). Proof. unfold thickness. stq. Qed.
Hint Resolve k_layer k_layer_set k_usage k_constituent k_constituent_set k_thickness : calls.
Lemma k_host_thickness a b : keeps (host_thickness o a b). Proof. unfold host_thickness. stq. Qed.
Lemma k_window_type a b c d : keeps (new_window_type o a b c d). Proof. unfold new_window_type. stq. Qed.
Lemma k_space_type a b d : keeps (new_space_type o a b d). Proof. unfold new_space_type. stq. Qed.
Lemma k_axis_repr a b : keeps (axis_repr a b). Proof. unfold axis_repr. stq. Qed.
Hint Resolve k_host_thickness k_window_type k_space_type k_axis_repr : calls.

Lemma k_associate c t m n : keeps (associate o c t m n).
Proof.
  unfold associate. apply steps_bind; [pre|apply steps_get; pre|intro]. apply steps_bind; [pre|stq|intro].
  apply (st_put_assoc (R := dir_keep)).
Qed.
Hint Resolve k_associate : calls.
Lemma k_new_type c a b i s : keeps (new_type o c a b i s).
Proof. unfold new_type. stq. all: apply dir_ins; destruct c; reflexivity. Qed.
Lemma k_place_element c a b n x y s : keeps (place_element o c a b n x y s).
Proof. unfold place_element. stq. all: apply dir_ins; destruct c; reflexivity. Qed.
Hint Resolve k_new_type k_place_element : calls.

Lemma k_new_wall a b n x y s : directed (OWall a b n x y) -> keeps (new_wall o a b n x y s).
Proof.
  intro H. unfold new_wall. apply steps_bind; [pre| |intro; stq]. unfold wall_body.
  apply steps_bind; [pre|stq|intro]. destruct x; stq. now apply k_arbitrary.
Qed.
Lemma k_new_slab a b n x y s : directed (OSlab a b n x y) -> keeps (new_slab o a b n x y s).
Proof.
  intro H. unfold new_slab. apply steps_bind; [pre| |intro; stq]. unfold slab_body.
  apply steps_bind; [pre|stq|intro]. destruct x as [|[u v] [u' v'] h|]; stq; apply k_arbitrary; auto.
  unfold vextend, vsub. cbn [fst snd]. now apply cross_z.
Qed.
Lemma k_new_roof a b n x y s : keeps (new_roof o a b n x y s). Proof. unfold new_roof. stq. Qed.
Lemma k_new_shading a b n x y z s : keeps (new_shading o a b n x y z s). Proof. unfold new_shading. stq. Qed.
Lemma k_new_space a b c d e st : keeps (new_space o a b c d e st). Proof. unfold new_space. stq. Qed.
Lemma k_place_opening a b c d st : keeps (place_opening o a b c d st). Proof. unfold place_opening. stq. Qed.
Lemma k_place_window a b n x y s : keeps (place_window o a b n x y s). Proof. unfold place_window. stq. Qed.
Hint Resolve k_new_roof k_new_shading k_new_space k_place_opening k_place_window : calls.
Lemma k_wall_opening a b c d e f st : moderate3 f -> keeps (wall_opening o a b c d e f st).
Proof. intro H. unfold wall_opening. stq. now apply k_rect_from. Qed.
Lemma k_wall_window a b c n x y z d s : unit3 d -> keeps (wall_window o a b c n x y z d s).
Proof. intro H. unfold wall_window. stq; [apply k_wall_opening, moderate_z|now apply k_rectangular]. Qed.

Lemma k_shapes a : keeps (shapes a). Proof. unfold shapes. stq. Qed.
Lemma g_solid l : gives (solid_direction l) unit3.
Proof.
  unfold solid_direction. eapply gives_bind; [now apply (gives_need _ (fun _ => True))|]. intros n _.
  intros p v p' H Hi. apply bbind_inv in H as (l0 & q & H1 & H2). apply fetch_inv in H1 as [-> H1].
  destruct (proj2 Hi n l0 H1) as ([[x y] z] & -> & Hv). cbn [vec] in H2. apply bret_inv in H2 as [-> ->]. auto.
Qed.
Lemma g_some l : gives (d <-- solid_direction l ;; bret (Some d)) (fun r => forall c, r = Some c -> unit3 c).
Proof.
  eapply gives_bind; [apply g_solid|]. intros v Hv. apply gives_ret. intros c E. now injection E as <-.
Qed.
Lemma g_none {A} (Q : A -> Prop) : gives (bret None) (fun r => forall c, r = Some c -> Q c).
Proof. apply gives_ret. intros c E. discriminate. Qed.
Lemma g_product l : gives (product_direction l) (fun r => forall c, r = Some c -> unit3 c).
Proof.
  unfold product_direction. eapply gives_bind; [apply gives_true, k_shapes|]. intros ss _.
  apply gives_bfind. intro s. apply gives_bfind. intro i.
  eapply gives_bind; [apply gives_true; stq|]. intros [k x|m] _; [|apply g_none].
  destruct k; try apply g_none; try apply g_some.
  eapply gives_bind; [apply gives_true; stq|intros mi _].
  eapply gives_bind; [apply gives_true; stq|intros mp _].
  eapply gives_bind; [apply gives_true; stq|intros ri _].
  eapply gives_bind; [apply gives_true; stq|intros rp _].
  apply gives_bfind. intro j. eapply gives_bind; [apply gives_true; stq|]. intros [k y|m] _; [|apply g_none].
  destruct k; try apply g_none. apply g_some.
Qed.
Lemma g_slab n : gives (slab_direction n) unit3.
Proof.
  unfold slab_direction. eapply gives_bind; [apply gives_true; stq|intros l _].
  eapply gives_bind; [apply g_product|]. intros d Hd. now apply gives_need.
Qed.
Lemma k_slab_filling h s c : keeps (slab_filling o h s c).
Proof.
  unfold slab_filling. apply steps_bind; [pre|stq|intro t]. destruct s; [|stq|].
  - eapply gives_steps, (gives_bind _ _ unit3 (fun _ => True)); [apply g_slab|]. intros d Hd.
    apply gives_true. now apply k_rectangular.
  - eapply gives_steps, (gives_bind _ _ unit3 (fun _ => True)); [apply g_slab|]. intros d Hd.
    apply gives_true. apply k_arbitrary. now apply unit_moderate.
Qed.
Hint Resolve k_slab_filling : calls.
Lemma k_slab_opening a b c st : keeps (slab_opening o a b c st). Proof. unfold slab_opening. stq. Qed.
Hint Resolve k_slab_opening : calls.
Lemma k_slab_window a b c n x s : keeps (slab_window o a b c n x s). Proof. unfold slab_window. stq. Qed.
Hint Resolve k_slab_window : calls.

Lemma k_transform_object t : moderate_axes t -> keeps (transform_object t).
Proof.
  intros (H1 & H2 & H3). unfold transform_object.
  apply steps_bind; [pre|apply dir_ins_gen; intros _; eexists; split; [reflexivity|now apply normalize_unit]|intro].
  apply steps_bind; [pre|apply dir_ins_gen; intros _; eexists; split; [reflexivity|now apply normalize_unit]|intro].
  apply steps_bind; [pre|stq|intro].
  apply steps_bind; [pre|apply dir_ins_gen; intros _; eexists; split; [reflexivity|now apply normalize_unit]|intro]. stq.
Qed.
Lemma k_mapped_repr a b c d e : keeps (mapped_repr a b c d e). Proof. unfold mapped_repr. stq. Qed.
Lemma k_local_placement a : keeps (local_placement a). Proof. unfold local_placement. stq. Qed.
Hint Resolve k_mapped_repr k_local_placement : calls.
Lemma k_transform a b c d t f : moderate_axes t -> keeps (transform a b c d t f).
Proof. intro H. unfold transform. stq. now apply k_transform_object. Qed.

Definition host_directed (h : host) : Prop := match h_tr h with Some t => moderate_axes t | None => True end.
Lemma k_drop_host h st : host_directed h -> keeps (drop_host o h st).
Proof.
  intro H. unfold drop_host. unfold host_directed in H. destruct (h_tr h) as [t|]; stq.
  all: apply k_transform; assumption.
Qed.
Lemma k_single a b c : keeps (single_property a b c). Proof. unfold single_property. stq. Qed.
Lemma k_set a b : keeps (property_set o a b). Proof. unfold property_set. stq. Qed.
Lemma k_relate a b : keeps (relate_properties o a b). Proof. unfold relate_properties. stq. Qed.
Lemma k_si_unit a b : keeps (si_unit a b). Proof. unfold si_unit. stq. Qed.
Lemma k_sub_context : keeps sub_context. Proof. unfold sub_context. stq. Qed.
Hint Resolve k_single k_set k_relate k_si_unit k_sub_context : calls.
Lemma k_new_project i : keeps (new_project o i). Proof. unfold new_project. stq. Qed.
Lemma k_new_building a b c : keeps (new_building o a b c). Proof. unfold new_building. stq. Qed.
Lemma k_new_storey a b c : keeps (new_storey o a b c). Proof. unfold new_storey. stq. Qed.
Hint Resolve k_new_building k_new_storey : calls.
Lemma k_new_site n v : keeps (new_site o n v).
Proof.
  unfold new_site. do 5 (apply steps_bind; [pre|stq|intro]).
  intros p x p' H. rename a3 into m.
  rewrite <- (bbind_assoc bget (fun q => bput (set_sites (set_add (p_sites q) m) q))
             (fun _ => c <-- sub_context ;; bret m)) in H.
  revert p x p' H. change (steps dir_keep (bbind (q <-- bget ;; bput (set_sites (set_add (p_sites q) m) q))
             (fun _ => c <-- sub_context ;; bret m))).
  apply steps_bind; [pre|apply (st_put_sites (R := dir_keep))|intro]. stq.
Qed.
Hint Resolve k_new_site : calls.

Lemma k_storey_step s x : directed x -> keeps (storey_step o s x).
Proof. intro H. unfold storey_step. destruct x; stq. now apply k_transform. Qed.

Lemma k_aggregate a b c : keeps (aggregate o a b c). Proof. unfold aggregate. stq. Qed.
Lemma k_type_relations a b c : keeps (type_relations o a b c). Proof. unfold type_relations. stq. Qed.
Lemma k_void_relations a b : keeps (void_relations o a b). Proof. unfold void_relations. stq. Qed.
Lemma k_fill_relations a : keeps (fill_relations o a). Proof. unfold fill_relations. stq. Qed.
Hint Resolve k_aggregate k_type_relations k_void_relations k_fill_relations : calls.
Lemma k_drop_storey a : keeps (drop_storey o a). Proof. unfold drop_storey. stq. Qed.
Lemma k_drop_building a b : keeps (drop_building o a b). Proof. unfold drop_building. stq. Qed.
Lemma k_drop_site a b : keeps (drop_site o a b). Proof. unfold drop_site. stq. Qed.
Lemma k_build : keeps (build o). Proof. unfold build. stq. Qed.
Hint Resolve k_drop_storey k_drop_building k_drop_site : calls.

(** ** Programs *)

Definition scope_directed (w : scope) : Prop :=
  match w with
  | AtHost _ _ _ h | AtWallProps _ _ _ h _ _ => host_directed h
  | _ => True
  end.

Lemma g_map {A C} (c : B A) (f : A -> C) (Q : C -> Prop) (HQ : forall a, Q (f a)) :
  keeps c -> gives (a <-- c ;; bret (f a)) Q.
Proof. intro H. eapply gives_bind; [apply gives_true, H|]. intros a _. now apply gives_ret. Qed.

Lemma g_host_step s h x :
  directed x -> host_directed h -> gives (host_step o s h x) (fun r => host_directed (snd (fst r))).
Proof.
  intros Hx Hh. unfold host_step. destruct x, (h_slab h); try (intros ? ? ? E; discriminate E);
    try (now apply gives_ret);
    (eapply gives_bind; [apply gives_true|]; [|intros r _; repeat destruct r as [r ?]; now apply gives_ret]).
  - now apply k_wall_opening.
  - stq.
  - now apply k_wall_window.
  - stq.
Qed.

Lemma g_step w x : directed x -> scope_directed w -> gives (step o w x) (fun r => scope_directed (fst r)).
Proof.
  intros Hx Hw.
  destruct w; destruct x; cbn [step scope_directed] in *; try (intros ? ? ? E; discriminate E);
    try (now apply gives_ret);
    try (eapply gives_bind; [apply gives_true|]; [|intros r _; repeat destruct r as [r ?]; apply gives_ret; first [exact I|exact Hw]];
         first [apply k_storey_step; exact Hx | now apply k_drop_host | now apply k_new_wall | now apply k_new_slab | solve [stq]]).
  all: try (eapply gives_bind; [apply g_host_step; [exact Hx|exact Hw]|]; intros [[st' h'] l] Hh; apply gives_ret; exact Hh).
  all: try (destruct (h_slab _); [intros ? ? ? E; discriminate E|now apply gives_ret]).
  all: try (eapply gives_bind; [apply gives_true; stq|]; intros r _; eapply gives_bind; [apply gives_true; stq|]; intros r' _; apply gives_ret; exact Hw).
Qed.

Lemma k_run xs : Forall directed xs -> forall w, scope_directed w -> keeps (run o w xs).
Proof.
  induction 1 as [|x xs Hx _ IH]; intros w Hw; cbn [run]; [apply steps_ret; pre|].
  eapply gives_steps, (gives_bind _ _ (fun r => scope_directed (fst r)) (fun _ => True)); [now apply g_step|].
  intros [w' a] Hw'. cbn [fst] in Hw'. apply gives_true. apply steps_bind; [pre|now apply IH|]. intros [w'' l]. stq.
Qed.
End Calls.

Lemma program_dirs o i xs ls p :
  program o i xs = Done (ls, p) -> Forall directed xs -> unit_directions (p_map p).
Proof.
  intros H Hx. apply program_inv in H as (p0 & w & q & H1 & H2 & -> & H3).
  apply start_done in H1 as (oh & pr & q0 & E & ->).
  assert (I0 : dinv q0).
  { apply (k_new_project o i _ _ _ E). split; [apply dense_nil|]. intros n l Hl. discriminate. }
  assert (I1 : dinv q) by (apply (k_run o xs Hx AtProject I _ _ _ H2); exact I0).
  exact (proj2 (k_build o _ _ _ H3 I1)).
Qed.
