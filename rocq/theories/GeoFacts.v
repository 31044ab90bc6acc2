(** Facts: the forms of products in exact numbers. *)

From Coq Require Import String List NArith ZArith Bool Lia.
From Coq Require Import QArith Qpower Qabs Lqa.
From Verif Require Import Base Prims Kind Types Entity DataMap Float RoundFacts Arith ArithSpec ArithRound ArithUnit
  Builder BuilderRun BuilderSpec BuilderOut HistorySpec MoveSpec FormSpec BuilderForm BuilderForm2 BuilderExample DirSpec BuilderDirs DirFacts GeoSpec.
Import ListNotations.
Open Scope Q_scope.

Definition near_to (e : Q) (a : qvec) (d : vec3) (k : Q) : Prop :=
  let '(x, y, z) := a in let '(u, v, w) := d in
  Qabs (fv u - k * x) <= e /\ Qabs (fv v - k * y) <= e /\ Qabs (fv w - k * z) <= e.
Definition heads (e : Q) (a : qvec) (d : vec3) : Prop := unit3 d /\ exists k, 0 < k /\ near_to e a d k.

Lemma heads_points e a d : heads e a d -> e <= b2 (-46) -> points_to a d.
Proof.
  intros [U (k & P & H)] L. split; auto. exists k. split; auto.
  destruct a as [[x y] z], d as [[u v] w]. destruct H as (H1 & H2 & H3).
  repeat split; eapply Qle_trans; eauto.
Qed.

Lemma self_heads v : unit3 v -> heads 0 (value v) v.
Proof.
  intro U. split; auto. exists 1. split; [reflexivity|]. destruct v as [[x y] z]. unfold near_to, value.
  repeat split; (match goal with |- Qabs ?a <= _ => setoid_replace a with 0 by ring end); discriminate.
Qed.

Lemma normal_heads v : moderate3 v -> heads (b2 (-51)) (value v) (vnormalize v).
Proof.
  destruct v as [[x y] z]. intro H. pose proof (normalize3 x y z H) as N.
  destruct (vnormalize (x, y, z)) as [[a b] c]. destruct N as [U (k & P & D)]. split; auto.
  exists k. split; auto. inversion D as [|? ? ? ? [D1 _] D']; subst. inversion D' as [|? ? ? ? [D2 _] D'']; subst.
  inversion D'' as [|? ? ? ? [D3 _] _]; subst. cbn [value near_to].
  rewrite (Qmult_comm k (fv x)), (Qmult_comm k (fv y)), (Qmult_comm k (fv z)). auto.
Qed.

(** Bounds of the components of a vector of length one. *)
Lemma unit_bounds u v w : unit3 (u, v, w) ->
  Qabs (fv u) <= 3 # 2 /\ Qabs (fv v) <= 3 # 2 /\ Qabs (fv w) <= 3 # 2 /\
  (1 # 2 <= Qabs (fv u) \/ 1 # 2 <= Qabs (fv v) \/ 1 # 2 <= Qabs (fv w)).
Proof.
  intros [_ H]. apply Qabs_Qle_condition in H. cbn [coords sum_sq fold_right] in H.
  assert (C : inject_Z 2 ^ (-47) <= 1 # 100) by (vm_compute; discriminate).
  assert (E : forall a : Q, Qabs a * Qabs a == a * a).
  { intro a. rewrite <- Qabs_Qmult. apply Qabs_pos. nra. }
  pose proof (E (fv u)). pose proof (E (fv v)). pose proof (E (fv w)).
  pose proof (Qabs_nonneg (fv u)). pose proof (Qabs_nonneg (fv v)). pose proof (Qabs_nonneg (fv w)).
  set (a := Qabs (fv u)) in *. set (b := Qabs (fv v)) in *. set (c := Qabs (fv w)) in *.
  assert (S1 : a * a + b * b + c * c <= 101 # 100) by lra. assert (S2 : 99 # 100 <= a * a + b * b + c * c) by lra.
  clearbody a b c. clear - S1 S2 H3 H4 H5.
  split; [nra|]. split; [nra|]. split; [nra|].
  destruct (Qlt_le_dec a (1 # 2)); [|auto]. destruct (Qlt_le_dec b (1 # 2)); [|auto]. destruct (Qlt_le_dec c (1 # 2)); [|auto].
  exfalso. nra.
Qed.

(** A chain of two directions. *)
Lemma factor_bound k x u e : 0 < k -> 1 # 2 <= Qabs x -> Qabs (u - k * x) <= e -> Qabs u <= 3 # 2 -> e <= 1 # 4 -> k <= 4.
Proof.
  intros P X H U E. assert (A : k * Qabs x <= Qabs u + e).
  { assert (V : k * Qabs x == Qabs (k * x)) by (rewrite Qabs_Qmult, (Qabs_pos k) by lra; reflexivity). rewrite V.
    setoid_replace (k * x) with (u + - (u - k * x)) by ring. eapply Qle_trans; [apply Qabs_triangle|]. rewrite Qabs_opp. lra. }
  assert (P' : k * (1 # 2) <= k * Qabs x) by (apply Qmult_le_l; auto). lra.
Qed.

Lemma heads_trans e e' a d d' :
  heads e a d -> heads e' (value d) d' -> e' <= 1 # 4 -> 0 <= e -> heads (e' + 4 * e) a d'.
Proof.
  intros [U (k & P & H)] [U' (k' & P' & H')] L L'. split; auto.
  exists (k' * k). split; [nra|]. destruct a as [[x y] z], d as [[u v] w], d' as [[u' v'] w']. unfold near_to, value in *.
  destruct (unit_bounds _ _ _ U) as (_ & _ & _ & B). destruct (unit_bounds _ _ _ U') as (B1 & B2 & B3 & _).
  destruct H as (H1 & H2 & H3), H' as (H1' & H2' & H3').
  assert (K : k' <= 4) by (destruct B as [B|[B|B]]; eapply factor_bound; eauto).
  assert (G : forall x u u', Qabs (fv u - k * x) <= e -> Qabs (fv u' - k' * fv u) <= e' -> Qabs (fv u' - k' * k * x) <= e' + 4 * e).
  { clear - P P' K L'. intros x u u' A B. setoid_replace (fv u' - k' * k * x) with (fv u' - k' * fv u + k' * (fv u - k * x)) by ring.
    eapply Qle_trans; [apply Qabs_triangle|]. rewrite Qabs_Qmult, (Qabs_pos k') by lra.
    pose proof (Qabs_nonneg (fv u - k * x)). nra. }
  split; [|split]; eapply G; eauto.
Qed.

(** Differences of coordinates. *)
Lemma difference a b : finite (fsub a b) ->
  Qabs (fv a - fv b - fv (fsub a b)) <= w * Qabs (fv a - fv b) + eta.
Proof.
  intro F. assert (R : rounded (fv a - fv b) (fsub a b)).
  { destruct a as [|s|s m e], b as [|t|t m' e']; try contradiction; try (destruct s; contradiction); try (destruct t; contradiction).
    - exfalso. revert F. cbn [fsub fopp fadd]. destruct (Bool.eqb s (negb t)); cbn [finite]; auto.
    - eapply rounded_eq; [|apply (fadd_rounded_fin s m e (negb t) m' e')].
      change (FFin (negb t) m' e') with (fopp (FFin t m' e')). rewrite fopp_value. ring. }
  assert (L : Qabs (fv a - fv b) < limit) by (inversion R as [d L _ _ _ E|s L _ E]; [exact L|rewrite <- E in F; contradiction]).
  exact (proj2 (rounded_err _ _ R L)).
Qed.

(** The direction of a slab between two points. *)
Lemma apart_term k c g : 0 < k -> k * b2 (-400) <= 2 -> k * Qabs g <= 2 -> Qabs (c - g) <= w * Qabs c + eta ->
  k * Qabs (c - g) <= 4 * w.
Proof.
  intros P K G H. assert (C : Qabs c <= Qabs g + Qabs (c - g)).
  { setoid_replace c with (g + (c - g)) at 1 by ring. apply Qabs_triangle. }
  assert (E : eta <= w * (b2 (-400) * (1 # 8))) by (vm_compute; discriminate).
  pose proof w_val as W. pose proof (Qabs_nonneg (c - g)) as N. pose proof (Qabs_nonneg g) as N'.
  assert (T : Qabs (c - g) <= (9 # 8) * (w * Qabs g + eta)).
  { rewrite W in *. clear - H C N N'. lra. }
  assert (B : k * Qabs (c - g) <= k * ((9 # 8) * (w * Qabs g + eta))) by (apply Qmult_le_l; auto).
  assert (B2 : k * eta <= k * (w * (b2 (-400) * (1 # 8)))) by (apply Qmult_le_l; auto).
  eapply Qle_trans; [exact B|].
  setoid_replace (k * ((9 # 8) * (w * Qabs g + eta))) with ((9 # 8) * (w * (k * Qabs g) + k * eta)) by ring.
  setoid_replace (k * (w * (b2 (-400) * (1 # 8)))) with (w * ((1 # 8) * (k * b2 (-400)))) in B2 by ring.
  assert (Wp : 0 < w) by reflexivity.
  assert (w * (k * Qabs g) <= w * 2) by (apply Qmult_le_l; auto).
  assert (w * ((1 # 8) * (k * b2 (-400))) <= w * ((1 # 8) * 2)) by (apply Qmult_le_l; auto; lra).
  lra.
Qed.

Lemma scaled_bound k g u : 0 < k -> Qabs (u - k * g) <= b2 (-51) -> Qabs u <= 3 # 2 -> k * Qabs g <= 2.
Proof.
  intros P H U. assert (V : k * Qabs g == Qabs (k * g)) by (rewrite Qabs_Qmult, (Qabs_pos k) by lra; reflexivity). rewrite V.
  setoid_replace (k * g) with (u + - (u - k * g)) by ring. eapply Qle_trans; [apply Qabs_triangle|]. rewrite Qabs_opp.
  assert (b2 (-51) <= 1 # 2) by (vm_compute; discriminate). lra.
Qed.

Lemma vertical_heads x y x' y' :
  moderate_vector [fsub x x'; fsub y y'] ->
  heads (b2 (-49)) (fv y - fv y', fv x' - fv x, 0) (vnormalize (vcross (vsub (x, y, f_zero) (x', y', f_zero)) v_z)).
Proof.
  intro M. unfold vsub. pose proof (cross_z _ _ M) as C. pose proof (normal_heads _ C) as [U (k & P & H)].
  destruct M as [M E]. inversion M as [|? ? Ma M1]; subst. inversion M1 as [|? ? Mb _]; subst.
  pose proof (cross_values _ _ _ Ma Mb (proj1 zero_zero)) as V.
  destruct (vcross (fsub x x', fsub y y', fsub f_zero f_zero) v_z) as [[p q] r].
  destruct V as ([_ V1] & [_ V2] & [_ V3]). split; auto. exists k. split; auto.
  destruct (vnormalize (p, q, r)) as [[u v] z]. destruct (unit_bounds _ _ _ U) as (B1 & B2 & B3 & _).
  unfold near_to, value in *. destruct H as (H1 & H2 & H3). rewrite V1 in H1. rewrite V2 in H2. rewrite V3 in H3.
  set (a := fv (fsub x x')) in *. set (b := fv (fsub y y')) in *.
  assert (H2' : Qabs (- fv v - k * a) <= b2 (-51)).
  { setoid_replace (- fv v - k * a) with (- (fv v - k * - a)) by ring. now rewrite Qabs_opp. }
  pose proof (scaled_bound k b (fv u) P H1 B1) as K1.
  pose proof (scaled_bound k a (- fv v) P H2' ltac:(now rewrite Qabs_opp)) as K2.
  assert (K : k * b2 (-400) <= 2).
  { inversion E as [? ? X|? ? E']; subst.
    - eapply Qle_trans; [|exact K2]. apply Qmult_le_l; auto.
    - inversion E' as [? ? X|? ? E'']; subst; [|inversion E'']. eapply Qle_trans; [|exact K1]. apply Qmult_le_l; auto. }
  pose proof (apart_term k (fv x - fv x') a P K K2 (difference _ _ (proj1 Ma))) as T1.
  pose proof (apart_term k (fv y - fv y') b P K K1 (difference _ _ (proj1 Mb))) as T2.
  assert (W : b2 (-51) + 4 * w <= b2 (-49)) by (vm_compute; discriminate).
  assert (W' : b2 (-51) <= b2 (-49)) by (vm_compute; discriminate).
  assert (A : forall c, k * Qabs c == Qabs (k * c)) by (intro; rewrite Qabs_Qmult, (Qabs_pos k) by lra; reflexivity).
  rewrite A in T1, T2. split; [|split].
  - setoid_replace (fv u - k * (fv y - fv y')) with (fv u - k * b + - (k * (fv y - fv y' - b))) by ring.
    eapply Qle_trans; [apply Qabs_triangle|]. rewrite Qabs_opp. lra.
  - setoid_replace (fv v - k * (fv x' - fv x)) with (fv v - k * - a + k * (fv x - fv x' - a)) by ring.
    eapply Qle_trans; [apply Qabs_triangle|]. lra.
  - eapply Qle_trans; [exact H3|exact W'].
Qed.

Ltac axis_heads :=
  split; [split; [repeat (apply Forall_cons; [first [apply zero_finite|apply f_one_finite]|]); apply Forall_nil|vm_compute; discriminate]
         |exists 1; split; [reflexivity|repeat split; vm_compute; discriminate]].
Lemma up_heads : heads 0 upwards v_z. Proof. axis_heads. Qed.
Lemma y_heads : heads 0 (0, 1, 0) v_y. Proof. axis_heads. Qed.
Lemma x_heads : heads 0 (1, 0, 0) v_x. Proof. axis_heads. Qed.

Lemma heads_weaken e e' a d : heads e a d -> e <= e' -> heads e' a d.
Proof.
  intros [U (k & P & H)] L. split; auto. exists k. split; auto.
  destruct a as [[x y] z], d as [[u v] w]. destruct H as (H1 & H2 & H3). repeat split; eapply Qle_trans; eauto.
Qed.

(** ** Directions of forms *)

Definition aim (f : form) : vec3 := snd (fst f).

Lemma wall_heads u ty name w v t :
  directed (OWall u ty name w v) -> heads (b2 (-49)) (wall_way w) (aim (wall_form w t)).
Proof.
  cbn [directed]. intro D. destruct w; unfold wall_form, wall_way, aim; cbn [fst snd].
  - eapply heads_weaken; [apply up_heads|vm_compute; discriminate].
  - eapply heads_weaken; [apply y_heads|vm_compute; discriminate].
  - eapply heads_weaken; [apply normal_heads; exact D|vm_compute; discriminate].
Qed.

Lemma slab_heads u ty name w v t :
  directed (OSlab u ty name w v) -> heads (b2 (-49)) (slab_way w) (aim (slab_form w t)).
Proof.
  cbn [directed]. intro D. destruct w as [|[x y] [x' y'] h|]; unfold slab_form, slab_way, aim; cbn [fst snd].
  - eapply heads_weaken; [apply up_heads|vm_compute; discriminate].
  - apply vertical_heads. exact D.
  - eapply heads_weaken; [apply normal_heads; exact D|vm_compute; discriminate].
Qed.

Lemma hole_heads p u ty name w v t t' :
  directed (OSlab u ty name w v) ->
  heads (b2 (-46)) (hole_way p (slab_way w)) (aim (hole_form p (aim (slab_form w t)) t')).
Proof.
  intro D. pose proof (slab_heads u ty name w v t D) as H. destruct p; unfold hole_way, hole_form.
  - eapply heads_weaken; [exact H|vm_compute; discriminate].
  - eapply heads_weaken; [apply up_heads|vm_compute; discriminate].
  - change (aim (Spatial coords, vnormalize (aim (slab_form w t)), t')) with (vnormalize (aim (slab_form w t))).
    eapply heads_weaken; [eapply heads_trans; [exact H|apply normal_heads, unit_moderate; exact (proj1 H)| |]|]; vm_compute; discriminate.
Qed.

Definition given (c : call) : op := snd (fst c).

Lemma form_points o cs c n f ax :
  form_of o cs c n f ax -> directed (given c) -> (forall c', In c' cs -> directed (given c')) ->
  exists a, way cs c n a /\ points_to a (aim f).
Proof.
  intros F D Ds. assert (E : b2 (-49) <= b2 (-46)) by (vm_compute; discriminate). assert (E0 : 0 <= b2 (-46)) by (vm_compute; discriminate).
  destruct F; (eexists; split; [econstructor; eassumption|]).
  - eapply heads_points; [eapply wall_heads; exact D|exact E].
  - eapply heads_points; [eapply slab_heads; exact D|exact E].
  - eapply heads_points; [exact up_heads|exact E0].
  - eapply heads_points; [exact up_heads|exact E0].
  - eapply heads_points; [exact up_heads|exact E0].
  - eapply heads_points; [apply normal_heads; exact D|vm_compute; discriminate].
  - eapply heads_points; [eapply hole_heads, (Ds _ H)|apply Qle_refl].
  - eapply heads_points; [exact up_heads|exact E0].
  - eapply heads_points; [apply self_heads; exact D|exact E0].
  - eapply heads_points; [eapply hole_heads, (Ds _ H)|apply Qle_refl].
  - eapply heads_points; [eapply hole_heads, (Ds _ H)|apply Qle_refl].
Qed.

(** ** Axes of walls *)

Lemma line_heads w : directed (OWall 0 0 [] w v_zero) -> leaning w -> points_to (line_way w) (wall_line w).
Proof.
  intros D L. destruct w as [| |l [[x y] z]]; unfold line_way, wall_line.
  - eapply heads_points; [exact x_heads|vm_compute; discriminate].
  - eapply heads_points; [exact x_heads|vm_compute; discriminate].
  - cbn [directed leaning] in D, L. assert (Fz : finite z).
    { destruct D as [D _]. inversion D as [|? ? _ D1]; subst. inversion D1 as [|? ? _ D2]; subst. inversion D2 as [|? ? [Fz _] _]; subst. exact Fz. }
    pose proof (normal_heads _ (cross_moderate x y z L Fz)) as [U (k & P & H)].
    destruct L as [M _]. inversion M as [|? ? Ma M1]; subst. inversion M1 as [|? ? Mb _]; subst.
    pose proof (cross_values x y z Ma Mb Fz) as V. destruct (vcross (x, y, z) v_z) as [[p q] r].
    destruct V as ([_ V1] & [_ V2] & [_ V3]). eapply (heads_points (b2 (-51))); [|vm_compute; discriminate].
    split; auto. exists k. split; auto. destruct (vnormalize (p, q, r)) as [[u v] z']. unfold near_to, value in *.
    rewrite V1, V2, V3 in H. exact H.
Qed.

Lemma line_square l dir : scalar (line_way (WArbitrary l dir)) (wall_way (WArbitrary l dir)) == 0.
Proof. destruct dir as [[x y] z]. cbn [line_way wall_way value scalar]. ring. Qed.

Lemma form_line o cs c n f v :
  form_of o cs c n f (Some v) -> directed (given c) ->
  exists s u ty name w p, c = (s, OWall u ty name w p, [n]) /\ (leaning w -> points_to (line_way w) v).
Proof.
  intros F D. inversion F; subst. do 6 eexists. split; [reflexivity|]. intro L. apply line_heads; auto.
Qed.

(** ** Thickness *)

Lemma sum_snoc l d : exact_sum (l ++ [d]) == exact_sum l + fv d.
Proof. induction l as [|a l IH]; cbn [app exact_sum fold_right]; [ring|]. fold (exact_sum (l ++ [d])). fold (exact_sum l). rewrite IH. ring. Qed.
Lemma sum_nonneg l : Forall (fun d => finite d /\ 0 <= fv d) l -> 0 <= exact_sum l.
Proof. induction 1 as [|a l [_ H] _ IH]; cbn [exact_sum fold_right]; [lra|]. fold (exact_sum l). lra. Qed.

Lemma next_error n S' S T T' :
  0 <= n -> n * w <= 1 # 4 -> 0 <= S -> S <= S' ->
  Qabs (T - S) <= n * (2 * w * S + 2 * eta) ->
  Qabs (T + (S' - S) - T') <= w * Qabs (T + (S' - S)) + eta ->
  Qabs (T' - S') <= (n + 1) * (2 * w * S' + 2 * eta).
Proof.
  intros N NW PS LS H R. pose proof eta_pos as Pe. assert (Pw : 0 < w) by reflexivity.
  set (e := n * (2 * w * S + 2 * eta)) in *.
  assert (A : Qabs (T + (S' - S)) <= S' + e).
  { setoid_replace (T + (S' - S)) with (S' + (T - S)) by ring. eapply Qle_trans; [apply Qabs_triangle|]. rewrite (Qabs_pos S') by lra. lra. }
  assert (B : Qabs (T' - S') <= e + (w * (S' + e) + eta)).
  { setoid_replace (T' - S') with (T - S + - (T + (S' - S) - T')) by ring. eapply Qle_trans; [apply Qabs_triangle|]. rewrite Qabs_opp.
    assert (w * Qabs (T + (S' - S)) <= w * (S' + e)) by (apply Qmult_le_l; auto). lra. }
  assert (E1 : w * e <= (1 # 4) * (2 * w * S' + 2 * eta)).
  { unfold e. setoid_replace (w * (n * (2 * w * S + 2 * eta))) with ((n * w) * (2 * w * S + 2 * eta)) by ring.
    assert (X : 2 * w * S + 2 * eta <= 2 * w * S' + 2 * eta) by nra. assert (X0 : 0 <= 2 * w * S + 2 * eta) by nra. 
    assert (Y : 0 <= n * w) by nra. nra. }
  assert (E2 : e <= n * (2 * w * S' + 2 * eta)) by (unfold e; assert (2 * w * S <= 2 * w * S') by nra; nra).
  nra.
Qed.

Lemma total_sum neg l : plain_layers l -> about_sum l (total neg l).
Proof.
  intros (F & B & L). unfold about_sum.
  assert (G : finite (total neg l) /\ Qabs (fv (total neg l) - exact_sum l) <= inject_Z (Z.of_nat (length l)) * (2 * w * exact_sum l + 2 * eta)).
  { unfold total. induction l as [|d l IH] using rev_ind.
    - split; [split; [reflexivity|split; [split; discriminate|now left]]|]. destruct neg; vm_compute; discriminate.
    - apply Forall_app in F as [F Fd]. inversion Fd as [|? ? [Fd1 Fd2] _]; subst. rewrite sum_snoc in B.
      pose proof (sum_nonneg l F) as PS. rewrite app_length in L. cbn [length] in L.
      destruct IH as [IF IE]; [exact F|change (inject_Z 2 ^ 999) with (b2 999) in *; lra|lia|].
      rewrite fold_left_app. cbn [fold_left]. set (T := fold_left fadd l (FFin neg 0 (-1074))) in *.
      assert (NW : inject_Z (Z.of_nat (length l)) * w <= 1 # 4).
      { assert (X : inject_Z (Z.of_nat (length l)) <= inject_Z (2 ^ 50)) by (rewrite <- Zle_Qle; lia).
        assert (Pw : 0 < w) by reflexivity. apply Qle_trans with (inject_Z (2 ^ 50) * w); [apply Qmult_le_r; auto|vm_compute; discriminate]. }
      assert (N0 : 0 <= inject_Z (Z.of_nat (length l))) by (change 0 with (inject_Z 0); rewrite <- Zle_Qle; lia).
      assert (Q1 : inject_Z (Z.of_nat (length l)) * (2 * w * exact_sum l + 2 * eta) <= exact_sum l + eta * b2 60).
      { assert (Pe : 0 < eta) by reflexivity. assert (X : inject_Z (Z.of_nat (length l)) <= inject_Z (2 ^ 50)) by (rewrite <- Zle_Qle; lia).
        assert (Y : inject_Z (Z.of_nat (length l)) * eta <= inject_Z (2 ^ 50) * eta) by (apply Qmult_le_r; auto).
        assert (Z : inject_Z (2 ^ 50) * eta * 2 <= eta * b2 60) by (vm_compute; discriminate).
        set (n := inject_Z (Z.of_nat (length l))) in *. nra. }
      assert (S9 : exact_sum l <= b2 999) by (change (inject_Z 2 ^ 999) with (b2 999) in B; lra).
      assert (TB : Qabs (fv T + fv d) < limit).
      { assert (C : 2 * b2 999 + (b2 999 + eta * b2 60) < limit) by reflexivity. change (inject_Z 2 ^ 999) with (b2 999) in B.
        setoid_replace (fv T + fv d) with (fv T - exact_sum l + (exact_sum l + fv d)) by ring.
        eapply Qle_lt_trans; [apply Qabs_triangle|]. rewrite (Qabs_pos (exact_sum l + fv d)) by lra.
        assert (0 <= b2 999) by discriminate. lra. }
      destruct (rounded_err _ _ (fadd_rounded T d IF Fd1) TB) as [F1 E1]. split; [exact F1|].
      rewrite app_length, Nat2Z.inj_add, inject_Z_plus. change (inject_Z (Z.of_nat (length [d]))) with 1.
      rewrite sum_snoc. apply (next_error _ (exact_sum l + fv d) (exact_sum l) (fv T) (fv (fadd T d))); auto; [lra|].
      setoid_replace (fv T + (exact_sum l + fv d - exact_sum l)) with (fv T + fv d) by ring. exact E1. }
  destruct G as [G1 G2]. split; auto. eapply Qle_trans; [exact G2|].
  assert (X : 2 * w == inject_Z 2 ^ (-51)) by reflexivity. assert (Y : 2 * eta == inject_Z 2 ^ (-1074)) by reflexivity.
  rewrite X, Y. apply Qle_refl.
Qed.

Lemma thick_about o cs u t :
  thick o cs u t -> exists ds, layered cs u ds /\ (plain_layers ds -> about_sum ds t).
Proof. intros (ds & H & ->). exists ds. split; auto. apply total_sum. Qed.

(** ** Rectangles *)

Lemma half_value a : finite a -> finite (fmul a f_half) /\ Qabs (2 * fv (fmul a f_half) - fv a) <= b2 (-1074).
Proof.
  intro F. assert (Fh : finite f_half) by (split; [reflexivity|split; [lia|right; discriminate]]).
  assert (Vh : fv f_half == 1 # 2) by reflexivity. pose proof (fmul_rounded a f_half F Fh) as R.
  assert (C : exists d, finite d /\ Qabs (fv a * fv f_half - fv d) <= b2 (-1075)).
  { destruct a as [| |s m e]; try contradiction. destruct F as (O1 & O2 & O3). destruct (Z.eq_dec e (-1074)) as [->|Ne].
    - exists (FFin s (m / 2) (-1074)). split; [split; [apply N.div_lt_upper_bound; lia|split; [lia|now left]]|].
      rewrite Vh, !fv_eq. pose proof (N.div_mod m 2 ltac:(lia)) as D. pose proof (N.mod_lt m 2 ltac:(lia)) as M.
      assert (Q : qn m == 2 * qn (m / 2) + qn (m mod 2)) by (rewrite D at 1; rewrite qn_add, qn_mul; reflexivity).
      rewrite Q, (b2_half (-1074)). change (-1074 - 1)%Z with (-1075)%Z.
      setoid_replace (sg s * ((2 * qn (m / 2) + qn (m mod 2)) * (b2 (-1075) * 2)) * (1 # 2) - sg s * (qn (m / 2) * (b2 (-1075) * 2)))
        with (sg s * (qn (m mod 2) * b2 (-1075))) by ring.
      pose proof (b2_pos (-1075)). assert (X : qn (m mod 2) == 0 \/ qn (m mod 2) == 1).
      { assert (E : (m mod 2 = 0 \/ m mod 2 = 1)%N) by lia. destruct E as [E|E]; rewrite E; [left|right]; reflexivity. }
      apply Qabs_Qle_condition. destruct s; cbn [sg]; destruct X as [->| ->]; split; lra.
    - exists (FFin s m (e - 1)). split; [split; [exact O1|split; [lia|right; destruct O3; [lia|assumption]]]|].
      rewrite Vh, !fv_eq, (b2_half e). setoid_replace (sg s * (qn m * (b2 (e - 1) * 2)) * (1 # 2) - sg s * (qn m * b2 (e - 1))) with 0 by ring.
      vm_compute. discriminate. }
  assert (L : Qabs (fv a * fv f_half) < limit).
  { rewrite Vh. destruct a as [| |s m e]; try contradiction. destruct F as (O1 & O2 & O3). rewrite fv_eq.
    assert (B : b2 e <= b2 971) by (apply b2_le; lia). assert (M : qn m <= 9007199254740991).
    { unfold qn. change 9007199254740991 with (inject_Z 9007199254740991). rewrite <- Zle_Qle. lia. }
    pose proof (b2_pos e). pose proof (qn_nonneg m).
    assert (X : qn m * b2 e <= 9007199254740991 * b2 971) by nra. assert (Y : 9007199254740991 * b2 971 < limit) by reflexivity.
    apply Qabs_Qlt_condition. destruct s; cbn [sg]; split; nra. }
  inversion R as [d _ (F1 & Hn & _) _ _ E|s L' _ E]; [|lra]. split; [exact F1|].
  destruct C as (d' & F' & H'). specialize (Hn d' F'). rewrite Vh in Hn, H'.
  assert (H : Qabs (fv a * (1 # 2) - fv (fmul a f_half)) <= b2 (-1075)) by lra.
  assert (B : b2 (-1074) == b2 (-1075) * 2) by reflexivity. rewrite B.
  apply Qabs_Qle_condition in H. apply Qabs_Qle_condition. lra.
Qed.

(** ** Programs *)

Lemma calls_given s xs : forall ls c, In c (calls s xs ls) -> In (given c) xs.
Proof.
  revert s. induction xs as [|x xs IH]; intros s [|a ls] c H; cbn [calls] in H; try contradiction.
  destruct H as [<-|H]; [now left|right; eauto].
Qed.

Definition body_of (m : dmap) (r : N) (d : vec3) : Prop := exists out len, body m r (out, d, len).

Lemma built_points o i xs ls r cs c ds k n :
  fair o -> program o i xs = Done (ls, r) -> honest [] xs ls -> Forall directed xs ->
  calls [] xs ls = cs ++ c :: ds -> In (k, n) (call_products c) ->
  exists rs rs' b d a mvs,
    drawn (p_map r) n rs' /\ Forall2 (moved (p_map r) mvs) rs' rs /\ journey n (cs ++ [c]) ds mvs /\
    hd_error rs = Some b /\ body_of (p_map r) b d /\ way cs c n a /\ points_to a d.
Proof.
  intros Ho Hr Hh Hd E Hn. destruct (built_fits o Ho i xs ls r cs c ds k n Hr Hh E Hn) as (f & ax & rs & rs' & mvs & Hf & Hp & Hj & Hw & Hm).
  assert (D : forall c', In c' (cs ++ c :: ds) -> directed (given c')).
  { intros c' H. rewrite <- E in H. apply calls_given in H. rewrite Forall_forall in Hd. auto. }
  destruct (form_points o cs c n f ax Hf) as (a & Ha & Hpt).
  - apply D. apply in_or_app. right. now left.
  - intros c' H. apply D. apply in_or_app. now left.
  - destruct f as [[out d] len]. destruct ax as [v|]; unfold depicts in Hp.
    + destruct Hp as (b & x & -> & Hb & _). exists [b; x], rs', b, d, a, mvs. refine (conj Hw (conj Hm (conj Hj (conj eq_refl (conj _ (conj Ha Hpt)))))). now exists out, len.
    + destruct Hp as (b & -> & Hb). exists [b], rs', b, d, a, mvs. refine (conj Hw (conj Hm (conj Hj (conj eq_refl (conj _ (conj Ha Hpt)))))). now exists out, len.
Qed.

Lemma built_line o i xs ls r cs s u ty name w p n ds :
  fair o -> program o i xs = Done (ls, r) -> honest [] xs ls -> Forall directed xs ->
  calls [] xs ls = cs ++ (s, OWall u ty name w p, [n]) :: ds ->
  exists rs rs' b x v mvs,
    drawn (p_map r) n rs' /\ Forall2 (moved (p_map r) mvs) rs' rs /\ journey n (cs ++ [(s, OWall u ty name w p, [n])]) ds mvs /\
    rs = [b; x] /\ axis (p_map r) x v /\ (leaning w -> points_to (line_way w) v).
Proof.
  intros Ho Hr Hh Hd E.
  destruct (built_fits o Ho i xs ls r cs (s, OWall u ty name w p, [n]) ds KWall n Hr Hh E) as (f & ax & rs & rs' & mvs & Hf & Hp & Hj & Hw & Hm).
  { now left. }
  assert (D : directed (OWall u ty name w p)).
  { rewrite Forall_forall in Hd. apply Hd. apply (calls_given [] xs ls (s, OWall u ty name w p, [n])). rewrite E. apply in_or_app. right. now left. }
  inversion Hf; subst. destruct (wall_form w t) as [[out d] len] eqn:Ew. cbn [depicts] in Hp. destruct Hp as (b & x & -> & _ & Hx).
  exists [b; x], rs', b, x, (wall_line w), mvs. refine (conj Hw (conj Hm (conj Hj (conj eq_refl (conj Hx _))))). intro L. now apply line_heads.
Qed.

(** A wall that goes upwards from its ground plan. *)
Definition ops_upright : list op :=
  [ ONewSite (lit "site") v_zero; ONewBuilding (lit "house") v_x; ONewStorey (lit "ground") f_one
  ; OLayer (lit "brick") layer1; OLayerSet [31%N]; OUsage 32 1 0 f_zero; OType CWall 32 (lit "wt") 11
  ; OWall 33 34 (lit "w") (WArbitrary [v_zero; v_x; v_y] v_z) v_zero; ODrop; ODrop; ODrop; ODrop ].

Definition upright_run : list (list N) * proj :=
  match program oracle1 info1 ops_upright with Done (ls, r) => (ls, r) | _ => ([], empty_proj) end.
Lemma upright_done : program oracle1 info1 ops_upright = Done (fst upright_run, snd upright_run).
Proof. vm_compute. reflexivity. Qed.
Lemma upright_axis :
  exists ls r n b x,
    program oracle1 info1 ops_upright = Done (ls, r) /\ Forall directed ops_upright /\
    In ([27; 23; 19]%N, OWall 33 34 (lit "w") (WArbitrary [v_zero; v_x; v_y] v_z) v_zero, [n]) (calls [] ops_upright ls) /\
    drawn (p_map r) n [b; x] /\ axis (p_map r) x (FNan, FNan, FNan).
Proof.
  exists (fst upright_run), (snd upright_run), 49%N, 43%N, 44%N. split; [exact upright_done|]. split.
  - unfold ops_upright. repeat apply Forall_cons; try apply Forall_nil; cbn [directed]; try exact I. exact moderate_z.
  - split; [vm_compute; tauto|]. split; [exists 48%N; split; vm_compute; reflexivity|].
    exists 15%N, 37%N, 35%N, 36%N. repeat split; vm_compute; reflexivity.
Qed.

(** The example program of [DirFacts.v]. *)
Definition dirs_run : list (list N) * proj :=
  match program oracle1 info1 ops_dirs with Done (ls, r) => (ls, r) | _ => ([], empty_proj) end.
Lemma dirs_done : program oracle1 info1 ops_dirs = Done (fst dirs_run, snd dirs_run).
Proof. vm_compute. reflexivity. Qed.
Lemma dirs_honest : honest [] ops_dirs (fst dirs_run).
Proof. apply honestb_ok. vm_compute. reflexivity. Qed.
