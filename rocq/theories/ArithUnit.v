(** How far rounded results are from exact ones; a normalised vector has length one up
    to rounding. *)

From Coq Require Import List NArith ZArith Bool Lia.
From Coq Require Import QArith Qpower Qabs Lqa.
From Coq Require Import ZifyBool ZifyNat ZifyN.
From Verif Require Import Base Prims Float RoundFacts Arith ArithSpec ArithRound.
Import ListNotations.
Open Scope Q_scope.

(** [2^-52] and [2^-1075]. *)
Definition w : Q := b2 (-52).
Definition eta : Q := b2 (-1075).

Lemma w_val : w == 1 # 4503599627370496.
Proof. reflexivity. Qed.
Lemma eta_pos : 0 < eta.
Proof. reflexivity. Qed.

Lemma near_err m e x :
  f64_ok (FFin false m e) -> near_f m e x -> 0 < x -> Qabs (x - qn m * b2 e) <= w * x + eta.
Proof.
  intros (O1 & O2 & O3) (N1 & N2 & _) Px. pose proof (b2_pos e) as Pe. pose proof (qn_nonneg m) as Pm.
  assert (G : 0 < low_gap m e /\ low_gap m e <= (1 # 2)) by (unfold low_gap; destruct (_ && _)%bool; split; reflexivity || discriminate).
  assert (A : Qabs (x - qn m * b2 e) <= (1 # 2) * b2 e) by (apply Qabs_Qle_condition; split; nra).
  eapply Qle_trans; [exact A|]. destruct O3 as [->|O3].
  - assert (eta == (1 # 2) * b2 (-1074)) by reflexivity. pose proof w_val. nra.
  - assert (M : (2 ^ 52 <= m)%N) by lia. apply qn_le in M. rewrite q52 in M. rewrite w_val. pose proof eta_pos. nra.
Qed.

Lemma q_repr (x : Q) : 0 < x -> exists n d, repr n d x /\ (0 < n)%N.
Proof.
  destruct x as [p q]. intro H. assert (P : (0 < p)%Z) by (unfold Qlt in H; cbn in H; lia).
  exists (Z.to_N p), (Npos q). split; [|lia]. split; [lia|]. unfold qn. rewrite Z2N.id by lia.
  unfold Qeq. cbn. lia.
Qed.

Lemma rounded_err x d :
  rounded x d -> Qabs x < limit -> finite d /\ Qabs (x - fv d) <= w * Qabs x + eta.
Proof.
  intros R L. destruct R as [d _ (F & Hn & _) _ _|s L' _]; [|lra]. split; auto.
  assert (T : exists d0, finite d0 /\ Qabs (x - fv d0) <= w * Qabs x + eta).
  { destruct (Q_dec x 0) as [[N|N]|N].
    - assert (P : 0 < - x) by lra. destruct (q_repr _ P) as (n & k & Hr & Hp).
      destruct (round_over true n k _ Hr Hp) as [[_ L1]|(m & e & E & _)].
      { rewrite Qabs_neg in L by lra. lra. }
      destruct (round_near true n k _ true m e Hr Hp E) as (_ & O & Nf). exists (FFin true m e). split; [exact O|].
      rewrite fv_eq. cbn [sg]. setoid_replace (x - -1 * (qn m * b2 e)) with (- (- x - qn m * b2 e)) by ring.
      rewrite Qabs_opp. rewrite (Qabs_neg x) by lra. now apply near_err.
    - destruct (q_repr _ N) as (n & k & Hr & Hp).
      destruct (round_over false n k _ Hr Hp) as [[_ L1]|(m & e & E & _)].
      { rewrite Qabs_pos in L by lra. lra. }
      destruct (round_near false n k _ false m e Hr Hp E) as (_ & O & Nf). exists (FFin false m e). split; [exact O|].
      rewrite fv_eq. cbn [sg]. setoid_replace (x - 1 * (qn m * b2 e)) with (x - qn m * b2 e) by ring.
      rewrite (Qabs_pos x) by lra. now apply near_err.
    - exists f_zero. split; [repeat split; try lia; now left|]. rewrite N. vm_compute. discriminate. }
  destruct T as (d0 & F0 & T). eapply Qle_trans; [apply (Hn d0 F0)|exact T].
Qed.

(** The same with a bound on the exact result. *)
Definition approx (x e : Q) (d : f64) : Prop := finite d /\ x - e <= fv d /\ fv d <= x + e.

Lemma rounded_approx x d b :
  rounded x d -> Qabs x <= b -> b <= b2 1000 -> approx x (w * b + eta) d.
Proof.
  intros R L B. assert (b2 1000 < limit) by reflexivity.
  destruct (rounded_err x d R ltac:(lra)) as [F A]. split; auto.
  apply Qabs_Qle_condition in A. pose proof w_val. nra.
Qed.

(** ** Roots *)

Definition up (m : N) (e : Z) : f64 := if (m + 1 =? 2 ^ 53)%N then FFin false (2 ^ 52) (e + 1) else FFin false (m + 1) e.
Lemma up_ok m e : f64_ok (FFin false m e) -> (e < 971)%Z -> finite (up m e) /\ fv (up m e) == (qn m + 1) * b2 e.
Proof.
  intros (O1 & O2 & O3) He. unfold up. destruct (N.eqb_spec (m + 1) (2 ^ 53)) as [E|E].
  - split; [repeat split; lia|]. rewrite fv_eq. cbn [sg]. rewrite b2_succ, q52.
    assert (Q : qn (m + 1) == 9007199254740992) by (rewrite E; apply q53). rewrite qn_add in Q. change (qn 1) with 1 in Q.
    rewrite Q. ring.
  - split; [repeat split; lia|]. rewrite fv_eq. cbn [sg]. rewrite qn_add. change (qn 1) with 1. ring.
Qed.
Definition down (m : N) (e : Z) : f64 :=
  if ((m =? 2 ^ 52)%N && (-1074 <? e)%Z)%bool then FFin false (2 ^ 53 - 1) (e - 1) else FFin false (m - 1) e.
Lemma down_ok m e :
  f64_ok (FFin false m e) -> (0 < m)%N ->
  finite (down m e) /\ fv (down m e) < qn m * b2 e /\ (qn m - 1) * b2 e <= fv (down m e).
Proof.
  intros (O1 & O2 & O3) Hm. unfold down. destruct (_ && _)%bool eqn:E.
  - apply andb_true_iff in E. destruct E as [E1 E2]. apply N.eqb_eq in E1. subst m. apply Z.ltb_lt in E2.
    split; [repeat split; lia|]. rewrite fv_eq. cbn [sg].
    assert (E1 : b2 e == 2 * b2 (e - 1)) by (rewrite <- b2_succ; replace (e - 1 + 1)%Z with e by lia; reflexivity).
    assert (qn (2 ^ 53 - 1) == 9007199254740991) by reflexivity. rewrite q52, E1, H. pose proof (b2_pos (e - 1)). split; nra.
  - split.
    + apply andb_false_iff in E. repeat split; lia.
    + rewrite fv_eq. cbn [sg]. assert (Q : qn (m - 1 + 1) == qn m) by (replace (m - 1 + 1)%N with m by lia; reflexivity).
      rewrite qn_add in Q. change (qn 1) with 1 in Q. pose proof (b2_pos e). split; nra.
Qed.

Lemma half_sq y c : y == c -> (y / 2) ^ 2 == (c * c) / 4.
Proof. intro E. rewrite sq, E. field. Qed.

Lemma root_err x d :
  nearest_root x d -> b2 (-1000) <= x -> x <= b2 1000 ->
  0 < fv d /\ fv d * fv d * (1 - w) <= x /\ x <= fv d * fv d * (1 + 2 * w).
Proof.
  intros (F & P & H) X1 X2. destruct d as [| |s m e]; try contradiction. cbn [finite] in F.
  apply (ok_sign s false) in F. assert (V : fv (FFin s m e) == qn m * b2 e).
  { rewrite fv_eq in *. destruct s; cbn [sg] in *; [|ring]. pose proof (b2_pos e). pose proof (qn_nonneg m). nra. }
  pose proof (b2_pos e) as Pe. pose proof (qn_nonneg m) as Pm. pose proof F as (O1 & O2 & O3).
  assert (X0 : 0 < b2 (-1000)) by apply b2_pos.
  assert (Hu : (e < 971)%Z -> x <= (qn m + (1 # 2)) * b2 e * ((qn m + (1 # 2)) * b2 e)).
  { intro He. destruct (up_ok m e F He) as [U1 U2].
    assert (UP : 0 <= fv (up m e)) by (rewrite U2; nra).
    destruct (H (up m e) U1 UP) as [H1 _]. rewrite V, U2 in H1. specialize (H1 ltac:(nra)).
    rewrite (half_sq _ (2 * ((qn m + (1 # 2)) * b2 e))) in H1 by ring.
    eapply Qle_trans; [exact H1|]. apply Qle_shift_div_r; [reflexivity|]. lra. }
  assert (Hd : (0 < m)%N -> (qn m - (1 # 2)) * b2 e * ((qn m - (1 # 2)) * b2 e) <= x).
  { intro Hm. destruct (down_ok m e F Hm) as (D1 & D2 & D3). apply qn_pos in Hm as Pm'.
    assert (1 <= qn m) by (change 1 with (qn 1); apply qn_le; lia).
    assert (DP : 0 <= fv (down m e)) by nra.
    destruct (H (down m e) D1 DP) as [_ H1]. rewrite V in H1. specialize (H1 ltac:(nra)).
    eapply Qle_trans; [|exact H1]. rewrite sq. apply Qsq_le; [nra|]. apply Qle_shift_div_l; [reflexivity|]. nra. }
  assert (Hm : (2 ^ 52 <= m)%N).
  { destruct (N.le_gt_cases (2 ^ 52) m) as [|G]; auto. exfalso. destruct O3 as [->|O3]; [|lia].
    specialize (Hu ltac:(lia)). apply N.lt_le_incl, qn_le in G. rewrite q52 in G.
    assert (C : (4503599627370496 + (1#2)) * b2 (-1074) * ((4503599627370496 + (1#2)) * b2 (-1074)) < b2 (-1000)) by reflexivity.
    assert ((qn m + (1 # 2)) * b2 (-1074) * ((qn m + (1 # 2)) * b2 (-1074)) <= (4503599627370496 + (1#2)) * b2 (-1074) * ((4503599627370496 + (1#2)) * b2 (-1074))).
    { apply Qsq_le; nra. }
    lra. }
  pose proof Hm as Hm0. apply qn_le in Hm. rewrite q52 in Hm. specialize (Hd ltac:(lia)).
  assert (He : (e < 971)%Z).
  { destruct (Z_lt_ge_dec e 971) as [|G]; auto. exfalso. assert (e = 971)%Z by lia. subst e.
    assert (C : b2 1000 < (4503599627370496 - (1#2)) * b2 971 * ((4503599627370496 - (1#2)) * b2 971)) by reflexivity.
    assert ((4503599627370496 - (1 # 2)) * b2 971 * ((4503599627370496 - (1 # 2)) * b2 971) <= (qn m - (1 # 2)) * b2 971 * ((qn m - (1 # 2)) * b2 971)).
    { apply Qsq_le; nra. }
    lra. }
  specialize (Hu He). rewrite V. pose proof w_val as Wv.
  set (v := qn m * b2 e) in *. set (u := b2 e) in *.
  assert (U : u <= w * v) by (unfold v; rewrite Wv; nra). assert (Pv : 0 < v) by (unfold v; nra).
  assert (Hd' : (v - (1 # 2) * u) * (v - (1 # 2) * u) <= x) by (eapply Qle_trans; [|exact Hd]; unfold v; apply Qle_lteq; right; ring).
  assert (Hu' : x <= (v + (1 # 2) * u) * (v + (1 # 2) * u)) by (eapply Qle_trans; [exact Hu|]; unfold v; apply Qle_lteq; right; ring).
  split; auto. clear - U Pv Pe Hd' Hu' Wv. rewrite Wv in *. split; nra.
Qed.

(** ** Normalising *)

Lemma b2_half e : b2 e == b2 (e - 1) * 2.
Proof. replace e with (e - 1 + 1)%Z at 1 by lia. rewrite b2_succ. ring. Qed.

Lemma f_one_val : fv f_one == 1.
Proof. reflexivity. Qed.
Lemma f_one_finite : finite f_one.
Proof. split; [reflexivity|split; [lia|right; discriminate]]. Qed.

Lemma square_approx x :
  finite x -> Qabs (fv x) <= b2 400 ->
  finite (fmul x x) /\ 0 <= fv x * fv x /\ fv x * fv x <= b2 800 /\
  fv x * fv x * (1 - w) - eta <= fv (fmul x x) /\ fv (fmul x x) <= fv x * fv x * (1 + w) + eta.
Proof.
  intros F B. pose proof (fmul_rounded x x F F) as R. set (v := fv x) in *.
  assert (S0 : 0 <= v * v) by nra.
  assert (E : Qabs (v * v) == v * v) by (apply Qabs_pos; exact S0).
  assert (S1 : v * v <= b2 800).
  { rewrite <- E, Qabs_Qmult. change 800%Z with (400 + 400)%Z. rewrite b2_plus. apply Qsq_le; [apply Qabs_nonneg|exact B]. }
  assert (C : b2 800 <= b2 1000) by discriminate.
  destruct (rounded_approx _ _ (v * v) R ltac:(lra) ltac:(lra)) as (F1 & A1 & A2).
  repeat split; auto; lra.
Qed.

Lemma sum_approx a b B :
  finite a -> finite b -> 0 <= fv a + fv b -> fv a + fv b <= B -> B <= b2 1000 ->
  finite (fadd a b) /\ (fv a + fv b) * (1 - w) - eta <= fv (fadd a b) /\ fv (fadd a b) <= (fv a + fv b) * (1 + w) + eta.
Proof.
  intros F G P H H'. pose proof (fadd_rounded a b F G) as R.
  assert (E : Qabs (fv a + fv b) == fv a + fv b) by (apply Qabs_pos; exact P).
  destruct (rounded_approx _ _ (fv a + fv b) R ltac:(lra) ltac:(lra)) as (F1 & A1 & A2).
  split; [auto|split; lra].
Qed.

Lemma finite_zero_le a : finite a -> forall x, rounded x a -> 0 <= x -> 0 <= fv a.
Proof.
  intros F x R P. destruct R as [d _ (_ & Hn & _) _ Hs|]; [|contradiction].
  destruct (Qlt_le_dec 0 x) as [L|L].
  - specialize (Hs L). destruct d as [| |s m e]; try contradiction. cbn [negative] in Hs. subst s. rewrite fv_eq. cbn [sg].
    pose proof (b2_pos e). pose proof (qn_nonneg m). nra.
  - assert (x == 0) by lra. specialize (Hn f_zero ltac:(repeat split; try lia; now left)).
    assert (Z0 : fv f_zero == 0) by reflexivity. rewrite Z0, H in Hn. change (Qabs (0 - 0)) with 0 in Hn.
    pose proof (Qabs_nonneg (0 - fv d)). assert (K : Qabs (0 - fv d) <= 0) by lra.
    apply Qabs_Qle_condition in K. lra.
Qed.

Lemma finite_zero_ge a : finite a -> forall x, rounded x a -> x <= 0 -> fv a <= 0.
Proof.
  intros F x R P. destruct R as [d _ (_ & Hn & _) Hs _|]; [|contradiction].
  destruct (Qlt_le_dec x 0) as [L|L].
  - specialize (Hs L). destruct d as [| |s m e]; try contradiction. cbn [negative] in Hs. subst s. rewrite fv_eq. cbn [sg].
    pose proof (b2_pos e). pose proof (qn_nonneg m). nra.
  - assert (x == 0) by lra. specialize (Hn f_zero ltac:(repeat split; try lia; now left)).
    assert (Z0 : fv f_zero == 0) by reflexivity. rewrite Z0, H in Hn. change (Qabs (0 - 0)) with 0 in Hn.
    pose proof (Qabs_nonneg (0 - fv d)). assert (K : Qabs (0 - fv d) <= 0) by lra.
    apply Qabs_Qle_condition in K. lra.
Qed.

(** The reciprocal of the length. *)
Lemma inv_length S s :
  finite S -> b2 (-800) <= s -> s <= b2 802 -> s * (1 - 4 * w) <= fv S -> fv S <= s * (1 + 4 * w) ->
  let i := fdiv f_one (fsqrt S) in
  finite i /\ 0 < fv i /\ 1 - 10 * w <= fv i * fv i * s /\ fv i * fv i * s <= 1 + 14 * w.
Proof.
  intros F S1 S2 S3 S4 i. pose proof w_val as Wv. pose proof (b2_pos (-800)) as P8.
  assert (C1 : b2 (-1000) <= b2 (-800) * (1 - 4 * w)) by (vm_compute; discriminate).
  assert (C2 : b2 802 * (1 + 4 * w) <= b2 1000) by (vm_compute; discriminate).
  assert (X1 : b2 (-1000) <= fv S) by (rewrite Wv in *; lra).
  assert (X2 : fv S <= b2 1000) by (rewrite Wv in *; lra).
  assert (Q : nearest_root (fv S) (fsqrt S)) by (apply fsqrt_root; auto; pose proof (b2_pos (-1000)); lra).
  destruct (root_err _ _ Q X1 X2) as (Pn & N1 & N2). destruct Q as (Fn & _ & _).
  set (n := fv (fsqrt S)) in *.
  (* size of the length *)
  assert (L1 : b2 (-402) <= n).
  { destruct (Qlt_le_dec n (b2 (-402))) as [L|L]; auto. exfalso.
    assert (n * n <= b2 (-402) * b2 (-402)) by (apply Qsq_le; lra).
    assert (b2 (-402) * b2 (-402) * (1 + 2 * w) < b2 (-800) * (1 - 4 * w)) by reflexivity. rewrite Wv in *. lra. }
  assert (L2 : n <= b2 402).
  { destruct (Qlt_le_dec (b2 402) n) as [L|L]; auto. exfalso.
    assert (b2 402 * b2 402 <= n * n) by (apply Qsq_le; [apply Qlt_le_weak, b2_pos|lra]).
    assert (b2 802 * (1 + 4 * w) < b2 402 * b2 402 * (1 - w)) by reflexivity. rewrite Wv in *. lra. }
  assert (R : rounded (fv f_one / n) i) by (apply fdiv_rounded; [apply f_one_finite|exact Fn|fold n; lra]).
  assert (V : fv f_one / n == / n) by (rewrite f_one_val; unfold Qdiv; apply Qmult_1_l).
  assert (Pi : 0 < / n) by (now apply Qinv_lt_0_compat).
  assert (Vn : / n * n == 1) by (rewrite Qmult_comm; apply Qmult_inv_r; lra).
  assert (A : Qabs (fv f_one / n) == / n) by (rewrite V; apply Qabs_pos; lra).
  assert (B : / n <= b2 402).
  { assert (b2 402 * b2 (-402) == 1) by reflexivity. pose proof (b2_pos 402). nra. }
  assert (C3 : b2 402 <= b2 1000) by (vm_compute; discriminate).
  destruct (rounded_approx _ _ (/ n) R ltac:(lra) ltac:(lra)) as (Fi & I1 & I2). rewrite V in I1, I2.
  fold i in I1, I2 |- *. split; auto. set (k := fv i) in *.
  (* k n is close to one *)
  assert (T : eta * n <= w).
  { assert (eta * b2 402 <= w) by (vm_compute; discriminate). pose proof eta_pos. nra. }
  assert (K1 : 1 - 2 * w <= k * n).
  { assert ((/ n - (w * / n + eta)) * n <= k * n) by nra.
    setoid_replace ((/ n - (w * / n + eta)) * n) with (/ n * n - w * (/ n * n) - eta * n) in H by ring. rewrite Vn in H. lra. }
  assert (K2 : k * n <= 1 + 2 * w).
  { assert (k * n <= (/ n + (w * / n + eta)) * n) by nra.
    setoid_replace ((/ n + (w * / n + eta)) * n) with (/ n * n + w * (/ n * n) + eta * n) in H by ring. rewrite Vn in H. lra. }
  assert (Pk : 0 < k).
  { destruct (Qlt_le_dec 0 k) as [|G]; auto. exfalso. assert (k * n <= 0) by nra. rewrite Wv in *. lra. }
  split; auto.
  set (t := k * n) in *. assert (T1 : (1 - 2 * w) * (1 - 2 * w) <= t * t) by (apply Qsq_le; rewrite Wv in *; lra).
  assert (T2 : t * t <= (1 + 2 * w) * (1 + 2 * w)) by (apply Qsq_le; rewrite Wv in *; lra).
  assert (E : t * t == k * k * (n * n)) by (unfold t; ring).
  set (kk := k * k) in *. assert (Pkk : 0 < kk) by (unfold kk; nra). set (nn := n * n) in *.
  assert (U1 : kk * (nn * (1 - w)) <= kk * fv S) by (apply Qmult_le_l; auto).
  assert (U2 : kk * fv S <= kk * (nn * (1 + 2 * w))) by (apply Qmult_le_l; auto).
  assert (U3 : kk * (s * (1 - 4 * w)) <= kk * fv S) by (apply Qmult_le_l; auto).
  assert (U4 : kk * fv S <= kk * (s * (1 + 4 * w))) by (apply Qmult_le_l; auto).
  setoid_replace (kk * (nn * (1 - w))) with (t * t * (1 - w)) in U1 by (rewrite E; ring).
  setoid_replace (kk * (nn * (1 + 2 * w))) with (t * t * (1 + 2 * w)) in U2 by (rewrite E; ring).
  setoid_replace (kk * (s * (1 - 4 * w))) with (kk * s * (1 - 4 * w)) in U3 by ring.
  setoid_replace (kk * (s * (1 + 4 * w))) with (kk * s * (1 + 4 * w)) in U4 by ring.
  set (z := kk * s) in *. set (tt := t * t) in *. clear - U1 U2 U3 U4 T1 T2 Wv. rewrite Wv in *. split; lra.
Qed.

Lemma scaled_component x i s :
  finite x -> finite i -> 0 < fv i -> fv x * fv x <= s -> fv i * fv i * s <= 2 ->
  let p := fv x * fv i in
  finite (fmul x i) /\
  p * p * (1 - 2 * w) - 4 * eta <= fv (fmul x i) * fv (fmul x i) /\
  fv (fmul x i) * fv (fmul x i) <= p * p * (1 + 3 * w) + 5 * eta /\
  Qabs (fv (fmul x i) - p) <= 2 * w /\ (fv (fmul x i) < 0 -> p < 0) /\ (0 < fv (fmul x i) -> 0 < p).
Proof.
  intros F G Pi H1 H2 p. pose proof (fmul_rounded x i F G) as R. fold p in R. pose proof w_val as Wv. pose proof eta_pos as Pe.
  assert (PP : p * p <= 2).
  { eapply Qle_trans; [|exact H2]. unfold p. setoid_replace (fv x * fv i * (fv x * fv i)) with (fv i * fv i * (fv x * fv x)) by ring.
    apply Qmult_le_l; nra. }
  set (q := Qabs p). assert (Q0 : 0 <= q) by apply Qabs_nonneg.
  assert (QQ : q * q == p * p).
  { unfold q. rewrite <- Qabs_Qmult. apply Qabs_pos. nra. }
  assert (Q2 : q <= (3 # 2)).
  { destruct (Qlt_le_dec (3 # 2) q) as [L|]; auto. exfalso. assert ((3#2) * (3#2) <= q * q) by (apply Qsq_le; lra). lra. }
  assert (C : (3 # 2) <= b2 1000) by (vm_compute; discriminate).
  destruct (rounded_approx _ _ q R ltac:(apply Qle_refl) ltac:(lra)) as (Fr & A1 & A2).
  split; auto. set (r := fv (fmul x i)) in *.
  assert (E1 : eta <= w * (1 # 1000)) by (vm_compute; discriminate).
  assert (D : exists h, r == p + h /\ - (w * q + eta) <= h /\ h <= w * q + eta) by (exists (r - p); lra).
  destruct D as (h & Dr & D1 & D2).
  assert (PQ : - q <= p /\ p <= q) by (apply Qabs_Qle_condition, Qle_refl).
  assert (W0 : 0 < w) by reflexivity.
  set (g := w * q + eta) in *. assert (G0 : 0 <= g) by (unfold g; nra).
  assert (HP : - (q * g) <= p * h /\ p * h <= q * g) by (split; nra).
  assert (HH : 0 <= h * h /\ h * h <= g * g) by (split; nra).
  assert (GG : q * g == w * (q * q) + eta * q) by (unfold g; ring).
  assert (GG2 : g * g <= w * (q * q) * w + 2 * w * q * eta + eta * eta) by (unfold g; apply Qle_lteq; right; ring).
  assert (X : r * r == p * p + 2 * (p * h) + h * h) by (rewrite Dr; ring).
  assert (B1 : eta * q <= (3 # 2) * eta) by nra.
  assert (B2 : 2 * w * q * eta <= eta) by (rewrite Wv; nra).
  assert (B3 : eta * eta <= (1 # 2) * eta) by (assert (eta <= 1 # 2) by (vm_compute; discriminate); nra).
  assert (B4 : w * (q * q) * w <= w * (q * q) * (1 # 2)) by (rewrite Wv; nra).
  assert (B0 : 0 <= p * p) by nra.
  split; [|split; [|split; [|split]]].
  - rewrite X. set (qq := q * q) in *. set (pp := p * p) in *. rewrite Wv in *. lra.
  - rewrite X. set (qq := q * q) in *. set (pp := p * p) in *. rewrite Wv in *. lra.
  - apply Qabs_Qle_condition. unfold g in *. clear - A1 A2 Q0 Q2 E1 Wv Pe. rewrite Wv in *. split; lra.
  - intro L. destruct (Qlt_le_dec p 0) as [|N]; auto. exfalso.
    pose proof (finite_zero_le _ Fr p R N). fold r in H. lra.
  - intro L. destruct (Qlt_le_dec 0 p) as [|N]; auto. exfalso.
    pose proof (finite_zero_ge _ Fr p R N). fold r in H. lra.
Qed.

(** ** Three and two components *)

Definition moderate (d : f64) : Prop := finite d /\ Qabs (fv d) <= b2 400.

Lemma big_square x : b2 (-400) <= Qabs (fv x) -> b2 (-800) <= fv x * fv x.
Proof.
  intro H. assert (E : Qabs (fv x) * Qabs (fv x) == fv x * fv x) by (rewrite <- Qabs_Qmult; apply Qabs_pos; nra).
  rewrite <- E. change (-800)%Z with (-400 + -400)%Z. rewrite b2_plus. apply Qsq_le; [apply Qlt_le_weak, b2_pos|exact H].
Qed.

Lemma dot_approx x y z :
  moderate x -> moderate y -> moderate z ->
  b2 (-400) <= Qabs (fv x) \/ b2 (-400) <= Qabs (fv y) \/ b2 (-400) <= Qabs (fv z) ->
  let s := fv x * fv x + fv y * fv y + fv z * fv z in
  let S := fadd (fadd (fmul x x) (fmul y y)) (fmul z z) in
  finite S /\ b2 (-800) <= s /\ s <= b2 802 /\ s * (1 - 4 * w) <= fv S /\ fv S <= s * (1 + 4 * w).
Proof.
  intros [Fx Bx] [Fy By] [Fz Bz] H s S.
  destruct (square_approx x Fx Bx) as (F1 & X0 & X1 & X2 & X3).
  destruct (square_approx y Fy By) as (F2 & Y0 & Y1 & Y2 & Y3).
  destruct (square_approx z Fz Bz) as (F3 & Z0 & Z1 & Z2 & Z3).
  pose proof (finite_zero_le _ F1 _ (fmul_rounded x x Fx Fx) X0) as PX.
  pose proof (finite_zero_le _ F2 _ (fmul_rounded y y Fy Fy) Y0) as PY.
  pose proof (finite_zero_le _ F3 _ (fmul_rounded z z Fz Fz) Z0) as PZ.
  pose proof w_val as Wv. pose proof eta_pos as Pe.
  assert (C8 : b2 802 == 4 * b2 800) by reflexivity. pose proof (b2_pos 800) as P8.
  assert (CE : eta <= b2 800) by (vm_compute; discriminate).
  assert (C1 : 10 * b2 800 <= b2 1000) by (vm_compute; discriminate).
  destruct (sum_approx _ _ (5 * b2 800) F1 F2 ltac:(lra) ltac:(rewrite Wv in *; lra) ltac:(lra)) as (F4 & A1 & A2).
  assert (PT : 0 <= fv (fadd (fmul x x) (fmul y y))) by (apply (finite_zero_le _ F4 _ (fadd_rounded _ _ F1 F2)); lra).
  destruct (sum_approx _ _ (10 * b2 800) F4 F3 ltac:(lra) ltac:(rewrite Wv in *; lra) ltac:(lra)) as (F5 & A3 & A4).
  assert (L : b2 (-800) <= s).
  { unfold s. destruct H as [H|[H|H]]; apply big_square in H; lra. }
  assert (CT : eta * 1000 <= w * b2 (-800)) by (vm_compute; discriminate).
  assert (ET : eta * 1000 <= w * s) by (assert (0 < w) by reflexivity; nra).
  split; [exact F5|]. split; [exact L|]. split; [unfold s; lra|]. fold S in A3, A4.
  set (a := fv x * fv x) in *. set (b := fv y * fv y) in *. set (c := fv z * fv z) in *.
  unfold s in *. clear - A1 A2 A3 A4 X0 X2 X3 Y0 Y2 Y3 Z0 Z2 Z3 ET Pe Wv. rewrite Wv in *. split; lra.
Qed.

Lemma dot2_approx x y :
  moderate x -> moderate y -> b2 (-400) <= Qabs (fv x) \/ b2 (-400) <= Qabs (fv y) ->
  let s := fv x * fv x + fv y * fv y in
  let S := fadd (fmul x x) (fmul y y) in
  finite S /\ b2 (-800) <= s /\ s <= b2 802 /\ s * (1 - 4 * w) <= fv S /\ fv S <= s * (1 + 4 * w).
Proof.
  intros [Fx Bx] [Fy By] H s S.
  destruct (square_approx x Fx Bx) as (F1 & X0 & X1 & X2 & X3).
  destruct (square_approx y Fy By) as (F2 & Y0 & Y1 & Y2 & Y3).
  pose proof (finite_zero_le _ F1 _ (fmul_rounded x x Fx Fx) X0) as PX.
  pose proof (finite_zero_le _ F2 _ (fmul_rounded y y Fy Fy) Y0) as PY.
  pose proof w_val as Wv. pose proof eta_pos as Pe.
  assert (C8 : b2 802 == 4 * b2 800) by reflexivity. pose proof (b2_pos 800) as P8.
  assert (CE : eta <= b2 800) by (vm_compute; discriminate).
  assert (C1 : 10 * b2 800 <= b2 1000) by (vm_compute; discriminate).
  destruct (sum_approx _ _ (5 * b2 800) F1 F2 ltac:(lra) ltac:(rewrite Wv in *; lra) ltac:(lra)) as (F4 & A1 & A2).
  assert (L : b2 (-800) <= s).
  { unfold s. destruct H as [H|H]; apply big_square in H; lra. }
  assert (CT : eta * 1000 <= w * b2 (-800)) by (vm_compute; discriminate).
  assert (ET : eta * 1000 <= w * s) by (assert (0 < w) by reflexivity; nra).
  split; [exact F4|]. split; [exact L|]. split; [unfold s; lra|]. fold S in A1, A2.
  set (a := fv x * fv x) in *. set (b := fv y * fv y) in *.
  unfold s in *. clear - A1 A2 X0 X2 X3 Y0 Y2 Y3 ET Pe Wv. rewrite Wv in *. split; lra.
Qed.

Lemma sum_sq_nonneg l : 0 <= sum_sq l.
Proof. induction l as [|c l IH]; [cbn; lra|]. change (sum_sq (c :: l)) with (fv c * fv c + sum_sq l). nra. Qed.

Lemma scaled_all i s l :
  finite i -> 0 < fv i -> fv i * fv i * s <= 2 ->
  Forall (fun c => finite c /\ fv c * fv c <= s) l ->
  let r := map (fun c => fmul c i) l in
  let n := inject_Z (Z.of_nat (length l)) in
  Forall finite r /\
  fv i * fv i * sum_sq l * (1 - 2 * w) - n * (4 * eta) <= sum_sq r /\
  sum_sq r <= fv i * fv i * sum_sq l * (1 + 3 * w) + n * (5 * eta) /\
  Forall2 (fun c d => Qabs (fv d - fv c * fv i) <= inject_Z 2 ^ (-51) /\
                      (fv d < 0 -> fv c < 0) /\ (0 < fv d -> 0 < fv c)) l r.
Proof.
  intros Fi Pi H. induction l as [|c l IH]; intros A r n.
  - assert (E1 : sum_sq [] == 0) by reflexivity. assert (E2 : n == 0) by reflexivity. change (sum_sq r) with (sum_sq []).
    rewrite E1, E2. repeat split; [constructor|lra|lra|constructor].
  - inversion A as [|? ? [Fc Hc] A']; subst. destruct (IH A') as (I1 & I2 & I3 & I4).
    destruct (scaled_component c i s Fc Fi Pi Hc H) as (C1 & C2 & C3 & C4 & C5 & C6).
    assert (En : n == 1 + inject_Z (Z.of_nat (length l))).
    { unfold n. cbn [length]. rewrite Nat2Z.inj_succ, <- Z.add_1_l, inject_Z_plus. reflexivity. }
    unfold r. cbn [map sum_sq fold_right]. fold (sum_sq l). fold (sum_sq (map (fun c => fmul c i) l)).
    split; [constructor; auto|]. split; [|split].
    + rewrite En. setoid_replace (fv i * fv i * (fv c * fv c + sum_sq l) * (1 - 2 * w) - (1 + inject_Z (Z.of_nat (length l))) * (4 * eta))
        with ((fv c * fv i * (fv c * fv i) * (1 - 2 * w) - 4 * eta) + (fv i * fv i * sum_sq l * (1 - 2 * w) - inject_Z (Z.of_nat (length l)) * (4 * eta))) by ring.
      now apply Qplus_le_compat.
    + rewrite En. setoid_replace (fv i * fv i * (fv c * fv c + sum_sq l) * (1 + 3 * w) + (1 + inject_Z (Z.of_nat (length l))) * (5 * eta))
        with ((fv c * fv i * (fv c * fv i) * (1 + 3 * w) + 5 * eta) + (fv i * fv i * sum_sq l * (1 + 3 * w) + inject_Z (Z.of_nat (length l)) * (5 * eta))) by ring.
      now apply Qplus_le_compat.
    + constructor; auto. split; [|split].
      * assert (E : 2 * w == inject_Z 2 ^ (-51)) by reflexivity. rewrite <- E. exact C4.
      * intro L. specialize (C5 L). nra.
      * intro L. specialize (C6 L). nra.
Qed.

Lemma normal_core S s l :
  (length l <= 3)%nat -> finite S -> b2 (-800) <= s -> s <= b2 802 -> s * (1 - 4 * w) <= fv S -> fv S <= s * (1 + 4 * w) ->
  s == sum_sq l -> Forall finite l ->
  let r := map (fun c => fmul c (fdiv f_one (fsqrt S))) l in
  unit_length r /\ same_direction l r.
Proof.
  intros Hl F S1 S2 S3 S4 Es Fl r.
  destruct (inv_length S s F S1 S2 S3 S4) as (Fi & Pi & I1 & I2). set (i := fdiv f_one (fsqrt S)) in *.
  pose proof w_val as Wv. pose proof eta_pos as Pe.
  assert (I3 : fv i * fv i * s <= 2) by (rewrite Wv in *; lra).
  assert (A : Forall (fun c => finite c /\ fv c * fv c <= s) l).
  { assert (K : Forall (fun c => finite c /\ fv c * fv c <= sum_sq l) l).
    { clear - Fl. induction Fl as [|c l Fc Fl IH]; constructor.
      - split; auto. cbn [sum_sq fold_right]. fold (sum_sq l). pose proof (sum_sq_nonneg l). lra.
      - eapply Forall_impl; [|exact IH]. cbv beta. intros a [Fa Ha]. split; auto. cbn [sum_sq fold_right]. fold (sum_sq l).
        assert (0 <= fv c * fv c) by nra. lra. }
    eapply Forall_impl; [|exact K]. cbv beta. intros a [Fa Ha]. split; auto. now rewrite Es. }
  destruct (scaled_all i s l Fi Pi I3 A) as (R1 & R2 & R3 & R4). fold r in R1, R2, R3, R4.
  split; [|exists (fv i); auto]. split; auto.
  assert (N : 0 <= inject_Z (Z.of_nat (length l)) /\ inject_Z (Z.of_nat (length l)) <= 3).
  { split; unfold Qle; cbn; lia. }
  rewrite <- Es in R2, R3. set (t := fv i * fv i * s) in *. set (n := inject_Z (Z.of_nat (length l))) in *.
  assert (E1 : eta * 1000 <= w) by (vm_compute; discriminate).
  assert (B1 : n * (4 * eta) <= 12 * eta) by nra. assert (B2 : n * (5 * eta) <= 15 * eta) by nra.
  apply Qabs_Qle_condition. assert (E2 : inject_Z 2 ^ (-47) == 32 * w) by reflexivity. rewrite E2.
  clear - R2 R3 I1 I2 B1 B2 E1 Wv Pe. rewrite Wv in *. split; lra.
Qed.

Lemma normalize3 x y z :
  moderate_vector [x; y; z] ->
  let '(a, b, c) := vnormalize (x, y, z) in
  unit_length [a; b; c] /\ same_direction [x; y; z] [a; b; c].
Proof.
  intros [M E]. inversion M as [|? ? Mx M1]; subst. inversion M1 as [|? ? My M2]; subst. inversion M2 as [|? ? Mz _]; subst.
  assert (E' : b2 (-400) <= Qabs (fv x) \/ b2 (-400) <= Qabs (fv y) \/ b2 (-400) <= Qabs (fv z)).
  { inversion E as [? ? H|? ? E1]; subst; auto. inversion E1 as [? ? H|? ? E2]; subst; auto.
    inversion E2 as [? ? H|? ? E3]; subst; auto. inversion E3. }
  destruct (dot_approx x y z Mx My Mz E') as (F & S1 & S2 & S3 & S4).
  unfold vnormalize, vscale, vdot.
  apply (normal_core _ _ [x; y; z]) with (2 := F) (3 := S1) (4 := S2) (5 := S3) (6 := S4).
  - cbn. lia.
  - cbn [sum_sq fold_right]. ring.
  - constructor; [apply Mx|]. constructor; [apply My|]. constructor; [apply Mz|constructor].
Qed.

Lemma normalize2 x y :
  moderate_vector [x; y] ->
  let f := fdiv f_one (fsqrt (fadd (fmul x x) (fmul y y))) in
  unit_length [fmul x f; fmul y f] /\ same_direction [x; y] [fmul x f; fmul y f].
Proof.
  intros [M E]. inversion M as [|? ? Mx M1]; subst. inversion M1 as [|? ? My M2]; subst.
  assert (E' : b2 (-400) <= Qabs (fv x) \/ b2 (-400) <= Qabs (fv y)).
  { inversion E as [? ? H|? ? E1]; subst; auto. inversion E1 as [? ? H|? ? E2]; subst; auto. inversion E2. }
  destruct (dot2_approx x y Mx My E') as (F & S1 & S2 & S3 & S4).
  apply (normal_core _ _ [x; y]) with (2 := F) (3 := S1) (4 := S2) (5 := S3) (6 := S4).
  - cbn. lia.
  - cbn [sum_sq fold_right]. ring.
  - constructor; [apply Mx|]. constructor; [apply My|constructor].
Qed.
