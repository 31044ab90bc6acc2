(** The operations of Arith.v give the nearest number. *)

From Coq Require Import List NArith ZArith Bool Lia.
From Coq Require Import QArith Qpower Qabs Lqa.
From Coq Require Import ZifyBool ZifyNat ZifyN.
From Verif Require Import Base Prims Float RoundFacts Arith ArithSpec.
Import ListNotations.
Open Scope Q_scope.

Lemma b2_shift e k : (0 <= k)%Z -> b2 (e + k) == qn (2 ^ Z.to_N k) * b2 e.
Proof. intro H. rewrite b2_plus, qn_pow2_N, Z2N.id by auto. ring. Qed.

Lemma above m e m' e' :
  f64_ok (FFin false m e) -> f64_ok (FFin false m' e') -> qn m * b2 e < qn m' * b2 e' ->
  (qn m + 1) * b2 e <= qn m' * b2 e'.
Proof.
  intros (A1 & A2 & A3) (B1 & B2 & B3) H. pose proof (b2_pos e) as P. pose proof (b2_pos e') as P'.
  destruct (Z_le_gt_dec e e') as [L|L].
  - assert (E : b2 e' == qn (2 ^ Z.to_N (e' - e)) * b2 e) by (rewrite <- b2_shift by lia; apply Qeq_refl || (replace (e + (e' - e))%Z with e' by lia; reflexivity)).
    rewrite E in H |- *. assert (K : qn m < qn (m' * 2 ^ Z.to_N (e' - e))) by (rewrite qn_mul; nra).
    apply qn_lt in K. assert (K' : qn (m + 1) <= qn (m' * 2 ^ Z.to_N (e' - e))) by (apply qn_le; lia).
    rewrite qn_add, qn_mul in K'. change (qn 1) with 1 in K'. nra.
  - exfalso. assert (M : (2 ^ 52 <= m)%N) by lia. assert (M' : (m' <= 2 ^ 53)%N) by lia.
    apply qn_le in M, M'. rewrite q52 in M. rewrite q53 in M'.
    assert (E : b2 e' <= b2 (e - 1)) by (apply b2_le; lia).
    assert (E1 : b2 e == 2 * b2 (e - 1)) by (rewrite <- b2_succ; replace (e - 1 + 1)%Z with e by lia; reflexivity).
    assert (qn m' * b2 e' <= 9007199254740992 * b2 (e - 1)) by (pose proof (qn_nonneg m'); nra). nra.
Qed.

Lemma below m e m' e' :
  f64_ok (FFin false m e) -> f64_ok (FFin false m' e') -> qn m' * b2 e' < qn m * b2 e ->
  qn m' * b2 e' <= (qn m - 2 * low_gap m e) * b2 e.
Proof.
  intros (A1 & A2 & A3) (B1 & B2 & B3) H. pose proof (b2_pos e) as P. pose proof (b2_pos e') as P'.
  assert (G : low_gap m e == (1 # 2) \/ (low_gap m e == (1 # 4) /\ qn m == 4503599627370496)).
  { unfold low_gap. destruct (N.eqb_spec m (2 ^ 52)) as [->|]; cbn [andb]; [|now left].
    destruct (Z.ltb_spec (-1074) e); [right|now left]. split; [reflexivity|]. apply q52. }
  destruct (Z_le_gt_dec e e') as [L|L].
  - assert (E : b2 e' == qn (2 ^ Z.to_N (e' - e)) * b2 e) by (rewrite <- b2_shift by lia; replace (e + (e' - e))%Z with e' by lia; reflexivity).
    rewrite E in H |- *. assert (K : qn (m' * 2 ^ Z.to_N (e' - e)) < qn m) by (rewrite qn_mul; nra).
    apply qn_lt in K. assert (K' : qn (m' * 2 ^ Z.to_N (e' - e) + 1) <= qn m) by (apply qn_le; lia).
    rewrite qn_add, qn_mul in K'. change (qn 1) with 1 in K'. destruct G as [->|[-> _]]; nra.
  - assert (M : (2 ^ 52 <= m)%N) by lia. assert (M' : (m' + 1 <= 2 ^ 53)%N) by lia.
    apply qn_le in M'. rewrite qn_add, q53 in M'. change (qn 1) with 1 in M'.
    assert (E : b2 e' <= b2 (e - 1)) by (apply b2_le; lia).
    assert (E1 : b2 e == 2 * b2 (e - 1)) by (rewrite <- b2_succ; replace (e - 1 + 1)%Z with e by lia; reflexivity).
    assert (K : qn m' * b2 e' <= (9007199254740992 - 1) * b2 (e - 1)) by (pose proof (qn_nonneg m'); nra).
    assert (P1 : 0 < b2 (e - 1)) by apply b2_pos. rewrite E1. unfold low_gap.
    destruct (N.eqb_spec m (2 ^ 52)) as [->|Hne]; cbn [andb].
    + destruct (Z.ltb_spec (-1074) e); [|lia]. rewrite q52. nra.
    + assert (M2 : (2 ^ 52 + 1 <= m)%N) by lia. apply qn_le in M2. rewrite qn_add, q52 in M2. change (qn 1) with 1 in M2. nra.
Qed.

Definition sg (s : bool) : Q := if s then -1 else 1.
Lemma fv_eq s m e : fv (FFin s m e) = sg s * (qn m * b2 e).
Proof. reflexivity. Qed.

Lemma sg_cases s : s = true /\ sg s = -1 \/ s = false /\ sg s = 1.
Proof. destruct s; auto. Qed.

Lemma ok_sign s t m e : f64_ok (FFin s m e) <-> f64_ok (FFin t m e).
Proof. reflexivity. Qed.

(** Distances on both sides. *)
Lemma apart m e x d' :
  f64_ok (FFin false m e) -> near_f m e x -> finite d' ->
  (fv d' == qn m * b2 e) \/
  (x <= (qn m + (1 # 2)) * b2 e /\ (qn m + 1) * b2 e <= fv d') \/
  ((qn m - low_gap m e) * b2 e <= x /\ fv d' <= (qn m - 2 * low_gap m e) * b2 e).
Proof.
  intros Hok (N1 & N2 & N3) Hd. destruct d' as [| |s m' e']; try contradiction. cbn [finite] in Hd.
  apply (ok_sign s false) in Hd. rewrite fv_eq.
  pose proof (b2_pos e) as P. pose proof (b2_pos e') as P'. pose proof (qn_nonneg m). pose proof (qn_nonneg m').
  assert (G : 0 < low_gap m e /\ low_gap m e <= (1 # 2)) by (unfold low_gap; destruct (_ && _)%bool; split; reflexivity || discriminate).
  destruct (sg_cases s) as [[-> ->]|[-> ->]].
  - destruct (N.eq_dec m' 0) as [->|Hm'].
    + change (qn 0) with 0. destruct (N.eq_dec m 0) as [->|Hm]; [left; change (qn 0) with 0; ring|]. right. right. split; auto.
      assert (1 <= qn m) by (change 1 with (qn 1); apply qn_le; lia). nra.
    + right. right. split; auto. assert (1 <= qn m') by (change 1 with (qn 1); apply qn_le; lia).
      destruct (N.eq_dec m 0) as [->|Hm].
      * change (qn 0) with 0. destruct Hok as (_ & O2 & O3). destruct O3 as [->|O3]; [|lia].
        assert (b2 (-1074) <= b2 e') by (apply b2_le; destruct Hd; lia).
        assert (low_gap 0 (-1074) == (1 # 2)) by reflexivity. nra.
      * assert (1 <= qn m) by (change 1 with (qn 1); apply qn_le; lia). nra.
  - destruct (Q_dec (qn m' * b2 e') (qn m * b2 e)) as [[L|L]|L].
    + right. right. split; auto. pose proof (below m e m' e' Hok Hd L). lra.
    + right. left. split; auto. pose proof (above m e m' e' Hok Hd L). lra.
    + left. lra.
Qed.

Lemma nearest_of_near s m e x :
  f64_ok (FFin s m e) -> near_f m e x -> nearest (sg s * x) (FFin s m e).
Proof.
  intros Hok Hn. pose proof (proj1 (ok_sign s false m e) Hok) as Hok0. split; [exact Hok|].
  (* reduce to the positive side *)
  assert (K : forall d', finite d' -> exists d0, finite d0 /\ fv d' == sg s * fv d0).
  { intros d' Hd. destruct d' as [| |t m' e']; try contradiction. exists (FFin (xorb s t) m' e'). split; [exact Hd|].
    rewrite !fv_eq. destruct s, t; cbn [xorb sg]; ring. }
  assert (D : forall y, Qabs (sg s * x - sg s * y) == Qabs (x - y)).
  { intro y. destruct (sg_cases s) as [[_ ->]|[_ ->]].
    - setoid_replace (-1 * x - -1 * y) with (- (x - y)) by ring. apply Qabs_opp.
    - setoid_replace (1 * x - 1 * y) with (x - y) by ring. reflexivity. }
  rewrite fv_eq.
  assert (G : 0 < low_gap m e) by (unfold low_gap; destruct (_ && _)%bool; reflexivity).
  pose proof (b2_pos e) as P. destruct Hn as (N1 & N2 & N3).
  split.
  - intros d' Hd. destruct (K d' Hd) as (d0 & H0 & ->). rewrite !D.
    destruct (apart m e x d0 Hok0 (conj N1 (conj N2 N3)) H0) as [E|[[A B]|[A B]]].
    + rewrite E. lra.
    + apply Qabs_case; intro; apply Qabs_case; intro; nra.
    + apply Qabs_case; intro; apply Qabs_case; intro; nra.
  - intros d' Hd E Hne. cbn [even_mantissa]. destruct (K d' Hd) as (d0 & H0 & E0). rewrite E0, !D in E. rewrite E0 in Hne.
    apply N3. destruct (apart m e x d0 Hok0 (conj N1 (conj N2 N3)) H0) as [E1|[[A B]|[A B]]].
    + exfalso. apply Hne. now rewrite E1.
    + right. revert E. apply Qabs_case; intro; apply Qabs_case; intro; intro; nra.
    + left. revert E. apply Qabs_case; intro; apply Qabs_case; intro; intro; nra.
Qed.

(** Overflow. *)
Lemma round_over neg n d x :
  repr n d x -> (0 < n)%N -> (round_f64 neg n d = FInf neg /\ limit <= x) \/
  (exists m e, round_f64 neg n d = FFin neg m e /\ x < limit).
Proof.
  intros Hx Hn. assert (L0 : limit == (9007199254740992 - (1 # 2)) * b2 971) by reflexivity.
  pose proof (repr_pos n d x Hx Hn) as Px.
  destruct (round_f64 neg n d) as [|s|s m e] eqn:E.
  - exfalso. unfold round_f64 in E. destruct (N.eqb_spec n 0); [lia|]. cbv zeta in E.
    destruct (scale2 n d _). destruct (_ =? 2 ^ 53)%N; destruct (_ <? _)%Z; discriminate.
  - left. unfold round_f64 in E. destruct (N.eqb_spec n 0); [lia|]. cbv zeta in E.
    destruct (ilog2_spec n d x Hx Hn) as [L1 L2]. set (l := ilog2 n d) in *. set (e0 := Z.max (-1074) (l - 52)) in *.
    pose proof (scale2_repr n d x e0 Hx) as Hs. destruct (scale2 n d e0) as [n' d']. cbn [fst snd] in Hs.
    pose proof (rhe_near n' d' _ Hs) as Hr. apply scaled_near in Hr. destruct Hr as (R1 & R2 & _).
    set (r := round_half_even n' d') in *. pose proof (b2_pos 971) as P.
    destruct (N.eqb_spec r (2 ^ 53)) as [Er|Er].
    + destruct (Z.ltb_spec 971 (e0 + 1)); [|discriminate]. injection E as ->. split; auto. rewrite Er, q53 in *.
      assert (b2 971 <= b2 e0) by (apply b2_le; lia). nra.
    + destruct (Z.ltb_spec 971 e0); [|discriminate]. injection E as ->. split; auto.
      assert (b2 (971 + 53) <= b2 l) by (apply b2_le; lia). rewrite b2_53 in H0. nra.
  - right. exists m, e. destruct (round_near neg n d x s m e Hx Hn E) as (-> & (O1 & O2 & O3) & (N1 & N2 & N3)).
    split; auto. pose proof (b2_pos 971) as P. pose proof (b2_pos e) as P'.
    assert (b2 e <= b2 971) by (apply b2_le; lia).
    assert (M : (m + 1 <= 2 ^ 53)%N) by lia. pose proof M as M0. apply qn_le in M. rewrite qn_add, q53 in M. change (qn 1) with 1 in M.
    rewrite L0. assert (K : x <= (9007199254740992 - (1 # 2)) * b2 971) by (pose proof (qn_nonneg m); nra).
    apply Qle_lt_or_eq in K. destruct K as [K|K]; auto. exfalso.
    assert (X : x == (qn m + (1 # 2)) * b2 e) by (pose proof (qn_nonneg m); nra).
    assert (Ev : N.even m = true) by (apply N3; now right).
    assert (qn m == 9007199254740992 - 1) by (pose proof (qn_nonneg m); nra).
    assert (Em : qn (m + 1) == qn (2 ^ 53)) by (rewrite qn_add, q53; change (qn 1) with 1; lra).
    apply qn_inj in Em. assert (m = 2 ^ 53 - 1)%N by lia. subst m. discriminate.
Qed.

Lemma round_rounded neg n d x :
  repr n d x -> (0 < n)%N -> rounded (sg neg * x) (round_f64 neg n d).
Proof.
  intros Hx Hn. pose proof (repr_pos n d x Hx Hn) as Px.
  assert (A : Qabs (sg neg * x) == x).
  { destruct neg; cbn [sg].
    - setoid_replace (-1 * x) with (- x) by ring. rewrite Qabs_opp. apply Qabs_pos. lra.
    - setoid_replace (1 * x) with x by ring. apply Qabs_pos. lra. }
  destruct (round_over neg n d x Hx Hn) as [[-> L]|(m & e & E & L)].
  - apply rounded_over; [now rewrite A|]. destruct neg; cbn [sg]; split; intro; try discriminate; try lra; auto.
  - destruct (round_near neg n d x neg m e Hx Hn E) as (_ & O & Nr). rewrite E. apply rounded_to; [now rewrite A|..].
    + now apply nearest_of_near.
    + destruct neg; cbn [sg negative]; intro; auto. lra.
    + destruct neg; cbn [sg negative]; intro; auto. lra.
Qed.

Lemma nearest_eq x y d : x == y -> nearest x d -> nearest y d.
Proof.
  intros E (H1 & H2 & H3). split; auto. split.
  - intros d' Hd. rewrite <- E. exact (H2 d' Hd).
  - intros d' Hd K. rewrite <- E in K. exact (H3 d' Hd K).
Qed.
Lemma rounded_eq x y d : x == y -> rounded x d -> rounded y d.
Proof.
  intros E H. destruct H as [d H1 H2 H3 H4|s H1 H2].
  - apply rounded_to; rewrite <- ?E; auto. now apply (nearest_eq x).
  - apply rounded_over; [now rewrite <- E|]. now rewrite <- E.
Qed.

Lemma limit_pos : 0 < limit.
Proof. reflexivity. Qed.

Lemma rounded_zero s x : x == 0 -> rounded x (FFin s 0 (-1074)).
Proof.
  intro E. apply rounded_to; [rewrite E; reflexivity| |lra..]. apply (nearest_eq (sg s * 0)); [rewrite E; ring|].
  apply nearest_of_near; [repeat split; try lia; now left|].
  assert (G : low_gap 0 (-1074) == (1 # 2)) by reflexivity. pose proof (b2_pos (-1074)) as P.
  split; [|split]; change (qn 0) with 0; rewrite ?G; [nra|nra|reflexivity].
Qed.

(** ** The operations *)

Lemma mag_rounded neg m e :
  (0 < m)%N -> rounded (sg neg * (qn m * b2 e)) (let (n, d) := mag m e in round_f64 neg n d).
Proof.
  intro Hm. pose proof (mag_repr m e) as Hr. destruct (mag m e) as [n d]. cbn [fst snd] in Hr.
  apply round_rounded; auto. apply (repr_pos_inv n d _ Hr). apply qn_pos in Hm. pose proof (b2_pos e). nra.
Qed.

Lemma signed_value s m e e0 :
  (e0 <= e)%Z -> inject_Z (signed s (shifted m e e0)) * b2 e0 == sg s * (qn m * b2 e).
Proof.
  intro H. unfold shifted. replace e with (e0 + (e - e0))%Z at 2 by lia. rewrite b2_shift by lia.
  assert (E : qn (2 ^ Z.to_N (e - e0)) == inject_Z (2 ^ (e - e0))).
  { unfold qn. rewrite N2Z.inj_pow, Z2N.id by lia. reflexivity. }
  rewrite E. unfold qn. destruct s; cbn [signed sg]; rewrite ?inject_Z_opp, inject_Z_mult; ring.
Qed.

Lemma abs_value z e : sg (z <? 0)%Z * (qn (Z.abs_N z) * b2 e) == inject_Z z * b2 e.
Proof.
  unfold qn. rewrite N2Z.inj_abs_N. destruct (Z.ltb_spec z 0); cbn [sg].
  - rewrite Z.abs_neq by lia. rewrite inject_Z_opp. ring.
  - rewrite Z.abs_eq by lia. ring.
Qed.

Lemma fadd_rounded_fin s m e t m' e' :
  rounded (fv (FFin s m e) + fv (FFin t m' e')) (fadd (FFin s m e) (FFin t m' e')).
Proof.
  rewrite !fv_eq.
  unfold fadd. cbv zeta. set (e0 := Z.min e e').
  set (z := (signed s (shifted m e e0) + signed t (shifted m' e' e0))%Z).
  assert (E : sg s * (qn m * b2 e) + sg t * (qn m' * b2 e') == inject_Z z * b2 e0).
  { unfold z. rewrite inject_Z_plus, Qmult_plus_distr_l, !signed_value by lia. reflexivity. }
  destruct (Z.eqb_spec z 0) as [Ez|Ez].
  - apply rounded_zero. rewrite E, Ez. ring.
  - eapply rounded_eq; [|apply mag_rounded; lia]. rewrite abs_value. symmetry. exact E.
Qed.

Lemma fadd_rounded a b : finite a -> finite b -> rounded (fv a + fv b) (fadd a b).
Proof. destruct a as [| |s m e], b as [| |t m' e']; try contradiction. intros _ _. apply fadd_rounded_fin. Qed.

Lemma fopp_value a : fv (fopp a) == - fv a.
Proof. destruct a as [| |s m e]; cbn [fopp]; try reflexivity. rewrite !fv_eq. destruct s; cbn [negb sg]; ring. Qed.
Lemma fopp_finite a : finite a -> finite (fopp a).
Proof. destruct a; auto. Qed.

Lemma fsub_rounded a b : finite a -> finite b -> rounded (fv a - fv b) (fsub a b).
Proof.
  intros Ha Hb. eapply rounded_eq; [|apply fadd_rounded; [exact Ha|apply fopp_finite; exact Hb]]. rewrite fopp_value. ring.
Qed.

Lemma round_zero neg d : round_f64 neg 0 d = FFin neg 0 (-1074).
Proof. reflexivity. Qed.
Lemma mag_zero e : fst (mag 0 e) = 0%N.
Proof. now destruct e. Qed.

Lemma sg_xor s t : sg (xorb s t) == sg s * sg t.
Proof. destruct s, t; reflexivity. Qed.

Lemma fmul_rounded a b : finite a -> finite b -> rounded (fv a * fv b) (fmul a b).
Proof.
  destruct a as [| |s m e], b as [| |t m' e']; try contradiction. intros _ _. rewrite !fv_eq. unfold fmul.
  assert (E : sg s * (qn m * b2 e) * (sg t * (qn m' * b2 e')) == sg (xorb s t) * (qn (m * m') * b2 (e + e'))).
  { rewrite sg_xor, qn_mul, b2_plus. ring. }
  destruct (N.eq_dec (m * m') 0) as [Z0|Z0].
  - pose proof (mag_zero (e + e')) as Hz. rewrite Z0 in *. destruct (mag 0 (e + e')) as [n d]. cbn [fst] in Hz. subst n.
    rewrite round_zero. apply rounded_zero. rewrite E. change (qn 0) with 0. ring.
  - eapply rounded_eq; [symmetry; exact E|]. apply mag_rounded. lia.
Qed.

Lemma fdiv_rounded a b : finite a -> finite b -> ~ fv b == 0 -> rounded (fv a / fv b) (fdiv a b).
Proof.
  destruct a as [| |s m e], b as [| |t m' e']; try contradiction. intros _ _ Hb. rewrite fv_eq in Hb. rewrite !fv_eq. unfold fdiv.
  destruct (N.eqb_spec m' 0) as [->|Hm']; [exfalso; apply Hb; change (qn 0) with 0; ring|].
  assert (P : 0 < qn m') by (apply qn_pos; lia). pose proof (b2_pos e') as P2.
  assert (E : sg s * (qn m * b2 e) / (sg t * (qn m' * b2 e')) == sg (xorb s t) * (qn m * b2 (e - e') / qn m')).
  { assert (K : b2 (e - e') == b2 e / b2 e').
    { pose proof (b2_plus (e - e') e') as Q. replace (e - e' + e')%Z with e in Q by lia. rewrite Q. field. lra. }
    rewrite K, sg_xor. destruct t; cbn [sg]; field; lra. }
  pose proof (mag_repr m (e - e')) as Hr.
  destruct (N.eq_dec m 0) as [Z0|Z0].
  - pose proof (mag_zero (e - e')) as Hz. rewrite Z0 in *. destruct (mag 0 (e - e')) as [n d]. cbn [fst] in Hz. subst n.
    rewrite round_zero. apply rounded_zero. rewrite E. change (qn 0) with 0. field. lra.
  - eapply rounded_eq; [symmetry; exact E|]. destruct (mag m (e - e')) as [n d]. cbn [fst snd] in Hr.
    apply round_rounded.
    + destruct Hr as [R1 R2]. split; [lia|]. rewrite R2, qn_mul. field. lra.
    + apply (repr_pos_inv n d _ Hr). assert (0 < qn m) by (apply qn_pos; lia). pose proof (b2_pos (e - e')). nra.
Qed.

(** ** Square root *)

Lemma sq x : x ^ 2 == x * x.
Proof. cbn [Qpower Qpower_positive pow_pos]. ring. Qed.

Lemma Qsq_le x y : 0 <= x -> x <= y -> x * x <= y * y.
Proof. intros. nra. Qed.

(** [q] stands for twice the root of [X]. *)
Definition twice_root (X q : N) : Prop :=
  exists r, (r * r <= X)%N /\ (X < (r + 1) * (r + 1))%N /\
    q = (2 * r + (if r * r =? X then 0 else 1))%N.

Lemma twice_root_le X q k : twice_root X q -> (q <= 2 * k)%N -> (X <= k * k)%N.
Proof.
  intros (r & R1 & R2 & ->) H. destruct (N.eqb_spec (r * r) X) as [E|E].
  - assert (r <= k)%N by lia. nia.
  - assert (r + 1 <= k)%N by lia. nia.
Qed.
Lemma twice_root_ge X q k : twice_root X q -> (2 * k <= q)%N -> (k * k <= X)%N.
Proof.
  intros (r & R1 & R2 & ->) H. assert (k <= r)%N by (destruct (_ =? _)%N; lia). nia.
Qed.

Lemma root_core X q E m e :
  twice_root X q -> (2 ^ 120 <= X)%N -> (X < 2 ^ 174)%N -> (-538 <= E)%Z -> (E <= 485)%Z ->
  f64_ok (FFin false m e) -> near_f m e (qn q * b2 (E - 61)) ->
  nearest_root (qn X * b2 (2 * (E - 60))) (FFin false m e).
Proof.
  intros Hq X1 X2 E1 E2 Hok Hn. split; [exact Hok|]. split.
  { rewrite fv_eq. cbn [sg]. pose proof (b2_pos e). pose proof (qn_nonneg m). nra. }
  pose proof (b2_pos (E - 61)) as P. pose proof (b2_pos e) as Pe. pose proof (qn_nonneg m) as Pm.
  set (B := b2 (E - 60)). assert (EB : B == 2 * b2 (E - 61)).
  { unfold B. replace (E - 60)%Z with (E - 61 + 1)%Z by lia. apply b2_succ. }
  assert (EX : b2 (2 * (E - 60)) == B * B).
  { replace (2 * (E - 60))%Z with (E - 60 + (E - 60))%Z by lia. apply b2_plus. }
  assert (PB : 0 < B) by apply b2_pos.
  assert (Q1 : (2 ^ 61 <= q)%N).
  { destruct Hq as (r & R1 & R2 & ->). assert (2 ^ 60 <= r)%N; [|lia].
    destruct (N.le_gt_cases (2 ^ 60) r); auto. exfalso. assert (r + 1 <= 2 ^ 60)%N by lia.
    assert ((r + 1) * (r + 1) <= 2 ^ 60 * 2 ^ 60)%N by nia. lia. }
  destruct Hn as (N1 & N2 & N3). destruct Hok as (O1 & O2 & O3).
  assert (Ee : (E - 52 <= e)%Z).
  { destruct (Z_le_gt_dec (E - 52) e) as [|G]; auto. exfalso.
    assert (b2 (e + 53) <= b2 E) by (apply b2_le; lia). rewrite b2_53 in H.
    apply qn_le in Q1. rewrite qn_pow2_N in Q1. change (Z.of_N 61) with 61%Z in Q1.
    assert (b2 61 * b2 (E - 61) == b2 E) by (rewrite <- b2_plus; replace (61 + (E - 61))%Z with E by lia; reflexivity).
    assert (M : (m + 1 <= 2 ^ 53)%N) by lia. apply qn_le in M. rewrite qn_add, q53 in M. change (qn 1) with 1 in M. nra. }
  assert (Ek : exists k, (1 <= k)%N /\ b2 e == qn (4 * k) * B).
  { exists (2 ^ Z.to_N (e - 2 - (E - 60)))%N. split; [assert (2 ^ Z.to_N (e - 2 - (E - 60)) <> 0)%N by (now apply N.pow_nonzero); lia|].
    unfold B. rewrite qn_mul, <- Qmult_assoc, <- b2_shift by lia. change (qn 4) with (b2 2). rewrite <- b2_plus.
    replace (2 + (E - 60 + (e - 2 - (E - 60))))%Z with e by lia. reflexivity. }
  destruct Ek as (k & K1 & K2). assert (PK : 0 < qn k) by (apply qn_pos; lia).
  rewrite qn_mul in K2. change (qn 4) with 4 in K2.
  intros d' Hd Hp. destruct d' as [| |t m' e']; try contradiction. cbn [finite] in Hd. apply (ok_sign t false) in Hd.
  rewrite EX. setoid_rewrite sq.
  assert (Hd' : fv (FFin t m' e') == qn m' * b2 e').
  { rewrite fv_eq in *. destruct t; cbn [sg] in *; [|ring]. pose proof (b2_pos e'). pose proof (qn_nonneg m'). nra. }
  rewrite Hd' in *. rewrite fv_eq. cbn [sg]. split; intro L.
  - assert (A := above m e m' e' (conj O1 (conj O2 O3)) Hd ltac:(lra)).
    assert (Hk : (q <= 2 * (4 * k * m + 2 * k))%N).
    { apply qn_le. rewrite !qn_mul, qn_add, !qn_mul. change (qn 2) with 2. change (qn 4) with 4. rewrite K2, EB in N2. nra. }
    apply (twice_root_le X q _ Hq) in Hk. apply qn_le in Hk. rewrite !qn_mul, qn_add, !qn_mul in Hk. change (qn 2) with 2 in Hk. change (qn 4) with 4 in Hk.
    set (c := (4 * qn k * qn m + 2 * qn k)) in *.
    assert (0 <= c * B) by (unfold c; nra).
    assert (c * B <= (1 * (qn m * b2 e) + qn m' * b2 e') / 2).
    { apply Qle_shift_div_l; [reflexivity|]. rewrite K2 in *. unfold c. lra. }
    assert (qn X * (B * B) <= (c * B) * (c * B)).
    { setoid_replace ((c * B) * (c * B)) with ((c * c) * (B * B)) by ring. apply Qmult_le_compat_r; [exact Hk|nra]. }
    eapply Qle_trans; [eassumption|]. now apply Qsq_le.
  - assert (A := below m e m' e' (conj O1 (conj O2 O3)) Hd ltac:(lra)).
    assert (Hm : (1 <= m)%N).
    { destruct (N.eq_dec m 0) as [->|]; [|lia]. exfalso. change (qn 0) with 0 in L. pose proof (b2_pos e'). pose proof (qn_nonneg m'). nra. }
    assert (exists h, (h <= 4 * k * m)%N /\ qn h * B == low_gap m e * b2 e).
    { unfold low_gap. destruct (_ && _)%bool.
      - exists k. split; [nia|]. rewrite K2. lra.
      - exists (2 * k)%N. split; [nia|]. rewrite K2, qn_mul. change (qn 2) with 2. lra. }
    destruct H as (h & H1 & H2).
    assert (C : qn (4 * k * m - h) == 4 * qn k * qn m - qn h).
    { assert (qn (4 * k * m - h + h) == qn (4 * k * m)) by (replace (4 * k * m - h + h)%N with (4 * k * m)%N by lia; reflexivity).
      rewrite qn_add, !qn_mul in H. change (qn 4) with 4 in H. lra. }
    assert (Hk : (2 * (4 * k * m - h) <= q)%N).
    { apply qn_le. rewrite qn_mul, C. change (qn 2) with 2.
      assert (N1' : qn m * b2 e - qn h * B <= qn q * b2 (E - 61)) by (rewrite H2; lra). rewrite K2, EB in N1'. nra. }
    apply (twice_root_ge X q _ Hq) in Hk. apply qn_le in Hk. rewrite !qn_mul, C in Hk.
    set (c := (4 * qn k * qn m - qn h)) in *.
    assert (Pc : 0 <= c) by (rewrite <- C; apply qn_nonneg).
    assert (0 <= (1 * (qn m * b2 e) + qn m' * b2 e') / 2).
    { apply Qle_shift_div_l; [reflexivity|]. pose proof (b2_pos e'). pose proof (qn_nonneg m'). nra. }
    assert ((1 * (qn m * b2 e) + qn m' * b2 e') / 2 <= c * B).
    { apply Qle_shift_div_r; [reflexivity|]. assert (c * B == qn m * b2 e - low_gap m e * b2 e) by (rewrite <- H2, K2; unfold c; ring). lra. }
    assert ((c * B) * (c * B) <= qn X * (B * B)).
    { setoid_replace ((c * B) * (c * B)) with ((c * c) * (B * B)) by ring. apply Qmult_le_compat_r; [exact Hk|nra]. }
    eapply Qle_trans; [|eassumption]. now apply Qsq_le.
Qed.

Lemma nearest_root_eq x y d : x == y -> nearest_root x d -> nearest_root y d.
Proof.
  intros E (H1 & H2 & H3). split; auto. split; auto. intros d' Hd Hp. rewrite <- E. exact (H3 d' Hd Hp).
Qed.

Lemma fsqrt_root a : finite a -> 0 <= fv a -> nearest_root (fv a) (fsqrt a).
Proof.
  destruct a as [| |s m e]; try contradiction. cbn [finite]. intros (O1 & O2 & O3) Hp. rewrite fv_eq in *. unfold fsqrt.
  destruct (N.eqb_spec m 0) as [->|Hm].
  { assert (V : fv (FFin s 0 (-1074)) == 0) by (rewrite fv_eq; change (qn 0) with 0; ring).
    split; [repeat split; try lia; now left|]. rewrite V. split; [lra|].
    intros d' Hd Hp'. rewrite !sq. change (qn 0) with 0. split; intro L; [|lra].
    setoid_replace (sg s * (0 * b2 e)) with 0 by ring. set (y := (0 + fv d') / 2). nra. }
  assert (Pm : 0 < qn m) by (apply qn_pos; lia). pose proof (b2_pos e) as Pe.
  destruct s; [cbn [sg] in Hp; exfalso; nra|]. cbn [sg].
  assert (K : exists M E, (if Z.even e then (m, e) else ((2 * m)%N, (e - 1)%Z)) = (M, (2 * E)%Z) /\
    qn m * b2 e == qn M * b2 (2 * E) /\ (1 <= M)%N /\ (M < 2 ^ 54)%N /\ (-538 <= E)%Z /\ (E <= 485)%Z).
  { destruct (Z.even e) eqn:Ev.
    - apply Z.even_spec in Ev. destruct Ev as [h ->]. exists m, h. repeat split; lia || reflexivity.
    - assert (Ho : Z.odd e = true) by (rewrite <- Z.negb_even, Ev; reflexivity).
      apply Z.odd_spec in Ho. destruct Ho as [h ->]. exists (2 * m)%N, h. replace (2 * h + 1 - 1)%Z with (2 * h)%Z by lia.
      repeat split; try lia. rewrite b2_succ, qn_mul. change (qn 2) with 2. ring. }
  destruct K as (M & E & -> & KV & M1 & M2 & E1 & E2). cbv zeta.
  replace (2 * E / 2 - 61)%Z with (E - 61)%Z by (rewrite Z.mul_comm, Z.div_mul by lia; lia).
  set (X := (M * 2 ^ 120)%N) in *. set (r := N.sqrt X) in *.
  set (q := (2 * r + (if r * r =? X then 0 else 1))%N).
  assert (Hq : twice_root X q).
  { exists r. pose proof (N.sqrt_spec X (N.le_0_l X)) as [S1 S2]. fold r in S1, S2. repeat split; auto. now rewrite N.add_1_r. }
  assert (X1 : (2 ^ 120 <= X)%N) by (unfold X; nia).
  assert (X2 : (X < 2 ^ 174)%N) by (unfold X; change (2 ^ 174)%N with (2 ^ 54 * 2 ^ 120)%N; nia).
  assert (Hr : (r < 2 ^ 87)%N).
  { destruct Hq as (r' & R1 & R2 & R3). destruct (N.lt_ge_cases r (2 ^ 87)); auto. exfalso.
    pose proof (N.sqrt_spec X (N.le_0_l X)) as [S1 S2]. fold r in S1.
    assert (2 ^ 87 * 2 ^ 87 <= r * r)%N by nia. change (2 ^ 87 * 2 ^ 87)%N with (2 ^ 174)%N in *. lia. }
  assert (Q0 : (0 < q)%N).
  { destruct (N.eq_dec r 0) as [R0|]; [|lia]. exfalso. pose proof (N.sqrt_spec X (N.le_0_l X)) as [_ S2]. fold r in S2. rewrite R0 in S2. cbn in S2. lia. }
  assert (Q2 : (q <= 2 ^ 88)%N) by (unfold q; destruct (_ =? _)%N; lia).
  pose proof (mag_repr q (E - 61)) as Hx. destruct (mag q (E - 61)) as [n d] eqn:Em. cbn [fst snd] in Hx.
  assert (Hn : (0 < n)%N).
  { apply (repr_pos_inv n d _ Hx). apply qn_pos in Q0. pose proof (b2_pos (E - 61)). nra. }
  destruct (round_over false n d _ Hx Hn) as [[_ L]|(m1 & e1 & Er & L)].
  - exfalso. apply qn_le in Q2. rewrite qn_pow2_N in Q2. change (Z.of_N 88) with 88%Z in Q2.
    assert (b2 (E - 61) <= b2 424) by (apply b2_le; lia). pose proof (b2_pos (E - 61)).
    assert (C : b2 88 * b2 424 < limit) by reflexivity. pose proof (b2_pos 88). nra.
  - rewrite Er. destruct (round_near false n d _ false m1 e1 Hx Hn Er) as (_ & O & Nr).
    eapply nearest_root_eq; [|apply (root_core X q E m1 e1); auto].
    unfold X. rewrite qn_mul, qn_pow2_N, KV. change (Z.of_N 120) with 120%Z.
    rewrite <- Qmult_assoc, <- b2_plus. replace (120 + 2 * (E - 60))%Z with (2 * E)%Z by lia. ring.
Qed.

(** ** Signs and special values *)

Lemma round_negative s n d : negative (round_f64 s n d) = s.
Proof.
  unfold round_f64. destruct (n =? 0)%N; [reflexivity|]. destruct (scale2 _ _ _) as [n' d'].
  destruct (round_half_even n' d' =? 2 ^ 53)%N; cbv iota beta; destruct (971 <? _)%Z; reflexivity.
Qed.

Lemma fmul_negative a b : finite a -> finite b -> negative (fmul a b) = xorb (negative a) (negative b).
Proof.
  destruct a as [|s|s m e], b as [|t|t m' e']; cbn [finite]; try tauto. intros _ _.
  cbn [fmul negative]. destruct (mag (m * m') (e + e')) as [n d]. apply round_negative.
Qed.

Lemma fdiv_negative a b : finite a -> finite b -> ~ fv b == 0 -> negative (fdiv a b) = xorb (negative a) (negative b).
Proof.
  destruct a as [|s|s m e], b as [|t|t m' e']; cbn [finite]; try tauto. intros _ _ H.
  cbn [fdiv negative]. destruct (N.eqb_spec m' 0) as [->|Z].
  - exfalso. apply H. cbn [fv]. change (inject_Z (Z.of_N 0)) with 0. destruct t; ring.
  - destruct (mag m (e - e')) as [n d]. apply round_negative.
Qed.

Lemma fadd_zero a b : finite a -> finite b -> fv a + fv b == 0 ->
  fadd a b = FFin (negative a && negative b) 0 (-1074).
Proof.
  destruct a as [| |s m e], b as [| |t m' e']; try contradiction. intros _ _. rewrite !fv_eq.
  unfold fadd. cbv zeta. set (e0 := Z.min e e').
  set (z := (signed s (shifted m e e0) + signed t (shifted m' e' e0))%Z).
  assert (E : sg s * (qn m * b2 e) + sg t * (qn m' * b2 e') == inject_Z z * b2 e0).
  { unfold z. rewrite inject_Z_plus, Qmult_plus_distr_l, !signed_value by lia. reflexivity. }
  rewrite E. intro H. destruct (Z.eqb_spec z 0) as [Ez|Ez]; [reflexivity|]. exfalso.
  destruct (Qmult_integral _ _ H) as [H1|H1].
  - apply Ez. unfold Qeq, inject_Z in H1. cbn [Qnum Qden] in H1. lia.
  - pose proof (b2_pos e0). lra.
Qed.
