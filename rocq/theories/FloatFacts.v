(** Printing and reading of reals (Float.v): the printed text is read completely,
    ordinary numbers are preserved, scientific ones change at most once. *)

From Coq Require Import String Ascii List NArith ZArith Bool Lia Arith.
From Coq Require Import QArith Qpower Qabs Lqa.
From Coq Require Import ZifyBool ZifyNat ZifyN.
From Verif Require Import Base BaseFacts Spec Prims PrimsFacts Float RoundFacts.
Import ListNotations.
Open Scope Q_scope.

(** ** Decimal digits and exponents *)

Lemma qn_pow10_N k : qn (10 ^ k) == b10 (Z.of_N k).
Proof. destruct k as [|p]; [reflexivity|]. apply qn_pow10. Qed.

Lemma show_N_length n :
  (0 < n)%N -> (10 ^ N.of_nat (pred (length (show_N n))) <= n < 10 ^ N.of_nat (length (show_N n)))%N.
Proof.
  induction n as [n H|n H IH] using digits_ind; intro Hn; rewrite show_N_eq.
  - destruct (N.ltb_spec n 10); [|lia]. cbn [length pred]. change (10 ^ N.of_nat 0)%N with 1%N.
    change (10 ^ N.of_nat 1)%N with 10%N. lia.
  - destruct (N.ltb_spec n 10); [lia|]. rewrite app_length. cbn [length].
    pose proof (N.div_mod n 10 ltac:(discriminate)) as Hdm.
    pose proof (N.mod_lt n 10 ltac:(discriminate)) as Hm.
    assert (Hp : (0 < n / 10)%N) by nia.
    specialize (IH Hp). destruct IH as [I1 I2].
    pose proof (show_N_nonempty (n / 10)) as Hne.
    destruct (length (show_N (n / 10))) as [|L] eqn:EL.
    { destruct (show_N (n / 10)); [congruence|discriminate]. }
    cbn [pred] in *. replace (S L + 1)%nat with (S (S L)) by lia. cbn [pred].
    assert (P : forall k, (10 ^ N.of_nat (S k) = 10 * 10 ^ N.of_nat k)%N).
    { intro k. now rewrite Nat2N.inj_succ, N.pow_succ_r'. }
    rewrite (P (S L)), (P L) in *. lia.
Qed.

Lemma ilog10_spec n d v :
  repr n d v -> (0 < n)%N -> b10 (ilog10 n d) <= v /\ v < b10 (ilog10 n d + 1).
Proof.
  intros [Hd Hv] Hn. unfold ilog10. cbv zeta.
  pose proof (show_N_length n Hn) as [Hn1 Hn2]. pose proof (show_N_length d Hd) as [Hd1 Hd2].
  pose proof (show_N_nonempty n) as NE1. pose proof (show_N_nonempty d) as NE2.
  destruct (length (show_N n)) as [|a] eqn:Ea.
  { destruct (show_N n); [congruence|discriminate]. }
  destruct (length (show_N d)) as [|b] eqn:Eb.
  { destruct (show_N d); [congruence|discriminate]. }
  cbn [pred] in *.
  apply qn_le in Hn1, Hd1. apply qn_lt in Hn2, Hd2. rewrite qn_pow10_N in Hn1, Hn2, Hd1, Hd2.
  rewrite Nat2N.inj_succ, N2Z.inj_succ in Hn2, Hd2. unfold Z.succ in Hn2, Hd2.
  rewrite b10_succ in Hn2, Hd2. rewrite !nat_N_Z in *.
  replace (Z.of_nat (S a) - Z.of_nat (S b))%Z with (Z.of_nat a - Z.of_nat b)%Z by lia.
  set (k := (Z.of_nat a - Z.of_nat b)%Z).
  assert (Hk : b10 k * b10 (Z.of_nat b) == b10 (Z.of_nat a)).
  { rewrite <- b10_plus. replace (k + Z.of_nat b)%Z with (Z.of_nat a) by lia. reflexivity. }
  pose proof (b10_pos k) as Pk. pose proof (b10_pos (Z.of_nat a)) as Pa.
  pose proof (b10_pos (Z.of_nat b)) as Pb. apply qn_pos in Hd.
  assert (Hup : v < 10 * b10 k).
  { apply Qmult_lt_r with (qn d); auto. rewrite <- Hv. nra. }
  assert (Hlow : b10 k < 10 * v).
  { apply Qmult_lt_r with (qn d); auto.
    assert (E : 10 * v * qn d == 10 * qn n) by (rewrite Hv; ring). rewrite E. nra. }
  pose proof (dec_frac_repr 1 k) as [Hy Hxy]. destruct (dec_frac 1 k) as [x y]. cbn [fst snd] in *.
  change (qn 1) with 1 in Hxy. apply qn_pos in Hy.
  destruct (N.leb_spec (x * d) (n * y)) as [L|L].
  - apply qn_le in L. rewrite !qn_mul, Hxy, Hv in L. rewrite b10_succ. split; [|lra].
    apply Qmult_le_r with (qn d * qn y); [nra|]. nra.
  - apply qn_lt in L. rewrite !qn_mul, Hxy, Hv in L.
    replace (k - 1 + 1)%Z with k by lia.
    assert (E2 : b10 k == 10 * b10 (k - 1)).
    { rewrite <- b10_succ. replace (k - 1 + 1)%Z with k by lia. reflexivity. }
    split; [lra|].
    apply Qmult_lt_r with (qn d * qn y); [nra|]. nra.
Qed.

(** ** The shortest decimal *)

Definition reads_back (m : N) (e : Z) (qx : N * Z) : Prop :=
  (0 < fst qx)%N /\ near_f m e (qn (fst qx) * b10 (snd qx)).

Lemma same_mag_near m e q x :
  (0 < m)%N -> same_mag (f64_of_dec false q x) m e = true -> reads_back m e (q, x).
Proof.
  intros Hm H. unfold same_mag in H.
  destruct (f64_of_dec false q x) as [| |neg' m' e'] eqn:E; try discriminate.
  apply andb_true_iff in H as [H1 H2]. apply N.eqb_eq in H1. apply Z.eqb_eq in H2. subst.
  assert (Hq : (0 < q)%N).
  { destruct (N.eq_dec q 0) as [->|]; [|lia]. exfalso. unfold f64_of_dec in E.
    destruct x; cbn [dec_frac] in E; try (rewrite N.mul_0_l in E); cbn in E; inversion E; lia. }
  split; auto. apply f64_of_dec_inv in E; auto. tauto.
Qed.

Lemma near_same_mag m e q x :
  (0 < q)%N -> f64_ok (FFin false m e) -> near_f m e (qn q * b10 x) ->
  same_mag (f64_of_dec false q x) m e = true.
Proof.
  intros Hq Hok Hn. rewrite (f64_of_dec_near false q x m e) by auto. cbn [same_mag].
  now rewrite N.eqb_refl, Z.eqb_refl.
Qed.

Lemma try_digits_ok m e k nd qx :
  (0 < m)%N -> try_digits m e k nd = Some qx ->
  reads_back m e qx /\ snd qx = (k + 1 - Z.of_nat nd)%Z.
Proof.
  intros Hm. unfold try_digits. cbv zeta. destruct (mag m e) as [n d].
  destruct (scale10 n d (Z.of_nat nd - 1 - k)) as [n' d'].
  set (s := (Z.of_nat nd - 1 - k)%Z).
  destruct (same_mag (f64_of_dec false (n' / d') (- s)) m e) eqn:E1;
  destruct (same_mag (f64_of_dec false (n' / d' + 1) (- s)) m e) eqn:E2; cbn [andb].
  - destruct (d' <=? 2 * (n' mod d'))%N; intro H; inversion H; subst; cbn [snd];
      (split; [now apply same_mag_near|lia]).
  - intro H; inversion H; subst; cbn [snd]. split; [now apply same_mag_near|lia].
  - intro H; inversion H; subst; cbn [snd]. split; [now apply same_mag_near|lia].
  - discriminate.
Qed.

(** The neighbours at the scale of a number of digits. *)
Lemma try_digits_neighbours m e k nd :
  (0 < m)%N ->
  exists q y, qn q <= y /\ y < qn q + 1 /\
    y == qn m * b2 e * b10 (Z.of_nat nd - 1 - k) /\
    (try_digits m e k nd = None ->
       same_mag (f64_of_dec false q (k + 1 - Z.of_nat nd)) m e = false /\
       same_mag (f64_of_dec false (q + 1) (k + 1 - Z.of_nat nd)) m e = false).
Proof.
  intro Hm. unfold try_digits. cbv zeta. pose proof (mag_repr m e) as Hr.
  destruct (mag m e) as [n d]. cbn [fst snd] in Hr.
  pose proof (scale10_repr n d _ (Z.of_nat nd - 1 - k) Hr) as Hs.
  destruct (scale10 n d (Z.of_nat nd - 1 - k)) as [n' d']. cbn [fst snd] in Hs.
  exists (n' / d')%N, (qn m * b2 e * b10 (Z.of_nat nd - 1 - k)).
  destruct Hs as [Hd Hs]. set (y := qn m * b2 e * b10 (Z.of_nat nd - 1 - k)) in *.
  pose proof (N.div_mod n' d' ltac:(lia)) as Hdm. pose proof (N.mod_lt n' d' ltac:(lia)) as Hlt.
  assert (Hq : y * qn d' == qn d' * qn (n' / d') + qn (n' mod d')).
  { rewrite <- Hs. rewrite Hdm at 1. now rewrite qn_add, qn_mul. }
  apply qn_pos in Hd. apply qn_lt in Hlt. pose proof (qn_nonneg (n' mod d')).
  split; [|split; [|split; [reflexivity|]]].
  - apply Qmult_le_r with (qn d'); auto. lra.
  - apply Qmult_lt_r with (qn d'); auto. lra.
  - replace (k + 1 - Z.of_nat nd)%Z with (- (Z.of_nat nd - 1 - k))%Z by lia.
    destruct (same_mag (f64_of_dec false (n' / d') _) m e);
    destruct (same_mag (f64_of_dec false (n' / d' + 1) _) m e); cbn [andb];
    try destruct (d' <=? 2 * (n' mod d'))%N; try discriminate; auto.
Qed.

Lemma q_eps : (1 # 2) * b10 (-16) < b2 (-54).
Proof. reflexivity. Qed.

(** Seventeen digits are enough. *)
Lemma seventeen m e k :
  (0 < m)%N -> f64_ok (FFin false m e) ->
  b10 k <= qn m * b2 e -> qn m * b2 e < b10 (k + 1) -> try_digits m e k 17 <> None.
Proof.
  intros Hm Hok K1 K2 HN.
  destruct (try_digits_neighbours m e k 17 Hm) as (q & y & Y1 & Y2 & Y3 & Y4).
  destruct (Y4 HN) as [N1 N2]. clear Y4 HN.
  change (Z.of_nat 17) with 17%Z in *.
  replace (17 - 1 - k)%Z with (16 - k)%Z in Y3 by lia.
  replace (k + 1 - 17)%Z with (k - 16)%Z in * by lia.
  set (v := qn m * b2 e) in *.
  set (u := b10 (k - 16)).
  assert (Eu : b10 (16 - k) * u == 1).
  { unfold u. replace (k - 16)%Z with (- (16 - k))%Z by lia. rewrite Qmult_comm. apply b10_neg. }
  pose proof (b10_pos (k - 16)) as Pu. fold u in Pu.
  assert (Hv : v == y * u) by (rewrite Y3, <- Qmult_assoc, Eu; ring).
  assert (Ek : b10 k == 10000000000000000 * u).
  { unfold u. rewrite <- (Zplus_minus 16 k) at 1. rewrite b10_plus. reflexivity. }
  assert (Hq : (0 < q)%N).
  { apply qn_pos. assert (10000000000000000 <= y); [|lra].
    apply Qmult_le_r with u; auto. lra. }
  assert (Hq1 : (0 < q + 1)%N) by lia.
  (* the distance to the neighbours against the width of the interval *)
  assert (Gap : forall g, g == (1 # 2) \/ g == low_gap m e -> (1 # 2) * u < g * b2 e).
  { pose proof q_eps as Heps. change (b10 (-16)) with (1 # 10000000000000000) in Heps.
    change (b2 (-54)) with (1 # 18014398509481984) in Heps.
    assert (Hu : (1 # 2) * u <= v * (1 # 20000000000000000)) by lra.
    assert (Hvm : v * (1 # 20000000000000000) < v * (1 # 18014398509481984)).
    { assert (0 < v). { apply Qlt_le_trans with (b10 k); auto. apply b10_pos. } lra. }
    destruct Hok as (Hm53 & _ & _). apply qn_lt in Hm53. rewrite q53 in Hm53.
    pose proof (b2_pos e) as Pe.
    intros g [G|G].
    - rewrite G. unfold v in *. nra.
    - rewrite G. unfold low_gap in *. destruct (N.eqb_spec m (2 ^ 52)) as [->|]; cbn [andb] in *.
      + destruct (-1074 <? e)%Z; unfold v in *; rewrite q52 in *; lra.
      + unfold v in *. nra. }
  pose proof (Gap (1 # 2) (or_introl (Qeq_refl _))) as Gup.
  pose proof (Gap (low_gap m e) (or_intror (Qeq_refl _))) as Glo. clear Gap.
  destruct (Qlt_le_dec (2 * (y - qn q)) 1) as [Hc|Hc].
  - rewrite (near_same_mag m e q (k - 16)) in N1; auto; [discriminate|].
    fold u. unfold near_f. fold v.
    assert (Hd : v - qn q * u <= (1 # 2) * u) by (rewrite Hv; nra).
    assert (Hd' : 0 <= v - qn q * u) by (rewrite Hv; nra).
    assert (Ev : (qn m - low_gap m e) * b2 e == v - low_gap m e * b2 e) by (unfold v; ring).
    assert (Ev' : (qn m + (1 # 2)) * b2 e == v + (1 # 2) * b2 e) by (unfold v; ring).
    rewrite Ev, Ev'. split; [lra|]. split; [pose proof (b2_pos e); lra|].
    intros [E|E]; exfalso; [lra|]. pose proof (b2_pos e). lra.
  - rewrite (near_same_mag m e (q + 1) (k - 16)) in N2; auto; [discriminate|].
    fold u. unfold near_f. fold v.
    assert (Hq1' : qn (q + 1) == qn q + 1) by (rewrite qn_add; reflexivity).
    rewrite Hq1'.
    assert (Hd : (qn q + 1) * u - v <= (1 # 2) * u) by (rewrite Hv; nra).
    assert (Hd' : 0 <= (qn q + 1) * u - v) by (rewrite Hv; nra).
    assert (Gl0 : 0 < low_gap m e) by (unfold low_gap; destruct (_ && _)%bool; reflexivity).
    assert (Ev : (qn m - low_gap m e) * b2 e == v - low_gap m e * b2 e) by (unfold v; ring).
    assert (Ev' : (qn m + (1 # 2)) * b2 e == v + (1 # 2) * b2 e) by (unfold v; ring).
    rewrite Ev, Ev'. pose proof (b2_pos e) as Pe. split; [nra|]. split; [lra|].
    intros [E|E]; exfalso; [nra|lra].
Qed.

Lemma shortest_from_spec m e k j :
  forall nd fuel, (j <= fuel)%nat -> try_digits m e k (nd + j) <> None ->
  exists i, (i <= j)%nat /\ try_digits m e k (nd + i) = Some (shortest_from m e k nd fuel).
Proof.
  induction j as [|j IH]; intros nd fuel Hj Ht.
  - exists 0%nat. split; auto. rewrite Nat.add_0_r in *. destruct fuel; cbn [shortest_from];
      destruct (try_digits m e k nd); congruence.
  - destruct fuel as [|fuel]; [lia|]. cbn [shortest_from].
    destruct (try_digits m e k nd) as [r|] eqn:E.
    + exists 0%nat. split; [lia|]. now rewrite Nat.add_0_r.
    + destruct (IH (S nd) fuel ltac:(lia)) as (i & Hi & Hs).
      { replace (S nd + j)%nat with (nd + S j)%nat by lia. auto. }
      exists (S i). split; [lia|]. replace (nd + S i)%nat with (S nd + i)%nat by lia. auto.
Qed.

Lemma shortest_reads_back neg m e :
  (0 < m)%N -> f64_ok (FFin neg m e) -> reads_back m e (shortest m e).
Proof.
  intros Hm Hok. unfold shortest. pose proof (mag_repr m e) as Hr.
  destruct (mag m e) as [n d]. cbn [fst snd] in Hr.
  assert (Hn : (0 < n)%N).
  { eapply repr_pos_inv; eauto. apply qn_pos in Hm. pose proof (b2_pos e). nra. }
  destruct (ilog10_spec n d _ Hr Hn) as [K1 K2].
  destruct (shortest_from_spec m e (ilog10 n d) 16 1 16 (le_n _)) as (i & _ & Hi).
  - now apply seventeen.
  - apply try_digits_ok in Hi as [H _]; auto.
Qed.

(** The shortest decimal of an integer has no fraction. *)
Lemma shortest_integer neg m e V :
  (0 < m)%N -> f64_ok (FFin neg m e) -> qn m * b2 e == qn V -> (0 <= snd (shortest m e))%Z.
Proof.
  intros Hm Hok HV. unfold shortest. pose proof (mag_repr m e) as Hr.
  destruct (mag m e) as [n d]. cbn [fst snd] in Hr.
  assert (Hn : (0 < n)%N).
  { eapply repr_pos_inv; eauto. apply qn_pos in Hm. pose proof (b2_pos e). nra. }
  destruct (ilog10_spec n d _ Hr Hn) as [K1 K2]. set (k := ilog10 n d) in *.
  assert (HV1 : 1 <= qn V).
  { change 1 with (qn 1). apply qn_le.
    assert (0 < qn V); [|apply qn_pos in H; lia]. rewrite <- HV.
    pose proof (b2_pos e). apply qn_pos in Hm. nra. }
  assert (Hk : (0 <= k)%Z).
  { assert (b10 0 < b10 (k + 1)); [|apply b10_lt_inv in H; lia]. change (b10 0) with 1. lra. }
  destruct (Z.le_gt_cases 16 k) as [Hb|Hb].
  - destruct (shortest_from_spec m e k 16 1 16 (le_n _)) as (i & Hi1 & Hi).
    + now apply seventeen.
    + apply try_digits_ok in Hi as [_ H]; auto. rewrite H. lia.
  - destruct (shortest_from_spec m e k (Z.to_nat k) 1 16 ltac:(lia)) as (i & Hi1 & Hi).
    + intro HN.
      destruct (try_digits_neighbours m e k (1 + Z.to_nat k) Hm) as (q & y & Y1 & Y2 & Y3 & Y4).
      destruct (Y4 HN) as [N1 _].
      replace (Z.of_nat (1 + Z.to_nat k) - 1 - k)%Z with 0%Z in Y3 by lia.
      change (b10 0) with 1 in Y3. rewrite Qmult_1_r, HV in Y3.
      assert (q = V).
      { rewrite Y3 in Y1, Y2. change 1 with (qn 1) in Y2. rewrite <- qn_add in Y2.
        apply qn_le in Y1. apply qn_lt in Y2. lia. }
      subst q. replace (k + 1 - Z.of_nat (1 + Z.to_nat k))%Z with 0%Z in N1 by lia.
      assert (HV0 : (0 < V)%N) by (apply qn_pos; lra).
      rewrite (near_same_mag m e V 0 HV0 Hok) in N1; [discriminate|].
      { change (b10 0) with 1. eapply near_f_eq; [|apply near_self]. rewrite HV. ring. }
    + apply try_digits_ok in Hi as [_ H]; auto. rewrite H. lia.
Qed.

(** ** Digit texts *)

Open Scope N_scope.

Lemma digits_value_app a b :
  digits_value (a ++ b) = digits_value a * 10 ^ N.of_nat (length b) + digits_value b.
Proof.
  unfold digits_value. rewrite digits_value_acc_app. generalize (digits_value_acc 0 a). clear a.
  intro n. assert (H : forall b n, digits_value_acc n b =
    n * 10 ^ N.of_nat (length b) + digits_value_acc 0 b); [|apply H].
  clear. induction b as [|c b IH]; intro n; cbn [digits_value_acc length].
  - change (10 ^ N.of_nat 0) with 1. lia.
  - rewrite IH, (IH (10 * 0 + (c - 48))), Nat2N.inj_succ, N.pow_succ_r'. lia.
Qed.

Lemma digits_value_zeros k : digits_value (repeat 48 k) = 0.
Proof.
  now induction k.
Qed.

Lemma pad_length w n : n < 10 ^ N.of_nat w -> (0 < w)%nat -> length (pad w n) = w.
Proof.
  intros Hn Hw. unfold pad. cbv zeta. rewrite app_length, repeat_length.
  assert (length (show_N n) <= w)%nat; [|lia].
  destruct (N.eq_dec n 0) as [->|Hn0]; [cbn; lia|].
  pose proof (show_N_length n ltac:(lia)) as [H1 _].
  assert (H : 10 ^ N.of_nat (pred (length (show_N n))) < 10 ^ N.of_nat w) by lia.
  apply N.pow_lt_mono_r_iff in H; lia.
Qed.

Lemma pad_value w n : digits_value (pad w n) = n.
Proof.
  unfold pad. cbv zeta. now rewrite digits_value_app, digits_value_zeros, show_N_value, N.mul_0_l.
Qed.

Lemma pad_digits w n : forallb is_digit (pad w n) = true.
Proof.
  unfold pad. cbv zeta. rewrite forallb_app, show_N_digits, andb_true_r.
  induction (w - length (show_N n))%nat; auto.
Qed.

Lemma strip_zeros_spec s : exists j, s = strip_zeros s ++ repeat 48 j.
Proof.
  induction s as [|c s [j IH]]; [now exists 0%nat|]. cbn [strip_zeros].
  destruct (strip_zeros s) as [|d r].
  - destruct (N.eqb_spec c 48) as [->|].
    + exists (S j). cbn [repeat app] in *. now rewrite <- IH.
    + exists j. cbn [app] in *. now rewrite <- IH.
  - exists j. cbn [app] in *. now rewrite <- IH.
Qed.

Lemma strip_zeros_digits s : forallb is_digit s = true -> forallb is_digit (strip_zeros s) = true.
Proof.
  intro H. destruct (strip_zeros_spec s) as [j E]. rewrite E, forallb_app in H.
  now apply andb_true_iff in H.
Qed.

(** ** Scanning *)

(** The text after a number ends it. *)
Definition stop (rest : text) : Prop :=
  match rest with [] => True | c :: _ => c = 44 \/ c = 41 \/ c = 47 \/ blank c end.

Lemma stop_char c r : stop (c :: r) ->
  is_digit c = false /\ c <> 46 /\ c <> 101 /\ c <> 69 /\ c <> 105 /\ c <> 73 /\ c <> 43 /\ c <> 45.
Proof.
  cbn [stop]. unfold blank, is_digit. intros [->|[->|[->|[->|[->|[->| ->]]]]]];
    repeat split; discriminate.
Qed.

Lemma stop_no_digit r : stop r -> no_digit r.
Proof. destruct r; cbn [no_digit]; auto. intro H. now apply stop_char in H. Qed.

Lemma p_sign_minus neg s :
  (match s with [] => True | c :: _ => is_sign c = false end) ->
  p_sign (minus neg ++ s) = ROk neg s.
Proof.
  intro H. unfold p_sign, pmap, opt. destruct neg; cbn [minus lit].
  - reflexivity.
  - cbn [app]. destruct s as [|c s]; auto. cbn [one_of]. now rewrite H.
Qed.

Lemma take_while1_app f a b :
  a <> [] -> forallb f a = true ->
  match b with [] => True | c :: _ => f c = false end ->
  take_while1 f (a ++ b) = ROk a b.
Proof.
  intros Hne Ha Hb. unfold take_while1. rewrite span_app by auto. destruct a; congruence.
Qed.

Lemma take_while1_back f b :
  match b with [] => True | c :: _ => f c = false end -> take_while1 f b = RBack.
Proof.
  intro Hb. unfold take_while1. destruct b as [|c b]; auto. cbn [span]. now rewrite Hb.
Qed.

Lemma digits_head i s : i <> [] -> forallb is_digit i = true ->
  match i ++ s with [] => True | c :: _ => is_sign c = false end.
Proof.
  destruct i as [|c i]; [congruence|]. cbn [forallb app]. intros _ H.
  apply andb_true_iff in H as [H _]. unfold is_digit, is_sign in *. lia.
Qed.

(** Digits, point and further digits. *)
Lemma p_mantissa_point i f s :
  i <> [] -> forallb is_digit i = true -> forallb is_digit f = true -> no_digit s ->
  p_mantissa (i ++ lit "." ++ f ++ s) = ROk (i, f) s.
Proof.
  intros Hne Hi Hf Hs. unfold p_mantissa, alt, bind at 1.
  rewrite take_while1_app by (auto; reflexivity).
  unfold bind, opt. rewrite tag_app. destruct f as [|c f].
  - cbn [app]. rewrite take_while1_back by (destruct s; auto). reflexivity.
  - rewrite take_while1_app; auto; try discriminate; destruct s; auto.
Qed.

(** Digits only. *)
Lemma p_mantissa_int i s :
  i <> [] -> forallb is_digit i = true ->
  match s with [] => True | c :: _ => is_digit c = false /\ c <> 46 end ->
  p_mantissa (i ++ s) = ROk (i, []) s.
Proof.
  intros Hne Hi Hs. unfold p_mantissa, alt, bind at 1.
  rewrite take_while1_app; auto; [|destruct s; tauto].
  unfold bind, opt.
  assert (Ht : tag (lit ".") s = RBack).
  { destruct s as [|c s]; [reflexivity|]. apply tag_neq. destruct Hs as [_ Hs]. intro E; apply Hs; symmetry; exact E. }
  rewrite Ht. reflexivity.
Qed.

Lemma p_exponent_none s :
  match s with [] => True | c :: _ => c <> 101 /\ c <> 69 end -> p_exponent s = ROk 0%Z s.
Proof.
  intro H. unfold p_exponent, pmap, opt, bind at 1. destruct s as [|c s]; auto.
  cbn [one_of]. destruct (N.eqb_spec c 101); [tauto|]. destruct (N.eqb_spec c 69); [tauto|]. auto.
Qed.

Lemma p_exponent_some k s :
  no_digit s -> p_exponent (lit "E" ++ show_Z k ++ s) = ROk k s.
Proof.
  intro Hs. unfold p_exponent, pmap, opt, bind at 1.
  change (lit "E" ++ show_Z k ++ s) with (69 :: show_Z k ++ s). cbn [one_of].
  replace ((69 =? 101) || (69 =? 69)) with true by reflexivity.
  assert (E : show_Z k = minus (k <? 0)%Z ++ show_N (Z.abs_N k)) by (destruct k; reflexivity).
  rewrite E, <- app_assoc. unfold bind at 1. rewrite p_sign_minus.
  - unfold bind, cut_err. rewrite take_while1_app.
    + rewrite show_N_value. cbn [ret]. unfold ret. f_equal.
      destruct (Z.ltb_spec k 0); lia.
    + apply show_N_nonempty.
    + apply show_N_digits.
    + destruct s; auto.
  - apply digits_head; [apply show_N_nonempty|apply show_N_digits].
Qed.

Lemma p_decimal_sci neg i f k s :
  i <> [] -> forallb is_digit i = true -> forallb is_digit f = true -> no_digit s ->
  p_decimal (minus neg ++ i ++ lit "." ++ f ++ lit "E" ++ show_Z k ++ s) =
  ROk (f64_of_dec neg (digits_value (i ++ f)) (k - Z.of_nat (length f))) s.
Proof.
  intros Hne Hi Hf Hs. unfold p_decimal, bind at 1.
  rewrite p_sign_minus by (now apply digits_head). unfold bind at 1.
  rewrite p_mantissa_point by (auto; reflexivity). unfold bind.
  rewrite p_exponent_some by auto. reflexivity.
Qed.

Lemma p_decimal_point neg i f s :
  i <> [] -> forallb is_digit i = true -> forallb is_digit f = true -> stop s ->
  p_decimal (minus neg ++ i ++ lit "." ++ f ++ s) =
  ROk (f64_of_dec neg (digits_value (i ++ f)) (- Z.of_nat (length f))) s.
Proof.
  intros Hne Hi Hf Hs. unfold p_decimal, bind at 1.
  rewrite p_sign_minus by (now apply digits_head). unfold bind at 1.
  rewrite p_mantissa_point; auto; [|now apply stop_no_digit]. unfold bind.
  rewrite p_exponent_none; [reflexivity|].
  destruct s; auto. apply stop_char in Hs. tauto.
Qed.

Lemma p_decimal_int neg i s :
  i <> [] -> forallb is_digit i = true -> stop s ->
  p_decimal (minus neg ++ i ++ s) = ROk (f64_of_dec neg (digits_value i) 0) s.
Proof.
  intros Hne Hi Hs. unfold p_decimal, bind at 1.
  rewrite p_sign_minus by (now apply digits_head). unfold bind at 1.
  rewrite p_mantissa_int; auto.
  - unfold bind. rewrite p_exponent_none.
    + cbn [fst snd length]. now rewrite app_nil_r.
    + destruct s; auto. apply stop_char in Hs. tauto.
  - destruct s; auto. apply stop_char in Hs. tauto.
Qed.

Lemma p_real_decimal s d r : p_decimal s = ROk d r -> p_real s = ROk d r.
Proof. intro H. unfold p_real, alt. now rewrite H. Qed.

(** ** Positional notation *)

Lemma plain_decimal_cases q x :
  exists i f, i <> [] /\ forallb is_digit i = true /\ forallb is_digit f = true /\
    plain_decimal q x = i ++ match f with [] => [] | _ => lit "." ++ f end /\
    (qn (digits_value (i ++ f)) * b10 (- Z.of_nat (length f)) == qn q * b10 x)%Q /\
    ((0 <= x)%Z -> f = []).
Proof.
  destruct x as [|p|p]; cbn [plain_decimal].
  - exists (show_N q), []. repeat split; auto using show_N_nonempty, show_N_digits.
    + now rewrite app_nil_r.
    + rewrite app_nil_r, show_N_value. reflexivity.
  - exists (show_N (q * 10 ^ N.pos p)), []. repeat split; auto using show_N_nonempty, show_N_digits.
    + now rewrite app_nil_r.
    + rewrite app_nil_r, show_N_value, qn_mul, qn_pow10. cbn [length].
      change (b10 (- Z.of_nat 0)) with 1%Q. ring.
  - set (w := 10 ^ N.pos p). set (g := pad (N.to_nat (N.pos p)) (q mod w)).
    exists (show_N (q / w)), (strip_zeros g).
    assert (Hw : w <> 0) by (apply N.pow_nonzero; discriminate).
    assert (Hg : length g = N.to_nat (N.pos p)).
    { apply pad_length; [|lia]. rewrite N2Nat.id. now apply N.mod_lt. }
    destruct (strip_zeros_spec g) as [j Hj].
    repeat split; auto using show_N_nonempty, show_N_digits.
    + apply strip_zeros_digits, pad_digits.
    + destruct (strip_zeros g); [now rewrite app_nil_r|reflexivity].
    + rewrite digits_value_app, show_N_value.
      set (f := strip_zeros g) in *.
      assert (Hlen : (length f + j)%nat = N.to_nat (N.pos p)).
      { rewrite <- Hg. rewrite Hj at 1. rewrite app_length, repeat_length. reflexivity. }
      assert (Hval : q mod w = digits_value f * 10 ^ N.of_nat j).
      { rewrite <- (pad_value (N.to_nat (N.pos p)) (q mod w)). fold g. rewrite Hj at 1.
        rewrite digits_value_app, digits_value_zeros, repeat_length. lia. }
      assert (Hpw : w = 10 ^ N.of_nat (length f) * 10 ^ N.of_nat j).
      { unfold w. rewrite <- N.pow_add_r. f_equal. lia. }
      assert (Hq : q = (q / w * 10 ^ N.of_nat (length f) + digits_value f) * 10 ^ N.of_nat j).
      { rewrite (N.div_mod q w Hw) at 1. rewrite Hval. rewrite Hpw at 1. lia. }
      rewrite Hq at 2. rewrite qn_mul, qn_pow10_N.
      assert (E : (b10 (- Z.of_nat (length f)) == b10 (Z.of_N (N.of_nat j)) * b10 (Z.neg p))%Q).
      { rewrite <- b10_plus. f_equiv. lia. }
      rewrite E. ring.
    + intro H. lia.
Qed.

(** ** Printed reals are read *)

Definition f64_neg (d : f64) : bool :=
  match d with FFin neg _ _ => neg | FInf neg => neg | FNan => false end.

(** Reading the positional text of the shortest decimal gives the number back;
    a point may follow when there is no fraction. *)
Lemma p_real_shortest neg m e s (dot : bool) :
  (0 < m) -> f64_ok (FFin neg m e) -> stop s ->
  (dot = true -> (0 <= snd (shortest m e))%Z) ->
  p_real (minus neg ++ (let (q, x) := shortest m e in plain_decimal q x) ++
          (if dot then lit "." else []) ++ s) = ROk (FFin neg m e) s.
Proof.
  intros Hm Hok Hs Hdot.
  pose proof (shortest_reads_back neg m e Hm Hok) as [Hq Hnear].
  destruct (shortest m e) as [q x]. cbn [fst snd] in *.
  destruct (plain_decimal_cases q x) as (i & f & Hne & Hi & Hf & -> & Hval & Hz).
  assert (Hread : forall z, z = (- Z.of_nat (length f))%Z ->
     f64_of_dec neg (digits_value (i ++ f)) z = FFin neg m e).
  { intros z ->. apply f64_of_dec_near; auto.
    - apply qn_pos. pose proof (b10_pos (- Z.of_nat (length f))) as P.
      assert (0 < qn q * b10 x)%Q.
      { apply qn_pos in Hq. pose proof (b10_pos x). nra. }
      rewrite <- Hval in H. nra.
    - eapply near_f_eq; [|exact Hnear]. now symmetry. }
  apply p_real_decimal. destruct f as [|c f].
  - rewrite app_nil_r in *. destruct dot.
    + change (i ++ lit "." ++ s) with (i ++ lit "." ++ [] ++ s).
      rewrite p_decimal_point by auto. rewrite app_nil_r. f_equal. now apply Hread.
    + cbn [app]. rewrite p_decimal_int by auto. f_equal. now apply Hread.
  - destruct dot.
    + exfalso. specialize (Hz (Hdot eq_refl)). discriminate.
    + change ([] ++ s) with s. rewrite <- !app_assoc. rewrite p_decimal_point by auto. f_equal.
      now apply Hread.
Qed.

(** An integer value is recognised by [fract]. *)
Lemma fract_zero_integer neg m e :
  is_zero (fract (FFin neg m e)) = true -> (0 < m) -> f64_ok (FFin neg m e) ->
  exists V, (qn m * b2 e == qn V)%Q.
Proof.
  intros Hz Hm Hok. destruct e as [|p|p].
  - exists m. change (b2 0) with 1%Q. ring.
  - exists (m * 2 ^ N.pos p). now rewrite qn_mul, qn_pow2.
  - cbn [fract] in Hz. destruct (N.eqb_spec (m mod 2 ^ N.pos p) 0) as [E|E].
    + exists (m / 2 ^ N.pos p).
      pose proof (N.div_mod m (2 ^ N.pos p) ltac:(apply N.pow_nonzero; discriminate)) as Hdm.
      rewrite E, N.add_0_r in Hdm. rewrite Hdm at 1. rewrite qn_mul, qn_pow2.
      pose proof (b2_neg (Z.pos p)) as Hn. change (- Z.pos p)%Z with (Z.neg p) in Hn.
      transitivity (b2 (Z.neg p) * b2 (Z.pos p) * qn (m / 2 ^ N.pos p))%Q; [ring|].
      rewrite Hn. ring.
    + exfalso. set (r := m mod 2 ^ N.pos p) in *.
      assert (Hw : 2 ^ N.pos p <> 0) by (apply N.pow_nonzero; discriminate).
      assert (Hx : repr r (2 ^ N.pos p) (qn r * b2 (Z.neg p))).
      { split; [lia|]. rewrite qn_pow2. pose proof (b2_neg (Z.pos p)) as Hn.
        change (- Z.pos p)%Z with (Z.neg p) in Hn. rewrite <- Qmult_assoc, Hn. ring. }
      destruct (round_f64 neg r (2 ^ N.pos p)) as [| |neg' m' e'] eqn:Er; try discriminate.
      apply (round_near _ _ _ _ _ _ _ Hx) in Er; [|lia].
      destruct Er as (_ & (_ & He' & Hsub) & (_ & Hup & _)).
      cbn [is_zero] in Hz. apply N.eqb_eq in Hz. subst m'.
      change (qn 0) with 0%Q in Hup.
      assert (H1 : (1 <= qn r)%Q) by (change 1%Q with (qn 1); apply qn_le; lia).
      (* one unit of the source exponent is not below half the smallest number *)
      destruct Hok as (_ & (He & _) & _).
      assert (Hle : (qn r * b2 (Z.neg p) <= (1 # 2) * b2 e')%Q) by lra.
      assert (Hz0 : e' = (-1074)%Z).
      { destruct Hsub as [H|H]; auto. exfalso. change (Z.of_N 0) with 0%Z in H. revert H.
        change (2 ^ 52)%Z with 4503599627370496%Z. lia. }
      subst e'. pose proof (b2_le (-1074) (Z.neg p) He) as Hb.
      pose proof (b2_pos (-1074)) as P. pose proof (b2_pos (Z.neg p)). nra.
Qed.

(** ** Fifteen digits *)

Lemma digits15_spec neg m e :
  (0 < m) -> f64_ok (FFin neg m e) ->
  exists q k k0, digits15 m e = (q, k) /\ 10 ^ 14 <= q < 10 ^ 15 /\
    (b10 k0 <= qn m * b2 e)%Q /\ (qn m * b2 e < b10 (k0 + 1))%Q /\ (k0 <= k)%Z /\
    (* nearest point of the grid *)
    (forall g, Qabs (qn q * b10 (k - 14) - qn m * b2 e) <=
               Qabs (qn g * b10 (k0 - 14) - qn m * b2 e))%Q /\
    (exists g, qn q * b10 (k - 14) == qn g * b10 (k0 - 14))%Q /\
    (Qabs (qn q * b10 (k - 14) - qn m * b2 e) <= (1 # 2) * b10 (k0 - 14))%Q.
Proof.
  intros Hm Hok. unfold digits15. pose proof (mag_repr m e) as Hr.
  destruct (mag m e) as [n d]. cbn [fst snd] in Hr.
  assert (Hn : 0 < n).
  { eapply repr_pos_inv; eauto. apply qn_pos in Hm. pose proof (b2_pos e). nra. }
  destruct (ilog10_spec n d _ Hr Hn) as [K1 K2]. set (k := ilog10 n d) in *.
  pose proof (scale10_repr n d _ (14 - k) Hr) as Hs.
  destruct (scale10 n d (14 - k)) as [n' d']. cbn [fst snd] in Hs.
  apply rhe_near in Hs. set (q := round_half_even n' d') in *. set (v := (qn m * b2 e)%Q) in *.
  set (u := b10 (k - 14)).
  assert (Pu : (0 < u)%Q) by apply b10_pos.
  assert (Eu : (b10 (14 - k) * u == 1)%Q).
  { unfold u. replace (k - 14)%Z with (- (14 - k))%Z by lia. rewrite Qmult_comm. apply b10_neg. }
  set (y := (v * b10 (14 - k))%Q) in *.
  assert (Hv : (v == y * u)%Q) by (unfold y; rewrite <- Qmult_assoc, Eu; ring).
  assert (Ek : (b10 k == 100000000000000 * u)%Q).
  { unfold u. rewrite <- (Zplus_minus 14 k) at 1. rewrite b10_plus. reflexivity. }
  rewrite b10_succ in K2.
  assert (Y1 : (100000000000000 <= y)%Q).
  { apply Qmult_le_r with u; auto. lra. }
  assert (Y2 : (y < 1000000000000000)%Q).
  { apply Qmult_lt_r with u; auto. lra. }
  destruct Hs as (N1 & N2 & _).
  assert (Q1 : 10 ^ 14 <= q).
  { assert (H : 10 ^ 14 - 1 < q); [|lia]. apply qn_lt.
    change (qn (10 ^ 14 - 1)) with 99999999999999%Q. lra. }
  assert (Q2 : q <= 10 ^ 15).
  { assert (H : q < 10 ^ 15 + 1); [|lia]. apply qn_lt.
    change (qn (10 ^ 15 + 1)) with 1000000000000001%Q. lra. }
  assert (Near : forall g, (Qabs (qn q * u - v) <= Qabs (qn g * u - v))%Q).
  { intro g. assert (E1 : (qn q * u - v == (qn q - y) * u)%Q) by (rewrite Hv; ring).
    assert (E2 : (qn g * u - v == (qn g - y) * u)%Q) by (rewrite Hv; ring).
    rewrite E1, E2, !Qabs_Qmult, (Qabs_pos u) by lra. apply Qmult_le_compat_r; [|lra].
    destruct (N.lt_trichotomy g q) as [L|[L|L]]; [|subst; apply Qle_refl|].
    - assert (Hs : (qn g + 1 <= qn q)%Q).
      { change 1%Q with (qn 1). rewrite <- qn_add. apply qn_le. lia. }
      rewrite (Qabs_neg (qn g - y)) by lra.
      apply Qabs_case; lra.
    - assert (Hs : (qn q + 1 <= qn g)%Q).
      { change 1%Q with (qn 1). rewrite <- qn_add. apply qn_le. lia. }
      rewrite (Qabs_pos (qn g - y)) by lra.
      apply Qabs_case; lra. }
  assert (Err : (Qabs (qn q * u - v) <= (1 # 2) * u)%Q).
  { assert (E1 : (qn q * u - v == (qn q - y) * u)%Q) by (rewrite Hv; ring).
    rewrite E1, Qabs_Qmult, (Qabs_pos u) by lra. apply Qmult_le_compat_r; [|lra].
    apply Qabs_case; lra. }
  destruct (N.eqb_spec q (10 ^ 15)) as [Eq|Nq].
  - exists (10 ^ 14), (k + 1)%Z, k. split; auto. split; [split; [apply N.le_refl|reflexivity]|].
    assert (E10 : (qn (10 ^ 14) * b10 (k + 1 - 14) == qn q * u)%Q).
    { unfold u. rewrite Eq. change (qn (10 ^ 14)) with 100000000000000%Q.
      change (qn (10 ^ 15)) with 1000000000000000%Q.
      replace (k + 1 - 14)%Z with (k - 14 + 1)%Z by lia. rewrite b10_succ. ring. }
    split; auto. split; [now rewrite b10_succ|]. split; [lia|].
    split; [intro g; rewrite E10; apply Near|]. split; [now exists q|]. now rewrite E10.
  - exists q, k, k. split; auto. split; [lia|].
    split; auto. split; [now rewrite b10_succ|]. split; [lia|].
    split; [exact Near|]. split; [now exists q|]. exact Err.
Qed.

(** What is read back. *)
Definition norm_real (d : f64) : f64 :=
  match p_real (d_real d) with ROk v _ => v | _ => d end.

Lemma show_sci_read neg m e s :
  0 < m -> f64_ok (FFin neg m e) -> no_digit s ->
  p_real (show_sci (FFin neg m e) ++ s) =
  ROk (f64_of_dec neg (fst (digits15 m e)) (snd (digits15 m e) - 14)) s.
Proof.
  intros Hm Hok Hs. cbn [show_sci]. destruct (N.eqb_spec m 0); [lia|].
  destruct (digits15_spec neg m e Hm Hok) as (q & k & k0 & -> & Hq & _). cbn [fst snd].
  apply p_real_decimal. rewrite <- !app_assoc.
  assert (Hlen : length (pad 14 (q mod 10 ^ 14)) = 14%nat).
  { apply pad_length; [|lia]. now apply N.mod_lt. }
  rewrite p_decimal_sci; auto using show_N_nonempty, show_N_digits, pad_digits.
  rewrite digits_value_app, Hlen, pad_value, show_N_value. f_equal.
  f_equal. change (10 ^ N.of_nat 14) with (10 ^ 14).
  rewrite (N.div_mod q (10 ^ 14)) at 3 by discriminate. lia.
Qed.

Lemma not_scientific_zero neg e : f64_ok (FFin neg 0 e) -> e = (-1074)%Z.
Proof. intros (_ & _ & [H|H]); auto. exfalso. revert H. change (2 ^ 52)%Z with 4503599627370496%Z. lia. Qed.

Lemma nan_read s : p_real (lit "NaN" ++ s) = ROk FNan s.
Proof. reflexivity. Qed.

Lemma inf_read neg s : stop s -> p_real (minus neg ++ lit "inf" ++ s) = ROk (FInf neg) s.
Proof.
  intro Hs. unfold p_real, alt at 1.
  assert (E : p_decimal (minus neg ++ lit "inf" ++ s) = RBack) by (destruct neg; reflexivity).
  rewrite E. unfold alt at 1.
  assert (E2 : pmap (fun _ => FNan) (tag_caseless (lit "nan")) (minus neg ++ lit "inf" ++ s) = RBack)
    by (destruct neg; reflexivity).
  rewrite E2. unfold alt.
  assert (E3 : (neg0 <- p_sign;; tag_caseless (lit "infinity");;; ret (FInf neg0))%parser
               (minus neg ++ lit "inf" ++ s) = RBack).
  { unfold bind. rewrite p_sign_minus by reflexivity. unfold tag_caseless.
    replace (strip_prefix_caseless (lit "infinity") (lit "inf" ++ s)) with (@None text); auto.
    symmetry. change (strip_prefix_caseless (lit "inity") s = None).
    destruct s as [|c s]; auto. apply stop_char in Hs.
    change (lit "inity") with (105 :: lit "nity"). cbn [strip_prefix_caseless].
    replace (105 =? to_lower c) with false; auto. symmetry. apply N.eqb_neq.
    unfold to_lower. destruct ((65 <=? c) && (c <=? 90)); lia. }
  rewrite E3. unfold bind. rewrite p_sign_minus by reflexivity. reflexivity.
Qed.

Lemma is_scientific_fin d :
  is_scientific d = true -> f64_ok d -> exists neg m e, d = FFin neg m e /\ 0 < m.
Proof.
  intros H Hok. destruct d as [| |neg m e]; try discriminate.
  exists neg, m, e. split; auto. destruct (N.eq_dec m 0) as [->|]; [|lia].
  apply not_scientific_zero in Hok. subst e. destruct neg; discriminate.
Qed.

Lemma p_real_plain d s :
  f64_ok d -> is_scientific d = false -> stop s -> p_real (d_real d ++ s) = ROk d s.
Proof.
  intros Hok Hsci Hs. unfold d_real. rewrite Hsci. destruct d as [|neg|neg m e].
  - reflexivity.
  - cbn [fract is_zero show_f64]. rewrite <- !app_assoc. now apply inf_read.
  - cbn [show_f64]. destruct (N.eqb_spec m 0) as [->|Hm].
    + apply not_scientific_zero in Hok. subst e. rewrite <- !app_assoc.
      change (is_zero (fract (FFin neg 0 (-1074)))) with true.
      apply p_real_decimal.
      change (lit "0" ++ lit "." ++ s) with (lit "0" ++ lit "." ++ [] ++ s).
      rewrite p_decimal_point by (auto; discriminate). destruct neg; reflexivity.
    + rewrite <- !app_assoc. apply p_real_shortest; auto; [lia|].
      intro Hz. destruct (fract_zero_integer neg m e Hz ltac:(lia) Hok) as [V HV].
      apply (shortest_integer neg m e V); auto. lia.
Qed.

Lemma p_real_sci d s :
  f64_ok d -> is_scientific d = true -> stop s ->
  exists neg m e, d = FFin neg m e /\ 0 < m /\
  p_real (d_real d ++ s) = ROk (f64_of_dec neg (fst (digits15 m e)) (snd (digits15 m e) - 14)) s.
Proof.
  intros Hok Hsci Hs. destruct (is_scientific_fin d Hsci Hok) as (neg & m & e & -> & Hm).
  exists neg, m, e. split; auto. split; auto.
  unfold d_real. rewrite Hsci. apply show_sci_read; auto using stop_no_digit.
Qed.

Lemma norm_real_plain d : f64_ok d -> is_scientific d = false -> norm_real d = d.
Proof.
  intros Hok Hs. unfold norm_real. rewrite <- (app_nil_r (d_real d)).
  rewrite p_real_plain by (auto; exact I). reflexivity.
Qed.

Lemma norm_real_sci neg m e :
  f64_ok (FFin neg m e) -> is_scientific (FFin neg m e) = true ->
  norm_real (FFin neg m e) = f64_of_dec neg (fst (digits15 m e)) (snd (digits15 m e) - 14).
Proof.
  intros Hok Hs. unfold norm_real. rewrite <- (app_nil_r (d_real _)).
  destruct (p_real_sci _ [] Hok Hs I) as (neg' & m' & e' & E & _ & ->).
  now inversion E.
Qed.

Lemma p_real_show d s : f64_ok d -> stop s -> p_real (d_real d ++ s) = ROk (norm_real d) s.
Proof.
  intros Hok Hs. destruct (is_scientific d) eqn:Hsci.
  - destruct (p_real_sci d s Hok Hsci Hs) as (neg & m & e & -> & Hm & ->).
    now rewrite norm_real_sci.
  - rewrite p_real_plain by auto. now rewrite norm_real_plain.
Qed.

Lemma norm_real_ok d : f64_ok d -> f64_ok (norm_real d).
Proof.
  intro Hok. destruct (is_scientific d) eqn:Hsci.
  - destruct (is_scientific_fin d Hsci Hok) as (neg & m & e & -> & Hm).
    rewrite norm_real_sci by auto. apply f64_of_dec_ok.
  - now rewrite norm_real_plain.
Qed.

(** Reading always yields a canonical number. *)
Lemma p_real_ok s d r : p_real s = ROk d r -> f64_ok d.
Proof.
  unfold p_real, alt. destruct (p_decimal s) eqn:E; try discriminate.
  - intro H. inversion H; subst. revert E. unfold p_decimal, bind.
    destruct (p_sign s); try discriminate. destruct (p_mantissa _); try discriminate.
    destruct (p_exponent _); try discriminate. unfold ret. intro E. inversion E. apply f64_of_dec_ok.
  - unfold pmap. destruct (tag_caseless _ s); try discriminate.
    + intro H; inversion H; exact I.
    + unfold bind. destruct (p_sign s); try discriminate.
      destruct (tag_caseless (lit "infinity") _); try discriminate.
      * intro H; inversion H; exact I.
      * destruct (tag_caseless (lit "inf") _); try discriminate. intro H; inversion H; exact I.
Qed.

(** ** A second save changes nothing *)

Lemma near_symmetric m e x y :
  low_gap m e == (1 # 2) -> near_f m e x ->
  (Qabs (y - qn m * b2 e) <= Qabs (x - qn m * b2 e))%Q -> near_f m e y.
Proof.
  intros G (X1 & X2 & X3) H. set (v := (qn m * b2 e)%Q) in *.
  pose proof (b2_pos e) as P.
  assert (E1 : ((qn m - low_gap m e) * b2 e == v - (1 # 2) * b2 e)%Q) by (rewrite G; unfold v; ring).
  assert (E2 : ((qn m + (1 # 2)) * b2 e == v + (1 # 2) * b2 e)%Q) by (unfold v; ring).
  rewrite E1 in X1, X3. rewrite E2 in X2, X3.
  assert (R : (Qabs (x - v) <= (1 # 2) * b2 e)%Q) by (apply Qabs_case; lra).
  assert (R1 : (y - v <= Qabs (y - v))%Q) by apply Qle_Qabs.
  assert (R2 : (- (y - v) <= Qabs (y - v))%Q) by (rewrite <- Qabs_opp; apply Qle_Qabs).
  unfold near_f. rewrite E1, E2. split; [lra|]. split; [lra|].
  intro Hb. apply X3.
  assert (Rx : (Qabs (x - v) == (1 # 2) * b2 e)%Q).
  { apply Qle_antisym; auto. destruct Hb as [Hb|Hb]; lra. }
  revert Rx. apply Qabs_case; intros _ Rx; [right|left]; lra.
Qed.

Lemma norm_real_idem d : f64_ok d -> norm_real (norm_real d) = norm_real d.
Proof.
  intro Hok. destruct (is_scientific d) eqn:Hsci.
  2:{ rewrite !norm_real_plain; auto; now rewrite norm_real_plain. }
  pose proof (norm_real_ok d Hok) as Hok1.
  destruct (is_scientific (norm_real d)) eqn:Hsci1; [|now apply norm_real_plain].
  destruct (is_scientific_fin d Hsci Hok) as (neg & m & e & -> & Hm).
  destruct (is_scientific_fin _ Hsci1 Hok1) as (neg1 & m1 & e1 & E1 & Hm1).
  rewrite E1 in *. rewrite norm_real_sci in E1 by auto. rewrite norm_real_sci by auto.
  destruct (digits15_spec neg m e Hm Hok) as (q & k & k0 & D & Hq & _). rewrite D in E1.
  cbn [fst snd] in E1.
  destruct (digits15_spec neg1 m1 e1 Hm1 Hok1)
    as (q1 & k1 & k01 & D1 & Hq1 & B1 & B2 & K & Near & (g1 & Hg1) & Err).
  rewrite D1. cbn [fst snd].
  assert (E1' := E1). apply f64_of_dec_inv in E1' as (-> & _ & Hn); [|lia].
  apply f64_of_dec_near; auto; [lia|].
  set (x := (qn q * b10 (k - 14))%Q) in *. set (x1 := (qn q1 * b10 (k1 - 14))%Q) in *.
  set (v := (qn m1 * b2 e1)%Q) in *. set (u := b10 (k01 - 14)) in *.
  assert (Pu : (0 < u)%Q) by apply b10_pos.
  pose proof (near_self m1 e1) as Hself. fold v in Hself.
  (* a grid point between the decimal read and the number *)
  assert (Hgrid : exists g, near_f m1 e1 (qn g * u)).
  { destruct (Z.le_gt_cases k01 k) as [L|L].
    - exists (q * 10 ^ Z.to_N (k - k01)). eapply near_f_eq; [|exact Hn].
      unfold x, u. rewrite qn_mul, qn_pow10_N, <- Qmult_assoc, <- b10_plus.
      rewrite Z2N.id by lia. replace (k - k01 + (k01 - 14))%Z with (k - 14)%Z by lia. reflexivity.
    - exists (10 ^ 14).
      assert (Eg : (qn (10 ^ 14) * u == b10 k01)%Q).
      { unfold u. change (qn (10 ^ 14)) with (b10 14). rewrite <- b10_plus.
        replace (14 + (k01 - 14))%Z with k01 by lia. reflexivity. }
      apply near_between with x v; auto; [|rewrite Eg; auto].
      rewrite Eg. apply Qle_trans with (b10 (k + 1)); [|apply b10_le; lia].
      unfold x. replace (k + 1)%Z with (15 + (k - 14))%Z by lia. rewrite b10_plus.
      apply Qmult_le_compat_r; [|apply Qlt_le_weak, b10_pos].
      change (b10 15) with (qn (10 ^ 15)). apply qn_le. lia. }
  destruct Hgrid as [g Hg]. specialize (Near g). set (y := (qn g * u)%Q) in *.
  (* same side, or the number is subnormal and its interval symmetric *)
  destruct (Qlt_le_dec x1 v) as [S1|S1]; destruct (Qlt_le_dec y v) as [S2|S2].
  - rewrite !Qabs_neg in Near by lra. apply near_between with y v; auto; lra.
  - rewrite (Qabs_neg (x1 - v)), (Qabs_pos (y - v)) in Near by lra.
    destruct (Qlt_le_dec v y) as [S3|S3].
    2:{ exfalso. lra. }
    apply near_symmetric with y; auto; [|fold v; rewrite (Qabs_neg (x1 - v)), (Qabs_pos (y - v)) by lra; lra].
    assert (Hstep : (x1 + u <= y)%Q).
    { apply (qn_step g1 g u x1 y Pu Hg1 (Qeq_refl _)). lra. }
    destruct Hg as (_ & G2 & _).
    assert (G2' : (y <= v + (1 # 2) * b2 e1)%Q).
    { assert (((qn m1 + (1 # 2)) * b2 e1 == v + (1 # 2) * b2 e1)%Q) by (unfold v; ring). lra. }
    assert (Hu : (u <= b2 e1)%Q) by lra.
    assert (Ek : (b10 (k01 + 1) == 1000000000000000 * u)%Q).
    { unfold u. replace (k01 + 1)%Z with (15 + (k01 - 14))%Z by lia. rewrite b10_plus. reflexivity. }
    unfold low_gap. destruct (N.eqb_spec m1 (2 ^ 52)) as [Em|]; cbn [andb]; [|reflexivity].
    exfalso. unfold v in B2. rewrite Em, q52 in B2. pose proof (b2_pos e1). lra.
  - rewrite (Qabs_pos (x1 - v)), (Qabs_neg (y - v)) in Near by lra.
    destruct (Qlt_le_dec v x1) as [S3|S3].
    2:{ eapply near_f_eq; [|exact Hself]. lra. }
    apply near_symmetric with y; auto; [|fold v; rewrite (Qabs_pos (x1 - v)), (Qabs_neg (y - v)) by lra; lra].
    assert (Hstep : (y + u <= x1)%Q).
    { apply (qn_step g g1 u y x1 Pu (Qeq_refl _) Hg1). lra. }
    destruct Hg as (G1 & _ & _).
    assert (Ek : (b10 (k01 + 1) == 1000000000000000 * u)%Q).
    { unfold u. replace (k01 + 1)%Z with (15 + (k01 - 14))%Z by lia. rewrite b10_plus. reflexivity. }
    unfold low_gap in *. destruct (N.eqb_spec m1 (2 ^ 52)) as [Em|]; cbn [andb] in *; [|reflexivity].
    exfalso. assert (G1' : (v - (1 # 2) * b2 e1 <= y)%Q).
    { pose proof (b2_pos e1). unfold v. destruct (-1074 <? e1)%Z; nra. }
    assert (Hu : (u <= b2 e1)%Q) by lra.
    unfold v in B2. rewrite Em, q52 in B2. pose proof (b2_pos e1). lra.
  - rewrite !Qabs_pos in Near by lra. apply near_between with v y; auto; lra.
Qed.

(** ** Accuracy of a scientific save *)

Lemma sci_accuracy neg m e :
  f64_ok (FFin neg m e) -> 0 < m ->
  (Qabs (qn (fst (digits15 m e)) * b10 (snd (digits15 m e) - 14) - qn m * b2 e) <=
   (1 # 2) * b10 (-14) * (qn m * b2 e))%Q.
Proof.
  intros Hok Hm.
  destruct (digits15_spec neg m e Hm Hok) as (q & k & k0 & D & Hq & B1 & B2 & K & _ & _ & Err).
  rewrite D. cbn [fst snd]. eapply Qle_trans; [exact Err|].
  replace (k0 - 14)%Z with (-14 + k0)%Z by lia. rewrite b10_plus.
  rewrite <- Qmult_assoc. pose proof (b10_pos (-14)). nra.
Qed.

(** ** A number printed in scientific form reads as a finite number *)

Lemma scientific_small neg m e :
  f64_ok (FFin neg m e) -> is_scientific (FFin neg m e) = true -> (e < 0)%Z.
Proof.
  intros _ H. destruct e as [|p|p]; try lia; exfalso; revert H; vm_compute; discriminate.
Qed.

Lemma f64_of_dec_finite neg q x :
  0 < q -> (qn q * b10 x < b2 1000)%Q ->
  exists m e, f64_of_dec neg q x = FFin neg m e.
Proof.
  intros Hq Hx. unfold f64_of_dec. pose proof (dec_frac_repr q x) as Hr.
  destruct (dec_frac q x) as [n d]. cbn [fst snd] in *.
  assert (Hn : 0 < n).
  { eapply repr_pos_inv; eauto. apply qn_pos in Hq. pose proof (b10_pos x). nra. }
  unfold round_f64. destruct (N.eqb_spec n 0); [lia|]. cbv zeta.
  destruct (ilog2_spec n d _ Hr Hn) as [L1 _].
  assert (ilog2 n d < 1000)%Z.
  { apply b2_lt_inv. eapply Qle_lt_trans; eauto. }
  destruct (scale2 n d _) as [n' d'].
  destruct (N.eqb_spec (round_half_even n' d') (2 ^ 53)).
  - destruct (Z.ltb_spec 971 (Z.max (-1074) (ilog2 n d - 52) + 1)); [lia|]. eauto.
  - destruct (Z.ltb_spec 971 (Z.max (-1074) (ilog2 n d - 52))); [lia|]. eauto.
Qed.

Lemma p_real_sci_nearest d s :
  f64_ok d -> is_scientific d = true -> stop s ->
  exists neg m e i f ks k m' e',
    d = FFin neg m e /\
    d_real d = minus neg ++ i ++ lit "." ++ f ++ lit "E" ++ ks /\
    length i = 1%nat /\ length f = 14%nat /\
    forallb is_digit (i ++ f) = true /\ decimal_int k ks /\
    (let x := qn (digits_value (i ++ f)) * b10 (k - 14) in
     Qabs.Qabs (x - qn m * b2 e) <= (1 # 2) * b10 (-14) * (qn m * b2 e) /\
     p_real (d_real d ++ s) = ROk (FFin neg m' e') s /\
     f64_ok (FFin neg m' e') /\
     forall neg2 m2 e2, f64_ok (FFin neg2 m2 e2) ->
       Qabs.Qabs (qn m' * b2 e' - x) <= Qabs.Qabs (qn m2 * b2 e2 - x))%Q.
Proof.
  intros Hok Hsci Hs.
  destruct (p_real_sci d s Hok Hsci Hs) as (neg & m & e & -> & Hm & Hp).
  pose proof (sci_accuracy neg m e Hok Hm) as Hacc.
  destruct (digits15_spec neg m e Hm Hok) as (q & k & k0 & D & Hq & _).
  rewrite D in *. cbn [fst snd] in *.
  pose proof (scientific_small neg m e Hok Hsci) as He.
  assert (Hfin : exists m' e', f64_of_dec neg q (k - 14) = FFin neg m' e').
  { apply f64_of_dec_finite; [lia|].
    set (x := (qn q * b10 (k - 14))%Q) in *. set (v := (qn m * b2 e)%Q) in *.
    assert (Hv : (v < 9007199254740992)%Q).
    { unfold v. destruct Hok as (Hm53 & _). apply qn_lt in Hm53. rewrite q53 in Hm53.
      assert (b2 e <= 1)%Q by (change 1%Q with (b2 0); apply b2_le; lia).
      pose proof (b2_pos e). pose proof (qn_nonneg m). nra. }
    assert (H1000 : (2 * 9007199254740992 < b2 1000)%Q) by (vm_compute; reflexivity).
    assert (Hb : ((1 # 2) * b10 (-14) <= 1)%Q) by (vm_compute; discriminate).
    assert (Pv : (0 <= v)%Q).
    { unfold v. pose proof (b2_pos e). pose proof (qn_nonneg m). nra. }
    apply Qabs_Qle_condition in Hacc. set (h := ((1 # 2) * b10 (-14))%Q) in *.
    assert (h * v <= v)%Q by nra. lra. }
  destruct Hfin as (m' & e' & E). rewrite E in Hp.
  assert (E' := E). apply f64_of_dec_inv in E' as (_ & Hok' & Hn); [|lia].
  exists neg, m, e, (show_N (q / 10 ^ 14)), (pad 14 (q mod 10 ^ 14)), (show_Z k), k, m', e'.
  assert (Hqd : q / 10 ^ 14 < 10) by (apply N.div_lt_upper_bound; lia).
  assert (Hlen : length (pad 14 (q mod 10 ^ 14)) = 14%nat).
  { apply pad_length; [|lia]. now apply N.mod_lt. }
  assert (Hv : digits_value (show_N (q / 10 ^ 14) ++ pad 14 (q mod 10 ^ 14)) = q).
  { rewrite digits_value_app, show_N_value, pad_value, Hlen.
    change (10 ^ N.of_nat 14) with (10 ^ 14).
    pose proof (N.div_mod q (10 ^ 14)). lia. }
  split; [reflexivity|]. split.
  { unfold d_real. rewrite Hsci. unfold show_sci. destruct (N.eqb_spec m 0); [lia|]. rewrite D.
    reflexivity. }
  split. { rewrite show_N_eq. destruct (N.ltb_spec (q / 10 ^ 14) 10); [reflexivity|lia]. }
  split. { exact Hlen. }
  split. { rewrite forallb_app, show_N_digits, pad_digits. reflexivity. }
  split. { apply show_Z_decimal. }
  cbv zeta. rewrite Hv. split; [exact Hacc|]. split; [exact Hp|]. split; [exact Hok'|].
  intros neg2 m2 e2 Hok2. eapply near_nearest; eauto.
Qed.
