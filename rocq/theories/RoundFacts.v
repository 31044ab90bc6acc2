(** Correct rounding of rationals to [f64] (Float.v), characterised by the
    interval of rationals that round to a given number. *)

From Coq Require Import List NArith ZArith Bool Lia.
From Coq Require Import QArith Qpower Qabs Lqa.
From Coq Require Import ZifyBool ZifyNat ZifyN.
From Verif Require Import Base Prims Float.
Open Scope Q_scope.

Definition qn (n : N) : Q := inject_Z (Z.of_N n).
Definition b2 (e : Z) : Q := (inject_Z 2) ^ e.
Definition b10 (e : Z) : Q := (inject_Z 10) ^ e.

(** ** Powers *)

Lemma b2_pos e : 0 < b2 e.
Proof. apply Qpower_0_lt. reflexivity. Qed.

Lemma b10_pos e : 0 < b10 e.
Proof. apply Qpower_0_lt. reflexivity. Qed.

Lemma b2_plus a b : b2 (a + b) == b2 a * b2 b.
Proof. apply Qpower_plus. discriminate. Qed.

Lemma b10_plus a b : b10 (a + b) == b10 a * b10 b.
Proof. apply Qpower_plus. discriminate. Qed.

Lemma b2_0 : b2 0 == 1.
Proof. reflexivity. Qed.

Lemma b2_1 : b2 1 == 2.
Proof. reflexivity. Qed.

Lemma b2_succ e : b2 (e + 1) == 2 * b2 e.
Proof. rewrite b2_plus, b2_1. ring. Qed.

Lemma b10_succ e : b10 (e + 1) == 10 * b10 e.
Proof. rewrite b10_plus. change (b10 1) with 10. ring. Qed.

Lemma b2_neg e : b2 (- e) * b2 e == 1.
Proof. rewrite <- b2_plus. replace (- e + e)%Z with 0%Z by lia. reflexivity. Qed.

Lemma b10_neg e : b10 (- e) * b10 e == 1.
Proof. rewrite <- b10_plus. replace (- e + e)%Z with 0%Z by lia. reflexivity. Qed.

Lemma b2_lt a b : (a < b)%Z -> b2 a < b2 b.
Proof. intro H. apply Qpower_lt_compat_l; auto. reflexivity. Qed.

Lemma b2_le a b : (a <= b)%Z -> b2 a <= b2 b.
Proof. intro H. apply Qpower_le_compat_l; auto. discriminate. Qed.

Lemma b10_le a b : (a <= b)%Z -> b10 a <= b10 b.
Proof. intro H. apply Qpower_le_compat_l; auto. discriminate. Qed.

Lemma b10_lt a b : (a < b)%Z -> b10 a < b10 b.
Proof. intro H. apply Qpower_lt_compat_l; auto. reflexivity. Qed.

Lemma b2_lt_inv a b : b2 a < b2 b -> (a < b)%Z.
Proof. intro H. eapply Qpower_lt_compat_l_inv; eauto. reflexivity. Qed.

Lemma b10_lt_inv a b : b10 a < b10 b -> (a < b)%Z.
Proof. intro H. eapply Qpower_lt_compat_l_inv; eauto. reflexivity. Qed.

(** ** Natural numbers in Q *)

Lemma qn_le a b : (a <= b)%N <-> qn a <= qn b.
Proof. unfold qn. rewrite <- Zle_Qle. lia. Qed.

Lemma qn_lt a b : (a < b)%N <-> qn a < qn b.
Proof. unfold qn. rewrite <- Zlt_Qlt. lia. Qed.

Lemma qn_add a b : qn (a + b) == qn a + qn b.
Proof. unfold qn. rewrite N2Z.inj_add, inject_Z_plus. reflexivity. Qed.

Lemma qn_mul a b : qn (a * b) == qn a * qn b.
Proof. unfold qn. rewrite N2Z.inj_mul, inject_Z_mult. reflexivity. Qed.

Lemma qn_nonneg a : 0 <= qn a.
Proof. change 0 with (qn 0). apply qn_le. lia. Qed.

Lemma qn_pos a : (0 < a)%N <-> 0 < qn a.
Proof. change 0 with (qn 0). apply qn_lt. Qed.

Lemma qn_inj a b : qn a == qn b -> a = b.
Proof.
  intro H. apply N.le_antisymm; apply qn_le; rewrite H; apply Qle_refl.
Qed.

Lemma qn_pow2 p : qn (2 ^ Npos p) == b2 (Zpos p).
Proof.
  unfold qn, b2. rewrite N2Z.inj_pow. change (Z.of_N (N.pos p)) with (Zpos p).
  change (Z.of_N 2) with 2%Z. rewrite Zpower_Qpower by lia. reflexivity.
Qed.

Lemma qn_pow2_N k : qn (2 ^ k) == b2 (Z.of_N k).
Proof. destruct k as [|p]; [reflexivity|]. apply qn_pow2. Qed.

Lemma qn_pow10 p : qn (10 ^ Npos p) == b10 (Zpos p).
Proof.
  unfold qn, b10. rewrite N2Z.inj_pow. change (Z.of_N (N.pos p)) with (Zpos p).
  change (Z.of_N 10) with 10%Z. rewrite Zpower_Qpower by lia. reflexivity.
Qed.

(** ** Fractions *)

(** The fraction [n/d] has value [x]. *)
Definition repr (n d : N) (x : Q) : Prop := (0 < d)%N /\ qn n == x * qn d.

Lemma repr_eq n d x y : repr n d x -> x == y -> repr n d y.
Proof. intros [H1 H2] E. split; auto. now rewrite <- E. Qed.

Lemma repr_unique n d x y : repr n d x -> repr n d y -> x == y.
Proof.
  intros [Hd H1] [_ H2]. apply qn_pos in Hd.
  apply Qmult_inj_r with (qn d); [lra|]. now rewrite <- H1, <- H2.
Qed.

Lemma repr_nonneg n d x : repr n d x -> 0 <= x.
Proof.
  intros [Hd H]. apply qn_pos in Hd. pose proof (qn_nonneg n). nra.
Qed.

Lemma repr_pos n d x : repr n d x -> (0 < n)%N -> 0 < x.
Proof.
  intros [Hd H] Hn. apply qn_pos in Hd. apply qn_pos in Hn. nra.
Qed.

Lemma repr_pos_inv n d x : repr n d x -> 0 < x -> (0 < n)%N.
Proof.
  intros [Hd H] Hn. apply qn_pos in Hd. apply qn_pos. nra.
Qed.

Lemma scale2_repr n d x e :
  repr n d x -> repr (fst (scale2 n d e)) (snd (scale2 n d e)) (x * b2 (- e)).
Proof.
  intros [Hd H]. destruct e as [|p|p]; cbn [scale2 fst snd].
  - split; auto. change (b2 (- 0)) with (b2 0). rewrite b2_0, H. ring.
  - split.
    + assert (0 < 2 ^ N.pos p)%N by (apply N.neq_0_lt_0, N.pow_nonzero; discriminate). nia.
    + rewrite qn_mul, qn_pow2, H. pose proof (b2_neg (Zpos p)) as E.
      transitivity (x * qn d * (b2 (- Z.pos p) * b2 (Z.pos p))); [rewrite E|]; ring.
  - split; auto. rewrite qn_mul, qn_pow2, H. change (- Z.neg p)%Z with (Z.pos p). ring.
Qed.

Lemma scale10_repr n d x s :
  repr n d x -> repr (fst (scale10 n d s)) (snd (scale10 n d s)) (x * b10 s).
Proof.
  intros [Hd H]. destruct s as [|p|p]; cbn [scale10 fst snd].
  - split; auto. change (b10 0) with 1. rewrite H. ring.
  - split; auto. rewrite qn_mul, qn_pow10, H. ring.
  - split.
    + assert (0 < 10 ^ N.pos p)%N by (apply N.neq_0_lt_0, N.pow_nonzero; discriminate). nia.
    + rewrite qn_mul, qn_pow10, H. pose proof (b10_neg (Zpos p)) as E.
      change (- Z.pos p)%Z with (Z.neg p) in E.
      transitivity (x * qn d * (b10 (Z.neg p) * b10 (Z.pos p))); [rewrite E|]; ring.
Qed.

Lemma dec_frac_repr q x : repr (fst (dec_frac q x)) (snd (dec_frac q x)) (qn q * b10 x).
Proof.
  destruct x as [|p|p]; cbn [dec_frac fst snd].
  - split; [lia|]. change (b10 0) with 1. change (qn 1) with 1. ring.
  - split; [lia|]. rewrite qn_mul, qn_pow10. change (qn 1) with 1. ring.
  - split.
    + apply N.neq_0_lt_0, N.pow_nonzero; discriminate.
    + rewrite qn_pow10. pose proof (b10_neg (Zpos p)) as E.
      change (- Z.pos p)%Z with (Z.neg p) in E.
      transitivity (qn q * (b10 (Z.neg p) * b10 (Z.pos p))); [rewrite E|]; ring.
Qed.

Lemma mag_repr m e : repr (fst (mag m e)) (snd (mag m e)) (qn m * b2 e).
Proof.
  destruct e as [|p|p]; cbn [mag fst snd].
  - split; [lia|]. change (b2 0) with 1. change (qn 1) with 1. ring.
  - split; [lia|]. rewrite qn_mul, qn_pow2. change (qn 1) with 1. ring.
  - split.
    + apply N.neq_0_lt_0, N.pow_nonzero; discriminate.
    + rewrite qn_pow2. pose proof (b2_neg (Zpos p)) as E.
      change (- Z.pos p)%Z with (Z.neg p) in E.
      transitivity (qn m * (b2 (Z.neg p) * b2 (Z.pos p))); [rewrite E|]; ring.
Qed.

(** ** Rounding to an integer *)

(** [m] is an integer nearest to [x], the even one if there are two. *)
Definition near_int (x : Q) (m : N) : Prop :=
  2 * (x - qn m) <= 1 /\ 2 * (qn m - x) <= 1 /\
  (2 * (x - qn m) == 1 \/ 2 * (qn m - x) == 1 -> N.even m = true).

Lemma near_int_eq x y m : x == y -> near_int x m -> near_int y m.
Proof.
  intros E (H1 & H2 & H3). split; [|split].
  - now rewrite <- E.
  - now rewrite <- E.
  - intros [H|H]; apply H3; [left|right]; rewrite E; auto.
Qed.

Lemma near_unique_lt x m m' : near_int x m -> near_int x m' -> (m < m')%N -> False.
Proof.
  intros (A1 & A2 & A3) (B1 & B2 & B3) Hlt.
  assert (H : qn m + 1 <= qn m').
  { change 1 with (qn 1). rewrite <- qn_add. apply qn_le. lia. }
  assert (Hm' : qn m' == qn m + 1) by lra.
  assert (m' = m + 1)%N. { apply qn_inj. rewrite qn_add, Hm'. reflexivity. }
  subst. assert (E1 : N.even m = true) by (apply A3; left; lra).
  assert (E2 : N.even (m + 1) = true) by (apply B3; right; lra).
  rewrite N.add_1_r, N.even_succ, <- N.negb_even in E2. rewrite E1 in E2. discriminate.
Qed.

Lemma near_unique x m m' : near_int x m -> near_int x m' -> m = m'.
Proof.
  intros H H'. destruct (N.lt_trichotomy m m') as [L|[E|L]]; auto; exfalso.
  - now apply (near_unique_lt x m m').
  - now apply (near_unique_lt x m' m).
Qed.

Lemma rhe_near n d x : repr n d x -> near_int x (round_half_even n d).
Proof.
  intros [Hd H]. unfold round_half_even. cbv zeta.
  pose proof (N.div_mod n d ltac:(lia)) as Hdm. pose proof (N.mod_lt n d ltac:(lia)) as Hr.
  set (q := (n / d)%N) in *. set (r := (n mod d)%N) in *.
  assert (Hq : x * qn d == qn d * qn q + qn r).
  { rewrite <- H, Hdm. now rewrite qn_add, qn_mul. }
  apply qn_pos in Hd. apply qn_lt in Hr. pose proof (qn_nonneg r) as Hr0.
  assert (H2r : qn (2 * r) == 2 * qn r) by (rewrite qn_mul; reflexivity).
  destruct (N.ltb_spec (2 * r) d) as [L|L].
  - apply qn_lt in L. rewrite H2r in L. split; [nra|]. split; [nra|].
    intros [E|E]; exfalso; nra.
  - destruct (N.ltb_spec d (2 * r)) as [L'|L'].
    + apply qn_lt in L'. rewrite H2r in L'.
      assert (Hq1 : qn (q + 1) == qn q + 1) by (rewrite qn_add; reflexivity).
      split; [rewrite Hq1; nra|]. split; [rewrite Hq1; nra|].
      intros [E|E]; exfalso; rewrite Hq1 in E; nra.
    + assert (Hrd : 2 * qn r == qn d).
      { rewrite <- H2r. apply qn_le in L. apply qn_le in L'. lra. }
      assert (Hx : 2 * (x - qn q) == 1).
      { apply Qmult_inj_r with (qn d); [lra|]. rewrite <- Hrd at 2. nra. }
      destruct (N.even q) eqn:Ev.
      * split; [lra|]. split; [lra|]. auto.
      * assert (Hq1 : qn (q + 1) == qn q + 1) by (rewrite qn_add; reflexivity).
        split; [rewrite Hq1; lra|]. split; [rewrite Hq1; lra|]. intros _.
        rewrite N.add_1_r, N.even_succ, <- N.negb_even, Ev. reflexivity.
Qed.

(** ** Binary exponent *)

Lemma ilog2_spec n d x :
  repr n d x -> (0 < n)%N -> b2 (ilog2 n d) <= x /\ x < b2 (ilog2 n d + 1).
Proof.
  intros Hx Hn. unfold ilog2. cbv zeta.
  set (l := (Z.of_N (N.log2 n) - Z.of_N (N.log2 d))%Z).
  pose proof (scale2_repr n d x l Hx) as Hs.
  destruct (scale2 n d l) as [n' d']. cbn [fst snd] in Hs.
  destruct Hx as [Hd Hx].
  pose proof (N.log2_spec n Hn) as [Hn1 Hn2]. pose proof (N.log2_spec d Hd) as [Hd1 Hd2].
  apply qn_le in Hn1. apply qn_lt in Hn2. apply qn_le in Hd1. apply qn_lt in Hd2.
  rewrite qn_pow2_N in Hn1, Hn2, Hd1, Hd2.
  rewrite N2Z.inj_succ in Hn2, Hd2. unfold Z.succ in Hn2, Hd2.
  rewrite b2_succ in Hn2, Hd2.
  set (a := Z.of_N (N.log2 n)) in *. set (b := Z.of_N (N.log2 d)) in *.
  assert (Hl : b2 l * b2 b == b2 a).
  { rewrite <- b2_plus. replace (l + b)%Z with a by lia. reflexivity. }
  pose proof (b2_pos l) as Pl. pose proof (b2_pos a) as Pa. pose proof (b2_pos b) as Pb.
  apply qn_pos in Hd.
  assert (Hup : x < 2 * b2 l).
  { apply Qmult_lt_r with (qn d); auto. rewrite <- Hx. nra. }
  assert (Hlow : b2 l < 2 * x).
  { apply Qmult_lt_r with (qn d); auto.
    assert (2 * x * qn d == 2 * qn n) by (rewrite Hx; ring). rewrite H. nra. }
  destruct Hs as [Hd' Hs]. pose proof (b2_neg l) as Hneg.
  pose proof (b2_pos (- l)) as Pnl.
  destruct (N.leb_spec d' n') as [L|L].
  - apply qn_le in L. apply qn_pos in Hd'. rewrite Hs in L.
    assert (1 <= x * b2 (- l)).
    { apply Qmult_le_r with (qn d'); auto. lra. }
    split; [|rewrite b2_succ; lra].
    assert (E : x == x * b2 (- l) * b2 l) by (rewrite <- Qmult_assoc, Hneg; ring).
    rewrite E. nra.
  - apply qn_lt in L. apply qn_pos in Hd'. rewrite Hs in L.
    assert (x * b2 (- l) < 1).
    { apply Qmult_lt_r with (qn d'); auto. lra. }
    replace (l - 1 + 1)%Z with l by lia.
    assert (E : x == x * b2 (- l) * b2 l) by (rewrite <- Qmult_assoc, Hneg; ring).
    split.
    + assert (E2 : b2 l == 2 * b2 (l - 1)).
      { rewrite <- b2_succ. replace (l - 1 + 1)%Z with l by lia. reflexivity. }
      lra.
    + rewrite E. nra.
Qed.

Lemma ilog2_unique n d x l :
  repr n d x -> (0 < n)%N -> b2 l <= x -> x < b2 (l + 1) -> ilog2 n d = l.
Proof.
  intros Hx Hn H1 H2. destruct (ilog2_spec n d x Hx Hn) as [H3 H4].
  assert (b2 (ilog2 n d) < b2 (l + 1)) by lra.
  assert (b2 l < b2 (ilog2 n d + 1)) by lra.
  apply b2_lt_inv in H. apply b2_lt_inv in H0. lia.
Qed.

(** ** The interval of a number *)

(** Distance, in units of the last place, to the lower limit of the numbers that
    round to significand [m] and exponent [e]. *)
Definition low_gap (m : N) (e : Z) : Q :=
  if ((m =? 2 ^ 52)%N && (-1074 <? e)%Z)%bool then 1 # 4 else 1 # 2.

Definition near_f (m : N) (e : Z) (x : Q) : Prop :=
  (qn m - low_gap m e) * b2 e <= x /\ x <= (qn m + (1 # 2)) * b2 e /\
  ((qn m - low_gap m e) * b2 e == x \/ x == (qn m + (1 # 2)) * b2 e -> N.even m = true).

Lemma near_f_eq m e x y : x == y -> near_f m e x -> near_f m e y.
Proof.
  intros E (H1 & H2 & H3). split; [|split].
  - now rewrite <- E.
  - now rewrite <- E.
  - intros [H|H]; apply H3; [left|right]; rewrite E; auto.
Qed.

Lemma q53 : qn (2 ^ 53) == 9007199254740992.
Proof. reflexivity. Qed.
Lemma q52 : qn (2 ^ 52) == 4503599627370496.
Proof. reflexivity. Qed.
Lemma b2_52 e : b2 (e + 52) == 4503599627370496 * b2 e.
Proof. rewrite b2_plus. change (b2 52) with 4503599627370496. ring. Qed.
Lemma b2_53 e : b2 (e + 53) == 9007199254740992 * b2 e.
Proof. rewrite b2_plus. change (b2 53) with 9007199254740992. ring. Qed.

Lemma scaled_near x e m :
  near_int (x * b2 (- e)) m <->
  (qn m - (1 # 2)) * b2 e <= x /\ x <= (qn m + (1 # 2)) * b2 e /\
  ((qn m - (1 # 2)) * b2 e == x \/ x == (qn m + (1 # 2)) * b2 e -> N.even m = true).
Proof.
  pose proof (b2_pos e) as P. pose proof (b2_pos (- e)) as Pn. pose proof (b2_neg e) as E.
  set (y := x * b2 (- e)).
  assert (Hx : x == y * b2 e) by (unfold y; rewrite <- Qmult_assoc, E; ring).
  split.
  - intros (H1 & H2 & H3). split; [rewrite Hx; nra|]. split; [rewrite Hx; nra|].
    intros [H|H]; apply H3; rewrite Hx in H; apply Qmult_inj_r in H; lra.
  - intros (H1 & H2 & H3). rewrite Hx in H1, H2.
    apply Qmult_le_r in H1; auto. apply Qmult_le_r in H2; auto.
    split; [lra|]. split; [lra|].
    intros [H|H]; apply H3; rewrite Hx; [right|left]; apply Qmult_comp; lra.
Qed.

(** A number in the interval of a canonical float rounds to it. *)
Lemma near_round neg n d x m e :
  repr n d x -> (0 < n)%N -> f64_ok (FFin neg m e) -> near_f m e x ->
  round_f64 neg n d = FFin neg m e.
Proof.
  intros Hx Hn (Hm & He & Hc) (H1 & H2 & H3). unfold round_f64.
  destruct (N.eqb_spec n 0); [lia|]. cbv zeta.
  pose proof (repr_pos n d x Hx Hn) as Px.
  pose proof (b2_pos e) as Pe.
  assert (Hm1 : qn m + 1 <= 9007199254740992).
  { rewrite <- q53. change 1 with (qn 1). rewrite <- qn_add. apply qn_le. lia. }
  apply qn_lt in Hm. rewrite q53 in Hm.
  assert (Hgap : low_gap m e == (1#2) \/ (low_gap m e == (1#4) /\ m = (2 ^ 52)%N /\ (-1074 < e)%Z)).
  { unfold low_gap. destruct (N.eqb_spec m (2 ^ 52)); cbn [andb]; [|now left].
    destruct (Z.ltb_spec (-1074) e); [right|left]; split; auto; reflexivity. }
  assert (Hhi : x < b2 (e + 53)) by (rewrite b2_53; nra).
  destruct (Qlt_le_dec x (b2 (e + 52))) as [Hlo|Hlo].
  - (* below the binade *)
    destruct (Z.eq_dec e (-1074)) as [->|Hne].
    + (* subnormal *)
      assert (Hl : (ilog2 n d < -1074 + 52)%Z).
      { apply b2_lt_inv. destruct (ilog2_spec n d x Hx Hn). lra. }
      rewrite Z.max_l by lia.
      pose proof (scale2_repr n d x (-1074) Hx) as Hs.
      destruct (scale2 n d (-1074)) as [n' d']. cbn [fst snd] in Hs.
      assert (Hr : round_half_even n' d' = m).
      { eapply near_unique. { apply rhe_near. exact Hs. }
        apply scaled_near.
        assert (G : low_gap m (-1074) == (1 # 2)).
        { destruct Hgap as [G|(_ & _ & G)]; [exact G|lia]. }
        rewrite G in H1. split; auto. split; auto. intros [E|E]; apply H3; auto.
        left. now rewrite G. }
      rewrite Hr. destruct (N.eqb_spec m (2 ^ 53)) as [->|_].
      { rewrite q53 in Hm. lra. }
      destruct (Z.ltb_spec 971 (-1074)); [lia|reflexivity].
    + (* just below a power of two *)
      assert (Hmq : 4503599627370496 <= qn m).
      { rewrite <- q52. apply qn_le. lia. }
      rewrite b2_52 in Hlo.
      destruct Hgap as [G|(G & -> & He2)].
      * exfalso. rewrite G in H1.
        assert (4503599627370496 < qn m \/ m = (2 ^ 52)%N) as [Hlt|Heq].
        { rewrite <- q52. rewrite <- qn_lt. rewrite <- q52 in Hmq. apply qn_le in Hmq. lia. }
        -- assert (4503599627370496 + 1 <= qn m).
           { rewrite <- q52. change 1 with (qn 1). rewrite <- qn_add. apply qn_le.
             rewrite <- q52 in Hlt. apply qn_lt in Hlt. lia. }
           nra.
        -- subst. unfold low_gap in G. rewrite N.eqb_refl in G. cbn [andb] in G.
           destruct (Z.ltb_spec (-1074) e); [|lia]. discriminate G.
      * rewrite G in H1. rewrite q52 in *.
        assert (E1 : b2 e == 2 * b2 (e - 1)).
        { rewrite <- b2_succ. replace (e - 1 + 1)%Z with e by lia. reflexivity. }
        pose proof (b2_pos (e - 1)) as Pe1.
        assert (Hl : ilog2 n d = (e - 1 + 52)%Z).
        { apply (ilog2_unique n d x); auto.
          - rewrite b2_52. nra.
          - replace (e - 1 + 52 + 1)%Z with (e - 1 + 53)%Z by lia. rewrite b2_53. nra. }
        rewrite Hl. replace (e - 1 + 52 - 52)%Z with (e - 1)%Z by lia. rewrite Z.max_r by lia.
        pose proof (scale2_repr n d x (e - 1) Hx) as Hs.
        destruct (scale2 n d (e - 1)) as [n' d']. cbn [fst snd] in Hs.
        assert (Hr : round_half_even n' d' = (2 ^ 53)%N).
        { eapply near_unique. { apply rhe_near. exact Hs. }
          apply scaled_near. rewrite q53.
          split; [nra|]. split; [nra|]. reflexivity. }
        rewrite Hr, N.eqb_refl. replace (e - 1 + 1)%Z with e by lia.
        destruct (Z.ltb_spec 971 e); [lia|reflexivity].
  - (* in the binade *)
    assert (Hl : ilog2 n d = (e + 52)%Z).
    { apply (ilog2_unique n d x); auto. now replace (e + 52 + 1)%Z with (e + 53)%Z by lia. }
    rewrite Hl. replace (e + 52 - 52)%Z with e by lia. rewrite Z.max_r by lia.
    pose proof (scale2_repr n d x e Hx) as Hs.
    destruct (scale2 n d e) as [n' d']. cbn [fst snd] in Hs.
    assert (Hr : round_half_even n' d' = m).
    { eapply near_unique. { apply rhe_near. exact Hs. }
      apply scaled_near. destruct Hgap as [G|(G & -> & _)].
      - rewrite G in H1. split; auto. split; auto. intros [E|E]; apply H3; auto.
        left. now rewrite G.
      - split; [nra|]. split; auto. }
    rewrite Hr. destruct (N.eqb_spec m (2 ^ 53)) as [->|_].
    { rewrite q53 in Hm. lra. }
    destruct (Z.ltb_spec 971 e); [lia|reflexivity].
Qed.

(** What a rational rounds to is canonical and its interval contains it. *)
Lemma round_near neg n d x neg' m e :
  repr n d x -> (0 < n)%N -> round_f64 neg n d = FFin neg' m e ->
  neg' = neg /\ f64_ok (FFin neg m e) /\ near_f m e x.
Proof.
  intros Hx Hn. unfold round_f64. destruct (N.eqb_spec n 0); [lia|]. cbv zeta.
  destruct (ilog2_spec n d x Hx Hn) as [L1 L2].
  pose proof (repr_pos n d x Hx Hn) as Px.
  set (l := ilog2 n d) in *. set (e0 := Z.max (-1074) (l - 52)).
  pose proof (scale2_repr n d x e0 Hx) as Hs.
  destruct (scale2 n d e0) as [n' d']. cbn [fst snd] in Hs.
  pose proof (rhe_near n' d' _ Hs) as Hr. apply scaled_near in Hr.
  destruct Hr as (R1 & R2 & R3). set (r := round_half_even n' d') in *.
  pose proof (b2_pos e0) as P0.
  assert (Hx53 : x < 9007199254740992 * b2 e0).
  { rewrite <- b2_53. apply Qlt_le_trans with (b2 (l + 1)); auto. apply b2_le. lia. }
  assert (Hr53 : (r <= 2 ^ 53)%N).
  { assert (qn r < 9007199254740992 + 1) by nra.
    rewrite <- q53 in H. change 1 with (qn 1) in H. rewrite <- qn_add in H.
    apply qn_lt in H. lia. }
  assert (Hr52 : (l - 52 >= -1074)%Z -> (2 ^ 52 <= r)%N).
  { intro Hl. assert (E : e0 = (l - 52)%Z) by lia.
    assert (4503599627370496 * b2 e0 <= x).
    { rewrite <- b2_52. replace (e0 + 52)%Z with l by lia. auto. }
    assert (4503599627370496 - 1 < qn r) by nra.
    assert (qn (2 ^ 52) < qn (r + 1)) by (rewrite qn_add, q52; change (qn 1) with 1; lra).
    apply qn_lt in H1. lia. }
  destruct (N.eqb_spec r (2 ^ 53)) as [Er|Er].
  - (* carried into the next binade *)
    destruct (Z.ltb_spec 971 (e0 + 1)); [discriminate|].
    intro E; inversion E; subst. split; auto. split.
    + split; [reflexivity|]. split; [lia|]. right. discriminate.
    + rewrite Er in *. rewrite q53 in *.
      assert (E1 : b2 (e0 + 1) == 2 * b2 e0) by apply b2_succ.
      assert (G : low_gap (2 ^ 52) (e0 + 1) == (1 # 4)).
      { unfold low_gap. rewrite N.eqb_refl. cbn [andb].
        destruct (Z.ltb_spec (-1074) (e0 + 1)); [reflexivity|lia]. }
      unfold near_f. rewrite G, q52, E1. split; [nra|]. split; [nra|]. reflexivity.
  - destruct (Z.ltb_spec 971 e0); [discriminate|].
    intro E; inversion E; subst. split; auto. split.
    + split; [lia|]. split; [lia|].
      destruct (Z.max_spec (-1074) (l - 52)) as [[Hm Hm']|[Hm Hm']].
      * right. assert (2 ^ 52 <= r)%N by (apply Hr52; lia). lia.
      * destruct (Z.eq_dec (l - 52) (-1074)); [|lia].
        left. lia.
    + assert (G : low_gap r e0 == (1 # 2) \/
                  (low_gap r e0 == (1 # 4) /\ 4503599627370496 * b2 e0 <= x /\ qn r == 4503599627370496)).
      { unfold low_gap. destruct (N.eqb_spec r (2 ^ 52)) as [Er2|]; cbn [andb]; [|now left].
        destruct (Z.ltb_spec (-1074) e0); [right|now left]. split; [reflexivity|].
        split; [|rewrite Er2; apply q52].
        rewrite <- b2_52. replace (e0 + 52)%Z with l by lia. auto. }
      destruct G as [G|(G & Gx & Gr)]; unfold near_f; rewrite G.
      * split; auto.
      * split; [rewrite Gr; nra|]. split; auto.
        intros [E'|E']; apply R3; auto. exfalso. rewrite Gr in E'. nra.
Qed.

(** Canonical floats represent themselves. *)
Lemma near_self m e : near_f m e (qn m * b2 e).
Proof.
  pose proof (b2_pos e) as P.
  assert (G : 0 < low_gap m e) by (unfold low_gap; destruct (_ && _)%bool; reflexivity).
  split; [nra|]. split; [nra|]. intros [H|H]; exfalso; nra.
Qed.

(** Intervals are convex. *)
Lemma near_between m e x y z :
  near_f m e x -> near_f m e z -> x <= y -> y <= z -> near_f m e y.
Proof.
  intros (X1 & X2 & X3) (Z1 & Z2 & Z3) Hxy Hyz. split; [lra|]. split; [lra|].
  intros [E|E].
  - apply X3. left. lra.
  - apply Z3. right. lra.
Qed.

Lemma f64_of_dec_near neg q x m e :
  (0 < q)%N -> f64_ok (FFin neg m e) -> near_f m e (qn q * b10 x) ->
  f64_of_dec neg q x = FFin neg m e.
Proof.
  intros Hq Hok Hn. unfold f64_of_dec. pose proof (dec_frac_repr q x) as Hr.
  destruct (dec_frac q x) as [n d]. cbn [fst snd] in Hr.
  eapply near_round; eauto.
  eapply repr_pos_inv; eauto. apply qn_pos in Hq. pose proof (b10_pos x). nra.
Qed.

Lemma f64_of_dec_inv neg q x neg' m e :
  (0 < q)%N -> f64_of_dec neg q x = FFin neg' m e ->
  neg' = neg /\ f64_ok (FFin neg m e) /\ near_f m e (qn q * b10 x).
Proof.
  intros Hq. unfold f64_of_dec. pose proof (dec_frac_repr q x) as Hr.
  destruct (dec_frac q x) as [n d]. cbn [fst snd] in Hr.
  apply (round_near neg n d); auto.
  eapply repr_pos_inv; eauto. apply qn_pos in Hq. pose proof (b10_pos x). nra.
Qed.

Lemma round_f64_ok neg n d : (0 < d)%N -> f64_ok (round_f64 neg n d).
Proof.
  intro Hd. destruct (N.eq_dec n 0) as [->|Hn].
  - cbn. repeat split; auto; lia.
  - destruct (round_f64 neg n d) as [| |neg' m e] eqn:E; cbn [f64_ok]; auto.
    assert (Hx : repr n d (qn n / qn d)).
    { split; auto. apply qn_pos in Hd. field. lra. }
    apply (round_near _ _ _ _ _ _ _ Hx) in E; [|lia]. destruct E as (_ & E & _). exact E.
Qed.

Lemma dec_frac_pos q x : (0 < snd (dec_frac q x))%N.
Proof. apply (dec_frac_repr q x). Qed.

Lemma f64_of_dec_ok neg q x : f64_ok (f64_of_dec neg q x).
Proof.
  unfold f64_of_dec. pose proof (dec_frac_pos q x). destruct (dec_frac q x).
  now apply round_f64_ok.
Qed.

(** ** The rounded number is the nearest one *)

Lemma b2_multiple e e2 m2 : (e <= e2)%Z -> exists M, qn m2 * b2 e2 == qn M * b2 e.
Proof.
  intro H. exists (m2 * 2 ^ Z.to_N (e2 - e))%N. rewrite qn_mul, qn_pow2_N.
  rewrite Z2N.id by lia. rewrite <- Qmult_assoc, <- b2_plus.
  replace (e2 - e + e)%Z with e2 by lia. reflexivity.
Qed.

Lemma qn_step a b c v w : 0 < c -> v == qn a * c -> w == qn b * c -> v < w -> v + c <= w.
Proof.
  intros Hc -> -> H. apply Qmult_lt_r in H; auto. apply qn_lt in H.
  assert (E : qn a + 1 <= qn b).
  { change 1 with (qn 1). rewrite <- qn_add. apply qn_le. lia. }
  nra.
Qed.

Lemma below_power neg m e e2 :
  f64_ok (FFin neg m e) -> (e < e2)%Z -> qn m * b2 e < 4503599627370496 * b2 e2.
Proof.
  intros (Hm & _ & _) He. apply qn_lt in Hm. rewrite q53 in Hm.
  assert (H : b2 (e + 1) <= b2 e2) by (apply b2_le; lia). rewrite b2_succ in H.
  pose proof (b2_pos e). nra.
Qed.

Lemma near_nearest neg m e neg2 m2 e2 x :
  f64_ok (FFin neg m e) -> f64_ok (FFin neg2 m2 e2) -> near_f m e x ->
  Qabs (qn m * b2 e - x) <= Qabs (qn m2 * b2 e2 - x).
Proof.
  intros Hok Hok2 (N1 & N2 & _). set (v := qn m * b2 e). set (w := qn m2 * b2 e2).
  pose proof (b2_pos e) as P.
  assert (Ev : (qn m + (1 # 2)) * b2 e == v + (1 # 2) * b2 e) by (unfold v; ring).
  assert (El : (qn m - low_gap m e) * b2 e == v - low_gap m e * b2 e) by (unfold v; ring).
  rewrite Ev in N2. rewrite El in N1. clear Ev El.
  destruct (Qlt_le_dec x v) as [Hxv|Hxv].
  - rewrite (Qabs_pos (v - x)) by lra.
    destruct (Qlt_le_dec w v) as [Hwv|Hwv]; [|rewrite Qabs_pos; lra].
    assert (G : w <= v - 2 * low_gap m e * b2 e).
    { unfold low_gap in *. destruct (N.eqb_spec m (2 ^ 52)) as [Em|Em];
        destruct (Z.ltb_spec (-1074) e) as [Le|Le]; cbn [andb] in *.
      - destruct (Z.le_gt_cases (e - 1) e2) as [C|C].
        + destruct (b2_multiple (e - 1) e2 m2 C) as [M HM]. fold w in HM.
          assert (E1 : b2 e == 2 * b2 (e - 1)).
          { rewrite <- b2_succ. replace (e - 1 + 1)%Z with e by lia. reflexivity. }
          assert (E2 : v == qn (2 * m) * b2 (e - 1)).
          { unfold v. rewrite E1, qn_mul. change (qn 2) with 2. ring. }
          pose proof (qn_step _ _ _ _ _ (b2_pos (e - 1)) HM E2 Hwv). lra.
        + pose proof (below_power _ _ _ (e - 1) Hok2 ltac:(lia)) as B. fold w in B.
          assert (E1 : b2 e == 2 * b2 (e - 1)).
          { rewrite <- b2_succ. replace (e - 1 + 1)%Z with e by lia. reflexivity. }
          unfold v. rewrite Em, q52, E1. pose proof (b2_pos (e - 1)). lra.
      - assert (He : e = (-1074)%Z) by (destruct Hok; lia).
        destruct (b2_multiple e e2 m2) as [M HM]; [destruct Hok2; lia|]. fold w in HM.
        pose proof (qn_step _ _ _ _ _ P HM (Qeq_refl v) Hwv). lra.
      - destruct (Z.le_gt_cases e e2) as [C|C].
        + destruct (b2_multiple e e2 m2 C) as [M HM]. fold w in HM.
          pose proof (qn_step _ _ _ _ _ P HM (Qeq_refl v) Hwv). lra.
        + pose proof (below_power _ _ _ e Hok2 ltac:(lia)) as B. fold w in B.
          destruct Hok as (_ & _ & [He|Hm]); [lia|].
          assert (Hm1 : (2 ^ 52 + 1 <= m)%N) by lia.
          apply qn_le in Hm1. rewrite qn_add, q52 in Hm1. change (qn 1) with 1 in Hm1.
          unfold v. nra.
      - assert (He : e = (-1074)%Z) by (destruct Hok; lia).
        destruct (b2_multiple e e2 m2) as [M HM]; [destruct Hok2; lia|]. fold w in HM.
        pose proof (qn_step _ _ _ _ _ P HM (Qeq_refl v) Hwv). lra. }
    assert (0 < low_gap m e) by (unfold low_gap; destruct (_ && _)%bool; reflexivity).
    assert (0 <= low_gap m e * b2 e) by nra.
    rewrite Qabs_neg by lra. lra.
  - rewrite (Qabs_neg (v - x)) by lra.
    destruct (Qlt_le_dec v w) as [Hwv|Hwv]; [|rewrite Qabs_neg; lra].
    assert (G : v + b2 e <= w).
    { destruct (Z.le_gt_cases e e2) as [C|C].
      - destruct (b2_multiple e e2 m2 C) as [M HM]. fold w in HM.
        pose proof (qn_step _ _ _ _ _ P (Qeq_refl v) HM Hwv). lra.
      - exfalso. pose proof (below_power _ _ _ e Hok2 ltac:(lia)) as B. fold w in B.
        destruct Hok as (_ & _ & [He|Hm]); [destruct Hok2; lia|].
        assert (Hm1 : (2 ^ 52 <= m)%N) by lia.
        apply qn_le in Hm1. rewrite q52 in Hm1. unfold v in Hwv. nra. }
    rewrite Qabs_pos by lra. lra.
Qed.
