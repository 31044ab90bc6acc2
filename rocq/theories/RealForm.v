(** The plain form of printed reals (Float.v): sign, integer, point, fraction without
    superfluous zeros, and as few digits as possible. *)

From Coq Require Import String Ascii List NArith ZArith Bool Lia Arith.
From Coq Require Import QArith Qpower Qabs Lqa.
From Coq Require Import ZifyBool ZifyNat ZifyN.
From Verif Require Import Base BaseFacts Spec Prims PrimsFacts Float RoundFacts FloatFacts.
Import ListNotations.
Open Scope N_scope.

(** ** The form *)

(** The number is an integer. *)
Definition whole (m : N) (e : Z) : Prop := (0 <= e)%Z \/ N.divide (2 ^ Z.to_N (- e)) m.

Lemma strip_zeros_last s : strip_zeros s = [] \/ last (strip_zeros s) 0 <> 48.
Proof.
  induction s as [|c s IH]; [now left|]. cbn [strip_zeros]. destruct (strip_zeros s) as [|d r] eqn:E.
  - destruct (N.eqb_spec c 48); [now left|now right].
  - right. destruct IH as [H|H]; [discriminate|]. exact H.
Qed.

Definition tail_of (f : text) : text := match f with [] => [] | _ => lit "." ++ f end.

Lemma plain_shape q x : exists n f,
  plain_decimal q x = show_N n ++ tail_of f /\ forallb is_digit f = true /\ (f = [] \/ last f 0 <> 48).
Proof.
  destruct x as [|p|p]; cbn [plain_decimal].
  - exists q, []. rewrite app_nil_r. auto.
  - exists (q * 10 ^ N.pos p), []. rewrite app_nil_r. auto.
  - set (g := strip_zeros _). exists (q / 10 ^ N.pos p), g. split.
    + destruct g; [now rewrite app_nil_r|reflexivity].
    + split; [apply strip_zeros_digits, pad_digits|apply strip_zeros_last].
Qed.

Lemma digits_split i j f g :
  forallb is_digit i = true -> forallb is_digit j = true ->
  i ++ tail_of f = j ++ tail_of g -> i = j /\ f = g.
Proof.
  revert j. induction i as [|c i IH]; intros [|d j]; cbn [forallb app]; intros Hi Hj E.
  - destruct f, g; try discriminate; [auto|]. cbn in E. injection E as <- <-. auto.
  - exfalso. destruct f; [discriminate|]. cbn in E. injection E as <- _. discriminate.
  - exfalso. destruct g; [discriminate|]. cbn in E. injection E as -> _. discriminate.
  - apply andb_true_iff in Hi as [_ Hi]. apply andb_true_iff in Hj as [_ Hj]. injection E as <- E.
    destruct (IH j Hi Hj E) as [-> ->]. auto.
Qed.

Lemma plain_parts q x : exists n f,
  plain_decimal q x = show_N n ++ tail_of f /\ forallb is_digit f = true /\ (f = [] \/ last f 0 <> 48) /\
  (qn (digits_value (show_N n ++ f)) * b10 (- Z.of_nat (length f)) == qn q * b10 x)%Q /\
  ((0 <= x)%Z -> f = []).
Proof.
  destruct (plain_shape q x) as (n & f & E & Hf & Hl).
  destruct (plain_decimal_cases q x) as (i & g & _ & Hi & Hg & E' & Hv & Hx).
  change (plain_decimal q x = i ++ tail_of g) in E'. rewrite E in E'.
  apply digits_split in E' as [<- <-]; auto using show_N_digits. exists n, f. auto.
Qed.

(** A number that rounds to a float with binary places, and is an integer, is the float. *)
Lemma integer_near m p v : near_f m (Z.neg p) (qn v) -> m = v * 2 ^ N.pos p.
Proof.
  intros (H1 & H2 & _).
  assert (G : (low_gap m (Z.neg p) <= 1 # 2)%Q) by (unfold low_gap; destruct (_ && _)%bool; discriminate).
  pose proof (b2_pos (Z.neg p)) as P. pose proof (b2_pos (Z.pos p)) as P'.
  pose proof (b2_neg (Z.pos p)) as Hn. change (- Z.pos p)%Z with (Z.neg p) in Hn.
  assert (Ev : (qn v == qn (v * 2 ^ N.pos p) * b2 (Z.neg p))%Q).
  { rewrite qn_mul, qn_pow2. rewrite <- Qmult_assoc, (Qmult_comm (b2 (Z.pos p))), Hn. ring. }
  set (w := v * 2 ^ N.pos p) in *. rewrite Ev in H1, H2.
  assert (A : (qn m - low_gap m (Z.neg p) <= qn w)%Q) by (apply Qmult_le_r with (b2 (Z.neg p)); auto).
  assert (B : (qn w <= qn m + (1 # 2))%Q) by (apply Qmult_le_r with (b2 (Z.neg p)); auto).
  apply N.le_antisymm; apply N.lt_succ_r, qn_lt; rewrite <- N.add_1_r, qn_add; change (qn 1) with 1%Q; lra.
Qed.

Lemma whole_fract neg m e : f64_ok (FFin neg m e) -> (whole m e <-> is_zero (fract (FFin neg m e)) = true).
Proof.
  intro Hok. unfold whole. destruct e as [|p|p].
  - split; [reflexivity|left; lia].
  - split; [reflexivity|left; lia].
  - change (Z.to_N (- Z.neg p)) with (N.pos p). assert (W : 2 ^ N.pos p <> 0) by (apply N.pow_nonzero; discriminate). split.
    + intros [H|H]; [lia|]. cbn [fract]. apply N.mod_divide in H; auto. now rewrite H.
    + intro H. right. destruct (N.eq_dec m 0) as [->|Hm]; [apply N.divide_0_r|].
      destruct (fract_zero_integer neg m (Z.neg p) H ltac:(lia) Hok) as (v & Hv).
      exists v. apply integer_near. eapply near_f_eq; [exact Hv|]. apply near_self.
Qed.

(** What is printed, with the decimal it stands for. *)
Lemma plain_text neg m e : 0 < m -> f64_ok (FFin neg m e) -> is_scientific (FFin neg m e) = false ->
  exists n f, d_real (FFin neg m e) = minus neg ++ show_N n ++ lit "." ++ f /\ forallb is_digit f = true /\
    (f = [] \/ last f 0 <> 48) /\ (f = [] <-> whole m e) /\
    (qn (digits_value (show_N n ++ f)) * b10 (- Z.of_nat (length f)) ==
     qn (fst (shortest m e)) * b10 (snd (shortest m e)))%Q.
Proof.
  intros Hm Hok Hs. unfold d_real. rewrite Hs. cbn [show_f64].
  destruct (N.eqb_spec m 0) as [E|_]; [lia|].
  pose proof (shortest_reads_back neg m e Hm Hok) as [Hq Hn].
  pose proof (fun V => shortest_integer neg m e V Hm Hok) as Hi.
  destruct (shortest m e) as [q x]. cbn [fst snd] in *.
  destruct (plain_parts q x) as (n & f & -> & Hf & Hl & Hv & Hx).
  assert (W : f = [] <-> whole m e).
  { split.
    - intros ->. unfold whole. destruct (Z.le_gt_cases 0 e) as [He|He]; [now left|]. right.
      destruct e as [|p|p]; try lia. change (Z.to_N (- Z.neg p)) with (N.pos p).
      exists (digits_value (show_N n ++ [])). apply integer_near. eapply near_f_eq; [|exact Hn].
      rewrite <- Hv. change (b10 (- Z.of_nat (length (@nil N)))) with 1%Q. ring.
    - intro W. apply Hx. apply (whole_fract neg m e Hok) in W.
      destruct (fract_zero_integer neg m e W Hm Hok) as (V & HV). exact (Hi V HV). }
  exists n, f. split; [|auto]. rewrite <- app_assoc. f_equal. rewrite <- app_assoc. f_equal.
  destruct f as [|c f].
  - rewrite (proj1 (whole_fract neg m e Hok) (proj1 W eq_refl)). reflexivity.
  - destruct (is_zero (fract (FFin neg m e))) eqn:E; [|now rewrite app_nil_r].
    apply (whole_fract neg m e Hok) in E. apply W in E. discriminate.
Qed.

Lemma zero_text neg e : f64_ok (FFin neg 0 e) -> d_real (FFin neg 0 e) = minus neg ++ show_N 0 ++ lit "." ++ [] /\ whole 0 e.
Proof.
  intro Hok. assert (W : whole 0 e) by (right; apply N.divide_0_r). split; auto.
  assert (Z : fract (FFin neg 0 e) = FFin false 0 (-1074)).
  { destruct e as [|p|p]; reflexivity. }
  unfold d_real, is_scientific. rewrite Z. cbn. destruct neg; reflexivity.
Qed.

Lemma plain_form neg m e : f64_ok (FFin neg m e) -> is_scientific (FFin neg m e) = false ->
  exists n i f, d_real (FFin neg m e) = minus neg ++ i ++ lit "." ++ f /\ decimal n i /\
    Forall (fun c => 48 <= c <= 57) f /\ (f = [] \/ last f 0 <> 48) /\ (f = [] <-> whole m e).
Proof.
  intros Hok Hs. destruct (N.eq_dec m 0) as [->|Hm].
  - destruct (zero_text neg e Hok) as [-> W]. exists 0, (show_N 0), []. split; [reflexivity|].
    split; [apply show_N_decimal|]. split; [constructor|]. split; [now left|]. split; auto.
  - destruct (plain_text neg m e ltac:(lia) Hok Hs) as (n & f & -> & Hf & Hl & W & _).
    exists n, (show_N n), f. split; [reflexivity|]. split; [apply show_N_decimal|]. split; [|auto].
    apply Forall_forall. intros c Hc. rewrite forallb_forall in Hf. specialize (Hf c Hc).
    unfold is_digit in Hf. lia.
Qed.

(** ** Fewest digits *)

Lemma near_between m e y z :
  near_f m e y -> (y <= z <= qn m * b2 e \/ qn m * b2 e <= z <= y)%Q -> near_f m e z.
Proof.
  intros (H1 & H2 & H3) H. pose proof (b2_pos e) as P.
  assert (G : (0 < low_gap m e)%Q) by (unfold low_gap; destruct (_ && _)%bool; reflexivity).
  split; [|split].
  - destruct H; nra.
  - destruct H; nra.
  - intros [E|E]; apply H3; destruct H as [[A B]|[A B]].
    + left. apply Qle_antisym; auto. lra.
    + exfalso. nra.
    + exfalso. nra.
    + right. apply Qle_antisym; auto. lra.
Qed.

Lemma fewer_digits m e k nd q' x' :
  0 < m -> f64_ok (FFin false m e) -> (b10 k <= qn m * b2 e)%Q -> (1 <= nd)%nat ->
  0 < q' -> q' < 10 ^ N.of_nat nd -> near_f m e (qn q' * b10 x') -> try_digits m e k nd <> None.
Proof.
  intros Hm Hok K1 Hnd Hq Hq' Hn HN.
  destruct (try_digits_neighbours m e k nd Hm) as (q & y & Y1 & Y2 & Y3 & Y4).
  destruct (Y4 HN) as [N1 N2]. clear Y4 HN. set (v := (qn m * b2 e)%Q) in *.
  set (s := (Z.of_nat nd - 1 - k)%Z) in *. set (t := (k + 1 - Z.of_nat nd)%Z) in *.
  assert (Eu : (b10 s * b10 t == 1)%Q).
  { unfold s, t. replace (Z.of_nat nd - 1 - k)%Z with (- (k + 1 - Z.of_nat nd))%Z by lia. apply b10_neg. }
  set (u := b10 t) in *. assert (Pu : (0 < u)%Q) by apply b10_pos.
  assert (Hv : (v == y * u)%Q) by (rewrite Y3, <- Qmult_assoc, Eu; ring).
  assert (Lo : (qn q * u <= v)%Q) by (rewrite Hv; nra).
  assert (Hi : (v <= (qn q + 1) * u)%Q) by (rewrite Hv; nra).
  assert (Ek : (b10 k == qn (10 ^ N.of_nat (nd - 1)) * u)%Q).
  { unfold u. rewrite qn_pow10_N, <- b10_plus. f_equiv. unfold t. lia. }
  assert (Q1 : 10 ^ N.of_nat (nd - 1) <= q).
  { apply N.lt_succ_r, qn_lt. rewrite <- N.add_1_r, qn_add. change (qn 1) with 1%Q.
    apply Qle_lt_trans with y; auto. apply Qmult_le_r with u; auto. rewrite <- Ek, <- Hv. auto. }
  assert (Q0 : 0 < q).
  { assert (0 < 10 ^ N.of_nat (nd - 1)); [|lia]. apply N.neq_0_lt_0, N.pow_nonzero. discriminate. }
  set (Y := (qn q' * b10 x')%Q) in *.
  assert (NoLo : near_f m e (qn q * u) -> False).
  { intro H. apply (near_same_mag m e q t Q0 Hok) in H. congruence. }
  assert (NoHi : near_f m e ((qn q + 1) * u) -> False).
  { intro H. assert (H' : near_f m e (qn (q + 1) * b10 t)).
    { eapply near_f_eq; [|exact H]. rewrite qn_add. reflexivity. }
    apply (near_same_mag m e (q + 1) t ltac:(lia) Hok) in H'. congruence. }
  destruct (Qlt_le_dec Y (b10 k)) as [L|L].
  - apply NoLo. apply (near_between m e Y); auto. left. split; [|exact Lo].
    apply qn_le in Q1. rewrite Ek in L. nra.
  - assert (Hx : (t <= x')%Z).
    { assert (B : (b10 k < b10 (Z.of_nat nd + x'))%Q).
      { apply Qle_lt_trans with Y; auto. unfold Y. rewrite b10_plus.
        apply Qmult_lt_r; [apply b10_pos|]. apply qn_lt in Hq'. rewrite qn_pow10_N in Hq'.
        now rewrite nat_N_Z in Hq'. }
      apply b10_lt_inv in B. unfold t. lia. }
    set (G := q' * 10 ^ Z.to_N (x' - t)).
    assert (EG : (Y == qn G * u)%Q).
    { unfold Y, G, u. rewrite qn_mul, qn_pow10_N, Z2N.id by lia. rewrite <- Qmult_assoc, <- b10_plus.
      replace (x' - t + t)%Z with x' by lia. reflexivity. }
    destruct (N.le_gt_cases G q) as [A|A].
    + apply NoLo. apply (near_between m e Y); auto. left. split; [|exact Lo].
      apply qn_le in A. rewrite EG. nra.
    + apply NoHi. apply (near_between m e Y); auto. right. split; [exact Hi|].
      assert (B : (qn q + 1 <= qn G)%Q).
      { change 1%Q with (qn 1). rewrite <- qn_add. apply qn_le. lia. }
      rewrite EG. nra.
Qed.

Lemma try_digits_bound m e k nd qx :
  0 < m -> (qn m * b2 e < b10 (k + 1))%Q -> try_digits m e k nd = Some qx -> fst qx <= 10 ^ N.of_nat nd.
Proof.
  intros Hm K2. unfold try_digits. cbv zeta. pose proof (mag_repr m e) as Hr.
  destruct (mag m e) as [n d]. cbn [fst snd] in Hr.
  pose proof (scale10_repr n d _ (Z.of_nat nd - 1 - k) Hr) as Hs.
  destruct (scale10 n d (Z.of_nat nd - 1 - k)) as [n' d']. cbn [fst snd] in Hs.
  assert (B : n' / d' < 10 ^ N.of_nat nd).
  { destruct Hs as [Hd Hs]. apply N.div_lt_upper_bound; [lia|]. apply qn_lt. rewrite Hs, qn_mul, qn_pow10_N.
    apply qn_pos in Hd. rewrite Qmult_comm. apply Qmult_lt_l; auto. rewrite nat_N_Z.
    apply Qlt_le_trans with (b10 (k + 1) * b10 (Z.of_nat nd - 1 - k))%Q.
    - apply Qmult_lt_r; auto. apply b10_pos.
    - rewrite <- b10_plus. replace (k + 1 + (Z.of_nat nd - 1 - k))%Z with (Z.of_nat nd) by lia. apply Qle_refl. }
  destruct (same_mag (f64_of_dec false (n' / d') _) m e);
  destruct (same_mag (f64_of_dec false (n' / d' + 1) _) m e); cbn [andb];
  try destruct (d' <=? 2 * (n' mod d')); intro H; try discriminate; injection H as <-; cbn [fst]; lia.
Qed.

(** A decimal of [nd] digits is not between the neighbours of the number at this scale. *)
Lemma beside k nd v q y q' x' :
  (b10 k <= v)%Q -> (1 <= nd)%nat -> (qn q <= y)%Q -> (y < qn q + 1)%Q -> (v == y * b10 (k + 1 - Z.of_nat nd))%Q ->
  q' < 10 ^ N.of_nat nd ->
  0 < q /\ (qn q' * b10 x' <= qn q * b10 (k + 1 - Z.of_nat nd) \/
            (qn q + 1) * b10 (k + 1 - Z.of_nat nd) <= qn q' * b10 x')%Q.
Proof.
  intros K1 Hnd Y1 Y2 Hv Hq'. set (t := (k + 1 - Z.of_nat nd)%Z) in *.
  set (u := b10 t) in *. assert (Pu : (0 < u)%Q) by apply b10_pos.
  assert (Ek : (b10 k == qn (10 ^ N.of_nat (nd - 1)) * u)%Q).
  { unfold u. rewrite qn_pow10_N, <- b10_plus. f_equiv. unfold t. lia. }
  assert (Q1 : 10 ^ N.of_nat (nd - 1) <= q).
  { apply N.lt_succ_r, qn_lt. rewrite <- N.add_1_r, qn_add. change (qn 1) with 1%Q.
    apply Qle_lt_trans with y; auto. apply Qmult_le_r with u; auto. rewrite <- Ek, <- Hv. auto. }
  split.
  { assert (0 < 10 ^ N.of_nat (nd - 1)); [|lia]. apply N.neq_0_lt_0, N.pow_nonzero. discriminate. }
  set (Y := (qn q' * b10 x')%Q) in *. destruct (Qlt_le_dec Y (b10 k)) as [L|L].
  - left. apply qn_le in Q1. rewrite Ek in L. nra.
  - assert (Hx : (t <= x')%Z).
    { assert (B : (b10 k < b10 (Z.of_nat nd + x'))%Q).
      { apply Qle_lt_trans with Y; auto. unfold Y. rewrite b10_plus.
        apply Qmult_lt_r; [apply b10_pos|]. apply qn_lt in Hq'. rewrite qn_pow10_N in Hq'.
        now rewrite nat_N_Z in Hq'. }
      apply b10_lt_inv in B. unfold t. lia. }
    set (G := q' * 10 ^ Z.to_N (x' - t)).
    assert (EG : (Y == qn G * u)%Q).
    { unfold Y, G, u. rewrite qn_mul, qn_pow10_N, Z2N.id by lia. rewrite <- Qmult_assoc, <- b10_plus.
      replace (x' - t + t)%Z with x' by lia. reflexivity. }
    destruct (N.le_gt_cases G q) as [A|A].
    + left. apply qn_le in A. rewrite EG. nra.
    + right. assert (B : (qn q + 1 <= qn G)%Q).
      { change 1%Q with (qn 1). rewrite <- qn_add. apply qn_le. lia. }
      rewrite EG. nra.
Qed.

(** Which of the neighbours is taken. *)
Lemma try_digits_choice m e k nd qx :
  0 < m -> f64_ok (FFin false m e) -> try_digits m e k nd = Some qx ->
  exists q y, (qn q <= y)%Q /\ (y < qn q + 1)%Q /\ (y == qn m * b2 e * b10 (Z.of_nat nd - 1 - k))%Q /\
    ((0 < q)%N -> near_f m e (qn q * b10 (k + 1 - Z.of_nat nd)) -> Qabs (qn (fst qx) - y) <= y - qn q)%Q /\
    (near_f m e (qn (q + 1) * b10 (k + 1 - Z.of_nat nd)) -> Qabs (qn (fst qx) - y) <= qn q + 1 - y)%Q.
Proof.
  intros Hm Hok. unfold try_digits. cbv zeta. pose proof (mag_repr m e) as Hr.
  destruct (mag m e) as [n d]. cbn [fst snd] in Hr.
  pose proof (scale10_repr n d _ (Z.of_nat nd - 1 - k) Hr) as Hs.
  destruct (scale10 n d (Z.of_nat nd - 1 - k)) as [n' d']. cbn [fst snd] in Hs. intro HS.
  exists (n' / d')%N, (qn m * b2 e * b10 (Z.of_nat nd - 1 - k))%Q.
  destruct Hs as [Hd Hs]. set (y := (qn m * b2 e * b10 (Z.of_nat nd - 1 - k))%Q) in *.
  pose proof (N.div_mod n' d' ltac:(lia)) as Hdm. pose proof (N.mod_lt n' d' ltac:(lia)) as Hlt.
  assert (Hq : (y * qn d' == qn d' * qn (n' / d') + qn (n' mod d'))%Q).
  { rewrite <- Hs. rewrite Hdm at 1. now rewrite qn_add, qn_mul. }
  replace (k + 1 - Z.of_nat nd)%Z with (- (Z.of_nat nd - 1 - k))%Z by lia.
  set (t := (- (Z.of_nat nd - 1 - k))%Z) in *. set (q := n' / d') in *. set (r := n' mod d') in *.
  apply qn_pos in Hd. pose proof Hlt as Hlt'. apply qn_lt in Hlt'. pose proof (qn_nonneg r).
  assert (A : (qn q <= y)%Q) by (apply Qmult_le_r with (qn d'); auto; lra).
  assert (B : (y < qn q + 1)%Q) by (apply Qmult_lt_r with (qn d'); auto; lra).
  assert (E1 : (qn (q + 1) == qn q + 1)%Q) by (rewrite qn_add; reflexivity).
  split; [exact A|]. split; [exact B|]. split; [reflexivity|].
  assert (Al : (Qabs (qn q - y) <= y - qn q)%Q) by (apply Qabs_case; lra).
  assert (Ah : (Qabs (qn (q + 1) - y) <= qn q + 1 - y)%Q) by (rewrite E1; apply Qabs_case; lra).
  destruct (same_mag (f64_of_dec false q t) m e) eqn:S1;
  destruct (same_mag (f64_of_dec false (q + 1) t) m e) eqn:S2; cbn [andb] in HS; try discriminate.
  - destruct (N.leb_spec d' (2 * r)) as [L|L]; injection HS as <-; cbn [fst].
    + split; [intros _ _|intros _; exact Ah]. apply qn_le in L. rewrite qn_mul in L. change (qn 2) with 2%Q in L.
      assert (C : (qn q + 1 - y <= y - qn q)%Q) by (apply Qmult_le_r with (qn d'); auto; lra). lra.
    + split; [intros _ _; exact Al|intros _]. apply qn_lt in L. rewrite qn_mul in L. change (qn 2) with 2%Q in L.
      assert (C : (y - qn q <= qn q + 1 - y)%Q) by (apply Qmult_le_r with (qn d'); auto; lra). lra.
  - injection HS as <-. cbn [fst]. split; [intros _ _; exact Al|]. intro N.
    apply (near_same_mag m e (q + 1) t ltac:(lia) Hok) in N. congruence.
  - injection HS as <-. cbn [fst]. split; [|intros _; exact Ah]. intros P N.
    apply (near_same_mag m e q t P Hok) in N. congruence.
Qed.

(** Among those of as many digits the shortest decimal is the closest. *)
Lemma shortest_closest neg m e nd q' x' :
  0 < m -> f64_ok (FFin neg m e) -> (1 <= nd)%nat -> 0 < q' -> q' < 10 ^ N.of_nat nd -> near_f m e (qn q' * b10 x') ->
  exists n x, (qn n * b10 x == qn (fst (shortest m e)) * b10 (snd (shortest m e)))%Q /\ n < 10 ^ N.of_nat nd /\
    ((n < 10 ^ N.of_nat (nd - 1))%N \/
     Qabs (qn n * b10 x - qn m * b2 e) <= Qabs (qn q' * b10 x' - qn m * b2 e))%Q.
Proof.
  intros Hm Hok Hnd Hq Hq' Hn. unfold shortest. pose proof (mag_repr m e) as Hr.
  destruct (mag m e) as [n d]. cbn [fst snd] in Hr.
  assert (Hn0 : 0 < n).
  { eapply repr_pos_inv; eauto. apply qn_pos in Hm. pose proof (b2_pos e). nra. }
  destruct (ilog10_spec n d _ Hr Hn0) as [K1 K2]. set (k := ilog10 n d) in *.
  assert (X : exists i, (1 + i <= nd)%nat /\ try_digits m e k (1 + i) = Some (shortest_from m e k 1 16)).
  { destruct (Nat.le_gt_cases nd 17) as [L|L].
    - destruct (shortest_from_spec m e k (nd - 1) 1 16 ltac:(lia)) as (i & Hi & H).
      + replace (1 + (nd - 1))%nat with nd by lia. exact (fewer_digits m e k nd q' x' Hm Hok K1 Hnd Hq Hq' Hn).
      + exists i. split; [lia|auto].
    - destruct (shortest_from_spec m e k 16 1 16 (le_n _)) as (i & Hi & H); [now apply seventeen|].
      exists i. split; [lia|auto]. }
  destruct X as (i & Hi & H). pose proof H as Hbd. apply try_digits_bound in Hbd; auto.
  pose proof H as Hch. apply try_digits_choice in Hch; auto. pose proof (try_digits_ok m e k _ _ Hm H) as [_ Hsnd].
  destruct (shortest_from m e k 1 16) as [q x]. cbn [fst snd] in *.
  assert (Far : (1 + i <= nd - 1)%nat \/ (1 + i)%nat = nd) by lia.
  assert (Close : (1 + i)%nat = nd -> (Qabs (qn q * b10 x - qn m * b2 e) <= Qabs (qn q' * b10 x' - qn m * b2 e))%Q).
  { intros E. rewrite E in *. destruct Hch as (q0 & y & Y1 & Y2 & Y3 & C1 & C2). subst x.
    set (t := (k + 1 - Z.of_nat nd)%Z) in *.
    assert (Eu : (b10 (Z.of_nat nd - 1 - k) * b10 t == 1)%Q).
    { unfold t. replace (Z.of_nat nd - 1 - k)%Z with (- (k + 1 - Z.of_nat nd))%Z by lia. apply b10_neg. }
    assert (Hv : (qn m * b2 e == y * b10 t)%Q) by (rewrite Y3, <- Qmult_assoc, Eu; ring).
    destruct (beside k nd (qn m * b2 e) q0 y q' x' K1 Hnd Y1 Y2 Hv Hq') as [P0 HB]. fold t in HB.
    pose proof (b10_pos t) as Pu.
    assert (EA : (Qabs (qn q * b10 t - qn m * b2 e) == Qabs (qn q - y) * b10 t)%Q).
    { rewrite Hv. transitivity (Qabs ((qn q - y) * b10 t)); [f_equiv; ring|].
      rewrite Qabs_Qmult, (Qabs_pos (b10 t)) by lra. reflexivity. }
    rewrite EA. destruct HB as [HB|HB].
    - assert (N1 : near_f m e (qn q0 * b10 t)).
      { apply (near_between m e (qn q' * b10 x')); auto. left. split; auto. rewrite Hv. nra. }
      specialize (C1 P0 N1).
      assert (EB : (qn m * b2 e - qn q' * b10 x' <= Qabs (qn q' * b10 x' - qn m * b2 e))%Q) by (apply Qabs_case; intros; lra).
      eapply Qle_trans; [|exact EB]. rewrite Hv. set (Y := (qn q' * b10 x')%Q) in *. nra.
    - assert (N2 : near_f m e (qn (q0 + 1) * b10 t)).
      { apply (near_between m e (qn q' * b10 x')); auto. right.
        rewrite qn_add. change (qn 1) with 1%Q. split; auto. rewrite Hv. nra. }
      specialize (C2 N2).
      assert (EB : (qn q' * b10 x' - qn m * b2 e <= Qabs (qn q' * b10 x' - qn m * b2 e))%Q) by (apply Qabs_case; intros; lra).
      eapply Qle_trans; [|exact EB]. rewrite Hv. set (Y := (qn q' * b10 x')%Q) in *. nra. }
  destruct (N.eq_dec q (10 ^ N.of_nat (1 + i))) as [E|E].
  - assert (EV : (qn 1 * b10 (x + Z.of_nat (1 + i)) == qn q * b10 x)%Q).
    { rewrite E, qn_pow10_N, nat_N_Z, b10_plus. change (qn 1) with 1%Q. ring. }
    exists 1, (x + Z.of_nat (1 + i))%Z. split; [exact EV|]. split.
    + apply N.lt_le_trans with (10 ^ 1); [reflexivity|]. apply N.pow_le_mono_r; lia.
    + destruct Far as [F|F].
      * left. apply N.lt_le_trans with (10 ^ 1); [reflexivity|]. apply N.pow_le_mono_r; lia.
      * right. rewrite EV. now apply Close.
  - exists q, x. split; [reflexivity|]. split.
    + apply N.lt_le_trans with (10 ^ N.of_nat (1 + i)); [lia|]. apply N.pow_le_mono_r; lia.
    + destruct Far as [F|F].
      * left. apply N.lt_le_trans with (10 ^ N.of_nat (1 + i)); [lia|]. apply N.pow_le_mono_r; lia.
      * right. now apply Close.
Qed.

Lemma digits_below ds : forallb is_digit ds = true -> digits_value ds < 10 ^ N.of_nat (length ds).
Proof.
  induction ds as [|c ds IH] using rev_ind; [reflexivity|]. rewrite forallb_app, andb_true_iff. intros [H1 H2].
  rewrite digits_value_app, app_length. cbn [length]. change (10 ^ N.of_nat 1) with 10.
  rewrite Nat.add_1_r, Nat2N.inj_succ, N.pow_succ_r'. specialize (IH H1).
  cbn [forallb] in H2. unfold is_digit in H2.
  assert (E : digits_value [c] = c - 48) by (unfold digits_value; cbn [digits_value_acc]; lia).
  rewrite E. lia.
Qed.

Lemma plain_fewest neg m e n i f : f64_ok (FFin neg m e) -> is_scientific (FFin neg m e) = false ->
  d_real (FFin neg m e) = minus neg ++ i ++ lit "." ++ f -> decimal n i ->
  forall i' f' z, i' <> [] -> Forall (fun c => 48 <= c <= 57) (i' ++ f') ->
  p_real (minus neg ++ i' ++ lit "." ++ f' ++ lit "E" ++ show_Z z) = ROk (FFin neg m e) [] ->
  exists q x, (qn q * b10 x == qn (digits_value (i ++ f)) * b10 (- Z.of_nat (length f)))%Q /\
    q < 10 ^ N.of_nat (length (i' ++ f')) /\
    ((q < 10 ^ N.of_nat (length (i' ++ f') - 1))%N \/
     Qabs (qn q * b10 x - qn m * b2 e) <=
     Qabs (qn (digits_value (i' ++ f')) * b10 (z - Z.of_nat (length f')) - qn m * b2 e))%Q.
Proof.
  intros Hok Hs Ht Hi i' f' z Hne Hd Hp.
  assert (Hd' : forallb is_digit (i' ++ f') = true).
  { apply forallb_forall. intros c Hc. rewrite Forall_forall in Hd. specialize (Hd c Hc). unfold is_digit. lia. }
  rewrite forallb_app in Hd'. apply andb_true_iff in Hd' as [Hi' Hf'].
  assert (Hlen : (1 <= length (i' ++ f'))%nat) by (rewrite app_length; destruct i'; [easy|cbn; lia]).
  assert (Hii : forallb is_digit i = true).
  { apply forallb_forall. intros c Hc. apply decimal_digits in Hi. rewrite Forall_forall in Hi.
    specialize (Hi c Hc). unfold is_digit. lia. }
  assert (U : forall j g g', forallb is_digit j = true -> i ++ lit "." ++ g = j ++ lit "." ++ g' -> i = j /\ g = g').
  { clear -Hii. induction i as [|c i IH]; intros [|d j] g g' Hj E; cbn [forallb] in *.
    - cbn in E. injection E as <-. auto.
    - exfalso. cbn in E. injection E as <- _. discriminate.
    - exfalso. cbn in E. injection E as -> _. discriminate.
    - apply andb_true_iff in Hii as [_ Hii]. apply andb_true_iff in Hj as [_ Hj].
      cbn [app] in E. injection E as <- E. destruct (IH Hii j g g' Hj E) as [-> ->]. auto. }
  destruct (N.eq_dec m 0) as [->|Hm].
  - destruct (zero_text neg e Hok) as [E _]. rewrite E in Ht. apply app_inv_head in Ht. symmetry in Ht.
    apply U in Ht as [-> ->]; [|reflexivity]. exists 0, 0%Z. split; [reflexivity|].
    split; [|left]; apply N.neq_0_lt_0, N.pow_nonzero; discriminate.
  - assert (Hm0 : 0 < m) by lia.
    destruct (plain_text neg m e Hm0 Hok Hs) as (n' & f0 & E & _ & _ & _ & Hv). rewrite E in Ht.
    apply app_inv_head in Ht. symmetry in Ht. apply U in Ht as [-> ->]; auto using show_N_digits.
    assert (R : f64_of_dec neg (digits_value (i' ++ f')) (z - Z.of_nat (length f')) = FFin neg m e).
    { pose proof (p_real_decimal _ _ _ (p_decimal_sci neg i' f' z [] Hne Hi' Hf' I)) as Hr.
      rewrite app_nil_r in Hr. rewrite Hr in Hp. now injection Hp. }
    assert (Hq : 0 < digits_value (i' ++ f')).
    { destruct (N.eq_dec (digits_value (i' ++ f')) 0) as [Z|]; [|lia]. exfalso. rewrite Z in R.
      unfold f64_of_dec in R. destruct (z - _)%Z; cbn [dec_frac] in R; try rewrite N.mul_0_l in R; cbn in R; congruence. }
    apply f64_of_dec_inv in R as (_ & _ & R); auto.
    destruct (shortest_closest neg m e (length (i' ++ f')) _ _ Hm0 Hok Hlen Hq
                (digits_below _ ltac:(rewrite forallb_app, Hi', Hf'; reflexivity)) R) as (q & x & Hqx & Hb & Hc).
    exists q, x. split; [|auto]. now rewrite Hv.
Qed.
