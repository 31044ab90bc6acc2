(** A number is rounded to one number only, hence a text spells one real only. *)

From Coq Require Import String Ascii List NArith ZArith Bool Lia.
From Coq Require Import QArith Qpower Qabs Lqa.
From Coq Require Import ZifyBool ZifyNat ZifyN.
From Verif Require Import Base Prims BaseFacts Float RoundFacts FloatFacts Arith ArithSpec ArithRound ArithSpecial SpellSpec SpellFacts GramSpec GramFacts.
Import ListNotations.
Open Scope Q_scope.

Lemma magnitude_eq m e m' e' : f64_ok (FFin false m e) -> f64_ok (FFin false m' e') ->
  qn m * b2 e == qn m' * b2 e' -> m = m' /\ e = e'.
Proof.
  intros (A1 & A2 & A3) (B1 & B2 & B3) H.
  assert (W : forall m e m' e', (e < e')%Z -> (-1074 <= e)%Z -> (m < 2 ^ 53)%N -> (e' = -1074 \/ 2 ^ 52 <= Z.of_N m')%Z ->
                qn m * b2 e == qn m' * b2 e' -> False).
  { clear. intros m e m' e' L Le Hm Hm' H. destruct Hm' as [Hm'|Hm']; [lia|].
    assert (K : (2 ^ 52 <= m')%N) by lia. apply qn_lt in Hm. apply qn_le in K.
    rewrite qn_pow2_N in Hm, K. pose proof (b2_pos e) as P. pose proof (b2_pos e') as P'. pose proof (b2_le (e + 1) e' ltac:(lia)) as G.
    rewrite b2_succ in G. assert (Q1 : qn m * b2 e < b2 (Z.of_N 53) * b2 e) by nra.
    assert (Q2 : b2 (Z.of_N 52) * b2 e' <= qn m' * b2 e') by nra.
    change (Z.of_N 53) with (Z.of_N 52 + 1)%Z in Q1. rewrite b2_succ in Q1. pose proof (b2_pos (Z.of_N 52)). nra. }
  destruct (Z_lt_ge_dec e e') as [L|L]; [exfalso; eapply (W m e m' e'); eauto; lia|].
  destruct (Z_lt_ge_dec e' e) as [L'|L']; [exfalso; eapply (W m' e' m e); eauto; [lia|now symmetry]|].
  assert (e = e') by lia. subst e'. split; auto. apply qn_inj. pose proof (b2_pos e). nra.
Qed.

(** The number after one with an even mantissa has an odd one. *)
Lemma above_even m e m' e' : f64_ok (FFin false m e) -> f64_ok (FFin false m' e') ->
  N.even m = true -> N.even m' = true -> qn m * b2 e < qn m' * b2 e' ->
  f64_ok (FFin false (m + 1) e) /\ qn m * b2 e < qn (m + 1) * b2 e /\ qn (m + 1) * b2 e < qn m' * b2 e'.
Proof.
  intros A B Ev Ev' H. pose proof (above _ _ _ _ A B H) as U. pose proof (b2_pos e) as P.
  assert (A' : f64_ok (FFin false (m + 1) e)).
  { destruct A as (A1 & A2 & A3). apply N.even_spec in Ev as [k ->]. split; [|split; auto; lia].
    change (2 ^ 53)%N with (2 * 2 ^ 52)%N in *. lia. }
  split; auto. split; [rewrite qn_add; change (qn 1) with 1; nra|]. rewrite qn_add at 1. change (qn 1) with 1.
  apply Qle_lteq in U as [U|U]; auto. exfalso.
  assert (E : qn (m + 1) * b2 e == qn m' * b2 e') by (rewrite qn_add; exact U).
  apply magnitude_eq in E as [E _]; auto. subst m'. rewrite N.even_add, Ev in Ev'. discriminate.
Qed.

Lemma finite_sign s m e : finite (FFin s m e) -> f64_ok (FFin false m e). Proof. auto. Qed.

Lemma closer x a b c : a < c -> c < b -> Qabs (x - a) == Qabs (x - b) -> Qabs (x - c) < Qabs (x - a).
Proof.
  intros H1 H2. apply (Qabs_case (x - a)); apply (Qabs_case (x - b)); apply (Qabs_case (x - c)); intros; lra.
Qed.

Lemma nearest_unique x d d' : nearest x d -> nearest x d' -> negative d = negative d' -> d = d'.
Proof.
  intros (F & N & T) (F' & N' & T') S. destruct d as [|s|s m e]; try contradiction. destruct d' as [|s'|s' m' e']; try contradiction.
  cbn [negative] in S. subst s'.
  assert (Q : Qabs (x - fv (FFin s m e)) == Qabs (x - fv (FFin s m' e'))) by (apply Qle_antisym; auto).
  destruct (Qeq_dec (fv (FFin s m' e')) (fv (FFin s m e))) as [E|E].
  - rewrite !fv_eq in E. assert (M : qn m * b2 e == qn m' * b2 e') by (destruct s; cbn [sg] in E; lra).
    apply magnitude_eq in M as [-> ->]; auto.
  - specialize (T _ F' Q E). specialize (T' _ F (Qeq_sym _ _ Q) (fun H => E (Qeq_sym _ _ H))). cbn [even_mantissa] in T, T'.
    exfalso. destruct (Qlt_le_dec (qn m * b2 e) (qn m' * b2 e')) as [L|L].
    + destruct (above_even _ _ _ _ F F' T T' L) as (G & L1 & L2). specialize (N (FFin s (m + 1) e) G).
      rewrite !fv_eq in *. destruct s; cbn [sg] in *.
      * pose proof (closer x (-1 * (qn m' * b2 e')) (-1 * (qn m * b2 e)) (-1 * (qn (m + 1) * b2 e)) ltac:(lra) ltac:(lra) ltac:(now symmetry)). lra.
      * pose proof (closer x (1 * (qn m * b2 e)) (1 * (qn m' * b2 e')) (1 * (qn (m + 1) * b2 e)) ltac:(lra) ltac:(lra) ltac:(auto)). lra.
    + apply Qle_lteq in L as [L|L]; [|apply E; rewrite !fv_eq, L; reflexivity].
      destruct (above_even _ _ _ _ F' F T' T L) as (G & L1 & L2). specialize (N' (FFin s (m' + 1) e') G).
      rewrite !fv_eq in *. destruct s; cbn [sg] in *.
      * pose proof (closer x (-1 * (qn m * b2 e)) (-1 * (qn m' * b2 e')) (-1 * (qn (m' + 1) * b2 e')) ltac:(lra) ltac:(lra) ltac:(auto)). lra.
      * pose proof (closer x (1 * (qn m' * b2 e')) (1 * (qn m * b2 e)) (1 * (qn (m' + 1) * b2 e')) ltac:(lra) ltac:(lra) ltac:(now symmetry)). lra.
Qed.

Lemma rounded_unique x d d' : rounded x d -> rounded x d' -> negative d = negative d' -> d = d'.
Proof.
  intros [d1 L N _ _|s L _] [d2 L' N' _ _|s' L' _] S.
  - exact (nearest_unique x _ _ N N' S).
  - exfalso. lra.
  - exfalso. lra.
  - cbn [negative] in S. now subst.
Qed.

Lemma rounded_sign x d : ~ x == 0 -> rounded x d -> (negative d = true <-> x < 0).
Proof.
  intros Hx [d1 _ _ Hn Hp|s _ Hs]; [|exact Hs]. split; [|exact Hn]. intro E.
  destruct (Qlt_le_dec x 0) as [|L]; auto. assert (P : 0 < x) by (apply Qle_lteq in L as [L|L]; auto; exfalso; apply Hx; now symmetry).
  rewrite (Hp P) in E. discriminate.
Qed.

Lemma rounded_only x d d' : ~ x == 0 -> rounded x d -> rounded x d' -> d = d'.
Proof.
  intros Hx H H'. apply (rounded_unique x); auto. pose proof (rounded_sign x d Hx H) as S. pose proof (rounded_sign x d' Hx H') as S'.
  apply eq_true_iff_eq. rewrite S, S'. reflexivity.
Qed.

Lemma rounded_one x d d' : rounded x d -> rounded x d' -> (x == 0 -> negative d = negative d') -> d = d'.
Proof.
  intros H H' S. destruct (Qeq_dec x 0) as [E|E]; [exact (rounded_unique x d d' H H' (S E))|exact (rounded_only x d d' E H H')].
Qed.

(** Every spelling of a real is read as it. *)
Lemma real_text_reads w d rest : real_text d w -> stop rest -> p_real (w ++ rest) = ROk d rest.
Proof.
  intros W Hr. destruct W as [neg s i f m x e d0 Hs Hm He R S|w' Hw|neg s w' Hs Hw].
  - pose proof (f64_of_dec_rounded neg (digits_value (i ++ f)) (x - Z.of_nat (length f))) as [R' S']. rewrite number_value in R.
    rewrite (rounded_unique _ _ _ R R') by congruence.
    apply p_real_decimal. rewrite <- !app_assoc. unfold p_decimal, bind at 1.
    rewrite (p_sign_form neg) by (auto; eapply point_head; eauto). unfold bind at 1.
    rewrite (p_mantissa_form i f m x) by auto. unfold bind. now rewrite (p_exponent_form x).
  - assert (Hf : real_form w') by now apply rf_nan.
    apply real_form_reads in Hf as (d1 & _ & _ & H). specialize (H rest Hr). rewrite H. f_equal.
    unfold word in Hw. change (lit "nan") with [110; 97; 110]%N in Hw.
    inversion Hw as [|c ? l ? Hc Hl]; subst. unfold p_real, alt in H. cbn [app] in H.
    assert (E0 : p_decimal (c :: l ++ rest) = RBack) by (apply (p_decimal_word false []); [constructor|lia]). rewrite E0 in H.
    unfold pmap in H. change (c :: l ++ rest) with ((c :: l) ++ rest) in H. rewrite (caseless_form (lit "nan")) in H; auto; [now injection H|]. cbn; lia.
  - assert (Hf : real_form (s ++ w')) by (eapply rf_inf; eauto).
    apply real_form_reads in Hf as (d1 & _ & _ & H). specialize (H rest Hr). rewrite H. f_equal.
    assert (Hh : exists c l, w' = c :: l /\ (c = 105 \/ c + 32 = 105 /\ 97 <= 105 <= 122)%N).
    { unfold word in Hw. change (lit "inf") with [105; 110; 102]%N in Hw. change (lit "infinity") with [105; 110; 102; 105; 110; 105; 116; 121]%N in Hw.
      destruct Hw as [Hw|Hw]; inversion Hw; subst; eauto. }
    destruct Hh as (c & l & -> & Hc).
    assert (Hlow : to_lower c = 105%N) by (unfold to_lower; destruct ((65 <=? c) && (c <=? 90))%N eqn:E; lia).
    rewrite <- app_assoc in H. cbn [app] in H. unfold p_real, alt in H.
    rewrite (p_decimal_word neg) in H by (auto; lia). unfold pmap in H. rewrite (p_nan_sign neg) in H by (auto; lia).
    unfold bind at 1 in H. rewrite (p_sign_form neg) in H by (assumption || (unfold is_sign; lia)).
    unfold bind at 1 in H. destruct (tag_caseless (lit "infinity") (c :: l ++ rest)) eqn:E; cbv beta iota in H.
    + unfold ret in H. now injection H.
    + unfold bind at 1 in H. rewrite (p_sign_form neg) in H by (assumption || (unfold is_sign; lia)).
      unfold bind in H. destruct (tag_caseless (lit "inf") (c :: l ++ rest)); cbv beta iota in H; try discriminate. unfold ret in H. now injection H.
    + discriminate.
    + discriminate.
Qed.

Lemma real_iff w d : p_real w = ROk d [] <-> real_text d w.
Proof.
  split; intro H.
  - apply p_real_text in H as (w' & -> & H). now rewrite app_nil_r.
  - rewrite <- (app_nil_r w). apply real_text_reads; auto. reflexivity.
Qed.

Lemma real_text_unique w d d' : real_text d w -> real_text d' w -> d = d'.
Proof. intros H H'. apply real_iff in H, H'. congruence. Qed.
