(** The operations at infinities, zeros and what is not a number. *)

From Coq Require Import List NArith ZArith Bool Lia.
From Coq Require Import QArith Qpower Qabs Lqa.
From Verif Require Import Float RoundFacts Arith ArithSpec ArithRound.
Import ListNotations.
Open Scope Q_scope.

Lemma rounded_number x d : rounded x d -> d <> FNan.
Proof. intros [d' _ (F & _) _ _|s _ _]; [|discriminate]. intros ->. exact F. Qed.

Lemma ok_finite s m e : f64_ok (FFin s m e) -> finite (FFin s m e).
Proof. exact (fun H => H). Qed.

Lemma zero_mantissa s m e : fv (FFin s m e) == 0 <-> m = 0%N.
Proof.
  rewrite fv_eq. unfold sg, qn. pose proof (b2_pos e) as P.
  destruct m as [|p]; [split; [reflexivity|]; intros _; change (Z.of_N 0) with 0%Z; destruct s; ring|].
  split; [|discriminate]. intro H. exfalso.
  assert (Q1 : 0 < inject_Z (Z.of_N (N.pos p))) by (unfold Qlt; cbn; lia).
  destruct s; nra.
Qed.

Lemma add_nan a b : f64_ok a -> f64_ok b ->
  fadd a b = FNan <-> a = FNan \/ b = FNan \/ exists s, a = FInf s /\ b = FInf (negb s).
Proof.
  intros Ha Hb. destruct a as [|s|s m e], b as [|t|t m' e'].
  1-3,4,7: split; [auto|reflexivity].
  - cbn [fadd]. destruct s, t; cbn [Bool.eqb]; split; try discriminate; eauto 6;
      intros [H|[H|(u & A & B)]]; try discriminate; destruct u; discriminate.
  - split; [discriminate|]. intros [H|[H|(u & A & B)]]; discriminate.
  - split; [discriminate|]. intros [H|[H|(u & A & B)]]; discriminate.
  - split; [|intros [H|[H|(u & A & B)]]; discriminate]. intro H. exfalso.
    exact (rounded_number _ _ (fadd_rounded _ _ (ok_finite _ _ _ Ha) (ok_finite _ _ _ Hb)) H).
Qed.

Lemma add_inf s b : b <> FNan -> b <> FInf (negb s) -> fadd (FInf s) b = FInf s /\ fadd b (FInf s) = FInf s.
Proof.
  intros H1 H2. destruct b as [|t|t m e]; [congruence| |split; reflexivity].
  destruct s, t; cbn in *; try (split; reflexivity); congruence.
Qed.

Lemma mul_nan a b : f64_ok a -> f64_ok b ->
  fmul a b = FNan <->
  a = FNan \/ b = FNan \/
  (exists s, a = FInf s /\ finite b /\ fv b == 0) \/ (exists s, b = FInf s /\ finite a /\ fv a == 0).
Proof.
  intros Ha Hb. destruct a as [|s|s m e], b as [|t|t m' e'].
  1-3,4,7: split; [auto|reflexivity].
  - split; [discriminate|]. intros [H|[H|[(u & A & F & _)|(u & A & F & _)]]]; try discriminate; contradiction.
  - cbn [fmul]. destruct (N.eqb_spec m' 0) as [->|Z].
    + split; [intros _|reflexivity]. right. right. left. exists s. split; [reflexivity|]. split; [exact Hb|].
      now apply zero_mantissa.
    + split; [discriminate|]. intros [H|[H|[(u & A & F & Q)|(u & A & F & Q)]]]; try discriminate.
      now apply zero_mantissa in Q.
  - cbn [fmul]. destruct (N.eqb_spec m 0) as [->|Z].
    + split; [intros _|reflexivity]. right. right. right. exists t. split; [reflexivity|]. split; [exact Ha|].
      now apply zero_mantissa.
    + split; [discriminate|]. intros [H|[H|[(u & A & F & Q)|(u & A & F & Q)]]]; try discriminate.
      now apply zero_mantissa in Q.
  - split; [|intros [H|[H|[(u & A & F & Q)|(u & A & F & Q)]]]; discriminate]. intro H. exfalso.
    exact (rounded_number _ _ (fmul_rounded _ _ (ok_finite _ _ _ Ha) (ok_finite _ _ _ Hb)) H).
Qed.

Lemma mul_inf s b : b <> FNan -> ~ (finite b /\ fv b == 0) -> f64_ok b ->
  fmul (FInf s) b = FInf (xorb s (negative b)) /\ fmul b (FInf s) = FInf (xorb s (negative b)).
Proof.
  intros H1 H2 H3. destruct b as [|t|t m e]; [congruence|cbn; rewrite (xorb_comm t s); auto|].
  cbn [fmul negative]. destruct (N.eqb_spec m 0) as [->|Z].
  - destruct H2. split; [exact H3|]. now apply zero_mantissa.
  - now rewrite (xorb_comm t s).
Qed.

Lemma div_nan a b : f64_ok a -> f64_ok b ->
  fdiv a b = FNan <->
  a = FNan \/ b = FNan \/
  (exists s t, a = FInf s /\ b = FInf t) \/ (finite a /\ fv a == 0 /\ finite b /\ fv b == 0).
Proof.
  intros Ha Hb. destruct a as [|s|s m e], b as [|t|t m' e'].
  1-3,4,7: split; [auto|reflexivity].
  - split; [eauto 8|reflexivity].
  - split; [discriminate|]. intros [H|[H|[(u & w & A & F)|(F & _)]]]; try discriminate; contradiction.
  - split; [discriminate|]. intros [H|[H|[(u & w & A & F)|(F & _ & G & _)]]]; try discriminate; contradiction.
  - destruct (N.eq_dec m' 0) as [->|Z].
    + cbn [fdiv]. change (0 =? 0)%N with true. cbv iota. destruct (N.eqb_spec m 0) as [->|Z'].
      * split; [intros _|reflexivity]. right. right. right.
        split; [exact Ha|]. split; [now apply zero_mantissa|]. split; [exact Hb|now apply zero_mantissa].
      * split; [discriminate|]. intros [H|[H|[(u & w & A & F)|(_ & Q & _)]]]; try discriminate.
        now apply zero_mantissa in Q.
    + split; [|intros [H|[H|[(u & w & A & F)|(_ & _ & _ & Q)]]]; try discriminate; now apply zero_mantissa in Q].
      intro H. exfalso.
      refine (rounded_number _ _ (fdiv_rounded _ _ (ok_finite _ _ _ Ha) (ok_finite _ _ _ Hb) _) H).
      intro Q. now apply zero_mantissa in Q.
Qed.

Lemma div_zero a b : a <> FNan -> ~ (finite a /\ fv a == 0) -> f64_ok a -> finite b -> fv b == 0 ->
  fdiv a b = FInf (xorb (negative a) (negative b)).
Proof.
  intros H1 H2 H3 Fb Zb. destruct b as [|t|t m' e']; try contradiction. apply zero_mantissa in Zb. subst m'.
  destruct a as [|s|s m e]; [congruence|reflexivity|]. cbn [fdiv negative]. change (0 =? 0)%N with true. cbv iota.
  destruct (N.eqb_spec m 0) as [->|Z]; [|reflexivity]. destruct H2. split; [exact H3|]. now apply zero_mantissa.
Qed.

Lemma div_inf s b : finite b ->
  fdiv (FInf s) b = FInf (xorb s (negative b)) /\
  finite (fdiv b (FInf s)) /\ fv (fdiv b (FInf s)) == 0 /\ negative (fdiv b (FInf s)) = xorb (negative b) s.
Proof.
  destruct b as [|t|t m e]; try contradiction. intros _. cbn [fdiv negative]. split; [reflexivity|].
  split; [vm_compute; intuition congruence|]. split; [now apply zero_mantissa|reflexivity].
Qed.

Lemma sqrt_nan a : f64_ok a -> fsqrt a = FNan <-> a = FNan \/ a = FInf true \/ (finite a /\ fv a < 0).
Proof.
  intro Ha. destruct a as [|s|s m e].
  - split; [auto|reflexivity].
  - destruct s; cbn [fsqrt]; split; auto; try discriminate. intros [H|[H|(F & _)]]; try discriminate; contradiction.
  - destruct (Qlt_le_dec (fv (FFin s m e)) 0) as [L|L].
    + split; [auto|]. intros _. cbn [fsqrt]. destruct (N.eqb_spec m 0) as [->|Z].
      { exfalso. assert (Q := proj2 (zero_mantissa s 0 e) eq_refl). lra. }
      destruct s; [reflexivity|]. exfalso. rewrite fv_eq in L. unfold sg, qn in L. pose proof (b2_pos e) as P.
      assert (Q1 : 0 <= inject_Z (Z.of_N m)) by (unfold Qle; cbn; lia). nra.
    + split; [|intros [H|[H|(_ & Q)]]; try discriminate; lra]. intro H. exfalso.
      destruct (fsqrt_root _ (ok_finite _ _ _ Ha) L) as (F & _). rewrite H in F. exact F.
Qed.

Lemma sqrt_inf : fsqrt (FInf false) = FInf false.
Proof. reflexivity. Qed.

Lemma sqrt_zero a : finite a -> fv a == 0 -> fv (fsqrt a) == 0 /\ negative (fsqrt a) = negative a.
Proof.
  destruct a as [|s|s m e]; try contradiction. intros _ Z. apply zero_mantissa in Z. subst m. cbn [fsqrt negative].
  change (0 =? 0)%N with true. cbv iota. split; [now apply zero_mantissa|reflexivity].
Qed.
