(** The floating point operations give numbers that are representable. *)

From Coq Require Import List NArith ZArith Bool Lia.
From Coq Require Import ZifyBool ZifyNat ZifyN.
From Verif Require Import Base Prims Float RoundFacts Types WellTyped TypesFacts Arith.
Import ListNotations.
Open Scope N_scope.

Lemma round_okb neg n d : 0 < d -> f64_okb (round_f64 neg n d) = true.
Proof. intro H. apply f64_okb_ok, round_f64_ok. exact H. Qed.

Lemma mag_pos m e : 0 < snd (mag m e).
Proof.
  destruct e as [|p|p]; cbn [mag snd]; [lia|lia|].
  pose proof (N.pow_nonzero 2 (N.pos p)). lia.
Qed.

Lemma round_mag neg m e : f64_okb (let (n, d) := mag m e in round_f64 neg n d) = true.
Proof.
  pose proof (mag_pos m e) as H. destruct (mag m e) as [n d]. cbn [snd] in H. now apply round_okb.
Qed.

Lemma zero_okb s : f64_okb (FFin s 0 (-1074)) = true.
Proof. reflexivity. Qed.

Lemma fopp_okb a : f64_okb a = true -> f64_okb (fopp a) = true.
Proof. now destruct a. Qed.

Lemma fadd_okb a b : f64_okb (fadd a b) = true.
Proof.
  destruct a as [|s|s m e], b as [|t|t m' e']; cbn [fadd]; auto.
  - destruct (Bool.eqb s t); auto.
  - cbv zeta. destruct (_ =? 0)%Z; [reflexivity|apply round_mag].
Qed.

Lemma fsub_okb a b : f64_okb (fsub a b) = true.
Proof. apply fadd_okb. Qed.

Lemma fmul_okb a b : f64_okb (fmul a b) = true.
Proof.
  destruct a as [|s|s m e], b as [|t|t m' e']; cbn [fmul]; auto.
  - destruct (m' =? 0); auto.
  - destruct (m =? 0); auto.
  - apply round_mag.
Qed.

Lemma fdiv_okb a b : f64_okb (fdiv a b) = true.
Proof.
  destruct a as [|s|s m e], b as [|t|t m' e']; cbn [fdiv]; auto.
  destruct (N.eqb_spec m' 0); [destruct (m =? 0); auto|].
  pose proof (mag_pos m (e - e')) as H. destruct (mag m (e - e')) as [x d]. cbn [snd] in H.
  apply round_okb. nia.
Qed.

Lemma fsqrt_okb a : f64_okb (fsqrt a) = true.
Proof.
  destruct a as [|s|s m e]; cbn [fsqrt]; auto.
  - now destruct s.
  - destruct (m =? 0); [reflexivity|]. destruct s; [reflexivity|].
    destruct (if Z.even e then (m, e) else (2 * m, (e - 1)%Z)) as [m1 e1]. cbv zeta. apply round_mag.
Qed.

Lemma fsum_okb z l : f64_okb z = true -> f64_okb (fsum z l) = true.
Proof.
  unfold fsum. revert z. induction l as [|x l IH]; intros z H; cbn [fold_left]; auto.
  apply IH, fadd_okb.
Qed.
