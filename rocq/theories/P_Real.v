(** Properties of printed reals: C18, the plain form.

    [qn n * b10 x] is n * 10^x; [digits_value ds] the number the digits [ds] stand for. *)

From Coq Require Import String Ascii List NArith ZArith Bool QArith Qabs.
From Verif Require Import Base Prims Spec Float RoundFacts FloatFacts RealForm.
Import ListNotations.
Open Scope N_scope.

(** ** C18: plain form *)

(** Sign, integer without leading zeros, point, fraction without trailing zeros; there is no
    fraction if and only if the number m * 2^e is an integer. *)
Theorem C18_plain_form neg m e :
  f64_ok (FFin neg m e) -> is_scientific (FFin neg m e) = false ->
  exists n i f, d_real (FFin neg m e) = (if neg then lit "-" else []) ++ i ++ lit "." ++ f /\ decimal n i /\
    Forall (fun c => 48 <= c <= 57) f /\ (f = [] \/ last f 0 <> 48) /\
    (f = [] <-> (0 <= e)%Z \/ N.divide (2 ^ Z.to_N (- e)) m).
Proof. exact (plain_form neg m e). Qed.
Print Assumptions C18_plain_form.

(** As few digits as possible: if a text with the digits [i'] and [f'] and any exponent is read
    as the number, the printed one stands for a decimal of no more digits, and unless it has
    fewer, it is at least as close to the number. *)
Theorem C18_plain_fewest neg m e n i f :
  f64_ok (FFin neg m e) -> is_scientific (FFin neg m e) = false ->
  d_real (FFin neg m e) = (if neg then lit "-" else []) ++ i ++ lit "." ++ f -> decimal n i ->
  forall i' f' z, i' <> [] -> Forall (fun c => 48 <= c <= 57) (i' ++ f') ->
  p_real ((if neg then lit "-" else []) ++ i' ++ lit "." ++ f' ++ lit "E" ++ show_Z z) = ROk (FFin neg m e) [] ->
  exists q x, (qn q * b10 x == qn (digits_value (i ++ f)) * b10 (- Z.of_nat (length f)))%Q /\
    q < 10 ^ N.of_nat (length (i' ++ f')) /\
    ((q < 10 ^ N.of_nat (length (i' ++ f') - 1))%N \/
     Qabs (qn q * b10 x - qn m * b2 e) <=
     Qabs (qn (digits_value (i' ++ f')) * b10 (z - Z.of_nat (length f')) - qn m * b2 e))%Q.
Proof. exact (plain_fewest neg m e n i f). Qed.
Print Assumptions C18_plain_fewest.

(** Numbers that are not finite have names, without a point. *)
Example C18_special_example :
  d_real FNan = lit "NaN" /\ d_real (FInf false) = lit "inf" /\ d_real (FInf true) = lit "-inf".
Proof. repeat split. Qed.

(** 0.3, which has longer texts that are read as it, and 1200. *)
Example C18_fewest_example :
  is_scientific (FFin false 5404319552844595 (-54)) = false /\
  d_real (FFin false 5404319552844595 (-54)) = lit "0.3" /\
  p_real (lit "0.29999999999999998E0") = ROk (FFin false 5404319552844595 (-54)) [] /\
  p_real (lit "3.E-1") = ROk (FFin false 5404319552844595 (-54)) [] /\
  d_real (FFin true 5277655813324800 (-42)) = lit "-1200." /\
  p_real (lit "-12.E2") = ROk (FFin true 5277655813324800 (-42)) [].
Proof. vm_compute. repeat split. Qed.
