(** Specification of floating point results: values as rational numbers, nearest
    numbers.  Independent of how the operations are computed. *)

From Coq Require Import List NArith ZArith Bool.
From Coq Require Import QArith Qpower Qabs.
From Verif Require Import Float.
Import ListNotations.
Open Scope Q_scope.

(** The value of a finite number. *)
Definition fv (d : f64) : Q :=
  match d with
  | FFin s m e => (if s then -1 else 1) * (inject_Z (Z.of_N m) * inject_Z 2 ^ e)
  | _ => 0
  end.

(** A finite number that has a representation in 64 bits. *)
Definition finite (d : f64) : Prop :=
  match d with FFin _ _ _ => f64_ok d | _ => False end.

Definition even_mantissa (d : f64) : Prop :=
  match d with FFin _ m _ => N.even m = true | _ => False end.

(** No finite number is nearer to [x] than [d]; if another one is as near, the mantissa
    of [d] is even. *)
Definition nearest (x : Q) (d : f64) : Prop :=
  finite d /\
  (forall d', finite d' -> Qabs (x - fv d) <= Qabs (x - fv d')) /\
  (forall d', finite d' -> Qabs (x - fv d) == Qabs (x - fv d') -> ~ fv d' == fv d -> even_mantissa d).

(** Half way between the largest finite number and [2^1024]. *)
Definition limit : Q := (inject_Z 2 ^ 53 - (1 # 2)) * inject_Z 2 ^ 971.

Definition negative (d : f64) : bool :=
  match d with FNan => false | FInf s => s | FFin s _ _ => s end.

(** IEEE 754: round to nearest, ties to even, the sign kept also where the result is
    a zero. *)
Inductive rounded (x : Q) : f64 -> Prop :=
| rounded_to d :
    Qabs x < limit -> nearest x d ->
    (x < 0 -> negative d = true) -> (0 < x -> negative d = false) -> rounded x d
| rounded_over s : limit <= Qabs x -> (s = true <-> x < 0) -> rounded x (FInf s).

(** No finite number is nearer to the square root of [x] than [d]. *)
Definition nearest_root (x : Q) (d : f64) : Prop :=
  finite d /\ 0 <= fv d /\
  forall d', finite d' -> 0 <= fv d' ->
    (fv d < fv d' -> x <= ((fv d + fv d') / 2) ^ 2) /\
    (fv d' < fv d -> ((fv d + fv d') / 2) ^ 2 <= x).

(** ** Vectors *)

Definition sum_sq (l : list f64) : Q := fold_right (fun c t => fv c * fv c + t) 0 l.

(** No component is larger than [2^400], one of them is at least [2^-400]. *)
Definition moderate_vector (l : list f64) : Prop :=
  Forall (fun c => finite c /\ Qabs (fv c) <= inject_Z 2 ^ 400) l /\
  Exists (fun c => inject_Z 2 ^ (-400) <= Qabs (fv c)) l.

(** Length one up to rounding: the squares add up to [1 +- 2^-47]. *)
Definition unit_length (l : list f64) : Prop :=
  Forall finite l /\ Qabs (sum_sq l - 1) <= inject_Z 2 ^ (-47).

(** [r] points where [l] points: up to [2^-51] its components are those of [l] times one
    positive factor, and no component has changed sides. *)
Definition same_direction (l r : list f64) : Prop :=
  exists k, 0 < k /\
    Forall2 (fun c d => Qabs (fv d - fv c * k) <= inject_Z 2 ^ (-51) /\
                        (fv d < 0 -> fv c < 0) /\ (0 < fv d -> 0 < fv c)) l r.
