(** Properties of the arithmetic and of directions: C56.

    [fv d] is the value of a finite number as a fraction; [rounded x d]: [d] is the number
    nearest to [x], ties to even, infinite from half way to [2^1024] on;
    [unit_directions m]: every direction in [m] has length one up to [2^-47]. *)

From Coq Require Import String Ascii List NArith ZArith Bool.
From Coq Require Import QArith Qabs.
From Verif Require Import Base Prims Float Arith Kind Types Entity DataMap Api Builder BuilderRun BuilderExample
  ArithSpec ArithRound ArithSpecial ArithUnit DirSpec BuilderDirs DirFacts RoundUnique.
Import ListNotations.

(** ** C56: the operations are those of IEEE 754 *)

(** There is one result only that is correctly rounded; where the exact result is zero, one
    for each sign. *)
Theorem C56_determined x d d' : rounded x d -> rounded x d' -> (x == 0 -> negative d = negative d') -> d = d'.
Proof. exact (rounded_one x d d'). Qed.
Print Assumptions C56_determined.

Theorem C56_add a b : finite a -> finite b ->
  rounded (fv a + fv b) (fadd a b) /\
  (fv a + fv b == 0 -> negative (fadd a b) = negative a && negative b).
Proof. exact (fun Ha Hb => conj (fadd_rounded a b Ha Hb) (fun H => f_equal negative (fadd_zero a b Ha Hb H))). Qed.
Print Assumptions C56_add.

Theorem C56_sub a b : finite a -> finite b -> rounded (fv a - fv b) (fsub a b).
Proof. exact (fsub_rounded a b). Qed.
Print Assumptions C56_sub.

Theorem C56_mul a b : finite a -> finite b ->
  rounded (fv a * fv b) (fmul a b) /\ negative (fmul a b) = xorb (negative a) (negative b).
Proof. exact (fun Ha Hb => conj (fmul_rounded a b Ha Hb) (fmul_negative a b Ha Hb)). Qed.
Print Assumptions C56_mul.

Theorem C56_div a b : finite a -> finite b -> ~ fv b == 0 ->
  rounded (fv a / fv b) (fdiv a b) /\ negative (fdiv a b) = xorb (negative a) (negative b).
Proof. exact (fun Ha Hb Hz => conj (fdiv_rounded a b Ha Hb Hz) (fdiv_negative a b Ha Hb Hz)). Qed.
Print Assumptions C56_div.

Theorem C56_sqrt a : finite a -> (0 <= fv a)%Q -> nearest_root (fv a) (fsqrt a).
Proof. exact (fsqrt_root a). Qed.
Print Assumptions C56_sqrt.

(** A tie, a carry into the next power of two, an overflow, a result below the normal
    numbers, a difference that cancels, a zero with a sign. *)
Definition f_num (m : N) (e : Z) : f64 := FFin false m e.
Definition f_big : f64 := f_num 9007199254740991 971.
Definition f_tiny : f64 := f_num 1 (-1074).
Example C56_cases :
  ( fadd f_one (f_num 4503599627370496 (-105)), fadd (f_num 9007199254740991 (-53)) (f_num 4503599627370496 (-106))
  , fadd f_big f_big, fmul f_tiny f_half, fsub f_one f_one, fmul (fopp f_one) f_zero
  , fdiv f_one (f_num 6755399441055744 (-51)), fsqrt f_two )
  = ( f_one, f_one, FInf false, f_zero, f_zero, fopp f_zero
    , f_num 6004799503160661 (-54), f_num 6369051672525773 (-52) ).
Proof. vm_compute. reflexivity. Qed.
Example C56_cases_meet : finite f_big /\ finite f_tiny /\ ~ fv (f_num 6755399441055744 (-51)) == 0 /\ (0 <= fv f_two)%Q.
Proof.
  split; [vm_compute; intuition congruence|]. split; [vm_compute; intuition congruence|].
  split; vm_compute; discriminate.
Qed.

(** ** Infinities, zeros, and what is not a number *)

Theorem C56_add_special a b : f64_ok a -> f64_ok b ->
  (fadd a b = FNan <-> a = FNan \/ b = FNan \/ exists s, a = FInf s /\ b = FInf (negb s)) /\
  (forall s, a = FInf s -> b <> FNan -> b <> FInf (negb s) -> fadd a b = a /\ fadd b a = a).
Proof. exact (fun Ha Hb => conj (add_nan a b Ha Hb) (fun s E => eq_ind_r (fun x => b <> FNan -> b <> FInf (negb s) -> fadd x b = x /\ fadd b x = x) (add_inf s b) E)). Qed.
Print Assumptions C56_add_special.

Theorem C56_mul_nan a b : f64_ok a -> f64_ok b ->
  fmul a b = FNan <->
  a = FNan \/ b = FNan \/
  (exists s, a = FInf s /\ finite b /\ fv b == 0) \/ (exists s, b = FInf s /\ finite a /\ fv a == 0).
Proof. exact (mul_nan a b). Qed.
Print Assumptions C56_mul_nan.

Theorem C56_mul_inf s b : b <> FNan -> ~ (finite b /\ fv b == 0) -> f64_ok b ->
  fmul (FInf s) b = FInf (xorb s (negative b)) /\ fmul b (FInf s) = FInf (xorb s (negative b)).
Proof. exact (mul_inf s b). Qed.
Print Assumptions C56_mul_inf.

Theorem C56_div_nan a b : f64_ok a -> f64_ok b ->
  fdiv a b = FNan <->
  a = FNan \/ b = FNan \/
  (exists s t, a = FInf s /\ b = FInf t) \/ (finite a /\ fv a == 0 /\ finite b /\ fv b == 0).
Proof. exact (div_nan a b). Qed.
Print Assumptions C56_div_nan.

Theorem C56_div_zero a b :
  a <> FNan -> ~ (finite a /\ fv a == 0) -> f64_ok a -> finite b -> fv b == 0 ->
  fdiv a b = FInf (xorb (negative a) (negative b)).
Proof. exact (div_zero a b). Qed.
Print Assumptions C56_div_zero.

Theorem C56_div_inf s b : finite b ->
  fdiv (FInf s) b = FInf (xorb s (negative b)) /\
  finite (fdiv b (FInf s)) /\ fv (fdiv b (FInf s)) == 0 /\ negative (fdiv b (FInf s)) = xorb (negative b) s.
Proof. exact (div_inf s b). Qed.
Print Assumptions C56_div_inf.

Theorem C56_sqrt_nan a : f64_ok a ->
  fsqrt a = FNan <-> a = FNan \/ a = FInf true \/ (finite a /\ (fv a < 0)%Q).
Proof. exact (sqrt_nan a). Qed.
Print Assumptions C56_sqrt_nan.

Theorem C56_sqrt_zero a : finite a -> fv a == 0 -> fv (fsqrt a) == 0 /\ negative (fsqrt a) = negative a.
Proof. exact (sqrt_zero a). Qed.
Print Assumptions C56_sqrt_zero.

Theorem C56_sqrt_inf : fsqrt (FInf false) = FInf false.
Proof. exact sqrt_inf. Qed.
Print Assumptions C56_sqrt_inf.

Example C56_specials :
  ( fsub (FInf true) (FInf true), fadd (FInf true) f_big, fmul (FInf false) (fopp f_zero), fmul (fopp f_tiny) (FInf true)
  , fdiv f_zero (fopp f_zero), fdiv (fopp f_tiny) f_zero, fdiv f_one (FInf true), fsqrt (fopp f_tiny), fsqrt (fopp f_zero) )
  = ( FNan, FInf true, FNan, FInf false, FNan, FInf true, fopp f_zero, FNan, fopp f_zero ).
Proof. vm_compute. reflexivity. Qed.

(** ** Normalising *)

(** [Direction3D::from]: unless its components are all smaller than [2^-400] or one is
    larger than [2^400], a vector becomes one of length one that points where it
    pointed. *)
Theorem C56_direction3 x y z :
  moderate_vector [x; y; z] ->
  exists a b c, unit_vector (VVec [x; y; z]) = VVec [a; b; c] /\ direction_from (x, y, z) = (a, b, c) /\
    unit_length [a; b; c] /\ same_direction [x; y; z] [a; b; c].
Proof. exact (direction3 x y z). Qed.
Print Assumptions C56_direction3.

(** [Direction2D::from]. *)
Theorem C56_direction2 x y :
  moderate_vector [x; y] ->
  exists a b, unit_vector (VVec [x; y]) = VVec [a; b] /\
    unit_length [a; b] /\ same_direction [x; y] [a; b].
Proof. exact (direction2 x y). Qed.
Print Assumptions C56_direction2.

Example C56_direction_case :
  direction_from (f_two, fopp f_one, f_zero)
  = (f_num 8056283928194521 (-53), fopp (f_num 8056283928194521 (-54)), f_zero) /\
  moderate3 (f_two, fopp f_one, f_zero) /\ moderate_vector [f_two; fopp f_one].
Proof.
  split; [vm_compute; reflexivity|].
  split; (split; [repeat constructor; vm_compute; intuition congruence|constructor; vm_compute; discriminate]).
Qed.

(** Short vectors: the square of the length is zero, and its root divides by zero. *)
Theorem C56_short_refuted :
  exists v, finite (fst (fst v)) /\ ~ fv (fst (fst v)) == 0 /\ direction_from v = (FInf false, FNan, FNan).
Proof. exact short_vector. Qed.
Print Assumptions C56_short_refuted.

(** Long vectors: the square of the length is infinite, every component becomes zero. *)
Theorem C56_long_refuted :
  exists v, finite (fst (fst v)) /\ ~ fv (fst (fst v)) == 0 /\ direction_from v = v_zero.
Proof. exact long_vector. Qed.
Print Assumptions C56_long_refuted.

(** The zero vector has no direction; nothing is refused. *)
Theorem C56_zero_refuted : direction_from v_zero = (FNan, FNan, FNan).
Proof. exact zero_vector_nan. Qed.
Print Assumptions C56_zero_refuted.

(** ** The directions of a built model *)

(** If what a program gives as directions is of moderate size, every direction of the model
    it builds has length one: those given, and those the builder computes itself. *)
Theorem C56_built o i xs ls r :
  program o i xs = Done (ls, r) -> Forall directed xs -> unit_directions (p_map r).
Proof. exact (program_dirs o i xs ls r). Qed.
Print Assumptions C56_built.

(** The example program gives such directions, and its model has several. *)
Example C56_built_meets : Forall directed ops_dirs.
Proof. exact ops_dirs_directed. Qed.

Definition directions_of (m : dmap) : list (list val) :=
  flat_map (fun '(_, e) => match e with Ent KDirection3D l => [l] | _ => [] end) m.
Example C56_built_case :
  match program oracle1 info1 ops_dirs with
  | Done (_, r) => Some (directions_of (p_map r))
  | _ => None
  end = Some
    [ [VVec [f_num 4814550517949482 (-54); f_num 4814550517949482 (-53); f_num 7221825776924223 (-53)]]
    ; [VVec [f_num 7494442791066849 (-53); f_num 4996295194044566 (-53); f_zero]]
    ; [VVec [fopp (f_num 4996295194044566 (-53)); f_num 7494442791066849 (-53); f_zero]]
    ; [VVec [f_zero; f_num 5923097743747952 (-55); f_num 8884646615621928 (-53)]]
    ; [VVec [fopp (f_num 6369051672525772 (-53)); f_num 6369051672525772 (-53); f_zero]] ].
Proof. vm_compute. reflexivity. Qed.
