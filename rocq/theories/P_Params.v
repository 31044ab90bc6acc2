(** Properties of the parameters of a transform: C57.

    [given_x l]: the vectors a chain of calls gives for the x axis, directly or by a
    rotation; [last_such P d l v]: [v] is the last of [l] with [P], or [d]. *)

From Coq Require Import String Ascii List NArith ZArith Bool.
From Coq Require Import QArith Qabs.
From Verif Require Import Base Prims Float Arith Kind Types Entity DataMap Builder BuilderRun BuilderExample
  ArithSpec DirSpec DirFacts Params ParamsSpec ParamsFacts.
Import ListNotations.

(** ** C57: what a chain of calls leaves *)

(** The translation is the last one given, zero or not; an axis is the last vector given
    for it that is not zero; what is not given is the default. *)
Theorem C57_settings l :
  Forall in_bits (given_x l ++ given_y l ++ given_z l) ->
  last_such (fun _ => True) v_zero (given_move l) (t_move (params l)) /\
  last_such (fun v => ~ zero_vector v) v_x (given_x l) (t_x (params l)) /\
  last_such (fun v => ~ zero_vector v) v_y (given_y l) (t_y (params l)) /\
  last_such (fun v => ~ zero_vector v) v_z (given_z l) (t_z (params l)).
Proof. exact (params_settings l). Qed.
Print Assumptions C57_settings.

(** No axis is ever the zero vector. *)
Theorem C57_never_zero l :
  Forall in_bits (given_x l ++ given_y l ++ given_z l) ->
  ~ zero_vector (t_x (params l)) /\ ~ zero_vector (t_y (params l)) /\ ~ zero_vector (t_z (params l)).
Proof. exact (params_never_zero l). Qed.
Print Assumptions C57_never_zero.

(** If the vectors given are zero or of moderate size, a transform with what comes out
    writes directions of length one. *)
Theorem C57_directed l :
  Forall in_bits (given_x l ++ given_y l ++ given_z l) ->
  (forall v, In v (given_x l ++ given_y l ++ given_z l) -> zero_vector v \/ moderate3 v) ->
  directed (OTransform (params l)).
Proof. exact (params_directed l). Qed.
Print Assumptions C57_directed.

(** A quarter turn, an axis given twice, a zero vector in between, one of negative
    zeros. *)
Example C57_case :
  params chain1
  = mk_tparam v_zero (f_one, f_two, f_zero) (fopp f_one, f_zero, f_zero) (fopp f_zero, f_zero, f_one).
Proof. vm_compute. reflexivity. Qed.
Example C57_case_meets :
  Forall in_bits (given_x chain1 ++ given_y chain1 ++ given_z chain1) /\
  (forall v, In v (given_x chain1 ++ given_y chain1 ++ given_z chain1) -> zero_vector v \/ moderate3 v).
Proof. exact chain_meets. Qed.

(** Only the zero vector is passed over: a vector of NaN becomes an axis. *)
Theorem C57_nan_refuted :
  exists l, Forall in_bits (given_x l ++ given_y l ++ given_z l) /\ t_x (params l) = (FNan, FNan, FNan).
Proof. exact params_nan. Qed.
Print Assumptions C57_nan_refuted.
