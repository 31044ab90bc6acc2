(** Facts about directions, as the properties need them. *)

From Coq Require Import String Ascii List NArith ZArith Bool.
From Coq Require Import QArith Qabs.
From Verif Require Import Base Float Arith Kind Types Entity DataMap Api Builder BuilderRun BuilderExample
  ArithSpec ArithRound ArithUnit DirSpec BuilderDirs.
Import ListNotations.

Lemma direction3 x y z :
  moderate_vector [x; y; z] ->
  exists a b c, unit_vector (VVec [x; y; z]) = VVec [a; b; c] /\ direction_from (x, y, z) = (a, b, c) /\
    unit_length [a; b; c] /\ same_direction [x; y; z] [a; b; c].
Proof.
  intro H. pose proof (normalize3 x y z H) as N. unfold unit_vector, direction_from.
  destruct (vnormalize (x, y, z)) as [[a b] c]. exists a, b, c. auto.
Qed.

Lemma direction2 x y :
  moderate_vector [x; y] ->
  exists a b, unit_vector (VVec [x; y]) = VVec [a; b] /\ unit_length [a; b] /\ same_direction [x; y] [a; b].
Proof. intro H. pose proof (normalize2 x y H) as N. cbv zeta in N. eexists _, _. split; [reflexivity|exact N]. Qed.

Lemma short_vector :
  exists v, finite (fst (fst v)) /\ ~ (fv (fst (fst v)) == 0)%Q /\ direction_from v = (FInf false, FNan, FNan).
Proof.
  exists (FFin false 4503599627370496 (-700), f_zero, f_zero). split; [vm_compute; intuition congruence|].
  split; [vm_compute; discriminate|vm_compute; reflexivity].
Qed.
Lemma long_vector :
  exists v, finite (fst (fst v)) /\ ~ (fv (fst (fst v)) == 0)%Q /\ direction_from v = v_zero.
Proof.
  exists (FFin false 4503599627370496 600, f_zero, f_zero). split; [vm_compute; intuition congruence|].
  split; [vm_compute; discriminate|vm_compute; reflexivity].
Qed.
Lemma zero_vector_nan : direction_from v_zero = (FNan, FNan, FNan).
Proof. vm_compute. reflexivity. Qed.

(** A program with directions that are not axes. *)
Definition f_three : f64 := fadd f_two f_one.
Definition turn1 : tparam := mk_tparam v_y (f_three, f_two, f_zero) (fopp f_two, f_three, f_zero) (f_zero, f_half, f_three).
Definition ops_dirs : list op :=
  [ ONewSite (lit "site") v_zero; ONewBuilding (lit "house") v_x; ONewStorey (lit "ground") f_one
  ; OLayer (lit "brick") layer1; OLayerSet [31]; OUsage 32 1 0 f_zero
  ; OType CWall 32 (lit "wt") 11; OType CSlab 32 (lit "st") 0
  ; OWall 33 34 (lit "w") (WArbitrary [v_zero; v_x; v_y] (f_one, f_two, f_three)) v_x; OTransform turn1; ODrop
  ; OSlab 33 35 (lit "s") (SVertical (f_zero, f_two) (f_one, f_three) f_two) v_zero; ODrop
  ; ODrop; ODrop; ODrop ].

Ltac number := split; [vm_compute; repeat split; first [discriminate|now left|right; discriminate]|vm_compute; discriminate].
Ltac moderate :=
  split; [repeat (apply Forall_cons; [number|]); apply Forall_nil
         |first [apply Exists_cons_hd; vm_compute; discriminate |apply Exists_cons_tl, Exists_cons_hd; vm_compute; discriminate
               |apply Exists_cons_tl, Exists_cons_tl, Exists_cons_hd; vm_compute; discriminate]].
Lemma ops_dirs_directed : Forall directed ops_dirs.
Proof.
  unfold ops_dirs. repeat apply Forall_cons; try apply Forall_nil; cbn [directed]; try exact I.
  - moderate.
  - split; [|split]; moderate.
  - moderate.
Qed.
