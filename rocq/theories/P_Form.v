(** Property of shapes: C37.

    [form_of o cs c n f ax]: the product [n] of the call [c] made after the calls [cs] has
    to have the form [f] and, if it is a wall, the axis [ax], computed from the arguments
    of these calls and the thicknesses of the layers; [depicts m rs f ax]: the
    representations [rs] are a body of this form and this axis; [drawn m n rs]: the
    product [n] has the representations [rs]. *)

From Coq Require Import String Ascii List NArith ZArith Bool.
From Verif Require Import Base Prims Float Arith Kind Types Schema Entity DataMap Builder BuilderRun BuilderSpec BuilderOut
  HistorySpec MoveSpec FormSpec BuilderForm BuilderForm2 BuilderExample P_Builder P_Move.
Import ListNotations.
Open Scope N_scope.

(** Every product has the form that was asked for when the call returns that made it ... *)
Theorem C37_made o i xs ls x a m c k n :
  fair o -> reached o i (xs ++ [x]) (ls ++ [a]) m -> honest [] (xs ++ [x]) (ls ++ [a]) -> length xs = length ls ->
  calls [] (xs ++ [x]) (ls ++ [a]) = calls [] xs ls ++ [c] -> In (k, n) (call_products c) ->
  exists f ax rs, form_of o (calls [] xs ls) c n f ax /\ drawn m n rs /\ depicts m rs f ax.
Proof. exact (fun Ho => reached_fits o Ho i xs ls x a m c k n). Qed.
Print Assumptions C37_made.

(** ... and in the model that is built, where its representations show this form after
    the moves of the later calls. *)
Theorem C37_built o i xs ls r cs c ds k n :
  fair o -> program o i xs = Done (ls, r) -> honest [] xs ls -> calls [] xs ls = cs ++ c :: ds ->
  In (k, n) (call_products c) ->
  exists f ax rs rs' mvs, form_of o cs c n f ax /\ depicts (p_map r) rs f ax /\ journey n (cs ++ [c]) ds mvs /\
    drawn (p_map r) n rs' /\ Forall2 (moved (p_map r) mvs) rs' rs.
Proof. exact (fun Ho => built_fits o Ho i xs ls r cs c ds k n). Qed.
Print Assumptions C37_built.

(** The form, and so the thickness in it, is determined by the calls. *)
Theorem C37_determined o i xs ls m cs c n f ax f' ax' :
  reached o i xs ls m -> calls [] xs ls = cs ++ [c] ->
  form_of o cs c n f ax -> form_of o cs c n f' ax' -> f = f' /\ ax = ax'.
Proof. exact (reached_form_fun o i xs ls m cs c n f ax f' ax'). Qed.
Print Assumptions C37_determined.

(** The material 36 of [ops1] has two layers of a half: the wall 59, two long and one
    high, is one thick, and so are the opening 70 in it and the window 188 in the slab. *)
Lemma thick1 n : (8 <= n)%nat -> thick oracle1 (calls [] (firstn n ops1) (ls_to n)) 36 f_one.
Proof.
  intro Hn. exists [f_half; f_half]. split; [|vm_compute; reflexivity].
  assert (HI : forall c, In c (calls [] (firstn 8 ops1) (ls_to 8)) -> In c (calls [] (firstn n ops1) (ls_to n))).
  { intros c. do 8 (destruct n as [|n]; [exfalso; do 8 (apply le_S_n in Hn || inversion Hn); inversion Hn|]).
    clear Hn. cbn [firstn ops1 ls_to ls1 calls alive_after opens closes In tl app]. tauto. }
  exists [27; 23; 19], [27; 23; 19], 35, 1%nat, 0%nat, f_zero, [31; 33].
  split; [apply HI; vm_compute; tauto|]. split; [apply HI; vm_compute; tauto|]. repeat constructor.
  - exists [27; 23; 19], (lit "brick"), layer1. split; [apply HI; vm_compute; tauto|reflexivity].
  - exists [27; 23; 19], (lit "wood"), layer1. split; [apply HI; vm_compute; tauto|reflexivity].
Qed.

Example C37_example :
  (exists c, nth_error (calls [] ops1 ls1) 15 = Some c /\ In (KWall, 59) (call_products c) /\
     form_of oracle1 (calls [] (firstn 15 ops1) (ls_to 15)) c 59 (Rectangle f_two f_one, v_z, f_one) (Some v_x)) /\
  (exists c, nth_error (calls [] ops1 ls1) 16 = Some c /\ In (KOpeningElement, 70) (call_products c) /\
     form_of oracle1 (calls [] (firstn 16 ops1) (ls_to 16)) c 70 (Rectangle f_half f_one, v_z, f_half) None) /\
  (exists c, nth_error (calls [] ops1 ls1) 26 = Some c /\ In (KWindow, 188) (call_products c) /\
     form_of oracle1 (calls [] (firstn 26 ops1) (ls_to 26)) c 188 (Rectangle f_half f_half, v_z, f_one) None).
Proof.
  split; [|split].
  - eexists. split; [reflexivity|]. split; [now left|].
    apply (form_wall oracle1 _ _ _ _ _ (WVertical f_two f_one) _ _ f_one). apply thick1. repeat constructor.
  - eexists. split; [reflexivity|]. split; [now left|].
    assert (E : vnormalize v_z = v_z) by (vm_compute; reflexivity). rewrite <- E.
    eapply form_wall_opening; [|apply thick1; repeat constructor].
    do 15 right. left. reflexivity.
  - eexists. split; [reflexivity|]. split; [right; now left|].
    eapply (form_slab_window oracle1 _ 166 _ _ 36 41 _ (SHorizontal _) _ _ _ _ (PRect f_half f_half v_x) 177 188 f_one);
      [|apply thick1; repeat constructor].
    do 25 right. left. reflexivity.
Qed.

(** The layers are added in their order, which can matter. *)
Definition f_big : f64 := FFin false (2 ^ 52) 1.
Example C37_order :
  total false [f_big; f_one; f_one] = f_big /\ total false [f_one; f_one; f_big] <> f_big.
Proof. vm_compute. split; [reflexivity|discriminate]. Qed.
