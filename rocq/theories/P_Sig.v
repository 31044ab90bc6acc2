(** Properties of the signatures of constructors and setters: C68.

    [constructors], [setters], [implementations]: the signatures and the traits as they are
    written in /repo; [takes rs m t a]: the argument [a] fits a parameter of the Rust type [t],
    with objects of the program [rs] and the model [m]; [asks t s]: the parameter is declared for
    the struct called [s]. *)

From Coq Require Import String Ascii List NArith ZArith Bool.
From Verif Require Import Base Prims Kind Types WellTyped Schema Entity EntitySpec DataMap Header File FileSpec
  NameSpec NameFacts DeclSpec DeclFacts HeaderSpec Api ApiSpec ApiExample SigSpec SigFacts P_File P_Api.
Import ListNotations.
Open Scope N_scope.

(** ** C68: signatures *)

(** Every constructor and setter of the model has a signature. *)
Theorem C68_every : (forall c, exists s ts, In (c, (s, ts)) constructors) /\ (forall x, exists o t, In (x, (o, t)) setters).
Proof. exact (conj every_constructor every_setter). Qed.
Print Assumptions C68_every.

(** A call of a constructor is one of C53 if and only if the arguments fit its signature. *)
Theorem C68_new c s ts g args w : In (c, (s, ts)) constructors ->
  (stmt_ok false (SNew c g args) w <-> guid_ok g = true /\ Forall2 (takes (w_regs w) (w_map w)) ts args).
Proof. exact (new_takes c s ts g args w). Qed.
Print Assumptions C68_new.

(** It makes an object of its struct. *)
Theorem C68_made c s ts g args w w' o : In (c, (s, ts)) constructors -> exec (SNew c g args) w = Done (w', o) ->
  exists k l, w_regs w' = w_regs w ++ [(k, l)] /\ In (k, s) structs.
Proof. exact (new_made c s ts g args w w' o). Qed.
Print Assumptions C68_made.

(** A call of a setter is one of C53 if and only if the object is of the struct or implements
    the trait the setter belongs to, and the argument fits. *)
Theorem C68_set x o t r a w : In (x, (o, t)) setters ->
  (stmt_ok false (SSet r x a) w <->
   exists k l s, nth_error (w_regs w) r = Some (k, l) /\ In (k, s) structs /\ stands o s /\
     takes (w_regs w) (w_map w) t a).
Proof. exact (set_takes x o t r a w). Qed.
Print Assumptions C68_set.

(** What C53 calls declared is what the types ask for. *)
Theorem C68_new_asks c s ts i t k : In (c, (s, ts)) constructors -> nth_error ts i = Some t ->
  (ApiSpec.declared c i k <-> exists n, In (k, n) structs /\ asks t n).
Proof. exact (new_asks c s ts i t k). Qed.
Print Assumptions C68_new_asks.

Theorem C68_set_asks x o t k : In (x, (o, t)) setters ->
  (In k (par_kinds (me_par (method_of x))) <-> exists n, In (k, n) structs /\ asks t n).
Proof. exact (set_asks x o t k). Qed.
Print Assumptions C68_set_asks.

(** Programs of calls that the signatures permit never go wrong, panic only for lack of ids or at a
    starred list, and do what C53 says. *)
Theorem C68_runs v h m xs w os x :
  ifc_ok v (mk_ifc h m) -> ~ dangling m -> typed_prog xs (mk_world [] m) ->
  execs xs (mk_world [] m) = Done (w, os) -> typed_stmt x w ->
  exec x w <> Err /\ (exec x w = Panic <-> ~ room (w_map w) (length (uses x)) \/ starred x w) /\
  (forall w' o, exec x w = Done (w', o) -> effect x w w' o).
Proof. exact (typed_runs v h m xs w os x). Qed.
Print Assumptions C68_runs.

(** ** Examples *)

(** The program of C53. *)
Example C68_program : typed_prog program1 (mk_world [] example_data).
Proof. apply prog_typed, progb_ok. vm_compute. reflexivity. Qed.

(** A wall is made from a name. *)
Example C68_wall :
  In (Wall_new, ("Wall", [G "Into" (T "StringPrimitive")]))%string constructors /\
  takes [] [] (G "Into" (T "StringPrimitive")) (word "W1") /\ guid_ok id1 = true /\
  ~ takes [] [] (G "Into" (T "StringPrimitive")) (AOne (IPlain (VInt 3))).
Proof.
  split; [unfold constructors; cbn [In]; tauto|]. split; [|split; [reflexivity|]].
  - apply takes_into, takes_one. eapply fits_value; [discriminate|]. apply wr_string. reflexivity.
  - intro H. apply (takes_shape _ _ (G "Into" (T "StringPrimitive")) (One (CValue TStr)) eq_refl) in H. discriminate H.
Qed.

(** A wall may have materials, a space may not; a relation of voids takes an object of any
    struct that implements [Structure], and this is a wall and no person. *)
Example C68_traits :
  stands (G "impl" (T "MaterialRelatable")) "Wall" /\ ~ stands (G "impl" (T "MaterialRelatable")) "Space" /\
  takes [(KWall, [])] [] (G "Into" (G "IdOr" (G "impl" (T "Structure")))) (AOne (IReg 0)) /\
  ~ takes [(KPerson, [])] [] (G "Into" (G "IdOr" (G "impl" (T "Structure")))) (AOne (IReg 0)).
Proof.
  split; [apply standsb_iff; reflexivity|]. split; [intro H; apply standsb_iff in H; discriminate H|]. split.
  - apply takes_into, takes_one. eapply fits_or_object with (s := "Wall"%string); [reflexivity| |apply standsb_iff; reflexivity].
    unfold structs. cbn [In]. tauto.
  - intro H. apply (takes_shape _ _ (G "Into" (G "IdOr" (G "impl" (T "Structure")))) (One (COr (called (G "impl" (T "Structure"))))) eq_refl) in H.
    destruct H as (x & E & I). injection E as <-. cbn [fst] in I. vm_compute in I. intuition discriminate.
Qed.
