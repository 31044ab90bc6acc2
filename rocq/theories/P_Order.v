(** Property of the order in which hash tables are walked: C41.

    [renames f m m']: [f] is one-to-one, moves only ids of objects that are made while a
    hash table is walked, and every object of [m] says the same as the object of [m']
    under the new id once its ids are renamed: all attributes are equal but random
    identifiers, times, the running number in the names of relations and the order inside
    the lists of members of relations. *)

From Coq Require Import String Ascii List NArith ZArith Bool Permutation.
From Verif Require Import Base Prims Float Arith Kind Types Schema Entity DataMap Builder BuilderRun BuilderSpec BuilderOut
  OrderSpec BuilderOrder BuilderOrder7 BuilderExample P_Builder.
Import ListNotations.
Open Scope N_scope.

(** If a program comes to its end in one run, it does in every other: with the same ids
    for the caller, the same kind under every id, and a model that is the same up to a
    renaming that leaves the ids of the caller alone. *)
Theorem C41_order_irrelevant o o' i xs ls r :
  fair o -> fair o' -> o_neg_sum o = o_neg_sum o' -> plain_program o i xs ->
  program o i xs = Done (ls, r) -> honest [] xs ls ->
  exists f r', program o' i xs = Done (ls, r') /\ renames f (p_map r) (p_map r') /\
    (forall n, In n (concat ls) -> f n = n) /\ (forall n, kind_at (p_map r') n = kind_at (p_map r) n).
Proof. exact (fun Fo Fo' Sum => order_irrelevant o o' Sum Fo Fo' i xs ls r). Qed.
Print Assumptions C41_order_irrelevant.

(** The program of BuilderExample.v under the oracle that walks tables backwards meets the
    hypotheses. *)
Lemma fair2 : fair oracle2.
Proof. intros t l. apply Permutation_refl. Qed.

Lemma plain1 : plain_program oracle1 info1 ops1.
Proof.
  split; [split; vm_compute; reflexivity|]. intros p0 _. unfold ops1.
  repeat (apply Forall_cons; [cbn [plain_op]; first [exact I | split; [reflexivity|exact I] | vm_compute; reflexivity]|]).
  apply Forall_nil.
Qed.

(** Two oracles that differ in the order of walks only; the representation map 118 made
    when the wall is finished belongs to the opening 81 in one run, to 70 in the other. *)
Definition look (o : oracle) (n : N) : option (list (list N) * option entity) :=
  match program o info1 ops1 with Done (l, r) => Some (l, lookup (p_map r) n) | _ => None end.

Example C41_example :
  fair oracle1 /\ fair oracle2 /\ o_neg_sum oracle1 = o_neg_sum oracle2 /\ plain_program oracle1 info1 ops1 /\
  honest [] ops1 ls1 /\
  look oracle1 118 = Some (ls1, Some (Ent KRepresentationMap [VId 117; VId 77])) /\
  look oracle2 118 = Some (ls1, Some (Ent KRepresentationMap [VId 117; VId 66])).
Proof.
  split; [exact fair1|]. split; [exact fair2|]. split; [reflexivity|]. split; [exact plain1|]. split; [exact honest1|].
  split; vm_compute; reflexivity.
Qed.

(** So the models are not equal, even if all identifiers and times are: without a
    renaming the property is false. *)
Lemma look_differs o o' n e e' : look o n = Some (ls1, Some e) -> look o' n = Some (ls1, Some e') -> e <> e' ->
  exists r r', program o info1 ops1 = Done (ls1, r) /\ program o' info1 ops1 = Done (ls1, r') /\ p_map r <> p_map r'.
Proof.
  unfold look. generalize (program o info1 ops1) (program o' info1 ops1). intros [[l r]| |] [[l' r']| |] H H' D; try discriminate.
  injection H as -> H. injection H' as -> H'. exists r, r'. split; auto. split; auto. intro E. rewrite E in H. congruence.
Qed.

Theorem C41_identical_refuted :
  exists o o' i xs ls r r', fair o /\ fair o' /\ honest [] xs ls /\
    (forall t, o_guid o t = o_guid o' t) /\ (forall t, o_now o t = o_now o' t) /\ o_neg_sum o = o_neg_sum o' /\
    program o i xs = Done (ls, r) /\ program o' i xs = Done (ls, r') /\ p_map r <> p_map r'.
Proof.
  exists oracle1, oracle2, info1, ops1, ls1.
  destruct (look_differs oracle1 oracle2 118 (Ent KRepresentationMap [VId 117; VId 77]) (Ent KRepresentationMap [VId 117; VId 66]))
    as (r & r' & H & H' & D); [vm_compute; reflexivity|vm_compute; reflexivity|discriminate|].
  exists r, r'. split; [exact fair1|]. split; [exact fair2|]. split; [exact honest1|]. repeat split; auto.
Qed.
Print Assumptions C41_identical_refuted.
