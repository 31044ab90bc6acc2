(** Properties of the builder's relations: C31, C32, C33, C34, C35.

    In all of them [xs] is any program, [ls] the ids its calls returned, [r] the state
    after [build], [o] any oracle that walks each hash table once; [honest] says that
    the ids the program uses are ids it was given, of the kind the types demand. *)

From Coq Require Import String Ascii List NArith ZArith Bool Permutation.
From Verif Require Import Base Prims Float Arith Kind Types Schema Entity DataMap Builder BuilderRun BuilderSpec
  BuilderOut BuilderExample.
Import ListNotations.
Open Scope N_scope.

(** What [ops1] of BuilderExample.v returns. *)
Definition ls1 : list (list N) :=
  [ [19]; [23]; [27]; [31]; [33]; [34]; [35]; [36]; [38]; [39]; [40]; [41]; [42]; [43]; [44]; [59]; [70]
  ; [81; 92]; []; [93]; []; []; []; [155]; []; [166]; [177; 188]; []; [199]; [210]; [221]; []; [236]; []; []; [] ].

Lemma fair1 : fair oracle1.
Proof. intros t l. apply Permutation_sym, Permutation_rev. Qed.

Lemma honest1 : honest [] ops1 ls1.
Proof. apply honestb_ok. vm_compute. reflexivity. Qed.

(** The observations the examples are about. *)
Definition observe {A} (f : dmap -> A) : option (list (list N) * A) :=
  match program oracle1 info1 ops1 with
  | Done (l, r) => Some (l, f (p_map r))
  | _ => None
  end.

(** ** C31: containment *)

(** The pairs of storey and element in the containment relations are those of the
    calls, each as often; no element is listed twice in all relations together; there
    is one containment relation for each storey. *)
Theorem C31_contained o i xs ls r :
  fair o -> program o i xs = Done (ls, r) -> honest [] xs ls ->
  Permutation (pairs KRelContainedInSpatialStructure 5 4 (p_map r)) (flat_map call_contains (calls [] xs ls)) /\
  NoDup (map snd (pairs KRelContainedInSpatialStructure 5 4 (p_map r))) /\
  Permutation (ones KRelContainedInSpatialStructure 5 (p_map r)) (flat_map call_storey (calls [] xs ls)) /\
  NoDup (ones KRelContainedInSpatialStructure 5 (p_map r)).
Proof. exact (fun Ho Hr Hh => out_contains o Ho i xs ls r Hr Hh). Qed.
Print Assumptions C31_contained.

Example C31_example :
  fair oracle1 /\ honest [] ops1 ls1 /\
  observe (pairs KRelContainedInSpatialStructure 5 4) =
    Some (ls1, [(27, 155); (27, 59); (27, 166); (27, 199); (27, 188); (27, 92)]) /\
  flat_map call_contains (calls [] ops1 ls1) =
    [(27, 59); (27, 92); (27, 155); (27, 166); (27, 188); (27, 199)] /\
  observe (ones KRelContainedInSpatialStructure 5) = Some (ls1, [27; 236]).
Proof.
  split; [exact fair1|]. split; [exact honest1|].
  split; [vm_compute; reflexivity|]. split; vm_compute; reflexivity.
Qed.

(** ** C32: openings and windows *)

(** The void relations are those of the openings, the fill relations those of the
    windows; no opening has two void relations, no opening and no window two fill
    relations. *)
Theorem C32_voids o i xs ls r :
  fair o -> program o i xs = Done (ls, r) -> honest [] xs ls ->
  Permutation (pairs KRelVoidsElement 4 5 (p_map r)) (flat_map call_voids (calls [] xs ls)) /\
  NoDup (map snd (pairs KRelVoidsElement 4 5 (p_map r))).
Proof. exact (fun Ho Hr Hh => out_voids o Ho i xs ls r Hr Hh). Qed.
Print Assumptions C32_voids.

Theorem C32_fills o i xs ls r :
  fair o -> program o i xs = Done (ls, r) -> honest [] xs ls ->
  Permutation (pairs KRelFillsElement 4 5 (p_map r)) (flat_map call_fills (calls [] xs ls)) /\
  NoDup (map fst (pairs KRelFillsElement 4 5 (p_map r))) /\
  NoDup (map snd (pairs KRelFillsElement 4 5 (p_map r))).
Proof. exact (fun Ho Hr Hh => out_fills o Ho i xs ls r Hr Hh). Qed.
Print Assumptions C32_fills.

Example C32_example :
  observe (pairs KRelVoidsElement 4 5) = Some (ls1, [(59, 81); (59, 70); (166, 177)]) /\
  flat_map call_voids (calls [] ops1 ls1) = [(59, 70); (59, 81); (166, 177)] /\
  observe (pairs KRelFillsElement 4 5) = Some (ls1, [(177, 188); (81, 92)]) /\
  flat_map call_fills (calls [] ops1 ls1) = [(81, 92); (177, 188)].
Proof.
  split; [vm_compute; reflexivity|]. split; [vm_compute; reflexivity|].
  split; vm_compute; reflexivity.
Qed.

(** ** C33: types *)

(** The pairs of type and element in the type relations are those of the calls, and no
    element is listed twice; spaces are not among them. *)
Theorem C33_types o i xs ls r :
  fair o -> program o i xs = Done (ls, r) -> honest [] xs ls ->
  Permutation (pairs KRelDefinesByType 5 4 (p_map r)) (flat_map call_types (calls [] xs ls)) /\
  NoDup (map snd (pairs KRelDefinesByType 5 4 (p_map r))).
Proof. exact (fun Ho Hr Hh => out_types o Ho i xs ls r Hr Hh). Qed.
Print Assumptions C33_types.

(** No space is in a type relation, whatever type it was given. *)
Theorem C33_spaces_untyped o i xs ls r s ty name cs h q n :
  fair o -> program o i xs = Done (ls, r) -> honest [] xs ls ->
  In (s, OSpace ty name cs h q, [n]) (calls [] xs ls) ->
  ~ In n (map snd (pairs KRelDefinesByType 5 4 (p_map r))).
Proof. exact (out_spaces_untyped o i xs ls r s ty name cs h q n). Qed.
Print Assumptions C33_spaces_untyped.

(** So the claim for all elements with a type is false. *)
Theorem C33_all_types_refuted :
  ~ forall o i xs ls r, fair o -> program o i xs = Done (ls, r) -> honest [] xs ls ->
      Permutation (pairs KRelDefinesByType 5 4 (p_map r)) (flat_map call_types_all (calls [] xs ls)).
Proof.
  intro H. destruct (program oracle1 info1 ops1) as [[l r]| |] eqn:E; [|vm_compute in E; discriminate..].
  assert (l = ls1) as ->.
  { apply (f_equal (fun x => match x with Done (l, _) => Some l | _ => None end)) in E.
    vm_compute in E. injection E as <-. reflexivity. }
  specialize (H _ _ _ _ _ fair1 E honest1). apply Permutation_length in H.
  apply (f_equal (fun x => match x with Done (_, r) => length (pairs KRelDefinesByType 5 4 (p_map r)) | _ => 0%nat end)) in E.
  rewrite H in E. vm_compute in E. discriminate.
Qed.
Print Assumptions C33_all_types_refuted.

Example C33_example :
  observe (pairs KRelDefinesByType 5 4) =
    Some (ls1, [(40, 155); (40, 59); (41, 166); (42, 199); (43, 188); (43, 92)]) /\
  flat_map call_types_all (calls [] ops1 ls1) =
    [(40, 59); (43, 92); (40, 155); (41, 166); (43, 188); (42, 199); (44, 210); (44, 221)].
Proof. split; vm_compute; reflexivity. Qed.

(** ** C34: materials *)

(** The pairs of material and element or type in the associations are those of the
    calls, and nothing is listed twice. *)
Theorem C34_materials o i xs ls r :
  fair o -> program o i xs = Done (ls, r) -> honest [] xs ls ->
  Permutation (pairs KRelAssociatesMaterial 5 4 (p_map r)) (flat_map call_materials (calls [] xs ls)) /\
  NoDup (map snd (pairs KRelAssociatesMaterial 5 4 (p_map r))).
Proof. exact (fun Ho Hr Hh => out_materials o Ho i xs ls r Hr Hh). Qed.
Print Assumptions C34_materials.

(** There is one association for each class of elements or types and material that
    occur, with its elements in the order of their creation. *)
Theorem C34_one_association o i xs ls r :
  fair o -> program o i xs = Done (ls, r) -> honest [] xs ls ->
  exists keys, NoDup keys /\
    (forall k, In k keys <-> In k (map fst (flat_map call_users (calls [] xs ls)))) /\
    Permutation (map (fun l => (ids_at l 5, ids_at l 4)) (objects KRelAssociatesMaterial (p_map r)))
      (map (fun k => ([snd k], users_of k (flat_map call_users (calls [] xs ls)))) keys).
Proof. exact (fun Ho Hr Hh => out_associations o Ho i xs ls r Hr Hh). Qed.
Print Assumptions C34_one_association.

Example C34_example :
  observe (fun m => map (fun l => (ids_at l 5, ids_at l 4)) (objects KRelAssociatesMaterial m)) =
    Some (ls1, [ ([36], [59; 155]); ([36], [166]); ([36], [199]); ([39], [92; 188])
               ; ([35], [40]); ([35], [41]); ([35], [42]) ]) /\
  users_of (CWall, false, 36) (flat_map call_users (calls [] ops1 ls1)) = [59; 155].
Proof. split; vm_compute; reflexivity. Qed.

(** ** C35: the spatial tree *)

(** The pairs of parent and child in the aggregations are those of the calls; nothing
    has two parents; there is one aggregation for the project and for each site,
    building and storey. *)
Theorem C35_tree o i xs ls r :
  fair o -> program o i xs = Done (ls, r) -> honest [] xs ls ->
  Permutation (pairs KRelAggregates 4 5 (p_map r)) (flat_map (call_tree (p_project r)) (calls [] xs ls)) /\
  NoDup (map snd (pairs KRelAggregates 4 5 (p_map r))) /\
  Permutation (ones KRelAggregates 4 (p_map r)) (p_project r :: flat_map call_node (calls [] xs ls)) /\
  NoDup (ones KRelAggregates 4 (p_map r)).
Proof. exact (fun Ho Hr Hh => out_tree o Ho i xs ls r Hr Hh). Qed.
Print Assumptions C35_tree.

Example C35_example :
  observe (pairs KRelAggregates 4 5) =
    Some (ls1, [(27, 221); (27, 210); (23, 236); (23, 27); (19, 23); (14, 19)]) /\
  flat_map (call_tree 14) (calls [] ops1 ls1) =
    [(14, 19); (19, 23); (23, 27); (27, 210); (27, 221); (23, 236)] /\
  observe (ones KRelAggregates 4) = Some (ls1, [27; 236; 23; 19; 14]).
Proof. split; [vm_compute; reflexivity|]. split; vm_compute; reflexivity. Qed.
