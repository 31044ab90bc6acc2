(** Properties of what built models say of the arguments of the calls: C49, C50.

    [says m (n, k, al)]: the object [n] of kind [k] has the attributes [al], each with
    its number. *)

From Coq Require Import String Ascii List NArith ZArith Bool.
From Verif Require Import Base Prims Float Arith Kind Types Schema Entity DataMap Builder BuilderRun BuilderSpec
  HistorySpec GivenSpec BuilderGiven BuilderGiven2 BuilderExample P_Builder.
Import ListNotations.
Open Scope N_scope.

(** ** C49: the model says what the caller gave *)

(** The objects with the ids a call returned have the names, predefined types, layers,
    constituents, thicknesses, directions, offsets and values of the call, during the
    program ... *)
Theorem C49_reached o i xs ls m c f :
  reached o i xs ls m -> In c (calls [] xs ls) -> In f (call_given c) -> says m f.
Proof.
  exact (fun R Hc => proj1 (Forall_forall _ _) (proj1 (proj1 (Forall_forall _ _) (reached_given o i xs ls m R) c Hc)) f).
Qed.
Print Assumptions C49_reached.

(** ... and in the model that is built. *)
Theorem C49_built o i xs ls r c f :
  program o i xs = Done (ls, r) -> In c (calls [] xs ls) -> In f (call_given c) -> says (p_map r) f.
Proof.
  exact (fun R Hc => proj1 (Forall_forall _ _) (proj1 (proj1 (Forall_forall _ _) (built_given o i xs ls r R) c Hc)) f).
Qed.
Print Assumptions C49_built.

(** Layers and constituents refer to a material with the name given. *)
Theorem C49_materials o i xs ls r c q :
  program o i xs = Done (ls, r) -> In c (calls [] xs ls) -> In q (call_material c) -> made_of (p_map r) q.
Proof.
  exact (fun R Hc => proj1 (Forall_forall _ _) (proj2 (proj1 (Forall_forall _ _) (built_given o i xs ls r R) c Hc)) q).
Qed.
Print Assumptions C49_materials.

(** The project says who made it with what, and has units. *)
Theorem C49_project o i xs ls r : program o i xs = Done (ls, r) -> project_told (p_map r) i.
Proof. exact (built_project o i xs ls r). Qed.
Print Assumptions C49_project.

Example C49_example :
  observe (fun m => (lookup m 33, lookup m 32, lookup m 36)) = Some (ls1,
    (Some (Ent KMaterialLayer (VId 32 :: tl layer1)), Some (Ent KMaterial [VStr (lit "wood"); VOmit; VOmit]),
     Some (Ent KMaterialLayerSetUsage [VId 35; VEnum 1; VEnum 0; VReal f_zero; VOmit]))) /\
  nth_error (calls [] ops1 ls1) 4 = Some ([27; 23; 19], OLayer (lit "wood") layer1, [33]) /\
  call_given ([27; 23; 19], OLayer (lit "wood") layer1, [33]) =
    [(33, KMaterialLayer, [(1%nat, VReal f_half); (2%nat, VBool BFalse); (3%nat, VOmit); (4%nat, VOmit);
                           (5%nat, VOmit); (6%nat, VOmit)])] /\
  call_material ([27; 23; 19], OLayer (lit "wood") layer1, [33]) = [(33, 0%nat, lit "wood")] /\
  nth_error (calls [] ops1 ls1) 17 =
    Some ([59; 27; 23; 19], OWallWindow 39 43 (lit "win") f_half f_half v_x v_z, [81; 92]) /\
  map snd (call_given ([59; 27; 23; 19], OWallWindow 39 43 (lit "win") f_half f_half v_x v_z, [81; 92])) =
    [[(2%nat, VStr (lit "OpeningElementOfWindowwin"))]; [(2%nat, VStr (lit "win"))]].
Proof. repeat (split; [vm_compute; reflexivity|]). vm_compute. reflexivity. Qed.

(** ** C50: properties *)

(** The pairs of property set and object in the relations are exactly those of the
    calls, in their order: the sets related with [relate], and the set of a wall, which
    has the name and the properties it was given. *)
Theorem C50_relations o i xs ls r :
  program o i xs = Done (ls, r) ->
  described (p_map r) [] (calls [] xs ls) (pairs KRelDefinesByProperties 5 4 (p_map r)).
Proof. exact (built_described o i xs ls r). Qed.
Print Assumptions C50_relations.

(** So an object has properties only if a call gave it properties. *)
Theorem C50_only o i xs ls r s b :
  program o i xs = Done (ls, r) -> In (s, b) (pairs KRelDefinesByProperties 5 4 (p_map r)) ->
  exists c, In c (calls [] xs ls) /\
    ((exists t a, c = (t, ORelate s b, a)) \/ exists z st bu si a, c = ([z; b; st; bu; si], ODrop, a)).
Proof. exact (fun R => described_only _ _ _ _ (built_described o i xs ls r R) s b). Qed.
Print Assumptions C50_only.

(** A set that is finished has the name it was started with and the properties that
    were added, in their order. *)
Theorem C50_sets o i xs ls r c1 c c2 :
  program o i xs = Done (ls, r) -> calls [] xs ls = c1 ++ c :: c2 ->
  Forall (says (p_map r)) (set_given c1 c) /\
  (snd (fst c) = OFinishSet -> exists n t, snd c = [n] /\ sheet c1 = Some t).
Proof. exact (fun R => built_sets o i xs ls r R c1 c c2). Qed.
Print Assumptions C50_sets.

(** The elevation of every storey is stored as a property ... *)
Theorem C50_heights o i xs ls r e :
  program o i xs = Done (ls, r) -> In e (flat_map call_height (calls [] xs ls)) -> height_told (p_map r) e.
Proof. exact (fun R => proj1 (Forall_forall _ _) (built_height o i xs ls r R) e). Qed.
Print Assumptions C50_heights.

(** ... of a set that is not related to the storey. *)
Theorem C50_storey_refuted :
  ~ forall o i xs ls r s name e n,
      fair o -> program o i xs = Done (ls, r) -> honest [] xs ls -> In (s, ONewStorey name e, [n]) (calls [] xs ls) ->
      exists t q, In (t, n) (pairs KRelDefinesByProperties 5 4 (p_map r)) /\
        says (p_map r) (set_of t (lit "StoreyProperties", [q])).
Proof.
  intro H. destruct (program oracle1 info1 ops1) as [[l r]| |] eqn:E; [|vm_compute in E; discriminate E..].
  assert (l = ls1) as ->.
  { apply (f_equal (fun x => match x with Done (l, _) => Some l | _ => None end)) in E.
    vm_compute in E. injection E as <-. reflexivity. }
  destruct (H _ _ _ _ _ [23; 19] (lit "ground") f_one 27 fair1 E honest1) as (t & q & Hi & _).
  - right. right. left. reflexivity.
  - assert (V : match program oracle1 info1 ops1 with
                | Done (_, r) => pairs KRelDefinesByProperties 5 4 (p_map r) = [(94, 59)] | _ => True end)
      by (vm_compute; reflexivity).
    rewrite E in V. rewrite V in Hi. destruct Hi as [X|[]]. discriminate X.
Qed.
Print Assumptions C50_storey_refuted.

(** A storey with a set of properties that is related to it. *)
Definition ops_set : list op :=
  [ ONewSite (lit "site") v_zero; ONewBuilding (lit "house") v_x; ONewStorey (lit "ground") f_one
  ; OSet (lit "facts"); OProperty (lit "area") (VMeasure 2 (VReal f_two)) None
  ; OProperty (lit "dry") (VMeasure 0 (VBool BTrue)) None; OFinishSet
  ; ORelate 32 27; ODrop; ODrop; ODrop ].
Definition ls_set : list (list N) := [[19]; [23]; [27]; []; [30]; [31]; [32]; []; []; []; []].
Definition observe_set {A} (f : dmap -> A) : option (list (list N) * A) :=
  match program oracle1 info1 ops_set with Done (l, r) => Some (l, f (p_map r)) | _ => None end.

Example C50_example :
  observe (pairs KRelDefinesByProperties 5 4) = Some (ls1, [(94, 59)]) /\
  observe (fun m => match lookup m 94 with Some (Ent k l) => Some (k, skipn 2 l) | _ => None end) =
    Some (ls1, Some (KPropertySet, [VStr (lit "facts"); VOmit; VList [VId 93]])) /\
  nth_error (calls [] ops1 ls1) 20 = Some ([0; 59; 27; 23; 19], ODrop, []) /\
  sheet (firstn 20 (calls [] ops1 ls1)) = Some (lit "facts", [93]) /\
  observe_set (pairs KRelDefinesByProperties 5 4) = Some (ls_set, [(32, 27)]) /\
  set_given (firstn 6 (calls [] ops_set ls_set)) ([0; 27; 23; 19], OFinishSet, [32]) =
    [set_of 32 (lit "facts", [30; 31])] /\
  nth_error (calls [] ops_set ls_set) 6 = Some ([0; 27; 23; 19], OFinishSet, [32]).
Proof. repeat (split; [vm_compute; reflexivity|]). vm_compute. reflexivity. Qed.
