(** Properties of transforms: C38, C39.

    [drawn m n rs]: the product [n] has the representations [rs]; [moves cs c n mv]: the
    call [c] made after the calls [cs] has to move the product [n] by [mv];
    [mapped m mv r' r]: the representation [r'] shows [r] moved. *)

From Coq Require Import String Ascii List NArith ZArith Bool.
From Verif Require Import Base Prims Float Arith Kind Types Schema Entity DataMap Builder BuilderRun BuilderSpec BuilderOut
  HistorySpec MoveSpec BuilderMove3 BuilderExample P_Builder P_Place.
Import ListNotations.
Open Scope N_scope.

(** The model after the calls [xs]. *)
Definition after_all (xs : list op) : option (list (list N) * dmap) :=
  match start oracle1 info1 with
  | Done p => match run oracle1 AtProject xs p with
              | Done (_, ls, q) => Some (ls, p_map q)
              | _ => None
              end
  | _ => None
  end.
Lemma after_all_reached xs ls m : after_all xs = Some (ls, m) -> reached oracle1 info1 xs ls m.
Proof.
  unfold after_all, reached. generalize (start oracle1 info1). intros [p| |] H; try discriminate H.
  destruct (run oracle1 AtProject xs p) as [[[w l] q]| |] eqn:E; try discriminate H.
  injection H as -> <-. exists p, w, q. auto.
Qed.

(** ** C39: what a call moves *)

(** A call moves the products it has to, each by one move, every representation by
    itself and in its place ... *)
Theorem C39_moved o i xs ls x a m m' c n mv :
  fair o -> honest [] (xs ++ [x]) (ls ++ [a]) ->
  reached o i xs ls m -> reached o i (xs ++ [x]) (ls ++ [a]) m' ->
  calls [] (xs ++ [x]) (ls ++ [a]) = calls [] xs ls ++ [c] ->
  moves (calls [] xs ls) c n mv ->
  (exists rs rs', drawn m n rs /\ drawn m' n rs' /\ Forall2 (mapped m' mv) rs' rs) /\
  forall mv', moves (calls [] xs ls) c n mv' -> mv' = mv.
Proof.
  exact (fun Ho HH R1 R2 E Hm => let H := one_call o Ho i xs ls x a m m' c HH R1 R2 E in
    conj (proj1 H n mv Hm) (fun mv' Hm' => proj2 (proj2 H) n mv' mv Hm' Hm)).
Qed.
Print Assumptions C39_moved.

(** ... and changes nothing else: every object stays as it is except the shapes of the
    products that are moved, and no two products have the same shape. *)
Theorem C39_rest_stays o i xs ls x a m m' c k e :
  fair o -> honest [] (xs ++ [x]) (ls ++ [a]) ->
  reached o i xs ls m -> reached o i (xs ++ [x]) (ls ++ [a]) m' ->
  calls [] (xs ++ [x]) (ls ++ [a]) = calls [] xs ls ++ [c] ->
  lookup m k = Some e -> (forall n mv, moves (calls [] xs ls) c n mv -> shape_of m n <> Some k) ->
  lookup m' k = Some e.
Proof. exact (fun Ho HH R1 R2 E => proj1 (proj2 (one_call o Ho i xs ls x a m m' c HH R1 R2 E)) k e). Qed.
Print Assumptions C39_rest_stays.

Theorem C39_own_shapes o i xs ls m k k' n n' s :
  fair o -> reached o i xs ls m -> honest [] xs ls ->
  In (k, n) (flat_map call_products (calls [] xs ls)) -> In (k', n') (flat_map call_products (calls [] xs ls)) ->
  shape_of m n = Some s -> shape_of m n' = Some s -> n = n'.
Proof. exact (fun Ho R HH => proj2 (products_drawn o Ho i xs ls m R HH) k k' n n' s). Qed.
Print Assumptions C39_own_shapes.

(** Call 23 of [ops1] finishes the wall 59 that has the openings 70 and 81 and the
    window 92. *)
Definition ls_to (n : nat) : list (list N) := firstn n ls1.
Example C39_example :
  let cs := calls [] (firstn 22 ops1) (ls_to 22) in
  let c := ([59; 27; 23; 19], ODrop, []) in
  calls [] (firstn 22 ops1 ++ [ODrop]) (ls_to 22 ++ [[]]) = cs ++ [c] /\
  honest [] (firstn 22 ops1 ++ [ODrop]) (ls_to 22 ++ [[]]) /\
  (exists m m', reached oracle1 info1 (firstn 22 ops1) (ls_to 22) m /\
    reached oracle1 info1 (firstn 22 ops1 ++ [ODrop]) (ls_to 22 ++ [[]]) m' /\
    fst (shapes_in m) = [(58, [53; 54]); (68, [66]); (79, [77]); (90, [87])] /\
    fst (shapes_in m') = [(58, [105; 110]); (68, [130]); (79, [120]); (90, [140])] /\
    map (role m) [53; 54] = [Some 8%nat; Some 3%nat] /\ map (role m') [105; 110] = [Some 8%nat; Some 3%nat]) /\
  moves cs c 59 (true, move1, v_zero) /\
  moves cs c 81 (true, seen_from v_x move1, v_x) /\
  moves cs c 92 (true, seen_from v_x move1, v_x).
Proof.
  cbv zeta. split; [vm_compute; reflexivity|]. split; [apply honestb_ok; vm_compute; reflexivity|]. split.
  - pose proof (after_all_reached (firstn 22 ops1)) as R1. pose proof (after_all_reached (firstn 22 ops1 ++ [ODrop])) as R2.
    destruct (after_all (firstn 22 ops1)) as [[l m]|] eqn:E1; [|vm_compute in E1; discriminate E1].
    destruct (after_all (firstn 22 ops1 ++ [ODrop])) as [[l' m']|] eqn:E2; [|vm_compute in E2; discriminate E2].
    exists m, m'.
    assert (l = ls_to 22) as <-.
    { apply (f_equal (option_map fst)) in E1. vm_compute in E1. injection E1 as <-. vm_compute. reflexivity. }
    assert (l' = l ++ [[]]) as <-.
    { apply (f_equal (option_map fst)) in E1, E2. vm_compute in E1, E2. injection E1 as <-. injection E2 as <-. reflexivity. }
    split; [now apply R1|]. split; [now apply R2|].
    assert (V1 : option_map (fun q => (fst (shapes_in (snd q)), map (role (snd q)) [53; 54])) (after_all (firstn 22 ops1)) =
      Some ([(58, [53; 54]); (68, [66]); (79, [77]); (90, [87])], [Some 8%nat; Some 3%nat])) by (vm_compute; reflexivity).
    assert (V2 : option_map (fun q => (fst (shapes_in (snd q)), map (role (snd q)) [105; 110])) (after_all (firstn 22 ops1 ++ [ODrop])) =
      Some ([(58, [105; 110]); (68, [130]); (79, [120]); (90, [140])], [Some 8%nat; Some 3%nat])) by (vm_compute; reflexivity).
    rewrite E1 in V1. rewrite E2 in V2. cbn [option_map snd] in V1, V2. split; [congruence|]. split; [congruence|].
    split; congruence.
  - split; [apply moves_host; vm_compute; reflexivity|]. split.
    + eapply moves_opening; [vm_compute; reflexivity| |]; vm_compute; tauto.
    + eapply (moves_window _ 59 27 23 19 [] move1 81); [vm_compute; reflexivity| | |]; vm_compute; tauto.
Qed.

(** ** C38: a product keeps the number and order of its representations *)

(** Every product has a shape with representations ... *)
Theorem C38_drawn o i xs ls m k n :
  fair o -> reached o i xs ls m -> honest [] xs ls ->
  In (k, n) (flat_map call_products (calls [] xs ls)) -> exists rs, drawn m n rs.
Proof. exact (fun Ho R HH => proj1 (products_drawn o Ho i xs ls m R HH) k n). Qed.
Print Assumptions C38_drawn.

(** ... and after further calls as many as before, each showing the earlier one in its
    place after the moves these calls had to make, in their order. *)
Theorem C38_representations_stay o i xs ys ls l2 m m' ds k n mvs :
  fair o -> reached o i xs ls m -> reached o i (xs ++ ys) (ls ++ l2) m' -> honest [] (xs ++ ys) (ls ++ l2) ->
  In (k, n) (flat_map call_products (calls [] xs ls)) ->
  calls [] (xs ++ ys) (ls ++ l2) = calls [] xs ls ++ ds -> journey n (calls [] xs ls) ds mvs ->
  exists rs rs', drawn m n rs /\ drawn m' n rs' /\ Forall2 (moved m' mvs) rs' rs.
Proof. exact (fun Ho R1 R2 HH HP => history_moved o Ho i xs ys ls l2 m m' k n mvs R1 R2 HH HP ds). Qed.
Print Assumptions C38_representations_stay.

(** The same for the model that is built. *)
Theorem C38_until_build o i xs ys ls l2 m r ds k n mvs :
  fair o -> reached o i xs ls m -> program o i (xs ++ ys) = Done (ls ++ l2, r) -> honest [] (xs ++ ys) (ls ++ l2) ->
  In (k, n) (flat_map call_products (calls [] xs ls)) ->
  calls [] (xs ++ ys) (ls ++ l2) = calls [] xs ls ++ ds -> journey n (calls [] xs ls) ds mvs ->
  exists rs rs', drawn m n rs /\ drawn (p_map r) n rs' /\ Forall2 (moved (p_map r) mvs) rs' rs.
Proof. exact (fun Ho R1 R2 HH HP => built_moved o Ho i xs ys ls l2 m r k n mvs R1 R2 HH HP ds). Qed.
Print Assumptions C38_until_build.

(** There always is such a list of moves. *)
Theorem C38_journey n cs ds : exists mvs, journey n cs ds mvs.
Proof. exact (journey_exists n ds cs). Qed.
Print Assumptions C38_journey.

(** Moves of walls and slabs that are finished keep the identifiers (Axis, Body) of the
    representations. *)
Theorem C38_roles m mvs r r' j :
  moved m mvs r r' -> Forall (fun mv => fst (fst mv) = true) mvs -> role m r' = Some j -> role m r = Some j.
Proof. exact (moved_roles m mvs r r' j). Qed.
Print Assumptions C38_roles.

(** The transforms of the storey do not: the axis of a wall is called body afterwards. *)
Definition ops_axis : list op := firstn 16 ops1 ++ [ODrop].
Definition ls_axis : list (list N) := firstn 16 ls1 ++ [[]].
Theorem C38_storey_roles_refuted :
  ~ forall o i xs ls x a m m' n rs rs',
      fair o -> honest [] (xs ++ [x]) (ls ++ [a]) -> reached o i xs ls m -> reached o i (xs ++ [x]) (ls ++ [a]) m' ->
      drawn m n rs -> drawn m' n rs' -> map (role m') rs' = map (role m) rs.
Proof.
  intro H. pose proof (after_all_reached ops_axis) as R1.
  pose proof (after_all_reached (ops_axis ++ [OStoreyTransform KWall 59 move1])) as R2.
  destruct (after_all ops_axis) as [[l m]|] eqn:E1; [|vm_compute in E1; discriminate E1].
  destruct (after_all (ops_axis ++ [OStoreyTransform KWall 59 move1])) as [[l' m']|] eqn:E2; [|vm_compute in E2; discriminate E2].
  assert (l' = l ++ [[]]) as ->.
  { apply (f_equal (option_map fst)) in E1, E2. vm_compute in E1, E2. injection E1 as <-. injection E2 as <-. reflexivity. }
  assert (HH : honest [] (ops_axis ++ [OStoreyTransform KWall 59 move1]) (l ++ [[]])).
  { apply honestb_ok. apply (f_equal (option_map fst)) in E1. vm_compute in E1. injection E1 as <-. vm_compute. reflexivity. }
  specialize (H _ _ _ _ _ _ _ _ 59 [53; 54] [69; 74] fair1 HH (R1 _ _ eq_refl) (R2 _ _ eq_refl)).
  assert (V1 : option_map (fun q => (shape_of (snd q) 59, lookup (snd q) 58, map (role (snd q)) [53; 54])) (after_all ops_axis) =
    Some (Some 58, Some (Ent KProductDefinitionShape [VOmit; VOmit; VList (map VId [53; 54])]), [Some 8%nat; Some 3%nat]))
    by (vm_compute; reflexivity).
  assert (V2 : option_map (fun q => (shape_of (snd q) 59, lookup (snd q) 58, map (role (snd q)) [69; 74]))
                 (after_all (ops_axis ++ [OStoreyTransform KWall 59 move1])) =
    Some (Some 58, Some (Ent KProductDefinitionShape [VOmit; VOmit; VList (map VId [69; 74])]), [Some 8%nat; Some 8%nat]))
    by (vm_compute; reflexivity).
  rewrite E1 in V1. rewrite E2 in V2. cbn [option_map snd] in V1, V2.
  injection V1 as S1 L1 Q1 Q2. injection V2 as S2 L2 Q3 Q4.
  assert (D1 : drawn m 59 [53; 54]) by (exists 58; split; assumption).
  assert (D2 : drawn m' 59 [69; 74]) by (exists 58; split; assumption).
  specialize (H D1 D2). cbn [map] in H. rewrite Q2, Q4 in H. injection H. discriminate.
Qed.
Print Assumptions C38_storey_roles_refuted.

(** The wall of [ops1] is created by call 16; call 23 moves it, later calls do not. *)
Example C38_example :
  journey 59 (calls [] (firstn 22 ops1) (ls_to 22)) [([59; 27; 23; 19], ODrop, [])] [(true, move1, v_zero)] /\
  In (KWall, 59) (flat_map call_products (calls [] (firstn 22 ops1) (ls_to 22))) /\
  observe (fun m => fst (shapes_in m)) =
    Some (ls1, [(58, [105; 110]); (68, [130]); (79, [120]); (90, [140]); (154, [149; 150]); (165, [161]); (175, [172]);
                (186, [183]); (198, [194]); (209, [205]); (220, [216])]).
Proof.
  split; [|split; [vm_compute; tauto|vm_compute; reflexivity]].
  apply journey_move; [apply moves_host; vm_compute; reflexivity|apply journey_end].
Qed.
