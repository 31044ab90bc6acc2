(** Properties of the history of a program that uses the builder and of the placements
    it leaves: C36, C40.

    [reached o i xs ls m]: after the calls [xs], which returned the ids [ls], the model
    is [m]; the project has not been built yet. *)

From Coq Require Import String Ascii List NArith ZArith Bool.
From Verif Require Import Base Prims Float Arith Kind Types Schema Entity DataMap Builder BuilderRun BuilderSpec
  HistorySpec BuilderPlace BuilderKeep BuilderExample P_Builder.
Import ListNotations.
Open Scope N_scope.

(** The model after the first [n] calls of [ops1]. *)
Definition after (n : nat) : option (list (list N) * dmap) :=
  match start oracle1 info1 with
  | Done p => match run oracle1 AtProject (firstn n ops1) p with
              | Done (_, ls, q) => Some (ls, p_map q)
              | _ => None
              end
  | _ => None
  end.

Lemma after_reached n ls m : after n = Some (ls, m) -> reached oracle1 info1 (firstn n ops1) ls m.
Proof.
  unfold after, reached. generalize (start oracle1 info1). intros [p| |] H; try discriminate H.
  destruct (run oracle1 AtProject (firstn n ops1) p) as [[[w l] q]| |] eqn:E; try discriminate H.
  injection H as -> <-. exists p, w, q. auto.
Qed.

(** ** C36: nothing is removed, replaced or changed *)

(** Objects that exist after some calls exist after further calls, with the same
    attributes; only the list of representations of a product definition shape can
    differ.  Ids already returned stay returned. *)
Theorem C36_objects_stay o i xs ys ls ls' m m' :
  reached o i xs ls m -> reached o i (xs ++ ys) ls' m' ->
  (exists l2, ls' = ls ++ l2) /\
  forall n e, lookup m n = Some e -> exists e', lookup m' n = Some e' /\ same_but_representations e e'.
Proof.
  exact (fun H1 H2 => let H := history_reached o i xs ys ls ls' m m' H1 H2 in
                      conj (proj1 H) (proj1 (proj2 H))).
Qed.
Print Assumptions C36_objects_stay.

(** The same for the model that is built. *)
Theorem C36_until_build o i xs ys ls ls' m r :
  reached o i xs ls m -> program o i (xs ++ ys) = Done (ls', r) ->
  (exists l2, ls' = ls ++ l2) /\
  forall n e, lookup m n = Some e -> exists e', lookup (p_map r) n = Some e' /\ same_but_representations e e'.
Proof.
  exact (fun H1 H2 => let H := history_built o i xs ys ls ls' m r H1 H2 in
                      conj (proj1 H) (proj1 (proj2 H))).
Qed.
Print Assumptions C36_until_build.

(** Every id a call returned denotes an object of the kind of the call's result type,
    at any later time and in the model that is built. *)
Theorem C36_kinds o i xs ys ls ls' m m' k n :
  reached o i xs ls m -> reached o i (xs ++ ys) ls' m' ->
  In (k, n) (flat_map (fun c => returned (fst c) (snd c)) (combine xs ls)) ->
  exists l, lookup m' n = Some (Ent k l).
Proof.
  exact (fun H1 H2 => proj2 (proj2 (history_reached o i xs ys ls ls' m m' H1 H2)) k n).
Qed.
Print Assumptions C36_kinds.

Theorem C36_kinds_built o i xs ys ls ls' m r k n :
  reached o i xs ls m -> program o i (xs ++ ys) = Done (ls', r) ->
  In (k, n) (flat_map (fun c => returned (fst c) (snd c)) (combine xs ls)) ->
  exists l, lookup (p_map r) n = Some (Ent k l).
Proof.
  exact (fun H1 H2 => proj2 (proj2 (history_built o i xs ys ls ls' m r H1 H2)) k n).
Qed.
Print Assumptions C36_kinds_built.

(** Without transforms no object changes at all: the model only gets longer. *)
Theorem C36_no_transform o i xs ys ls ls' m m' :
  reached o i xs ls m -> reached o i (xs ++ ys) ls' m' ->
  forallb (fun x => match x with OTransform _ => false | _ => true end) xs = true ->
  forallb (fun x => negb (may_transform x)) ys = true ->
  exists new, m' = m ++ new.
Proof. exact (history_untouched o i xs ys ls ls' m m'). Qed.
Print Assumptions C36_no_transform.

(** The shapes with their representations, and the number of objects.  Calls 17 to 23
    of [ops1] make an opening, a window and properties and move the wall. *)
Definition shapes_in (m : dmap) : list (N * list N) * nat :=
  (flat_map (fun q => match snd q with
                      | Ent KProductDefinitionShape l => [(fst q, ids_at l 2)]
                      | _ => []
                      end) m, length m).
Definition shapes_after (n : nat) := option_map (fun q => shapes_in (snd q)) (after n).
Example C36_example :
  shapes_after 16 = Some ([(58, [53; 54])], 59%nat) /\
  shapes_after 22 = Some ([(58, [53; 54]); (68, [66]); (79, [77]); (90, [87])], 95%nat) /\
  shapes_after 23 = Some ([(58, [105; 110]); (68, [130]); (79, [120]); (90, [140])], 140%nat) /\
  (forall n, match after n with Some (ls, m) => reached oracle1 info1 (firstn n ops1) ls m | None => True end) /\
  nth_error (flat_map (fun c => returned (fst c) (snd c)) (combine ops1 ls1)) 15 = Some (KWall, 59) /\
  observe (fun m => option_map kind_of (lookup m 59)) = Some (ls1, Some KWall).
Proof.
  split; [vm_compute; reflexivity|]. split; [vm_compute; reflexivity|]. split; [vm_compute; reflexivity|].
  split; [|split; vm_compute; reflexivity].
  intro n. pose proof (after_reached n) as H. destruct (after n) as [[ls m]|]; auto.
Qed.

(** ** C40: placements *)

(** Every product is placed relative to the product it was created in, up to the site,
    which is placed absolutely; ids of placements decrease along this path. *)
Theorem C40_paths o i xs ls r c l :
  program o i xs = Done (ls, r) -> In c (calls [] xs ls) -> In l (call_path c) -> path (p_map r) l.
Proof.
  exact (fun H Hc Hl => proj1 (Forall_forall _ _) (proj1 (proj1 (Forall_forall _ _) (proj1 (program_places o i xs ls r H)) c Hc)) l Hl).
Qed.
Print Assumptions C40_paths.

(** The path ends at the site that was alive, and so do the placements. *)
Theorem C40_end_at_site o i xs ls r s x a l :
  program o i xs = Done (ls, r) -> In (s, x, a) (calls [] xs ls) -> In l (call_path (s, x, a)) ->
  exists name v, In ([], ONewSite name v, [last l 0]) (calls [] xs ls) /\
    forall n pl, hd_error l = Some n -> placement (p_map r) n = Some pl ->
      exists q, placement (p_map r) (last l 0) = Some q /\ ends (p_map r) pl q.
Proof. exact (path_at_site o i xs ls r s x a l). Qed.
Print Assumptions C40_end_at_site.

(** Every local placement of the model is absolute or relative to an older one; so
    following what they are relative to always ends. *)
Theorem C40_older o i xs ls r n l :
  program o i xs = Done (ls, r) -> lookup (p_map r) n = Some (Ent KLocalPlacement l) ->
  relative (p_map r) n = Some None \/
  exists q, relative (p_map r) n = Some (Some q) /\ q < n /\ relative (p_map r) q <> None.
Proof. exact (fun H => proj2 (program_places o i xs ls r H) n l). Qed.
Print Assumptions C40_older.

Theorem C40_terminates o i xs ls r n l :
  program o i xs = Done (ls, r) -> lookup (p_map r) n = Some (Ent KLocalPlacement l) ->
  exists q, ends (p_map r) n q /\ relative (p_map r) q = Some None.
Proof. exact (placements_end o i xs ls r n l). Qed.
Print Assumptions C40_terminates.

(** Products are where the calls say, relative to that. *)
Theorem C40_coordinates o i xs ls r c n v :
  program o i xs = Done (ls, r) -> In c (calls [] xs ls) -> In (n, v) (call_place c) -> at_point (p_map r) n v.
Proof.
  exact (fun H Hc Hn => proj1 (Forall_forall _ _) (proj2 (proj1 (Forall_forall _ _) (proj1 (program_places o i xs ls r H)) c Hc)) (n, v) Hn).
Qed.
Print Assumptions C40_coordinates.

Example C40_example :
  flat_map call_path (calls [] ops1 ls1) =
    [[19]; [23; 19]; [27; 23; 19]; [59; 27; 23; 19]; [70; 59; 27; 23; 19]; [81; 59; 27; 23; 19];
     [92; 81; 59; 27; 23; 19]; [155; 27; 23; 19]; [166; 27; 23; 19]; [177; 166; 27; 23; 19];
     [188; 177; 166; 27; 23; 19]; [199; 27; 23; 19]; [210; 27; 23; 19]; [221; 27; 23; 19]; [236; 23; 19]] /\
  observe (fun m => map (fun n => (placement m n, option_map (relative m) (placement m n))) [92; 81; 59; 27; 23; 19]) =
    Some (ls1, [(Some 91, Some (Some (Some 80))); (Some 80, Some (Some (Some 57)));
                (Some 57, Some (Some (Some 26))); (Some 26, Some (Some (Some 22)));
                (Some 22, Some (Some (Some 18))); (Some 18, Some (Some None))]).
Proof. split; vm_compute; reflexivity. Qed.
