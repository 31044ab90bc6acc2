(** Properties of the public constructors and setters: C53. *)

From Coq Require Import String Ascii List NArith ZArith Bool Lia.
From Verif Require Import Mapping Base Prims Guid Float Kind Types WellTyped Schema Entity EntitySpec DataMap
  Header File HeaderSpec FileSpec StrictTime FileFacts FileFacts2 Api ApiSpec ApiFacts4 ApiFacts5 ApiFacts6 ApiExample P_File.
Import ListNotations.
Open Scope N_scope.

(** ** C53: programs of constructors, setters and insertions *)

(** A program starts with a model without dangling references, its ids are those of
    objects of the model, and the compiler lets it pass.  Then every statement does what
    is written, and panics exactly if there are no ids left or it appends to the star. *)
Theorem C53_effect v h m xs w os x :
  ifc_ok v (mk_ifc h m) -> ~ dangling m -> prog_ok false xs (mk_world [] m) ->
  execs xs (mk_world [] m) = Done (w, os) -> stmt_ok false x w ->
  (exec x w <> Err) /\
  (exec x w = Panic <-> ~ room (w_map w) (length (uses x)) \/ starred x w) /\
  (forall w' o, exec x w = Done (w', o) -> effect x w w' o).
Proof. exact (program_effect v h m xs w os x). Qed.
Print Assumptions C53_effect.

(** The model of such a program can be saved, and loading it does not panic. *)
Theorem C53_safe v h m xs :
  ifc_ok v (mk_ifc h m) -> ~ dangling m -> prog_ok false xs (mk_world [] m) ->
  execs xs (mk_world [] m) <> Err /\
  forall w os, execs xs (mk_world [] m) = Done (w, os) ->
    ifc_ok v (mk_ifc h (w_map w)) /\ load v (save (mk_ifc h (w_map w))) <> Panic.
Proof. exact (program_safe v h m xs). Qed.
Print Assumptions C53_safe.

(** If moreover all references are to kinds of [accepted] and [accepted_set], it loads. *)
Theorem C53_loads v h m xs w os :
  ifc_ok v (mk_ifc h m) -> refs_ok m -> prog_ok true xs (mk_world [] m) ->
  execs xs (mk_world [] m) = Done (w, os) ->
  load v (save (mk_ifc h (w_map w))) = Done (norm_ifc (mk_ifc h (w_map w))).
Proof. exact (program_loads v h m xs w os). Qed.
Print Assumptions C53_loads.

(** Those are exactly the kinds: with one other reference the model does not load. *)
Theorem C53_new_exact v h m xs w os c g args w1 o1 w2 o2 :
  ifc_ok v (mk_ifc h m) -> refs_ok m -> prog_ok true xs (mk_world [] m) -> execs xs (mk_world [] m) = Done (w, os) ->
  stmt_ok false (SNew c g args) w -> exec (SNew c g args) w = Done (w1, o1) ->
  exec (SInsert (length (w_regs w))) w1 = Done (w2, o2) ->
  ((forall i a k, nth_error args i = Some a -> refers (w_regs w) (w_map w) a k -> accepted c i k = true) ->
   load v (save (mk_ifc h (w_map w2))) = Done (norm_ifc (mk_ifc h (w_map w2)))) /\
  (forall i a k, nth_error args i = Some a -> refers (w_regs w) (w_map w) a k -> accepted c i k = false ->
   load v (save (mk_ifc h (w_map w2))) = Err).
Proof. exact (new_exact v h m xs w os c g args w1 o1 w2 o2). Qed.
Print Assumptions C53_new_exact.

Theorem C53_set_exact v h m xs w os r s a x w1 o1 w2 o2 :
  ifc_ok v (mk_ifc h m) -> refs_ok m -> prog_ok true xs (mk_world [] m) -> execs xs (mk_world [] m) = Done (w, os) ->
  stmt_ok false (SSet r s a) w -> nth_error (w_regs w) r = Some x -> exec (SSet r s a) w = Done (w1, o1) ->
  exec (SInsert r) w1 = Done (w2, o2) ->
  ((forall k, refers (w_regs w) (w_map w) a k -> accepted_set s (fst x) k = true) ->
   load v (save (mk_ifc h (w_map w2))) = Done (norm_ifc (mk_ifc h (w_map w2)))) /\
  (forall k, refers (w_regs w) (w_map w) a k -> accepted_set s (fst x) k = false ->
   load v (save (mk_ifc h (w_map w2))) = Err).
Proof. exact (set_exact v h m xs w os r s a x w1 o1 w2 o2). Qed.
Print Assumptions C53_set_exact.

(** Setters of different attributes commute, if they are given values and ids. *)
Theorem C53_setters_commute v h m xs w os r s a r' s' a' :
  ifc_ok v (mk_ifc h m) -> ~ dangling m ->
  prog_ok false xs (mk_world [] m) -> execs xs (mk_world [] m) = Done (w, os) ->
  stmt_ok false (SSet r s a) w -> stmt_ok false (SSet r' s' a') w -> arg_regs a = [] -> arg_regs a' = [] ->
  r <> r' \/ (forall n, In n (setter_attrs s) -> ~ In n (setter_attrs s')) ->
  execs (xs ++ [SSet r s a; SSet r' s' a']) (mk_world [] m) = execs (xs ++ [SSet r' s' a'; SSet r s a]) (mk_world [] m).
Proof. exact (program_comm v h m xs w os r s a r' s' a'). Qed.
Print Assumptions C53_setters_commute.

(** The last call of a setter that does not append is the one that counts. *)
Theorem C53_last_setter m xs w os r s a b :
  execs xs (mk_world [] m) = Done (w, os) ->
  stmt_ok false (SSet r s a) w -> ~ In s appenders -> arg_regs a = [] -> ~ In r (arg_regs b) ->
  obind (execs (xs ++ [SSet r s a; SSet r s b]) (mk_world [] m)) (fun y => Done (fst y)) =
  obind (execs (xs ++ [SSet r s b]) (mk_world [] m)) (fun y => Done (fst y)).
Proof. exact (program_last m xs w os r s a b). Qed.
Print Assumptions C53_last_setter.

(** ** A program *)

Definition id1 : list N := [1; 2; 3; 4; 5; 6; 7; 8; 9; 10; 11; 12; 13; 14; 15; 16].
Definition word (s : string) : arg := AOne (IPlain (VStr (lit s))).

(** A person and an organization, the history of their changes, and a wall at an origin
    with that history, in the model of the examples. *)
Definition program1 : list stmt :=
  [ SNew Person_empty id1 []
  ; SSet 0 person_given_name (word "Ada")
  ; SSet 0 person_add_middle_name (word "King")
  ; SSet 0 person_add_middle_name (word "Byron")
  ; SInsert 0
  ; SNew Organization_new id1 [ANone; word "Engines"; ANone]
  ; SInsert 1
  ; SNew PersonAndOrganization_new id1 [AOne (IId 10); AOne (IId 11)]
  ; SNew OwnerHistory_new id1 [AOne (IPlain (VEnum 0)); AOne (IPlain (VInt 1700000000))]
  ; SSet 3 history_owning_user (AOne (IReg 2))
  ; SNew Wall_new id1 [word "W1"]
  ; SSet 4 root_owner_history (AOne (IReg 3))
  ; SSet 4 root_name (word "W2")
  ; SInsert 4 ].

Lemma program1_ok : prog_ok true program1 (mk_world [] example_data).
Proof. apply progb_ok. vm_compute. reflexivity. Qed.

Definition world1 : world :=
  match execs program1 (mk_world [] example_data) with Done (w, _) => w | _ => mk_world [] [] end.

(** C53_effect, C53_safe, C53_loads: the program meets the hypotheses; its objects get the
    ids 10 to 14, and the model it makes is loaded. *)
Example C53_program_example :
  execs program1 (mk_world [] example_data) =
    Done (world1, [None; None; None; None; Some 10; None; Some 11; None; None; None; None; None; None; Some 14]) /\
  lookup (w_map world1) 10 = Some (Ent KPerson
    [VOmit; VOmit; VStr (lit "Ada"); VList [VStr (lit "King"); VStr (lit "Byron")]; VOmit; VOmit; VOmit; VOmit]) /\
  lookup (w_map world1) 14 = Some (Ent KWall
    [VGuid id1; VId 13; VStr (lit "W2"); VOmit; VOmit; VOmit; VOmit; VOmit; VOmit]) /\
  load env0 (save (mk_ifc example_header (w_map world1))) = Done (norm_ifc (mk_ifc example_header (w_map world1))).
Proof.
  assert (E : execs program1 (mk_world [] example_data) =
    Done (world1, [None; None; None; None; Some 10; None; Some 11; None; None; None; None; None; None; Some 14]))
    by (vm_compute; reflexivity).
  split; [exact E|]. split; [vm_compute; reflexivity|]. split; [vm_compute; reflexivity|].
  exact (C53_loads _ _ _ _ _ _ (proj1 example_ifc_ok) (proj1 (proj2 example_ifc_ok)) program1_ok E).
Qed.

(** C53_new_exact, C53_set_exact: after this program an aggregation of a storey would be
    loaded and one of the person is not, and so for the history of the wall. *)
Example C53_exact_example :
  stmt_ok false (SNew RelAggregates_new id1 [word "R"; AOne (IId 10); AMany [IId 14]]) world1 /\
  accepted RelAggregates_new 1 KPerson = false /\ accepted RelAggregates_new 1 KStorey = true /\
  stmt_ok false (SSet 4 root_owner_history (AOne (IId 10))) world1 /\
  accepted_set root_owner_history KWall KPerson = false /\ accepted_set root_owner_history KWall KOwnerHistory = true.
Proof.
  split; [apply stmtb_ok; vm_compute; reflexivity|]. split; [vm_compute; reflexivity|]. split; [vm_compute; reflexivity|].
  split; [apply stmtb_ok; vm_compute; reflexivity|]. split; vm_compute; reflexivity.
Qed.

(** C53_setters_commute, C53_last_setter: name and description of the wall. *)
Example C53_setters_example :
  stmt_ok false (SSet 4 root_name (word "W3")) world1 /\ stmt_ok false (SSet 4 root_description (word "long")) world1 /\
  (forall n, In n (setter_attrs root_name) -> ~ In n (setter_attrs root_description)) /\
  ~ In root_name appenders /\
  match exec (SSet 4 root_name (word "W3")) world1 with Done _ => true | _ => false end = true.
Proof.
  split; [apply stmtb_ok; vm_compute; reflexivity|]. split; [apply stmtb_ok; vm_compute; reflexivity|]. split; [|split].
  - intros n [<-|[]] [H|[]]. discriminate.
  - intro H. repeat (destruct H as [H|H]; [discriminate|]). exact H.
  - vm_compute. reflexivity.
Qed.

(** ** What the types let pass and the loader refuses *)

(** The lists [refused] and [extra] of the specification are exactly differences between
    the types and the loader: what is refused passes the types, what is extra does not. *)
Theorem C53_declared :
  (forall c i k, In k (refused c i) -> declared c i k) /\
  (forall c i k, In k (extra c i) -> ~ declared c i k) /\
  (forall s k, In k (refused_set s) -> In k (par_kinds (me_par (method_of s)))) /\
  (forall s k, In k (extra_set s) -> ~ In k (par_kinds (me_par (method_of s)))).
Proof. exact (conj refused_declared (conj extra_undeclared (conj refused_set_declared extra_set_undeclared))). Qed.
Print Assumptions C53_declared.
Example refused_case : In KSpace (refused RelContained_new 1) /\ In KAxis3D (refused_set context_true_north).
Proof. split; vm_compute; tauto. Qed.

(** A storey that contains a space: the types allow it and it cannot be loaded. *)
Definition program2 : list stmt :=
  [ SNew Space_new id1 [word "Room"]; SNew Storey_new id1 [word "Ground"]
  ; SNew RelContained_new id1 [word "R"; AOne (IReg 1)]
  ; SSet 2 contained_relate_structure (AOne (IReg 0)); SInsert 2 ].
Theorem C53_bounds_refuted :
  exists w os, prog_ok false program2 (mk_world [] example_data) /\
    execs program2 (mk_world [] example_data) = Done (w, os) /\
    load env0 (save (mk_ifc example_header (w_map w))) = Err.
Proof.
  eexists; eexists. split; [apply progb_ok; vm_compute; reflexivity|]. split; [vm_compute; reflexivity|]. vm_compute. reflexivity.
Qed.
Print Assumptions C53_bounds_refuted.

(** A person of a loaded file whose roles are the star: adding a role panics. *)
Definition program3 : list stmt :=
  [ SNew Person_empty id1 []; SSwap 0 3; SSet 0 person_add_role (AOne (IId 4)) ].
Theorem C53_star_refuted :
  exists x, load env0 (file noon "#3=IFCPERSON($,$,$,$,$,$,*,$);#4=IFCACTORROLE(.ARCHITECT.,$,$);") = Done x /\
    prog_ok true program3 (mk_world [] (i_data x)) /\
    execs program3 (mk_world [] (i_data x)) = Panic.
Proof.
  eexists. split; [vm_compute; reflexivity|]. split; [apply progb_ok; vm_compute; reflexivity|]. vm_compute. reflexivity.
Qed.
Print Assumptions C53_star_refuted.
