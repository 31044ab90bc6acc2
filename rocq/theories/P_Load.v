(** Properties of the text the builder returns: C29, C30.

    [xs] is any program, [ls] the ids its calls returned, [r] the state after [build];
    [sane] holds for every order of hash tables, all identifiers and clocks; [op_ok]
    and [info_ok] say that numbers are binary64 numbers, enumeration values exist and
    texts have no apostrophe; [honest] that the ids used were returned before. *)

From Coq Require Import String Ascii List NArith ZArith Bool Permutation.
From Verif Require Import Base Prims Float Arith Kind Types WellTyped Schema Entity DataMap DataSpec Header File HeaderSpec
  FileSpec RoundFacts FloatFacts StrictTime FileFacts FileFacts3 Builder BuilderRun BuilderSpec BuilderLoadSpec BuilderOut BuilderLoad BuilderExample
  P_Builder.
Import ListNotations.
Open Scope N_scope.

(** ** C29: builder output loads again *)

(** Without shading devices the text is accepted, and what is loaded is what was
    built with every real and text replaced by what reading its print gives. *)
Theorem C29_loads v o t i xs ls r :
  sane o -> info_ok i = true -> forallb op_ok xs = true -> existsb is_shading xs = false ->
  program o i xs = Done (ls, r) -> honest [] xs ls ->
  civil t -> chrono_reads v t ->
  load v (save (mk_ifc (default_header t) (p_map r))) =
  Done (mk_ifc (default_header t)
          (map (fun p => (fst p, match snd p with
                                 | Ent k l => Ent k (map (norm_val norm_real) l)
                                 | EDummy s => EDummy s
                                 end)) (p_map r))).
Proof. exact (fun H1 H2 H3 H4 H5 H6 H7 H8 => proj1 (builder_loads v o t i xs ls r H1 H2 H3 H4 H5 H6 H7 H8)). Qed.
Print Assumptions C29_loads.

(** With exact reals and texts it is the model that was built. *)
Theorem C29_loads_exactly v o t i xs ls r :
  sane o -> info_ok i = true -> forallb op_ok xs = true -> existsb is_shading xs = false ->
  program o i xs = Done (ls, r) -> honest [] xs ls ->
  civil t -> chrono_reads v t -> exact_ifc (mk_ifc (default_header t) (p_map r)) ->
  load v (save (mk_ifc (default_header t) (p_map r))) = Done (mk_ifc (default_header t) (p_map r)).
Proof. exact (fun H1 H2 H3 H4 H5 H6 H7 H8 => proj2 (builder_loads v o t i xs ls r H1 H2 H3 H4 H5 H6 H7 H8)). Qed.
Print Assumptions C29_loads_exactly.

(** The same about the text [build] returns, with a clock that has fractions of
    seconds: only they are lost. *)
Theorem C29_text_loads v o t i xs ls r s :
  sane o -> info_ok i = true -> forallb op_ok xs = true -> existsb is_shading xs = false ->
  program o i xs = Done (ls, r) -> honest [] xs ls ->
  let h := whole_second (default_header t) in
  civil (h_time h) -> chrono_reads v (h_time h) -> exact_ifc (mk_ifc h (p_map r)) ->
  build_text o t i xs = Done s -> load v s = Done (mk_ifc h (p_map r)).
Proof. exact (build_text_loads v o t i xs ls r s). Qed.
Print Assumptions C29_text_loads.

Lemma sane1 : sane oracle1.
Proof.
  split; [exact fair1|]. split; intro t; [|reflexivity].
  unfold oracle1, guid1, guid_ok. cbn [o_guid length forallb Nat.eqb andb].
  assert (H : N.of_nat t mod 256 <? 256 = true) by (apply N.ltb_lt, N.mod_lt; discriminate).
  now rewrite H.
Qed.

Example C29_example :
  sane oracle1 /\ info_ok info1 = true /\ forallb op_ok ops1 = true /\ existsb is_shading ops1 = false /\
  honest [] ops1 ls1 /\ civil stamp1 /\ chrono_reads env0 stamp1 /\
  exists r, program oracle1 info1 ops1 = Done (ls1, r) /\ exact_ifc (mk_ifc (default_header stamp1) (p_map r)) /\
    length (p_map r) = 250%nat.
Proof.
  split; [exact sane1|]. split; [vm_compute; reflexivity|]. split; [vm_compute; reflexivity|].
  split; [reflexivity|]. split; [exact honest1|].
  assert (Hc : civil stamp1) by (repeat split; vm_compute; intro X; discriminate X).
  split; [exact Hc|]. split; [exact (env0_reads _ Hc)|].
  eexists. split; [vm_compute; reflexivity|]. split; vm_compute; reflexivity.
Qed.

(** Names with an apostrophe are not excluded for convenience: the site named "it's"
    is no site any more after loading but an unknown object. *)
Theorem C29_apostrophe_refuted :
  exists r x s, program oracle1 info1 [ONewSite (lit "it's") v_zero; ODrop] = Done ([[19]; []], r) /\
    option_map kind_of (lookup (p_map r) 19) = Some KSite /\
    load env0 (save (mk_ifc (default_header stamp1) (p_map r))) = Done x /\
    lookup (i_data x) 19 = Some (EDummy s).
Proof.
  eexists; eexists; eexists. split; [vm_compute; reflexivity|]. split; [vm_compute; reflexivity|].
  split; [vm_compute; reflexivity|vm_compute; reflexivity].
Qed.
Print Assumptions C29_apostrophe_refuted.

(** ** C30: shading devices *)

(** The property is false for every program that makes a shading device. *)
Theorem C30_shading_devices_refuted v o t i xs ls r :
  sane o -> info_ok i = true -> forallb op_ok xs = true -> existsb is_shading xs = true ->
  program o i xs = Done (ls, r) -> honest [] xs ls ->
  civil t -> chrono_reads v t ->
  load v (save (mk_ifc (default_header t) (p_map r))) = Err.
Proof. exact (shading_refused v o t i xs ls r). Qed.
Print Assumptions C30_shading_devices_refuted.

(** The reason: a checked reference to the device from a relation that does not permit
    it; no reference is to a missing object. *)
Theorem C30_reason o i xs ls r :
  sane o -> info_ok i = true -> forallb op_ok xs = true -> existsb is_shading xs = true ->
  program o i xs = Done (ls, r) -> honest [] xs ls ->
  misdirected (p_map r) /\ ~ dangling (p_map r).
Proof.
  exact (fun H1 H2 H3 H4 H5 H6 =>
    conj (shading_misdirected o i xs ls r H1 H2 H3 H4 H5 H6) (built_not_dangling o i xs ls r H1 H2 H3 H5 H6)).
Qed.
Print Assumptions C30_reason.

Definition ls_shading : list (list N) :=
  [ [19]; [23]; [27]; [31]; [32]; [33]; [34]; [45]; []; []; [] ].

Example C30_example :
  sane oracle1 /\ info_ok info1 = true /\ forallb op_ok ops_shading = true /\
  existsb is_shading ops_shading = true /\ honest [] ops_shading ls_shading /\
  exists r, program oracle1 info1 ops_shading = Done (ls_shading, r) /\
    load env0 (save (mk_ifc (default_header stamp1) (p_map r))) = Err.
Proof.
  split; [exact sane1|]. split; [vm_compute; reflexivity|]. split; [vm_compute; reflexivity|].
  split; [reflexivity|]. split; [apply honestb_ok; vm_compute; reflexivity|].
  eexists. split; [vm_compute; reflexivity|]. vm_compute. reflexivity.
Qed.
