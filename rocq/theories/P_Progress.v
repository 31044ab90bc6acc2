(** Programs that use the builder return: C62.

    [after]: which method calls there are at which builder; [nest]: the calls of a
    program compile; [careful]: they take ids returned before; [few n]: [n] is below
    2^28, so that the numbers of objects do not overflow. *)

From Coq Require Import String Ascii List NArith ZArith Bool Lia.
From Verif Require Import Base Prims Float Arith Kind Types WellTyped Schema Entity DataMap DataSpec Header File HeaderSpec FileSpec RoundFacts FloatFacts
  Builder BuilderRun BuilderSpec BuilderLoadSpec Mapping MapSpec HistorySpec ProgressSpec BuilderProgress BuilderExample P_Builder P_Load.
Import ListNotations.
Open Scope N_scope.

(** ** C62: a program that compiles and takes only its own ids is built *)

Theorem C62_builds o i xs :
  sane o -> info_ok i = true -> forallb op_ok xs = true -> few (N.of_nat (length xs)) ->
  (nest LProject xs = Some LProject /\ careful o i xs <->
   exists ls r, program o i xs = Done (ls, r) /\ honest [] xs ls).
Proof. exact (fun H1 H2 => progress o H1 i H2 xs). Qed.
Print Assumptions C62_builds.

(** After any calls, the next one returns. *)
Theorem C62_next o i xs x ls m l :
  sane o -> info_ok i = true -> forallb op_ok xs = true -> reached o i xs ls m ->
  honest [] (xs ++ [x]) (ls ++ [[]]) -> nest LProject (xs ++ [x]) = Some l ->
  N.of_nat (length m) + 100 + 300 * N.of_nat (length xs) <= max_usize ->
  exists a m', reached o i (xs ++ [x]) (ls ++ [a]) m'.
Proof. exact (fun H1 H2 => reached_next o H1 i H2 xs x ls m l). Qed.
Print Assumptions C62_next.

(** What is run are programs that compile. *)
Theorem C62_nested o i xs ls m : reached o i xs ls m -> exists l, nest LProject xs = Some l.
Proof. exact (reached_nested o i xs ls m). Qed.
Print Assumptions C62_nested.

(** Between the calls all geometry can be read ([mapping] of C52): the model of the
    builder leaves out that the profile and the position of a solid are read along with
    its direction. *)
Theorem C62_reads o i xs ls m :
  sane o -> info_ok i = true -> forallb op_ok xs = true -> reached o i xs ls m -> honest [] xs ls ->
  forall n k l, lookup m n = Some (Ent k l) -> In k readable_kinds -> exists x, mapping m k l = Some (Done x).
Proof. exact (fun H1 H2 => reached_reads o H1 i H2 xs ls m). Qed.
Print Assumptions C62_reads.

(** Together with C29: the file is written and can be loaded. *)
Theorem C62_file_loads v o t i xs :
  sane o -> info_ok i = true -> forallb op_ok xs = true -> few (N.of_nat (length xs)) ->
  nest LProject xs = Some LProject -> careful o i xs -> existsb is_shading xs = false ->
  civil t -> chrono_reads v t ->
  exists s x, build_text o t i xs = Done s /\ built o t i xs = Done x /\
    File.load v s = Done (mk_ifc (default_header t)
      (map (fun p => (fst p, match snd p with
                             | Ent k l => Ent k (map (norm_val norm_real) l)
                             | EDummy s => EDummy s
                             end)) (i_data x))).
Proof.
  exact (fun H1 H2 H3 H4 H5 H6 H7 H8 H9 =>
    match proj1 (progress o H1 i H2 xs H3 H4) (conj H5 H6) with
    | ex_intro _ ls (ex_intro _ r (conj E HH)) =>
        ex_intro _ (save (mk_ifc (default_header t) (p_map r)))
          (ex_intro _ (mk_ifc (default_header t) (p_map r))
            (conj (build_text_is o t i xs ls r E) (conj (built_is o t i xs ls r E)
              (C29_loads v o t i xs ls r H1 H2 H3 H7 E HH H8 H9))))
    end).
Qed.
Print Assumptions C62_file_loads.

(** The hypotheses are met by the program of 250 objects. *)
Example C62_meets :
  sane oracle1 /\ info_ok info1 = true /\ forallb op_ok ops1 = true /\ few (N.of_nat (length ops1)) /\
  nest LProject ops1 = Some LProject /\ careful oracle1 info1 ops1 /\ existsb is_shading ops1 = false.
Proof.
  destruct C29_example as (H1 & H2 & H3 & H4 & H5 & _ & _ & r & H6 & _).
  split; [exact H1|]. split; [exact H2|]. split; [exact H3|]. split; [vm_compute; reflexivity|].
  split; [vm_compute; reflexivity|]. split; [exact (honest_careful oracle1 info1 ops1 ls1 r H6 H5)|exact H4].
Qed.

(** Without care: a wall of a material that is not there, or a transform of an object of
    another kind, panics. *)
Definition to_storey : list op := [ONewSite (lit "s") v_zero; ONewBuilding (lit "b") v_zero; ONewStorey (lit "e") f_zero].

Theorem C62_foreign_panics :
  program oracle1 info1 (to_storey ++ [OWall 99 99 (lit "w") (WVertical f_one f_one) v_zero; ODrop; ODrop; ODrop; ODrop]) = Panic /\
  program oracle1 info1 (to_storey ++ [OStoreyTransform KWall 6 (mk_tparam v_zero v_zero v_zero v_zero); ODrop; ODrop; ODrop]) = Panic /\
  nest LProject (to_storey ++ [OWall 99 99 (lit "w") (WVertical f_one f_one) v_zero; ODrop; ODrop; ODrop; ODrop]) = Some LProject.
Proof. split; [vm_compute; reflexivity|]. split; vm_compute; reflexivity. Qed.
Print Assumptions C62_foreign_panics.

(** A window cannot be put into a storey, and a program that is still inside a storey
    cannot be built. *)
Example C62_not_nested :
  nest LProject (to_storey ++ [OWallWindow 1 1 [] f_one f_one v_zero v_zero]) = None /\
  nest LProject to_storey = Some LStorey.
Proof. split; reflexivity. Qed.
