(** Properties of what the extractor reads from built models: C35 (second half), C51.

    [xs] is any program, [ls] the ids its calls returned, [r] the state after [build]. *)

From Coq Require Import String Ascii List NArith ZArith Bool Permutation.
From Verif Require Import Base Prims Float Arith Kind Types WellTyped Schema Entity DataMap Extractor Header File HeaderSpec
  FileSpec RoundFacts FloatFacts StrictTime Builder BuilderRun BuilderSpec BuilderLoadSpec BuilderOut BuilderLoad
  BuilderExample ExtractSpec BuilderRead BuilderRead2 P_Builder P_Load.
Import ListNotations.
Open Scope N_scope.

(** ** C35: the extractor finds the tree *)

(** Asking for the parts of kind [k] of any object gives the ids that the calls
    creating them returned, each once and in some order, with the attributes they have
    in the model, and never panics. *)
Theorem C35_extracted o i xs ls r k n :
  fair o -> program o i xs = Done (ls, r) -> honest [] xs ls ->
  exists l ns, relations_of k (p_map r) n = Done l /\ answers (p_map r) k l ns /\
    Permutation ns (flat_map (call_child k (p_project r) n) (calls [] xs ls)).
Proof. exact (fun Ho Hr Hh => proj1 (built_tells o i xs ls r Ho Hr Hh) k n). Qed.
Print Assumptions C35_extracted.

(** ** C51: all queries *)

(** Every query answers what the calls say: parts, contained elements, openings, types,
    layers and constituents. *)
Theorem C51_built o i xs ls r :
  fair o -> program o i xs = Done (ls, r) -> honest [] xs ls -> tells (p_map r) (p_project r) (calls [] xs ls).
Proof. exact (built_tells o i xs ls r). Qed.
Print Assumptions C51_built.

(** So it is after saving and loading. *)
Theorem C51_loaded v o t i xs ls r :
  sane o -> info_ok i = true -> forallb op_ok xs = true -> existsb is_shading xs = false ->
  program o i xs = Done (ls, r) -> honest [] xs ls ->
  civil t -> chrono_reads v t ->
  exists x, load v (save (mk_ifc (default_header t) (p_map r))) = Done x /\
    tells (i_data x) (p_project r) (calls [] xs ls).
Proof.
  exact (fun H1 H2 H3 H4 H5 H6 H7 H8 =>
    ex_intro _ _ (conj (proj1 (builder_loads v o t i xs ls r H1 H2 H3 H4 H5 H6 H7 H8))
      (norm_tells norm_real _ _ _ (built_tells o i xs ls r (proj1 H1) H5 H6)))).
Qed.
Print Assumptions C51_loaded.

(** The program of BuilderExample.v, which meets the hypotheses of both theorems:
    see [C29_example]. *)
Definition fsts (x : outcome (list (N * list val))) : outcome (list N) := omap (map fst) x.
Example C51_example :
  observe (fun m => (fsts (relations_of KStorey m 23), fsts (relations_of KSpace m 27))) =
    Some (ls1, (Done [236; 27], Done [221; 210])) /\
  flat_map (call_child KStorey 14 23) (calls [] ops1 ls1) = [27; 236] /\
  observe (fun m => contained_structures m 27) = Some (ls1, [155; 59; 166; 199; 188; 92]) /\
  partners 27 (flat_map call_contains (calls [] ops1 ls1)) = [59; 92; 155; 166; 188; 199] /\
  observe (fun m => fsts (related_voids m 59)) = Some (ls1, Done [81; 70]) /\
  observe (fun m => (omap fst (related_type KWallType m 155), related_type KSpaceType m 210)) = Some (ls1, (Done 40, Panic)) /\
  observe (fun m => (fsts (related_materials m 155), fsts (related_materials m 92), fsts (related_materials m 40))) =
    Some (ls1, (Done [31; 33], Done [], Done [])) /\
  flat_map (usage_layers (calls [] ops1 ls1)) (owners 155 (flat_map call_materials (calls [] ops1 ls1))) = [31; 33] /\
  observe (fun m => fsts (related_constituents m 92)) = Some (ls1, Done [38]).
Proof. repeat (split; [vm_compute; reflexivity|]). vm_compute. reflexivity. Qed.
