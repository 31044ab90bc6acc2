(** Properties of the accuracy of saving and loading: C59.

    [close_real d d']: [d'] is [d] up to [10^-14] of it; [close_model m m']: the same ids and
    kinds with close values; [nearly_unit_directions], [nearly_depicts], [nearly_points_to]: as
    in C56, C37 and C58 up to this. *)

From Coq Require Import String Ascii List NArith ZArith Bool.
From Coq Require Import QArith Qpower Qabs.
From Verif Require Import Base Prims Float FloatFacts Arith Kind Types Entity DataMap DataSpec Header File HeaderSpec FileSpec FileFacts3 StrictTime
  Builder BuilderRun BuilderSpec BuilderLoadSpec BuilderOut HistorySpec MoveSpec FormSpec BuilderExample
  ArithSpec DirSpec DirFacts GeoSpec GeoFacts AccSpec AccFacts P_File P_Load.
Import ListNotations.
Open Scope Q_scope.

(** ** C59: numbers *)

Theorem C59_number d s : f64_ok d -> stop s ->
  exists d', p_real (d_real d ++ s) = ROk d' s /\ close_real d d'.
Proof. exact (fun Hd Hs => ex_intro _ _ (conj (p_real_show d s Hd Hs) (norm_close d Hd))). Qed.
Print Assumptions C59_number.

(** Fifteen digits are printed: not even twice as accurate would be true. *)
Theorem C59_loss_refuted :
  exists d d', finite d /\ p_real (d_real d) = ROk d' [] /\
    (4 # 10) * inject_Z 10 ^ (-14) * Qabs (fv d) < Qabs (fv d' - fv d).
Proof.
  exists (FFin false 5003999585967234 (-52)), (FFin false 5003999585967213 (-52)).
  split; [split; [reflexivity|split; [split; discriminate|right; discriminate]]|].
  split; [vm_compute; reflexivity|vm_compute; reflexivity].
Qed.
Print Assumptions C59_loss_refuted.

(** ** Models *)

Theorem C59_model v x : ifc_ok v x ->
  exists y, p_ifc v (save x) = ROk y [] /\ i_header y = i_header x /\ close_model (i_data x) (i_data y).
Proof. exact (saved_close v x). Qed.
Print Assumptions C59_model.

Theorem C59_load v x : ifc_ok v x -> refs_ok (i_data x) ->
  exists y, load v (save x) = Done y /\ i_header y = i_header x /\ close_model (i_data x) (i_data y).
Proof. exact (loaded_close v x). Qed.
Print Assumptions C59_load.

(** [C16_example] shows a model that meets the hypothesis. *)
Example C59_model_meets : ifc_ok env0 example_ifc /\ refs_ok (i_data example_ifc).
Proof. exact (conj (proj1 example_ifc_ok) (proj1 (proj2 example_ifc_ok))). Qed.

(** ** Built models *)

(** The directions of a built model have length one also after saving and loading. *)
Theorem C59_directions v o t i xs ls r :
  sane o -> info_ok i = true -> forallb op_ok xs = true -> existsb is_shading xs = false ->
  program o i xs = Done (ls, r) -> honest [] xs ls -> civil t -> chrono_reads v t -> Forall directed xs ->
  exists y, load v (save (mk_ifc (default_header t) (p_map r))) = Done y /\ nearly_unit_directions (i_data y).
Proof. exact (loaded_directions v o t i xs ls r). Qed.
Print Assumptions C59_directions.

(** And every product has the form that was asked for, through any mappings, and is extruded
    where it was asked to be. *)
Theorem C59_shapes v o t i xs ls r cs c ds k n :
  sane o -> info_ok i = true -> forallb op_ok xs = true -> existsb is_shading xs = false ->
  program o i xs = Done (ls, r) -> honest [] xs ls -> civil t -> chrono_reads v t ->
  calls [] xs ls = cs ++ c :: ds -> In (k, n) (call_products c) ->
  exists y f ax rs rs' d,
    load v (save (mk_ifc (default_header t) (p_map r))) = Done y /\
    form_of o cs c n f ax /\ drawn (i_data y) n rs' /\ Forall2 (shows (i_data y)) rs' rs /\
    nearly_depicts (i_data y) rs f ax d /\
    (Forall directed xs -> exists a, way cs c n a /\ nearly_points_to a d).
Proof. exact (built_shapes_close v o t i xs ls r cs c ds k n). Qed.
Print Assumptions C59_shapes.

Example C59_meets :
  sane oracle1 /\ info_ok info1 = true /\ forallb op_ok ops_dirs = true /\ existsb is_shading ops_dirs = false /\
  program oracle1 info1 ops_dirs = Done (fst dirs_run, snd dirs_run) /\ honest [] ops_dirs (fst dirs_run) /\
  civil stamp1 /\ chrono_reads env0 stamp1 /\ Forall directed ops_dirs /\
  In ([50]%N, [(KWall, 50%N)]) (map (fun c => (snd c, call_products c)) (calls [] ops_dirs (fst dirs_run))).
Proof.
  split; [exact sane1|]. split; [vm_compute; reflexivity|]. split; [vm_compute; reflexivity|]. split; [reflexivity|].
  split; [exact dirs_done|]. split; [exact dirs_honest|].
  assert (Hc : civil stamp1) by (repeat split; vm_compute; intro X; discriminate X).
  split; [exact Hc|]. split; [exact (env0_reads _ Hc)|]. split; [exact ops_dirs_directed|].
  vm_compute. tauto.
Qed.

(** The numbers are not those of the model: the direction of the wall before and after. *)
Example C59_meets_case :
  ( lookup (p_map (snd dirs_run)) 42
  , match load env0 (save (mk_ifc (default_header stamp1) (p_map (snd dirs_run)))) with
    | Done y => lookup (i_data y) 42 | _ => None end )
  = ( Some (Ent KDirection3D [VVec [ FFin false 4814550517949482 (-54); FFin false 4814550517949482 (-53)
                                   ; FFin false 7221825776924223 (-53) ]])
    , Some (Ent KDirection3D [VVec [ FFin false 4814550517949475 (-54); FFin false 4814550517949484 (-53)
                                   ; FFin false 7221825776924221 (-53) ]]) ).
Proof. vm_compute. reflexivity. Qed.
