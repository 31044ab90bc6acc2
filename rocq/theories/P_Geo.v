(** Properties of the geometry of built products in exact numbers: C58.

    [way cs c n a]: the call [c], made after the calls [cs], asks for the product [n] to be
    extruded along the vector of fractions [a]; [points_to a d]: [d] has length one and is a
    multiple of [a], up to rounding; [plain_layers l], [about_sum l t]: thicknesses and
    their sum up to rounding. *)

From Coq Require Import String Ascii List NArith ZArith Bool.
From Coq Require Import QArith Qpower Qabs.
From Verif Require Import Base Prims Float Arith Kind Types Entity DataMap Builder BuilderRun BuilderSpec HistorySpec MoveSpec
  FormSpec BuilderExample ArithSpec DirSpec DirFacts GeoSpec GeoFacts P_Builder.
Import ListNotations.
Open Scope Q_scope.

(** ** C58: directions *)

(** In the model that is built the body of every product is extruded along the direction its
    call asks for, and shown after the moves of the later calls. *)
Theorem C58_direction o i xs ls r cs c ds k n :
  fair o -> program o i xs = Done (ls, r) -> honest [] xs ls -> Forall directed xs ->
  calls [] xs ls = cs ++ c :: ds -> In (k, n) (call_products c) ->
  exists rs rs' b d a mvs,
    drawn (p_map r) n rs' /\ Forall2 (moved (p_map r) mvs) rs' rs /\ journey n (cs ++ [c]) ds mvs /\
    hd_error rs = Some b /\ (exists out len, body (p_map r) b (out, d, len)) /\ way cs c n a /\ points_to a d.
Proof. exact (built_points o i xs ls r cs c ds k n). Qed.
Print Assumptions C58_direction.

(** The second representation of a wall is its axis: level, at a right angle to where
    the wall is extruded to, of length one. *)
Theorem C58_axis o i xs ls r cs s u ty name w p n ds :
  fair o -> program o i xs = Done (ls, r) -> honest [] xs ls -> Forall directed xs ->
  calls [] xs ls = cs ++ (s, OWall u ty name w p, [n]) :: ds ->
  exists rs rs' b x v mvs,
    drawn (p_map r) n rs' /\ Forall2 (moved (p_map r) mvs) rs' rs /\ journey n (cs ++ [(s, OWall u ty name w p, [n])]) ds mvs /\
    rs = [b; x] /\ axis (p_map r) x v /\ (leaning w -> points_to (line_way w) v).
Proof. exact (built_line o i xs ls r cs s u ty name w p n ds). Qed.
Print Assumptions C58_axis.

Theorem C58_right_angle l dir : scalar (line_way (WArbitrary l dir)) (wall_way (WArbitrary l dir)) == 0.
Proof. exact (line_square l dir). Qed.
Print Assumptions C58_right_angle.

(** The program of [DirFacts.v] meets the hypotheses: a wall that leans, a slab between two
    points, a transform. *)
Example C58_meets :
  fair oracle1 /\ program oracle1 info1 ops_dirs = Done (fst dirs_run, snd dirs_run) /\ honest [] ops_dirs (fst dirs_run) /\
  Forall directed ops_dirs /\
  map (fun c => (snd c, call_products c)) (skipn 8 (calls [] ops_dirs (fst dirs_run)))
  = [ ([50]%N, [(KWall, 50%N)]); ([], []); ([], []); ([76]%N, [(KSlab, 76%N)]); ([], []); ([], []); ([], []); ([], []) ] /\
  leaning (WArbitrary [v_zero; v_x; v_y] (f_one, f_two, f_three)).
Proof.
  split; [exact fair1|]. split; [exact dirs_done|]. split; [exact dirs_honest|]. split; [exact ops_dirs_directed|].
  split; [vm_compute; reflexivity|]. cbn [leaning]. moderate.
Qed.

(** A wall that is extruded upwards from its ground plan has no axis: a point of NaN is
    written. *)
Theorem C58_upright_refuted :
  exists ls r n b x,
    program oracle1 info1 ops_upright = Done (ls, r) /\ Forall directed ops_upright /\
    In ([27; 23; 19]%N, OWall 33 34 (lit "w") (WArbitrary [v_zero; v_x; v_y] v_z) v_zero, [n]) (calls [] ops_upright ls) /\
    drawn (p_map r) n [b; x] /\ axis (p_map r) x (FNan, FNan, FNan).
Proof. exact upright_axis. Qed.
Print Assumptions C58_upright_refuted.

(** ** Thickness *)

(** The thickness of a form is the sum of the thicknesses of the layers, up to rounding. *)
Theorem C58_thickness o cs u t :
  thick o cs u t -> exists ds, layered cs u ds /\ (plain_layers ds -> about_sum ds t).
Proof. exact (thick_about o cs u t). Qed.
Print Assumptions C58_thickness.

(** Three layers of a tenth, of which the sum is not three tenths. *)
Definition f_tenth : f64 := FFin false 7205759403792794 (-56).
Example C58_layers :
  plain_layers [f_tenth; f_tenth; f_tenth] /\ total false [f_tenth; f_tenth; f_tenth] = FFin false 5404319552844596 (-54) /\
  ~ fv (FFin false 5404319552844596 (-54)) == exact_sum [f_tenth; f_tenth; f_tenth].
Proof.
  split; [|split; [vm_compute; reflexivity|vm_compute; discriminate]].
  split; [|split; vm_compute; discriminate].
  repeat (apply Forall_cons; [split; [split; [reflexivity|split; [split; discriminate|right; discriminate]]|vm_compute; discriminate]|]).
  apply Forall_nil.
Qed.

(** ** Rectangles *)

(** The centre of a rectangle with one corner at the origin is half its sides away: exactly,
    unless this is no normal number. *)
Theorem C58_centre a : finite a ->
  finite (fmul a f_half) /\ Qabs (2 * fv (fmul a f_half) - fv a) <= inject_Z 2 ^ (-1074).
Proof. exact (half_value a). Qed.
Print Assumptions C58_centre.
