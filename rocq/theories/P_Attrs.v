(** Properties of attributes: C03, C07, C08, C09, C43. *)

From Coq Require Import String Ascii List NArith ZArith Bool.
From Verif Require Import Base Prims Spec PrimsFacts Guid Float FloatFacts Kind Types Layout
  WellTyped Schema Entity EntitySpec TypesFacts TypesFacts2 EntityFacts AttrFacts.
Import ListNotations.
Open Scope N_scope.

(** ** C03: booleans and enumerations *)

(** [vs] are the spellings of an enumeration used by any attribute of any kind:
    the spelling of each value, with gaps around it and any text after it, is read
    as that value. *)
Theorem C03_enum_round_trip k vs i g1 g2 rest :
  used_in k (TEnum vs) -> (i < length vs)%nat -> gap g1 -> gap g2 -> no_gap rest ->
  p_enum vs (g1 ++ d_enum vs i ++ g2 ++ rest) = ROk i rest.
Proof. exact (fun H => p_enum_text vs i g1 g2 rest (used_ok k (TEnum vs) H)). Qed.
Print Assumptions C03_enum_round_trip.

(** No spelling begins another one. *)
Theorem C03_enum_unambiguous k vs i j t :
  used_in k (TEnum vs) -> (i < length vs)%nat -> (j < length vs)%nat -> i <> j ->
  d_enum vs i <> d_enum vs j ++ t.
Proof. exact (fun H => variants_distinct vs i j t (used_ok k (TEnum vs) H)). Qed.
Print Assumptions C03_enum_unambiguous.

(** The same for the dimension count. *)
Theorem C03_dimension_round_trip i g1 g2 rest :
  (i < 3)%nat -> gap g1 -> gap g2 -> no_gap rest ->
  p_enum dim_variants (g1 ++ d_enum dim_variants i ++ g2 ++ rest) = ROk i rest.
Proof. exact (p_enum_text dim_variants i g1 g2 rest eq_refl). Qed.
Print Assumptions C03_dimension_round_trip.

Theorem C03_bool_read b txt g1 g2 rest :
  txt = long_bool b \/ txt = short_bool b -> gap g1 -> gap g2 -> no_gap rest ->
  p_bool (g1 ++ txt ++ g2 ++ rest) = ROk b rest.
Proof. exact (p_bool_text b txt g1 g2 rest). Qed.
Print Assumptions C03_bool_read.

Theorem C03_bool_printed b : d_bool b = long_bool b.
Proof. exact (match b with BTrue => eq_refl | BFalse => eq_refl | BUnknown => eq_refl end). Qed.
Print Assumptions C03_bool_printed.

Example C03_example :
  used_in KSiUnit (TEnum enum_IfcUnitName) /\
  p_enum enum_IfcUnitName (lit " .CUBIC_METRE./* x */ ,") = ROk 4%nat (lit ",") /\
  p_bool (lit " .T. )") = ROk BTrue (lit ")").
Proof.
  split; [|vm_compute; auto].
  exists row_SiUnit, (TEnum enum_IfcUnitName). split; [reflexivity|]. split; [|constructor].
  cbn. tauto.
Qed.

(** ** C07: omitted, inherited, present *)

Theorem C07_optional_printed t v :
  (v = VOmit -> d_ty (TOpt t) v = lit "$") /\
  (v = VInh -> d_ty (TOpt t) v = lit "*") /\
  (v <> VOmit -> v <> VInh -> d_ty (TOpt t) v = d_ty t v).
Proof.
  exact (conj (fun E => eq_trans (f_equal (d_ty (TOpt t)) E) eq_refl)
        (conj (fun E => eq_trans (f_equal (d_ty (TOpt t)) E) eq_refl) (d_opt t v))).
Qed.
Print Assumptions C07_optional_printed.

(** No present value of any attribute type in use prints as or begins with a
    marker, nor as nothing. *)
Theorem C07_value_no_marker k t v r :
  used_in k t -> is_opt t = false -> wt t v = true ->
  d_ty t v <> [] /\ d_ty t v <> lit "$" ++ r /\ d_ty t v <> lit "*" ++ r.
Proof.
  exact (fun H Ho Hw =>
    conj (d_ty_nonempty t v (used_ok k t H) Ho Hw)
   (conj (fun E => proj1 (d_ty_not_marker t v _ _ (used_ok k t H) Ho Hw E) eq_refl)
         (fun E => proj2 (d_ty_not_marker t v _ _ (used_ok k t H) Ho Hw E) eq_refl))).
Qed.
Print Assumptions C07_value_no_marker.

(** Reading the printed optional attribute gives the same case and value. *)
Theorem C07_optional_round_trip k t v :
  used_in k (TOpt t) -> wt (TOpt t) v = true -> exact_val v = true ->
  reads_as (p_ty (TOpt t)) (d_ty (TOpt t) v) v.
Proof.
  exact (fun H Hw He =>
    eq_rect _ (fun x => reads_as (p_ty (TOpt t)) (d_ty (TOpt t) v) x)
      (reads_reads_as _ _ _ (lay_reads (TOpt t) v _ (used_ok k _ H) Hw
        (d_ty_lay (TOpt t) v (used_ok k _ H) Hw)))
      v (exact_norm (TOpt t) v Hw He)).
Qed.
Print Assumptions C07_optional_round_trip.

(** The markers are only read from the marker characters (for the dimension
    count see C43). *)
Theorem C07_omitted_read k t s r :
  used_in k (TOpt t) -> p_ty (TOpt t) s = ROk VOmit r -> s = lit "$" ++ r.
Proof. exact (fun H => p_opt_omitted t s r (used_ok k _ H)). Qed.
Print Assumptions C07_omitted_read.

Theorem C07_inherited_read k t s r :
  used_in k (TOpt t) -> t <> TDim -> p_ty (TOpt t) s = ROk VInh r -> s = lit "*" ++ r.
Proof. exact (fun H => p_opt_inherited t s r (used_ok k _ H)). Qed.
Print Assumptions C07_inherited_read.

Example C07_example :
  used_in KWall (TOpt TStr) /\
  wt (TOpt TStr) (VStr (lit "a, b")) = true /\ exact_val (VStr (lit "a, b")) = true /\
  d_ty (TOpt TStr) (VStr (lit "a, b")) = lit "'a, b'" /\
  p_ty (TOpt TStr) (lit "$,#1") = ROk VOmit (lit ",#1") /\
  p_ty (TOpt TStr) (lit "'$',#1") = ROk (VStr (lit "$")) (lit ",#1").
Proof.
  split; [|vm_compute; auto].
  exists row_Wall, (TOpt TStr). split; [reflexivity|]. split; [|constructor]. cbn. tauto.
Qed.

(** ** C08: lists *)

(** Any text for the elements with gaps and with present or missing commas. *)
Theorem C08_list_read k t l txt :
  used_in k (TList t) -> forallb (wt t) l = true -> forallb exact_val l = true ->
  lay_items t l txt ->
  reads_as (p_ty (TList t)) (lit "(" ++ txt ++ lit ")") (VList l).
Proof.
  exact (fun H Hw He Hl =>
    eq_rect _ (fun x => reads_as (p_ty (TList t)) (lit "(" ++ txt ++ lit ")") x)
      (reads_reads_as _ _ _ (lay_reads (TList t) (VList l) _ (used_ok k _ H) Hw (lay_list t l txt Hl)))
      (VList l) (exact_norm (TList t) (VList l) Hw He)).
Qed.
Print Assumptions C08_list_read.

(** In particular the printed text. *)
Theorem C08_list_round_trip k t l :
  used_in k (TList t) -> forallb (wt t) l = true -> forallb exact_val l = true ->
  reads_as (p_ty (TList t)) (d_list (d_ty t) l) (VList l).
Proof.
  exact (fun H Hw He =>
    eq_rect _ (fun x => reads_as (p_ty (TList t)) (d_list (d_ty t) l) x)
      (reads_reads_as _ _ _ (lay_reads (TList t) (VList l) _ (used_ok k _ H) Hw
        (d_ty_lay (TList t) (VList l) (used_ok k _ H) Hw)))
      (VList l) (exact_norm (TList t) (VList l) Hw He)).
Qed.
Print Assumptions C08_list_round_trip.

Example C08_example :
  used_in KRelAggregates (TList (TRef [KSite; KBuilding; KStorey; KSpace] true)).
Proof. eexists row_RelAggregates, _. split; [reflexivity|]. split; [|constructor]. cbn. tauto. Qed.
Example C08_example_texts :
  p_ty (TList (TRef [] false)) (lit "(#1,#2 #3, #4,),$") =
    ROk (VList [VId 1; VId 2; VId 3; VId 4]) (lit ",$") /\
  p_ty (TList (TRef [] false)) (lit "(),$") = ROk (VList []) (lit ",$").
Proof. vm_compute. auto. Qed.

(** ** C09: gaps *)

(** A gap of any length is skipped as a whole. *)
Theorem C09_gap_skipped g s :
  gap g -> no_gap s -> p_space_or_comment (g ++ s) = ROk tt s.
Proof. exact (fun Hg Hs => eq_trans (ws_skip (g ++ s)) (f_equal (ROk tt) (skip_gap_stop g s Hg Hs))). Qed.
Print Assumptions C09_gap_skipped.

(** Every text is a gap followed by a text where no gap starts. *)
Theorem C09_gap_split s : exists g r, s = g ++ r /\ gap g /\ no_gap r.
Proof. exact (let (g, H) := skip_spec s in ex_intro _ g (ex_intro _ (skip s) H)). Qed.
Print Assumptions C09_gap_split.

(** Any two ways of writing the same attributes of any kind, whatever gaps they
    have at the permitted places, are read as the same entity. *)
Theorem C09_gaps_irrelevant k l txt txt' g1 g2 g1' g2' rest rest' :
  wf_ent k l -> lay_entity k l txt -> lay_entity k l txt' ->
  gap g1 -> gap g2 -> gap g1' -> gap g2' -> no_gap rest -> no_gap rest' ->
  exists e, p_obj (g1 ++ txt ++ g2 ++ rest) = ROk e rest /\
            p_obj (g1' ++ txt' ++ g2' ++ rest') = ROk e rest'.
Proof.
  exact (fun Hw H H' G1 G2 G1' G2' R R' =>
    ex_intro _ _ (conj (p_obj_reads k l txt g1 g2 rest Hw H G1 G2 R)
                       (p_obj_reads k l txt' g1' g2' rest' Hw H' G1' G2' R'))).
Qed.
Print Assumptions C09_gaps_irrelevant.

(** ... and for exact values this is the entity itself. *)
Theorem C09_layout_read k l txt g1 g2 rest :
  wf_ent k l -> forallb exact_val l = true -> lay_entity k l txt ->
  gap g1 -> gap g2 -> no_gap rest ->
  p_obj (g1 ++ txt ++ g2 ++ rest) = ROk (Ent k l) rest.
Proof.
  exact (fun Hw He H G1 G2 R => eq_trans (p_obj_reads k l txt g1 g2 rest Hw H G1 G2 R)
    (f_equal (fun x => ROk (Ent k x) rest) (exact_ent k l Hw He))).
Qed.
Print Assumptions C09_layout_read.

(** Part of C09 fails: kinds whose keyword is parsed without surrounding gaps
    (e.g. organisations) do not permit a gap after the opening parenthesis, the line
    is then read as an unknown entity. *)
Theorem C09_gap_after_parenthesis_refuted :
  exists txt txt' : text,
    txt = lit "IFCORGANIZATION($,'x',$,$,$);" /\ txt' = lit "IFCORGANIZATION( $,'x',$,$,$);" /\
    (exists l, p_obj txt = ROk (Ent KOrganization l) []) /\
    (exists s, p_obj txt' = ROk (EDummy s) []).
Proof.
  do 2 eexists. repeat split; eexists; vm_compute; reflexivity.
Qed.
Print Assumptions C09_gap_after_parenthesis_refuted.

Example C09_example :
  wf_ent KExtrudedAreaSolid [VId 1; VOmit; VId 2; VReal (FFin false 5629499534213120 (-51))] /\
  p_obj (lit " IFCEXTRUDEDAREASOLID( /* a */#1 , $,/*b*/ #2, 2.5 ); #3") =
    ROk (Ent KExtrudedAreaSolid [VId 1; VOmit; VId 2; VReal (FFin false 5629499534213120 (-51))]) (lit "#3").
Proof.
  split; [|vm_compute; reflexivity]. exists row_ExtrudedAreaSolid. split; [reflexivity|vm_compute; reflexivity].
Qed.

(** ** C43: dimension counts *)

Theorem C43_dimension_kept i rest :
  (i < 3)%nat -> delimited_here rest ->
  exists g r, gap g /\ rest = g ++ r /\
    p_ty (TOpt TDim) (show_N (N.of_nat i + 1) ++ rest) = ROk (VEnum i) r.
Proof. exact (dim_kept i rest). Qed.
Print Assumptions C43_dimension_kept.

(** Every other number that does not begin with 1, 2 or 3 becomes the inherited
    marker and its value is lost. *)
Theorem C43_dimension_lost z c ds rest :
  (-2147483648 <= z <= 2147483647)%Z -> show_Z z = c :: ds -> c <> 49 -> c <> 50 -> c <> 51 ->
  no_digit rest ->
  p_ty (TOpt TDim) (show_Z z ++ rest) = ROk VInh rest /\ d_ty (TOpt TDim) VInh = lit "*".
Proof.
  exact (fun Hz E H1 H2 H3 Hr => conj (dim_lost z c ds rest Hz E H1 H2 H3 Hr) eq_refl).
Qed.
Print Assumptions C43_dimension_lost.

(** A longer number that begins with 1, 2 or 3 is cut after its first digit. *)
Theorem C43_dimension_cut i ds rest :
  (i < 3)%nat -> no_gap (ds ++ rest) ->
  p_ty (TOpt TDim) (show_N (N.of_nat i + 1) ++ ds ++ rest) = ROk (VEnum i) (ds ++ rest).
Proof. exact (dim_cut i ds rest). Qed.
Print Assumptions C43_dimension_cut.

(** The claim that the number is kept is false. *)
Theorem C43_dimension_refuted :
  exists z rest, delimited_here rest /\
    forall v g r, rest = g ++ r -> p_ty (TOpt TDim) (show_Z z ++ rest) = ROk v r ->
      d_ty (TOpt TDim) v <> show_Z z.
Proof.
  exists 0%Z, (lit ",$"). split.
  - exists [], 44, (lit "$"). split; [constructor|]. auto.
  - intros v g r _ H. vm_compute in H. injection H as <- _. vm_compute. discriminate.
Qed.
Print Assumptions C43_dimension_refuted.

Example C43_example :
  p_ty (TOpt TDim) (lit "2,$") = ROk (VEnum 1) (lit ",$") /\
  p_ty (TOpt TDim) (lit "0,$") = ROk VInh (lit ",$") /\
  p_ty (TOpt TDim) (lit "-7,$") = ROk VInh (lit ",$") /\
  p_ty (TOpt TDim) (lit "25,$") = ROk (VEnum 1) (lit "5,$") /\
  used_in KGeometricRepresentationSubContext (TOpt TDim).
Proof.
  repeat split; try (vm_compute; reflexivity).
  exists row_GeometricRepresentationSubContext, (TOpt TDim). split; [reflexivity|].
  split; [|constructor]. cbn. tauto.
Qed.
