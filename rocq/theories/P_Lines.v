(** The order and the layout of a file do not matter: C65.

    [written_file v h l s] (LinesSpec.v): the text [s] has a header that spells [h] and
    gives the texts of [l] their ids, in this order; [final l n t]: [t] is the last text
    for [n]. *)

From Coq Require Import String Ascii List NArith ZArith Bool Permutation.
From Verif Require Import Base Prims Spec Float Kind Types Schema Entity DataMap Header File HeaderSpec FileSpec
  EntitySpec SectionFacts SpellSpec SpellHead GramSpec LinesSpec LinesFacts StrictTime P_File P_Gram.
Import ListNotations.
Open Scope N_scope.

(** ** C65: what is loaded depends on the header and on the last text of each id only *)

(** Same result, be it a model, an error or a panic. *)
Theorem C65_lines v h l l' s s' :
  written_file v h l s -> written_file v h l' s' -> (forall n t, final l n t <-> final l' n t) -> load v s = load v s'.
Proof. exact (written_load v h l l' s s'). Qed.
Print Assumptions C65_lines.

(** Lines with different ids may stand in any order. *)
Theorem C65_order v h l l' s s' :
  written_file v h l s -> written_file v h l' s' -> Permutation l l' -> NoDup (map fst l) -> load v s = load v s'.
Proof. exact (written_order v h l l' s s'). Qed.
Print Assumptions C65_order.

(** A definition that is overridden later can be left out. *)
Theorem C65_overridden v h a b n t s s' :
  written_file v h (a ++ (n, t) :: b) s -> written_file v h (a ++ b) s' -> In n (map fst b) -> load v s = load v s'.
Proof. exact (written_overridden v h a b n t s s'). Qed.
Print Assumptions C65_overridden.

(** Gaps between the objects, and the layout of the header, change nothing. *)
Theorem C65_layout v h l s s' : written_file v h l s -> written_file v h l s' -> load v s = load v s'.
Proof. exact (fun H H' => written_load v h l l s s' H H' (fun n t => iff_refl _)). Qed.
Print Assumptions C65_layout.

(** *** Two orders of three lines, one of them twice *)

Definition point_7 : text := lit "IFCCARTESIANPOINT((1,-INF));".
Definition axis_4 : text := lit "IFCAXIS2PLACEMENT2D(#7,$);".
Definition foo_9 : text := lit "IFCFOO('a');".

Lemma texts_formed : form_object (Of KPoint2D) point_7 /\ form_object (Of KAxis2D) axis_4 /\ form_object (Other (lit "IFCFOO('a')")) foo_9.
Proof.
  destruct reals as (_ & _ & R3 & R4). split; [|split].
  - eapply fo_known; [reflexivity|].
    refine (fo_row _ _ _ _ (lit "IFCCARTESIANPOINT(") [] (lit "(1,-INF)") [] _ gap_nil gap_nil _ _); [now left|now split|].
    apply fo_last. exact (fo_vec2 (lit "1") (lit "-INF") [] [] [] [] R3 R4 gap_nil gap_nil gap_nil gap_nil).
  - eapply fo_known; [reflexivity|].
    refine (fo_row _ _ _ _ (lit "IFCAXIS2PLACEMENT2D(") [] (lit "#7,$") [] _ gap_nil gap_nil _ _); [now left|now split|].
    refine (fo_more _ (lit "#7") [] [] _ (lit "$") _ gap_nil gap_nil _); [apply fo_ref with 7; apply id_7|]. apply fo_last. constructor.
  - apply (fo_unknown (lit "IFCFOO('a')")). apply opaqueb_ok. vm_compute. reflexivity.
Qed.

Lemma ids_formed : SpellSpec.id_text 4 (lit "#4") /\ SpellSpec.id_text 9 (lit "#9").
Proof.
  split; [exists (lit "4")|exists (lit "9")]; (split; [reflexivity|]); (split; [|reflexivity]); [apply (decimal_digit 4)|apply (decimal_digit 9)]; reflexivity.
Qed.

Definition order_a : string := "#4 =IFCAXIS2PLACEMENT2D(#7,$); #7=IFCCARTESIANPOINT((1,-INF)); #9=IFCFOO('a');".
Definition order_b : string := "#9=IFCFOO('a');#7= IFCCARTESIANPOINT((1,-INF));#4=IFCAXIS2PLACEMENT2D(#7,$);".

Lemma small_file l data : written l (lit data) -> exists h, written_file env0 h l (file noon data) /\
  parse_whole (p_header env0) (lit "ISO-10303-21;HEADER;FILE_DESCRIPTION((''),'2;1');FILE_NAME('','2024-01-02T12:00:00',(''),(''),'','','');FILE_SCHEMA(('IFC4'));ENDSEC;") = Done h.
Proof.
  pose (hw := lit "ISO-10303-21;HEADER;FILE_DESCRIPTION((''),'2;1');FILE_NAME('','2024-01-02T12:00:00',(''),(''),'','','');FILE_SCHEMA(('IFC4'));ENDSEC;").
  intro H. destruct (p_header env0 hw) as [h r| | |] eqn:E; try (vm_compute in E; discriminate).
  assert (r = []) as -> by (vm_compute in E; congruence).
  destruct (header_sound env0 _ _ _ E) as (w & Ew & Hw). rewrite app_nil_r in Ew. subst w. exists h. split.
  - exists hw, [], [], (lit data), [], []. split; auto. do 2 (split; [constructor|]). split; auto. do 2 (split; [constructor|]).
    unfold file, hw. rewrite app_nil_r. cbn [app]. reflexivity.
  - fold hw. unfold parse_whole. now rewrite E.
Qed.

Example C65_meets :
  exists h l l', written_file env0 h l (file noon order_a) /\ written_file env0 h l' (file noon order_b) /\
    Permutation l l' /\ NoDup (map fst l) /\ l <> l' /\ exists x, load env0 (file noon order_b) = Done x.
Proof.
  destruct texts_formed as (T7 & T4 & T9), ids_formed as (I4 & I9).
  assert (A : written [(4, axis_4); (7, point_7); (9, foo_9)] (lit order_a)).
  { refine (wr_line 4 (lit "#4") (lit " ") [] _ axis_4 (lit " ") _ (lit "#7=IFCCARTESIANPOINT((1,-INF)); #9=IFCFOO('a');") I4 gap_space gap_nil gap_space T4 _).
    refine (wr_line 7 (lit "#7") [] [] _ point_7 (lit " ") _ (lit "#9=IFCFOO('a');") id_7 gap_nil gap_nil gap_space T7 _).
    exact (wr_line 9 (lit "#9") [] [] _ foo_9 [] _ [] I9 gap_nil gap_nil gap_nil T9 wr_nil). }
  assert (B : written [(9, foo_9); (7, point_7); (4, axis_4)] (lit order_b)).
  { refine (wr_line 9 (lit "#9") [] [] _ foo_9 [] _ (lit "#7= IFCCARTESIANPOINT((1,-INF));#4=IFCAXIS2PLACEMENT2D(#7,$);") I9 gap_nil gap_nil gap_nil T9 _).
    refine (wr_line 7 (lit "#7") [] (lit " ") _ point_7 [] _ (lit "#4=IFCAXIS2PLACEMENT2D(#7,$);") id_7 gap_nil gap_space gap_nil T7 _).
    exact (wr_line 4 (lit "#4") [] [] _ axis_4 [] _ [] I4 gap_nil gap_nil gap_nil T4 wr_nil). }
  destruct (small_file _ _ A) as (h & HA & E), (small_file _ _ B) as (h' & HB & E'). rewrite E in E'. injection E' as <-.
  exists h, [(4, axis_4); (7, point_7); (9, foo_9)], [(9, foo_9); (7, point_7); (4, axis_4)]. split; auto. split; auto. split; [|split; [|split]].
  - apply (Permutation_rev [(4, axis_4); (7, point_7); (9, foo_9)]).
  - repeat constructor; cbn; intuition discriminate.
  - discriminate.
  - eexists. vm_compute. reflexivity.
Qed.
