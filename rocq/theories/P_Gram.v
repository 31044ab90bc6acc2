(** Every well-formed text is read, and as what it spells: C64.

    [form t w], [form_object s w], [form_file v h l s] (GramSpec.v) say which texts are
    well formed, without mentioning values; [spells …] (SpellSpec.v) says which values a
    text stands for. *)

From Coq Require Import String Ascii List NArith ZArith Bool Lia.
From Verif Require Import Base Prims Guid Spec Float Kind Types Schema Entity DataMap DataSpec Header File HeaderSpec FileSpec
  EntitySpec EntityFacts SectionFacts SpellSpec SpellHead GramSpec GramFacts GramHead RoundUnique SpellIff StrictTime P_File.
Import ListNotations.
Open Scope N_scope.

(** ** C64: the reader is complete *)

(** A well-formed file is read to its end: the model has the header and, for each id, the
    last of the objects the lines spell.  It is loaded exactly when the references are
    good; otherwise it is a reference that is wrong or missing, never the text. *)
Theorem C64_file v h l s :
  form_file v h l s ->
  exists x l', i_header x = h /\ Forall2 same l l' /\ spells_file v h l' s /\ increasing (i_data x) /\
    (forall n, last_def l' n (lookup (i_data x) n)) /\
    (load v s = Done x <-> refs_ok (i_data x)) /\
    (load v s = Done x \/ load v s = Err /\ misdirected (i_data x) \/ load v s = Panic /\ dangling (i_data x)).
Proof. exact (file_form_loads v h l s). Qed.
Print Assumptions C64_file.

(** One object, of every kind and of none. *)
Theorem C64_object s w :
  form_object s w ->
  exists e, is_sort e s /\ spells_object e w /\
    forall g1 g2 rest, gap g1 -> gap g2 -> no_gap rest -> p_obj (g1 ++ w ++ g2 ++ rest) = ROk e rest.
Proof. exact (form_obj s w). Qed.
Print Assumptions C64_object.

(** One attribute of every type some kind has. *)
Theorem C64_attribute k r t w :
  row_of k = Some r -> In t (row_fields r) -> form t w ->
  exists v, spells t v w /\
    forall rest, may_follow rest -> exists g r, gap g /\ rest = g ++ r /\ p_ty t (w ++ rest) = ROk v r.
Proof. exact (attribute_form k r t w). Qed.
Print Assumptions C64_attribute.

(** The header: every spelling of a header is read as it. *)
Theorem C64_header v h w rest : spells_header v h w -> no_gap rest -> p_header v (w ++ rest) = ROk h rest.
Proof. exact (header_form_stop v h w rest). Qed.
Print Assumptions C64_header.

(** With C63: a text is read as a header if and only if it spells it. *)
Theorem C64_header_iff v h w : p_header v w = ROk h [] <-> spells_header v h w.
Proof. exact (header_iff v h w). Qed.
Print Assumptions C64_header_iff.

(** Hence a text spells one header at most. *)
Theorem C64_header_unique v h h' w : spells_header v h w -> spells_header v h' w -> h = h'.
Proof. exact (header_form_unique v h h' w). Qed.
Print Assumptions C64_header_unique.

(** A text is read as a number if and only if it spells it: the nearest one, ties to even. *)
Theorem C64_real_iff w d : p_real w = ROk d [] <-> real_text d w.
Proof. exact (real_iff w d). Qed.
Print Assumptions C64_real_iff.

Theorem C64_real_unique w d d' : real_text d w -> real_text d' w -> d = d'.
Proof. exact (real_text_unique w d d'). Qed.
Print Assumptions C64_real_unique.

(** [2^53 + 1] lies half way between two numbers, of which the even one is meant. *)
Example C64_real_example :
  real_text (FFin false 4503599627370496 1) (lit "9007199254740993.") /\
  ~ real_text (FFin false 4503599627370497 1) (lit "9007199254740993.").
Proof. rewrite <- !C64_real_iff. split; [vm_compute; reflexivity|vm_compute; discriminate]. Qed.

(** Integers, references and identifiers in the same way. *)
Theorem C64_int_iff w z :
  p_int w = ROk z [] <-> int_text z w /\ (-9223372036854775808 <= z <= 9223372036854775807)%Z.
Proof. exact (int_iff w z). Qed.
Print Assumptions C64_int_iff.

Theorem C64_id_iff w n : p_id w = ROk n [] <-> SpellSpec.id_text n w.
Proof. exact (id_iff w n). Qed.
Print Assumptions C64_id_iff.

Theorem C64_guid_iff w g : p_guid w = ROk g [] <-> guid_text g w.
Proof. exact (guid_iff w g). Qed.
Print Assumptions C64_guid_iff.

(** A number with a sign and one with a leading zero; the first digit of an identifier
    counts modulo four. *)
Example C64_iff_example :
  int_text 12 (lit "+12") /\ ~ int_text 12 (lit "012") /\ SpellSpec.id_text 7 (lit "#7") /\
  guid_text (repeat 0 15 ++ [1]) (lit "'0000000000000000000001'") /\
  guid_text (repeat 0 15 ++ [1]) (lit "'4000000000000000000001'").
Proof.
  rewrite <- C64_id_iff, <- !C64_guid_iff.
  assert (H : int_text 12 (lit "+12")) by (apply C64_int_iff; vm_compute; reflexivity). split; auto. clear H.
  split; [|vm_compute; auto]. intro H.
  assert (R : p_int (lit "012") = ROk 12%Z []) by (apply C64_int_iff; split; [exact H|lia]). vm_compute in R. discriminate.
Qed.

(** *** The examples: numerals as the library does not write them, comments, an unknown
    object, two definitions of one id *)

Definition example_lines : string :=
  "#7 =/* twice */IFCCARTESIANPOINT((+1. , .5E1));#7=IFCCARTESIANPOINT((1,-INF)); #4=IFCAXIS2PLACEMENT2D(#7 ,$);#9=IFCFOO('a');".

Lemma gap_space : gap (lit " ").
Proof. apply (gap_blank 32 []); [now left|constructor]. Qed.

Lemma one_digit c : In c (lit "0123456789") -> digit_text [c].
Proof. intro H. constructor; [|constructor]. cbn in H. repeat destruct H as [<-|H]; lia. Qed.

Lemma id_7 : SpellSpec.id_text 7 (lit "#7").
Proof. exists (lit "7"). split; [reflexivity|]. split; [apply (decimal_digit 7)|]; reflexivity. Qed.

Lemma reals : real_form (lit "+1.") /\ real_form (lit ".5E1") /\ real_form (lit "1") /\ real_form (lit "-INF").
Proof.
  assert (D : forall c, In c (lit "15") -> digit_text [c]) by (intros c Hc; apply one_digit; cbn in *; tauto).
  split; [|split; [|split]].
  - apply (rf_decimal false (lit "+") (lit "1") [] (lit "1.") 0 []); [constructor| |constructor].
    apply (point_after (lit "1") []); [apply D; now left|discriminate|constructor].
  - apply (rf_decimal false [] [] (lit "5") (lit ".5") (signed false (number (lit "1"))) (lit "E1")); [constructor| |].
    + apply (point_first (lit "5")); [apply D; right; now left|discriminate].
    + apply (exp_some (lit "E") false [] (lit "1")); [now right|constructor|apply D; now left|discriminate].
  - apply (rf_decimal false [] (lit "1") [] (lit "1") 0 []); [constructor| |constructor].
    apply (point_none (lit "1")); [apply D; now left|discriminate].
  - apply (rf_inf true (lit "-") (lit "INF")); [constructor|]. left.
    do 3 (constructor; [right; split; [reflexivity|cbv; split; discriminate]|]). constructor.
Qed.

Example C64_lines :
  form_lines [(7, Of KPoint2D); (7, Of KPoint2D); (4, Of KAxis2D); (9, Other (lit "IFCFOO('a')"))] (lit example_lines).
Proof.
  destruct reals as (R1 & R2 & R3 & R4).
  refine (fo_line 7 (lit "#7") (Of KPoint2D) (lit " ") (lit "/* twice */") (lit "IFCCARTESIANPOINT((+1. , .5E1));") [] _
    (lit "#7=IFCCARTESIANPOINT((1,-INF)); #4=IFCAXIS2PLACEMENT2D(#7 ,$);#9=IFCFOO('a');") id_7 gap_space _ (gap_nil) _ _).
  { apply (gap_comment (lit " twice ") []); [|constructor]. intros (a & b & E).
    assert (H : In 47 (lit " twice *")) by (change (lit " twice *") with (lit " twice " ++ lit "*"); rewrite E, !in_app_iff; cbn; tauto).
    cbn in H. repeat destruct H as [H|H]; try discriminate; contradiction. }
  { eapply fo_known; [reflexivity|].
    refine (fo_row _ _ _ _ (lit "IFCCARTESIANPOINT(") [] (lit "(+1. , .5E1)") [] _ gap_nil gap_nil _ _); [now left|now split|].
    apply fo_last. exact (fo_vec2 (lit "+1.") (lit ".5E1") [] (lit " ") (lit " ") [] R1 R2 gap_nil gap_space gap_space gap_nil). }
  refine (fo_line 7 (lit "#7") (Of KPoint2D) [] [] (lit "IFCCARTESIANPOINT((1,-INF));") (lit " ") _
    (lit "#4=IFCAXIS2PLACEMENT2D(#7 ,$);#9=IFCFOO('a');") id_7 gap_nil gap_nil gap_space _ _).
  { eapply fo_known; [reflexivity|].
    refine (fo_row _ _ _ _ (lit "IFCCARTESIANPOINT(") [] (lit "(1,-INF)") [] _ gap_nil gap_nil _ _); [now left|now split|].
    apply fo_last. exact (fo_vec2 (lit "1") (lit "-INF") [] [] [] [] R3 R4 gap_nil gap_nil gap_nil gap_nil). }
  refine (fo_line 4 (lit "#4") (Of KAxis2D) [] [] (lit "IFCAXIS2PLACEMENT2D(#7 ,$);") [] _
    (lit "#9=IFCFOO('a');") _ gap_nil gap_nil gap_nil _ _).
  { exists (lit "4"). split; [reflexivity|]. split; [apply (decimal_digit 4)|]; reflexivity. }
  { eapply fo_known; [reflexivity|].
    refine (fo_row _ _ _ _ (lit "IFCAXIS2PLACEMENT2D(") [] (lit "#7 ,$") [] _ gap_nil gap_nil _ _); [now left|now split|].
    refine (fo_more _ (lit "#7") (lit " ") [] _ (lit "$") _ gap_space gap_nil _); [apply fo_ref with 7; apply id_7|]. apply fo_last. constructor. }
  refine (fo_line 9 (lit "#9") (Other (lit "IFCFOO('a')")) [] [] (lit "IFCFOO('a');") [] _ [] _ gap_nil gap_nil gap_nil _ fo_no_lines).
  { exists (lit "9"). split; [reflexivity|]. split; [apply (decimal_digit 9)|]; reflexivity. }
  apply (fo_unknown (lit "IFCFOO('a')")). apply opaqueb_ok. vm_compute. reflexivity.
Qed.

(** The text is also accepted by evaluation, with the values that [C64_file] gives. *)
Example C64_meets :
  exists h, form_file env0 h [(7, Of KPoint2D); (7, Of KPoint2D); (4, Of KAxis2D); (9, Other (lit "IFCFOO('a')"))] (file noon example_lines) /\
    exists x, load env0 (file noon example_lines) = Done x /\ i_header x = h /\
      lookup (i_data x) 7 = Some (Ent KPoint2D [VVec [FFin false 4503599627370496 (-52); FInf true]]).
Proof.
  pose (hw := lit "ISO-10303-21;HEADER;FILE_DESCRIPTION((''),'2;1');FILE_NAME('','2024-01-02T12:00:00',(''),(''),'','','');FILE_SCHEMA(('IFC4'));ENDSEC;").
  destruct (p_header env0 hw) as [h r| | |] eqn:E; try (vm_compute in E; discriminate).
  assert (r = []) as -> by (vm_compute in E; congruence).
  destruct (header_sound env0 _ _ _ E) as (w & Ew & Hw). rewrite app_nil_r in Ew. subst w. exists h. split.
  - exists hw, [], [], (lit example_lines), [], []. split; auto. do 2 (split; [constructor|]). split; [apply C64_lines|]. do 2 (split; [constructor|]).
    vm_compute. reflexivity.
  - eexists. split; [vm_compute; reflexivity|]. cbn [i_header i_data]. split; [vm_compute in E; congruence|vm_compute; reflexivity].
Qed.
