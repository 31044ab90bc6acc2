(** Properties of names and words: C55, C18 (which form).

    [enumerations]: every table of words of the model with the variants that /repo
    declares; [called n w]: the word [w] has the letters of the name [n] (ten words have
    not, [misnamed]); [keyword n]: [IFC] and the name in capitals. *)

From Coq Require Import String Ascii List NArith ZArith Bool.
From Verif Require Import Base Prims Spec Float FloatFacts Kind Types WellTyped Schema Entity EntitySpec DataMap Header File FileSpec
  StrictTime AttrFacts NameSpec NameFacts P_File.
Import ListNotations.
Open Scope N_scope.

(** ** C55: enumerations *)

(** The words of an enumeration are those that are declared, each for the variant of
    its name. *)
Theorem C55_words vs t :
  In (vs, t) enumerations ->
  vs = map (fun q => lit (snd q)) t /\ NoDup (map fst t) /\ (forall n w, In (n, w) t -> called n w).
Proof. exact (enum_spelled vs t). Qed.
Print Assumptions C55_words.

(** No enumeration is missing. *)
Theorem C55_all_enumerations k vs : used_in k (TEnum vs) -> exists t, In (vs, t) enumerations.
Proof. exact (enum_known k vs). Qed.
Print Assumptions C55_all_enumerations.

(** A variant is printed with its word, and this word, with any gaps, read as it. *)
Theorem C55_variant vs t i n w g1 g2 rest :
  In (vs, t) enumerations -> nth_error t i = Some (n, w) -> gap g1 -> gap g2 -> no_gap rest ->
  d_enum vs i = lit w /\ p_enum vs (g1 ++ lit w ++ g2 ++ rest) = ROk i rest.
Proof. exact (enum_read vs t i n w g1 g2 rest). Qed.
Print Assumptions C55_variant.

(** Other words are refused. *)
Theorem C55_other_words vs t g s :
  In (vs, t) enumerations -> gap g -> no_gap s -> (forall n w r, In (n, w) t -> s <> lit w ++ r) ->
  p_enum vs (g ++ s) = RBack.
Proof. exact (enum_other vs t g s). Qed.
Print Assumptions C55_other_words.

Example C55_example :
  In (enum_IfcUnitName, variants_IfcUnitName) enumerations /\
  nth_error variants_IfcUnitName 4 = Some ("CubicMetre", ".CUBIC_METRE.")%string /\
  d_enum enum_IfcUnitName 4 = lit ".CUBIC_METRE." /\
  p_enum enum_IfcUnitName (lit " /*x*/ .CUBIC_METRE. )") = ROk 4%nat (lit ")") /\
  p_enum enum_IfcUnitName (lit " .CUBICMETRE.)") = RBack.
Proof. repeat split; try (vm_compute; reflexivity). vm_compute. repeat (first [left; reflexivity|right]). Qed.

(** Words of the standard that are refused, before any text. *)
Theorem C55_left_out vs w s : In (vs, w) left_out -> p_enum vs (lit w ++ s) = RBack.
Proof. exact (left_out_back vs w s). Qed.
Print Assumptions C55_left_out.

(** So the unit of a voltage in a file of the standard is not read as a unit, and the
    unit the library writes is not one of the standard. *)
Theorem C55_standard_refuted :
  exists x, load env0 (file noon "#1=IFCSIUNIT(*,.ELECTRICVOLTAGEUNIT.,$,.VOLT.);#2=IFCSIUNIT(*,.PRESSUREUNIT.,.HECTO.,.PASCAL.);") = Done x /\
    lookup (i_data x) 1 = Some (EDummy (lit "IFCSIUNIT(*,.ELECTRICVOLTAGEUNIT.,$,.VOLT.)")) /\
    lookup (i_data x) 2 = Some (EDummy (lit "IFCSIUNIT(*,.PRESSUREUNIT.,.HECTO.,.PASCAL.)")) /\
    nth_error variants_IfcUnitEnum 9 = Some ("ElectricVoltageUnit", ".ELCTRICVOLTAGEUNIT.")%string /\
    d_entity (Ent KSiUnit [VInh; VEnum 9; VOmit; VEnum 27]) = lit "IFCSIUNIT(*,.ELCTRICVOLTAGEUNIT.,$,.VOLT.);".
Proof. eexists. repeat split; vm_compute; reflexivity. Qed.
Print Assumptions C55_standard_refuted.

(** ** Measures *)

(** Printed with the name in capitals, read with this or the mixed spelling. *)
Theorem C55_measures i v n c txt c' kw s :
  nth_error measures i = Some (v, n) -> contents v c txt c' -> wt TValue (VMeasure i c) = true ->
  d_value (VMeasure i c) = map upper (lit n) ++ lit "(" ++ txt ++ lit ")" /\
  (kw = map upper (lit n) \/ kw = lit n ->
   p_value (kw ++ lit "(" ++ txt ++ lit ")" ++ s) = ROk (VMeasure i c') s).
Proof. exact (measure_words i v n c txt c' kw s). Qed.
Print Assumptions C55_measures.

Example C55_measures_example :
  nth_error measures 3 = Some ("Identifier", "IfcIdentifier")%string /\
  contents "Identifier" (VStr (lit "a")) (lit "'a'") (VStr (lit "a")) /\
  wt TValue (VMeasure 3 (VStr (lit "a"))) = true /\
  d_value (VMeasure 3 (VStr (lit "a"))) = lit "IFCIDENTIFIER('a')" /\
  p_value (lit "IfcIdentifier('a'))") = ROk (VMeasure 3 (VStr (lit "a"))) (lit ")").
Proof. repeat split; try (vm_compute; reflexivity). exact (contents_identifier (lit "a")). Qed.

(** ** Kinds *)

(** Every kind that can be read is in the table. *)
Theorem C55_all_kinds k l : wf_ent k l -> exists n, In (k, n) structs.
Proof.
  exact (fun H => let (r, Hr) := H in
    all_structs k (fun E => match eq_trans (eq_sym E) (proj1 Hr) in _ = y return match y with None => True | Some _ => False end with eq_refl => I end)).
Qed.
Print Assumptions C55_all_kinds.

(** An object is printed under the keyword of its struct and read under it; the standard
    cases of walls, slabs, windows and doors are read as these, and so printed without
    the addition afterwards. *)
Theorem C55_keywords k n l :
  In (k, n) structs -> wf_ent k l ->
  exists body, d_entity (Ent k l) = keyword n ++ lit "(" ++ body /\
    (forall g1 g2 rest, gap g1 -> gap g2 -> no_gap rest ->
      p_obj (g1 ++ (keyword n ++ lit "(" ++ body) ++ g2 ++ rest) = ROk (Ent k (map (norm_val norm_real) l)) rest) /\
    (In k standard_cases -> forall g1 g2 rest, gap g1 -> gap g2 -> no_gap rest ->
      p_obj (g1 ++ (keyword n ++ lit "STANDARDCASE(" ++ body) ++ g2 ++ rest) = ROk (Ent k (map (norm_val norm_real) l)) rest).
Proof. exact (keyword_printed k n l). Qed.
Print Assumptions C55_keywords.

Example C55_keywords_example :
  let l := [VGuid [0;0;0;0;0;0;0;0;0;0;0;0;0;0;0;0]; VOmit; VOmit; VOmit; VOmit; VOmit; VOmit; VOmit; VOmit] in
  In (KWall, "Wall"%string) structs /\ wf_ent KWall l /\ keyword "Wall" = lit "IFCWALL" /\
  keyword "Storey" = lit "IFCBUILDINGSTOREY" /\
  d_entity (Ent KWall l) = lit "IFCWALL('0000000000000000000000',$,$,$,$,$,$,$,$);" /\
  p_obj (lit "IFCWALLSTANDARDCASE('0000000000000000000000',$,$,$,$,$,$,$,$);") = ROk (Ent KWall l) [].
Proof.
  cbv zeta. split; [|split].
  - vm_compute. repeat (first [left; reflexivity|right]).
  - eexists. split; [reflexivity|vm_compute; reflexivity].
  - repeat split; vm_compute; reflexivity.
Qed.

(** The kind of the keyword is lost. *)
Theorem C55_standard_case_refuted :
  exists x y, load env0 (file noon "#1=IFCWALLSTANDARDCASE('0000000000000000000000',$,$,$,$,$,$,$,$);") = Done x /\
    load env0 (file noon "#1=IFCWALL('0000000000000000000000',$,$,$,$,$,$,$,$);") = Done y /\ save x = save y.
Proof. eexists; eexists. repeat split; vm_compute; reflexivity. Qed.
Print Assumptions C55_standard_case_refuted.

(** ** C18: which reals are written with an exponent *)

(** Those whose fraction, written alone, needs more than ten digits other than zero. *)
Theorem C18_form d :
  f64_ok d -> In 69 (d_real d) <-> (10 < nonzero_digits (show_f64 (fract d)))%nat.
Proof. exact (real_form d). Qed.
Print Assumptions C18_form.

(** 0.1234567891 and 0.12345678912; 1234.1, of which the fraction is 0.09999999999990905. *)
Example C18_form_example :
  let a := f64_of_dec false 1234567891 (-10) in
  let b := f64_of_dec false 12345678912 (-11) in
  let c := f64_of_dec false 12341 (-1) in
  d_real a = lit "0.1234567891" /\ nonzero_digits (show_f64 (fract a)) = 10%nat /\
  d_real b = lit "1.23456789120000E-1" /\ nonzero_digits (show_f64 (fract b)) = 11%nat /\
  d_real c = lit "1.23410000000000E3" /\ show_f64 (fract c) = lit "0.09999999999990905".
Proof. cbv zeta. repeat split; vm_compute; reflexivity. Qed.
