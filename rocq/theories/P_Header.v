(** Properties of the header: C15, C46. *)

From Coq Require Import String Ascii List NArith ZArith Bool.
From Verif Require Import Base Prims Spec Header File HeaderSpec HeaderFacts FileSpec StrictTime
  FileFacts2 FileFacts3.
Import ListNotations.
Open Scope N_scope.

(** ** C15: headers survive printing and reading *)

Theorem C15_header_round_trip v h g0 g rest :
  header_ok v h -> gap g0 -> gap g -> no_gap rest ->
  p_header v (g0 ++ d_header h ++ g ++ rest) = ROk h rest.
Proof.
  exact (fun Hh H0 Hg Hr => eq_trans (p_header_reads v h g0 (g ++ rest) Hh H0)
                                     (f_equal (ROk h) (PrimsFacts.skip_gap_stop g rest Hg Hr))).
Qed.
Print Assumptions C15_header_round_trip.

(** Headers that were read from a file can be printed, as soon as the time stamp is a
    whole second in the years 0 to 9999. *)
Theorem C15_read_is_printable v s h r :
  p_header v s = ROk h r -> civil (h_time h) -> chrono_reads v (h_time h) -> header_ok v h.
Proof. exact (header_read v s h r). Qed.
Print Assumptions C15_read_is_printable.

(** A fraction of a second is lost: the header that is read back is another one. *)
Theorem C15_fraction_lost v h : st_nano (h_time h) <> 0 -> header_ok v (whole_second h) ->
  p_header v (d_header h) = ROk (whole_second h) [] /\ whole_second h <> h.
Proof. exact (fraction_lost v h). Qed.
Print Assumptions C15_fraction_lost.

Example C15_example :
  let h := mk_header [mk_view (lit "ViewDefinition") [lit "CoordinationView"; lit "QuantityTakeOff"]]
             (lit "house.ifc") (mk_stamp 2024 2 29 23 59 59 0) [lit "A"; lit "B"] [lit "Org"]
             (lit "pre") (lit "sys") (lit "none") [S_IFC4X3_ADD2; S_IFC2X3] in
  p_header env0 (lit " " ++ d_header h ++ lit "DATA;") = ROk h (lit "DATA;").
Proof. vm_compute. reflexivity. Qed.

Example C15_stamp_example : chrono_reads env0 (mk_stamp 2024 2 29 23 59 59 0).
Proof. split; reflexivity. Qed.

(** ** C46: names of schemas *)

(** An item of the list of schemas is one of 27 spellings, and its value is the one
    of the table; every other text is rejected. *)
Theorem C46_spellings w g g' s : plain w -> gap g -> gap g' -> no_gap s ->
  (forall x, In (w, x) spellings -> p_schema_item (g ++ quoted w ++ g' ++ s) = ROk x s) /\
  ((forall x, ~ In (w, x) spellings) -> p_schema_item (g ++ quoted w ++ g' ++ s) = RBack).
Proof. exact (schema_item_gaps w g g' s). Qed.
Print Assumptions C46_spellings.

(** A spelling has one value. *)
Theorem C46_one_value w x y : In (w, x) spellings -> In (w, y) spellings -> x = y.
Proof. exact (spelling_unique w x y). Qed.
Print Assumptions C46_one_value.

(** The printed name of a schema is a spelling of this schema. *)
Theorem C46_printed_name x : In (d_schema x, x) spellings.
Proof. exact (d_schema_spelled x). Qed.
Print Assumptions C46_printed_name.

(** Lists of schemas survive printing and reading. *)
Theorem C46_schemas_round_trip l s : p_schema_list (d_schemas l ++ s) = ROk l s.
Proof. exact (p_schemas_reads l s). Qed.
Print Assumptions C46_schemas_round_trip.

Example C46_example :
  p_schema_item (lit " 'ifc4x3' ,") = ROk S_IFC4X3_ADD2 (lit ",") /\
  p_schema_item (lit "'IFC4x1'") = RBack /\ p_schema_item (lit "'iFC4'") = RBack /\
  p_schema_list (lit "('IFC2X3','Ifc4x2')") = ROk [S_IFC2X3; S_IFC4] [].
Proof. vm_compute. repeat split. Qed.
