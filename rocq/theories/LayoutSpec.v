(** Specification of the text of a saved file, character by character, as the [Display]
    implementations of /repo/ifc_rs/src/lib.rs and /repo/ifc_rs/src/meta lay it out. *)

From Coq Require Import String Ascii List NArith ZArith Bool.
From Verif Require Import Base Spec Kind Types Entity DataMap Header File NameSpec DeclSpec.
Import ListNotations.
Open Scope N_scope.

(** [apart c l w]: [w] is the texts [l] with [c] between them. *)
Inductive apart (c : text) : list text -> text -> Prop :=
| apart_none : apart c [] []
| apart_one x : apart c [x] x
| apart_more x y l w : apart c (y :: l) w -> apart c (x :: y :: l) (x ++ c ++ w).

(** [digits_of k n w]: the decimal notation of [n], with zeros in front up to [k] digits. *)
Definition digits_of (k : nat) (n : N) (w : text) : Prop :=
  exists z ds, w = z ++ ds /\ decimal n ds /\ Forall (fun c => c = 48) z /\
    (length w = k \/ z = [] /\ (k < length w)%nat).

(** The year, with a sign outside of 0 to 9999. *)
Definition year_text (y : Z) (w : text) : Prop :=
  exists s ds, w = s ++ ds /\ digits_of 4 (Z.abs_N y) ds /\
    ((y < 0)%Z /\ s = lit "-" \/ (0 <= y <= 9999)%Z /\ s = [] \/ (9999 < y)%Z /\ s = lit "+").

(** Year, month, day, hour, minute, second. *)
Definition stamp_text (t : stamp) (w : text) : Prop :=
  exists y mo d h mi s,
    year_text (st_year t) y /\ digits_of 2 (st_month t) mo /\ digits_of 2 (st_day t) d /\
    digits_of 2 (st_hour t) h /\ digits_of 2 (st_min t) mi /\ digits_of 2 (st_sec t) s /\
    w = y ++ lit "-" ++ mo ++ lit "-" ++ d ++ lit "T" ++ h ++ lit ":" ++ mi ++ lit ":" ++ s.

(** A parenthesised list of texts between apostrophes. *)
Definition texts (l : list text) (w : text) : Prop :=
  exists u, apart (lit ",") (map (fun x => [39] ++ x ++ [39]) l) u /\ w = lit "(" ++ u ++ lit ")".

(** A view definition: its name, and its items between brackets. *)
Definition view_text (d : view_def) (w : text) : Prop :=
  exists u, apart (lit ", ") (vd_items d) u /\ w = vd_name d ++ lit " [" ++ u ++ lit "]".

(** The view definitions; without any there is an empty text. *)
Definition views_text (l : list view_def) (w : text) : Prop :=
  l = [] /\ w = lit "('')" \/ l <> [] /\ exists ts, Forall2 view_text l ts /\ texts ts w.

(** The names of the schemas. *)
Inductive schema_name : schema -> text -> Prop :=
| name_4x3 : schema_name S_IFC4X3_ADD2 (lit "IFC4X3_ADD2")
| name_4 : schema_name S_IFC4 (lit "IFC4")
| name_2x3 : schema_name S_IFC2X3 (lit "IFC2X3").

(** The header: seven lines. *)
Definition header_text (h : header) (w : text) : Prop :=
  exists vs st au os names sc,
    views_text (h_views h) vs /\ stamp_text (h_time h) st /\ texts (h_authors h) au /\
    texts (h_orgs h) os /\ Forall2 schema_name (h_schemas h) names /\ texts names sc /\
    w = lit "ISO-10303-21;" ++ [10] ++
        lit "HEADER;" ++ [10] ++
        lit "FILE_DESCRIPTION(" ++ vs ++ lit ",'2;1');" ++ [10] ++
        lit "FILE_NAME('" ++ h_name h ++ lit "','" ++ st ++ lit "'," ++ au ++ lit "," ++ os ++
          lit ",'" ++ h_pre h ++ lit "','" ++ h_sys h ++ lit "','" ++ h_auth h ++ lit "');" ++ [10] ++
        lit "FILE_SCHEMA(" ++ sc ++ lit ");" ++ [10] ++
        lit "ENDSEC;" ++ [10].

(** An object: the keyword of its struct and the texts of its attributes in the order of
    the declaration (C67), or the text that was not understood. *)
Inductive object_text : entity -> text -> Prop :=
| object_known k s a l ws u :
    In (k, s) structs -> attributes_of s a -> writtens (map a_type a) l ws -> apart (lit ",") ws u ->
    object_text (Ent k l) (keyword s ++ lit "(" ++ u ++ closing s)
| object_unknown s : object_text (EDummy s) (s ++ lit ";").

(** One line for each object. *)
Inductive lines_text : list (N * entity) -> text -> Prop :=
| lines_none : lines_text [] []
| lines_more n ds e o l w : decimal n ds -> object_text e o -> lines_text l w ->
    lines_text ((n, e) :: l) (lit "#" ++ ds ++ lit "= " ++ o ++ [10] ++ w).

(** The file: the header, the objects in the order of the map, the end; an empty line
    between them. *)
Definition whole_text (x : ifc) (w : text) : Prop :=
  exists h d, header_text (i_header x) h /\ lines_text (i_data x) d /\
    w = h ++ [10] ++ lit "DATA;" ++ [10] ++ d ++ lit "ENDSEC;" ++ [10] ++ [10] ++
        lit "END-ISO-10303-21;" ++ [10].
