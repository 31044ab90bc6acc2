(** Model of the header and footer of a file: /repo/ifc_rs/src/meta. *)

From Coq Require Import String Ascii List NArith ZArith Bool.
From Verif Require Import Base Prims DataMap.
Import ListNotations.
Open Scope N_scope.
Open Scope parser_scope.

(** [chrono::DateTime<Utc>] as civil time; a leap second has [st_sec = 60]. *)
Record stamp := mk_stamp {
  st_year : Z; st_month : N; st_day : N; st_hour : N; st_min : N; st_sec : N; st_nano : N }.

(** What the code takes from libraries that are not modelled:
    [uni c] is [char::is_alphanumeric] for characters above 127,
    [rfc3339] is [chrono::DateTime::parse_from_rfc3339] followed by the conversion
    to UTC, [None] for an error. *)
Record env := mk_env { uni : N -> bool; rfc3339 : text -> option stamp }.

(** [FileSchema], /repo/ifc_rs/src/meta/header/mod.rs [mod schema]. *)
Inductive schema := S_IFC4X3_ADD2 | S_IFC4 | S_IFC2X3.

(** [ViewDefinition], /repo/ifc_rs/src/meta/header/mod.rs:30-34. *)
Record view_def := mk_view { vd_name : text; vd_items : list text }.

(** [Header] with [FileDescription], [FileDetails] and [FileSchemas],
    /repo/ifc_rs/src/meta/header/mod.rs:9-60.  [Version] and [ImplementationLevel]
    have one value each and are left out. *)
Record header := mk_header {
  h_views : list view_def;
  h_name : text; h_time : stamp; h_authors : list text; h_orgs : list text;
  h_pre : text; h_sys : text; h_auth : text;
  h_schemas : list schema }.

(** ** Reading, /repo/ifc_rs/src/meta/header/deserialize.rs *)

(** Rust [char::is_alphanumeric] and the extra characters,
    /repo/ifc_rs/src/parser/mod.rs:47-52. *)
Definition is_ident (v : env) (c : N) : bool :=
  (if c <? 128
   then is_digit c || ((65 <=? c) && (c <=? 90)) || ((97 <=? c) && (c <=? 122))
   else uni v c)
  || (c =? 95) || (c =? 45) || (c =? 46) || (c =? 58).
Definition p_ident (v : env) : parser text := take_while0 (is_ident v).

(** Rust [char::is_whitespace] (Unicode White_Space). *)
Definition is_white (c : N) : bool :=
  ((9 <=? c) && (c <=? 13)) || (c =? 32) || (c =? 133) || (c =? 160) || (c =? 5760)
  || ((8192 <=? c) && (c <=? 8202)) || (c =? 8232) || (c =? 8233) || (c =? 8239)
  || (c =? 8287) || (c =? 12288).

(** Rust [str::trim]. *)
Fixpoint drop_white (s : text) : text :=
  match s with
  | c :: r => if is_white c then drop_white r else s
  | [] => []
  end.
Definition trim (s : text) : text := rev (drop_white (rev (drop_white s))).

(** Rust [str::is_empty]. *)
Definition is_empty (s : text) : bool := match s with [] => true | _ => false end.

(** Lines 40-51 [p_version]. *)
Definition p_version : parser unit :=
  p_space_or_comment ;;; tag (lit "ISO-10303-21") ;;; tag (lit ";") ;;; p_space_or_comment.

(** The opening of a header entry: name, gap, parenthesis; lines 56, 149, 173. *)
Definition p_open (name : text) : parser unit :=
  surrounded (tag name ;;; p_space_or_comment ;;; tag (lit "(")).
(** The end of a header entry: lines 60, 163, 175. *)
Definition p_end : parser unit :=
  surrounded (tag (lit ")") ;;; p_space_or_comment ;;; tag (lit ";")).

(** Lines 80-91: the items of a view definition. *)
Definition p_view_item : parser text :=
  pmap trim (repeat0 (one_of (fun c => negb ((c =? 44) || (c =? 93))))).
Definition p_view_items : parser (list text) :=
  tag (lit "[") ;;;
  l <- separated p_view_item (tag (lit ",")) ;;
  tag (lit "]") ;;; ret (filter (fun s => negb (is_empty s)) l).

(** Lines 73-100 [p_view_definition]. *)
Definition p_view (v : env) : parser view_def :=
  p_space_or_comment ;;;
  n <- p_ident v ;;
  p_space_or_comment ;;;
  l <- p_view_items ;;
  p_space_or_comment ;;; ret (mk_view n l).

(** Lines 65-71 [p_desc_desc]. *)
Definition p_views (v : env) : parser (list view_def) :=
  tag (lit "(") ;;;
  l <- alt (pmap (fun _ => []) (tag (lit "''")))
           (separated (surrounded (tag (lit "'") ;;; d <- p_view v ;; tag (lit "'") ;;; ret d))
                      (tag (lit ","))) ;;
  tag (lit ")") ;;; ret l.

(** Lines 102-114 [p_desc_level]. *)
Definition p_level : parser unit :=
  tag (lit "'") ;;; surrounded (tag (lit "2;1")) ;;; tag (lit "'").

(** Lines 53-63 [p_description]. *)
Definition p_description (v : env) : parser (list view_def) :=
  p_open (lit "FILE_DESCRIPTION") ;;;
  l <- p_views v ;; p_comma ;;; p_level ;;; p_end ;;; ret l.

(** Lines 118-122 [time_from_string]: [None] is the panic of [unwrap]. *)
Definition time_from_string (v : env) (s : text) : option stamp :=
  match rfc3339 v s with
  | Some t => Some t
  | None => rfc3339 v (s ++ lit "Z")
  end.

(** Lines 124-127: [$] is the empty name. *)
Definition p_file_name : parser text :=
  alt (pmap (fun _ => []) (tag (lit "$"))) p_quote_word.

(** Line 128. *)
Definition p_time (v : env) : parser stamp := pmap_unwrap (time_from_string v) p_quote_word.

(** Lines 129-146: authors and organisations. *)
Definition p_words : parser (list text) :=
  tag (lit "(") ;;;
  l <- separated (surrounded p_quote_word) (tag (lit ",")) ;;
  tag (lit ")") ;;; ret l.

(** The attributes of FILE_NAME, lines 147-165. *)
Record details := mk_details {
  f_name : text; f_time : stamp; f_authors : list text; f_orgs : list text;
  f_pre : text; f_sys : text; f_auth : text }.
Definition p_details (v : env) : parser details :=
  p_open (lit "FILE_NAME") ;;;
  n <- p_file_name ;; p_comma ;;;
  t <- p_time v ;; p_comma ;;;
  a <- p_words ;; p_comma ;;;
  o <- p_words ;; p_comma ;;;
  p <- p_quote_word ;; p_comma ;;;
  s <- p_quote_word ;; p_comma ;;;
  u <- p_quote_word ;; p_end ;;; ret (mk_details n t a o p s u).

(** Lines 191-202 [p_schema_inner]. *)
Definition p_schema_inner : parser schema :=
  alts [tag (lit "IFC"); tag (lit "Ifc"); tag (lit "ifc")] ;;;
  alts [ pmap (fun _ => S_IFC4X3_ADD2) (alts [tag (lit "4X3_ADD2"); tag (lit "4x3_ADD2")])
       ; pmap (fun _ => S_IFC2X3) (alts [tag (lit "2x3"); tag (lit "2X3")])
       ; pmap (fun _ => S_IFC4) (alts [tag (lit "4x2"); tag (lit "4X2")])
       ; pmap (fun _ => S_IFC4X3_ADD2) (alts [tag (lit "4x3"); tag (lit "4X3")])
       ; pmap (fun _ => S_IFC4) (tag (lit "4")) ].

(** Lines 180-189 [p_schema_outer], one item and the list. *)
Definition p_schema_item : parser schema :=
  surrounded (tag (lit "'") ;;; x <- p_schema_inner ;; tag (lit "'") ;;; ret x).
Definition p_schema_list : parser (list schema) :=
  tag (lit "(") ;;; l <- separated p_schema_item (tag (lit ",")) ;; tag (lit ")") ;;; ret l.

(** Lines 170-178 [p_schema]. *)
Definition p_schema : parser (list schema) :=
  p_open (lit "FILE_SCHEMA") ;;; l <- p_schema_list ;; p_end ;;; ret l.

(** Lines 21-37 [Header::parse]. *)
Definition p_header (v : env) : parser header :=
  p_space_or_comment ;;;
  p_version ;;;
  surrounded (tag (lit "HEADER;")) ;;;
  d <- p_description v ;;
  p_space_or_comment ;;;
  n <- p_details v ;;
  p_space_or_comment ;;;
  c <- p_schema ;;
  surrounded (tag (lit "ENDSEC;")) ;;;
  ret (mk_header d (f_name n) (f_time n) (f_authors n) (f_orgs n) (f_pre n) (f_sys n) (f_auth n) c).

(** ** Printing, /repo/ifc_rs/src/meta/header/serialize.rs *)

(** Decimal notation with leading zeros, at least [k] digits. *)
Definition pad (k : nat) (n : N) : text :=
  let ds := show_N n in repeat 48 (k - length ds) ++ ds.

(** chrono [%Y]: four digits, with a sign outside 0..9999. *)
Definition d_year (y : Z) : text :=
  if (y <? 0)%Z then lit "-" ++ pad 4 (Z.abs_N y)
  else if (9999 <? y)%Z then lit "+" ++ pad 4 (Z.abs_N y)
  else pad 4 (Z.abs_N y).

(** chrono [%Y-%m-%dT%H:%M:%S], line 66: fractions of seconds are dropped. *)
Definition d_time (t : stamp) : text :=
  d_year (st_year t) ++ lit "-" ++ pad 2 (st_month t) ++ lit "-" ++ pad 2 (st_day t) ++ lit "T" ++
  pad 2 (st_hour t) ++ lit ":" ++ pad 2 (st_min t) ++ lit ":" ++ pad 2 (st_sec t).

(** [format!("'{x}'")]. *)
Definition quoted (s : text) : text := lit "'" ++ s ++ lit "'".

(** Lines 45-54 [Display for ViewDefinition]. *)
Definition d_view (d : view_def) : text :=
  vd_name d ++ lit " [" ++ join (lit ", ") (vd_items d) ++ lit "]".

(** Lines 24-43 [Display for FileDescription]. *)
Definition d_views (l : list view_def) : text :=
  match l with
  | [] => lit "''"
  | _ => join (lit ",") (map (fun d => quoted (d_view d)) l)
  end.
Definition d_description (l : list view_def) : text :=
  lit "(" ++ d_views l ++ lit ")" ++ lit "," ++ quoted (lit "2;1").

(** Lines 73-80, 82-89: [('a','b')]. *)
Definition d_words (l : list text) : text :=
  lit "(" ++ join (lit ",") (map quoted l) ++ lit ")".

(** Lines 56-99 [Display for FileDetails]. *)
Definition d_details (h : header) : text :=
  quoted (h_name h) ++ lit "," ++ quoted (d_time (h_time h)) ++ lit "," ++
  d_words (h_authors h) ++ lit "," ++ d_words (h_orgs h) ++ lit "," ++
  quoted (h_pre h) ++ lit "," ++ quoted (h_sys h) ++ lit "," ++ quoted (h_auth h).

(** strum [Display] of [FileSchema]. *)
Definition d_schema (x : schema) : text :=
  match x with
  | S_IFC4X3_ADD2 => lit "IFC4X3_ADD2"
  | S_IFC4 => lit "IFC4"
  | S_IFC2X3 => lit "IFC2X3"
  end.

(** Lines 101-110 [Display for FileSchemas]. *)
Definition d_schemas (l : list schema) : text :=
  lit "(" ++ join (lit ",") (map (fun x => quoted (d_schema x)) l) ++ lit ")".

(** Lines 12-22 [Display for Header]. *)
Definition d_header (h : header) : text :=
  lit "ISO-10303-21" ++ lit ";" ++ nl ++
  lit "HEADER;" ++ nl ++
  lit "FILE_DESCRIPTION(" ++ d_description (h_views h) ++ lit ");" ++ nl ++
  lit "FILE_NAME(" ++ d_details h ++ lit ");" ++ nl ++
  lit "FILE_SCHEMA(" ++ d_schemas (h_schemas h) ++ lit ");" ++ nl ++
  lit "ENDSEC;" ++ nl.

(** ** Footer *)

(** /repo/ifc_rs/src/meta/footer/deserialize.rs:23-38 and 11-21. *)
Definition p_footer : parser unit :=
  p_space_or_comment ;;;
  (p_space_or_comment ;;; tag (lit "END-") ;;; tag (lit "ISO-10303-21") ;;;
   tag (lit ";") ;;; p_space_or_comment) ;;;
  p_space_or_comment.

(** /repo/ifc_rs/src/meta/footer/serialize.rs:5-10. *)
Definition d_footer : text := lit "END-" ++ lit "ISO-10303-21" ++ lit ";" ++ nl.
