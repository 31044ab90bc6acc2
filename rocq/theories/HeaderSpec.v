(** Specification of headers: which headers can be written, and what is assumed of
    the library that reads time stamps. *)

From Coq Require Import String Ascii List NArith ZArith Bool.
From Verif Require Import Base Spec Kind Types WellTyped Schema Entity EntitySpec DataMap DataSpec Header File.
Import ListNotations.
Open Scope N_scope.

(** Characters of names of view definitions. *)
Definition ident_char (v : env) (c : N) : Prop :=
  48 <= c <= 57 \/ 65 <= c <= 90 \/ 97 <= c <= 122 \/
  c = 95 \/ c = 45 \/ c = 46 \/ c = 58 \/ (128 <= c /\ uni v c = true).

(** Unicode white space. *)
Definition white (c : N) : Prop :=
  9 <= c <= 13 \/ c = 32 \/ c = 133 \/ c = 160 \/ c = 5760 \/ 8192 <= c <= 8202 \/
  c = 8232 \/ c = 8233 \/ c = 8239 \/ c = 8287 \/ c = 12288.

(** Items of view definitions: not empty, no comma, no closing bracket, no white
    space at either end. *)
Definition item_ok (s : text) : Prop :=
  ~ In 44 s /\ ~ In 93 s /\
  exists c r d, s = c :: r /\ ~ white c /\ last s 0 = d /\ ~ white d.

Definition view_ok (v : env) (d : view_def) : Prop :=
  Forall (ident_char v) (vd_name d) /\ Forall item_ok (vd_items d).

(** No apostrophe. *)
Definition plain (s : text) : Prop := ~ In 39 s.

(** Time stamps of whole seconds in the years 0 to 9999. *)
Definition civil (t : stamp) : Prop :=
  (0 <= st_year t <= 9999)%Z /\ 1 <= st_month t <= 12 /\ 1 <= st_day t <= 31 /\
  st_hour t <= 23 /\ st_min t <= 59 /\ st_sec t <= 59 /\ st_nano t = 0.

(** The ISO notation of such a time stamp. *)
Definition two (n : N) : text := [48 + n / 10; 48 + n mod 10].
Definition iso (t : stamp) : text :=
  let y := Z.to_N (st_year t) in
  two (y / 100) ++ two (y mod 100) ++ lit "-" ++ two (st_month t) ++ lit "-" ++ two (st_day t) ++
  lit "T" ++ two (st_hour t) ++ lit ":" ++ two (st_min t) ++ lit ":" ++ two (st_sec t).

(** What is assumed of chrono where a theorem says so: a time stamp without a time
    zone is not accepted, with [Z] it is read as what it says. *)
Definition chrono_reads (v : env) (t : stamp) : Prop :=
  rfc3339 v (iso t) = None /\ rfc3339 v (iso t ++ lit "Z") = Some t.

(** Headers that can be written and read back. *)
Definition header_ok (v : env) (h : header) : Prop :=
  Forall (view_ok v) (h_views h) /\ plain (h_name h) /\
  civil (h_time h) /\ chrono_reads v (h_time h) /\
  Forall plain (h_authors h) /\ Forall plain (h_orgs h) /\
  plain (h_pre h) /\ plain (h_sys h) /\ plain (h_auth h).

(** The header with the fraction of the second removed. *)
Definition whole_second (h : header) : header :=
  mk_header (h_views h) (h_name h)
    (let t := h_time h in mk_stamp (st_year t) (st_month t) (st_day t) (st_hour t) (st_min t) (st_sec t) 0)
    (h_authors h) (h_orgs h) (h_pre h) (h_sys h) (h_auth h) (h_schemas h).

(** The spellings of schema names. *)
Definition spellings : list (text * schema) :=
  flat_map (fun p => map (fun q => (p ++ fst q, snd q))
    [ (lit "4X3_ADD2", S_IFC4X3_ADD2); (lit "4x3_ADD2", S_IFC4X3_ADD2)
    ; (lit "4X3", S_IFC4X3_ADD2); (lit "4x3", S_IFC4X3_ADD2)
    ; (lit "2X3", S_IFC2X3); (lit "2x3", S_IFC2X3)
    ; (lit "4X2", S_IFC4); (lit "4x2", S_IFC4); (lit "4", S_IFC4) ])
  [lit "IFC"; lit "Ifc"; lit "ifc"].

(** ** References *)

(** [points t v ks n]: an attribute of type [t] with value [v] holds a reference to
    [n] that must be of one of the kinds [ks]. *)
Inductive points : fty -> val -> list kind -> N -> Prop :=
| points_ref ks n : points (TRef ks true) (VId n) ks n
| points_idor k kws ws fs closer n : points (TIdOr k kws ws fs closer) (VId n) [k] n
| points_opt t v ks n : points t v ks n -> points (TOpt t) v ks n
| points_list t l v ks n : In v l -> points t v ks n -> points (TList t) (VList l) ks n.

(** Entity [e] has such a reference in one of its attributes. *)
Definition checked_ref (e : entity) (ks : list kind) (n : N) : Prop :=
  exists k l r i f v, e = Ent k l /\ row_of k = Some r /\
    nth_error (row_fields r) i = Some f /\ nth_error l i = Some v /\ points f v ks n.

(** The reference is good: it exists and has a permitted or an unknown kind. *)
Definition permitted (ks : list kind) (e : entity) : Prop :=
  In (kind_of e) ks \/ kind_of e = KDummy.

(** ** Where loading can panic *)

(** Attribute texts made of gaps and of the characters of ids, numbers,
    enumerations and place holders. *)
Definition attr_char (c : N) : Prop :=
  48 <= c <= 57 \/ 65 <= c <= 90 \/
  c = 35 \/ c = 36 \/ c = 42 \/ c = 43 \/ c = 44 \/ c = 45 \/ c = 46 \/ c = 95.
Inductive attr_text : text -> Prop :=
| attr_nil : attr_text []
| attr_one c s : attr_char c -> attr_text s -> attr_text (c :: s)
| attr_gap g s : gap g -> attr_text s -> attr_text (g ++ s).

(** A numeral: an optional sign and digits. *)
Definition numeral (z : Z) (ds : text) : Prop :=
  exists sg d, Forall (fun c => 48 <= c <= 57) d /\ d <> [] /\ ds = sg ++ d /\
    (((sg = [] \/ sg = lit "+") /\ z = Z.of_N (Prims.digits_value d)) \/
     (sg = lit "-" /\ z = (- Z.of_N (Prims.digits_value d))%Z)).

(** Among the attributes of an owner history there is a number that is not a
    number of seconds chrono can represent. *)
Definition far_stamp (s : text) : Prop :=
  exists a b ds z c, s = a ++ lit "IFCOWNERHISTORY(" ++ b ++ ds ++ c /\
    attr_text b /\ numeral z ds /\ in_calendar z = false.

(** The time stamp of the file name entry of [s] is [w]. *)
Definition header_stamp (s w : text) : Prop :=
  exists a g1 g2 n g3 g4 r,
    s = a ++ lit "FILE_NAME" ++ g1 ++ lit "(" ++ g2 ++ n ++ g3 ++ lit "," ++ g4 ++ quoted w ++ r /\
    gap g1 /\ gap g2 /\ gap g3 /\ gap g4 /\ plain w /\
    (n = lit "$" \/ exists m, plain m /\ n = quoted m).

(** It is not a time stamp, neither as it is nor with [Z]. *)
Definition bad_stamp (v : env) (s : text) : Prop :=
  exists w, header_stamp s w /\ rfc3339 v w = None /\ rfc3339 v (w ++ lit "Z") = None.
