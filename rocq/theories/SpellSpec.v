(** Specification: how attribute values, objects and data sections are spelled.

    The grammar of the text as far as the library reads it, independent of the parsers:
    what is between two gaps, what number a numeral stands for, what text a literal.
    Which attributes a kind has is taken from the table of kinds (Schema.v). *)

From Coq Require Import String Ascii List NArith ZArith Bool QArith.
From Verif Require Import Base Prims Spec TextSpec Float ArithSpec Kind Types Schema Entity Header HeaderSpec.
Import ListNotations.
Open Scope N_scope.

(** ** Numerals *)

Definition digit_text (ds : text) : Prop := Forall (fun c => 48 <= c <= 57) ds.

(** The number that digits stand for, leading zeros allowed. *)
Definition number (ds : text) : N := fold_left (fun a c => 10 * a + (c - 48)) ds 0.

Inductive sign_text : bool -> text -> Prop :=
| sign_none : sign_text false []
| sign_plus : sign_text false (lit "+")
| sign_minus : sign_text true (lit "-").

Definition signed (neg : bool) (n : N) : Z := if neg then (- Z.of_N n)%Z else Z.of_N n.

(** Integers: [0], or a sign and digits that do not begin with a zero. *)
Inductive int_text : Z -> text -> Prop :=
| int_zero : int_text 0 (lit "0")
| int_digits neg s ds : sign_text neg s -> digit_text ds -> hd 48 ds <> 48 -> int_text (signed neg (number ds)) (s ++ ds).

(** Digits before and after the point. *)
Inductive point_text : text -> text -> text -> Prop :=
| point_none i : digit_text i -> i <> [] -> point_text i [] i
| point_after i f : digit_text i -> i <> [] -> digit_text f -> point_text i f (i ++ lit "." ++ f)
| point_first f : digit_text f -> f <> [] -> point_text [] f (lit "." ++ f).

Inductive exp_text : Z -> text -> Prop :=
| exp_none : exp_text 0 []
| exp_some e neg s ds : e = lit "e" \/ e = lit "E" -> sign_text neg s -> digit_text ds -> ds <> [] ->
    exp_text (signed neg (number ds)) (e ++ s ++ ds).

(** A word in small letters, written in any letters. *)
Definition word (t : string) (w : text) : Prop := Forall2 (fun c d => c = d \/ c + 32 = d /\ 97 <= d <= 122) w (lit t).

(** Reals: the nearest binary64 number, ties to even, with the sign that is written. *)
Inductive real_text : f64 -> text -> Prop :=
| real_decimal neg s i f m x e d : sign_text neg s -> point_text i f m -> exp_text x e ->
    rounded (inject_Z (signed neg (number (i ++ f))) * inject_Z 10 ^ (x - Z.of_nat (length f))) d ->
    negative d = neg -> real_text d (s ++ m ++ e)
| real_nan w : word "nan" w -> real_text FNan w
| real_inf neg s w : sign_text neg s -> word "inf" w \/ word "infinity" w -> real_text (FInf neg) (s ++ w).

(** ** Words and literals *)

(** What is between apostrophes, with directives for German letters carried out: writing
    the letters as directives gives back what stands there, and no directive is left. *)
Definition str_text (v w : text) : Prop :=
  exists c, w = lit "'" ++ c ++ lit "'" /\ ~ In 39 c /\ in_ascii v = in_ascii c /\
    forall g, In g german -> ~ occurs (directive g) v.

(** The number to the base 64 with the IFC digits, modulo 2^128, is the number to the base
    256 of the sixteen bytes. *)
Definition base (b : N) (l : list N) : N := fold_left (fun a i => b * a + i) l 0.

Definition guid_text (g : list N) (w : text) : Prop :=
  exists cs ds, w = lit "'" ++ cs ++ lit "'" /\ length cs = 22%nat /\
    Forall2 (fun c i => nth_error (lit "0123456789ABCDEFGHIJKLMNOPQRSTUVWXYZabcdefghijklmnopqrstuvwxyz_$") (N.to_nat i) = Some c) cs ds /\
    length g = 16%nat /\ Forall (fun b => b < 256) g /\ base 256 g = base 64 ds mod 2 ^ 128.

Definition bool_text (b : bool3) (w : text) : Prop :=
  exists g1 t g2, gap g1 /\ gap g2 /\ w = g1 ++ t ++ g2 /\
    In (t, b) [(lit ".T.", BTrue); (lit ".TRUE.", BTrue); (lit ".F.", BFalse); (lit ".FALSE.", BFalse);
               (lit ".U.", BUnknown); (lit ".UNKNOWN.", BUnknown)].

Definition enum_text (vs : list text) (i : nat) (w : text) : Prop :=
  exists g1 t g2, gap g1 /\ gap g2 /\ w = g1 ++ t ++ g2 /\ nth_error vs i = Some t.

Definition id_text (n : N) (w : text) : Prop := exists ds, w = lit "#" ++ ds /\ decimal n ds /\ n < 2 ^ 64.

(** Measures: the names in capitals or as the Rust types are called. *)
Inductive measure_text : val -> text -> Prop :=
| mt_bool b n w : n = lit "IFCBOOLEAN" \/ n = lit "IfcBoolean" -> bool_text b w ->
    measure_text (VMeasure 0 (VBool b)) (n ++ lit "(" ++ w ++ lit ")")
| mt_label s n w : n = lit "IFCLABEL" \/ n = lit "IfcLabel" -> str_text s w ->
    measure_text (VMeasure 1 (VStr s)) (n ++ lit "(" ++ w ++ lit ")")
| mt_real d n w : n = lit "IFCREAL" \/ n = lit "IfcReal" -> real_text d w ->
    measure_text (VMeasure 2 (VReal d)) (n ++ lit "(" ++ w ++ lit ")")
| mt_identifier s n w : n = lit "IFCIDENTIFIER" \/ n = lit "IfcIdentifier" -> str_text s w ->
    measure_text (VMeasure 3 (VStr s)) (n ++ lit "(" ++ w ++ lit ")")
| mt_thermal d n w : n = lit "IFCTHERMALTRANSMITTANCEMEASURE" \/ n = lit "IfcThermaltransmittancemeasure" -> real_text d w ->
    measure_text (VMeasure 4 (VReal d)) (n ++ lit "(" ++ w ++ lit ")").

(** Between two values: a comma with gaps around it. *)
Definition comma_text (w : text) : Prop := exists g1 g2, gap g1 /\ gap g2 /\ w = g1 ++ lit "," ++ g2.

(** A parenthesis with gaps around it. *)
Definition mark_text (t w : text) : Prop := exists g1 g2, gap g1 /\ gap g2 /\ w = g1 ++ t ++ g2.

Definition in64 (z : Z) : Prop := (- 2 ^ 63 <= z < 2 ^ 63)%Z.
Definition in32 (z : Z) : Prop := (- 2 ^ 31 <= z < 2 ^ 31)%Z.

(** ** Attributes *)

Inductive spells : fty -> val -> text -> Prop :=
| sp_str s w : str_text s w -> spells TStr (VStr s) w
| sp_real d w : real_text d w -> spells TReal (VReal d) w
| sp_int z w : int_text z w -> in64 z -> spells TInt (VInt z) w
| sp_i32 z w : int_text z w -> in32 z -> spells TI32 (VInt z) w
| sp_bool b w : bool_text b w -> spells TBool (VBool b) w
| sp_guid g w : guid_text g w -> spells TGuid (VGuid g) w
| sp_time z w : int_text z w -> in64 z -> spells TTime (VInt z) w
| sp_dim i w : enum_text [lit "1"; lit "2"; lit "3"] i w -> spells TDim (VEnum i) w
| sp_vec2 x y o w1 c1 w2 e : mark_text (lit "(") o -> real_text x w1 -> comma_text c1 -> real_text y w2 -> mark_text (lit ")") e ->
    spells TVec2 (VVec [x; y]) (o ++ w1 ++ c1 ++ w2 ++ e)
| sp_vec3 x y z o w1 c1 w2 c2 w3 e :
    mark_text (lit "(") o -> real_text x w1 -> comma_text c1 -> real_text y w2 -> comma_text c2 -> real_text z w3 -> mark_text (lit ")") e ->
    spells TVec3 (VVec [x; y; z]) (o ++ w1 ++ c1 ++ w2 ++ c2 ++ w3 ++ e)
| sp_value v w : measure_text v w -> spells TValue v w
| sp_enum vs i w : enum_text vs i w -> spells (TEnum vs) (VEnum i) w
| sp_ref ks b n w : id_text n w -> spells (TRef ks b) (VId n) w
| sp_idor_id k kws ws fs closer n w : id_text n w -> spells (TIdOr k kws ws fs closer) (VId n) w
| sp_idor_ent k kws ws fs closer l w : spells_row kws ws fs closer l w -> spells (TIdOr k kws ws fs closer) (VEnt l) w
| sp_omitted t : spells (TOpt t) VOmit (lit "$")
| sp_inherited t : spells (TOpt t) VInh (lit "*")
| sp_present t v w : spells t v w -> spells (TOpt t) v w
| sp_other_dim z w : int_text z w -> in32 z -> spells (TOpt TDim) VInh w
| sp_list t l w : spells_items t l w -> spells (TList t) (VList l) (lit "(" ++ w ++ lit ")")

(** Keyword, attributes, closing text, with gaps for the kinds with [ws = true]. *)
with spells_row : list text -> bool -> list fty -> text -> list val -> text -> Prop :=
| sp_row_gaps kws fs closer l kw o w e :
    In kw kws -> mark_text kw o -> spells_attrs fs l w -> mark_text closer e -> spells_row kws true fs closer l (o ++ w ++ e)
| sp_row_tight kws fs closer l kw w : In kw kws -> spells_attrs fs l w -> spells_row kws false fs closer l (kw ++ w ++ closer)

with spells_attrs : list fty -> list val -> text -> Prop :=
| sp_attrs_none : spells_attrs [] [] []
| sp_attrs_last t v w : spells t v w -> spells_attrs [t] [v] w
| sp_attrs_cons t v w c fs l w' :
    fs <> [] -> spells t v w -> comma_text c -> spells_attrs fs l w' -> spells_attrs (t :: fs) (v :: l) (w ++ c ++ w')

(** Elements, each followed by a comma or by a gap or by nothing. *)
with spells_items : fty -> list val -> text -> Prop :=
| sp_items_nil t : spells_items t [] []
| sp_items_cons t v w c l w' :
    spells t v w -> (comma_text c \/ gap c) -> spells_items t l w' -> spells_items t (v :: l) (w ++ c ++ w').

(** ** Objects and lines *)

(** An object of kind [k], or one that is kept as text up to its semicolon. *)
Inductive spells_object : entity -> text -> Prop :=
| so_known k r l w : row_of k = Some r -> spells_row (row_kws r) (row_ws r) (row_fields r) (row_closer r) l w ->
    spells_object (Ent k l) w
| so_unknown s g : gap g -> ~ In 59 s -> spells_object (EDummy s) (s ++ g ++ lit ";").

(** Lines of the data section, in the order of the text. *)
Inductive spells_lines : list (N * entity) -> text -> Prop :=
| sl_nil g : gap g -> spells_lines [] g
| sl_cons g0 n w q e t l s : gap g0 -> id_text n w -> mark_text (lit "=") q -> spells_object e t -> spells_lines l s ->
    spells_lines ((n, e) :: l) (g0 ++ w ++ q ++ t ++ s).

(** ** Headers *)

(** Elements with commas between them. *)
Inductive listed {A} (P : A -> text -> Prop) : list A -> text -> Prop :=
| li_none : listed P [] []
| li_one a w : P a w -> listed P [a] w
| li_more a w l s : l <> [] -> P a w -> listed P l s -> listed P (a :: l) (w ++ lit "," ++ s).

(** Something with gaps around it. *)
Definition loose {A} (P : A -> text -> Prop) (a : A) (w : text) : Prop :=
  exists g1 t g2, gap g1 /\ gap g2 /\ P a t /\ w = g1 ++ t ++ g2.

(** Text between apostrophes, as it stands. *)
Definition raw_text (s w : text) : Prop := plain s /\ w = lit "'" ++ s ++ lit "'".

(** Without the white space at both ends. *)
Definition trimmed (t s : text) : Prop :=
  exists a b, s = a ++ t ++ b /\ Forall white a /\ Forall white b /\
    (t = [] \/ exists c r d, t = c :: r /\ ~ white c /\ last t 0 = d /\ ~ white d).

(** A view definition: name and bracketed items, of which empty ones do not count. *)
Definition item_text (t w : text) : Prop := trimmed t w /\ ~ In 44 w /\ ~ In 93 w.
Definition view_text (v : env) (d : view_def) (w : text) : Prop :=
  exists g1 g2 ts b g3, gap g1 /\ gap g2 /\ gap g3 /\ Forall (ident_char v) (vd_name d) /\
    listed item_text ts b /\ vd_items d = filter (fun t => negb (is_empty t)) ts /\
    w = lit "'" ++ g1 ++ vd_name d ++ g2 ++ lit "[" ++ b ++ lit "]" ++ g3 ++ lit "'".
Definition views_text (v : env) (l : list view_def) (w : text) : Prop :=
  l = [] /\ w = lit "''" \/ listed (loose (view_text v)) l w.

Definition name_text (s w : text) : Prop := s = [] /\ w = lit "$" \/ raw_text s w.

(** A time stamp as chrono reads it, with [Z] added if it does not read it otherwise. *)
Definition time_text (v : env) (t : stamp) (w : text) : Prop :=
  exists s, raw_text s w /\ (rfc3339 v s = Some t \/ rfc3339 v s = None /\ rfc3339 v (s ++ lit "Z") = Some t).

Definition schema_text (x : schema) (w : text) : Prop := exists s, In (s, x) spellings /\ w = lit "'" ++ s ++ lit "'".

(** Opening and closing of an entry. *)
Definition open_text (name w : text) : Prop := exists g0 g1 g2, gap g0 /\ gap g1 /\ gap g2 /\ w = g0 ++ name ++ g1 ++ lit "(" ++ g2.
Definition end_text (w : text) : Prop := exists g0 g1 g2, gap g0 /\ gap g1 /\ gap g2 /\ w = g0 ++ lit ")" ++ g1 ++ lit ";" ++ g2.

(** The three entries of the header. *)
Definition description_text (v : env) (l : list view_def) (w : text) : Prop :=
  exists o s c g1 g2 e, open_text (lit "FILE_DESCRIPTION") o /\ views_text v l s /\ comma_text c /\ gap g1 /\ gap g2 /\ end_text e /\
    w = o ++ lit "(" ++ s ++ lit ")" ++ c ++ lit "'" ++ g1 ++ lit "2;1" ++ g2 ++ lit "'" ++ e.
Definition details_text (v : env) (h : header) (w : text) : Prop :=
  exists o n c1 t c2 a c3 b c4 p c5 s c6 u e,
    open_text (lit "FILE_NAME") o /\ name_text (h_name h) n /\ comma_text c1 /\ time_text v (h_time h) t /\ comma_text c2 /\
    listed (loose raw_text) (h_authors h) a /\ comma_text c3 /\ listed (loose raw_text) (h_orgs h) b /\ comma_text c4 /\
    raw_text (h_pre h) p /\ comma_text c5 /\ raw_text (h_sys h) s /\ comma_text c6 /\ raw_text (h_auth h) u /\ end_text e /\
    w = o ++ n ++ c1 ++ t ++ c2 ++ lit "(" ++ a ++ lit ")" ++ c3 ++ lit "(" ++ b ++ lit ")" ++ c4 ++ p ++ c5 ++ s ++ c6 ++ u ++ e.
Definition schemas_text (l : list schema) (w : text) : Prop :=
  exists o s e, open_text (lit "FILE_SCHEMA") o /\ listed (loose schema_text) l s /\ end_text e /\
    w = o ++ lit "(" ++ s ++ lit ")" ++ e.

(** ** Files *)

Definition spells_header (v : env) (h : header) (w : text) : Prop :=
  exists m1 m2 d n c m3, mark_text (lit "ISO-10303-21;") m1 /\ mark_text (lit "HEADER;") m2 /\
    description_text v (h_views h) d /\ details_text v h n /\ schemas_text (h_schemas h) c /\ mark_text (lit "ENDSEC;") m3 /\
    w = m1 ++ m2 ++ d ++ n ++ c ++ m3.

(** Header, definitions, end. *)
Definition spells_file (v : env) (h : header) (l : list (N * entity)) (s : text) : Prop :=
  exists w g0 d g1 g2, spells_header v h w /\ gap g0 /\ spells_lines l d /\ gap g1 /\ gap g2 /\
    s = w ++ g0 ++ lit "DATA;" ++ d ++ lit "ENDSEC;" ++ g1 ++ lit "END-ISO-10303-21;" ++ g2.
