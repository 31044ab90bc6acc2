(** Attribute types and attribute values: a generic reader and writer, driven by
    the type of the attribute.

    In /repo every entity kind is a Rust struct with one [IFCParse] and one
    [Display] implementation, all of the same form: keyword, attributes separated
    by [Comma], closing text.  The model replaces them by a table (Schema.v) and
    the functions below.  The generic instances modelled here are
    /repo/ifc_rs/src/parser/{string,real,integer,bool,timestamp,list,optional}.rs,
    /repo/ifc_rs/src/id/{plain,typed,id_or,ifc_uuid}.rs and
    /repo/ifc_rs/src/values/*.rs. *)

From Coq Require Import String Ascii List NArith ZArith Bool.
From Verif Require Import Base Prims Guid Float Kind.
Import ListNotations.
Open Scope N_scope.
Open Scope parser_scope.

(** Types of attributes, named after the Rust type they stand for.
    - [TRef ks chk]: [Id] or [TypedId<T>] (/repo/ifc_rs/src/id/plain.rs,
      typed.rs:66-79); [ks] are the kinds permitted by [#[ifc_types(..)]] or [T],
      [chk] says whether [IfcVerify] checks them
      (/repo/ifc_rs_verify_derive/src/lib.rs:76-93).
    - [TIdOr k kws ws fs closer]: [IdOr<T>] (/repo/ifc_rs/src/id/id_or.rs:60-79)
      where [T] has kind [k] and the row [kws], [ws], [fs], [closer]. *)
Inductive fty :=
| TStr                       (* StringPrimitive *)
| TReal                      (* RealPrimitive *)
| TInt                       (* IntegerPrimitive *)
| TI32                       (* i32, units/dimensional_exponents.rs:14 *)
| TBool                      (* BoolPrimitive *)
| TGuid                      (* IfcGloballyUniqueId *)
| TTime                      (* IfcTimestamp *)
| TDim                       (* DimensionCount *)
| TVec2                      (* IfcDVec2 *)
| TVec3                      (* IfcDVec3 *)
| TValue                     (* IfcValue *)
| TEnum (vs : list text)     (* enumerations *)
| TRef (ks : list kind) (chk : bool)
| TIdOr (k : kind) (kws : list text) (ws : bool) (fs : list fty) (closer : text)
| TOpt (t : fty)             (* OptionalParameter<T> *)
| TList (t : fty).           (* IfcList<T> *)

(** Values of attributes.  [OptionalParameter::Custom(v)] is [v] itself;
    [VEnt] is [IdOr::Custom] of an entity with these attributes; [VMeasure i v] is
    the [i]-th kind of measure of /repo/ifc_rs/src/values/core.rs. *)
Inductive val :=
| VStr (s : text)
| VReal (d : f64)
| VInt (z : Z)
| VBool (b : bool3)
| VGuid (g : list N)
| VEnum (i : nat)
| VId (n : N)
| VVec (l : list f64)
| VMeasure (i : nat) (v : val)
| VOmit
| VInh
| VList (l : list val)
| VEnt (l : list val).

(** A row of the schema table: keywords (the first one is printed), whether
    keyword and closing text are parsed with [p_space_or_comment_surrounded],
    attribute types, closing text. *)
Record row := mk_row
  { row_kws : list text; row_ws : bool; row_closer : text; row_fields : list fty }.

(** [IdOr<T>] for a kind with its row, /repo/ifc_rs/src/id/id_or.rs:60-79. *)
Definition idor (k : kind) (r : row) : fty :=
  TIdOr k (row_kws r) (row_ws r) (row_fields r) (row_closer r).

(** A sub-struct without [#[inherited]]: its fields are not verified
    (/repo/ifc_rs_verify_derive/src/lib.rs:76-97). *)
Fixpoint unchecked_ty (t : fty) : fty :=
  match t with
  | TRef ks _ => TRef ks false
  | TOpt t => TOpt (unchecked_ty t)
  | TList t => TList (unchecked_ty t)
  | t => t
  end.
Definition unchecked (fs : list fty) : list fty := map unchecked_ty fs.

(** ** Measures, /repo/ifc_rs/src/values/core.rs:26-42 and bool.rs, label.rs,
    real.rs, identifier.rs, thermal_transmittance.rs *)

(** The two spellings of each measure, in the order of the alternatives. *)
Definition measure_names : list (text * text) :=
  [ (lit "IFCBOOLEAN", lit "IfcBoolean")
  ; (lit "IFCLABEL", lit "IfcLabel")
  ; (lit "IFCREAL", lit "IfcReal")
  ; (lit "IFCIDENTIFIER", lit "IfcIdentifier")
  ; (lit "IFCTHERMALTRANSMITTANCEMEASURE", lit "IfcThermaltransmittancemeasure") ].

(** Reader of the content, same order. *)
Definition measure_contents : list (parser val) :=
  [ pmap VBool p_bool; pmap VStr p_string; pmap VReal p_real; pmap VStr p_string
  ; pmap VReal p_real ].

(** One measure, e.g. /repo/ifc_rs/src/values/bool.rs:12-24. *)
Definition p_measure (i : nat) (names : text * text) (p : parser val) : parser val :=
  alt (tag (fst names)) (tag (snd names)) ;;; tag (lit "(") ;;;
  v <- p ;; tag (lit ")") ;;; ret (VMeasure i v).

(** /repo/ifc_rs/src/values/core.rs [IfcValue::parse]. *)
Fixpoint p_measures (i : nat) (ns : list (text * text)) (ps : list (parser val)) : parser val :=
  match ns, ps with
  | n :: ns', p :: ps' => alt (p_measure i n p) (p_measures (S i) ns' ps')
  | _, _ => fail
  end.
Definition p_value : parser val := p_measures 0 measure_names measure_contents.

(** /repo/ifc_rs/src/parser/real.rs:139-146 [format_non_sci_double]. *)
Definition d_nonsci (d : f64) : text :=
  show_f64 d ++ (if is_zero (fract d) then lit "." else []).

(** Content of a measure: e.g. /repo/ifc_rs/src/values/bool.rs:26-30;
    thermal_transmittance.rs:33-41 never prints the scientific form. *)
Definition d_content (i : nat) (v : val) : text :=
  match i, v with
  | 0%nat, VBool b => d_bool b
  | 1%nat, VStr s => d_string s
  | 2%nat, VReal d => d_real d
  | 3%nat, VStr s => d_string s
  | 4%nat, VReal d => d_nonsci d
  | _, _ => []
  end.

(** /repo/ifc_rs/src/values/core.rs [Display for IfcValue]. *)
Definition d_value (v : val) : text :=
  match v with
  | VMeasure i c =>
      fst (nth i measure_names ([], [])) ++ lit "(" ++ d_content i c ++ lit ")"
  | _ => []
  end.

(** ** Dimension count, /repo/ifc_rs/src/geometry/dimension_count.rs *)

(** Lines 22-32. *)
Definition dim_variants : list text := [lit "1"; lit "2"; lit "3"].

(** Lines 48-53: [fallback]. *)
Definition dim_fallback : parser val := pmap (fun _ => VInh) (dec_int i32_min i32_max).

(** [T::fallback()]: [fail] except for [DimensionCount]
    (/repo/ifc_rs/src/parser/mod.rs:39-44). *)
Definition fallback (t : fty) : parser val :=
  match t with
  | TDim => dim_fallback
  | _ => fail
  end.

(** ** Entities *)

(** Keyword: e.g. /repo/ifc_rs/src/objects/roof/mod.rs ([ws]) or
    /repo/ifc_rs/src/geometry/axis.rs (without); walls, slabs, windows and doors
    have two ([alt]), e.g. /repo/ifc_rs/src/objects/wall/deserialize.rs:12-15. *)
Definition p_keyword (ws : bool) (kws : list text) : parser unit :=
  alts (map (fun k => if ws then surrounded (tag k) else tag k) kws).

Definition p_closer (ws : bool) (closer : text) : parser unit :=
  if ws then surrounded (tag closer) else tag closer.

(** Attributes separated by [Comma::parse()] (/repo/ifc_rs/src/parser/comma.rs). *)
Fixpoint p_attrs (ps : list (parser val)) : parser (list val) :=
  match ps with
  | [] => ret []
  | [p] => pmap (fun v => [v]) p
  | p :: ps' => v <- p ;; p_comma ;;; l <- p_attrs ps' ;; ret (v :: l)
  end.

(** The common form of [IFCParse] for entities. *)
Definition p_row (kws : list text) (ws : bool) (ps : list (parser val)) (closer : text)
  : parser (list val) :=
  p_keyword ws kws ;;; l <- p_attrs ps ;; p_closer ws closer ;;; ret l.

(** Reader of an attribute. *)
Fixpoint p_ty (t : fty) : parser val :=
  match t with
  | TStr => pmap VStr p_string
  | TReal => pmap VReal p_real
  | TInt => pmap VInt p_int
  | TI32 => pmap VInt (dec_int i32_min i32_max)
  | TBool => pmap VBool p_bool
  | TGuid => pmap VGuid p_guid
  | TTime => pmap VInt p_timestamp
  | TDim => pmap VEnum (p_enum dim_variants)
  | TVec2 => pmap (fun v => VVec [fst v; snd v]) p_vec2
  | TVec3 => pmap (fun v => VVec [fst (fst v); snd (fst v); snd v]) p_vec3
  | TValue => p_value
  | TEnum vs => pmap VEnum (p_enum vs)
  | TRef _ _ => pmap VId p_id
  | TIdOr _ kws ws fs closer =>
      alt (pmap VId p_id) (pmap VEnt (p_row kws ws (map p_ty fs) closer))
  | TOpt t' =>
      alt (pmap (fun _ => VOmit) (tag (lit "$")))
     (alt (pmap (fun _ => VInh) (tag (lit "*")))
     (alt (p_ty t') (fallback t')))
  | TList t' => pmap VList (p_list (p_ty t'))
  end.

(** Printing of attributes with their types, joined by ",". *)
Definition d_attrs (ds : list text) : text := join (lit ",") ds.

(** The common form of [Display] for entities. *)
Definition d_row (kws : list text) (ds : list text) (closer : text) : text :=
  hd [] kws ++ d_attrs ds ++ closer.

(** Writer of an attribute; [zip] of types and values. *)
Fixpoint d_ty (t : fty) (v : val) {struct t} : text :=
  match t, v with
  | TStr, VStr s => d_string s
  | TReal, VReal d => d_real d
  | TInt, VInt z => show_Z z
  | TI32, VInt z => show_Z z
  | TBool, VBool b => d_bool b
  | TGuid, VGuid g => d_guid g
  | TTime, VInt z => d_timestamp z
  | TDim, VEnum i => d_enum dim_variants i
  | TVec2, VVec [x; y] => d_vec2 (x, y)
  | TVec3, VVec [x; y; z] => d_vec3 (x, y, z)
  | TValue, v => d_value v
  | TEnum vs, VEnum i => d_enum vs i
  | TRef _ _, VId n => d_id n
  | TIdOr _ _ _ _ _, VId n => d_id n
  | TIdOr _ kws _ fs closer, VEnt l =>
      d_row kws
        ((fix go (fs : list fty) (l : list val) : list text :=
            match fs, l with
            | f :: fs', v :: l' => d_ty f v :: go fs' l'
            | _, _ => []
            end) fs l) closer
  | TOpt _, VOmit => lit "$"
  | TOpt _, VInh => lit "*"
  | TOpt t', v => d_ty t' v
  | TList t', VList l => d_list (d_ty t') l
  | _, _ => []
  end.

(** Printed attributes. *)
Fixpoint d_tys (fs : list fty) (l : list val) : list text :=
  match fs, l with
  | f :: fs', v :: l' => d_ty f v :: d_tys fs' l'
  | _, _ => []
  end.
