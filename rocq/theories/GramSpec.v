(** Specification: the well-formed texts.

    Which texts are an attribute of some type, an object of some kind, the lines of a data
    section — whatever their values.  White space and comments may stand beside
    separators; the values themselves may be written in any of the ways of SpellSpec.v. *)

From Coq Require Import String Ascii List NArith ZArith Bool.
From Verif Require Import Base Prims Spec Kind Types WellTyped Schema Entity EntitySpec Header HeaderSpec SpellSpec.
Import ListNotations.
Open Scope N_scope.

(** Numerals of reals, whatever their size. *)
Inductive real_form : text -> Prop :=
| rf_decimal neg s i f m x e : sign_text neg s -> point_text i f m -> exp_text x e -> real_form (s ++ m ++ e)
| rf_nan w : word "nan" w -> real_form w
| rf_inf neg s w : sign_text neg s -> word "inf" w \/ word "infinity" w -> real_form (s ++ w).

Inductive form : fty -> text -> Prop :=
| fo_str c : ~ In 39 c -> form TStr (lit "'" ++ c ++ lit "'")
| fo_real w : real_form w -> form TReal w
| fo_int z w : int_text z w -> in64 z -> form TInt w
| fo_i32 z w : int_text z w -> in32 z -> form TI32 w
| fo_bool w : In w [lit ".T."; lit ".TRUE."; lit ".F."; lit ".FALSE."; lit ".U."; lit ".UNKNOWN."] -> form TBool w
| fo_guid cs : length cs = 22%nat ->
    Forall (fun c => In c (lit "0123456789ABCDEFGHIJKLMNOPQRSTUVWXYZabcdefghijklmnopqrstuvwxyz_$")) cs ->
    form TGuid (lit "'" ++ cs ++ lit "'")
| fo_time z w : int_text z w -> in_calendar z = true -> form TTime w
| fo_dim w : In w [lit "1"; lit "2"; lit "3"] -> form TDim w
| fo_vec2 a b g1 g2 g3 g4 : real_form a -> real_form b -> gap g1 -> gap g2 -> gap g3 -> gap g4 ->
    form TVec2 (lit "(" ++ g1 ++ a ++ g2 ++ lit "," ++ g3 ++ b ++ g4 ++ lit ")")
| fo_vec3 a b c g1 g2 g3 g4 g5 g6 : real_form a -> real_form b -> real_form c ->
    gap g1 -> gap g2 -> gap g3 -> gap g4 -> gap g5 -> gap g6 ->
    form TVec3 (lit "(" ++ g1 ++ a ++ g2 ++ lit "," ++ g3 ++ b ++ g4 ++ lit "," ++ g5 ++ c ++ g6 ++ lit ")")
| fo_value n t w :
    In (n, t) [(lit "IFCBOOLEAN", TBool); (lit "IfcBoolean", TBool); (lit "IFCLABEL", TStr); (lit "IfcLabel", TStr);
               (lit "IFCREAL", TReal); (lit "IfcReal", TReal); (lit "IFCIDENTIFIER", TStr); (lit "IfcIdentifier", TStr);
               (lit "IFCTHERMALTRANSMITTANCEMEASURE", TReal); (lit "IfcThermaltransmittancemeasure", TReal)] ->
    form t w -> form TValue (n ++ lit "(" ++ w ++ lit ")")
| fo_enum vs w : In w vs -> form (TEnum vs) w
| fo_ref ks b n w : id_text n w -> form (TRef ks b) w
| fo_idor_id k kws ws fs closer n w : id_text n w -> form (TIdOr k kws ws fs closer) w
| fo_idor_ent k kws ws fs closer w : form_row kws ws fs closer w -> form (TIdOr k kws ws fs closer) w
| fo_omitted t : form (TOpt t) (lit "$")
| fo_inherited t : form (TOpt t) (lit "*")
| fo_present t w : form t w -> form (TOpt t) w
| fo_other_dim z w : int_text z w -> in32 z -> ~ In (hd 0 w) (lit "123") -> form (TOpt TDim) w
| fo_list t w : form_items t w -> form (TList t) (lit "(" ++ w ++ lit ")")

(** Keyword, attributes, closing text. *)
with form_row : list text -> bool -> list fty -> text -> text -> Prop :=
| fo_row kws (ws : bool) fs closer kw g1 w g2 :
    In kw kws -> gap g1 -> gap g2 -> (ws = false -> g1 = [] /\ g2 = []) ->
    form_attrs fs w -> form_row kws ws fs closer (kw ++ g1 ++ w ++ g2 ++ closer)

with form_attrs : list fty -> text -> Prop :=
| fo_last t w : form t w -> form_attrs [t] w
| fo_more t w g1 g2 fs w' : form t w -> gap g1 -> gap g2 -> form_attrs fs w' ->
    form_attrs (t :: fs) (w ++ g1 ++ lit "," ++ g2 ++ w')

(** Elements, with a comma or at least a gap between two. *)
with form_items : fty -> text -> Prop :=
| fo_none t : form_items t []
| fo_item t w g1 c g2 w' : form t w -> gap g1 -> gap g2 ->
    (c = lit "," \/ c = [] /\ (g1 ++ g2 <> [] \/ w' = [])) ->
    form_items t w' -> form_items t (w ++ g1 ++ c ++ g2 ++ w').

Scheme form_mut := Induction for form Sort Prop
  with form_row_mut := Induction for form_row Sort Prop
  with form_attrs_mut := Induction for form_attrs Sort Prop
  with form_items_mut := Induction for form_items Sort Prop.
Combined Scheme form_ind4 from form_mut, form_row_mut, form_attrs_mut, form_items_mut.

(** What may follow an attribute: nothing, a comma, a parenthesis, a slash or a blank. *)
Definition may_follow (rest : text) : Prop :=
  match rest with [] => True | c :: _ => c = 44 \/ c = 41 \/ c = 47 \/ blank c end.

(** ** Objects and lines *)

(** What an object is, as far as the text alone tells: one of a kind, or some other text. *)
Inductive sort : Type :=
| Of (k : kind)
| Other (s : text).

Inductive form_object : sort -> text -> Prop :=
| fo_known k r w : row_of k = Some r -> form_row (row_kws r) (row_ws r) (row_fields r) (row_closer r) w ->
    form_object (Of k) w
| fo_unknown s : opaque s -> form_object (Other s) (s ++ lit ";").

Definition is_sort (e : entity) (s : sort) : Prop :=
  match s with Of k => exists l, e = Ent k l | Other t => e = EDummy t end.

(** The same id, and an object of that sort. *)
Definition same (p : N * sort) (q : N * entity) : Prop := fst q = fst p /\ is_sort (snd q) (snd p).

Inductive form_lines : list (N * sort) -> text -> Prop :=
| fo_no_lines : form_lines [] []
| fo_line n w s g1 g2 t g3 l w' :
    id_text n w -> gap g1 -> gap g2 -> gap g3 -> form_object s t -> form_lines l w' ->
    form_lines ((n, s) :: l) (w ++ g1 ++ lit "=" ++ g2 ++ t ++ g3 ++ w').

(** Header, definitions, end. *)
Definition form_file (v : env) (h : header) (l : list (N * sort)) (s : text) : Prop :=
  exists w g0 g1 d g2 g3, spells_header v h w /\ gap g0 /\ gap g1 /\ form_lines l d /\ gap g2 /\ gap g3 /\
    s = w ++ g0 ++ lit "DATA;" ++ g1 ++ d ++ lit "ENDSEC;" ++ g2 ++ lit "END-ISO-10303-21;" ++ g3.
