(** Specification of the texts that stand for an attribute value: the printed text
    with white space and comments inserted at the permitted places, with the
    permitted alternatives for the separators of lists, and with any of the
    keywords of the kind. *)

From Coq Require Import String Ascii List NArith ZArith Bool.
From Verif Require Import Base Prims Spec Guid Float Kind Types.
Import ListNotations.
Open Scope N_scope.

(** Types whose text has no places for gaps. *)
Definition atomic (t : fty) : bool :=
  match t with
  | TVec2 | TVec3 | TIdOr _ _ _ _ _ | TOpt _ | TList _ => false
  | _ => true
  end.

Inductive lay : fty -> val -> text -> Prop :=
| lay_atom t v : atomic t = true -> lay t v (d_ty t v)
| lay_vec2 x y g1 g2 g3 g4 :
    gap g1 -> gap g2 -> gap g3 -> gap g4 ->
    lay TVec2 (VVec [x; y])
      (lit "(" ++ g1 ++ d_real x ++ g2 ++ lit "," ++ g3 ++ d_real y ++ g4 ++ lit ")")
| lay_vec3 x y z g1 g2 g3 g4 g5 g6 :
    gap g1 -> gap g2 -> gap g3 -> gap g4 -> gap g5 -> gap g6 ->
    lay TVec3 (VVec [x; y; z])
      (lit "(" ++ g1 ++ d_real x ++ g2 ++ lit "," ++ g3 ++ d_real y ++ g4 ++ lit "," ++
       g5 ++ d_real z ++ g6 ++ lit ")")
| lay_idor_id k kws ws fs closer n : lay (TIdOr k kws ws fs closer) (VId n) (d_id n)
| lay_idor_ent k kws ws fs closer l txt :
    lay_row kws ws fs closer l txt -> lay (TIdOr k kws ws fs closer) (VEnt l) txt
| lay_omitted t : lay (TOpt t) VOmit (lit "$")
| lay_inherited t : lay (TOpt t) VInh (lit "*")
| lay_present t v txt : v <> VOmit -> v <> VInh -> lay t v txt -> lay (TOpt t) v txt
| lay_list t l txt : lay_items t l txt -> lay (TList t) (VList l) (lit "(" ++ txt ++ lit ")")

(** Keyword, attributes, closing text; gaps after the keyword and before the
    closing text only for the kinds with [ws = true]. *)
with lay_row : list text -> bool -> list fty -> text -> list val -> text -> Prop :=
| lay_row_intro kws ws fs closer l kw g1 txt g2 :
    In kw kws -> gap g1 -> gap g2 -> (ws = false -> g1 = [] /\ g2 = []) ->
    lay_attrs fs l txt ->
    lay_row kws ws fs closer l (kw ++ g1 ++ txt ++ g2 ++ closer)

(** Attributes separated by commas with gaps on both sides. *)
with lay_attrs : list fty -> list val -> text -> Prop :=
| lay_attrs_last t v txt : lay t v txt -> lay_attrs [t] [v] txt
| lay_attrs_cons t v txt g1 g2 fs l txt' :
    lay t v txt -> gap g1 -> gap g2 -> lay_attrs fs l txt' ->
    lay_attrs (t :: fs) (v :: l) (txt ++ g1 ++ lit "," ++ g2 ++ txt')

(** List elements, each followed by a gap, an optional comma and another gap;
    between two elements not all three are empty. *)
with lay_items : fty -> list val -> text -> Prop :=
| lay_items_nil t : lay_items t [] []
| lay_items_cons t v txt g1 c g2 l txt' :
    lay t v txt -> gap g1 -> gap g2 ->
    (c = lit "," \/ c = [] /\ (g1 ++ g2 <> [] \/ l = [])) ->
    lay_items t l txt' ->
    lay_items t (v :: l) (txt ++ g1 ++ c ++ g2 ++ txt').

Scheme lay_mut := Induction for lay Sort Prop
  with lay_row_mut := Induction for lay_row Sort Prop
  with lay_attrs_mut := Induction for lay_attrs Sort Prop
  with lay_items_mut := Induction for lay_items Sort Prop.
Combined Scheme lay_ind4 from lay_mut, lay_row_mut, lay_attrs_mut, lay_items_mut.
