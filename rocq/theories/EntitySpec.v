(** Specification of data lines: the texts that stand for an entity of a kind, and
    the texts that stand for an entity the library does not know. *)

From Coq Require Import String Ascii List NArith ZArith Bool.
From Verif Require Import Base Prims Spec Kind Types Layout WellTyped Schema.
Import ListNotations.
Open Scope N_scope.

(** [l] is a list of attributes for kind [k]. *)
Definition wf_ent (k : kind) (l : list val) : Prop :=
  exists r, row_of k = Some r /\ wts (row_fields r) l = true.

(** [txt] is a way of writing the entity of kind [k] with attributes [l]. *)
Definition lay_entity (k : kind) (l : list val) (txt : text) : Prop :=
  exists r, row_of k = Some r /\
    lay_row (row_kws r) (row_ws r) (row_fields r) (row_closer r) l txt.

(** No known keyword begins the text. *)
Definition unknown (s : text) : Prop :=
  forall k r kw t, row_of k = Some r -> In kw (row_kws r) -> s <> kw ++ t.

(** Nothing but a gap separates no later part of [s] from a semicolon: the first
    semicolon (after a gap) of [s ++ ";" ++ rest] is the one after [s]. *)
Definition ends_at (s : text) : Prop :=
  forall a b g r rest, s = a ++ b -> b <> [] -> gap g ->
    b ++ lit ";" ++ rest <> g ++ lit ";" ++ r.

(** The text of an unknown entity. *)
Definition opaque (s : text) : Prop :=
  (forall rest, no_gap (s ++ lit ";" ++ rest)) /\ ends_at s /\ unknown s.

(** A simple sufficient condition: begins with neither a blank nor a slash, does
    not end with a blank, has no semicolon and no comment. *)
Definition simple_body (s : text) : Prop :=
  match s with [] => False | c :: _ => ~ blank c /\ c <> 47 end /\
  ~ blank (last s 0) /\ ~ In 59 s /\ ~ occurs (lit "/*") s.

(** [inside t f]: the type [t] is used in the attribute type [f]. *)
Inductive inside (t : fty) : fty -> Prop :=
| inside_here : inside t t
| inside_opt f : inside t f -> inside t (TOpt f)
| inside_list f : inside t f -> inside t (TList f)
| inside_idor k kws ws fs closer f : In f fs -> inside t f -> inside t (TIdOr k kws ws fs closer).

(** [t] is used in an attribute of kind [k]. *)
Definition used_in (k : kind) (t : fty) : Prop :=
  exists r f, row_of k = Some r /\ In f (row_fields r) /\ inside t f.

(** Reading [txt] as [v] in front of any text that can follow an attribute; at
    most a gap is consumed in addition. *)
Definition reads_as {A} (p : parser A) (txt : text) (v : A) : Prop :=
  forall rest, delimited_here rest ->
    exists g r, gap g /\ rest = g ++ r /\ p (txt ++ rest) = ROk v r.
