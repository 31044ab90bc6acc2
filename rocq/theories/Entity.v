(** Model of the entities of a data section: reading with dispatch over all kinds,
    printing, and the references an entity is checked for. *)

From Coq Require Import String Ascii List NArith ZArith Bool.
From Verif Require Import Base Prims Kind Types Schema.
Import ListNotations.
Open Scope N_scope.
Open Scope parser_scope.

(** [Box<dyn IfcType>]: one of the 75 kinds with its attributes in the order of
    the file, or [Dummy] (/repo/ifc_rs/src/parser/dummy.rs:9-12). *)
Inductive entity :=
| Ent (k : kind) (l : list val)
| EDummy (s : text).

(** [IfcType::type_id], /repo/ifc_rs/src/traits/ifc_type.rs. *)
Definition kind_of (e : entity) : kind :=
  match e with
  | Ent k _ => k
  | EDummy _ => KDummy
  end.

(** The attributes of an entity; a [Dummy] has none. *)
Definition attrs (e : entity) : list val :=
  match e with
  | Ent _ l => l
  | EDummy _ => []
  end.

(** [T::parse_any()] for the kind, /repo/ifc_rs/src/parser/mod.rs:30-37. *)
Definition p_kind (k : kind) : parser entity :=
  match row_of k with
  | Some r =>
      pmap (Ent k) (p_row (row_kws r) (row_ws r) (map p_ty (row_fields r)) (row_closer r))
  | None => fail
  end.

(** The alternatives of /repo/ifc_rs/src/meta/datamap/deserialize.rs:24-31; nested
    [alt]s are the same as one [alt] in the same order. *)
Definition p_known : parser entity := alts (map p_kind all_kinds).

(** /repo/ifc_rs/src/meta/datamap/deserialize.rs:23-34 [p_obj]. *)
Definition p_obj : parser entity := surrounded (alt p_known (pmap EDummy p_dummy)).

(** [Display] of the stored object. *)
Definition d_entity (e : entity) : text :=
  match e with
  | Ent k l =>
      match row_of k with
      | Some r => d_row (row_kws r) (d_tys (row_fields r) l) (row_closer r)
      | None => []
      end
  | EDummy s => d_dummy s
  end.

(** ** References checked by [IfcVerify] *)

(** The ids inside one attribute that [IfcVerify] looks up, each with the kinds it
    accepts, in the order of the checks: /repo/ifc_rs_verify_derive/src/field.rs:130-292.
    [OptionalParameter] is only looked into when it is [Custom], [IdOr] only when it
    holds an id; an embedded entity is not looked into. *)
Fixpoint refs (t : fty) (v : val) {struct t} : list (list kind * N) :=
  match t, v with
  | TRef ks true, VId n => [(ks, n)]
  | TIdOr k _ _ _ _, VId n => [([k], n)]
  | TOpt t', v => refs t' v
  | TList t', VList l => flat_map (refs t') l
  | _, _ => []
  end.

Fixpoint refs_list (fs : list fty) (l : list val) : list (list kind * N) :=
  match fs, l with
  | f :: fs', v :: l' => refs f v ++ refs_list fs' l'
  | _, _ => []
  end.

(** [verify_id_types] of an entity visits these references in this order,
    /repo/ifc_rs_verify_derive/src/lib.rs:109-125. *)
Definition entity_refs (e : entity) : list (list kind * N) :=
  match e with
  | Ent k l =>
      match row_of k with
      | Some r => refs_list (row_fields r) l
      | None => []
      end
  | EDummy _ => []
  end.

(** The type test: one of the listed kinds, or [Dummy];
    /repo/ifc_rs_verify_derive/src/field.rs:78-106, 112-127. *)
Definition accepts (ks : list kind) (k : kind) : bool :=
  existsb (kind_eqb k) ks || kind_eqb k KDummy.
