(** Model of the constructors of a representation context:
    /repo/ifc_rs/src/geometry/representation_context/mod.rs:50-83. *)

From Coq Require Import String Ascii List NArith ZArith Bool.
From Verif Require Import Base Prims Float Kind Types Schema Entity DataMap.
Import ListNotations.
Open Scope N_scope.

(** Lines 51-66 [GeometricRepresentationContext::new]; 8 is the place of 'Body' in
    the enumeration of identifiers. *)
Definition context_new (dim : nat) (wcs : id_or) (m : dmap) : option (dmap * list val) :=
  match or_insert m wcs with
  | Some (m', n) =>
      Some (m', [VEnum 8; VStr (lit "Model"); VEnum dim; VOmit; VId n; VOmit])
  | None => None
  end.

(** Lines 68-71 [precision]. *)
Definition context_precision (d : f64) (l : list val) : list val :=
  firstn 3 l ++ VReal d :: skipn 4 l.

(** Lines 73-80 [true_north]. *)
Definition context_true_north (dir : id_or) (m : dmap) (l : list val) : option (dmap * list val) :=
  match or_insert m dir with
  | Some (m', n) => Some (m', firstn 5 l ++ VId n :: skipn 6 l)
  | None => None
  end.
