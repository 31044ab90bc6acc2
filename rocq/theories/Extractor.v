(** Model of the extractor: /repo/ifc_rs/src/ifc_extractor/mod.rs.

    The queries are lazy iterators; the model gives what a caller gets that consumes
    the whole iterator.  Where the code returns references to objects only, the model
    also gives their ids. *)

From Coq Require Import String Ascii List NArith ZArith Bool.
From Verif Require Import Base Prims Kind Types Schema Entity DataMap.
Import ListNotations.
Open Scope N_scope.

(** Reading an attribute that holds an id, by position. *)
Definition attr_id (l : list val) (i : nat) : option N :=
  match nth_error l i with Some (VId n) => Some n | _ => None end.

(** Reading an attribute that holds a list of ids. *)
Definition val_ids (l : list val) : list N :=
  flat_map (fun v => match v with VId n => [n] | _ => [] end) l.
Definition attr_ids (l : list val) (i : nat) : list N :=
  match nth_error l i with Some (VList vs) => val_ids vs | _ => [] end.

(** [==] on an id attribute. *)
Definition is_attr (l : list val) (i : nat) (n : N) : bool :=
  match attr_id l i with Some k => k =? n | None => false end.

(** [iter().any(|id| *id == n)] on a list attribute. *)
Definition in_attr (l : list val) (i : nat) (n : N) : bool := existsb (N.eqb n) (attr_ids l i).

(** [flat_map]/[map]/[filter_map] with a function that may panic, all consumed. *)
Fixpoint collect {A B} (f : A -> outcome (list B)) (l : list A) : outcome (list B) :=
  match l with
  | [] => Done []
  | a :: l' =>
      match f a with
      | Done x => match collect f l' with Done y => Done (x ++ y) | Err => Err | Panic => Panic end
      | Err => Err
      | Panic => Panic
      end
  end.

(** [get_untyped(id).downcast_ref::<T>()], with [None] for another kind. *)
Definition downcast (k : kind) (m : dmap) (n : N) : outcome (list (N * list val)) :=
  match get_untyped m n with
  | Done (Ent k' l) => Done (if kind_eqb k' k then [(n, l)] else [])
  | Done (EDummy _) => Done []
  | Err => Err
  | Panic => Panic
  end.

(** [data.get(id)]. *)
Definition get_with_id (k : kind) (m : dmap) (n : N) : outcome (list (N * list val)) :=
  match get k m n with Done l => Done [(n, l)] | Err => Err | Panic => Panic end.

(** The id of a field of type [Id]; such a field always holds one (see [WellTyped]). *)
Definition field_id (l : list val) (i : nat) : list N :=
  match attr_id l i with Some n => [n] | None => [] end.

(** Lines 20-41 [relations_of]. *)
Definition relations_of (k : kind) (m : dmap) (n : N) : outcome (list (N * list val)) :=
  collect (fun p => collect (downcast k m) (attr_ids (snd p) 5))
    (filter (fun p => is_attr (snd p) 4 n) (find_all_of_type KRelAggregates m)).

(** Lines 43-52 [contained_structures]. *)
Definition contained_structures (m : dmap) (n : N) : list N :=
  flat_map (fun p => attr_ids (snd p) 4)
    (filter (fun p => is_attr (snd p) 5 n) (find_all_of_type KRelContainedInSpatialStructure m)).

(** Lines 54-70 [related_type], then 142-180 with the type of the type object. *)
Definition related_type (k : kind) (m : dmap) (n : N) : outcome (N * list val) :=
  match find (fun p => in_attr (snd p) 4 n) (find_all_of_type KRelDefinesByType m) with
  | Some p =>
      match attr_id (snd p) 5 with
      | Some t => match get k m t with Done l => Done (t, l) | Err => Err | Panic => Panic end
      | None => Panic
      end
  | None => Panic
  end.

(** Lines 72-81 [related_voids]. *)
Definition related_voids (m : dmap) (n : N) : outcome (list (N * list val)) :=
  collect (fun p => collect (get_with_id KOpeningElement m) (field_id (snd p) 5))
    (filter (fun p => is_attr (snd p) 4 n) (find_all_of_type KRelVoidsElement m)).

(** Lines 83-112 [related_materials]. *)
Definition related_materials (m : dmap) (n : N) : outcome (list (N * list val)) :=
  collect (fun p => collect (fun u =>
      match downcast KMaterialLayerSetUsage m u with
      | Done us => collect (fun q => collect (fun s =>
            match get KMaterialLayerSet m s with
            | Done a => collect (get_with_id KMaterialLayer m) (attr_ids a 0)
            | Err => Err
            | Panic => Panic
            end) (field_id (snd q) 0)) us
      | Err => Err
      | Panic => Panic
      end) (field_id (snd p) 5))
    (filter (fun p => in_attr (snd p) 4 n) (find_all_of_type KRelAssociatesMaterial m)).

(** Lines 114-139 [related_constiuents]. *)
Definition related_constituents (m : dmap) (n : N) : outcome (list (N * list val)) :=
  collect (fun p => collect (fun u =>
      match downcast KMaterialConstituentSet m u with
      | Done us => collect (fun q => collect (get_with_id KMaterialConstituent m) (attr_ids (snd q) 2)) us
      | Err => Err
      | Panic => Panic
      end) (field_id (snd p) 5))
    (filter (fun p => in_attr (snd p) 4 n) (find_all_of_type KRelAssociatesMaterial m)).
