(** Model of the data map: finite map from ids to objects in id order, and reading
    and printing of the data section. *)

From Coq Require Import String Ascii List NArith ZArith Bool.
From Verif Require Import Base Prims Kind Types Schema Entity.
Import ListNotations.
Open Scope N_scope.
Open Scope parser_scope.

(** [DataMap(BTreeMap<Id, Box<dyn IfcType>>)], /repo/ifc_rs/src/meta/datamap/mod.rs:13-14:
    an association list in strictly increasing key order. *)
Definition dmap := list (N * entity).

(** [BTreeMap::get]. *)
Fixpoint lookup (m : dmap) (n : N) : option entity :=
  match m with
  | [] => None
  | (k, e) :: m' => if k =? n then Some e else lookup m' n
  end.

(** [BTreeMap::insert], the map afterwards. *)
Fixpoint put (m : dmap) (n : N) (e : entity) : dmap :=
  match m with
  | [] => [(n, e)]
  | (k, x) :: m' =>
      if n <? k then (n, e) :: m
      else if n =? k then (n, e) :: m'
      else (k, x) :: put m' n e
  end.

(** [BTreeMap::remove], the map afterwards. *)
Fixpoint del (m : dmap) (n : N) : dmap :=
  match m with
  | [] => []
  | (k, x) :: m' => if k =? n then m' else (k, x) :: del m' n
  end.

(** [keys().max()]. *)
Definition max_key (m : dmap) : option N :=
  fold_right (fun p a => Some (match a with None => fst p | Some b => N.max (fst p) b end)) None m.

(** /repo/ifc_rs/src/meta/datamap/mod.rs:31-37: map afterwards and old object. *)
Definition insert (m : dmap) (n : N) (e : entity) : dmap * option entity :=
  (put m n e, lookup m n).

(** Lines 17-29.  [id.0 + 1] overflows for the largest id: [None]. *)
Definition insert_new (m : dmap) (e : entity) : option (dmap * N) :=
  match max_key m with
  | None => Some (put m 1 e, 1)
  | Some k => if k =? max_usize then None else Some (put m (k + 1) e, k + 1)
  end.

(** Lines 65-67. *)
Definition contains (m : dmap) (n : N) : bool :=
  match lookup m n with Some _ => true | None => false end.

(** Lines 39-44, with the default object as argument. *)
Definition insert_if_not_exists (m : dmap) (n : N) (e : entity) : dmap :=
  if contains m n then m else put m n e.

(** Lines 46-48. *)
Definition remove (m : dmap) (n : N) : dmap * option entity := (del m n, lookup m n).

(** Lines 54-56: a missing id panics. *)
Definition get_untyped (m : dmap) (n : N) : outcome entity :=
  match lookup m n with Some e => Done e | None => Panic end.

(** Lines 50-52: a missing id and another kind panic. *)
Definition get (k : kind) (m : dmap) (n : N) : outcome (list val) :=
  match lookup m n with
  | Some (Ent k' l) => if kind_eqb k' k then Done l else Panic
  | Some (EDummy _) => Panic
  | None => Panic
  end.

(** Lines 58-63, followed by an update of the attributes through the reference. *)
Definition update (k : kind) (m : dmap) (n : N) (f : list val -> list val) : outcome dmap :=
  match get k m n with
  | Done l => Done (put m n (Ent k (f l)))
  | _ => Panic
  end.

(** Lines 69-73. *)
Definition find_all_of_type (k : kind) (m : dmap) : list (N * list val) :=
  flat_map (fun p => match snd p with
                     | Ent k' l => if kind_eqb k' k then [(fst p, l)] else []
                     | EDummy _ => []
                     end) m.

(** Lines 75-80. *)
Definition id_of (k : kind) (m : dmap) : list N :=
  map fst (filter (fun p => kind_eqb (kind_of (snd p)) k) m).

(** Lines 83-90 and the collecting of /repo/ifc_rs/src/meta/datamap/deserialize.rs:37-38:
    the last definition wins. *)
Definition from_list (l : list (N * entity)) : dmap :=
  fold_left (fun m p => put m (fst p) (snd p)) l [].

(** [IdOr::or_insert], /repo/ifc_rs/src/id/id_or.rs:34-39. *)
Inductive id_or := IsId (n : N) | IsCustom (e : entity).
Definition or_insert (m : dmap) (x : id_or) : option (dmap * N) :=
  match x with
  | IsId n => Some (m, n)
  | IsCustom e => insert_new m e
  end.

(** ** Sequences of operations *)

(** The operations of /repo/ifc_rs/src/meta/datamap/mod.rs:17-63 that change the map. *)
Inductive op :=
| OpNew (e : entity)
| OpInsert (n : N) (e : entity)
| OpIfAbsent (n : N) (e : entity)
| OpRemove (n : N)
| OpUpdate (k : kind) (n : N) (f : list val -> list val).

(** The result of an operation, [None] when it panics; with the value returned. *)
Inductive answer := AId (n : N) | AObj (r : option entity) | AUnit.

(** One operation: the functions above. *)
Definition step (m : dmap) (o : op) : option (dmap * answer) :=
  match o with
  | OpNew e => match insert_new m e with Some (m', n) => Some (m', AId n) | None => None end
  | OpInsert n e => let (m', r) := insert m n e in Some (m', AObj r)
  | OpIfAbsent n e => Some (insert_if_not_exists m n e, AUnit)
  | OpRemove n => let (m', r) := remove m n in Some (m', AObj r)
  | OpUpdate k n f => match update k m n f with Done m' => Some (m', AUnit) | _ => None end
  end.

(** A program of operations stops at the first panic. *)
Fixpoint run (m : dmap) (os : list op) : option (dmap * list answer) :=
  match os with
  | [] => Some (m, [])
  | o :: os' =>
      match step m o with
      | Some (m', a) => match run m' os' with Some (m'', l) => Some (m'', a :: l) | None => None end
      | None => None
      end
  end.

(** ** Reading and printing, /repo/ifc_rs/src/meta/datamap/deserialize.rs:21-42 *)

(** Lines 35-36. *)
Definition p_line : parser (N * entity) :=
  surrounded (n <- p_id ;; surrounded (tag (lit "=")) ;;; e <- p_obj ;; ret (n, e)).

(** Lines 37-38. *)
Definition p_lines : parser (list (N * entity)) :=
  pmap fst (repeat_till p_line (surrounded (tag (lit "ENDSEC;")))).

(** Lines 39-40. *)
Definition p_data : parser dmap :=
  surrounded (tag (lit "DATA;") ;;; pmap from_list p_lines).

(** The line feed character. *)
Definition nl : text := [10].

(** One line, /repo/ifc_rs/src/meta/datamap/serialize.rs:9-11. *)
Definition d_line (p : N * entity) : text :=
  d_id (fst p) ++ lit "= " ++ d_entity (snd p) ++ nl.

(** Lines 5-16. *)
Definition d_data (m : dmap) : text :=
  lit "DATA;" ++ nl ++ flat_map d_line m ++ lit "ENDSEC;" ++ nl.
