(** Specification of runs that differ only in what the surroundings decide: two models
    say the same if the ids of one can be renamed so that it becomes the other. *)

From Coq Require Import String Ascii List NArith ZArith Bool Permutation.
From Verif Require Import Base Prims Float Arith Kind Types Schema Entity DataMap Builder BuilderRun BuilderSpec.
Import ListNotations.
Open Scope N_scope.

(** ** Values *)

(** A value with its ids renamed and its random identifiers left out. *)
Fixpoint ren (f : N -> N) (v : val) : val :=
  match v with
  | VId n => VId (f n)
  | VGuid _ => VGuid []
  | VMeasure i v => VMeasure i (ren f v)
  | VList l => VList (map (ren f) l)
  | VEnt l => VEnt (map (ren f) l)
  | _ => v
  end.

(** The ids in a value. *)
Fixpoint ids_in (v : val) : list N :=
  match v with
  | VId n => [n]
  | VMeasure _ v => ids_in v
  | VList l => flat_map ids_in l
  | VEnt l => flat_map ids_in l
  | _ => []
  end.

(** A name without the number at its end. *)
Fixpoint shed (s : text) : text :=
  match s with c :: s' => if (48 <=? c) && (c <=? 57) then shed s' else s | [] => [] end.
Definition stem (s : text) : text := rev (shed (rev s)).

(** ** Attributes that depend on the surroundings *)

(** Lists of members, names with a running number, times. *)
Inductive part := Same | Members | Numbered | Clock.

Definition part_of (k : kind) (i : nat) : part :=
  match k, i with
  | KRelDefinesByType, 2%nat | KRelVoidsElement, 2%nat | KRelFillsElement, 2%nat => Numbered
  | KRelDefinesByType, 4%nat | KRelContainedInSpatialStructure, 4%nat | KRelAggregates, 5%nat => Members
  | KOwnerHistory, 4%nat | KOwnerHistory, 7%nat => Clock
  | _, _ => Same
  end.

Definition like_part (f : N -> N) (r : part) (v v' : val) : Prop :=
  match r with
  | Same => ren f v = ren (fun n => n) v'
  | Members => exists l l', v = ids l /\ v' = ids l' /\ Permutation (map f l) l'
  | Numbered => exists s s', v = VStr s /\ v' = VStr s' /\ stem s = stem s'
  | Clock => exists z z', v = VInt z /\ v' = VInt z'
  end.

Fixpoint likes (f : N -> N) (k : kind) (i : nat) (l l' : list val) : Prop :=
  match l, l' with
  | [], [] => True
  | v :: t, v' :: t' => like_part f (part_of k i) v v' /\ likes f k (S i) t t'
  | _, _ => False
  end.

(** ** Models *)

Definition like (f : N -> N) (e e' : entity) : Prop :=
  match e, e' with
  | Ent k l, Ent k' l' => k' = k /\ likes f k 0 l l'
  | EDummy s, EDummy s' => s' = s
  | _, _ => False
  end.

(** The kinds of the objects that are made while a hash table is walked. *)
Definition shuffled (k : kind) : bool :=
  existsb (kind_eqb k)
    [ KDirection3D; KPoint3D; KCartesianTransformationOperator3DnonUniform; KAxis3D; KRepresentationMap
    ; KMappedItem; KShapeRepresentation
    ; KRelDefinesByType; KRelVoidsElement; KRelFillsElement; KRelAssociatesMaterial ].

Definition one_to_one (f : N -> N) : Prop := exists g, forall n, g (f n) = n /\ f (g n) = n.

Definition kind_at (m : dmap) (n : N) : option kind := option_map kind_of (lookup m n).

(** [f] renames [m] to [m']: no id is lost or made up, only ids of objects made in a
    walk are moved, every object says the same under its new id. *)
Definition renames (f : N -> N) (m m' : dmap) : Prop :=
  one_to_one f /\
  (forall n, f n <> n -> exists k, kind_at m n = Some k /\ shuffled k = true) /\
  (forall n, match lookup m n, lookup m' (f n) with
             | Some e, Some e' => like f e e'
             | None, None => True
             | _, _ => False
             end).

(** ** Programs *)

(** The values given by the caller mention no ids, other than those that are arguments
    of their own; a unit is one of the objects made with the project. *)
Definition idless (v : val) : bool := match ids_in v with [] => true | _ => false end.
Definition plain_op (m0 : dmap) (x : op) : Prop :=
  match x with
  | OLayer _ l => forallb idless (tl l) = true
  | OProperty _ v u => idless v = true /\ match u with Some n => lookup m0 n <> None | None => True end
  | _ => True
  end.
Definition plain_info (i : info) : Prop :=
  forallb idless (n_developer i) = true /\ forallb idless (n_person i) = true.
Definition plain_program (o : oracle) (i : info) (xs : list op) : Prop :=
  plain_info i /\ forall p0, start o i = Done p0 -> Forall (plain_op (p_map p0)) xs.
