(** What it means that the identifiers of a model are unique. *)

From Coq Require Import List NArith ZArith Bool.
From Verif Require Import Base Prims Kind Types Schema Entity DataMap Builder.
Import ListNotations.
Open Scope N_scope.

(** The kinds that begin with a globally unique identifier. *)
Definition rooted (k : kind) : bool :=
  match row_of k with
  | Some r => match row_fields r with TGuid :: _ => true | _ => false end
  | None => false
  end.

(** Object [n] has the identifier [g]. *)
Definition has_guid (m : dmap) (n : N) (g : text) : Prop :=
  exists k l, lookup m n = Some (Ent k (VGuid g :: l)) /\ rooted k = true.

Definition unique_guids (m : dmap) : Prop :=
  forall n n' g, has_guid m n g -> has_guid m n' g -> n = n'.

(** The first [t] answers of the generator of identifiers differ. *)
Definition no_collision (o : oracle) (t : nat) : Prop :=
  forall a b, (a < t)%nat -> (b < t)%nat -> o_guid o a = o_guid o b -> a = b.
