(** Specification of editing a model that has been loaded: C66. *)

From Coq Require Import String Ascii List NArith ZArith Bool.
From Verif Require Import Base Prims Kind Types Schema Entity EntitySpec DataMap DataSpec Header File HeaderSpec FileSpec Api ApiSpec.
Import ListNotations.
Open Scope N_scope.

(** A file that can be saved again (see C17): the time stamp is one the calendar has,
    and lines of unknown kinds stay unknown. *)
Definition resaves (v : env) (x : ifc) : Prop :=
  civil (h_time (i_header x)) /\ chrono_reads v (h_time (i_header x)) /\ dummies_stay (i_data x).

(** The objects a program exchanges in place. *)
Definition exchanged (xs : list stmt) (n : N) : Prop := exists r, In (SSwap r n) xs.

(** [k] numbers from [n] on. *)
Fixpoint count (n : N) (k : nat) : list N :=
  match k with
  | O => []
  | S k' => n :: count (n + 1) k'
  end.

(** A saved file with the front [front] and the lines [l]: what stands after the
    equals sign, with the number before it. *)
Definition saved_as (front : text) (l : list (N * text)) : text :=
  front ++ lit "DATA;" ++ [10] ++
  concat (map (fun p => lit "#" ++ show_N (fst p) ++ lit "= " ++ snd p ++ [10]) l) ++
  lit "ENDSEC;" ++ [10; 10] ++ lit "END-ISO-10303-21;" ++ [10].

(** Some other object of [m] is checked for [n]. *)
Definition needed (m : dmap) (n : N) : Prop :=
  exists i e ks, i <> n /\ In (i, e) m /\ checked_ref e ks n.

(** The object [e] can stand at [n] in [m]: it refers to what it may refer to, and what
    refers to it may do so. *)
Definition fits (m : dmap) (n : N) (e : entity) : Prop :=
  (forall ks k, checked_ref e ks k ->
     exists o, (k = n /\ o = e \/ k <> n /\ lookup m k = Some o) /\ permitted ks o) /\
  (forall i o ks, i <> n -> In (i, o) m -> checked_ref o ks n -> permitted ks e).

(** [e] refers to nothing that is not there. *)
Definition complete (m : dmap) (n : N) (e : entity) : Prop :=
  forall ks k, checked_ref e ks k -> k = n \/ lookup m k <> None.
