(** Proofs for C67: the names of the attributes in the specification of the constructors and
    setters (C53) are those of the declared structs. *)

From Coq Require Import String List Bool.
From Verif Require Import Kind NameSpec NameFacts DeclSpec DeclFacts ApiSpec.
Import ListNotations.
Local Open Scope string_scope.

(** What names an attribute in C53: the field, or for the only field of a tuple struct [vector]. *)
Definition api_names (names : list string) : list string :=
  match names with ["0"] => ["vector"] | _ => names end.

Lemma api_rows : forallb (fun q => match attrs_named (snd q) with
                                   | Some a => if list_eq_dec string_dec (attr_names (fst q)) (api_names (map a_name a))
                                               then true else false
                                   | None => false
                                   end) structs = true.
Proof. vm_compute. reflexivity. Qed.

Lemma api_declared k s a : In (k, s) structs -> attributes_of s a ->
  attr_names k = map a_name a \/ attr_names k = ["vector"] /\ map a_name a = ["0"].
Proof.
  intros I A. pose proof (proj1 (forallb_forall _ _) api_rows _ I) as H. cbn [fst snd] in H.
  destruct (attrs_named s) as [b|] eqn:B; [|discriminate]. apply attrs_named_sound in B.
  rewrite (attributes_fun _ _ _ A B). destruct list_eq_dec as [E|]; [|discriminate]. rewrite E.
  generalize (map a_name b). intro l. destruct l as [|x [|y l]]; [now left| |].
  - unfold api_names. destruct (string_dec x "0") as [->|N]; [now right|left].
    destruct x as [|[[] [] [] [] [] [] [] []] [|]]; try reflexivity. congruence.
  - left. unfold api_names. destruct x as [|[[] [] [] [] [] [] [] []] [|]]; reflexivity.
Qed.
