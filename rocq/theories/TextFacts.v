(** Facts for C04: what is printed. *)

From Coq Require Import String Ascii List NArith Bool Lia.
From Verif Require Import Base Prims StringFacts TextSpec.
Import ListNotations.
Open Scope N_scope.

Lemma enc_char_in_ascii c :
  enc_char umlaut_map c = if existsb (N.eqb c) german then directive c else [c].
Proof.
  destruct (umlaut_cases c) as [->|[->|[->|[->|[->|[->|[->|H]]]]]]];
    try (vm_compute; reflexivity).
  destruct (existsb (N.eqb c) german) eqn:E.
  - apply existsb_exists in E as (d & I & D). apply N.eqb_eq in D. subst d.
    cbn [german In] in I. lia.
  - apply enc_char_plain. cbn [umlaut_map map fst In]. lia.
Qed.

Lemma d_string_in_ascii s : d_string s = lit "'" ++ in_ascii s ++ lit "'".
Proof.
  unfold d_string, in_ascii. rewrite translate_encode_enc. unfold enc.
  do 2 f_equal. apply flat_map_ext. exact enc_char_in_ascii.
Qed.
