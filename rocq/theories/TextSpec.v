(** Spec for C04: how ISO 10303-21 writes a text with the letters of German
    beyond ASCII.  Independent of the model. *)

From Coq Require Import String Ascii List NArith Bool.
From Verif Require Import Base.
Import ListNotations.
Open Scope N_scope.

(** Four hexadecimal digits, upper case, highest first. *)
Definition hex (n : N) : text := firstn 1 (skipn (N.to_nat n) (lit "0123456789ABCDEF")).
Definition hex4 (n : N) : text :=
  hex (n / 4096) ++ hex (n / 256 mod 16) ++ hex (n / 16 mod 16) ++ hex (n mod 16).

(** The control directive for one character of the basic multilingual plane. *)
Definition directive (c : N) : text := lit "\X2\" ++ hex4 c ++ lit "\X0\".

(** The umlauts in both cases and the sharp s. *)
Definition german : list N := [196; 214; 220; 223; 228; 246; 252].

Definition in_ascii (s : text) : text :=
  flat_map (fun c => if existsb (N.eqb c) german then directive c else [c]) s.
