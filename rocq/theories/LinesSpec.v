(** Specification: files as headers and lists of object texts.

    [written_file v h l s]: the text [s] is a header that spells [h] and lines that give
    the objects written in [l] (id and text) their ids, in this order, with any gaps. *)

From Coq Require Import String Ascii List NArith ZArith Bool.
From Verif Require Import Base Prims Spec Header HeaderSpec SpellSpec GramSpec.
Import ListNotations.
Open Scope N_scope.

Inductive written : list (N * text) -> text -> Prop :=
| wr_nil : written [] []
| wr_line n w g1 g2 s t g3 l d :
    id_text n w -> gap g1 -> gap g2 -> gap g3 -> form_object s t -> written l d ->
    written ((n, t) :: l) (w ++ g1 ++ lit "=" ++ g2 ++ t ++ g3 ++ d).

Definition written_file (v : env) (h : header) (l : list (N * text)) (s : text) : Prop :=
  exists w g0 g1 d g2 g3, spells_header v h w /\ gap g0 /\ gap g1 /\ written l d /\ gap g2 /\ gap g3 /\
    s = w ++ g0 ++ lit "DATA;" ++ g1 ++ d ++ lit "ENDSEC;" ++ g2 ++ lit "END-ISO-10303-21;" ++ g3.

(** [t] is the last text that [l] has for [n]. *)
Definition final (l : list (N * text)) (n : N) (t : text) : Prop :=
  exists a b, l = a ++ (n, t) :: b /\ ~ In n (map fst b).
