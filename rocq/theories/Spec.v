(** Vocabulary of the specifications, independent of the parsers:
    gaps (white space and comments) and where a gap ends. *)

From Coq Require Import String Ascii List NArith ZArith Bool.
From Verif Require Import Base.
Import ListNotations.
Open Scope N_scope.

(** Blank characters: space, tab, carriage return, line feed. *)
Definition blank (c : N) : Prop := c = 32 \/ c = 9 \/ c = 13 \/ c = 10.

(** [occurs t s]: [t] is a contiguous part of [s]. *)
Definition occurs (t s : text) : Prop := exists a b, s = a ++ t ++ b.

(** A text made of blanks and of comments only.  The body of a comment must not
    itself contain the end mark (also not one overlapping the final mark). *)
Inductive gap : text -> Prop :=
| gap_nil : gap []
| gap_blank c g : blank c -> gap g -> gap (c :: g)
| gap_comment body g :
    ~ occurs (lit "*/") (body ++ lit "*") -> gap g ->
    gap (lit "/*" ++ body ++ lit "*/" ++ g).

(** No gap starts here: the text is empty, or its first character is not blank
    and no complete comment starts here. *)
Definition no_gap (s : text) : Prop :=
  match s with
  | [] => True
  | c :: _ => ~ blank c /\
              ~ (exists body r, s = lit "/*" ++ body ++ lit "*/" ++ r)
  end.

(** What follows a complete attribute: a comma or a closing parenthesis,
    possibly after a gap. *)
Definition delimited_here (rest : text) : Prop :=
  exists g c r, gap g /\ (c = 44 \/ c = 41) /\ rest = g ++ c :: r.

(** [decimal n ds]: [ds] is the usual decimal notation of [n], without leading
    zeros. *)
Inductive decimal : N -> text -> Prop :=
| decimal_digit d : d < 10 -> decimal d [48 + d]
| decimal_more n ds d : 0 < n -> decimal n ds -> d < 10 -> decimal (10 * n + d) (ds ++ [48 + d]).

(** Notation of an integer: a minus sign and digits, or digits. *)
Definition decimal_int (z : Z) (ds : text) : Prop :=
  if (z <? 0)%Z then exists ds', ds = 45 :: ds' /\ decimal (Z.abs_N z) ds'
  else decimal (Z.abs_N z) ds.
