(** Texts, parser results and the winnow 0.6 combinators used by /repo.

    The combinators are those imported in /repo/ifc_rs/src/parser/mod.rs:16-19.
    winnow's source is not part of /repo; the behaviour written here is assumed
    (DESIGN.md, trusted base). *)

From Coq Require Import String Ascii List NArith ZArith Bool.
Import ListNotations.
Open Scope N_scope.
Open Scope bool_scope.

(** A Rust [&str] as the list of its Unicode scalar values
    (/repo/ifc_rs/src/parser/mod.rs:23, [Parser<&'a str, ..>]). *)
Notation text := (list N).

(** Text of an ASCII literal.  Models string literals of the Rust sources. *)
Definition lit (s : string) : text := map N_of_ascii (list_ascii_of_string s).

(** A one character literal as a number.  Models Rust [char] literals. *)
Definition chr (a : ascii) : N := N_of_ascii a.

(** Outcome of running a parser: success with the remaining text, recoverable
    error ([ErrMode::Backtrack]), unrecoverable error ([ErrMode::Cut]), or a
    Rust panic inside a mapping closure.
    /repo/ifc_rs/src/parser/mod.rs:23 ([EmptyError] carries no information). *)
Inductive res (A : Type) : Type :=
| ROk (a : A) (rest : text)
| RBack
| RCut
| RPanic.
Arguments ROk {A} a rest.
Arguments RBack {A}.
Arguments RCut {A}.
Arguments RPanic {A}.

(** /repo/ifc_rs/src/parser/mod.rs:23-24 *)
Definition parser (A : Type) := text -> res A.

(** Sequencing: [winnow::seq!], tuples, [delimited], [preceded], [terminated]. *)
Definition bind {A B} (p : parser A) (f : A -> parser B) : parser B :=
  fun s => match p s with
           | ROk a r => f a r
           | RBack => RBack
           | RCut => RCut
           | RPanic => RPanic
           end.

(** A parser that succeeds without consuming (used to build results). *)
Definition ret {A} (a : A) : parser A := fun s => ROk a s.

(** [Parser::map]. *)
Definition pmap {A B} (f : A -> B) (p : parser A) : parser B :=
  fun s => match p s with
           | ROk a r => ROk (f a) r
           | RBack => RBack
           | RCut => RCut
           | RPanic => RPanic
           end.

(** [Parser::map] with a closure that may panic ([unwrap], [expect]). *)
Definition pmap_unwrap {A B} (f : A -> option B) (p : parser A) : parser B :=
  fun s => match p s with
           | ROk a r => match f a with Some b => ROk b r | None => RPanic end
           | RBack => RBack
           | RCut => RCut
           | RPanic => RPanic
           end.

(** [winnow::combinator::fail]. *)
Definition fail {A} : parser A := fun _ => RBack.

(** [winnow::combinator::alt] for two parsers: the second is tried only after a
    [Backtrack] of the first, from the same position. *)
Definition alt {A} (p q : parser A) : parser A :=
  fun s => match p s with
           | RBack => q s
           | ok => ok
           end.

(** [winnow::combinator::alt] for a tuple or array of parsers. *)
Fixpoint alts {A} (ps : list (parser A)) : parser A :=
  match ps with
  | [] => fail
  | p :: ps' => alt p (alts ps')
  end.

(** [winnow::combinator::opt]. *)
Definition opt {A} (p : parser A) : parser (option A) :=
  fun s => match p s with
           | ROk a r => ROk (Some a) r
           | RBack => ROk None s
           | RCut => RCut
           | RPanic => RPanic
           end.

(** [winnow::combinator::not]. *)
Definition pnot {A} (p : parser A) : parser unit :=
  fun s => match p s with
           | ROk _ _ => RBack
           | RBack => ROk tt s
           | RCut => RCut
           | RPanic => RPanic
           end.

(** [winnow::combinator::peek]. *)
Definition peek {A} (p : parser A) : parser A :=
  fun s => match p s with
           | ROk a _ => ROk a s
           | RBack => RBack
           | RCut => RCut
           | RPanic => RPanic
           end.

(** [winnow::combinator::cut_err]. *)
Definition cut_err {A} (p : parser A) : parser A :=
  fun s => match p s with
           | RBack => RCut
           | other => other
           end.

(** [winnow::token::literal], implicit for [&str] and [char] parsers. *)
Fixpoint strip_prefix (t s : text) : option text :=
  match t with
  | [] => Some s
  | c :: t' =>
      match s with
      | [] => None
      | d :: s' => if c =? d then strip_prefix t' s' else None
      end
  end.

Definition tag (t : text) : parser unit :=
  fun s => match strip_prefix t s with
           | Some r => ROk tt r
           | None => RBack
           end.

(** [winnow::token::any]. *)
Definition any : parser N :=
  fun s => match s with
           | [] => RBack
           | c :: r => ROk c r
           end.

(** [winnow::token::one_of] / [none_of] as a predicate on one character. *)
Definition one_of (f : N -> bool) : parser N :=
  fun s => match s with
           | c :: r => if f c then ROk c r else RBack
           | [] => RBack
           end.

(** Longest prefix of characters satisfying [f], and the remaining text. *)
Fixpoint span (f : N -> bool) (s : text) : text * text :=
  match s with
  | [] => ([], [])
  | c :: r => if f c then let (a, b) := span f r in (c :: a, b) else ([], s)
  end.

(** [winnow::token::take_while(.., f)]. *)
Definition take_while0 (f : N -> bool) : parser text :=
  fun s => let (a, b) := span f s in ROk a b.

(** [winnow::token::take_while(1.., f)]; [digit1], [multispace1]. *)
Definition take_while1 (f : N -> bool) : parser text :=
  fun s => match span f s with
           | ([], _) => RBack
           | (a, b) => ROk a b
           end.

(** [winnow::token::take_while(n..=n, f)]: at most [n] characters are taken and
    fewer than [n] is an error. *)
Fixpoint take_exactly (n : nat) (f : N -> bool) : parser text :=
  match n with
  | O => fun s => ROk [] s
  | S n' => fun s =>
      match s with
      | c :: r => if f c then pmap (cons c) (take_exactly n' f) r else RBack
      | [] => RBack
      end
  end.

(** [winnow::combinator::repeat_till(.., f, g)]: [g] is tried first; after a
    [Backtrack] of [g], [f] must succeed.  [fuel] bounds the number of items;
    [repeat_till] passes more than the number of remaining characters, which is
    never exhausted when [f] consumes (see [repeat_till_fuel] in BaseFacts.v).
    winnow reports an error when [f] consumes nothing, and so does this
    definition, by exhausting the fuel. *)
Fixpoint repeat_till_fuel {A B} (fuel : nat) (f : parser A) (g : parser B)
  : parser (list A * B) :=
  fun s =>
    match fuel with
    | O => RBack
    | S n =>
        match g s with
        | ROk b r => ROk ([], b) r
        | RBack =>
            match f s with
            | ROk a r =>
                match repeat_till_fuel n f g r with
                | ROk (l, b) r' => ROk (a :: l, b) r'
                | RBack => RBack
                | RCut => RCut
                | RPanic => RPanic
                end
            | RBack => RBack
            | RCut => RCut
            | RPanic => RPanic
            end
        | RCut => RCut
        | RPanic => RPanic
        end
    end.

Definition repeat_till {A B} (f : parser A) (g : parser B) : parser (list A * B) :=
  fun s => repeat_till_fuel (S (length s)) f g s.

(** [winnow::combinator::repeat(.., f)]: greedy, stops at the first [Backtrack]. *)
Fixpoint repeat0_fuel {A} (fuel : nat) (f : parser A) : parser (list A) :=
  fun s =>
    match fuel with
    | O => RBack
    | S n =>
        match f s with
        | ROk a r =>
            match repeat0_fuel n f r with
            | ROk l r' => ROk (a :: l) r'
            | RBack => RBack
            | RCut => RCut
            | RPanic => RPanic
            end
        | RBack => ROk [] s
        | RCut => RCut
        | RPanic => RPanic
        end
    end.

Definition repeat0 {A} (f : parser A) : parser (list A) :=
  fun s => repeat0_fuel (S (length s)) f s.

(** [winnow::combinator::separated(.., f, sep)]: zero or more items; after an
    item, a [Backtrack] of the separator or of the item following it ends the
    list before the separator. *)
Fixpoint separated_tail_fuel {A B} (fuel : nat) (f : parser A) (sep : parser B)
  : parser (list A) :=
  fun s =>
    match fuel with
    | O => RBack
    | S n =>
        match sep s with
        | ROk _ r =>
            match f r with
            | ROk a r' =>
                match separated_tail_fuel n f sep r' with
                | ROk l r'' => ROk (a :: l) r''
                | RBack => RBack
                | RCut => RCut
                | RPanic => RPanic
                end
            | RBack => ROk [] s
            | RCut => RCut
            | RPanic => RPanic
            end
        | RBack => ROk [] s
        | RCut => RCut
        | RPanic => RPanic
        end
    end.

Definition separated {A B} (f : parser A) (sep : parser B) : parser (list A) :=
  fun s => match f s with
           | ROk a r =>
               match separated_tail_fuel (S (length r)) f sep r with
               | ROk l r' => ROk (a :: l) r'
               | RBack => RBack
               | RCut => RCut
               | RPanic => RPanic
               end
           | RBack => ROk [] s
           | RCut => RCut
           | RPanic => RPanic
           end.

(** [Parser::parse]: run on a whole text; success requires that nothing remains.
    The three outcomes are [Ok], [Err] and a panic. *)
Inductive outcome (A : Type) : Type :=
| Done (a : A)
| Err
| Panic.
Arguments Done {A} a.
Arguments Err {A}.
Arguments Panic {A}.

Definition parse_whole {A} (p : parser A) (s : text) : outcome A :=
  match p s with
  | ROk a [] => Done a
  | ROk _ (_ :: _) => Err
  | RBack => Err
  | RCut => Err
  | RPanic => Panic
  end.

Declare Scope parser_scope.
Delimit Scope parser_scope with parser.
Notation "x <- p ;; q" := (bind p (fun x => q))
  (at level 61, p at next level, right associativity) : parser_scope.
Notation "p ;;; q" := (bind p (fun _ => q))
  (at level 61, right associativity) : parser_scope.
