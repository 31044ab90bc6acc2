(** Model of the primitive parsers and printers in /repo/ifc_rs/src/parser and
    /repo/ifc_rs/src/id/plain.rs. *)

From Coq Require Import String Ascii List NArith ZArith Bool.
From Verif Require Import Base.
Import ListNotations.
Open Scope N_scope.
Open Scope parser_scope.

(** winnow [multispace1]: space, tab, carriage return, line feed. *)
Definition is_space (c : N) : bool :=
  (c =? 32) || (c =? 9) || (c =? 13) || (c =? 10).

(** /repo/ifc_rs/src/parser/mod.rs:62-67 [p_comment]. *)
Definition p_comment : parser unit :=
  tag (lit "/*") ;;; pmap (fun _ => tt) (repeat_till any (tag (lit "*/"))).

(** /repo/ifc_rs/src/parser/mod.rs:69-71 [p_single_space_or_comment]. *)
Definition p_single_space_or_comment : parser unit :=
  alt (pmap (fun _ => tt) (take_while1 is_space)) p_comment.

(** /repo/ifc_rs/src/parser/mod.rs:75-82 [p_space_or_comment]. *)
Definition p_space_or_comment : parser unit :=
  pmap (fun _ => tt)
       (repeat_till p_single_space_or_comment (peek (pnot p_single_space_or_comment))).

(** /repo/ifc_rs/src/parser/mod.rs:84-88 [p_space_or_comment_surrounded]. *)
Definition surrounded {A} (p : parser A) : parser A :=
  p_space_or_comment ;;; a <- p ;; p_space_or_comment ;;; ret a.

(** /repo/ifc_rs/src/parser/comma.rs:11-18 [Comma::parse]. *)
Definition p_comma : parser unit := surrounded (tag (lit ",")).

(** ** Unsigned and signed decimal integers *)

(** ASCII digits, as used by winnow [digit0], [digit1] and Rust [is_ascii_digit]. *)
Definition is_digit (c : N) : bool := (48 <=? c) && (c <=? 57).

(** Value of a digit sequence (Rust integer [from_str]). *)
Fixpoint digits_value_acc (acc : N) (ds : text) : N :=
  match ds with
  | [] => acc
  | c :: r => digits_value_acc (10 * acc + (c - 48)) r
  end.
Definition digits_value (ds : text) : N := digits_value_acc 0 ds.

(** Largest [usize] (64 bit), used by /repo/ifc_rs/src/id/plain.rs:14. *)
Definition max_usize : N := 18446744073709551615.

(** winnow [dec_uint]: a digit 1-9 followed by digits, or a single 0. *)
Definition recognize_dec_uint : parser text :=
  fun s => match s with
           | c :: r =>
               if (49 <=? c) && (c <=? 57)
               then let (a, b) := span is_digit r in ROk (c :: a) b
               else if c =? 48 then ROk [c] r else RBack
           | [] => RBack
           end.

(** winnow [dec_uint] at type [usize]: a value out of range is a [Backtrack]. *)
Definition dec_uint_usize : parser N :=
  fun s => match recognize_dec_uint s with
           | ROk ds r =>
               let v := digits_value ds in
               if v <=? max_usize then ROk v r else RBack
           | RBack => RBack | RCut => RCut | RPanic => RPanic
           end.

(** winnow [dec_int]: optional sign, a digit 1-9, digits; or a single unsigned 0. *)
Definition recognize_dec_int : parser (bool * text) :=
  fun s =>
    let signed (neg : bool) (s' : text) : res (bool * text) :=
      match s' with
      | c :: r =>
          if (49 <=? c) && (c <=? 57)
          then let (a, b) := span is_digit r in ROk (neg, c :: a) b
          else RBack
      | [] => RBack
      end in
    match s with
    | c :: r =>
        if c =? 43 then signed false r
        else if c =? 45 then signed true r
        else if c =? 48 then ROk (false, [c]) r
        else signed false s
    | [] => RBack
    end.

Definition in_range (lo hi : Z) (z : Z) : bool := ((lo <=? z) && (z <=? hi))%Z.

Definition i64_min : Z := (-9223372036854775808)%Z.
Definition i64_max : Z := 9223372036854775807%Z.
Definition i32_min : Z := (-2147483648)%Z.
Definition i32_max : Z := 2147483647%Z.

(** winnow [dec_int] at a signed type with bounds [lo], [hi]. *)
Definition dec_int (lo hi : Z) : parser Z :=
  fun s => match recognize_dec_int s with
           | ROk (neg, ds) r =>
               let v := Z.of_N (digits_value ds) in
               let v := if neg then Z.opp v else v in
               if in_range lo hi v then ROk v r else RBack
           | RBack => RBack | RCut => RCut | RPanic => RPanic
           end.

(** /repo/ifc_rs/src/parser/integer.rs:11-18 [IntegerPrimitive::parse] (i64). *)
Definition p_int : parser Z := dec_int i64_min i64_max.

(** Decimal digits of a natural number (Rust [Display] of unsigned integers).
    The fuel exceeds the number of binary digits, hence of decimal digits. *)
Fixpoint show_N_fuel (fuel : nat) (n : N) (acc : text) : text :=
  match fuel with
  | O => acc
  | S f =>
      let acc' := (48 + n mod 10) :: acc in
      if n <? 10 then acc' else show_N_fuel f (n / 10) acc'
  end.
Definition show_N (n : N) : text := show_N_fuel (S (N.size_nat n)) n [].

(** Rust [Display] of signed integers. *)
Definition show_Z (z : Z) : text :=
  match z with
  | Zneg p => 45 :: show_N (Npos p)
  | Z0 => show_N 0
  | Zpos p => show_N (Npos p)
  end.

(** ** Ids *)

(** /repo/ifc_rs/src/id/plain.rs:16-23 [Id::parse]. *)
Definition p_id : parser N := tag (lit "#") ;;; dec_uint_usize.

(** /repo/ifc_rs/src/id/plain.rs:25-29 [Display for Id]. *)
Definition d_id (n : N) : text := lit "#" ++ show_N n.

(** ** Quoted words and strings *)

(** /repo/ifc_rs/src/parser/mod.rs:54-56 [p_word_until]. *)
Definition p_word_until (e : N) : parser text := take_while0 (fun c => negb (c =? e)).

(** /repo/ifc_rs/src/parser/mod.rs:58-60 [p_quote_word]. *)
Definition p_quote_word : parser text :=
  tag (lit "'") ;;; w <- p_word_until 39 ;; tag (lit "'") ;;; ret w.

(** Rust [str::replace(from, to)] for a non-empty [from]: non-overlapping
    occurrences from the left.  [skip] counts characters of an occurrence that
    was just replaced and still have to be dropped. *)
Fixpoint replace_go (from to : text) (skip : nat) (s : text) : text :=
  match s with
  | [] => []
  | c :: r =>
      match skip with
      | S k => replace_go from to k r
      | O =>
          match strip_prefix from s with
          | Some _ => to ++ replace_go from to (pred (length from)) r
          | None => c :: replace_go from to O r
          end
      end
  end.
Definition replace (from to : text) (s : text) : text := replace_go from to O s.

(** /repo/ifc_rs/src/parser/string.rs:11-19 [UMLAUTE_MAP]: code points of the
    seven letters with the four hexadecimal digits of their escape sequence. *)
Definition umlaut_map : list (N * text) :=
  [ (196, lit "\X2\00C4\X0\")
  ; (228, lit "\X2\00E4\X0\")
  ; (214, lit "\X2\00D6\X0\")
  ; (246, lit "\X2\00F6\X0\")
  ; (220, lit "\X2\00DC\X0\")
  ; (252, lit "\X2\00FC\X0\")
  ; (223, lit "\X2\00DF\X0\") ].

(** /repo/ifc_rs/src/parser/string.rs:21-27 [translate_encode]. *)
Definition translate_encode (s : text) : text :=
  fold_left (fun v ue => replace [fst ue] (snd ue) v) umlaut_map s.

(** /repo/ifc_rs/src/parser/string.rs:29-35 [translate_decode]. *)
Definition translate_decode (s : text) : text :=
  fold_left (fun v ue => replace (snd ue) [fst ue] v) umlaut_map s.

(** /repo/ifc_rs/src/parser/string.rs:50-57 [StringPrimitive::parse];
    44-48 [From<S>] decodes. *)
Definition p_string : parser text := pmap translate_decode p_quote_word.

(** /repo/ifc_rs/src/parser/string.rs:59-63 [Display for StringPrimitive]. *)
Definition d_string (s : text) : text := lit "'" ++ translate_encode s ++ lit "'".

(** ** Enumerations *)

(** All enumeration parsers have the form
    [delimited(p_space_or_comment(), alt(variants..), p_space_or_comment())],
    e.g. /repo/ifc_rs/src/objects/walltype/type_enum.rs:76-89.  A value is the
    index of its variant; [strum] takes parsing and printing from the same
    [to_string] literal. *)
Fixpoint p_variants (i : nat) (vs : list text) : parser nat :=
  match vs with
  | [] => fail
  | v :: vs' => alt (pmap (fun _ => i) (tag v)) (p_variants (S i) vs')
  end.
Definition p_enum (vs : list text) : parser nat := surrounded (p_variants 0 vs).

(** [strum::Display] of the variant with index [i]. *)
Definition d_enum (vs : list text) (i : nat) : text := nth i vs [].

(** ** Booleans *)

(** /repo/ifc_rs/src/parser/bool.rs:8-13 [BoolPrimitive]. *)
Inductive bool3 := BTrue | BFalse | BUnknown.

(** /repo/ifc_rs/src/parser/bool.rs:15-18 [VARIANTS] and 30-42 [from_str]. *)
Definition bool_variants : list (text * bool3) :=
  [ (lit ".TRUE.", BTrue); (lit ".FALSE.", BFalse); (lit ".UNKNOWN.", BUnknown)
  ; (lit ".T.", BTrue); (lit ".F.", BFalse); (lit ".U.", BUnknown) ].

(** /repo/ifc_rs/src/parser/bool.rs:58-71 [BoolPrimitive::parse]. *)
Definition p_bool : parser bool3 :=
  surrounded (alts (map (fun kv => pmap (fun _ => snd kv) (tag (fst kv))) bool_variants)).

(** /repo/ifc_rs/src/parser/bool.rs:44-56 [Display for BoolPrimitive]. *)
Definition d_bool (b : bool3) : text :=
  match b with
  | BTrue => lit ".TRUE."
  | BFalse => lit ".FALSE."
  | BUnknown => lit ".UNKNOWN."
  end.

(** ** Lists and optional parameters *)

(** /repo/ifc_rs/src/parser/list.rs:26-38 [IfcList::parse]. *)
Definition p_list {A} (p : parser A) : parser (list A) :=
  tag (lit "(") ;;;
  pmap fst
    (repeat_till (a <- p ;; surrounded (opt (tag (lit ","))) ;;; ret a) (tag (lit ")"))).

(** [itertools::join(",")] used at /repo/ifc_rs/src/parser/list.rs:45. *)
Fixpoint join (sep : text) (l : list text) : text :=
  match l with
  | [] => []
  | [x] => x
  | x :: l' => x ++ sep ++ join sep l'
  end.

(** /repo/ifc_rs/src/parser/list.rs:40-48 [Display for IfcList]. *)
Definition d_list {A} (d : A -> text) (l : list A) : text :=
  lit "(" ++ join (lit ",") (map d l) ++ lit ")".

(** /repo/ifc_rs/src/parser/optional.rs:10-14 [OptionalParameter]. *)
Inductive optional (A : Type) := Omitted | Inherited | Custom (a : A).
Arguments Omitted {A}.
Arguments Inherited {A}.
Arguments Custom {A} a.

(** /repo/ifc_rs/src/parser/optional.rs:67-76 and
    /repo/ifc_rs/src/parser/place_holder.rs:16-20, 35-39.  [fallback] is
    [T::fallback()], by default [fail] (/repo/ifc_rs/src/parser/mod.rs:39-44). *)
Definition p_optional {A} (p : parser A) (fallback : parser (optional A))
  : parser (optional A) :=
  alt (pmap (fun _ => Omitted) (tag (lit "$")))
 (alt (pmap (fun _ => Inherited) (tag (lit "*")))
 (alt (pmap Custom p) fallback)).

(** /repo/ifc_rs/src/parser/optional.rs:78-86, place_holder.rs:22-26, 41-45. *)
Definition d_optional {A} (d : A -> text) (o : optional A) : text :=
  match o with
  | Omitted => lit "$"
  | Inherited => lit "*"
  | Custom a => d a
  end.

(** ** Time stamps *)

(** Seconds accepted by [chrono::DateTime::from_timestamp(i, 0)] (assumed
    chrono 0.4 range: years -262143 to 262142). *)
Definition ts_min : Z := (-8334601228800)%Z.
Definition ts_max : Z := 8210266876799%Z.

(** /repo/ifc_rs/src/parser/timestamp.rs:22-29 [IfcTimestamp::parse]; the
    [unwrap] panics when chrono rejects the number of seconds. *)
Definition p_timestamp : parser Z :=
  pmap_unwrap (fun i => if in_range ts_min ts_max i then Some i else None) p_int.

(** /repo/ifc_rs/src/parser/timestamp.rs:31-35 [Display for IfcTimestamp]. *)
Definition d_timestamp (z : Z) : text := show_Z z.

(** ** Unknown entities *)

(** /repo/ifc_rs/src/parser/dummy.rs:16-27 [Dummy::parse]. *)
Definition p_dummy : parser text :=
  pmap fst (repeat_till any (surrounded (tag (lit ";")))).

(** /repo/ifc_rs/src/parser/dummy.rs:29-33 [Display for Dummy]. *)
Definition d_dummy (s : text) : text := s ++ lit ";".
