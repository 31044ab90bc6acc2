(** Model of reals: Rust [f64], its decimal reading and printing, and
    /repo/ifc_rs/src/parser/real.rs, /repo/ifc_rs/src/parser/geometry.rs.

    An [f64] is not-a-number, an infinity, or sign, integer significand and
    binary exponent.  Decimal reading ([f64::from_str]) is correctly rounded, half
    to even; [{}] prints the shortest decimal that reads back, the closest one
    among those; [{:.14E}] prints 15 significant digits, half to even.  These
    three are the documented behaviour of the Rust standard library and are
    assumed. *)

From Coq Require Import String Ascii List NArith ZArith Bool.
From Verif Require Import Base Prims.
Import ListNotations.
Open Scope N_scope.
Open Scope parser_scope.

(** Rust [f64] (IEEE 754 binary64).  The bits of a not-a-number are not
    modelled: it is always printed and read as [NaN]. *)
Inductive f64 :=
| FNan
| FInf (neg : bool)
| FFin (neg : bool) (m : N) (e : Z).

(** Canonical finite numbers: 53 bit significand, full unless subnormal. *)
Definition f64_ok (d : f64) : Prop :=
  match d with
  | FFin _ m e =>
      m < 2 ^ 53 /\ (-1074 <= e <= 971)%Z /\ (e = -1074 \/ 2 ^ 52 <= Z.of_N m)%Z
  | _ => True
  end.

Definition f64_is_nan (d : f64) : bool := match d with FNan => true | _ => false end.

(** ** Rounding a non-negative rational [n/d] to [f64] *)

(** [n/d * 2^-e] as a fraction. *)
Definition scale2 (n d : N) (e : Z) : N * N :=
  match e with
  | Zneg p => (n * 2 ^ Npos p, d)
  | Z0 => (n, d)
  | Zpos p => (n, d * 2 ^ Npos p)
  end.

(** Nearest integer to [n/d], half to even. *)
Definition round_half_even (n d : N) : N :=
  let q := n / d in
  let r := n mod d in
  if 2 * r <? d then q
  else if d <? 2 * r then q + 1
  else if N.even q then q else q + 1.

(** Largest [e] with [2^e <= n/d], for [n] and [d] positive. *)
Definition ilog2 (n d : N) : Z :=
  let l := (Z.of_N (N.log2 n) - Z.of_N (N.log2 d))%Z in
  let (n', d') := scale2 n d l in
  if d' <=? n' then l else (l - 1)%Z.

(** Correctly rounded [f64] of [n/d] with the given sign. *)
Definition round_f64 (neg : bool) (n d : N) : f64 :=
  if n =? 0 then FFin neg 0 (-1074)
  else
    let e := Z.max (-1074) (ilog2 n d - 52) in
    let (n', d') := scale2 n d e in
    let m := round_half_even n' d' in
    let '(m, e) := if m =? 2 ^ 53 then (2 ^ 52, (e + 1)%Z) else (m, e) in
    if (971 <? e)%Z then FInf neg else FFin neg m e.

(** ** Decimal numbers [q * 10^x] *)

(** [q * 10^x] as a fraction. *)
Definition dec_frac (q : N) (x : Z) : N * N :=
  match x with
  | Zneg p => (q, 10 ^ Npos p)
  | Z0 => (q, 1)
  | Zpos p => (q * 10 ^ Npos p, 1)
  end.

(** Reading [q * 10^x]. *)
Definition f64_of_dec (neg : bool) (q : N) (x : Z) : f64 :=
  let (n, d) := dec_frac q x in round_f64 neg n d.

(** ** Reading: winnow [float] *)

Definition is_sign (c : N) : bool := (c =? 43) || (c =? 45).

(** [opt(one_of(['+', '-']))]: is the number negative? *)
Definition p_sign : parser bool :=
  pmap (fun o => match o with Some c => c =? 45 | None => false end) (opt (one_of is_sign)).

(** [(digit1, opt(('.', opt(digit1))))] or [('.', digit1)]: digits before and
    after the point. *)
Definition p_mantissa : parser (text * text) :=
  alt (i <- take_while1 is_digit ;;
       f <- opt (tag (lit ".") ;;; f <- opt (take_while1 is_digit) ;;
                 ret (match f with Some f => f | None => [] end)) ;;
       ret (i, match f with Some f => f | None => [] end))
      (tag (lit ".") ;;; f <- take_while1 is_digit ;; ret ([], f)).

(** [opt((one_of(['e', 'E']), opt(one_of(['+', '-'])), cut_err(digit1)))]. *)
Definition p_exponent : parser Z :=
  pmap (fun o => match o with Some z => z | None => 0%Z end)
    (opt (one_of (fun c => (c =? 101) || (c =? 69)) ;;;
          neg <- p_sign ;;
          ds <- cut_err (take_while1 is_digit) ;;
          ret (let v := Z.of_N (digits_value ds) in if neg then Z.opp v else v))).

(** [recognize_float] followed by [f64::from_str]. *)
Definition p_decimal : parser f64 :=
  neg <- p_sign ;;
  m <- p_mantissa ;;
  x <- p_exponent ;;
  ret (f64_of_dec neg (digits_value (fst m ++ snd m)) (x - Z.of_nat (length (snd m)))).

(** ASCII lower case. *)
Definition to_lower (c : N) : N := if (65 <=? c) && (c <=? 90) then c + 32 else c.

(** winnow [Caseless(t)] for a lower case [t]. *)
Fixpoint strip_prefix_caseless (t s : text) : option text :=
  match t with
  | [] => Some s
  | c :: t' =>
      match s with
      | [] => None
      | d :: s' => if c =? to_lower d then strip_prefix_caseless t' s' else None
      end
  end.
Definition tag_caseless (t : text) : parser unit :=
  fun s => match strip_prefix_caseless t s with
           | Some r => ROk tt r
           | None => RBack
           end.

(** winnow [ascii::float], used by /repo/ifc_rs/src/parser/real.rs:15-22. *)
Definition p_real : parser f64 :=
  alt p_decimal
 (alt (pmap (fun _ => FNan) (tag_caseless (lit "nan")))
 (alt (neg <- p_sign ;; tag_caseless (lit "infinity") ;;; ret (FInf neg))
      (neg <- p_sign ;; tag_caseless (lit "inf") ;;; ret (FInf neg)))).

(** ** Printing *)

(** Largest [k] with [10^k <= n/d], for [n] and [d] positive: the difference of
    the numbers of decimal digits, corrected by one. *)
Definition ilog10 (n d : N) : Z :=
  let k := (Z.of_nat (length (show_N n)) - Z.of_nat (length (show_N d)))%Z in
  let (a, b) := dec_frac 1 k in
  if a * d <=? n * b then k else (k - 1)%Z.

(** [n/d * 10^s] as a fraction. *)
Definition scale10 (n d : N) (s : Z) : N * N :=
  match s with
  | Zneg p => (n, d * 10 ^ Npos p)
  | Z0 => (n, d)
  | Zpos p => (n * 10 ^ Npos p, d)
  end.

(** Magnitude [m * 2^e] as a fraction. *)
Definition mag (m : N) (e : Z) : N * N :=
  match e with
  | Zneg p => (m, 2 ^ Npos p)
  | Z0 => (m, 1)
  | Zpos p => (m * 2 ^ Npos p, 1)
  end.

Definition same_mag (d : f64) (m : N) (e : Z) : bool :=
  match d with
  | FFin _ m' e' => (m' =? m) && (e' =? e)%Z
  | _ => false
  end.

(** Decimal with [nd] significant digits that reads back as [m * 2^e], if any:
    the neighbour below or above, the closer one if both do (the upper one when
    equally close). *)
Definition try_digits (m : N) (e : Z) (k : Z) (nd : nat) : option (N * Z) :=
  let s := (Z.of_nat nd - 1 - k)%Z in
  let (n, d) := mag m e in
  let (n', d') := scale10 n d s in
  let q := n' / d' in
  let r := n' mod d' in
  let lo := same_mag (f64_of_dec false q (- s)) m e in
  let hi := same_mag (f64_of_dec false (q + 1) (- s)) m e in
  if lo && hi then (if d' <=? 2 * r then Some (q + 1, (- s)%Z) else Some (q, (- s)%Z))
  else if lo then Some (q, (- s)%Z)
  else if hi then Some (q + 1, (- s)%Z)
  else None.

(** First success for [nd], [nd + 1], ...; seventeen digits always suffice
    (proved in FloatFacts.v), so the default is never reached. *)
Fixpoint shortest_from (m : N) (e : Z) (k : Z) (nd fuel : nat) : N * Z :=
  match try_digits m e k nd with
  | Some r => r
  | None =>
      match fuel with
      | O => (0, 0%Z)
      | S f => shortest_from m e k (S nd) f
      end
  end.

Definition shortest (m : N) (e : Z) : N * Z :=
  let (n, d) := mag m e in
  shortest_from m e (ilog10 n d) 1 16.

(** Fractional digits without trailing zeros. *)
Fixpoint strip_zeros (s : text) : text :=
  match s with
  | [] => []
  | c :: r =>
      match strip_zeros r with
      | [] => if c =? 48 then [] else [c]
      | r' => c :: r'
      end
  end.

(** [n] with leading zeros, at least [w] digits. *)
Definition pad (w : nat) (n : N) : text :=
  let ds := show_N n in repeat 48 (w - length ds) ++ ds.

(** [q * 10^x] in positional notation, without exponent. *)
Definition plain_decimal (q : N) (x : Z) : text :=
  match x with
  | Zneg p =>
      let w := 10 ^ Npos p in
      let f := strip_zeros (pad (N.to_nat (Npos p)) (q mod w)) in
      match f with
      | [] => show_N (q / w)
      | _ => show_N (q / w) ++ lit "." ++ f
      end
  | Z0 => show_N q
  | Zpos p => show_N (q * 10 ^ Npos p)
  end.

Definition minus (neg : bool) : text := if neg then lit "-" else [].

(** Rust [format!("{}", d)]. *)
Definition show_f64 (d : f64) : text :=
  match d with
  | FNan => lit "NaN"
  | FInf neg => minus neg ++ lit "inf"
  | FFin neg m e =>
      minus neg ++
      (if m =? 0 then lit "0"
       else let (q, x) := shortest m e in plain_decimal q x)
  end.

(** Rust [f64::fract]: exact, zero for integers, not-a-number for infinities. *)
Definition fract (d : f64) : f64 :=
  match d with
  | FNan => FNan
  | FInf _ => FNan
  | FFin neg m e =>
      match e with
      | Zneg p =>
          let r := m mod 2 ^ Npos p in
          if r =? 0 then FFin false 0 (-1074) else round_f64 neg r (2 ^ Npos p)
      | _ => FFin false 0 (-1074)
      end
  end.

(** [x == 0.0]. *)
Definition is_zero (d : f64) : bool :=
  match d with FFin _ m _ => m =? 0 | _ => false end.

(** /repo/ifc_rs/src/parser/real.rs:120-126: more than ten non-zero digits in the
    printed fraction. *)
Definition is_scientific (d : f64) : bool :=
  Nat.ltb 10 (length (filter (fun c => is_digit c && negb (c =? 48)) (show_f64 (fract d)))).

(** Fifteen significant digits of [m * 2^e] and the decimal exponent of the first
    one, half to even. *)
Definition digits15 (m : N) (e : Z) : N * Z :=
  let (n, d) := mag m e in
  let k := ilog10 n d in
  let (n', d') := scale10 n d (14 - k) in
  let q := round_half_even n' d' in
  if q =? 10 ^ 15 then (10 ^ 14, (k + 1)%Z) else (q, k).

(** Rust [format!("{:.14E}", d)]. *)
Definition show_sci (d : f64) : text :=
  match d with
  | FNan => lit "NaN"
  | FInf neg => minus neg ++ lit "inf"
  | FFin neg m e =>
      minus neg ++
      (let '(q, k) := if m =? 0 then (0, 0%Z) else digits15 m e in
       show_N (q / 10 ^ 14) ++ lit "." ++ pad 14 (q mod 10 ^ 14) ++ lit "E" ++ show_Z k)
  end.

(** /repo/ifc_rs/src/parser/real.rs:118-146 [format_real_primitive],
    [format_sci_double], [format_non_sci_double]. *)
Definition d_real (d : f64) : text :=
  if is_scientific d then show_sci d
  else show_f64 d ++ (if is_zero (fract d) then lit "." else []).

(** ** Vectors *)

(** /repo/ifc_rs/src/parser/geometry.rs:8-19 [p_vec2]. *)
Definition p_vec2 : parser (f64 * f64) :=
  surrounded (tag (lit "(")) ;;;
  x <- p_real ;; p_comma ;;; y <- p_real ;;
  surrounded (tag (lit ")")) ;;; ret (x, y).

(** /repo/ifc_rs/src/parser/geometry.rs:21-34 [p_vec3]. *)
Definition p_vec3 : parser (f64 * f64 * f64) :=
  surrounded (tag (lit "(")) ;;;
  x <- p_real ;; p_comma ;;; y <- p_real ;; p_comma ;;; z <- p_real ;;
  surrounded (tag (lit ")")) ;;; ret (x, y, z).

(** /repo/ifc_rs/src/parser/real.rs:57-66 [Display for IfcDVec2]. *)
Definition d_vec2 (v : f64 * f64) : text :=
  lit "(" ++ d_real (fst v) ++ lit "," ++ d_real (snd v) ++ lit ")".

(** /repo/ifc_rs/src/parser/real.rs:93-103 [Display for IfcDVec3]. *)
Definition d_vec3 (v : f64 * f64 * f64) : text :=
  lit "(" ++ d_real (fst (fst v)) ++ lit "," ++ d_real (snd (fst v)) ++ lit "," ++
  d_real (snd v) ++ lit ")".
