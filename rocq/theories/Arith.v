(** The floating point operations the builder uses: IEEE 754 binary64 addition,
    subtraction, multiplication, division and square root, each the exact result
    rounded to nearest even, and the vector operations of [glam] made of them. *)

From Coq Require Import List NArith ZArith Bool.
From Verif Require Import Float.
Import ListNotations.
Open Scope N_scope.

Definition f_zero : f64 := FFin false 0 (-1074).
Definition f_one : f64 := FFin false 4503599627370496 (-52).
Definition f_half : f64 := FFin false 4503599627370496 (-53).

(** Sign of a number. *)
Definition f_neg (d : f64) : bool :=
  match d with FNan => false | FInf s => s | FFin s _ _ => s end.

(** Rust [-x]. *)
Definition fopp (d : f64) : f64 :=
  match d with FNan => FNan | FInf s => FInf (negb s) | FFin s m e => FFin (negb s) m e end.

(** [m * 2^e] as a multiple of [2^e0], for [e0 <= e]. *)
Definition shifted (m : N) (e e0 : Z) : Z := (Z.of_N m * 2 ^ (e - e0))%Z.

(** With sign. *)
Definition signed (s : bool) (z : Z) : Z := if s then (- z)%Z else z.

(** Rust [x + y]. *)
Definition fadd (a b : f64) : f64 :=
  match a, b with
  | FNan, _ | _, FNan => FNan
  | FInf s, FInf t => if Bool.eqb s t then FInf s else FNan
  | FInf s, _ => FInf s
  | _, FInf t => FInf t
  | FFin s m e, FFin t m' e' =>
      let e0 := Z.min e e' in
      let z := (signed s (shifted m e e0) + signed t (shifted m' e' e0))%Z in
      if (z =? 0)%Z then FFin (s && t) 0 (-1074)
      else let (n, d) := mag (Z.abs_N z) e0 in round_f64 (z <? 0)%Z n d
  end.

(** Rust [x - y]. *)
Definition fsub (a b : f64) : f64 := fadd a (fopp b).

(** Rust [x * y]. *)
Definition fmul (a b : f64) : f64 :=
  match a, b with
  | FNan, _ | _, FNan => FNan
  | FInf s, FInf t => FInf (xorb s t)
  | FInf s, FFin t m _ => if m =? 0 then FNan else FInf (xorb s t)
  | FFin s m _, FInf t => if m =? 0 then FNan else FInf (xorb s t)
  | FFin s m e, FFin t m' e' =>
      let (n, d) := mag (m * m') (e + e') in round_f64 (xorb s t) n d
  end.

(** Rust [x / y]. *)
Definition fdiv (a b : f64) : f64 :=
  match a, b with
  | FNan, _ | _, FNan => FNan
  | FInf _, FInf _ => FNan
  | FInf s, FFin t _ _ => FInf (xorb s t)
  | FFin s _ _, FInf t => FFin (xorb s t) 0 (-1074)
  | FFin s m e, FFin t m' e' =>
      if m' =? 0 then (if m =? 0 then FNan else FInf (xorb s t))
      else let (n, d) := mag m (e - e') in round_f64 (xorb s t) n (d * m')
  end.

(** Rust [x.sqrt()].  The root of [m * 2^e] with [e] even is the root of
    [m * 2^(2k)] divided by [2^(k - e/2)]; with [k = 60] its whole part has more
    than the 53 bits of the result, and the remainder only matters by being there. *)
Definition fsqrt (a : f64) : f64 :=
  match a with
  | FNan => FNan
  | FInf false => FInf false
  | FInf true => FNan
  | FFin s m e =>
      if m =? 0 then FFin s 0 (-1074)
      else if s then FNan
      else
        let (m, e) := if Z.even e then (m, e) else (2 * m, (e - 1)%Z) in
        let x := m * 2 ^ 120 in
        let r := N.sqrt x in
        let q := 2 * r + (if r * r =? x then 0 else 1) in
        let (n, d) := mag q (e / 2 - 61)%Z in round_f64 false n d
  end.

(** [glam::DVec2] and [glam::DVec3]. *)
Definition vec2 := (f64 * f64)%type.
Definition vec3 := (f64 * f64 * f64)%type.

Definition v_zero : vec3 := (f_zero, f_zero, f_zero).
Definition v_x : vec3 := (f_one, f_zero, f_zero).
Definition v_y : vec3 := (f_zero, f_one, f_zero).
Definition v_z : vec3 := (f_zero, f_zero, f_one).

(** [DVec3 + DVec3], [DVec3 - DVec3], [DVec3 * f64]. *)
Definition vadd (a b : vec3) : vec3 :=
  let '(x, y, z) := a in let '(x', y', z') := b in (fadd x x', fadd y y', fadd z z').
Definition vsub (a b : vec3) : vec3 :=
  let '(x, y, z) := a in let '(x', y', z') := b in (fsub x x', fsub y y', fsub z z').
Definition vscale (a : vec3) (k : f64) : vec3 :=
  let '(x, y, z) := a in (fmul x k, fmul y k, fmul z k).

(** [DVec3::dot]: [x*x' + y*y' + z*z'] from left to right. *)
Definition vdot (a b : vec3) : f64 :=
  let '(x, y, z) := a in let '(x', y', z') := b in
  fadd (fadd (fmul x x') (fmul y y')) (fmul z z').

(** [DVec3::cross]. *)
Definition vcross (a b : vec3) : vec3 :=
  let '(x, y, z) := a in let '(x', y', z') := b in
  (fsub (fmul y z') (fmul y' z), fsub (fmul z x') (fmul z' x), fsub (fmul x y') (fmul x' y)).

(** [DVec3::normalize]: [self * (1 / self.dot(self).sqrt())]. *)
Definition vnormalize (a : vec3) : vec3 := vscale a (fdiv f_one (fsqrt (vdot a a))).

(** [DVec2::extend]. *)
Definition vextend (a : vec2) (z : f64) : vec3 := (fst a, snd a, z).

(** [iter().sum::<f64>()]; [z] is the start of the sum, [0.0] or (in newer versions
    of the standard library) [-0.0]. *)
Definition fsum (z : f64) (l : list f64) : f64 := fold_left fadd l z.
