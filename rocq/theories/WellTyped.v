(** Specification: which values an attribute type has, which attribute types are
    sensible, and what a value becomes by printing and reading. *)

From Coq Require Import String Ascii List NArith ZArith Bool.
From Verif Require Import Base Prims Guid Float Kind Types.
Import ListNotations.
Open Scope N_scope.

(** Boolean form of [f64_ok]. *)
Definition f64_okb (d : f64) : bool :=
  match d with
  | FFin _ m e =>
      (m <? 2 ^ 53) && ((-1074 <=? e) && (e <=? 971))%Z &&
      ((e =? -1074) || (2 ^ 52 <=? Z.of_N m))%Z
  | _ => true
  end.

(** No apostrophe. *)
Definition text_ok (s : text) : bool := negb (existsb (N.eqb 39) s).

(** Sixteen bytes. *)
Definition guid_ok (g : list N) : bool :=
  Nat.eqb (length g) 16 && forallb (fun b => b <? 256) g.

(** Days from the beginning of 1970 to the beginning of the year [y]: 365 for each year
    and one for each leap year. *)
Definition days_to (y : Z) : Z :=
  (365 * (y - 1970) + ((y - 1) / 4 - 1969 / 4) - ((y - 1) / 100 - 1969 / 100) + ((y - 1) / 400 - 1969 / 400))%Z.

(** The seconds that are dates for chrono: from the year -262143 to the year 262142. *)
Definition in_calendar (z : Z) : bool :=
  ((86400 * days_to (-262143) <=? z) && (z <? 86400 * days_to 262143))%Z.

Definition measure_ok (i : nat) (v : val) : bool :=
  match i, v with
  | 0%nat, VBool _ => true
  | 1%nat, VStr s => text_ok s
  | 2%nat, VReal d => f64_okb d
  | 3%nat, VStr s => text_ok s
  | 4%nat, VReal d => f64_okb d
  | _, _ => false
  end.

(** The values of a type that have a readable text. *)
Fixpoint wt (t : fty) (v : val) {struct t} : bool :=
  match t, v with
  | TStr, VStr s => text_ok s
  | TReal, VReal d => f64_okb d
  | TInt, VInt z => in_range i64_min i64_max z
  | TI32, VInt z => in_range i32_min i32_max z
  | TBool, VBool _ => true
  | TGuid, VGuid g => guid_ok g
  | TTime, VInt z => in_calendar z
  | TDim, VEnum i => Nat.ltb i 3
  | TVec2, VVec [x; y] => f64_okb x && f64_okb y
  | TVec3, VVec [x; y; z] => f64_okb x && f64_okb y && f64_okb z
  | TValue, VMeasure i c => measure_ok i c
  | TEnum vs, VEnum i => Nat.ltb i (length vs)
  | TRef _ _, VId n => n <=? max_usize
  | TIdOr _ _ _ _ _, VId n => n <=? max_usize
  | TIdOr _ _ _ fs _, VEnt l =>
      (fix go (fs : list fty) (l : list val) : bool :=
         match fs, l with
         | [], [] => true
         | f :: fs', v :: l' => wt f v && go fs' l'
         | _, _ => false
         end) fs l
  | TOpt _, VOmit => true
  | TOpt _, VInh => true
  | TOpt t', v => wt t' v
  | TList t', VList l => forallb (wt t') l
  | _, _ => false
  end.

Fixpoint wts (fs : list fty) (l : list val) : bool :=
  match fs, l with
  | [], [] => true
  | f :: fs', v :: l' => wt f v && wts fs' l'
  | _, _ => false
  end.

(** ** Sensible types: computable conditions on the tables *)

(** Neither text is a beginning of the other. *)
Definition incomparable (a b : text) : bool :=
  match strip_prefix a b, strip_prefix b a with
  | None, None => true
  | _, _ => false
  end.

Fixpoint pairwise {A} (f : A -> A -> bool) (l : list A) : bool :=
  match l with
  | [] => true
  | x :: l' => forallb (f x) l' && pairwise f l'
  end.

(** A character that can begin a value: not blank and none of [/ ) , $ *]. *)
Definition starter (c : N) : bool :=
  negb (is_space c) && negb (existsb (N.eqb c) (lit "/),$*")).

Definition starts_ok (s : text) : bool :=
  match s with c :: _ => starter c | [] => false end.

(** Spellings of an enumeration: each can begin a value, none begins another. *)
Definition variants_ok (vs : list text) : bool :=
  forallb starts_ok vs && pairwise incomparable vs.

(** Keywords: the same, and not beginning like an id. *)
Definition keywords_ok (kws : list text) : bool :=
  variants_ok kws && forallb (fun k => negb (hd 0 k =? 35)) kws &&
  match kws with [] => false | _ => true end.

(** Closing texts begin with a parenthesis. *)
Definition closer_ok (s : text) : bool := hd 0 s =? 41.

Definition is_opt (t : fty) : bool := match t with TOpt _ => true | _ => false end.

Fixpoint ty_ok (t : fty) : bool :=
  match t with
  | TEnum vs => variants_ok vs
  | TIdOr _ kws _ fs closer =>
      keywords_ok kws && closer_ok closer && forallb ty_ok fs &&
      match fs with [] => false | _ => true end
  | TOpt t' => negb (is_opt t') && ty_ok t'
  | TList t' => negb (is_opt t') && ty_ok t'
  | _ => true
  end.

Definition row_ok (r : row) : bool :=
  keywords_ok (row_kws r) && closer_ok (row_closer r) && forallb ty_ok (row_fields r) &&
  match row_fields r with [] => false | _ => true end.

(** ** What printing and reading makes of a value *)

Fixpoint norm_val (norm_real : f64 -> f64) (v : val) : val :=
  match v with
  | VStr s => VStr (translate_decode (translate_encode s))
  | VReal d => VReal (norm_real d)
  | VVec l => VVec (map norm_real l)
  | VMeasure 4 c => VMeasure 4 c
  | VMeasure i c => VMeasure i (norm_val norm_real c)
  | VList l => VList (map (norm_val norm_real) l)
  | VEnt l => VEnt (map (norm_val norm_real) l)
  | v => v
  end.

(** Values that survive exactly: texts without backslash, reals that are not
    printed in scientific notation (C18 says what happens to the others). *)
Fixpoint exact_val (v : val) : bool :=
  match v with
  | VStr s => negb (existsb (N.eqb 92) s)
  | VReal d => negb (is_scientific d)
  | VVec l => forallb (fun d => negb (is_scientific d)) l
  | VMeasure 4 _ => true
  | VMeasure _ c => exact_val c
  | VList l => forallb exact_val l
  | VEnt l => forallb exact_val l
  | _ => true
  end.
