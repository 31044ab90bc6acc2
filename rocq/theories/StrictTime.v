(** A reader of time stamps for examples; chrono reads more than this. *)

From Coq Require Import String Ascii List NArith ZArith Bool.
From Verif Require Import Base Prims DataMap Header.
Import ListNotations.
Open Scope N_scope.

(** Two decimal digits. *)
Definition dig2 (a b : N) : option N :=
  if is_digit a && is_digit b then Some ((a - 48) * 10 + (b - 48)) else None.

(** Reads [yyyy-mm-ddThh:mm:ssZ] only. *)
Definition strict_rfc3339 (s : text) : option stamp :=
  match s with
  | [y1; y2; y3; y4; c1; m1; m2; c2; d1; d2; c3; h1; h2; c4; i1; i2; c5; s1; s2; c6] =>
      if (c1 =? 45) && (c2 =? 45) && (c3 =? 84) && (c4 =? 58) && (c5 =? 58) && (c6 =? 90) then
        match dig2 y1 y2, dig2 y3 y4, dig2 m1 m2, dig2 d1 d2, dig2 h1 h2, dig2 i1 i2, dig2 s1 s2 with
        | Some ya, Some yb, Some mo, Some da, Some ho, Some mi, Some se =>
            if (1 <=? mo) && (mo <=? 12) && (1 <=? da) && (da <=? 31) && (ho <=? 23) && (mi <=? 59) && (se <=? 59)
            then Some (mk_stamp (Z.of_N (ya * 100 + yb)) mo da ho mi se 0) else None
        | _, _, _, _, _, _, _ => None
        end
      else None
  | _ => None
  end.

(** No letters above 127 and this reader. *)
Definition env0 : env := mk_env (fun _ => false) strict_rfc3339.
