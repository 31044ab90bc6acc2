(** Specification of data sections and of finite maps. *)

From Coq Require Import String Ascii List NArith ZArith Bool Sorted.
From Verif Require Import Base Prims Spec Kind Types Layout WellTyped Schema Entity EntitySpec DataMap.
Import ListNotations.
Open Scope N_scope.

(** Lines that stay unknown: no beginning of such a line followed by a semicolon is
    an object of a known kind (the keyword may be known, the attributes are not),
    and the line ends at the semicolon after it.  [opaque] texts are of this form. *)
Definition stays (s : text) : Prop :=
  (forall rest, no_gap (s ++ lit ";" ++ rest)) /\ ends_at s /\
  (forall k rest, p_kind k (s ++ lit ";" ++ rest) = RBack).

(** Objects that can be printed. *)
Definition wf_obj (e : entity) : Prop :=
  match e with
  | Ent k l => wf_ent k l
  | EDummy s => stays s
  end.

(** Objects that survive exactly. *)
Definition exact_obj (e : entity) : bool :=
  match e with
  | Ent _ l => forallb exact_val l
  | EDummy _ => true
  end.

(** The texts of an object. *)
Definition lay_obj (e : entity) (txt : text) : Prop :=
  match e with
  | Ent k l => lay_entity k l txt
  | EDummy s => txt = s ++ lit ";"
  end.

(** A definition that can be printed: the id is a 64-bit number. *)
Definition wf_def (p : N * entity) : Prop := fst p <= max_usize /\ wf_obj (snd p).

(** The texts of a sequence of definitions: gaps around ids, '=' and objects. *)
Inductive lay_defs : list (N * entity) -> text -> Prop :=
| lay_defs_nil : lay_defs [] []
| lay_defs_cons n e g1 g2 txt g3 l txt' :
    gap g1 -> gap g2 -> gap g3 -> lay_obj e txt -> lay_defs l txt' ->
    lay_defs ((n, e) :: l)
      (d_id n ++ g1 ++ lit "=" ++ g2 ++ txt ++ g3 ++ txt').

(** The texts of a data section. *)
Definition lay_data (l : list (N * entity)) (s : text) : Prop :=
  exists g1 txt, gap g1 /\ lay_defs l txt /\
    s = lit "DATA;" ++ g1 ++ txt ++ lit "ENDSEC;".

(** ** Finite maps *)

(** The keys of a list of pairs increase strictly. *)
Definition increasing (m : list (N * entity)) : Prop := StronglySorted N.lt (map fst m).

(** The last definition of [n] in [l]. *)
Definition last_def (l : list (N * entity)) (n : N) (r : option entity) : Prop :=
  match r with
  | Some e => exists a b, l = a ++ (n, e) :: b /\ ~ In n (map fst b)
  | None => ~ In n (map fst l)
  end.

(** Mathematical finite maps and their operations. *)
Definition fmap := N -> option entity.
Definition fempty : fmap := fun _ => None.
Definition fset (f : fmap) (n : N) (r : option entity) : fmap :=
  fun k => if k =? n then r else f k.

(** What the operations of the data map do to a mathematical map, and the answer;
    as a relation. *)
Definition fstep (f : fmap) (o : op) (f' : fmap) (a : answer) : Prop :=
  match o with
  | OpNew e => exists n, a = AId n /\ 1 <= n <= max_usize /\ (forall k, f k <> None -> k < n) /\
                 (n = 1 \/ f (n - 1) <> None) /\ (forall k, f' k = fset f n (Some e) k)
  | OpInsert n e => a = AObj (f n) /\ forall k, f' k = fset f n (Some e) k
  | OpIfAbsent n e => a = AUnit /\
      forall k, f' k = match f n with Some _ => f k | None => fset f n (Some e) k end
  | OpRemove n => a = AObj (f n) /\ forall k, f' k = fset f n None k
  | OpUpdate k n g => a = AUnit /\ exists l, f n = Some (Ent k l) /\
      forall j, f' j = fset f n (Some (Ent k (g l))) j
  end.

(** A program of operations. *)
Inductive frun : fmap -> list op -> fmap -> list answer -> Prop :=
| frun_nil f f' : (forall k, f' k = f k) -> frun f [] f' []
| frun_cons f o g a os f' l : fstep f o g a -> frun g os f' l -> frun f (o :: os) f' (a :: l).

(** All ids are 64-bit numbers. *)
Definition in_range_map (m : dmap) : Prop := forall k, In k (map fst m) -> k <= max_usize.

Definition op_ok (o : op) : Prop :=
  match o with OpInsert n _ | OpIfAbsent n _ => n <= max_usize | _ => True end.

