(** Specification of the accuracy of saving and loading: what may become of the numbers of a
    model, and of the shapes drawn with them. *)

From Coq Require Import String Ascii List NArith ZArith Bool.
From Coq Require Import QArith Qpower Qabs.
From Verif Require Import Base Spec Float Arith Kind Types Entity DataMap Builder FormSpec ArithSpec DirSpec GeoSpec.
Import ListNotations.

Open Scope Q_scope.

(** ** Numbers *)

(** The same up to [10^-14] of itself, with the same sign; what is not a finite number is the
    same. *)
Definition close_real (d d' : f64) : Prop :=
  match d, d' with
  | FNan, FNan => True
  | FInf s, FInf s' => s = s'
  | FFin s _ _, FFin s' _ _ =>
      s = s' /\ finite d' /\ Qabs (fv d' - fv d) <= inject_Z 10 ^ (-14) * Qabs (fv d)
  | _, _ => False
  end.

(** ** Values and models *)

(** Texts may differ if they look like an escape sequence (C04). *)
Inductive close_val : val -> val -> Prop :=
| close_text s s' : s' = s \/ occurs (lit "X2\0") s -> close_val (VStr s) (VStr s')
| close_number d d' : close_real d d' -> close_val (VReal d) (VReal d')
| close_vector l l' : Forall2 close_real l l' -> close_val (VVec l) (VVec l')
| close_int z : close_val (VInt z) (VInt z)
| close_bool b : close_val (VBool b) (VBool b)
| close_guid g : close_val (VGuid g) (VGuid g)
| close_enum i : close_val (VEnum i) (VEnum i)
| close_id n : close_val (VId n) (VId n)
| close_measure i c c' : close_val c c' -> close_val (VMeasure i c) (VMeasure i c')
| close_omit : close_val VOmit VOmit
| close_inherited : close_val VInh VInh
| close_list l l' : Forall2 close_val l l' -> close_val (VList l) (VList l')
| close_object l l' : Forall2 close_val l l' -> close_val (VEnt l) (VEnt l').

Inductive close_entity : entity -> entity -> Prop :=
| close_known k l l' : Forall2 close_val l l' -> close_entity (Ent k l) (Ent k l')
| close_unknown s : close_entity (EDummy s) (EDummy s).

(** The same ids, of the same kinds, with values that are close. *)
Definition close_model (m m' : dmap) : Prop :=
  Forall2 (fun p q => fst p = fst q /\ close_entity (snd p) (snd q)) m m'.

(** ** Directions *)

(** The squares of the components add up to [1 +- 2^-45]. *)
Definition nearly_unit (v : vec3) : Prop :=
  Forall finite (coords v) /\ Qabs (sum_sq (coords v) - 1) <= inject_Z 2 ^ (-45).

Definition nearly_unit_directions (m : dmap) : Prop :=
  forall n l, lookup m n = Some (Ent KDirection3D l) -> exists v, l = [vec v] /\ nearly_unit v.

(** [d] has length one and points where [a] points: up to [2^-45] it is [a] times a
    positive factor. *)
Definition nearly_points_to (a : qvec) (d : vec3) : Prop :=
  nearly_unit d /\
  exists k, 0 < k /\
    let '(x, y, z) := a in let '(u, v, w) := d in
    Qabs (fv u - k * x) <= inject_Z 2 ^ (-45) /\
    Qabs (fv v - k * y) <= inject_Z 2 ^ (-45) /\
    Qabs (fv w - k * z) <= inject_Z 2 ^ (-45).

(** ** Shapes *)

Definition close2 (a b : vec2) : Prop := close_real (fst a) (fst b) /\ close_real (snd a) (snd b).
Definition close3 (a b : vec3) : Prop := Forall2 close_real (coords a) (coords b).

Definition nearly_outlined (m : dmap) (p : N) (f : outline) : Prop :=
  match f with
  | Rectangle a b => exists ax c a' b' z,
      lookup m p = Some (Ent KRectangleProfileDef [VEnum 1; VOmit; VId ax; VReal a'; VReal b']) /\
      lookup m ax = Some (Ent KAxis2D [VId c; VOmit]) /\
      lookup m c = Some (Ent KPoint2D [vec_2 z]) /\
      close_real a a' /\ close_real b b' /\ close2 (fmul a f_half, fmul b f_half) z
  | Flat l => exists c q l',
      lookup m p = Some (Ent KArbitraryClosedProfileDef [VEnum 1; VOmit; VId c]) /\
      lookup m c = Some (Ent KIndexedPolyCurve [VId q; VOmit; VOmit]) /\
      lookup m q = Some (Ent KPointList2D [VList (map vec_2 l'); VOmit]) /\ Forall2 close2 l l'
  | Spatial l => exists c q l',
      lookup m p = Some (Ent KArbitraryClosedProfileDef [VEnum 1; VOmit; VId c]) /\
      lookup m c = Some (Ent KIndexedPolyCurve [VId q; VOmit; VOmit]) /\
      lookup m q = Some (Ent KPointList3D [VList (map vec l'); VOmit]) /\ Forall2 close3 l l'
  end.

(** The representation [r] is a swept solid along [dir'] that is close to the given form. *)
Definition nearly_body (m : dmap) (r : N) (f : form) (dir' : vec3) : Prop :=
  let '(out, dir, len) := f in
  exists ctx s p d len',
    lookup m r = Some (Ent KShapeRepresentation [VId ctx; VEnum 8; VEnum 19; VList [VId s]]) /\
    lookup m s = Some (Ent KExtrudedAreaSolid [VId p; VOmit; VId d; VReal len']) /\
    lookup m d = Some (Ent KDirection3D [vec dir']) /\
    close3 dir dir' /\ close_real len len' /\ nearly_outlined m p out.

Definition nearly_axis (m : dmap) (r : N) (v : vec3) : Prop :=
  exists ctx l a b z v',
    lookup m r = Some (Ent KShapeRepresentation [VId ctx; VEnum 3; VEnum 3; VList [VId l]]) /\
    lookup m l = Some (Ent KPolyLine [VList [VId a; VId b]]) /\
    lookup m a = Some (Ent KPoint3D [vec z]) /\ close3 v_zero z /\
    lookup m b = Some (Ent KPoint3D [vec v']) /\ close3 v v'.

Definition nearly_depicts (m : dmap) (rs : list N) (f : form) (ax : option vec3) (dir' : vec3) : Prop :=
  match ax with
  | None => exists r, rs = [r] /\ nearly_body m r f dir'
  | Some v => exists r x, rs = [r; x] /\ nearly_body m r f dir' /\ nearly_axis m x v
  end.

(** [r] shows [r'], through any number of mappings. *)
Inductive shows (m : dmap) : N -> N -> Prop :=
| shows_itself r : shows m r r
| shows_mapped r r1 r' ctx i it mp tr ax :
    lookup m r = Some (Ent KShapeRepresentation [VId ctx; VEnum i; VEnum 28; VList [VId it]]) ->
    lookup m it = Some (Ent KMappedItem [VId mp; VId tr]) ->
    lookup m mp = Some (Ent KRepresentationMap [VId ax; VId r1]) ->
    shows m r1 r' -> shows m r r'.
