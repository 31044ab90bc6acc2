(** Specification of what the builder stores of the arguments of a call. *)

From Coq Require Import String List NArith Bool.
From Verif Require Import Base Prims Float Arith Kind Types Schema Entity DataMap Builder BuilderRun BuilderSpec.
Import ListNotations.
Open Scope N_scope.

(** An object with some of its attributes: number and value of each. *)
Definition said := (N * kind * list (nat * val))%type.

Definition says (m : dmap) (f : said) : Prop :=
  let '(n, k, al) := f in
  exists l, lookup m n = Some (Ent k l) /\ Forall (fun iv => nth_error l (fst iv) = Some (snd iv)) al.

Definition named (n : N) (k : kind) (name : text) : said := (n, k, [(2%nat, VStr name)]).

(** What a call says about the objects with the ids it returns: the name is the third
    attribute of everything with an identifier, the predefined type of a type the tenth. *)
Definition call_given (c : call) : list said :=
  match c with
  | (_, ONewSite name _, [n]) => [named n KSite name]
  | (_, ONewBuilding name _, [n]) => [named n KBuilding name]
  | (_, ONewStorey name _, [n]) => [named n KStorey name]
  | (_, OMaterial name, [n]) => [(n, KMaterial, [(0%nat, VStr name)])]
  | (_, OLayer _ l, [n]) => [(n, KMaterialLayer, combine (seq 1 (length (tl l))) (tl l))]
  | (_, OLayerSet l, [n]) => [(n, KMaterialLayerSet, [(0%nat, VList (map VId l))])]
  | (_, OUsage s d e f, [n]) =>
      [(n, KMaterialLayerSetUsage, [(0%nat, VId s); (1%nat, VEnum d); (2%nat, VEnum e); (3%nat, VReal f)])]
  | (_, OConstituent _ name, [n]) => [(n, KMaterialConstituent, [(0%nat, VStr name)])]
  | (_, OConstituentSet l, [n]) => [(n, KMaterialConstituentSet, [(2%nat, VList (map VId l))])]
  | (_, OType c _ name i, [n]) => [(n, type_kind c, [(2%nat, VStr name); (9%nat, VEnum i)])]
  | (_, OWindowType name i j, [n]) => [(n, KWindowType, [(2%nat, VStr name); (9%nat, VEnum i); (10%nat, VEnum j)])]
  | (_, OSpaceType name i, [n]) => [(n, KSpaceType, [(2%nat, VStr name); (9%nat, VEnum i)])]
  | (_, OWall _ _ name _ _, [n]) => [named n KWall name]
  | (_, OSlab _ _ name _ _, [n]) => [named n KSlab name]
  | (_, ORoof _ _ name _ _, [n]) => [named n KRoof name]
  | (_, OShading _ _ name _ _ _, [n]) => [named n KShadingDevice name]
  | (_, OSpace _ name _ _ _, [n]) => [named n KSpace name]
  | (_, OWallOpening name _ _ _ _, [n]) | (_, OSlabOpening name _, [n]) => [named n KOpeningElement name]
  | (_, OWallWindow _ _ name _ _ _ _, [n; w]) | (_, OSlabWindow _ _ name _, [n; w]) =>
      [named n KOpeningElement (lit "OpeningElementOfWindow" ++ name); named w KWindow name]
  | (_, OProperty name v u, [n]) =>
      [(n, KPropertySingleValue,
        [(0%nat, VStr name); (2%nat, v); (3%nat, match u with Some k => VId k | None => VOmit end)])]
  | _ => []
  end.

(** Layers and constituents have a material of their own: number of the attribute and
    name of the material. *)
Definition call_material (c : call) : list (N * nat * text) :=
  match c with
  | (_, OLayer name (_ :: _), [n]) => [(n, 0%nat, name)]
  | (_, OConstituent name _, [n]) => [(n, 2%nat, name)]
  | _ => []
  end.
Definition made_of (m : dmap) (q : N * nat * text) : Prop :=
  let '(n, i, name) := q in
  exists k l u, lookup m n = Some (Ent k l) /\ nth_error l i = Some (VId u) /\
    says m (u, KMaterial, [(0%nat, VStr name)]).

(** ** Property sets *)

(** The property set under construction: its name and its properties. *)
Definition sheet_after (t : option (text * list N)) (c : call) : option (text * list N) :=
  match c with
  | (_, OWallProps name, _) | (_, OSet name, _) => Some (name, [])
  | (_, OProperty _ _ _, [n]) => match t with Some (name, ps) => Some (name, ps ++ [n]) | None => None end
  | (_, ODrop, _) | (_, OFinishSet, _) => None
  | _ => t
  end.
Definition sheet (cs : list call) : option (text * list N) := fold_left sheet_after cs None.

(** The property set [n] with a name and properties. *)
Definition set_of (n : N) (t : text * list N) : said :=
  (n, KPropertySet, [(2%nat, VStr (fst t)); (4%nat, VList (map VId (snd t)))]).

(** The set that is finished by the call [c] after the calls [cs]. *)
Definition set_given (cs : list call) (c : call) : list said :=
  match c, sheet cs with
  | (_, OFinishSet, [n]), Some t => [set_of n t]
  | _, _ => []
  end.

(** Calls that give properties to an object: those that relate a set to it, and those
    that finish the properties of a wall, the second of five builders alive. *)
Definition describes (c : call) : bool :=
  match c with
  | (_, ORelate _ _, _) | ([_; _; _; _; _], ODrop, _) => true
  | _ => false
  end.

(** The sets and objects that the calls [ds], made after the calls [cs], have to relate,
    in this order. *)
Inductive described (m : dmap) : list call -> list call -> list (N * N) -> Prop :=
| described_nil cs : described m cs [] []
| described_relate cs s set obj a ds l :
    described m (cs ++ [(s, ORelate set obj, a)]) ds l ->
    described m cs ((s, ORelate set obj, a) :: ds) ((set, obj) :: l)
| described_wall cs z h st b s a t n ds l :
    sheet cs = Some t -> says m (set_of n t) ->
    described m (cs ++ [([z; h; st; b; s], ODrop, a)]) ds l ->
    described m cs (([z; h; st; b; s], ODrop, a) :: ds) ((n, h) :: l)
| described_other cs c ds l :
    describes c = false -> described m (cs ++ [c]) ds l -> described m cs (c :: ds) l.

(** The elevation of a storey is the value of the only property of a set of properties
    of its own. *)
Definition call_height (c : call) : list f64 :=
  match c with (_, ONewStorey _ e, _) => [e] | _ => [] end.
Definition height_told (m : dmap) (e : f64) : Prop :=
  exists q s, says m (q, KPropertySingleValue, [(0%nat, VStr (lit "Storey Height")); (2%nat, VMeasure 2 (VReal e))]) /\
    says m (set_of s (lit "StoreyProperties", [q])).

(** ** The project *)

(** A unit without a prefix, by what is printed for its type and its name. *)
Definition unit_told (m : dmap) (u : N) (ty name : text) : Prop :=
  exists a b, says m (u, KSiUnit, [(1%nat, VEnum a); (2%nat, VOmit); (3%nat, VEnum b)]) /\
    nth_error enum_IfcUnitEnum a = Some ty /\ nth_error enum_IfcUnitName b = Some name.

(** What the project says of the arguments of the builder: who owns it with which
    application; lengths are in metres, angles in radians, times in seconds. *)
Definition project_told (m : dmap) (i : info) : Prop :=
  exists pr oh po app per org dev ua u1 u2 u3,
    says m (pr, KProject, [(1%nat, VId oh); (2%nat, VStr (n_project i)); (8%nat, VId ua)]) /\
    says m (oh, KOwnerHistory, [(0%nat, VId po); (1%nat, VId app)]) /\
    says m (po, KPersonAndOrganization, [(0%nat, VId per); (1%nat, VId org)]) /\
    lookup m per = Some (Ent KPerson (n_person i)) /\
    says m (org, KOrganization, [(1%nat, VStr (n_org i))]) /\
    says m (app, KApplication,
      [(0%nat, VId dev); (1%nat, VStr (n_version i)); (2%nat, VStr (n_app i)); (3%nat, VStr (n_short i))]) /\
    lookup m dev = Some (Ent KOrganization (n_developer i)) /\
    says m (ua, KUnitAssigment, [(0%nat, VList (map VId [u1; u2; u3]))]) /\
    unit_told m u1 (lit ".LENGTHUNIT.") (lit ".METRE.") /\
    unit_told m u2 (lit ".PLANEANGLEUNIT.") (lit ".RADIAN.") /\
    unit_told m u3 (lit ".TIMEUNIT.") (lit ".SECOND.").
