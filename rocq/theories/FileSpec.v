(** Specification of whole files. *)

From Coq Require Import String Ascii List NArith ZArith Bool.
From Verif Require Import Base Spec Kind Types Schema Entity EntitySpec DataMap DataSpec Header File HeaderSpec.
Import ListNotations.
Open Scope N_scope.

(** ** References of a model *)

(** Object [e] of model [m] is checked for [n] being one of [ks]. *)
Definition has_ref (m : dmap) (ks : list kind) (n : N) : Prop :=
  exists i e, In (i, e) m /\ checked_ref e ks n.

(** It is not there. *)
Definition dangling (m : dmap) : Prop := exists ks n, has_ref m ks n /\ lookup m n = None.

(** It is there and of an implemented kind that is not permitted. *)
Definition misdirected (m : dmap) : Prop :=
  exists ks n e, has_ref m ks n /\ lookup m n = Some e /\ ~ permitted ks e.

(** All references are good. *)
Definition refs_ok (m : dmap) : Prop :=
  forall ks n, has_ref m ks n -> exists e, lookup m n = Some e /\ permitted ks e.

(** The references of [e] are good in [m]. *)
Definition good_refs (m : dmap) (e : entity) : Prop :=
  forall ks k, checked_ref e ks k -> exists x, lookup m k = Some x /\ permitted ks x.

(** ** The parts of a file *)

(** A header entry with its name and what is between the parentheses. *)
Definition entry (name s : text) : Prop :=
  exists g1 body g2, gap g1 /\ gap g2 /\
    s = name ++ g1 ++ lit "(" ++ body ++ lit ")" ++ g2 ++ lit ";".

(** Definitions: each has an id and an equals sign and ends with a semicolon; a
    plane angle measure ends with its parenthesis (see C44). *)
Inductive def_texts : list N -> text -> Prop :=
| def_texts_nil g : gap g -> def_texts [] g
| def_texts_cons g1 ds g2 body ns s :
    gap g1 -> gap g2 -> ds <> [] -> Forall (fun c => 48 <= c <= 57) ds -> def_texts ns s ->
    def_texts (Prims.digits_value ds :: ns)
      (g1 ++ lit "#" ++ ds ++ g2 ++ lit "=" ++ body ++ lit ";" ++ s)
| def_texts_angle g1 ds g2 g3 body ns s :
    gap g1 -> gap g2 -> gap g3 -> ds <> [] -> Forall (fun c => 48 <= c <= 57) ds -> def_texts ns s ->
    def_texts (Prims.digits_value ds :: ns)
      (g1 ++ lit "#" ++ ds ++ g2 ++ lit "=" ++ g3 ++ lit "IFCPLANEANGLEMEASURE(" ++ body ++ lit ")" ++ s).

(** A file with definitions of the ids [ns]. *)
Definition file_text (ns : list N) (s : text) : Prop :=
  exists g0 g1 g2 e1 g3 e2 g4 e3 g5 g6 d g7 g8,
    gap g0 /\ gap g1 /\ gap g2 /\ gap g3 /\ gap g4 /\ gap g5 /\ gap g6 /\ gap g7 /\ gap g8 /\
    entry (lit "FILE_DESCRIPTION") e1 /\ entry (lit "FILE_NAME") e2 /\ entry (lit "FILE_SCHEMA") e3 /\
    def_texts ns d /\
    s = g0 ++ lit "ISO-10303-21;" ++ g1 ++ lit "HEADER;" ++ g2 ++ e1 ++ g3 ++ e2 ++ g4 ++ e3 ++ g5 ++
        lit "ENDSEC;" ++ g6 ++ lit "DATA;" ++ d ++ lit "ENDSEC;" ++ g7 ++
        lit "END-ISO-10303-21;" ++ g8.

(** ** Models that can be saved *)

Definition ifc_ok (v : env) (x : ifc) : Prop :=
  header_ok v (i_header x) /\ increasing (i_data x) /\ Forall wf_def (i_data x).

Definition exact_ifc (x : ifc) : Prop :=
  forallb (fun p => exact_obj (snd p)) (i_data x) = true.

(** The lines of [m] that are not known stay unknown. *)
Definition dummies_stay (m : dmap) : Prop := forall n s, In (n, EDummy s) m -> stays s.

(** ** Owner histories *)

(** Products, types and projects. *)
Definition rooted_kinds : list kind :=
  [ KWall; KWallType; KSlab; KSlabType; KRoof; KRoofType; KBuilding; KStorey; KSite; KOpeningElement
  ; KWindow; KWindowType; KProject; KSpace; KSpaceType; KDoor; KDoorType; KShadingDevice; KShadingDeviceType ].

(** Relations and property sets. *)
Definition relation_kinds : list kind :=
  [ KRelAggregates; KRelAssociatesMaterial; KRelContainedInSpatialStructure; KRelDeclares
  ; KRelDefinesByType; KRelDefinesByProperties; KRelVoidsElement; KRelFillsElement; KPropertySet ].

(** Make [n] the owner history, the second attribute. *)
Definition set_owner (n : N) (l : list val) : list val :=
  match l with
  | g :: _ :: t => g :: VId n :: t
  | _ => l
  end.
