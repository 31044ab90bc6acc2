(** What built models consist of, attribute by attribute: C61.

    [template k]: the rows an object of kind [k] can have; [fits_ent m own e]: the object
    has one of them, where references are looked up in [m] and [own] is the owner history
    of the project; [opening_objects o i]: the objects made first, with their numbers. *)

From Coq Require Import String Ascii List NArith ZArith Bool Lia.
From Verif Require Import Base Prims Float Arith Kind Types Schema Entity DataMap DataSpec Header File HeaderSpec FileSpec
  Builder BuilderRun BuilderSpec BuilderLoadSpec BuilderExample TemplateSpec BuilderTemplate NumberSpec BuilderNumber P_Builder P_Load.
Import ListNotations.
Open Scope N_scope.

(** ** C61: every object has a row of the table *)

Theorem C61_rows o i xs ls r n e :
  sane o -> info_ok i = true -> forallb op_ok xs = true ->
  program o i xs = Done (ls, r) -> honest [] xs ls ->
  lookup (p_map r) n = Some e -> fits_ent (p_map r) (p_owner r) e.
Proof. exact (program_template o i xs ls r n e). Qed.
Print Assumptions C61_rows.

(** No other kinds occur. *)
Theorem C61_kinds o i xs ls r n e :
  sane o -> info_ok i = true -> forallb op_ok xs = true ->
  program o i xs = Done (ls, r) -> honest [] xs ls ->
  lookup (p_map r) n = Some e -> In (kind_of e) made_kinds.
Proof. exact (program_kinds o i xs ls r n e). Qed.
Print Assumptions C61_kinds.

(** The model starts with the same fifteen objects, whatever is called afterwards, and
    their kinds do not occur again, except that of points and axes. *)
Theorem C61_opening o i xs ls r : program o i xs = Done (ls, r) ->
  p_owner r = 6 /\
  exists new, p_map r = opening_objects o i ++ new /\ Forall (fun x => ~ In (kind_of (snd x)) opening_kinds) new.
Proof. exact (program_opening o i xs ls r). Qed.
Print Assumptions C61_opening.

(** The hypotheses are met by a program; its model has 250 objects. *)
Example C61_meets :
  sane oracle1 /\ info_ok info1 = true /\ forallb op_ok ops1 = true /\ honest [] ops1 ls1 /\
  exists r, program oracle1 info1 ops1 = Done (ls1, r) /\ length (p_map r) = 250%nat /\
    (exists g, lookup (p_map r) 246 =
       Some (Ent KRelAssociatesMaterial
               [VGuid g; VId 6; VStr (lit "Material39ToWindows"); VOmit; VList [VId 92; VId 188]; VId 39])) /\
    (exists g, lookup (p_map r) 223 =
       Some (Ent KRelDefinesByType [VGuid g; VId 6; VStr (lit "SlabTypeToSlab0"); VOmit; VList [VId 166]; VId 41])).
Proof.
  destruct C29_example as (H1 & H2 & H3 & _ & H5 & _).
  refine (conj H1 (conj H2 (conj H3 (conj H5 _)))).
  eexists. split; [vm_compute; reflexivity|]. split; [vm_compute; reflexivity|].
  split; eexists; vm_compute; reflexivity.
Qed.

(** The table tells rows apart: an association with windows that is named after its first
    window, one that another history owns, and one that relates a wall have no row. *)
Example C61_rejects :
  let m := [(3, Ent KWindow []); (4, Ent KMaterialConstituentSet []); (5, Ent KWall [])] in
  let rel own name obj := Ent KRelAssociatesMaterial [VGuid []; VId own; VStr (lit name); VOmit; VList [VId obj]; VId 4] in
  fits_ent m 6 (rel 6 "Material4ToWindows"%string 3) /\
  ~ fits_ent m 6 (rel 6 "Material3ToWindows"%string 3) /\
  ~ fits_ent m 6 (rel 7 "Material4ToWindows"%string 3) /\
  ~ fits_ent m 6 (rel 6 "Material4ToWindows"%string 5).
Proof.
  cbv zeta. unfold fits_ent, template. split.
  { exists (assoc_row (KWindow, "ToWindows"%string)). split; [now right; right; right; left|].
    unfold assoc_row, is_relation. cbn [app fits_all fits fst snd].
    split; [now eexists|]. split; [reflexivity|]. split; [exists 4; now split|]. split; [reflexivity|].
    split; [|split; [|exact I]].
    - exists [3]. split; [reflexivity|]. constructor; [|constructor]. eexists. split; [reflexivity|now left].
    - exists 4. now split. }
  repeat split; intros (row & Hr & F); cbn [map material_words In] in Hr;
    repeat (destruct Hr as [<-|Hr];
      [unfold assoc_row, is_relation in F; cbn [app fits_all fits fst snd] in F;
       destruct F as (_ & Fo & Fn & _ & Ff & _);
       destruct Fn as (n & En & Fn); injection En as <-; try discriminate Fo; try (vm_compute in Fn; discriminate Fn);
       destruct Ff as (ns & En & Ff); destruct ns as [|x [|y ns]]; try discriminate En; injection En as <-;
       inversion Ff as [|? ? (k & Ek & Hk) _]; subst; injection Ek as <-; cbn [In] in Hk;
       destruct Hk as [Hk|[]]; discriminate Hk|]); contradiction.
Qed.

(** The numbers in the names of relations: those of one word follow each other and are
    counted from zero. *)
Theorem C61_counted o i xs ls r : program o i xs = Done (ls, r) -> counted (p_map r).
Proof. exact (program_counted o i xs ls r). Qed.
Print Assumptions C61_counted.

Example C61_counted_example :
  exists r, program oracle1 info1 ops1 = Done (ls1, r) /\
    has_number (p_map r) 225 KRelVoidsElement "OpeningElementToWall" 0 /\
    has_number (p_map r) 226 KRelVoidsElement "OpeningElementToWall" 1 /\
    has_number (p_map r) 227 KRelVoidsElement "OpeningElementToSlab" 0 /\
    ~ counted (put (p_map r) 226 (Ent KRelVoidsElement [VOmit; VOmit; VStr (lit "OpeningElementToWall0")])).
Proof.
  eexists. split; [vm_compute; reflexivity|].
  split; [split; [cbn; auto 10|eexists; split; vm_compute; reflexivity]|].
  split; [split; [cbn; auto 10|eexists; split; vm_compute; reflexivity]|].
  split; [split; [cbn; auto 10|eexists; split; vm_compute; reflexivity]|].
  intro H. destruct (H 226 KRelVoidsElement "OpeningElementToWall"%string 0) as [[_ X]|[X _]]; [|apply (X 0)|discriminate X];
    (split; [cbn; auto 10|eexists; split; vm_compute; reflexivity]).
Qed.

(** The standard wants at least one related object in each relation.  The builder writes
    relations without any: a storey without elements or spaces has both. *)
Theorem C61_empty_refuted :
  ~ (forall o i xs ls r n k l c, sane o -> info_ok i = true -> forallb op_ok xs = true -> honest [] xs ls ->
       program o i xs = Done (ls, r) -> In (k, c) [(KRelAggregates, 5%nat); (KRelContainedInSpatialStructure, 4%nat)] ->
       lookup (p_map r) n = Some (Ent k l) -> nth_error l c <> Some (VList [])).
Proof.
  intro H. destruct C29_example as (H1 & H2 & H3 & _ & H5 & _).
  refine (H oracle1 info1 ops1 ls1 _ 240 KRelAggregates _ 5%nat H1 H2 H3 H5 _ (or_introl eq_refl) _ _);
    vm_compute; reflexivity.
Qed.
Print Assumptions C61_empty_refuted.
