(** Properties of entities: C10, C11, C12, C48. *)

From Coq Require Import String Ascii List NArith ZArith Bool.
From Verif Require Import Base Prims Spec PrimsFacts Guid Float FloatFacts Kind Types Layout
  WellTyped Schema Entity EntitySpec TypesFacts TypesFacts2 EntityFacts WallFacts.
Import ListNotations.
Open Scope N_scope.

(** ** C10: entities survive printing and reading *)

Theorem C10_entity_round_trip k l g rest :
  wf_ent k l -> forallb exact_val l = true -> gap g -> no_gap rest ->
  p_obj (d_entity (Ent k l) ++ g ++ rest) = ROk (Ent k l) rest.
Proof.
  exact (fun Hw He Hg Hr =>
    eq_trans (p_obj_reads k l _ [] g rest Hw (d_entity_lay k l Hw) gap_nil Hg Hr)
             (f_equal (fun x => ROk (Ent k x) rest) (exact_ent k l Hw He))).
Qed.
Print Assumptions C10_entity_round_trip.

(** Without the condition on texts and reals: same kind, every text replaced by its
    re-read form (C04), every real by its re-read form (C18), nothing else. *)
Theorem C10_entity_round_trip_general k l g rest :
  wf_ent k l -> gap g -> no_gap rest ->
  p_obj (d_entity (Ent k l) ++ g ++ rest) = ROk (Ent k (map (norm_val norm_real) l)) rest.
Proof.
  exact (fun Hw Hg Hr => p_obj_reads k l _ [] g rest Hw (d_entity_lay k l Hw) gap_nil Hg Hr).
Qed.
Print Assumptions C10_entity_round_trip_general.

(** Whatever entity is read has attributes that can be printed: the conditions of
    C10 hold for every entity that comes from a file. *)
Theorem C10_read_is_printable s k l r : p_obj s = ROk (Ent k l) r -> wf_ent k l.
Proof. exact (p_obj_wf s k l r). Qed.
Print Assumptions C10_read_is_printable.

(** The hypotheses hold for instance for this wall, direction and property. *)
Definition example_wall : list val :=
  [ VGuid [1;2;3;4;5;6;7;8;9;10;11;12;13;14;15;255]; VId 5; VStr [84; 252; 114]; VOmit; VOmit
  ; VId 9; VOmit; VOmit; VId 12 ].
Example C10_example :
  wf_ent KWall example_wall /\ forallb exact_val example_wall = true /\
  p_obj (d_entity (Ent KWall example_wall) ++ lit " #2") = ROk (Ent KWall example_wall) (lit "#2") /\
  wf_ent KWall [ VGuid [1;2;3;4;5;6;7;8;9;10;11;12;13;14;15;255]; VOmit; VOmit; VOmit; VOmit; VOmit; VOmit; VOmit;
    VEnt [VGuid [1;2;3;4;5;6;7;8;9;10;11;12;13;14;15;255]; VOmit; VOmit; VOmit; VOmit; VOmit; VOmit; VOmit;
          VOmit; VEnum 2] ].
Proof.
  split; [exists row_Wall; split; vm_compute; reflexivity|].
  split; [vm_compute; reflexivity|]. split; [vm_compute; reflexivity|].
  exists row_Wall. split; vm_compute; reflexivity.
Qed.

(** ** C11: no shadowing *)

(** [before k all_kinds] are the kinds tried before [k]: none of them takes a text
    of an entity of kind [k], whatever its gaps and whatever follows. *)
Theorem C11_no_shadowing k k' l txt rest :
  wf_ent k l -> lay_entity k l txt -> In k' (before k all_kinds) ->
  p_kind k' (txt ++ rest) = RBack.
Proof. exact (p_kind_before k k' l txt rest). Qed.
Print Assumptions C11_no_shadowing.

(** Hence the first alternative that matches a printed line is its own kind. *)
Theorem C11_dispatch k l rest :
  wf_ent k l ->
  exists g r, gap g /\ rest = g ++ r /\
    p_known (d_entity (Ent k l) ++ rest) = ROk (Ent k (map (norm_val norm_real) l)) r.
Proof. exact (p_known_printed k l rest). Qed.
Print Assumptions C11_dispatch.

(** Every implemented kind is among the alternatives, and different kinds never
    print the same line. *)
Theorem C11_all_kinds_tried k l : wf_ent k l -> In k all_kinds.
Proof. exact (wf_kind k l). Qed.
Print Assumptions C11_all_kinds_tried.

Theorem C11_lines_differ k l k' l' :
  wf_ent k l -> wf_ent k' l' -> d_entity (Ent k l) = d_entity (Ent k' l') -> k = k'.
Proof. exact (lines_differ k l k' l'). Qed.
Print Assumptions C11_lines_differ.

(** Points of two and of three dimensions have the same keyword. *)
Example C11_example :
  let r := FFin false 4503599627370496 (-52) in
  before KPoint3D all_kinds <> [] /\ In KPoint2D (before KPoint3D all_kinds) /\
  wf_ent KPoint3D [VVec [r; r; r]] /\
  d_entity (Ent KPoint3D [VVec [r; r; r]]) = lit "IFCCARTESIANPOINT((1.,1.,1.));" /\
  d_entity (Ent KPoint2D [VVec [r; r]]) = lit "IFCCARTESIANPOINT((1.,1.));".
Proof.
  cbv zeta. split; [vm_compute; discriminate|]. split; [vm_compute; tauto|].
  split; [exists row_Point3D; split; vm_compute; reflexivity|]. vm_compute. auto.
Qed.

(** ** C12: unknown entities *)

Theorem C12_unknown_read s g1 g2 rest :
  opaque s -> gap g1 -> gap g2 -> no_gap rest ->
  p_obj (g1 ++ s ++ lit ";" ++ g2 ++ rest) = ROk (EDummy s) rest.
Proof. exact (p_obj_dummy s g1 g2 rest). Qed.
Print Assumptions C12_unknown_read.

(** It is printed verbatim and read again as the same text. *)
Theorem C12_unknown_round_trip s g rest :
  opaque s -> gap g -> no_gap rest ->
  d_entity (EDummy s) = s ++ lit ";" /\
  p_obj (d_entity (EDummy s) ++ g ++ rest) = ROk (EDummy s) rest.
Proof.
  exact (fun Ho Hg Hr => conj eq_refl
    (eq_trans (f_equal p_obj (eq_sym (app_assoc s (lit ";") (g ++ rest))))
              (p_obj_dummy s [] g rest Ho gap_nil Hg Hr))).
Qed.
Print Assumptions C12_unknown_round_trip.

(** Texts without semicolon and comment that begin with no known keyword. *)
Theorem C12_simple_opaque s : simple_body s -> unknown s -> opaque s.
Proof. exact (simple_body_opaque s). Qed.
Print Assumptions C12_simple_opaque.

(** Conversely, what is kept is the text in front of the first semicolon, without
    the gaps around it. *)
Theorem C12_kept_verbatim s w r :
  p_obj s = ROk (EDummy w) r ->
  ~ In 59 w /\
  exists g0 g1 g2, gap g0 /\ gap g1 /\ gap g2 /\ s = g0 ++ w ++ g1 ++ lit ";" ++ g2 ++ r.
Proof. exact (p_obj_dummy_inv s w r). Qed.
Print Assumptions C12_kept_verbatim.

(** A semicolon inside a quoted text cuts the line: the rest is left over. *)
Theorem C12_semicolon_in_text_refuted :
  exists s : text, s = lit "IFCFOO('a;b');" /\
    p_obj s = ROk (EDummy (lit "IFCFOO('a")) (lit "b');").
Proof. exists (lit "IFCFOO('a;b');"). vm_compute. auto. Qed.
Print Assumptions C12_semicolon_in_text_refuted.

Example C12_example :
  opaque (lit "IFCFURNITURE('0DWgwt6o1FOx7466fPk$jl',#2,'chair / stool',$)").
Proof.
  apply simple_body_opaque; [|apply unknownb_ok; vm_compute; reflexivity].
  split; [|split; [|split]].
  - vm_compute. split; [|discriminate]. intros [H|[H|[H|H]]]; discriminate H.
  - vm_compute. intros [H|[H|[H|H]]]; discriminate H.
  - vm_compute. intuition discriminate.
  - intros (a & b & E). assert (H : exists n, strip_prefix (lit "/*") (skipn n
      (lit "IFCFURNITURE('0DWgwt6o1FOx7466fPk$jl',#2,'chair / stool',$)")) <> None).
    { exists (length a). rewrite E, skipn_app, skipn_all, Nat.sub_diag. cbn. discriminate. }
    destruct H as [n H]. do 70 (destruct n as [|n]; [apply H; reflexivity|]).
    apply H. now rewrite skipn_all2 by (cbn; Lia.lia).
Qed.

(** ** C48: walls with an enumeration value *)

(** A wall whose predefined type is an enumeration value (it begins with a dot),
    as IFC4 prescribes, is never read as a wall: it becomes an unknown entity
    (or is not read at all), whatever its other attributes and gaps. *)
Theorem C48_wall_enum_not_wall kw g1 l txt h1 h2 x rest e r :
  In kw [lit "IFCWALL("; lit "IFCWALLSTANDARDCASE("] -> gap g1 -> gap h1 -> gap h2 ->
  wts fields_Element l = true -> lay_attrs fields_Element l txt -> (exists y, x = lit "." ++ y) ->
  p_obj (kw ++ g1 ++ txt ++ h1 ++ lit "," ++ h2 ++ x ++ rest) = ROk e r -> kind_of e = KDummy.
Proof. exact (wall_enum_not_wall kw g1 l txt h1 h2 x rest e r). Qed.
Print Assumptions C48_wall_enum_not_wall.

Theorem C48_wall_enum_refuted :
  exists s : text, s = lit "IFCWALL('0DWgwt6o1FOx7466fPk$jl',#2,$,$,$,#33,#25,$,.STANDARD.);" /\
    forall l r, p_obj s <> ROk (Ent KWall l) r.
Proof.
  eexists. split; [reflexivity|]. intros l r H. vm_compute in H. discriminate.
Qed.
Print Assumptions C48_wall_enum_refuted.

Example C48_example :
  exists l txt, wts fields_Element l = true /\ lay_attrs fields_Element l txt /\
    txt = lit "'0000000000000000000000',$,$,$,$,$,$,$" /\
    p_obj (lit "IFCWALL(" ++ txt ++ lit ",$);") = ROk (Ent KWall (l ++ [VOmit])) [].
Proof.
  exists ([VGuid (repeat 0 16)] ++ repeat VOmit 7), (d_attrs (d_tys fields_Element ([VGuid (repeat 0 16)] ++ repeat VOmit 7))).
  split; [vm_compute; reflexivity|]. split; [|vm_compute; auto].
  apply d_attrs_lay.
  - apply Forall_forall. intros t _ v. apply d_ty_lay.
  - vm_compute. reflexivity.
  - discriminate.
  - vm_compute. reflexivity.
Qed.
