(** Properties of the attributes of the kinds: C67.

    [declarations]: the structs of /repo with their fields, as they are written there;
    [attributes_of s a]: the fields of the struct called [s] in their order, those of embedded
    structs in their place; [writtens ts l ws]: the values [l] have the Rust types [ts] and the
    texts [ws]; [declared_ref s l names n]: one of the checked attributes refers to [n], which
    has to be one of the structs called [names]. *)

From Coq Require Import String Ascii List NArith ZArith Bool.
From Verif Require Import Base Prims Spec Float FloatFacts Kind Types WellTyped Schema Entity EntitySpec DataMap Header File
  FileSpec StrictTime AttrFacts NameSpec NameFacts DeclSpec DeclFacts ApiSpec DeclNames P_File.
Import ListNotations.
Open Scope N_scope.

(** ** C67: attributes *)

(** Every kind has a struct, and its list of attributes is determined. *)
Theorem C67_declared k : k <> KDummy -> exists s a, In (k, s) structs /\ attributes_of s a.
Proof. exact (every_kind k). Qed.
Print Assumptions C67_declared.

Theorem C67_unique s a a' : attributes_of s a -> attributes_of s a' -> a = a'.
Proof. exact (attributes_fun s a a'). Qed.
Print Assumptions C67_unique.

(** The line of an object has one text for each attribute, in the order of the declaration. *)
Theorem C67_printed k s a l ws :
  In (k, s) structs -> attributes_of s a -> writtens (map a_type a) l ws ->
  d_entity (Ent k l) = keyword s ++ lit "(" ++ join (lit ",") ws ++ closing s.
Proof. exact (line_printed k s a l ws). Qed.
Print Assumptions C67_printed.

(** Such a line is read as these values (up to C18 and C04). *)
Theorem C67_read k s a l ws :
  In (k, s) structs -> attributes_of s a -> writtens (map a_type a) l ws ->
  forall g1 g2 rest, gap g1 -> gap g2 -> no_gap rest ->
  p_obj (g1 ++ (keyword s ++ lit "(" ++ join (lit ",") ws ++ closing s) ++ g2 ++ rest) =
    ROk (Ent k (map (norm_val norm_real) l)) rest.
Proof. exact (line_read k s a l ws). Qed.
Print Assumptions C67_read.

(** Whatever is read has as many values as there are attributes, each of the declared type. *)
Theorem C67_values k s a txt l r :
  In (k, s) structs -> attributes_of s a -> p_obj txt = ROk (Ent k l) r ->
  exists ws, writtens (map a_type a) l ws.
Proof. exact (line_values k s a txt l r). Qed.
Print Assumptions C67_values.

(** The objects that can be printed and read back (C10) are those of these values. *)
Theorem C67_well_formed k s a l :
  In (k, s) structs -> attributes_of s a -> (wf_ent k l <-> exists ws, writtens (map a_type a) l ws).
Proof. exact (wf_declared k s a l). Qed.
Print Assumptions C67_well_formed.

(** The names by which C53 speaks of what constructors and setters store are those of the
    declared fields; the only field of the points and directions has no name. *)
Theorem C67_names k s a : In (k, s) structs -> attributes_of s a ->
  attr_names k = map a_name a \/ attr_names k = ["vector"%string] /\ map a_name a = ["0"%string].
Proof. exact (api_declared k s a). Qed.
Print Assumptions C67_names.

(** ** C67: references *)

(** A file that is read completely is loaded if and only if every reference in a checked
    attribute leads to an object of a struct named in the declaration, or to one that the
    library does not know. *)
Theorem C67_load v s x : p_ifc v s = ROk x [] ->
  (load v s = Done x <->
   forall i k t l names n, In (i, Ent k l) (i_data x) -> In (k, t) structs -> declared_ref t l names n ->
   exists e, lookup (i_data x) n = Some e /\
     (kind_of e = KDummy \/ exists t', In t' names /\ In (kind_of e, t') structs)).
Proof. exact (load_declared v s x). Qed.
Print Assumptions C67_load.

(** ** Examples *)

(** A wall has nine attributes, seven of them from four embedded structs, all checked; the
    embedded struct of an aggregation is not. *)
Example C67_wall : exists a, attributes_of "Wall" a /\
  map a_name a = [ "global_id"; "owner_history"; "name"; "description"; "object_type"; "object_placement"
                 ; "representation"; "tag"; "predefined_type" ]%string /\ map a_checked a = repeat true 9.
Proof. eexists. split; [apply attrs_named_sound; vm_compute; reflexivity|]. split; reflexivity. Qed.

Example C67_aggregation : exists a, attributes_of "RelAggregates" a /\
  map a_name a = [ "global_id"; "owner_history"; "name"; "description"; "relating_object"; "related_objects" ]%string /\
  map a_checked a = [false; false; false; false; true; true].
Proof. eexists. split; [apply attrs_named_sound; vm_compute; reflexivity|]. split; reflexivity. Qed.

(** A unit with its line. *)
Example C67_unit : exists a ws, attributes_of "SiUnit" a /\
  writtens (map a_type a) [VInh; VEnum 8; VEnum 7; VEnum 0] ws /\
  d_entity (Ent KSiUnit [VInh; VEnum 8; VEnum 7; VEnum 0]) = lit "IFCSIUNIT(" ++ join (lit ",") ws ++ lit ");".
Proof.
  eexists. eexists. split; [apply attrs_named_sound; vm_compute; reflexivity|]. cbn [map a_type]. split.
  - constructor; [apply wr_inherited|]. constructor; [apply wr_given; try discriminate; eapply wr_enum; reflexivity|].
    constructor; [apply wr_given; try discriminate; eapply wr_enum; reflexivity|].
    constructor; [eapply wr_enum; reflexivity|]. constructor.
  - vm_compute. reflexivity.
Qed.

(** The placement of the example of C20 refers to a point, which is not declared. *)
Example C67_placement :
  declared_ref "LocalPlacement" [VOmit; VId 2] ["Axis2D"; "Axis3D"]%string 2 /\
  load env0 (file noon "#1=IFCLOCALPLACEMENT($,#2);#2=IFCCARTESIANPOINT((1.,0.));") = Err.
Proof.
  split; [|vm_compute; reflexivity]. eexists. exists 1%nat. eexists. eexists.
  split; [apply attrs_named_sound; vm_compute; reflexivity|]. split; [reflexivity|]. split; [reflexivity|].
  split; [constructor|]. split; [reflexivity|]. constructor. discriminate.
Qed.
