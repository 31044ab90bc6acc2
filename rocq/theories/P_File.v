(** Properties of whole files: C16, C17, C19, C20, C21, C42, C45, C47. *)

From Coq Require Import String Ascii List NArith ZArith Bool.
From Verif Require Import Base Prims Spec Float Kind Types Layout WellTyped Schema Entity EntitySpec
  DataMap DataSpec Header File HeaderSpec FileSpec Context StrictTime
  FloatFacts TypesFacts TypesFacts2 EntityFacts DataMapFacts SectionFacts HeaderFacts FileFacts FileFacts2 FileFacts3 ContextFacts.
Import ListNotations.
Open Scope N_scope.

(** The model of the examples: a context with its axis and origin and a line of an
    unknown kind. *)
Definition example_header : header :=
  mk_header [] (lit "a.ifc") (mk_stamp 2024 1 2 3 4 5 0) [[]] [[]] [] [] [] [S_IFC4].
Definition one : f64 := FFin false 4503599627370496 (-52).
Definition nought : f64 := FFin false 0 (-1074).
Definition example_data : dmap :=
  [ (1, Ent KPoint3D [VVec [nought; one; nought]])
  ; (2, Ent KAxis3D [VId 1; VOmit; VOmit])
  ; (5, Ent KGeometricRepresentationContext [VEnum 8; VStr (lit "Model"); VEnum 2; VOmit; VId 2; VOmit])
  ; (9, EDummy (lit "IFCSTYLEDITEM(#9,'a')")) ].
Definition example_ifc : ifc := mk_ifc example_header example_data.

Lemma example_ifc_ok : ifc_ok env0 example_ifc /\ refs_ok example_data /\ exact_ifc example_ifc.
Proof.
  split; [|split; [apply verify_done; vm_compute; reflexivity|vm_compute; reflexivity]].
  split; [|split].
  - repeat split; try discriminate; try (intro H; cbn in H; intuition discriminate);
      apply Forall_cons || apply Forall_nil; try apply Forall_nil; intros [].
  - repeat constructor.
  - unfold example_ifc, example_data. cbn [i_data].
    apply Forall_cons; [|apply Forall_cons; [|apply Forall_cons; [|apply Forall_cons; [|apply Forall_nil]]]];
      (split; [discriminate|]); cbn [snd wf_obj].
    + exists row_Point3D. split; vm_compute; reflexivity.
    + exists row_Axis3D. split; vm_compute; reflexivity.
    + exists row_GeometricRepresentationContext. split; vm_compute; reflexivity.
    + apply opaque_stays, opaqueb_ok. vm_compute. reflexivity.
Qed.

(** A small file. *)
Definition file (time data : string) : text :=
  lit "ISO-10303-21;HEADER;FILE_DESCRIPTION((''),'2;1');FILE_NAME('','" ++ lit time ++
  lit "',(''),(''),'','','');FILE_SCHEMA(('IFC4'));ENDSEC;DATA;" ++ lit data ++
  lit "ENDSEC;END-ISO-10303-21;".
Definition noon : string := "2024-01-02T12:00:00".

(** ** C16: models survive saving and parsing, no text is left *)

Theorem C16_model_round_trip v x :
  ifc_ok v x -> exact_ifc x -> p_ifc v (save x) = ROk x [].
Proof.
  exact (fun Hx He => eq_trans (p_ifc_saved v x Hx) (f_equal (fun y => ROk y []) (norm_exact v x Hx He))).
Qed.
Print Assumptions C16_model_round_trip.

(** Without the condition on texts and reals. *)
Theorem C16_model_round_trip_general v x :
  ifc_ok v x ->
  p_ifc v (save x) =
  ROk (mk_ifc (i_header x)
         (map (fun p => (fst p, match snd p with
                                | Ent k l => Ent k (map (norm_val norm_real) l)
                                | EDummy s => EDummy s
                                end)) (i_data x))) [].
Proof. exact (p_ifc_saved v x). Qed.
Print Assumptions C16_model_round_trip_general.

(** Loading, with its check of references. *)
Theorem C16_load_round_trip v x :
  ifc_ok v x -> exact_ifc x -> refs_ok (i_data x) -> load v (save x) = Done x.
Proof.
  exact (fun Hx He Hr => eq_trans (load_saved v x Hx Hr) (f_equal Done (norm_exact v x Hx He))).
Qed.
Print Assumptions C16_load_round_trip.

Example C16_example :
  ifc_ok env0 example_ifc /\ exact_ifc example_ifc /\ load env0 (save example_ifc) = Done example_ifc.
Proof.
  split; [exact (proj1 example_ifc_ok)|]. split; [exact (proj2 (proj2 example_ifc_ok))|].
  vm_compute. reflexivity.
Qed.

(** ** C17: saving what was loaded is stable *)

Theorem C17_save_after_load v s x :
  load v s = Done x ->
  civil (h_time (i_header x)) -> chrono_reads v (h_time (i_header x)) -> dummies_stay (i_data x) ->
  exact_ifc x ->
  load v (save x) = Done x.
Proof. exact (reload_exact v s x). Qed.
Print Assumptions C17_save_after_load.

(** Without the condition on texts and reals: after the first round the model is
    stable, and the first round keeps the header, the ids and the kinds. *)
Theorem C17_second_save_is_stable v s x :
  load v s = Done x ->
  civil (h_time (i_header x)) -> chrono_reads v (h_time (i_header x)) -> dummies_stay (i_data x) ->
  exists y, load v (save x) = Done y /\ load v (save y) = Done y /\
    i_header y = i_header x /\
    map (fun p => (fst p, kind_of (snd p))) (i_data y) = map (fun p => (fst p, kind_of (snd p))) (i_data x).
Proof. exact (reload_stable v s x). Qed.
Print Assumptions C17_second_save_is_stable.

(** A blank before the semicolon hides an object, saving reveals it. *)
Theorem C17_blank_before_semicolon_refuted :
  exists s x y, load env0 s = Done x /\ load env0 (save x) = Done y /\ x <> y /\
    option_map kind_of (lookup (i_data x) 1) = Some KDummy /\
    option_map kind_of (lookup (i_data y) 1) = Some KPoint2D.
Proof.
  exists (file noon "#1=IFCCARTESIANPOINT((1.,0.)) ;").
  eexists. eexists. split; [vm_compute; reflexivity|]. split; [vm_compute; reflexivity|].
  split; [discriminate|]. split; reflexivity.
Qed.
Print Assumptions C17_blank_before_semicolon_refuted.

(** A line of an unknown kind with a comment sign swallows the line after it once the
    lines are in id order: an object is lost. *)
Theorem C17_comment_sign_refuted :
  exists s x y, load env0 s = Done x /\ load env0 (save x) = Done y /\
    map fst (i_data x) = [1; 3] /\ map fst (i_data y) = [1].
Proof.
  exists (file noon "#3= Z*/; #1= A/* x;").
  eexists. eexists. split; [vm_compute; reflexivity|]. split; [vm_compute; reflexivity|].
  split; reflexivity.
Qed.
Print Assumptions C17_comment_sign_refuted.

Example C17_example :
  exists x, load env0 (file noon "#4 = IFCAXIS2PLACEMENT3D(#3,$,$); /* c */ #3=IFCCARTESIANPOINT((1.5,2.,-3.)); #9= IFCFOO(1);") = Done x /\
    map (fun p => (fst p, kind_of (snd p))) (i_data x) = [(3, KPoint3D); (4, KAxis3D); (9, KDummy)] /\
    civil (h_time (i_header x)) /\ chrono_reads env0 (h_time (i_header x)) /\ dummies_stay (i_data x) /\
    exact_ifc x /\ load env0 (save x) = Done x.
Proof.
  eexists. split; [vm_compute; reflexivity|]. cbn [i_header i_data h_time].
  split; [reflexivity|]. split; [vm_compute; intuition discriminate|]. split; [split; reflexivity|].
  split; [|split; vm_compute; reflexivity].
  intros n s [E|[E|[E|[]]]]; try discriminate. injection E as <- <-.
  apply opaque_stays, opaqueb_ok. vm_compute. reflexivity.
Qed.

(** ** C19: after a successful load all checked references are good *)

Theorem C19_references_are_good v s x :
  load v s = Done x ->
  forall i k l ks n, In (i, Ent k l) (i_data x) -> checked_ref (Ent k l) ks n ->
  exists e, lookup (i_data x) n = Some e /\ (In (kind_of e) ks \/ kind_of e = KDummy).
Proof.
  exact (fun H i k l ks n Hi Hc =>
    proj2 (load_done v s x H) ks n (ex_intro _ i (ex_intro _ (Ent k l) (conj Hi Hc)))).
Qed.
Print Assumptions C19_references_are_good.

Example C19_example :
  checked_ref (Ent KAxis3D [VId 1; VOmit; VOmit]) [KPoint3D] 1 /\
  ~ checked_ref (Ent KRelDefinesByType [VStr []; VId 1; VOmit; VOmit; VList []; VId 2]) [KOwnerHistory] 1.
Proof.
  split; [apply entity_refs_checked; vm_compute; auto|].
  intro H. apply entity_refs_checked in H. vm_compute in H. exact H.
Qed.

(** ** C20: when loading answers with an error *)

Theorem C20_error_iff_misdirected v s x :
  p_ifc v s = ROk x [] -> ~ dangling (i_data x) ->
  (load v s = Err <-> misdirected (i_data x)) /\ load v s <> Panic.
Proof. exact (fun H => load_exists v s x (proj2 (parse_whole_done (p_ifc v) s x) H)). Qed.
Print Assumptions C20_error_iff_misdirected.

(** Otherwise the model is what was parsed. *)
Theorem C20_loads_iff_good v s x :
  p_ifc v s = ROk x [] -> (load v s = Done x <-> refs_ok (i_data x)).
Proof.
  exact (fun H => conj (fun Hl => proj2 (load_done v s x Hl))
                       (load_ok v s x (proj2 (parse_whole_done (p_ifc v) s x) H))).
Qed.
Print Assumptions C20_loads_iff_good.

Example C20_example :
  load env0 (file noon "#1=IFCLOCALPLACEMENT($,#2);#2=IFCCARTESIANPOINT((1.,0.));") = Err /\
  (exists x, load env0 (file noon "#1=IFCLOCALPLACEMENT($,#2);#2=IFCFOO();") = Done x).
Proof. split; [vm_compute; reflexivity|]. eexists. vm_compute. reflexivity. Qed.

(** ** C21: panics *)

(** Loading panics only on a malformed time stamp in the header, on an out-of-range
    time stamp of an owner history, or on a checked reference to a missing object. *)
Theorem C21_panic_causes v s :
  load v s = Panic ->
  bad_stamp v s \/ far_stamp s \/ exists x, p_ifc v s = ROk x [] /\ dangling (i_data x).
Proof. exact (load_panic_causes v s). Qed.
Print Assumptions C21_panic_causes.

(** A file whose references are otherwise good panics exactly when one is missing. *)
Theorem C21_dangling_panics v s x :
  p_ifc v s = ROk x [] -> ~ misdirected (i_data x) ->
  (load v s = Panic <-> dangling (i_data x)) /\ load v s <> Err.
Proof. exact (fun H => load_dangling v s x (proj2 (parse_whole_done (p_ifc v) s x) H)). Qed.
Print Assumptions C21_dangling_panics.

Theorem C21_never_panics_refuted :
  load env0 (file noon "#1=IFCLOCALPLACEMENT($,#2);") = Panic /\
  load env0 (file noon "#1=IFCOWNERHISTORY($,$,$,.ADDED.,$,$,$,99999999999999);") = Panic /\
  load env0 (file "yesterday" "") = Panic.
Proof. split; [|split]; vm_compute; reflexivity. Qed.
Print Assumptions C21_never_panics_refuted.

Example C21_example :
  exists x, load env0 (file noon "#1=IFCOWNERHISTORY($,$,$,.ADDED.,$,$,$,1700000000);") = Done x /\ ~ dangling (i_data x).
Proof.
  eexists. split; [vm_compute; reflexivity|]. apply refs_ok_iff, verify_done. vm_compute. reflexivity.
Qed.

(** ** C42: owner histories *)

(** Products, types and projects: the owner history is an owner history. *)
Theorem C42_owner_of_products v s x i k l n :
  load v s = Done x -> In k rooted_kinds -> In (i, Ent k l) (i_data x) -> nth_error l 1 = Some (VId n) ->
  exists e, lookup (i_data x) n = Some e /\ (kind_of e = KOwnerHistory \/ kind_of e = KDummy).
Proof. exact (loaded_owner v s x i k l n). Qed.
Print Assumptions C42_owner_of_products.

(** Relations and property sets: any number is accepted as owner history, whatever it
    refers to. *)
Theorem C42_owner_of_relations_refuted v h m i k l n :
  ifc_ok v (mk_ifc h m) -> refs_ok m -> In k relation_kinds -> n <= max_usize ->
  lookup m i = Some (Ent k l) ->
  exists y, load v (save (mk_ifc h (put m i (Ent k (set_owner n l))))) = Done y /\
    exists l', lookup (i_data y) i = Some (Ent k l') /\ nth_error l' 1 = Some (VId n).
Proof. exact (owner_loads v h m i k l n). Qed.
Print Assumptions C42_owner_of_relations_refuted.

Example C42_example :
  load env0 (file noon "#1=IFCCARTESIANPOINT((1.,0.));#2=IFCPROJECT('0000000000000000000000',#1,$,$,$,$,$,(),$);") = Err /\
  exists x, load env0 (file noon "#1=IFCCARTESIANPOINT((1.,0.));#2=IFCPROPERTYSET('0000000000000000000000',#1,$,$,());") = Done x /\
    lookup (i_data x) 2 <> None /\ option_map kind_of (lookup (i_data x) 2) = Some KPropertySet.
Proof.
  split; [vm_compute; reflexivity|]. eexists. split; [vm_compute; reflexivity|]. split; [discriminate|reflexivity].
Qed.

(** ** C45: contexts *)

(** A context made with [new] loads again. *)
Theorem C45_context_loads v h m m1 m2 dim wcs l c :
  increasing m -> refs_ok m ->
  match wcs with
  | IsId n => exists e, lookup m n = Some e /\ (kind_of e = KAxis2D \/ kind_of e = KAxis3D)
  | IsCustom e => (kind_of e = KAxis2D \/ kind_of e = KAxis3D) /\ good_refs m e
  end ->
  context_new dim wcs m = Some (m1, l) ->
  insert_new m1 (Ent KGeometricRepresentationContext l) = Some (m2, c) ->
  ifc_ok v (mk_ifc h m2) -> exists y, load v (save (mk_ifc h m2)) = Done y.
Proof. exact (context_loads v h m m1 m2 dim wcs l c). Qed.
Print Assumptions C45_context_loads.

(** So it does with a precision. *)
Theorem C45_precision_loads v h m m1 m2 dim wcs l d c :
  increasing m -> refs_ok m ->
  match wcs with
  | IsId n => exists e, lookup m n = Some e /\ (kind_of e = KAxis2D \/ kind_of e = KAxis3D)
  | IsCustom e => (kind_of e = KAxis2D \/ kind_of e = KAxis3D) /\ good_refs m e
  end ->
  context_new dim wcs m = Some (m1, l) ->
  insert_new m1 (Ent KGeometricRepresentationContext (context_precision d l)) = Some (m2, c) ->
  ifc_ok v (mk_ifc h m2) -> exists y, load v (save (mk_ifc h m2)) = Done y.
Proof. exact (precision_loads v h m m1 m2 dim wcs l d c). Qed.
Print Assumptions C45_precision_loads.

(** What a context holds: identifier, type, dimensions, precision, coordinate system and
    true north. *)
Theorem C45_contents m m1 dim wcs l :
  increasing m -> context_new dim wcs m = Some (m1, l) ->
  exists n i, passed wcs m m1 n /\ nth_error enum_RepresentationIdentifier i = Some (lit "'Body'") /\
    l = [VEnum i; VStr (lit "Model"); VEnum dim; VOmit; VId n; VOmit].
Proof. exact (context_contents m m1 dim wcs l). Qed.
Print Assumptions C45_contents.

Theorem C45_precision d l i :
  length l = 6%nat ->
  nth_error (context_precision d l) i = if Nat.eqb i 3 then Some (VReal d) else nth_error l i.
Proof. exact (precision_contents d l i). Qed.
Print Assumptions C45_precision.

Theorem C45_true_north dir m l m' l' :
  length l = 6%nat -> increasing m -> context_true_north dir m l = Some (m', l') ->
  exists n, passed dir m m' n /\ forall i, nth_error l' i = if Nat.eqb i 5 then Some (VId n) else nth_error l i.
Proof. exact (north_contents dir m l m' l'). Qed.
Print Assumptions C45_true_north.

(** A context with true north does not, whatever is added afterwards. *)
Theorem C45_true_north_refuted v h m m1 m2 m3 l l1 c e :
  length l = 6%nat -> increasing m -> kind_of e = KAxis2D \/ kind_of e = KAxis3D ->
  context_true_north (IsCustom e) m l = Some (m1, l1) ->
  insert_new m1 (Ent KGeometricRepresentationContext l1) = Some (m2, c) ->
  (forall n x, lookup m2 n = Some x -> lookup m3 n = Some x) ->
  ifc_ok v (mk_ifc h m3) ->
  (forall y, load v (save (mk_ifc h m3)) <> Done y) /\
  (~ dangling m3 -> load v (save (mk_ifc h m3)) = Err).
Proof. exact (true_north_refused v h m m1 m2 m3 l l1 c e). Qed.
Print Assumptions C45_true_north_refuted.

Example C45_example :
  exists m1 l m2 l' m3 c,
    context_new 2 (IsCustom (Ent KAxis3D [VId 1; VOmit; VOmit])) [(1, Ent KPoint3D [VVec [one; one; one]])] = Some (m1, l) /\
    context_true_north (IsCustom (Ent KAxis3D [VId 1; VOmit; VOmit])) m1 l = Some (m2, l') /\
    insert_new m2 (Ent KGeometricRepresentationContext l') = Some (m3, c) /\
    load env0 (save (mk_ifc example_header m3)) = Err.
Proof.
  do 6 eexists. split; [vm_compute; reflexivity|]. split; [vm_compute; reflexivity|].
  split; [vm_compute; reflexivity|]. vm_compute. reflexivity.
Qed.

(** C45_precision_loads, C45_contents, C45_precision: a context with a precision. *)
Example C45_precision_example :
  exists m1 l m2 c,
    context_new 2 (IsCustom (Ent KAxis3D [VId 1; VOmit; VOmit])) [(1, Ent KPoint3D [VVec [one; one; one]])] = Some (m1, l) /\
    insert_new m1 (Ent KGeometricRepresentationContext (context_precision one l)) = Some (m2, c) /\
    lookup m2 3 = Some (Ent KGeometricRepresentationContext [VEnum 8; VStr (lit "Model"); VEnum 2; VReal one; VId 2; VOmit]) /\
    exists y, load env0 (save (mk_ifc example_header m2)) = Done y.
Proof.
  do 4 eexists. split; [vm_compute; reflexivity|]. split; [vm_compute; reflexivity|].
  split; [vm_compute; reflexivity|]. eexists. vm_compute. reflexivity.
Qed.

(** ** C47: what is in a file that loads *)

Theorem C47_file_structure v s x :
  load v s = Done x ->
  exists ns, file_text ns s /\ forall n, In n (map fst (i_data x)) <-> In n ns.
Proof. exact (fun H => loaded_parts v s x (proj1 (load_done v s x H))). Qed.
Print Assumptions C47_file_structure.

Example C47_example :
  load env0 (file noon "" ++ lit "x") = Err /\
  load env0 (file noon "#1=IFCFOO()") = Err /\
  exists x, load env0 (file noon "#2=IFCFOO();#1=IFCBAR();" ++ lit "/* end */ ") = Done x /\ map fst (i_data x) = [1; 2].
Proof.
  split; [vm_compute; reflexivity|]. split; [vm_compute; reflexivity|].
  eexists. split; [vm_compute; reflexivity|]. reflexivity.
Qed.
