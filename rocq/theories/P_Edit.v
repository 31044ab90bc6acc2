(** Properties of editing what has been loaded: C66. *)

From Coq Require Import String Ascii List NArith ZArith Bool Lia.
From Verif Require Import Base Prims Spec Float Kind Types WellTyped Schema Entity EntitySpec DataMap DataSpec Header File HeaderSpec
  FileSpec StrictTime SectionFacts FileFacts FileFacts3 Mapping Api ApiSpec ApiExample EditSpec EditFacts P_File P_Api.
Import ListNotations.
Open Scope N_scope.

(** ** C66: a program of constructors, setters, insertions and exchanges on a loaded file *)

(** The edited model is saved and loaded.  The header and all ids are there, the new
    objects have the next ids, no object has changed its kind, and what was not exchanged
    is what it is after saving and loading without editing. *)
Theorem C66_edited v s x y0 xs w os :
  load v s = Done x -> resaves v x -> load v (save x) = Done y0 ->
  prog_ok true xs (mk_world [] (i_data x)) -> execs xs (mk_world [] (i_data x)) = Done (w, os) ->
  exists y, load v (save (mk_ifc (i_header x) (w_map w))) = Done y /\ i_header y = i_header x /\
    map fst (i_data y) = map fst (i_data x) ++ count (top (i_data x) + 1) (length (flat_map uses xs)) /\
    (forall n e, lookup (i_data y0) n = Some e -> ~ exchanged xs n -> lookup (i_data y) n = Some e) /\
    (forall n e, lookup (i_data x) n = Some e -> exists e', lookup (i_data y) n = Some e' /\ kind_of e' = kind_of e).
Proof. exact (edit_program v s x y0 xs w os). Qed.
Print Assumptions C66_edited.

(** In the file, the lines of what was not exchanged are the same, in front of the new
    lines, and what is in front of the lines is the same. *)
Theorem C66_lines v s x xs w os :
  load v s = Done x -> resaves v x ->
  prog_ok true xs (mk_world [] (i_data x)) -> execs xs (mk_world [] (i_data x)) = Done (w, os) ->
  exists front l l', save x = saved_as front l /\ save (mk_ifc (i_header x) (w_map w)) = saved_as front l' /\
    map fst l = map fst (i_data x) /\
    map fst l' = map fst l ++ count (top (i_data x) + 1) (length (flat_map uses xs)) /\
    forall n t, In (n, t) l -> ~ exchanged xs n -> In (n, t) l'.
Proof. exact (edit_text v s x xs w os). Qed.
Print Assumptions C66_lines.

(** A removed object must not be needed: otherwise loading the saved file panics. *)
Theorem C66_removed v s x y0 n :
  load v s = Done x -> resaves v x -> load v (save x) = Done y0 ->
  (needed (i_data x) n -> load v (save (mk_ifc (i_header x) (fst (remove (i_data x) n)))) = Panic) /\
  (~ needed (i_data x) n -> exists y,
     load v (save (mk_ifc (i_header x) (fst (remove (i_data x) n)))) = Done y /\ i_header y = i_header x /\
     forall k, lookup (i_data y) k = if k =? n then None else lookup (i_data y0) k).
Proof. exact (remove_loads v s x y0 n). Qed.
Print Assumptions C66_removed.

(** A new object in the place of another one must fit: otherwise loading the saved file
    fails. *)
Theorem C66_replaced v s x y0 n e0 e :
  load v s = Done x -> resaves v x -> load v (save x) = Done y0 ->
  lookup (i_data x) n = Some e0 -> wf_obj e -> complete (i_data x) n e ->
  (fits (i_data x) n e -> exists y,
     load v (save (mk_ifc (i_header x) (fst (insert (i_data x) n e)))) = Done y /\ i_header y = i_header x /\
     forall k, k <> n -> lookup (i_data y) k = lookup (i_data y0) k) /\
  (~ fits (i_data x) n e -> load v (save (mk_ifc (i_header x) (fst (insert (i_data x) n e)))) = Err).
Proof. exact (replace_loads v s x y0 n e0 e). Qed.
Print Assumptions C66_replaced.

(** ** A file and a program *)

Definition old_file : text :=
  file noon "#4 = IFCAXIS2PLACEMENT3D(#3,$,$); /* c */ #3=IFCCARTESIANPOINT((1.5,2.,-3.)); #9= IFCFOO(1); #12=IFCMATERIAL('wood',$,$);".
Definition old_model : ifc :=
  match load env0 old_file with Done x => x | _ => mk_ifc example_header [] end.

(** The material is exchanged for a new one with a description, and kept as a new object. *)
Definition change : list stmt :=
  [ SNew Material_new id1 [word "oak"]
  ; SSet 0 material_description (word "solid")
  ; SSwap 0 12
  ; SInsert 0 ].

Lemma old_loads : load env0 old_file = Done old_model.
Proof. vm_compute. reflexivity. Qed.

Lemma old_resaves : resaves env0 old_model.
Proof.
  split; [vm_compute; intuition discriminate|]. split; [split; vm_compute; reflexivity|].
  intros n s H. vm_compute in H. repeat (destruct H as [H|H]; [try discriminate|]); [|contradiction].
  injection H as <- <-. apply opaque_stays, opaqueb_ok. vm_compute. reflexivity.
Qed.

(** C66_edited, C66_lines: the file and the program meet the hypotheses. *)
Example C66_edited_example :
  load env0 (save old_model) = Done old_model /\ prog_ok true change (mk_world [] (i_data old_model)) /\
  exists w, execs change (mk_world [] (i_data old_model)) = Done (w, [None; None; None; Some 13]) /\
    map fst (w_map w) = [3; 4; 9; 12; 13] /\
    lookup (w_map w) 12 = Some (Ent KMaterial [VStr (lit "oak"); VStr (lit "solid"); VOmit]) /\
    lookup (w_map w) 13 = Some (Ent KMaterial [VStr (lit "wood"); VOmit; VOmit]).
Proof.
  split; [vm_compute; reflexivity|]. split; [apply progb_ok; vm_compute; reflexivity|].
  eexists. split; [vm_compute; reflexivity|]. vm_compute. auto.
Qed.

(** C66_removed: the point is needed by the axis, nothing needs the axis. *)
Example C66_removed_example :
  needed (i_data old_model) 3 /\ ~ needed (i_data old_model) 4 /\
  load env0 (save (mk_ifc (i_header old_model) (fst (remove (i_data old_model) 3)))) = Panic.
Proof.
  split; [|split].
  - exists 4, (Ent KAxis3D [VId 3; VOmit; VOmit]), [KPoint3D]. split; [discriminate|]. split; [vm_compute; tauto|].
    apply entity_refs_checked. vm_compute. auto.
  - intros (i & e & ks & D & H & C). apply entity_refs_checked in C. vm_compute in H.
    repeat (destruct H as [H|H]; [injection H as <- <-; vm_compute in C; intuition congruence|]). contradiction.
  - vm_compute. reflexivity.
Qed.

(** C66_replaced: a point in the plane does not fit in the place of one in space. *)
Example C66_replaced_example :
  let e := Ent KPoint2D [VVec [one; one]] in
  wf_obj e /\ complete (i_data old_model) 3 e /\ ~ fits (i_data old_model) 3 e /\
  fits (i_data old_model) 3 (Ent KPoint3D [VVec [one; one; one]]) /\
  load env0 (save (mk_ifc (i_header old_model) (fst (insert (i_data old_model) 3 e)))) = Err.
Proof.
  cbv zeta.
  assert (W : forall k l ks n, In k [KPoint2D; KPoint3D] -> ~ checked_ref (Ent k l) ks n).
  { intros k l ks n Hk C. apply entity_refs_checked in C. destruct Hk as [<-|[<-|[]]];
      destruct l as [|? [|? ?]]; vm_compute in C; contradiction. }
  split; [|split; [|split; [|split]]].
  - eexists. split; [reflexivity|]. vm_compute. reflexivity.
  - intros ks k C. destruct (W KPoint2D _ ks k (or_introl eq_refl) C).
  - intros [_ F]. specialize (F 4 (Ent KAxis3D [VId 3; VOmit; VOmit]) [KPoint3D]). destruct F as [F|F].
    + discriminate.
    + vm_compute. tauto.
    + apply entity_refs_checked. vm_compute. auto.
    + cbn in F. intuition discriminate.
    + discriminate.
  - split.
    + intros ks k C. destruct (W KPoint3D _ ks k (or_intror (or_introl eq_refl)) C).
    + intros i o ks D H C. apply entity_refs_checked in C. vm_compute in H.
      destruct H as [H|[H|[H|[H|[]]]]]; injection H as <- <-; vm_compute in C; try contradiction.
      destruct C as [C|[]]. injection C as <-. left. now left.
  - vm_compute. reflexivity.
Qed.
