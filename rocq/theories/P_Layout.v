(** Properties of the text of a saved file: C69.

    [whole_text x w]: [w] is the header, the lines and the end of [x], character by character;
    [header_text], [stamp_text], [object_text]: the same for a header, a time stamp, an object.
    The attributes of an object are those of its declaration (C67). *)

From Coq Require Import String Ascii List NArith ZArith Bool.
From Verif Require Import Base Prims Spec Kind Types WellTyped Schema Entity EntitySpec DataMap DataSpec Header File
  HeaderSpec FileSpec StrictTime NameSpec DeclSpec LayoutSpec LayoutFacts P_File.
Import ListNotations.
Open Scope N_scope.

(** ** C69: layout *)

(** What is saved has the layout, whatever the texts, numbers and time stamps, if the objects
    of known kinds can be printed (C10). *)
Theorem C69_saved x : (forall n k l, In (n, Ent k l) (i_data x) -> wf_ent k l) -> whole_text x (save x).
Proof. exact (whole_saved x). Qed.
Print Assumptions C69_saved.

(** This is so for every model that was loaded. *)
Theorem C69_loaded v s x : load v s = Done x -> whole_text x (save x).
Proof. exact (whole_loaded v s x). Qed.
Print Assumptions C69_loaded.

(** A model has no other text of this layout. *)
Theorem C69_only x w : whole_text x w -> w = save x.
Proof. exact (whole_is x w). Qed.
Print Assumptions C69_only.

(** The header alone: every header has exactly one text. *)
Theorem C69_header h w : header_text h w <-> w = d_header h.
Proof. exact (header_is h w). Qed.
Print Assumptions C69_header.

(** The objects alone. *)
Theorem C69_object e w : object_text e w -> w = d_entity e.
Proof. exact (object_is e w). Qed.
Print Assumptions C69_object.

(** Whole seconds in the years 0 to 9999 have the ISO notation. *)
Theorem C69_stamp t w : civil t -> (stamp_text t w <-> w = iso t).
Proof. exact (fun H => stamp_iso t H w). Qed.
Print Assumptions C69_stamp.

(** A text of this layout, written by whom ever, is loaded as the model it shows. *)
Theorem C69_loads v x w :
  whole_text x w -> ifc_ok v x -> exact_ifc x -> refs_ok (i_data x) -> load v w = Done x.
Proof.
  exact (fun Hw Hx He Hr => eq_trans (f_equal (load v) (whole_is x w Hw)) (C16_load_round_trip v x Hx He Hr)).
Qed.
Print Assumptions C69_loads.

(** ** Examples *)

Example C69_example :
  whole_text example_ifc (save example_ifc) /\
  save example_ifc =
    lit "ISO-10303-21;" ++ [10] ++ lit "HEADER;" ++ [10] ++
    lit "FILE_DESCRIPTION((''),'2;1');" ++ [10] ++
    lit "FILE_NAME('a.ifc','2024-01-02T03:04:05',(''),(''),'','','');" ++ [10] ++
    lit "FILE_SCHEMA(('IFC4'));" ++ [10] ++ lit "ENDSEC;" ++ [10] ++ [10] ++
    lit "DATA;" ++ [10] ++
    lit "#1= IFCCARTESIANPOINT((0.,1.,0.));" ++ [10] ++
    lit "#2= IFCAXIS2PLACEMENT3D(#1,$,$);" ++ [10] ++
    lit "#5= IFCGEOMETRICREPRESENTATIONCONTEXT('Body','Model',3,$,#2,$);" ++ [10] ++
    lit "#9= IFCSTYLEDITEM(#9,'a');" ++ [10] ++
    lit "ENDSEC;" ++ [10] ++ [10] ++ lit "END-ISO-10303-21;" ++ [10].
Proof.
  split; [|vm_compute; reflexivity]. apply C69_saved. intros n k l H.
  assert (W := proj2 (proj2 (proj1 example_ifc_ok))). rewrite Forall_forall in W.
  exact (proj2 (W _ H)).
Qed.

(** Two view definitions, three items, a year of five digits, a fraction of a second. *)
Example C69_header_example :
  header_text
    (mk_header [mk_view (lit "V") [lit "A"; lit "B"]; mk_view (lit "W") [lit "C"]]
       (lit "n") (mk_stamp 12024 1 2 3 4 5 6) [lit "A"; lit "B"] [] (lit "p") (lit "s") (lit "u")
       [S_IFC2X3; S_IFC4X3_ADD2])
    (lit "ISO-10303-21;" ++ [10] ++ lit "HEADER;" ++ [10] ++
     lit "FILE_DESCRIPTION(('V [A, B]','W [C]'),'2;1');" ++ [10] ++
     lit "FILE_NAME('n','+12024-01-02T03:04:05',('A','B'),(),'p','s','u');" ++ [10] ++
     lit "FILE_SCHEMA(('IFC2X3','IFC4X3_ADD2'));" ++ [10] ++ lit "ENDSEC;" ++ [10]).
Proof. apply C69_header. vm_compute. reflexivity. Qed.
