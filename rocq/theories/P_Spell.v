(** What is loaded is spelled in the file: C63.

    [spells t v w] etc. (SpellSpec.v) is the grammar of the text: numerals stand for the
    nearest binary64 number, literals for their text with directives carried out,
    identifiers for the number to the base 64. *)

From Coq Require Import String Ascii List NArith ZArith Bool.
From Verif Require Import Base Prims Spec TextSpec Float Kind Types Schema Entity DataMap DataSpec DataMapFacts Header File HeaderSpec FileSpec
  SpellSpec SpellFacts SpellHead StrictTime P_File.
Import ListNotations.
Open Scope N_scope.

(** ** C63: nothing is loaded that the file does not spell *)

(** The whole text is header, definitions and end; the model has for each id the last
    definition in the text and nothing else. *)
Theorem C63_file v s x :
  load v s = Done x ->
  exists l, spells_file v (i_header x) l s /\ increasing (i_data x) /\ forall n, last_def l n (lookup (i_data x) n).
Proof.
  exact (fun H => match file_sound v s x H with
    | ex_intro _ l (conj A B) => ex_intro _ l (conj A (conj
        (eq_ind_r increasing (from_list_increasing l) B)
        (fun n => eq_ind_r (fun m => last_def l n (lookup m n)) (from_list_last l n) B)))
    end).
Qed.
Print Assumptions C63_file.

(** One attribute of any type: what is taken from the text spells the value. *)
Theorem C63_attribute t s v r : p_ty t s = ROk v r -> exists w, s = w ++ r /\ spells t v w.
Proof. exact (ty_sound t s v r). Qed.
Print Assumptions C63_attribute.

(** One object. *)
Theorem C63_object s e r :
  p_obj s = ROk e r -> exists g1 w g2, gap g1 /\ gap g2 /\ s = g1 ++ w ++ g2 ++ r /\ spells_object e w.
Proof. exact (obj_sound s e r). Qed.
Print Assumptions C63_object.

(** Numbers. *)
Theorem C63_real s d r : p_real s = ROk d r -> exists w, s = w ++ r /\ real_text d w.
Proof. exact (p_real_text s d r). Qed.
Print Assumptions C63_real.

(** The header. *)
Theorem C63_header v s h r : p_header v s = ROk h r -> exists w, s = w ++ r /\ spells_header v h w.
Proof. exact (header_sound v s h r). Qed.
Print Assumptions C63_header.

(** A file with a second definition of #7, spellings the library does not write and an
    object of an unknown kind. *)
Example C63_meets :
  exists x, load env0 (file noon
      "#7=IFCCARTESIANPOINT((0.,0.)); /* again */ #7 = IFCCARTESIANPOINT( ( +1. , .5E1 ) ); #4=IFCAXIS2PLACEMENT2D(#7,$);#9=IFCFOO('a') ;") = Done x /\
    lookup (i_data x) 7 = Some (Ent KPoint2D [VVec [FFin false 4503599627370496 (-52); FFin false 5629499534213120 (-50)]]) /\
    lookup (i_data x) 9 = Some (EDummy (lit "IFCFOO('a')")) /\ lookup (i_data x) 8 = None.
Proof. eexists. split; [vm_compute; reflexivity|]. vm_compute. auto. Qed.

(** Half of ten, in the second coordinate. *)
Example C63_spelled : real_text (FFin false 5629499534213120 (-50)) (lit ".5E1").
Proof.
  destruct (C63_real (lit ".5E1") (FFin false 5629499534213120 (-50)) []) as (w & E & H); [vm_compute; reflexivity|].
  rewrite app_nil_r in E. now rewrite E.
Qed.

(** Two directives that share a backslash can be understood in two ways: which letter is
    read depends on the order of the replacements, and C63 leaves it open. *)
Theorem C63_shared_backslash_refuted :
  exists w v v', str_text v w /\ str_text v' w /\ v <> v'.
Proof.
  exists (lit "'\X2\00C4\X0\X2\00E4\X0\'"), ([196] ++ lit "X2\00E4\X0\"), (lit "\X2\00C4\X0" ++ [228]).
  split; [|split; [|vm_compute; discriminate]]; exists (lit "\X2\00C4\X0\X2\00E4\X0\");
  (split; [reflexivity|]; split; [vm_compute; intuition discriminate|]; split; [vm_compute; reflexivity|]);
  intros g Hg (a & b & E);
  vm_compute in Hg; repeat (destruct Hg as [<-|Hg]; [vm_compute in E; repeat (destruct a as [|? a]; [discriminate E|injection E as _ E]); destruct a; discriminate E|]);
  destruct Hg.
Qed.
Print Assumptions C63_shared_backslash_refuted.
