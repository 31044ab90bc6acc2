(** Properties of the data map and the data section: C13, C14, C22, C23, C24, C25, C44. *)

From Coq Require Import String Ascii List NArith ZArith Bool Sorted.
From Verif Require Import Base Prims Spec PrimsFacts Guid Float FloatFacts Kind Types Layout
  WellTyped Schema Entity EntitySpec DataMap DataSpec TypesFacts TypesFacts2 EntityFacts
  DataMapFacts SectionFacts.
Import ListNotations.
Open Scope N_scope.

(** ** C13: data sections survive printing and reading *)

Theorem C13_section_round_trip m g0 g rest :
  increasing m -> Forall wf_def m -> forallb (fun p => exact_obj (snd p)) m = true ->
  gap g0 -> gap g -> no_gap rest ->
  p_data (g0 ++ d_data m ++ g ++ rest) = ROk m rest.
Proof.
  exact (fun Hs Hw He H0 Hg Hr =>
    eq_trans (p_data_printed m g0 g rest Hs Hw H0 Hg Hr)
             (f_equal (fun x => ROk x rest) (exact_norm_map m Hw He))).
Qed.
Print Assumptions C13_section_round_trip.

(** Without the condition on texts and reals: the same ids and kinds, every text and
    real replaced by its re-read form. *)
Theorem C13_section_round_trip_general m g0 g rest :
  increasing m -> Forall wf_def m -> gap g0 -> gap g -> no_gap rest ->
  p_data (g0 ++ d_data m ++ g ++ rest) =
  ROk (map (fun p => (fst p, match snd p with
                             | Ent k l => Ent k (map (norm_val norm_real) l)
                             | EDummy s => EDummy s
                             end)) m) rest.
Proof. exact (p_data_printed m g0 g rest). Qed.
Print Assumptions C13_section_round_trip_general.

(** The printed section is one definition per id, in increasing id order. *)
Theorem C13_printed_in_order m :
  Forall wf_def m -> exists s, lay_data m s /\ d_data m = s ++ nl.
Proof. exact (d_data_lay m). Qed.
Print Assumptions C13_printed_in_order.

(** Texts of unknown entities in the sense of C12 are printable objects. *)
Theorem C13_opaque_printable s : opaque s -> wf_obj (EDummy s).
Proof. exact (opaque_stays s). Qed.
Print Assumptions C13_opaque_printable.

(** Maps that are read are in increasing id order and their known objects printable. *)
Theorem C13_read_is_ordered s m r : p_data s = ROk m r -> increasing m /\ Forall read_def m.
Proof. exact (p_data_ok s m r). Qed.
Print Assumptions C13_read_is_ordered.

Definition example_map : dmap :=
  [ (3, Ent KPoint2D [VVec [FFin false 4503599627370496 (-52); FFin false 0 (-1074)]])
  ; (7, EDummy (lit "IFCSTYLEDITEM(#9,'a')"))
  ; (20, Ent KLocalPlacement [VOmit; VId 3]) ].

Lemma example_map_ok : increasing example_map /\ Forall wf_def example_map.
Proof.
  split; [repeat constructor|]. apply Forall_cons; [|apply Forall_cons; [|apply Forall_cons; [|apply Forall_nil]]];
    (split; [discriminate|]); cbn [snd wf_obj].
  - exists row_Point2D. split; vm_compute; reflexivity.
  - apply opaque_stays, opaqueb_ok. vm_compute. reflexivity.
  - exists row_LocalPlacement. split; vm_compute; reflexivity.
Qed.

Example C13_example :
  increasing example_map /\ Forall wf_def example_map /\
  forallb (fun p => exact_obj (snd p)) example_map = true /\
  p_data (d_data example_map ++ lit "END") = ROk example_map (lit "END").
Proof.
  split; [exact (proj1 example_map_ok)|]. split; [exact (proj2 example_map_ok)|].
  split; vm_compute; reflexivity.
Qed.

(** ** C14: the last definition of an id wins *)

Theorem C14_last_definition_wins l s g0 g rest n :
  Forall wf_def l -> forallb (fun p => exact_obj (snd p)) l = true -> lay_data l s ->
  gap g0 -> gap g -> no_gap rest ->
  exists m, p_data (g0 ++ s ++ g ++ rest) = ROk m rest /\ increasing m /\
    last_def l n (lookup m n).
Proof.
  exact (fun Hw He Hl H0 Hg Hr => ex_intro _ (from_list l)
    (conj (eq_trans (p_data_reads l s g0 g rest Hw Hl H0 Hg Hr)
                    (f_equal (fun x => ROk (from_list x) rest) (exact_norm_map l Hw He)))
    (conj (from_list_increasing l) (from_list_last l n)))).
Qed.
Print Assumptions C14_last_definition_wins.

(** Building a map from definitions in memory does the same. *)
Theorem C14_from_list l n : increasing (from_list l) /\ last_def l n (lookup (from_list l) n).
Proof. exact (conj (from_list_increasing l) (from_list_last l n)). Qed.
Print Assumptions C14_from_list.

Example C14_example :
  p_data (lit "DATA; #2=A; #1=B; #2=C; ENDSEC;") =
    ROk [(1, EDummy (lit "B")); (2, EDummy (lit "C"))] [] /\
  last_def [(2, EDummy (lit "A")); (1, EDummy (lit "B")); (2, EDummy (lit "C"))] 2
    (Some (EDummy (lit "C"))) /\
  last_def [(2, EDummy (lit "A")); (1, EDummy (lit "B")); (2, EDummy (lit "C"))] 3 None.
Proof.
  split; [vm_compute; reflexivity|]. split.
  - exists [(2, EDummy (lit "A")); (1, EDummy (lit "B"))], []. split; [reflexivity|intros []].
  - cbn. intuition discriminate.
Qed.

(** ** C22: new objects *)

Theorem C22_new_object m e m' n :
  increasing m -> insert_new m e = Some (m', n) ->
  1 <= n /\ (forall k, In k (map fst m) -> k < n) /\ lookup m n = None /\
  increasing m' /\ (forall k, lookup m' k = if k =? n then Some e else lookup m k).
Proof. exact (insert_new_spec m e m' n). Qed.
Print Assumptions C22_new_object.

Theorem C22_in_range m e m' n :
  (forall k, In k (map fst m) -> k <= max_usize) -> insert_new m e = Some (m', n) -> n <= max_usize.
Proof. exact (insert_new_range m e m' n). Qed.
Print Assumptions C22_in_range.

(** It fails exactly when the largest 64-bit id is in use. *)
Theorem C22_full m e :
  (forall k, In k (map fst m) -> k <= max_usize) ->
  (insert_new m e = None <-> In max_usize (map fst m)).
Proof. exact (insert_new_full m e). Qed.
Print Assumptions C22_full.

Example C22_example :
  (exists m', insert_new example_map (EDummy (lit "X")) = Some (m', 21)) /\
  (exists m', insert_new [] (EDummy (lit "X")) = Some (m', 1)) /\
  insert_new [(max_usize, EDummy (lit "X"))] (EDummy (lit "X")) = None.
Proof.
  split; [eexists; vm_compute; reflexivity|]. split; [eexists; vm_compute; reflexivity|].
  vm_compute. reflexivity.
Qed.

(** ** C23: map algebra *)

(** Every program of operations from the empty map (or any ordered map) acts and
    answers like the same program on a mathematical finite map. *)
Theorem C23_refines os m m' l :
  increasing m -> in_range_map m -> Forall op_ok os -> run m os = Some (m', l) ->
  increasing m' /\ in_range_map m' /\ frun (lookup m) os (lookup m') l.
Proof. exact (run_refines os m m' l). Qed.
Print Assumptions C23_refines.

(** The exact cases in which an operation panics. *)
Theorem C23_panics m o :
  in_range_map m ->
  (step m o = None <->
   match o with
   | OpNew _ => lookup m max_usize <> None
   | OpUpdate k n _ => forall l, lookup m n <> Some (Ent k l)
   | _ => False
   end).
Proof. exact (step_panics m o). Qed.
Print Assumptions C23_panics.

(** The representation is determined by the answers. *)
Theorem C23_extensional m m' :
  increasing m -> increasing m' -> (forall n, lookup m n = lookup m' n) -> m = m'.
Proof. exact (same_map m m'). Qed.
Print Assumptions C23_extensional.

Theorem C23_contains m n : contains m n = true <-> exists e, lookup m n = Some e.
Proof. exact (contains_spec m n). Qed.
Print Assumptions C23_contains.

Example C23_example :
  let a := EDummy (lit "A") in let b := EDummy (lit "B") in
  run [] [OpNew a; OpInsert 9 b; OpIfAbsent 9 a; OpRemove 1; OpNew a; OpInsert 9 a] =
  Some ([(9, a); (10, a)], [AId 1; AObj None; AUnit; AObj (Some a); AId 10; AObj (Some b)]) /\
  increasing [] /\ in_range_map [] /\
  Forall op_ok [OpNew a; OpInsert 9 b; OpIfAbsent 9 a; OpRemove 1; OpNew a; OpInsert 9 a].
Proof.
  cbv zeta. split; [vm_compute; reflexivity|]. split; [constructor|]. split; [intros k []|].
  repeat constructor; discriminate.
Qed.

(** ** C24: typed lookup and search *)

Theorem C24_typed_lookup k m n l : get k m n = Done l <-> lookup m n = Some (Ent k l).
Proof. exact (get_spec k m n l). Qed.
Print Assumptions C24_typed_lookup.

Theorem C24_otherwise_panic k m n :
  (forall l, lookup m n <> Some (Ent k l)) -> get k m n = Panic.
Proof. exact (get_panic k m n). Qed.
Print Assumptions C24_otherwise_panic.

Theorem C24_search k m n l :
  increasing m ->
  (In (n, l) (find_all_of_type k m) <-> lookup m n = Some (Ent k l)) /\
  StronglySorted N.lt (map fst (find_all_of_type k m)).
Proof.
  exact (fun Hs => conj
    (iff_trans (find_all_spec k m n l)
       (conj (In_lookup m n (Ent k l) Hs) (lookup_In m n (Ent k l))))
    (find_all_sorted k m Hs)).
Qed.
Print Assumptions C24_search.

Theorem C24_search_ids k m n :
  increasing m ->
  (In n (id_of k m) <-> exists e, In (n, e) m /\ kind_of e = k) /\
  StronglySorted N.lt (id_of k m).
Proof. exact (fun Hs => conj (id_of_spec k m n) (id_of_sorted k m Hs)). Qed.
Print Assumptions C24_search_ids.

Example C24_example :
  get KLocalPlacement example_map 20 = Done [VOmit; VId 3] /\
  get KLocalPlacement example_map 3 = Panic /\ get KLocalPlacement example_map 4 = Panic /\
  find_all_of_type KLocalPlacement example_map = [(20, [VOmit; VId 3])] /\
  id_of KDummy example_map = [7].
Proof. vm_compute. auto 10. Qed.

(** ** C25: references given by id or by value *)

Theorem C25_id m n : or_insert m (IsId n) = Some (m, n).
Proof. exact eq_refl. Qed.
Print Assumptions C25_id.

Theorem C25_value m e m' n :
  increasing m -> or_insert m (IsCustom e) = Some (m', n) ->
  lookup m n = None /\ lookup m' n = Some e /\ (forall k, k <> n -> lookup m' k = lookup m k).
Proof. exact (or_insert_custom m e m' n). Qed.
Print Assumptions C25_value.

Example C25_example :
  or_insert example_map (IsId 7) = Some (example_map, 7) /\
  exists m', or_insert example_map (IsCustom (EDummy (lit "X"))) = Some (m', 21) /\
    lookup m' 21 = Some (EDummy (lit "X")) /\ lookup m' 7 = lookup example_map 7.
Proof. split; [reflexivity|]. eexists. split; [vm_compute; reflexivity|]. vm_compute. auto. Qed.

(** ** C44: a plane angle measure with a semicolon makes the file unreadable *)

(** Whatever definitions precede it, whatever follows, whatever the gaps. *)
Theorem C44_measure_line_rejected l txt n v t g1 g2 g3 g4 g5 rest :
  Forall wf_def l -> lay_defs l txt -> n <= max_usize ->
  wf_ent KPlaneAngleMeasure [v] -> lay_entity KPlaneAngleMeasure [v] t ->
  gap g1 -> gap g2 -> gap g3 -> gap g4 -> gap g5 ->
  p_data (g4 ++ lit "DATA;" ++ g5 ++ txt ++
          d_id n ++ g1 ++ lit "=" ++ g2 ++ t ++ g3 ++ lit ";" ++ rest) = RBack.
Proof. exact (measure_semicolon l txt n v t g1 g2 g3 g4 g5 rest). Qed.
Print Assumptions C44_measure_line_rejected.

(** Without the semicolon the line is accepted, and so is the same line with an
    unimplemented measure. *)
Example C44_example :
  p_data (lit "DATA; #1= IFCPLANEANGLEMEASURE(0.5); ENDSEC;") = RBack /\
  p_data (lit "DATA; #1= IFCPLANEANGLEMEASURE(0.5) ENDSEC;") =
    ROk [(1, Ent KPlaneAngleMeasure [VReal (FFin false 4503599627370496 (-53))])] [] /\
  p_data (lit "DATA; #1= IFCLENGTHMEASURE(0.5); ENDSEC;") =
    ROk [(1, EDummy (lit "IFCLENGTHMEASURE(0.5)"))] [] /\
  wf_ent KPlaneAngleMeasure [VReal (FFin false 4503599627370496 (-53))] /\
  lay_entity KPlaneAngleMeasure [VReal (FFin false 4503599627370496 (-53))]
    (d_entity (Ent KPlaneAngleMeasure [VReal (FFin false 4503599627370496 (-53))])).
Proof.
  split; [vm_compute; reflexivity|]. split; [vm_compute; reflexivity|].
  split; [vm_compute; reflexivity|].
  assert (H : wf_ent KPlaneAngleMeasure [VReal (FFin false 4503599627370496 (-53))])
    by (exists row_PlaneAngleMeasure; split; vm_compute; reflexivity).
  split; [exact H|]. exact (d_entity_lay _ _ H).
Qed.
