(** The relations a program leaves in the model: an invariant over all calls. *)

From Coq Require Import String Ascii List NArith ZArith Bool Lia Permutation.
From Verif Require Import Base Prims Float Arith Kind Types Schema Entity EntityFacts DataMap DataSpec DataMapFacts
  Extractor Builder BuilderRun BuilderBase BuilderGrow BuilderSpec.
Import ListNotations.
Open Scope N_scope.
Open Scope builder_scope.

(** ** Facts stated by relations *)

Inductive fact := FPair (k : kind) (a b : N) | FOne (k : kind) (a : N).

Lemma kind_dec (x y : kind) : {x = y} + {x <> y}.
Proof.
  destruct (kind_eqb x y) eqn:E.
  - left. now apply kind_eqb_eq.
  - right. intro H. apply kind_eqb_eq in H. congruence.
Defined.

Lemma fact_dec (x y : fact) : {x = y} + {x <> y}.
Proof. decide equality; try apply N.eq_dec; apply kind_dec. Defined.

Definition fpairs (k : kind) (l : list (N * N)) : list fact := map (fun ab => FPair k (fst ab) (snd ab)) l.

Definition facts_of (k : kind) (l : list val) : list fact :=
  match k with
  | KRelAggregates => map (FOne k) (ids_at l 4) ++ fpairs k (list_prod (ids_at l 4) (ids_at l 5))
  | KRelContainedInSpatialStructure =>
      map (FOne k) (ids_at l 5) ++ fpairs k (list_prod (ids_at l 5) (ids_at l 4))
  | KRelDefinesByType | KRelAssociatesMaterial => fpairs k (list_prod (ids_at l 5) (ids_at l 4))
  | KRelVoidsElement | KRelFillsElement => fpairs k (list_prod (ids_at l 4) (ids_at l 5))
  | _ => []
  end.

Definition facts (m : dmap) : list fact :=
  flat_map (fun q => match snd q with Ent k l => facts_of k l | EDummy _ => [] end) m.

(** Facts that wait for the end of a scope. *)
Definition elem_fact (st : N) (x : cls * N) : fact :=
  match fst x with
  | CSpace => FPair KRelAggregates st (snd x)
  | _ => FPair KRelContainedInSpatialStructure st (snd x)
  end.
Definition type_facts (x : cls * N * list N) : list fact :=
  match fst (fst x) with
  | CSpace => []
  | _ => map (FPair KRelDefinesByType (snd (fst x))) (snd x)
  end.
Definition void_fact (x : N * N) : fact := FPair KRelVoidsElement (snd x) (fst x).
Definition fill_fact (x : N * N) : fact := FPair KRelFillsElement (fst x) (snd x).

Definition storey_facts (st : storey) : list fact :=
  [FOne KRelContainedInSpatialStructure (s_id st)] ++ [FOne KRelAggregates (s_id st)] ++
  map (elem_fact (s_id st)) (s_elems st) ++ flat_map type_facts (s_types st) ++
  map void_fact (s_voids_wall st) ++ map void_fact (s_voids_slab st) ++ map fill_fact (s_fills st).

Definition node_facts (x : N * list N) : list fact :=
  [FOne KRelAggregates (fst x)] ++ map (FPair KRelAggregates (fst x)) (snd x).

Definition scope_facts (w : scope) : list fact :=
  match w with
  | AtProject => []
  | AtSite s => node_facts s
  | AtBuilding s b => node_facts s ++ node_facts b
  | AtStorey s b st | AtHost s b st _ | AtWallProps s b st _ _ _ | AtSet s b st _ _ =>
      node_facts s ++ node_facts b ++ storey_facts st
  end.

Definition assoc_facts (l : list (akey * list val)) : list fact :=
  flat_map (fun x => facts_of KRelAssociatesMaterial (snd x)) l.
Definition proj_facts (p : proj) : list fact :=
  node_facts (p_project p, p_sites p) ++ assoc_facts (p_assoc p).

(** Facts that a call demands. *)
Definition call_facts (pr : N) (c : call) : list fact :=
  fpairs KRelContainedInSpatialStructure (call_contains c) ++
  map (FOne KRelContainedInSpatialStructure) (call_storey c) ++
  fpairs KRelVoidsElement (call_voids c) ++ fpairs KRelFillsElement (call_fills c) ++
  fpairs KRelDefinesByType (call_types c) ++ fpairs KRelAssociatesMaterial (call_materials c) ++
  fpairs KRelAggregates (call_tree pr c) ++ map (FOne KRelAggregates) (call_node c).

(** ** Counting *)

Definition cnt (x : fact) (l : list fact) : nat := count_occ fact_dec l x.

Lemma cnt_app x a b : cnt x (a ++ b) = (cnt x a + cnt x b)%nat.
Proof. apply count_occ_app. Qed.
Lemma cnt_nil x : cnt x [] = 0%nat.
Proof. reflexivity. Qed.
Definition hit (x a : fact) : nat := if fact_dec a x then 1%nat else 0%nat.
Lemma cnt_cons x a l : cnt x (a :: l) = (hit x a + cnt x l)%nat.
Proof. unfold cnt, hit. cbn [count_occ]. destruct (fact_dec a x); reflexivity. Qed.
Lemma perm_cnt a b : Permutation a b <-> forall x, cnt x a = cnt x b.
Proof. apply Permutation_count_occ. Qed.

Lemma cnt_map_app {A} x (f : A -> fact) a b : cnt x (map f (a ++ b)) = (cnt x (map f a) + cnt x (map f b))%nat.
Proof. now rewrite map_app, cnt_app. Qed.
Lemma cnt_flat_app {A} x (f : A -> list fact) a b :
  cnt x (flat_map f (a ++ b)) = (cnt x (flat_map f a) + cnt x (flat_map f b))%nat.
Proof. now rewrite flat_map_app, cnt_app. Qed.

Ltac perm :=
  repeat match goal with H : Permutation _ _ |- _ => rewrite perm_cnt in H end;
  try rewrite perm_cnt;
  let x := fresh "x" in intro x;
  repeat match goal with H : forall _ : fact, cnt _ _ = cnt _ _ |- _ => specialize (H x) end;
  repeat (rewrite ?cnt_app, ?cnt_nil, ?cnt_cons, ?cnt_map_app, ?cnt_flat_app, ?map_app, ?flat_map_app in * );
  lia.

(** ** Quiet calls *)

Lemma facts_app a b : facts (a ++ b) = facts a ++ facts b.
Proof. apply flat_map_app. Qed.

Lemma facts_quiet_of k l : is_rel k = false -> facts_of k l = [].
Proof. destruct k; try reflexivity; discriminate. Qed.

Lemma facts_quiet new : Forall (fun q => quiet (kind_of (snd q)) = true) new -> facts new = [].
Proof.
  induction 1 as [|[n e] new H _ IH]; cbn [facts flat_map snd]; auto. fold (facts new). rewrite IH, app_nil_r.
  destruct e as [k l|]; auto. cbn [kind_of snd] in H. apply facts_quiet_of. unfold quiet in H.
  now apply negb_true_iff.
Qed.

Lemma facts_chg m m' : Forall2 chg m m' -> facts m' = facts m.
Proof.
  induction 1 as [|[n e] [n' e'] m m' H _ IH]; auto. cbn [facts flat_map snd]. fold (facts m) (facts m').
  rewrite IH. f_equal. destruct H as [_ [H|(l & l' & H1 & H2 & _)]]; cbn [snd] in *; subst; auto.
Qed.

Lemma facts_grow p p' : grow quiet p p' -> dense (p_map p) -> facts (p_map p') = facts (p_map p).
Proof.
  intros H Hd. destruct (H Hd) as (_ & _ & _ & m1 & new & -> & F & G).
  now rewrite facts_app, (facts_quiet _ G), (facts_chg _ _ F), app_nil_r.
Qed.

Lemma Forall2_len {A B} (R : A -> B -> Prop) l l' : Forall2 R l l' -> length l = length l'.
Proof. induction 1; cbn [length]; auto. Qed.

Lemma size_grow A p p' : grow A p p' -> dense (p_map p) -> size (p_map p) <= size (p_map p').
Proof.
  intros H Hd. destruct (H Hd) as (_ & _ & _ & m1 & new & -> & F & _). unfold size.
  rewrite app_length, (Forall2_len _ _ _ F). lia.
Qed.

(** What a call adds to the table of associations. *)
Definition assoc_step (key : akey) (n : N) (a a' : list (akey * list val)) : Prop :=
  exists r, length r = 4%nat /\
    a' = hset akey_eqb a key
           (push_at 4 n (match hget akey_eqb a key with Some rel => rel | None => r ++ [VList []; VId (snd key)] end)).

Definition assoc_opt (key : option akey) (n : N) (a a' : list (akey * list val)) : Prop :=
  match key with Some k => assoc_step k n a a' | None => a' = a end.

(** The effect of a quiet call that makes one element or type. *)
Definition eff (c : B (N * storey)) (f : N -> storey) (key : option akey) : Prop :=
  forall p n st p', c p = Done (n, st, p') -> dense (p_map p) ->
    grow quiet p p' /\ size (p_map p) < n <= size (p_map p') /\ st = f n /\
    p_sites p' = p_sites p /\ assoc_opt key n (p_assoc p) (p_assoc p').

Lemma eff_bind {A} (c : B A) (g : A -> B (N * storey)) f key :
  steps (grow quiet) c -> steps frame c -> (forall a, eff (g a) f key) -> eff (bbind c g) f key.
Proof.
  intros H1 H2 H3 p n st p' H Hd. apply bbind_inv in H as (a & q & Ha & Hb).
  pose proof (H1 _ _ _ Ha) as G. pose proof (H2 _ _ _ Ha) as [F1 F2].
  destruct (G Hd) as [Hd' _].
  destruct (H3 a _ _ _ _ Hb Hd') as (E1 & E2 & E3 & E4 & E5).
  pose proof (size_grow _ _ _ G Hd).
  split; [eapply grow_trans; eauto|]. split; [lia|]. split; auto. split; [congruence|].
  now rewrite <- F2.
Qed.

Lemma eff_ins k l (f : N -> storey) :
  is_rel k = false -> eff (n <-- ins k l ;; bret (n, f n)) f None.
Proof.
  intros Hk p n st p' H Hd. apply bbind_inv in H as (a & q & Ha & Hb).
  apply bret_inv in Hb as [E ->]. injection E as <- ->.
  pose proof (grow_ins quiet k l (quiet_of _ Hk) _ _ _ Ha) as G.
  pose proof (frame_ins k l _ _ _ Ha) as [F1 F2].
  apply ins_inv in Ha as (E1 & E2 & -> & E3); auto. cbn [p_map set_map].
  split; auto. split; [|repeat split; auto].
  unfold size in *. rewrite app_length. cbn [length]. lia.
Qed.

Section Effects.
Variable o : oracle.


Lemma owned_inv name p r p' :
  owned o name p = Done (r, p') ->
  length r = 4%nat /\ p' = set_tick (S (p_tick p)) p.
Proof.
  unfold owned, fresh_guid. intro H. apply bbind_inv in H as (g & q & H1 & H2).
  apply bbind_inv in H1 as (t & q1 & H1 & H3). apply bret_inv in H3 as [-> ->].
  unfold tick in H1. injection H1 as <- <-.
  apply bbind_inv in H2 as (q2 & q3 & H2 & H3). unfold bget in H2. injection H2 as <- <-.
  apply bret_inv in H3 as [-> ->]. split; reflexivity.
Qed.

Lemma associate_inv c t m n p u p' :
  associate o c t m n p = Done (u, p') ->
  p_sites p' = p_sites p /\ p_map p' = p_map p /\ assoc_step (c, t, m) n (p_assoc p) (p_assoc p').
Proof.
  unfold associate. intro H. apply bbind_inv in H as (q & q0 & H1 & H).
  unfold bget in H1. injection H1 as <- <-. apply bbind_inv in H as (rel & q & H1 & H).
  apply bbind_inv in H as (q1 & q2 & H2 & H). unfold bget in H2. injection H2 as <- <-.
  unfold bput in H. injection H as <- <-. cbn [p_map set_assoc p_assoc p_sites]. unfold assoc_step. cbn [snd].
  destruct (hget akey_eqb (p_assoc p) (c, t, m)) as [rel0|] eqn:E.
  - apply bret_inv in H1 as [-> ->]. repeat split; auto. exists [VOmit; VOmit; VOmit; VOmit]. split; auto.
  - apply bbind_inv in H1 as (r & q3 & H1 & H3). apply bret_inv in H3 as [-> ->].
    apply owned_inv in H1 as [Hl ->]. cbn [set_tick p_map p_assoc p_sites]. repeat split; auto.
    exists r. split; auto.
Qed.

Lemma eff_ins_assoc k l c t m (f : N -> storey) :
  is_rel k = false ->
  eff (n <-- ins k l ;; u <-- associate o c t m n ;; bret (n, f n)) f (Some (c, t, m)).
Proof.
  intros Hk p n st p' H Hd. apply bbind_inv in H as (a & q & Ha & Hb).
  apply bbind_inv in Hb as (u & q1 & Hu & Hb). apply bret_inv in Hb as [E ->]. injection E as <- ->.
  pose proof (grow_ins quiet k l (quiet_of _ Hk) _ _ _ Ha) as G.
  pose proof (frame_ins k l _ _ _ Ha) as [F1 F2].
  pose proof (st_associate (A := quiet) (R := grow quiet) o c t m n _ _ _ Hu) as G2.
  apply associate_inv in Hu as (S1 & S2 & S3).
  apply ins_inv in Ha as (E1 & E2 & -> & E3); auto. rewrite S2. cbn [p_map set_map p_assoc p_sites] in *.
  split; [eapply grow_trans; eauto|]. split; [|repeat split; auto].
  unfold size in *. rewrite app_length. cbn [length]. lia.
Qed.

Ltac lem L := first [eapply (L quiet _ _ quiet_ok) | eapply (L quiet _ _)].
Ltac qs := first
  [ apply (grow_ins quiet); reflexivity | apply frame_ins | apply grow_tick | apply frame_tick
  | lem @st_walk | lem @st_walk_pairs | lem @st_root | lem @st_owned | lem @st_axis3d
  | lem @st_placement_new | lem @st_new_relative | lem @st_extrude | lem @st_rectangular_shape
  | lem @st_arbitrary_profile; reflexivity | lem @st_horizontal_shape | lem @st_vertical_shape
  | lem @st_arbitrary_shape | lem @st_add_representation | lem @st_material | lem @st_thickness
  | lem @st_host_thickness | lem @st_axis_repr | lem @st_wall_body | lem @st_slab_body
  | lem @st_slab_direction | lem @st_slab_filling | lem @st_sub_context | lem @st_single_property
  | lem @st_property_set ].
Ltac ef := repeat match goal with |- eff (bbind _ _) _ _ => apply eff_bind; [solve [qs]|solve [qs]|intro] end.

Lemma eff_new_type c m name i st :
  eff (new_type o c m name i st)
    (fun n => match c with CWall => type_entry c n st | _ => type_reset c n st end) (Some (c, true, m)).
Proof.
  unfold new_type. apply eff_bind; [solve [qs]|solve [qs]|intro].
  apply (eff_ins_assoc _ _ c true m (fun n => match c with CWall => type_entry c n st | _ => type_reset c n st end)).
  now destruct c.
Qed.

Lemma eff_new_window_type name i j st : eff (new_window_type o name i j st) (fun n => type_reset CWindow n st) None.
Proof. unfold new_window_type. apply eff_bind; [solve [qs]|solve [qs]|intro]. now apply (eff_ins _ _ (fun n => type_reset CWindow n st)). Qed.
Lemma eff_new_space_type name i st : eff (new_space_type o name i st) (fun n => type_reset CSpace n st) None.
Proof. unfold new_space_type. apply eff_bind; [solve [qs]|solve [qs]|intro]. now apply (eff_ins _ _ (fun n => type_reset CSpace n st)). Qed.

Lemma eff_place_element c m ty name a b st :
  eff (place_element o c m ty name a b st) (fun n => type_push c ty n (add_elem c n st)) (Some (c, false, m)).
Proof.
  unfold place_element. do 4 (apply eff_bind; [solve [qs]|solve [qs]|intro]).
  apply (eff_ins_assoc _ _ c false m (fun n => type_push c ty n (add_elem c n st))). now destruct c.
Qed.

Lemma eff_new_wall m ty name s q st :
  eff (new_wall o m ty name s q st) (fun n => type_push CWall ty n (add_elem CWall n st)) (Some (CWall, false, m)).
Proof. unfold new_wall. ef. apply eff_place_element. Qed.
Lemma eff_new_slab m ty name s q st :
  eff (new_slab o m ty name s q st) (fun n => type_push CSlab ty n (add_elem CSlab n st)) (Some (CSlab, false, m)).
Proof. unfold new_slab. ef. apply eff_place_element. Qed.
Lemma eff_new_roof m ty name s q st :
  eff (new_roof o m ty name s q st) (fun n => type_push CRoof ty n (add_elem CRoof n st)) (Some (CRoof, false, m)).
Proof. unfold new_roof. ef. apply eff_place_element. Qed.
Lemma eff_new_shading m ty name a b q st :
  eff (new_shading o m ty name a b q st) (fun n => type_push CShading ty n (add_elem CShading n st))
    (Some (CShading, false, m)).
Proof. unfold new_shading. ef. apply eff_place_element. Qed.
Lemma eff_new_space ty name cs h q st :
  eff (new_space o ty name cs h q st) (fun n => type_push CSpace ty n (add_elem CSpace n st)) None.
Proof.
  unfold new_space. do 6 (apply eff_bind; [solve [qs]|solve [qs]|intro]).
  now apply (eff_ins _ _ (fun n => type_push CSpace ty n (add_elem CSpace n st))).
Qed.
Lemma eff_place_opening h name a b st :
  eff (place_opening o h name a b st) (fun n => add_void (h_slab h) n (h_id h) st) None.
Proof.
  unfold place_opening. do 4 (apply eff_bind; [solve [qs]|solve [qs]|intro]).
  now apply (eff_ins _ _ (fun n => add_void (h_slab h) n (h_id h) st)).
Qed.
Lemma eff_wall_opening h name a b q d st :
  eff (wall_opening o h name a b q d st) (fun n => add_void (h_slab h) n (h_id h) st) None.
Proof. unfold wall_opening. ef. apply eff_place_opening. Qed.
Lemma eff_slab_opening h name s st :
  eff (slab_opening o h name s st) (fun n => add_void (h_slab h) n (h_id h) st) None.
Proof. unfold slab_opening. ef. apply eff_place_opening. Qed.
Lemma eff_place_window m ty op name b st :
  eff (place_window o m ty op name b st) (fun n => type_push CWindow ty n (add_fill op n (add_elem CWindow n st)))
    (Some (CWindow, false, m)).
Proof.
  unfold place_window. do 5 (apply eff_bind; [solve [qs]|solve [qs]|intro]).
  now apply (eff_ins_assoc _ _ CWindow false m (fun n => type_push CWindow ty n (add_fill op n (add_elem CWindow n st)))).
Qed.

(** Opening and window. *)
Definition eff2 (c : B (N * N * storey)) (f : N -> N -> storey) (key : akey) : Prop :=
  forall p a n st p', c p = Done (a, n, st, p') -> dense (p_map p) ->
    grow quiet p p' /\ size (p_map p) < a /\ a < n <= size (p_map p') /\ st = f a n /\
    p_sites p' = p_sites p /\ assoc_step key n (p_assoc p) (p_assoc p').

Lemma eff2_windows (c : B (N * storey)) {A} (d : B A) m ty name h (body : A -> list val) st :
  eff c (fun n => add_void (h_slab h) n (h_id h) st) None ->
  steps (grow quiet) d -> steps frame d ->
  eff2 (letp (op, st1) <-- c ;; b <-- d ;;
        letp (n, st2) <-- place_window o m ty op name (body b) st1 ;; bret (op, n, st2))
    (fun a n => type_push CWindow ty n (add_fill a n (add_elem CWindow n (add_void (h_slab h) a (h_id h) st))))
    (CWindow, false, m).
Proof.
  intros He Hg Hf p a n st' p' H Hd. apply bbind_inv in H as ([op st1] & q & H1 & H).
  apply bbind_inv in H as (b & q1 & H2 & H). apply bbind_inv in H as ([w st2] & q2 & H3 & H).
  apply bret_inv in H as [E ->]. injection E as <- <- <-.
  destruct (He _ _ _ _ H1 Hd) as (G1 & N1 & -> & S1 & A1). destruct (G1 Hd) as [Hd1 _].
  pose proof (Hg _ _ _ H2) as G2. pose proof (Hf _ _ _ H2) as [S2 A2]. destruct (G2 Hd1) as [Hd2 _].
  destruct (eff_place_window _ _ _ _ _ _ _ _ _ _ H3 Hd2) as (G3 & N3 & -> & S3 & A3).
  pose proof (size_grow _ _ _ G2 Hd1).
  split; [eauto using grow_trans|]. split; [lia|]. split; [lia|]. split; auto.
  split; [congruence|]. cbn [assoc_opt] in *. congruence.
Qed.

Lemma eff2_wall_window h m ty name a b q d st :
  eff2 (wall_window o h m ty name a b q d st)
    (fun a n => type_push CWindow ty n (add_fill a n (add_elem CWindow n (add_void (h_slab h) a (h_id h) st))))
    (CWindow, false, m).
Proof.
  intros p x n st' p' H. unfold wall_window in H.
  eapply (eff2_windows (wall_opening o h (window_opening_name name) a b q v_z st)
     (t <-- host_thickness o CWall (h_id h) ;; rectangular_shape a b t d (s_ctx st)) m ty name h (fun b => b)).
  - apply eff_wall_opening.
  - apply steps_bind; [apply grow_pre|solve [qs]|intro; solve [qs]].
  - apply steps_bind; [apply frame_pre|solve [qs]|intro; solve [qs]].
  - apply bbind_inv in H as ([op st1] & q1 & H1 & H). apply bbind_inv in H as (t & q2 & H2 & H).
    apply bbind_inv in H as (bb & q3 & H3 & H). unfold bbind at 1. rewrite H1. unfold bbind at 1.
    unfold bbind at 1. rewrite H2, H3. exact H.
Qed.

Lemma eff2_slab_window h m ty name s st :
  eff2 (slab_window o h m ty name s st)
    (fun a n => type_push CWindow ty n (add_fill a n (add_elem CWindow n (add_void (h_slab h) a (h_id h) st))))
    (CWindow, false, m).
Proof.
  unfold slab_window. apply (eff2_windows _ _ m ty name h (fun b => b)).
  - apply eff_slab_opening.
  - solve [qs].
  - solve [qs].
Qed.
End Effects.
