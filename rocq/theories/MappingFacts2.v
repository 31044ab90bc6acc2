(** Facts about reading geometry from loaded and built models. *)

From Coq Require Import String Ascii List NArith ZArith Bool Lia.
From Verif Require Import Base Prims Float Kind Types WellTyped TypesFacts Schema Entity EntitySpec EntityFacts
  DataMap DataSpec DataMapFacts TypesFacts2 SectionFacts Header File HeaderSpec FileSpec FileFacts Extractor Mapping MapSpec
  MappingFacts.
Import ListNotations.
Open Scope N_scope.

(** ** Followed attributes are checked *)

Lemma leads_checked k l ks n : wf_ent k l -> leads k l ks n ->
  exists ks', (forall x, In x ks' -> In x ks) /\ checked_ref (Ent k l) ks' n.
Proof.
  intros Hw (i & v & Hi & Hv & Hm).
  assert (HH : forall r f ks', row_of k = Some r -> nth_error (row_fields r) i = Some f ->
    (forall x, In x ks' -> In x ks) -> HeaderSpec.points f v ks' n ->
    exists ks', (forall x, In x ks' -> In x ks) /\ checked_ref (Ent k l) ks' n).
  { intros r f ks' Hr Hf Hk Hp. exists ks'. split; auto. exists k, l, r, i, f, v. auto 6. }
  destruct Hw as (r & Hr & Hw).
  assert (Hf : exists f, nth_error (row_fields r) i = Some f /\ wt f v = true).
  { clear - Hw Hv. revert l i Hw Hv. induction (row_fields r) as [|f fs IH]; intros [|a l] [|i] Hw Hv; try discriminate;
      cbn [wts nth_error] in *; apply andb_prop in Hw as [H1 H2]; [|eauto]. injection Hv as ->. eauto. }
  destruct Hf as (f & Hf & Hwt). specialize (HH r f). 
  destruct k; cbn [follows In] in Hi; try contradiction; injection Hr as <-;
    repeat (destruct Hi as [Hi|Hi]; [injection Hi as <- <-; cbn in Hf; injection Hf as <-;
      repeat match goal with
      | H : wt (TRef _ _) _ = true |- _ => apply wt_ref in H as (? & ->)
      | H : wt (idor ?k ?r) _ = true |- _ => apply wt_idor in H as [(? & ->)|(? & -> & _)]
      | H : wt (TList _) _ = true |- _ => apply wt_list in H as (? & -> & H); apply all_refs in H as (? & ->)
      | H : wt (TOpt _) _ = true |- _ => apply wt_opt in H as [->|[->|H]]
      end;
      destruct Hm as [Hm|(vs & Hm & Hin)]; try discriminate; injection Hm as <-;
      (eapply HH; [reflexivity|reflexivity| |
         repeat first [apply points_ref|apply points_idor|apply points_opt
                      |eapply points_list; [exact Hin|]]]); intros ? Hx; cbn [In] in *; tauto
      |]);
    contradiction.
Qed.

(** ** Objects of the model *)

Section Good.
Variable m : dmap.
Hypothesis typed : forall n k l, lookup m n = Some (Ent k l) -> wf_ent k l.
(** References that are followed are good. *)
Hypothesis good : forall i k l ks n, lookup m i = Some (Ent k l) -> leads k l ks n ->
  exists e, lookup m n = Some e /\ permitted ks e.

Lemma uses_stays k l k' l' : uses m k l k' l' -> ~ uses_an_embedded m k l ->
  forall i, lookup m i = Some (Ent k l) -> exists j, lookup m j = Some (Ent k' l').
Proof.
  induction 1 as [k l|k l ks n k1 l1 k2 l2 Hl Hn Hk Hu IH|k l i k1 l1 k2 l2 Hi Hv Hu IH]; intros He j Hj.
  - eauto.
  - apply (IH) with (i := n); auto. intros (a & b & c & d & H1 & H2 & H3). apply He. exists a, b, c, d.
    split; auto. econstructor 2; eauto.
  - exfalso. apply He. exists k, l, i, l1. split; [constructor|]. split; auto.
    change i with (fst (i, [k1])). now apply in_map.
Qed.

Lemma lacking_good i k l : lookup m i = Some (Ent k l) -> ~ uses_an_embedded m k l ->
  lacking m k l <-> needs_unknown m k l \/ needs_uneven m k l.
Proof.
  intros Hi He. split.
  - intros [(k' & l' & ks & n & Hu & Hl & Hn)|H]; [left|now right].
    destruct (uses_stays _ _ _ _ Hu He _ Hi) as (j & Hj).
    destruct (good _ _ _ _ _ Hj Hl) as ([k1 l1|s] & H1 & H2).
    + exfalso. destruct H2 as [H2|H2]; cbn [kind_of] in H2; [now apply (Hn _ _ H1)|].
      apply typed in H1 as (r & Hr & _). rewrite H2 in Hr. discriminate.
    + exists k', l', ks, n, s. auto.
  - intros [(k' & l' & ks & n & s & Hu & Hl & Hn)|H]; [left|now right].
    exists k', l', ks, n. split; auto. split; auto. intros k1 l1 H1. rewrite Hn in H1. discriminate.
Qed.

End Good.

(** ** Reading any model *)

Lemma done_iff m k l r : (forall n k l, lookup m n = Some (Ent k l) -> wf_ent k l) -> wf_ent k l ->
  mapping m k l = Some (Done r) <-> says m k l r.
Proof.
  intros Ht Hw. split; [|apply says_mapping]. intro H.
  destruct (mapping_reads m Ht k l _ Hw H) as [(a & Ha & HP & _)|[Ha _]]; [|discriminate]. now injection Ha as ->.
Qed.

Lemma panic_iff m k l : (forall n k l, lookup m n = Some (Ent k l) -> wf_ent k l) -> wf_ent k l ->
  In k readable_kinds -> mapping m k l = Some Panic <-> lacking m k l.
Proof.
  intros Ht Hw Hk. destruct (mapping m k l) as [x|] eqn:E.
  - destruct (mapping_reads m Ht k l _ Hw E) as [(a & -> & HP & HN)|[-> HP]].
    + split; [discriminate|tauto].
    + tauto.
  - apply mapping_none in E. contradiction.
Qed.

Lemma no_err m k l : (forall n k l, lookup m n = Some (Ent k l) -> wf_ent k l) -> wf_ent k l ->
  mapping m k l <> Some Err.
Proof.
  intros Ht Hw E. destruct (mapping_reads m Ht k l _ Hw E) as [(a & Ha & _)|[Ha _]]; discriminate.
Qed.

(** ** Loaded models *)

Lemma loaded_typed v s x : load v s = Done x ->
  increasing (i_data x) /\ (forall n k l, lookup (i_data x) n = Some (Ent k l) -> wf_ent k l) /\ refs_ok (i_data x).
Proof.
  intro Hl. apply load_done in Hl as [Hp Hr]. apply parse_whole_done in Hp.
  unfold p_ifc in Hp. apply bind_ok in Hp as (h & r1 & Hh & Hp). apply bind_ok in Hp as (m & r2 & Hm & Hp).
  apply bind_ok in Hp as (? & ? & _ & Hp). injection Hp as <- _. cbn [i_data] in *.
  apply p_data_ok in Hm as [Hi Hf]. split; auto. split; auto. intros n k l Hn.
  apply lookup_In in Hn. rewrite Forall_forall in Hf. now apply Hf in Hn as [_ Hn].
Qed.

Lemma refs_good_at m : increasing m -> (forall n k l, lookup m n = Some (Ent k l) -> wf_ent k l) -> refs_ok m ->
  forall i k l ks n, lookup m i = Some (Ent k l) -> leads k l ks n -> exists e, lookup m n = Some e /\ permitted ks e.
Proof.
  intros Hi Ht Hr i k l ks n Hn Hl. destruct (leads_checked _ _ _ _ (Ht _ _ _ Hn) Hl) as (ks' & Hk & Hc).
  destruct (Hr ks' n) as (e & He & Hp); [exists i, (Ent k l); split; auto; now apply lookup_In|].
  exists e. split; auto. destruct Hp as [Hp|Hp]; [left; auto|now right].
Qed.

Lemma loaded_panics v s x i k l : load v s = Done x -> lookup (i_data x) i = Some (Ent k l) ->
  In k readable_kinds -> ~ uses_an_embedded (i_data x) k l ->
  mapping (i_data x) k l = Some Panic <-> needs_unknown (i_data x) k l \/ needs_uneven (i_data x) k l.
Proof.
  intros Hl Hi Hk He. destruct (loaded_typed _ _ _ Hl) as (Hc & Ht & Hr).
  rewrite (panic_iff _ _ _ Ht (Ht _ _ _ Hi) Hk). eapply lacking_good; eauto. now apply refs_good_at.
Qed.

(** ** Items and contexts *)

Lemma shape_items_done m l ns : attr_ids l 3 = ns -> (forall n, In n ns -> lookup m n <> None) ->
  exists xs, shape_items m l = Done xs /\ objects_at m ns xs.
Proof.
  unfold shape_items. intros ->. induction ns as [|n ns IH]; intro H.
  - exists []. repeat split; constructor.
  - destruct (lookup m n) as [e|] eqn:E; [|exfalso; apply (H n); cbn; auto].
    destruct IH as (xs & Hx & H1 & H2); [intros n' Hn'; apply H; now right|].
    exists ((n, e) :: xs). cbn [maps]. unfold get_untyped at 1. rewrite E. cbn [obind]. rewrite Hx.
    split; auto. split; [cbn; now rewrite H1|]. constructor; auto.
Qed.

Lemma shape_items_of_done m k ns xs : objects_at m ns xs ->
  collect (downcast k m) ns =
  Done (flat_map (fun x => match snd x with Ent k' a => if kind_eqb k' k then [(fst x, a)] else [] | EDummy _ => [] end) xs).
Proof.
  intros [<- H]. induction H as [|[n e] xs Hx _ IH]; auto. cbn [map collect fst flat_map snd] in *.
  unfold downcast at 1, get_untyped. rewrite Hx. destruct e as [k' a|s]; rewrite IH; reflexivity.
Qed.

Lemma wf_shape l : wf_ent KShapeRepresentation l -> exists c a b ns, l = [VId c; a; b; VList (map VId ns)].
Proof.
  intro H. take H. match goal with H : wt (TList _) _ = true |- _ => apply wt_list in H as (vs & -> & H); apply all_refs in H as (ns & ->) end.
  match goal with H : wt (TRef _ _) _ = true |- _ => apply wt_ref in H as (c & ->) end. eauto.
Qed.

Lemma loaded_items v s x i c a b ns : load v s = Done x ->
  lookup (i_data x) i = Some (Ent KShapeRepresentation [c; a; b; VList (map VId ns)]) ->
  exists xs, shape_items (i_data x) [c; a; b; VList (map VId ns)] = Done xs /\ objects_at (i_data x) ns xs /\
    (forall k, shape_items_of k (i_data x) [c; a; b; VList (map VId ns)] =
       Done (flat_map (fun x => match snd x with Ent k' a => if kind_eqb k' k then [(fst x, a)] else [] | EDummy _ => [] end) xs)).
Proof.
  intros Hl Hi. destruct (loaded_typed _ _ _ Hl) as (Hc & Ht & Hr).
  assert (E : attr_ids [c; a; b; VList (map VId ns)] 3 = ns) by apply val_ids_map.
  destruct (shape_items_done (i_data x) [c; a; b; VList (map VId ns)] ns E) as (xs & H1 & H2).
  - intros n Hn. destruct (Hr [KExtrudedAreaSolid; KPolyLine; KMappedItem] n) as (e & He & _); [|congruence].
    exists i, (Ent KShapeRepresentation [c; a; b; VList (map VId ns)]). split; [now apply lookup_In|].
    eexists _, _, _, 3%nat, _, _. split; [reflexivity|]. split; [reflexivity|]. split; [reflexivity|]. split; [reflexivity|].
    eapply points_list; [apply in_map; exact Hn|constructor].
  - exists xs. split; auto. split; auto. intro k. unfold shape_items_of. rewrite E. now apply shape_items_of_done.
Qed.

Section Rest.
Variable m : dmap.
Hypothesis typed : forall n k l, lookup m n = Some (Ent k l) -> wf_ent k l.
Hypothesis refs : forall i k l, lookup m i = Some (Ent k l) -> k <> KRelContainedInSpatialStructure ->
  good_refs m (Ent k l).

Lemma ref_at i k l r j ks n : lookup m i = Some (Ent k l) -> k <> KRelContainedInSpatialStructure -> row_of k = Some r ->
  nth_error (row_fields r) j = Some (TRef ks true) \/ nth_error (row_fields r) j = Some (TOpt (TRef ks true)) ->
  nth_error l j = Some (VId n) -> (exists k' a, lookup m n = Some (Ent k' a) /\ In k' ks) \/ unknown_at m n.
Proof.
  intros Hi Hq Hr Hf Hv. destruct (refs _ _ _ Hi Hq ks n) as ([k' a|s] & He & Hp).
  - destruct Hf as [Hf|Hf]; eexists k, l, r, j, _, (VId n); repeat (split; [reflexivity || eassumption|]).
    + constructor.
    + constructor. constructor.
  - left. exists k', a. split; auto. destruct Hp as [Hp|Hp]; auto. cbn [kind_of] in Hp. subst.
    apply typed in He as (r' & Hr' & _). discriminate.
  - right. now exists s.
Qed.

Lemma ref_in i k l r j ks n vs : lookup m i = Some (Ent k l) -> k <> KRelContainedInSpatialStructure -> row_of k = Some r ->
  nth_error (row_fields r) j = Some (TList (TRef ks true)) ->
  nth_error l j = Some (VList vs) -> In (VId n) vs -> (exists k' a, lookup m n = Some (Ent k' a) /\ In k' ks) \/ unknown_at m n.
Proof.
  intros Hi Hq Hr Hf Hv Hin. destruct (refs _ _ _ Hi Hq ks n) as ([k' a|s] & He & Hp).
  - eexists k, l, r, j, _, (VList vs); repeat (split; [reflexivity || eassumption|]).
    eapply points_list; [exact Hin|constructor].
  - left. exists k', a. split; auto. destruct Hp as [Hp|Hp]; auto. cbn [kind_of] in Hp. subst.
    apply typed in He as (r' & Hr' & _). discriminate.
  - right. now exists s.
Qed.

Lemma context_cases i l : lookup m i = Some (Ent KShapeRepresentation l) ->
  reads (parent_context m l) (context_of m l) (context_unknown m l).
Proof.
  intro Hi. pose proof (typed _ _ _ Hi) as Hw. apply wf_shape in Hw as (c & a & b & ns & ->).
  unfold parent_context. rewrite (the_id_at [VId c; a; b; VList (map VId ns)] 0 c eq_refl). cbn [obind]. unfold get_untyped.
  destruct (ref_at _ _ _ _ 0 [KGeometricRepresentationSubContext; KGeometricRepresentationContext] c Hi ltac:(discriminate) eq_refl
    (or_introl eq_refl) eq_refl) as [(k & d & Hd & [<-|[<-|[]]])|[s Hs]].
  - rewrite Hd. cbn [obind]. pose proof (typed _ _ _ Hd) as Hw.
    assert (exists p, nth_error d 6 = Some (VId p)) as (p & Hp).
    { clear - Hw. take Hw. repeat match goal with H : wt (TRef _ _) _ = true |- _ => apply wt_ref in H as (? & ->) end.
      cbn [nth_error]. eauto. }
    rewrite (the_id_at _ _ _ Hp). cbn [obind]. unfold get.
    destruct (ref_at _ _ _ _ 6 [KGeometricRepresentationContext] p Hd ltac:(discriminate) eq_refl (or_introl eq_refl) Hp)
      as [(k & e & He & [<-|[]])|[s Hs]].
    + rewrite He. left. exists e. split; [reflexivity|]. split; [exists c; split; auto; right; eauto|].
      intros (n & Hn & H). injection Hn as <-. destruct H as [(s & H)|(a' & p' & H & H' & (s & Hs))].
      * rewrite Hd in H; discriminate.
      * rewrite Hd in H. injection H as <-. rewrite Hp in H'. injection H' as <-. congruence.
    + rewrite Hs. right. split; auto. exists c. split; auto. right. exists d, p. split; auto. split; auto. now exists s.
  - rewrite Hd. cbn [obind]. left. exists d. split; auto. split; [exists c; auto|].
    intros (n & Hn & H). injection Hn as <-. destruct H as [(s & H)|(a' & p & H & _)]; rewrite Hd in H; discriminate.
  - rewrite Hs. right. split; auto. exists c. split; auto. left. now exists s.
Qed.

Lemma context_fun l c c' : context_of m l c -> context_of m l c' -> c = c'.
Proof.
  intros (n & Hn & H) (n' & Hn' & H'). rewrite Hn in Hn'. injection Hn' as <-.
  destruct H as [H|(a & p & H & Hp & Hc)], H' as [H'|(a' & p' & H' & Hp' & Hc')]; congruence.
Qed.

(** ** Shapes of products *)

Lemma maps_get k ns : (forall n, In n ns -> (exists a, lookup m n = Some (Ent k a)) \/ unknown_at m n) ->
  reads (maps (get k m) ns) (Forall2 (fun i s => lookup m i = Some (Ent k s)) ns) (exists n, In n ns /\ unknown_at m n).
Proof.
  induction ns as [|n ns IH]; intro H; cbn [maps].
  - eapply reads_eq; [apply reads_done; constructor|]. split; [tauto|]. now intros (n & [] & _).
  - eapply reads_eq; [eapply (reads_bind _ _ _ (unknown_at m n)) ; [|intros a Ha; eapply reads_bind; [apply IH; intros; apply H; now right|intros xs Hxs]]|].
    + instantiate (1 := fun s => lookup m n = Some (Ent k s)). destruct (H n (or_introl eq_refl)) as [(a & Ha)|[s Hs]]; unfold get.
      * rewrite Ha. rewrite (proj2 (kind_eqb_eq k k)) by reflexivity. left. exists a. split; auto. split; auto. intros (s & Hs). congruence.
      * rewrite Hs. right. split; auto. now exists s.
    + apply reads_done. now constructor.
    + split.
      * intros [Hu|[(n' & Hn & Hu)|[]]]; [exists n|exists n']; cbn; auto.
      * intros (n' & [<-|Hn] & Hu); eauto.
Qed.

Lemma shapes_cases i k l : lookup m i = Some (Ent k l) -> In k product_kinds ->
  reads (product_shapes m l) (shapes_are m l) (shape_unknown m l).
Proof.
  intros Hi Hk. unfold product_shapes, attr_id.
  assert (Hr : exists r, row_of k = Some r /\ nth_error (row_fields r) 6 = Some (TOpt (TRef [KProductDefinitionShape] true))).
  { unfold product_kinds in Hk. cbn [In] in Hk. repeat (destruct Hk as [<-|Hk]; [eexists; split; reflexivity|]). destruct Hk. }
  destruct Hr as (r & Hr & Hf).
  assert (Hq : k <> KRelContainedInSpatialStructure).
  { intros ->. unfold product_kinds in Hk. cbn [In] in Hk. repeat (destruct Hk as [Hk|Hk]; [discriminate|]). destruct Hk. }
  destruct (nth_error l 6) as [v|] eqn:Hv.
  2:{ left. exists []. split; auto. split; [constructor; congruence|]. intros (n & Hn & _). congruence. }
  assert (Hid : (exists n, v = VId n) \/ (forall n, v <> VId n)) by (destruct v; eauto; right; discriminate).
  destruct Hid as [(n & ->)|Hno].
  2:{ assert (E : match v with VId n => Some n | _ => None end = None) by (destruct v; auto; now destruct (Hno n)).
      rewrite E. left. exists []. split; auto. split; [constructor; congruence|]. intros (n & Hn & _).
      rewrite Hv in Hn. injection Hn as ->. now destruct (Hno n). }
  destruct (ref_at _ _ _ _ 6 [KProductDefinitionShape] n Hi Hq Hr (or_intror Hf) Hv) as [(k' & d & Hd & [<-|[]])|[s Hs]].
  - unfold get at 1. rewrite Hd. cbn [kind_eqb]. rewrite (proj2 (kind_eqb_eq KProductDefinitionShape _)) by reflexivity. cbn [obind].
    pose proof (typed _ _ _ Hd) as Hw.
    assert (exists a b ns, d = [a; b; VList (map VId ns)]) as (a & b & ns & ->).
    { clear - Hw. take Hw. match goal with H : wt (TList _) _ = true |- _ => apply wt_list in H as (vs & -> & H); apply all_refs in H as (ns & ->) end. eauto. }
    unfold attr_ids. cbn [nth_error]. rewrite val_ids_map.
    eapply reads_iff; [apply maps_get|..].
    + intros j Hj. destruct (ref_in _ _ _ _ 2 [KShapeRepresentation] j _ Hd ltac:(discriminate) eq_refl eq_refl eq_refl (in_map VId _ _ Hj))
        as [(k' & e & He & [<-|[]])|Hu]; eauto.
    + intros ss Hss. econstructor; eauto.
    + split.
      * intros (j & Hj & Hu). exists n. split; auto. right. exists a, b, ns, j. auto.
      * intros (n' & Hn' & H). rewrite Hv in Hn'. injection Hn' as <-. destruct H as [(s & H)|(a' & b' & ns' & j & H & Hj & Hu)]; [congruence|].
        rewrite Hd in H. injection H as <- <- H. exists j. split; auto.
        assert (ns' = ns) as <- by (rewrite <- (val_ids_map ns'), <- (val_ids_map ns); congruence). exact Hj.
  - unfold get. rewrite Hs. right. split; auto. exists n. split; auto. left. now exists s.
Qed.

Lemma shapes_fun l s s' : shapes_are m l s -> shapes_are m l s' -> s = s'.
Proof.
  destruct 1 as [H|n a b ns ss Hn Hl H]; destruct 1 as [H'|n' a' b' ns' ss' Hn' Hl' H']; auto.
  - now apply H in Hn'.
  - now apply H' in Hn.
  - rewrite Hn in Hn'. injection Hn' as <-. rewrite Hl in Hl'. injection Hl' as <- <- E.
    assert (ns = ns') as <- by (rewrite <- (val_ids_map ns), <- (val_ids_map ns'); congruence).
    clear - H H'. revert ss' H'. induction H as [|i s ns ss H _ IH]; intros ss' H'; inversion H'; subst; auto.
    f_equal; [congruence|]. now apply IH.
Qed.

End Rest.

Lemma refs_ok_good m : refs_ok m -> forall i k l, lookup m i = Some (Ent k l) ->
  k <> KRelContainedInSpatialStructure -> good_refs m (Ent k l).
Proof. intros H i k l Hi _ ks n Hc. apply H. exists i, (Ent k l). split; auto. now apply lookup_In. Qed.

Lemma reads_done_iff {A} (x : outcome A) P B : reads x P B -> (forall a b, P a -> P b -> a = b) ->
  (forall a, P a -> ~ B) -> forall a, x = Done a <-> P a.
Proof.
  intros [(b & -> & HP & HB)|[-> HB]] Hf Hn a; split.
  - intro E. now injection E as <-.
  - intro Ha. f_equal. now apply Hf.
  - discriminate.
  - intro Ha. now apply Hn in Ha.
Qed.

Lemma reads_panic_iff {A} (x : outcome A) P B : reads x P B -> x = Panic <-> B.
Proof. intros [(b & -> & HP & HB)|[-> HB]]; split; auto; [discriminate|tauto]. Qed.

Lemma context_known m l c : context_of m l c -> ~ context_unknown m l.
Proof.
  intros (n & Hn & H) (n' & Hn' & H'). rewrite Hn in Hn'. injection Hn' as <-.
  destruct H as [H|(a & p & H & Hp & Hc)], H' as [(s & H')|(a' & p' & H' & Hp' & (s & Hc'))]; congruence.
Qed.

Lemma shapes_known m l ss : shapes_are m l ss -> ~ shape_unknown m l.
Proof.
  destruct 1 as [H|n a b ns ss Hn Hl H]; intros (n' & Hn' & H').
  - now apply H in Hn'.
  - rewrite Hn in Hn'. injection Hn' as <-. destruct H' as [(s & H')|(a' & b' & ns' & j & H' & Hj & (s & Hs))]; [congruence|].
    rewrite Hl in H'. injection H' as <- <- E.
    assert (ns = ns') as <- by (rewrite <- (val_ids_map ns), <- (val_ids_map ns'); congruence).
    clear - H Hj Hs. induction H as [|i q ns ss H _ IH]; [destruct Hj|]. destruct Hj as [->|Hj]; [congruence|auto].
Qed.

Lemma loaded_context v s x i l : load v s = Done x -> lookup (i_data x) i = Some (Ent KShapeRepresentation l) ->
  (forall c, parent_context (i_data x) l = Done c <-> context_of (i_data x) l c) /\
  (parent_context (i_data x) l = Panic <-> context_unknown (i_data x) l).
Proof.
  intros Hl Hi. destruct (loaded_typed _ _ _ Hl) as (Hc & Ht & Hr).
  pose proof (context_cases _ Ht (refs_ok_good _ Hr) _ _ Hi) as H. split; [|eapply reads_panic_iff; eauto].
  eapply reads_done_iff; [exact H|apply context_fun|intros; eapply context_known; eauto].
Qed.

Lemma loaded_shapes v s x i k l : load v s = Done x -> lookup (i_data x) i = Some (Ent k l) -> In k product_kinds ->
  (forall ss, product_shapes (i_data x) l = Done ss <-> shapes_are (i_data x) l ss) /\
  (product_shapes (i_data x) l = Panic <-> shape_unknown (i_data x) l).
Proof.
  intros Hl Hi Hk. destruct (loaded_typed _ _ _ Hl) as (Hc & Ht & Hr).
  pose proof (shapes_cases _ Ht (refs_ok_good _ Hr) _ _ _ Hi Hk) as H. split; [|eapply reads_panic_iff; eauto].
  eapply reads_done_iff; [exact H|apply shapes_fun|intros; eapply shapes_known; eauto].
Qed.
