(** Facts about particular references, and a reader of time stamps for examples. *)

From Coq Require Import String Ascii List NArith ZArith Bool Lia ZifyBool ZifyN ZifyNat Sorted.
From Verif Require Import Base Prims BaseFacts Spec PrimsFacts Guid GuidFacts Float FloatFacts
  Kind Types Schema Entity Layout WellTyped EntitySpec DataMap DataSpec Header File HeaderSpec FileSpec Context StrictTime
  TypesFacts TypesFacts2 EntityFacts DataMapFacts SectionFacts HeaderFacts PanicFacts FileFacts FileFacts2.
Import ListNotations.
Open Scope N_scope.

(** ** Owner histories *)

Lemma rooted_row k : In k rooted_kinds -> exists r fs,
  row_of k = Some r /\ row_fields r = TGuid :: TOpt (TRef [KOwnerHistory] true) :: fs.
Proof.
  intro H. cbn [rooted_kinds In] in H.
  repeat (destruct H as [<-|H]; [eexists _, _; split; reflexivity|]). destruct H.
Qed.

Lemma unrooted_row k : In k relation_kinds -> exists r fs,
  row_of k = Some r /\ row_fields r = TGuid :: TOpt (TRef [KOwnerHistory] false) :: fs.
Proof.
  intro H. cbn [relation_kinds In] in H.
  repeat (destruct H as [<-|H]; [eexists _, _; split; reflexivity|]). destruct H.
Qed.

Lemma rooted_checked k l n : In k rooted_kinds -> nth_error l 1 = Some (VId n) ->
  checked_ref (Ent k l) [KOwnerHistory] n.
Proof.
  intros Hk Hl. destruct (rooted_row k Hk) as (r & fs & Hr & Hf).
  exists k, l, r, 1%nat, (TOpt (TRef [KOwnerHistory] true)), (VId n). rewrite Hf.
  split; [reflexivity|]. split; [exact Hr|]. split; [reflexivity|]. split; [exact Hl|].
  constructor. constructor.
Qed.

Lemma refs_owner_unchecked k l n : In k relation_kinds ->
  entity_refs (Ent k (set_owner n l)) = entity_refs (Ent k l).
Proof.
  intro Hk. destruct (unrooted_row k Hk) as (r & fs & Hr & Hf). cbn [entity_refs]. rewrite Hr, Hf.
  destruct l as [|g [|o t]]; reflexivity.
Qed.

Lemma refs_ok_same m i e e' :
  increasing m -> lookup m i = Some e -> entity_refs e' = entity_refs e -> kind_of e' = kind_of e ->
  refs_ok m -> refs_ok (put m i e').
Proof.
  intros Hi Hl Hr Hk Ho ks n (j & x & Hin & Hc).
  assert (Hm : has_ref m ks n).
  { pose proof (put_keys m i e' _ Hin) as [E|E].
    - injection E as -> ->. exists i, e. split; [now apply lookup_In|].
      rewrite <- entity_refs_checked in *. now rewrite Hr in Hc.
    - exists j, x. auto. }
  destruct (Ho ks n Hm) as (y & Hy & Hp). rewrite lookup_put by auto. destruct (N.eqb_spec n i) as [E|E].
  - subst n. exists e'. split; auto. rewrite Hl in Hy. injection Hy as <-. unfold permitted in *. now rewrite Hk.
  - eauto.
Qed.

Lemma owner_unchecked m i k l n : increasing m -> In k relation_kinds ->
  lookup m i = Some (Ent k l) -> refs_ok m -> refs_ok (put m i (Ent k (set_owner n l))).
Proof.
  intros Hi Hk Hl. apply refs_ok_same with (Ent k l); auto. now apply refs_owner_unchecked.
Qed.

Lemma wf_set_owner k l n : In k relation_kinds -> n <= max_usize ->
  wf_ent k l -> wf_ent k (set_owner n l).
Proof.
  intros Hk Hn (r & Hr & Hw). destruct (unrooted_row k Hk) as (r' & fs & Hr' & Hf).
  rewrite Hr in Hr'. injection Hr' as <-. exists r. split; auto. rewrite Hf in *.
  destruct l as [|g [|o t]]; auto. cbn [set_owner wts] in *. apply andb_true_iff in Hw as [H1 H2].
  apply andb_true_iff in H2 as [_ H2]. rewrite H1, H2. cbn [wt andb]. rewrite andb_true_r. now apply N.leb_le.
Qed.

Lemma ifc_ok_put v h m i e : i <= max_usize -> increasing m -> wf_obj e -> ifc_ok v (mk_ifc h m) -> ifc_ok v (mk_ifc h (put m i e)).
Proof.
  intros Hn Hi He (Hh & _ & Hw). split; [exact Hh|]. cbn [i_data] in *. split; [now apply put_increasing|].
  rewrite Forall_forall in *. intros p Hp. apply put_keys in Hp as [->|Hp]; auto. split; auto.
Qed.

Lemma owner_loads v h m i k l n :
  ifc_ok v (mk_ifc h m) -> refs_ok m -> In k relation_kinds -> n <= max_usize ->
  lookup m i = Some (Ent k l) ->
  exists y, load v (save (mk_ifc h (put m i (Ent k (set_owner n l))))) = Done y /\
    exists l', lookup (i_data y) i = Some (Ent k l') /\ nth_error l' 1 = Some (VId n).
Proof.
  intros Hx Hr Hk Hn Hl. pose proof Hx as (Hh & Hi & Hw). cbn [i_data] in *.
  pose proof (lookup_In _ _ _ Hl) as Hin. rewrite Forall_forall in Hw. pose proof (Hw _ Hin) as [Hn' He].
  eexists. split.
  - apply load_saved.
    + apply ifc_ok_put; auto. cbn [wf_obj]. apply wf_set_owner; auto.
    + apply owner_unchecked; auto.
  - cbn [norm_ifc i_data]. rewrite lookup_norm, lookup_put by auto. rewrite N.eqb_refl. cbn [option_map norm_entity].
    eexists. split; [reflexivity|]. destruct He as (r & Hrow & Hwt).
    destruct (unrooted_row k Hk) as (r' & fs & Hrow' & Hf). rewrite Hrow in Hrow'. injection Hrow' as <-.
    rewrite Hf in Hwt. destruct l as [|g [|o t]]; cbn in Hwt; try discriminate; [|reflexivity].
    rewrite andb_false_r in Hwt. discriminate.
Qed.

(** ** Adding objects *)

Lemma refs_ok_insert_new m e m' n : increasing m ->
  insert_new m e = Some (m', n) -> refs_ok m -> good_refs m e -> refs_ok m'.
Proof.
  intros Hi Hn Ho He ks k (j & x & Hin & Hc).
  apply insert_new_spec in Hn as (_ & _ & Hf & Hi' & Hlk); auto.
  assert (Hx : exists y, lookup m k = Some y /\ permitted ks y).
  { apply In_lookup in Hin; auto. rewrite Hlk in Hin. destruct (j =? n) eqn:E.
    - injection Hin as <-. auto.
    - apply Ho. exists j, x. split; auto. now apply lookup_In. }
  destruct Hx as (y & Hy & Hp). exists y. split; auto. rewrite Hlk. destruct (N.eqb_spec k n) as [E|E]; auto.
  subst k. congruence.
Qed.

Lemma context_good_refs m m' dim wcs l : increasing m -> refs_ok m ->
  match wcs with
  | IsId n => exists e, lookup m n = Some e /\ (kind_of e = KAxis2D \/ kind_of e = KAxis3D)
  | IsCustom e => (kind_of e = KAxis2D \/ kind_of e = KAxis3D) /\ good_refs m e
  end ->
  context_new dim wcs m = Some (m', l) ->
  increasing m' /\ refs_ok m' /\ good_refs m' (Ent KGeometricRepresentationContext l).
Proof.
  intros Hi Ho Hw H. unfold context_new, or_insert in H.
  assert (G : forall M n e, lookup M n = Some e -> kind_of e = KAxis2D \/ kind_of e = KAxis3D ->
    good_refs M (Ent KGeometricRepresentationContext
      [VEnum 8; VStr (lit "Model"); VEnum dim; VOmit; VId n; VOmit])).
  { intros M n e Hl Hk ks k Hc. apply entity_refs_checked in Hc. vm_compute in Hc.
    destruct Hc as [E|[]]. injection E as <- <-. exists e. split; auto. left. destruct Hk as [-> | ->]; cbn; auto. }
  destruct wcs as [n|e].
  - destruct Hw as (e & Hl & Hk). injection H as <- <-. eauto.
  - destruct (insert_new m e) as [[m1 n]|] eqn:E; [|discriminate]. injection H as <- <-.
    pose proof E as E'. apply insert_new_spec in E' as (_ & _ & _ & Hi' & Hlk); auto.
    destruct Hw as [Hk Hg]. split; auto. split; [exact (refs_ok_insert_new m e m1 n Hi E Ho Hg)|].
    apply (G m1 n e); auto. now rewrite Hlk, N.eqb_refl.
Qed.

Lemma context_loads v h m m1 m2 dim wcs l c : increasing m -> refs_ok m ->
  match wcs with
  | IsId n => exists e, lookup m n = Some e /\ (kind_of e = KAxis2D \/ kind_of e = KAxis3D)
  | IsCustom e => (kind_of e = KAxis2D \/ kind_of e = KAxis3D) /\ good_refs m e
  end ->
  context_new dim wcs m = Some (m1, l) ->
  insert_new m1 (Ent KGeometricRepresentationContext l) = Some (m2, c) ->
  ifc_ok v (mk_ifc h m2) -> exists y, load v (save (mk_ifc h m2)) = Done y.
Proof.
  intros Hi Ho Hw H1 H2 Hx. destruct (context_good_refs m m1 dim wcs l) as (Hi1 & Ho1 & Hg); auto.
  eexists. apply load_saved; auto. cbn [i_data]. eapply refs_ok_insert_new; eauto.
Qed.

(** ** True north *)

Lemma true_north_bad m c l n e :
  lookup m c = Some (Ent KGeometricRepresentationContext l) ->
  nth_error l 5 = Some (VId n) -> lookup m n = Some e -> kind_of e = KAxis2D \/ kind_of e = KAxis3D ->
  misdirected m.
Proof.
  intros Hc Hl Hn He. exists [KDirection2D; KDirection3D], n, e. split; [|split; auto].
  - exists c, (Ent KGeometricRepresentationContext l). split; [now apply lookup_In|].
    exists KGeometricRepresentationContext, l, row_GeometricRepresentationContext, 5%nat,
      (TOpt (TRef [KDirection2D; KDirection3D] true)), (VId n).
    split; [reflexivity|]. split; [reflexivity|]. split; [reflexivity|]. split; [exact Hl|].
    constructor. constructor.
  - intros [[H|[H|[]]]|H]; destruct He as [He|He]; congruence.
Qed.

Lemma true_north_sets dir m l m' l' : length l = 6%nat ->
  increasing m -> context_true_north dir m l = Some (m', l') ->
  match dir with
  | IsId n => m' = m /\ nth_error l' 5 = Some (VId n)
  | IsCustom e => increasing m' /\ exists n, lookup m' n = Some e /\ nth_error l' 5 = Some (VId n)
  end.
Proof.
  intros Hl Hi H. unfold context_true_north, or_insert in H.
  do 6 (destruct l as [|? l]; [discriminate|]). destruct l; [|discriminate].
  destruct dir as [n|e].
  - injection H as <- <-. auto.
  - destruct (insert_new m e) as [[m1 n]|] eqn:E; [|discriminate]. injection H as <- <-.
    apply insert_new_spec in E as (_ & _ & _ & Hi' & Hlk); auto. split; auto. exists n.
    rewrite Hlk, N.eqb_refl. auto.
Qed.

Lemma misdirected_refused v x : ifc_ok v x -> misdirected (i_data x) ->
  (forall y, load v (save x) <> Done y) /\ (~ dangling (i_data x) -> load v (save x) = Err).
Proof.
  intros Hx Hm.
  assert (Hp : parse_whole (p_ifc v) (save x) = Done (norm_ifc x)) by (apply parse_whole_done, p_ifc_saved; auto).
  assert (Hm' : misdirected (i_data (norm_ifc x))) by (now apply misdirected_norm).
  split.
  - intros y Hy. pose proof (load_parsed _ _ _ Hp) as H. rewrite Hy in H. destruct H as [_ H].
    apply refs_ok_iff in H. tauto.
  - intro Hd. apply (load_exists _ _ _ Hp); auto. intros (ks & n & Hr & Hn). apply Hd.
    exists ks, n. split; [now apply has_ref_norm|]. cbn [norm_ifc i_data] in Hn. rewrite lookup_norm in Hn.
    now destruct (lookup (i_data x) n).
Qed.

Lemma true_north_refused v h m m1 m2 m3 l l1 c e : length l = 6%nat -> increasing m ->
  kind_of e = KAxis2D \/ kind_of e = KAxis3D ->
  context_true_north (IsCustom e) m l = Some (m1, l1) ->
  insert_new m1 (Ent KGeometricRepresentationContext l1) = Some (m2, c) ->
  (forall n x, lookup m2 n = Some x -> lookup m3 n = Some x) ->
  ifc_ok v (mk_ifc h m3) ->
  (forall y, load v (save (mk_ifc h m3)) <> Done y) /\
  (~ dangling m3 -> load v (save (mk_ifc h m3)) = Err).
Proof.
  intros Hl Hi Hk H1 H2 H3 Hx. apply (true_north_sets (IsCustom e)) in H1 as (Hi1 & n & Hn & Hl1); auto.
  apply insert_new_spec in H2 as (_ & _ & Hf & Hi2 & Hlk); auto.
  apply (misdirected_refused v (mk_ifc h m3)); auto. cbn [i_data].
  apply true_north_bad with c l1 n e; auto.
  - apply H3. now rewrite Hlk, N.eqb_refl.
  - apply H3. rewrite Hlk. destruct (N.eqb_spec n c) as [E|E]; auto. subst n. congruence.
Qed.

(** ** A reader of time stamps *)

Lemma dig2_two n : n <= 99 -> dig2 (48 + n / 10) (48 + n mod 10) = Some n.
Proof.
  intro H. unfold dig2, is_digit.
  assert (n / 10 <= 9) by (pose proof (N.div_le_mono n 99 10 ltac:(lia) H); cbn in *; lia).
  pose proof (N.mod_lt n 10 ltac:(lia)). pose proof (N.div_mod n 10 ltac:(lia)).
  destruct ((48 <=? 48 + n / 10) && (48 + n / 10 <=? 57) && ((48 <=? 48 + n mod 10) && (48 + n mod 10 <=? 57))) eqn:E; [|lia].
  f_equal. lia.
Qed.

Lemma env0_reads t : civil t -> chrono_reads env0 t.
Proof.
  intros (Hy & Hm & Hd & Hh & Hi & Hs & Hn). split.
  - reflexivity.
  - cbn [env0 rfc3339]. unfold iso. change (lit "-") with [45]. change (lit "T") with [84].
    change (lit ":") with [58]. change (lit "Z") with [90]. unfold two. cbn [app].
    unfold strict_rfc3339. cbn [N.eqb Pos.eqb andb].
    set (y := Z.to_N (st_year t)).
    assert (Hy' : y <= 9999) by (subst y; lia).
    pose proof (N.mod_lt y 100 ltac:(lia)). pose proof (N.div_mod y 100 ltac:(lia)).
    assert (y / 100 <= 99) by (pose proof (N.div_le_mono y 9999 100 ltac:(lia) Hy'); cbn in *; lia).
    rewrite !dig2_two by lia.
    destruct (_ && _) eqn:E; [|lia]. f_equal. destruct t as [ye mo da ho mi se na]. cbn in *. subst na.
    f_equal. subst y. lia.
Qed.

(** ** Headers *)

Lemma p_schemas_reads l s : p_schema_list (d_schemas l ++ s) = ROk l s.
Proof.
  pose proof (schemas_step l ret s) as H. unfold bind, ret in H.
  destruct (p_schema_list (d_schemas l ++ s)); congruence.
Qed.

Lemma schema_item_gaps w g g' s : plain w -> gap g -> gap g' -> no_gap s ->
  (forall x, In (w, x) spellings -> p_schema_item (g ++ quoted w ++ g' ++ s) = ROk x s) /\
  ((forall x, ~ In (w, x) spellings) -> p_schema_item (g ++ quoted w ++ g' ++ s) = RBack).
Proof.
  intros Hw Hg Hg' Hs. pose proof (schema_item_spec w g (g' ++ s) Hw Hg) as H.
  now rewrite skip_gap_stop in H by auto.
Qed.

Lemma fraction_lost v h : st_nano (h_time h) <> 0 -> header_ok v (whole_second h) ->
  p_header v (d_header h) = ROk (whole_second h) [] /\ whole_second h <> h.
Proof.
  intros Hn Hh. split.
  - pose proof (p_header_reads v (whole_second h) [] [] Hh gap_nil) as H.
    rewrite app_nil_l, app_nil_r in H. exact H.
  - intro E. apply Hn. rewrite <- E. reflexivity.
Qed.

(** ** Loading *)

Lemma reload_exact v s x :
  load v s = Done x ->
  civil (h_time (i_header x)) -> chrono_reads v (h_time (i_header x)) -> dummies_stay (i_data x) ->
  exact_ifc x ->
  load v (save x) = Done x.
Proof.
  intros H Hc Hv Hd He. destruct (loaded_ok v s x H Hc Hv Hd) as [Hx Hr].
  rewrite load_saved by auto. now rewrite (norm_exact v x).
Qed.

Lemma reload_stable v s x :
  load v s = Done x ->
  civil (h_time (i_header x)) -> chrono_reads v (h_time (i_header x)) -> dummies_stay (i_data x) ->
  exists y, load v (save x) = Done y /\ load v (save y) = Done y /\
    i_header y = i_header x /\
    map (fun p => (fst p, kind_of (snd p))) (i_data y) = map (fun p => (fst p, kind_of (snd p))) (i_data x).
Proof.
  intros H Hc Hv Hd. destruct (loaded_ok v s x H Hc Hv Hd) as [Hx Hr].
  exists (norm_ifc x). split; [now apply load_saved|]. split.
  - rewrite load_saved; [|now apply ifc_ok_norm|now apply refs_ok_norm]. now rewrite (norm_ifc_idem v x).
  - split; [reflexivity|]. cbn [norm_ifc i_data]. rewrite map_map. apply map_ext. intros [n e]. cbn [norm_def fst snd].
    now rewrite kind_norm.
Qed.

Lemma load_panic_causes v s : load v s = Panic ->
  bad_stamp v s \/ far_stamp s \/ exists x, p_ifc v s = ROk x [] /\ dangling (i_data x).
Proof.
  intro H. destruct (load_panic v s H) as [B|[F|(x & Hp & Hd)]]; auto. right. right. exists x.
  split; auto. now apply parse_whole_done.
Qed.

Lemma loaded_owner v s x i k l n :
  load v s = Done x -> In k rooted_kinds -> In (i, Ent k l) (i_data x) -> nth_error l 1 = Some (VId n) ->
  exists e, lookup (i_data x) n = Some e /\ (kind_of e = KOwnerHistory \/ kind_of e = KDummy).
Proof.
  intros H Hk Hi Hl. destruct (proj2 (load_done v s x H) [KOwnerHistory] n) as (e & He & Hp).
  - exists i, (Ent k l). split; auto. now apply rooted_checked.
  - exists e. split; auto. destruct Hp as [[E|[]]|E]; auto.
Qed.
