(** Facts about loading and saving. *)

From Coq Require Import String Ascii List NArith ZArith Bool Lia ZifyBool ZifyN ZifyNat Sorted.
From Verif Require Import Base Prims BaseFacts Spec PrimsFacts Guid GuidFacts Float FloatFacts
  Kind Types Schema Entity Layout WellTyped EntitySpec DataMap DataSpec Header File HeaderSpec FileSpec
  TypesFacts TypesFacts2 EntityFacts DataMapFacts SectionFacts HeaderFacts PanicFacts.
Import ListNotations.
Open Scope N_scope.

(** ** References *)

Lemma refs_points t : forall v ks n, In (ks, n) (refs t v) <-> points t v ks n.
Proof.
  induction t as [| | | | | | | | | | |vs|ks0 chk|k kws ws fs closer IH|t IH|t IH] using fty_rect';
    intros v ks n; try (split; [intros []|intro H; inversion H]).
  - destruct chk; destruct v; cbn [refs]; split; intro H; try (inversion H; fail); try contradiction.
    + destruct H as [H|[]]. injection H as <- <-. constructor.
    + inversion H; subst. now left.
  - destruct v; cbn [refs]; split; intro H; try (inversion H; fail); try contradiction.
    + destruct H as [H|[]]. injection H as <- <-. constructor.
    + inversion H; subst. now left.
  - cbn [refs]. rewrite IH. split; intro H; [now constructor|now inversion H].
  - destruct v; cbn [refs]; split; intro H; try (inversion H; fail); try contradiction.
    + apply in_flat_map in H as (v & Hv & H). apply IH in H. now apply points_list with v.
    + inversion H; subst. apply in_flat_map. exists v. split; auto. now apply IH.
Qed.

Lemma refs_list_points fs : forall l ks n, In (ks, n) (refs_list fs l) <->
  exists i f v, nth_error fs i = Some f /\ nth_error l i = Some v /\ points f v ks n.
Proof.
  induction fs as [|f fs IH]; intros [|v l] ks n; cbn [refs_list].
  - split; [intros []|]. intros (i & ? & ? & H & _). destruct i; discriminate.
  - split; [intros []|]. intros (i & ? & ? & H & _). destruct i; discriminate.
  - split; [intros []|]. intros (i & ? & ? & _ & H & _). destruct i; discriminate.
  - rewrite in_app_iff, IH, refs_points. split.
    + intros [H|(i & f' & v' & H)]; [exists 0%nat, f, v; auto|exists (S i), f', v'; auto].
    + intros ([|i] & f' & v' & H1 & H2 & H3); cbn [nth_error] in *.
      * injection H1 as ->. injection H2 as ->. auto.
      * right. exists i, f', v'. auto.
Qed.

Lemma entity_refs_checked e ks n : In (ks, n) (entity_refs e) <-> checked_ref e ks n.
Proof.
  unfold checked_ref. destruct e as [k l|s]; cbn [entity_refs].
  - destruct (row_of k) as [r|] eqn:Hr.
    + rewrite refs_list_points. split.
      * intros (i & f & v & H). exists k, l, r, i, f, v. tauto.
      * intros (k' & l' & r' & i & f & v & E & Hr' & H). injection E as <- <-. rewrite Hr in Hr'.
        injection Hr' as <-. eauto.
    + split; [intros []|]. intros (k' & l' & r' & i & f & v & E & Hr' & H). injection E as <- <-. congruence.
  - split; [intros []|]. intros (k' & l' & r' & i & f & v & E & _). discriminate.
Qed.

Lemma accepts_permitted ks e : accepts ks (kind_of e) = true <-> permitted ks e.
Proof.
  unfold accepts, permitted. rewrite orb_true_iff, kind_eqb_eq, existsb_exists. split; intros [H|H]; auto.
  - destruct H as (k & Hin & E). apply kind_eqb_eq in E. rewrite E. auto.
  - left. exists (kind_of e). split; auto. now apply kind_eqb_eq.
Qed.

Lemma check_refs_spec m l :
  match check_refs m l with
  | Done _ => forall ks n, In (ks, n) l -> exists e, lookup m n = Some e /\ permitted ks e
  | Err => exists ks n e, In (ks, n) l /\ lookup m n = Some e /\ ~ permitted ks e
  | Panic => exists ks n, In (ks, n) l /\ lookup m n = None
  end.
Proof.
  induction l as [|[ks n] l IH]; cbn [check_refs]; [intros ks n []|].
  unfold get_untyped. destruct (lookup m n) as [e|] eqn:El.
  - destruct (accepts ks (kind_of e)) eqn:Ea.
    + destruct (check_refs m l).
      * intros ks' n' [H|H]; [|now apply IH]. injection H as <- <-. exists e. split; auto. now apply accepts_permitted.
      * destruct IH as (ks' & n' & e' & H & H'). exists ks', n', e'. split; [now right|auto].
      * destruct IH as (ks' & n' & H & H'). exists ks', n'. split; [now right|auto].
    + exists ks, n, e. split; [now left|]. split; auto. rewrite <- accepts_permitted, Ea. discriminate.
  - exists ks, n. split; [now left|auto].
Qed.

Definition refs_in (l : list (N * entity)) (ks : list kind) (n : N) : Prop :=
  exists i e, In (i, e) l /\ checked_ref e ks n.

Lemma verify_all_spec m l :
  match verify_all m l with
  | Done _ => forall ks n, refs_in l ks n -> exists e, lookup m n = Some e /\ permitted ks e
  | Err => exists ks n e, refs_in l ks n /\ lookup m n = Some e /\ ~ permitted ks e
  | Panic => exists ks n, refs_in l ks n /\ lookup m n = None
  end.
Proof.
  induction l as [|[i e] l IH]; cbn [verify_all]; [intros ks n (? & ? & [] & _)|].
  unfold verify_entity. pose proof (check_refs_spec m (entity_refs e)) as H. destruct (check_refs m (entity_refs e)).
  - assert (Hr : forall ks n, refs_in l ks n -> refs_in ((i, e) :: l) ks n).
    { intros ks n (i' & e' & Hin & Hc). exists i', e'. split; auto. now right. }
    destruct (verify_all m l).
    + intros ks n (i' & e' & [Hin|Hin] & Hc).
      * injection Hin as <- <-. apply H. now apply entity_refs_checked.
      * apply IH. exists i', e'. auto.
    + destruct IH as (ks' & n' & e' & H0 & H'). exists ks', n', e'. auto.
    + destruct IH as (ks' & n' & H0 & H'). exists ks', n'. auto.
  - destruct H as (ks & n & e' & Hin & H). exists ks, n, e'. split; auto. exists i, e. split; [now left|].
    now apply entity_refs_checked.
  - destruct H as (ks & n & Hin & H). exists ks, n. split; auto. exists i, e. split; [now left|].
    now apply entity_refs_checked.
Qed.

Definition verify (m : dmap) : outcome unit := verify_all m m.

Lemma verify_done m : verify m = Done tt <-> refs_ok m.
Proof.
  pose proof (verify_all_spec m m) as H. unfold verify, refs_ok. change (has_ref m) with (refs_in m). split.
  - intro E. rewrite E in H. exact H.
  - intro Ho. destruct (verify_all m m) as [[]| |]; auto; exfalso.
    + destruct H as (ks & n & e & Hr & Hl & Hp). destruct (Ho ks n Hr) as (e' & Hl' & Hp').
      rewrite Hl in Hl'. injection Hl' as <-. auto.
    + destruct H as (ks & n & Hr & Hl). destruct (Ho ks n Hr) as (e' & Hl' & Hp'). congruence.
Qed.

Lemma verify_err m : verify m = Err -> misdirected m.
Proof. intro E. pose proof (verify_all_spec m m) as H. unfold verify in E. rewrite E in H. exact H. Qed.

Lemma verify_panic m : verify m = Panic -> dangling m.
Proof. intro E. pose proof (verify_all_spec m m) as H. unfold verify in E. rewrite E in H. exact H. Qed.

Lemma refs_ok_iff m : refs_ok m <-> ~ dangling m /\ ~ misdirected m.
Proof.
  split.
  - intro H. split.
    + intros (ks & n & Hr & Hl). destruct (H ks n Hr) as (e & E & _). congruence.
    + intros (ks & n & e & Hr & Hl & Hp). destruct (H ks n Hr) as (e' & E & Hp'). rewrite Hl in E.
      injection E as <-. auto.
  - intros [Hd Hm]. apply verify_done. destruct (verify m) as [[]| |] eqn:E; auto; exfalso.
    + now apply Hm, verify_err.
    + now apply Hd, verify_panic.
Qed.

Lemma verify_cases m :
  (verify m = Done tt /\ refs_ok m) \/ (verify m = Err /\ misdirected m) \/ (verify m = Panic /\ dangling m).
Proof.
  destruct (verify m) as [[]| |] eqn:E.
  - left. split; auto. now apply verify_done.
  - right; left. split; auto. now apply verify_err.
  - right; right. split; auto. now apply verify_panic.
Qed.

(** ** Loading *)

Lemma load_cases v s :
  match load v s with
  | Done x => parse_whole (p_ifc v) s = Done x /\ refs_ok (i_data x)
  | Err => parse_whole (p_ifc v) s = Err \/
           exists x, parse_whole (p_ifc v) s = Done x /\ misdirected (i_data x)
  | Panic => parse_whole (p_ifc v) s = Panic \/
             exists x, parse_whole (p_ifc v) s = Done x /\ dangling (i_data x)
  end.
Proof.
  unfold load. destruct (parse_whole (p_ifc v) s) as [x| |] eqn:E; auto.
  fold (verify (i_data x)). destruct (verify_cases (i_data x)) as [[-> H]|[[-> H]|[-> H]]]; eauto.
Qed.

Lemma load_parsed v s x : parse_whole (p_ifc v) s = Done x ->
  match load v s with
  | Done y => y = x /\ refs_ok (i_data x)
  | Err => misdirected (i_data x)
  | Panic => dangling (i_data x)
  end.
Proof.
  intro E. unfold load. rewrite E. fold (verify (i_data x)).
  destruct (verify_cases (i_data x)) as [[-> H]|[[-> H]|[-> H]]]; auto.
Qed.

Lemma load_done v s x : load v s = Done x -> parse_whole (p_ifc v) s = Done x /\ refs_ok (i_data x).
Proof. intro E. pose proof (load_cases v s) as H. now rewrite E in H. Qed.

Lemma load_ok v s x : parse_whole (p_ifc v) s = Done x -> refs_ok (i_data x) -> load v s = Done x.
Proof. intros E H. unfold load. rewrite E. fold (verify (i_data x)). apply verify_done in H. now rewrite H. Qed.

Lemma load_exists v s x : parse_whole (p_ifc v) s = Done x -> ~ dangling (i_data x) ->
  (load v s = Err <-> misdirected (i_data x)) /\ load v s <> Panic.
Proof.
  intros E Hd. pose proof (load_parsed v s x E) as H. destruct (load v s).
  - split; [|discriminate]. split; [discriminate|]. intro Hm. destruct H as [_ H]. apply refs_ok_iff in H. tauto.
  - split; [|discriminate]. tauto.
  - tauto.
Qed.

Lemma load_dangling v s x : parse_whole (p_ifc v) s = Done x -> ~ misdirected (i_data x) ->
  (load v s = Panic <-> dangling (i_data x)) /\ load v s <> Err.
Proof.
  intros E Hd. pose proof (load_parsed v s x E) as H. destruct (load v s).
  - split; [|discriminate]. split; [discriminate|]. intro Hm. destruct H as [_ H]. apply refs_ok_iff in H. tauto.
  - tauto.
  - split; [|discriminate]. tauto.
Qed.

Lemma parse_whole_panic {A} (p : parser A) s : parse_whole p s = Panic -> p s = RPanic.
Proof. unfold parse_whole. destruct (p s) as [a [|]| | |]; auto; discriminate. Qed.

Lemma parse_whole_done {A} (p : parser A) s a : parse_whole p s = Done a <-> p s = ROk a [].
Proof.
  unfold parse_whole. destruct (p s) as [a' [|]| | |]; split; try discriminate; intro H; injection H as <-; reflexivity.
Qed.

Lemma load_panic v s : load v s = Panic ->
  bad_stamp v s \/ far_stamp s \/ exists x, parse_whole (p_ifc v) s = Done x /\ dangling (i_data x).
Proof.
  intro E. pose proof (load_cases v s) as H. rewrite E in H. destruct H as [H|H]; [|now right; right].
  apply parse_whole_panic, panic_ifc in H. tauto.
Qed.

(** ** Saving and loading *)

Definition norm_ifc (x : ifc) : ifc := mk_ifc (i_header x) (map norm_def (i_data x)).

Lemma no_gap_data m s : no_gap (d_data m ++ s).
Proof. unfold d_data. rewrite <- !app_assoc. apply no_gap_char; [unfold blank; cbv; lia|cbv; lia]. Qed.

Lemma p_ifc_saved v x : ifc_ok v x -> p_ifc v (save x) = ROk (norm_ifc x) [].
Proof.
  intros (Hh & Hi & Hw). unfold p_ifc, save.
  rewrite <- (app_nil_l (d_header _ ++ _)). erewrite bind_step by (apply p_header_reads; auto; constructor).
  rewrite skip_nl by apply no_gap_data.
  assert (Hn : gap nl) by (apply gap_one; unfold blank; auto 10).
  assert (Hf : no_gap d_footer) by (apply no_gap_char; [unfold blank; cbv; lia|cbv; lia]).
  pose proof (p_data_printed (i_data x) [] nl d_footer Hi Hw gap_nil Hn Hf) as Hd.
  rewrite app_nil_l in Hd. erewrite bind_step by exact Hd.
  erewrite bind_step; [reflexivity|].
  unfold d_footer. apply (p_footer_reads [] nl); auto. constructor.
Qed.

Lemma norm_exact v x : ifc_ok v x -> exact_ifc x -> norm_ifc x = x.
Proof.
  intros (_ & _ & Hw) He. unfold norm_ifc. change (map norm_def (i_data x)) with (map norm_def (i_data x)).
  assert (E : map norm_def (i_data x) = i_data x) by (now apply exact_norm_map). rewrite E. now destruct x.
Qed.

Lemma refs_norm t : forall v, refs t (normv v) = refs t v.
Proof.
  induction t as [| | | | | | | | | | |vs|ks0 chk|k kws ws fs closer IH|t IH|t IH] using fty_rect';
    intros v; try reflexivity.
  - destruct v as [| | | | | | | |i v| | | |]; try reflexivity. do 5 (destruct i as [|i]; [reflexivity|]). reflexivity.
  - destruct v as [| | | | | | | |i v| | | |]; try reflexivity. do 5 (destruct i as [|i]; [reflexivity|]). reflexivity.
  - cbn [refs]. apply IH.
  - destruct v as [| | | | | | | |i v| | |l|]; try reflexivity.
    + do 5 (destruct i as [|i]; [reflexivity|]). reflexivity.
    + cbn [norm_val refs]. rewrite !flat_map_concat_map, map_map. f_equal. apply map_ext. exact IH.
Qed.

Lemma refs_list_norm fs : forall l, refs_list fs (map normv l) = refs_list fs l.
Proof. induction fs as [|f fs IH]; intros [|v l]; cbn [map refs_list]; auto. now rewrite refs_norm, IH. Qed.

Lemma entity_refs_norm e : entity_refs (norm_entity e) = entity_refs e.
Proof. destruct e as [k l|s]; cbn; auto. destruct (row_of k); auto. apply refs_list_norm. Qed.

Lemma kind_norm e : kind_of (norm_entity e) = kind_of e.
Proof. now destruct e. Qed.

Lemma lookup_norm m n : lookup (map norm_def m) n = option_map norm_entity (lookup m n).
Proof.
  induction m as [|[k e] m IH]; [reflexivity|]. cbn [map norm_def fst snd lookup].
  destruct (k =? n); auto.
Qed.

Lemma has_ref_norm m ks n : has_ref (map norm_def m) ks n <-> has_ref m ks n.
Proof.
  unfold has_ref. split.
  - intros (i & e & Hin & Hc). apply in_map_iff in Hin as ([j e'] & E & Hin). injection E as <- <-.
    exists j, e'. split; auto. rewrite <- entity_refs_checked in *. now rewrite entity_refs_norm in Hc.
  - intros (i & e & Hin & Hc). exists i, (norm_entity e). split.
    + apply in_map_iff. exists (i, e). auto.
    + rewrite <- entity_refs_checked in *. now rewrite entity_refs_norm.
Qed.

Lemma refs_ok_norm m : refs_ok (map norm_def m) <-> refs_ok m.
Proof.
  unfold refs_ok. split; intros H ks n Hr.
  - apply (proj2 (has_ref_norm m ks n)) in Hr. destruct (H ks n Hr) as (e & El & Hp). rewrite lookup_norm in El.
    destruct (lookup m n) as [e'|]; [|discriminate]. injection El as <-. exists e'. split; auto.
    unfold permitted in *. now rewrite kind_norm in Hp.
  - apply (proj1 (has_ref_norm m ks n)) in Hr. destruct (H ks n Hr) as (e & El & Hp). exists (norm_entity e).
    rewrite lookup_norm, El. split; auto. unfold permitted in *. now rewrite kind_norm.
Qed.

Lemma misdirected_norm m : misdirected (map norm_def m) <-> misdirected m.
Proof.
  unfold misdirected. split; intros (ks & n & e & Hr & Hl & Hp).
  - apply (proj1 (has_ref_norm m ks n)) in Hr. rewrite lookup_norm in Hl. destruct (lookup m n) as [e'|] eqn:E; [|discriminate].
    injection Hl as <-. exists ks, n, e'. repeat split; auto. unfold permitted in *. now rewrite kind_norm in Hp.
  - exists ks, n, (norm_entity e). rewrite has_ref_norm, lookup_norm, Hl. repeat split; auto.
    unfold permitted in *. now rewrite kind_norm.
Qed.

Lemma load_saved v x : ifc_ok v x -> refs_ok (i_data x) -> load v (save x) = Done (norm_ifc x).
Proof.
  intros Hx Hr. apply load_ok.
  - apply parse_whole_done. now apply p_ifc_saved.
  - now apply refs_ok_norm.
Qed.

Lemma ifc_ok_norm v x : ifc_ok v x -> ifc_ok v (norm_ifc x).
Proof.
  intros (Hh & Hi & Hw). split; [exact Hh|]. split; [now apply norm_map_increasing|].
  cbn [i_data norm_ifc]. apply Forall_map. eapply Forall_impl; [|exact Hw]. intros [n e] [Hn He].
  split; auto. now apply wf_norm_entity.
Qed.

Lemma norm_ifc_idem v x : ifc_ok v x -> norm_ifc (norm_ifc x) = norm_ifc x.
Proof.
  intros (Hh & Hi & Hw). unfold norm_ifc. cbn [i_header i_data]. f_equal. rewrite map_map. apply map_ext_in.
  intros [n e] Hin. rewrite Forall_forall in Hw. specialize (Hw _ Hin) as [_ He].
  unfold norm_def. cbn [fst snd]. now rewrite norm_entity_idem.
Qed.
