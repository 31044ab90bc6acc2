(** Calls that change the state of the project: spatial structure and transforms. *)

From Coq Require Import String Ascii List NArith ZArith Bool Lia Permutation.
From Coq Require Import ZifyBool ZifyNat ZifyN.
From Verif Require Import Base Prims Float Kind Types Schema Entity EntityFacts DataMap DataSpec DataMapFacts Extractor
  Arith Builder BuilderRun BuilderBase BuilderSpec BuilderGrow BuilderGood BuilderGood2 BuilderGood3 BuilderLoad
  BuilderOrder BuilderSafe BuilderSafe2.
Import ListNotations.
Open Scope N_scope.
Open Scope builder_scope.

#[local] Hint Resolve safe_new safe_tick safe_guid safe_now safe_walk safe_root safe_owned safe_axis3d safe_placement_new
  safe_property safe_property_set safe_transform_object safe_aggregate : safe.

(** What is true of each result stays true. *)
Definition lasting (Q : proj -> Prop) : Prop :=
  forall p p', Q p -> dense (p_map p') -> (exists new, p_map p' = p_map p ++ new) -> frame p p' -> Q p'.

Lemma stable_and A Q : stable A -> lasting Q -> stable (fun p => A p /\ Q p).
Proof. intros [H1 H2] HQ. split; [intros p [H _]; auto|]. intros p p' [Ha Hq] D E F. split; eauto. Qed.

Lemma safe_bmap_each {X Y} (A0 : proj -> Prop) (Q : Y -> proj -> Prop) (f : X -> B Y) n : forall l A,
  stable A -> (forall p, A p -> A0 p) -> (forall c, lasting (Q c)) ->
  (forall a A, In a l -> stable A -> (forall p, A p -> A0 p) -> safe A n (f a) (fun c p => A p /\ Q c p)) ->
  safe A (n * N.of_nat (length l)) (bmap f l)
    (fun cs p => A p /\ (length cs = length l /\ Forall (fun c => Q c p) cs)).
Proof.
  induction l as [|a l IH]; intros A HA Hsub HQ H; cbn [bmap length].
  - apply safe_ret. auto.
  - eapply safe_bind; [apply H; auto; now left|lia|]. intro c. cbv beta.
    eapply safe_bind; [apply (IH (fun p => A p /\ Q c p)); auto|lia|].
    + now apply stable_and.
    + intros p [Hp _]. auto.
    + intros. apply H; auto. now right.
    + intro cs. cbv beta. apply safe_ret. intros p [[Hp Hc] [Hl Hf]]. split; auto. cbn [length]. split; auto.
Qed.

Section Reached.
Variable o : oracle.
Hypothesis Ho : sane o.
Variable sh : bool.
Variable p0 : proj.
Let K := kinds (p_map p0).
Hypothesis I0 : inv K sh true p0.
Notation "n 'is' k" := (K n = Some k) (at level 70).
Let H0 : stable (at0 p0) := stable_at0 p0.
Hint Resolve H0 : safe.

(** ** Spatial structure *)

Lemma safe_sub_context (A : proj -> Prop) c : (forall p, A p -> exists l, lookup (p_map p) c = Some (Ent KGeometricRepresentationSubContext l)) ->
  safe A 0 sub_context (fun _ => A).
Proof.
  intros H p Hp Hn. destruct (H p Hp) as (l & L).
  assert (Hin : In c (id_of KGeometricRepresentationSubContext (p_map p))).
  { apply id_of_spec. exists (Ent KGeometricRepresentationSubContext l). split; [now apply lookup_In|reflexivity]. }
  apply in_rev in Hin. unfold sub_context. unfold bbind at 1, bget.
  destruct (rev (id_of KGeometricRepresentationSubContext (p_map p))) as [|x l'] eqn:E; [destruct Hin|].
  exists x, p. split; [reflexivity|]. split; [lia|auto].
Qed.

Variable c0 : N.
Hypothesis Hc : c0 is KGeometricRepresentationSubContext.

Lemma sub_at p : at0 p0 p -> exists l, lookup (p_map p) c0 = Some (Ent KGeometricRepresentationSubContext l).
Proof. intro Hp. destruct (old_at sh p0 I0 _ _ _ Hp Hc) as (l & L & _). eauto. Qed.

Lemma safe_new_site name v : safe (at0 p0) 10 (new_site o name v) (fun _ _ => True).
Proof.
  unfold new_site. sb. sb. sb. sb. sb. eapply (safe_bind _ _ _ 0); [apply safe_get|lia|]. intro q. cbv beta.
  eapply (safe_bind _ _ _ 0 (fun _ p => exists l, lookup (p_map p) c0 = Some (Ent KGeometricRepresentationSubContext l))).
  - intros p [Hp ->] Hs. eexists tt, _. split; [reflexivity|]. cbn [set_sites p_map]. split; [lia|]. now apply sub_at.
  - lia.
  - intros []. eapply (safe_bind _ _ _ 0); [apply (safe_sub_context _ c0); auto|lia|]. intro. apply safe_ret. auto.
Qed.

Lemma safe_new_building s name v : s is KSite -> safe (at0 p0) 10 (new_building o s name v) (fun _ _ => True).
Proof.
  intro Hs. unfold new_building. sb.
  eapply safe_bind; [apply (safe_relative0 sh p0 I0 _ H0 (fun p H => H) _ _ _ Hs); now left|lia|]. intro. cbv beta.
  sb. sb. sb. eapply (safe_bind _ _ _ 0); [apply (safe_sub_context _ c0), sub_at|lia|]. intro. go.
Qed.

Lemma safe_new_storey b name e : b is KBuilding -> safe (at0 p0) 10 (new_storey o b name e) (fun _ _ => True).
Proof.
  intro Hs. unfold new_storey. sb.
  eapply safe_bind; [apply (safe_relative0 sh p0 I0 _ H0 (fun p H => H) _ _ _ Hs); now right; left|lia|]. intro. cbv beta.
  sb. sb. sb. eapply (safe_bind _ _ _ 0); [apply (safe_sub_context _ c0), sub_at|lia|]. intro. go.
Qed.

(** ** Transforms *)

(** There is a representation. *)
Definition repr (r : N) (p : proj) : Prop := exists x, lookup (p_map p) r = Some (Ent KShapeRepresentation x).

(** The objects that were there are as before, but shapes may show other
    representations. *)
Definition moved (p : proj) : Prop :=
  dense (p_map p) /\
  (forall n k l, lookup (p_map p0) n = Some (Ent k l) -> k <> KProductDefinitionShape -> lookup (p_map p) n = Some (Ent k l)) /\
  (forall n, n is KProductDefinitionShape -> exists l, lookup (p_map p) n = Some (Ent KProductDefinitionShape l) /\
     (length (attr_ids l 2) <= 2)%nat /\ Forall (fun r => repr r p) (attr_ids l 2)).

Lemma lasting_repr r : lasting (repr r).
Proof. intros p p' (x & L) _ (new & E) _. exists x. now rewrite E, lookup_app, L. Qed.

Lemma lasting_reprs rs : lasting (fun p => Forall (fun r => repr r p) rs).
Proof. intros p p' H D E F. revert H. apply Forall_impl. intros r Hr. eapply lasting_repr; eauto. Qed.

Lemma stable_moved : stable moved.
Proof.
  split; [intros p H; apply H|]. intros p p' (D & H1 & H2) D' E F. split; auto. split.
  - intros n k l L Hk. destruct E as (new & ->). rewrite lookup_app, (H1 _ _ _ L Hk). reflexivity.
  - intros n Hn. destruct (H2 n Hn) as (l & L & Hl & Hr). exists l. split; [|split; auto].
    + destruct E as (new & ->). now rewrite lookup_app, L.
    + eapply lasting_reprs; eauto.
Qed.

Lemma moved_start : moved p0.
Proof.
  split; [apply I0|]. split; auto. intros n Hn. destruct (old sh p0 I0 _ _ Hn) as (l & L & G). exists l.
  split; auto. destruct (good_shape _ _ _ G) as [Hl Hr]. split; auto. apply Forall_forall. intros r Hi.
  destruct (old sh p0 I0 _ _ (Hr r Hi)) as (x & Lx & _). now exists x.
Qed.

Lemma moved_old p n k : moved p -> n is k -> k <> KProductDefinitionShape ->
  exists l, lookup (p_map p) n = Some (Ent k l) /\ good_ent K sh (Ent k l).
Proof. intros (_ & H & _) Hn Hk. destruct (old sh p0 I0 _ _ Hn) as (l & L & G). exists l. auto. Qed.

Lemma safe_mapped_repr (A : proj -> Prop) keep ctx tr v r : stable A -> (forall p, A p -> repr r p) ->
  safe A 5 (mapped_repr keep ctx tr v r) (fun n p => A p /\ repr n p).
Proof.
  intros HA Hr. unfold mapped_repr. sb. sb.
  eapply (safe_bind _ _ _ 0 (fun _ => A)); [|lia|].
  - destruct keep; [|now apply safe_ret].
    eapply (safe_bind _ _ _ 0); [apply (safe_fetch _ 0 _ (fun _ => True)); intros p Hp; destruct (Hr p Hp) as (x & L); eauto|lia|].
    intro l. apply safe_ret. intros p [Hp _]. exact Hp.
  - intro i. cbv beta. sb. sb. eapply safe_weaken; [apply safe_ins, HA|lia|]. cbv beta. intros n p [Hp L]. split; auto.
    eexists. exact L.
Qed.

Lemma safe_modify n rs : n is KProductDefinitionShape -> (length rs <= 2)%nat ->
  safe (fun p => moved p /\ Forall (fun r => repr r p) rs) 0 (modify KProductDefinitionShape n (set_at 2 (ids rs)))
    (fun _ => moved).
Proof.
  intros Hn Hl p [(D & H1 & H2) HR] _. destruct (H2 n Hn) as (l & L & _).
  assert (E : modify KProductDefinitionShape n (set_at 2 (ids rs)) p =
              Done (tt, set_map (put (p_map p) n (Ent KProductDefinitionShape (set_at 2 (ids rs) l))) p)).
  { unfold modify, update, get. rewrite L. assert (X : kind_eqb KProductDefinitionShape KProductDefinitionShape = true) by now apply kind_eqb_eq.
    now rewrite X. }
  rewrite E. eexists tt, _. split; [reflexivity|]. cbn [set_map p_map]. pose proof (dense_increasing _ D) as Inc.
  rewrite (put_size _ _ _ _ Inc L). split; [lia|].
  assert (LP : forall m, lookup (put (p_map p) n (Ent KProductDefinitionShape (set_at 2 (ids rs) l))) m =
                         if m =? n then Some (Ent KProductDefinitionShape (set_at 2 (ids rs) l)) else lookup (p_map p) m).
  { intro m. now apply lookup_put. }
  assert (HK : forall r, repr r p -> repr r (set_map (put (p_map p) n (Ent KProductDefinitionShape (set_at 2 (ids rs) l))) p)).
  { intros r (x & Lx). exists x. cbn [set_map p_map]. rewrite LP. destruct (N.eqb_spec r n) as [->|]; auto. congruence. }
  split; [|split].
  - cbn [set_map p_map]. apply (grow_modify anything _ _ _ _ _ E D).
  - cbn [set_map p_map]. intros m k x Lm Hk. rewrite LP. destruct (N.eqb_spec m n) as [->|]; auto.
    destruct (old sh p0 I0 _ _ Hn) as (y & Ly & _). congruence.
  - intros m Hm. cbn [set_map p_map]. rewrite LP. destruct (N.eqb_spec m n) as [->|Hne].
    + eexists. split; [reflexivity|].
      assert (E2 : attr_ids (set_at 2 (ids rs) l) 2 = rs \/ attr_ids (set_at 2 (ids rs) l) 2 = []).
      { destruct l as [|v0 [|v1 [|v2 l]]]; cbn [set_at]; unfold attr_ids; cbn [nth_error]; auto.
        left. unfold ids. apply ids_of_map. }
      destruct E2 as [->| ->]; [|split; [cbn; lia|constructor]]. split; auto. revert HR. apply Forall_impl. exact HK.
    + destruct (H2 m Hm) as (x & Lx & Hx & Hf). exists x. split; auto. split; auto. revert Hf. apply Forall_impl. exact HK.
Qed.

Let HM := stable_moved.

Lemma safe_transform keep k n ctx t v : n is k -> In k transformable ->
  safe moved 15 (transform keep k n ctx t v) (fun _ => moved).
Proof.
  intros Hn Hk. unfold transform.
  eapply (safe_bind _ _ _ 0); [apply (safe_fetch _ 0 _ (fun l => good_ent K sh (Ent k l))); intros p Hp|lia|].
  { apply moved_old; auto. intros ->. unfold transformable in Hk. cbn [In] in Hk. intuition congruence. }
  intro l. cbv beta. apply safe_pure. intro G. destruct (good_shown _ _ _ _ Hk G) as (s & -> & Hs).
  eapply safe_bind; [apply safe_transform_object, HM|lia|]. intro tr. cbv beta.
  eapply (safe_bind _ _ _ 0 (fun l p => moved p /\ Forall (fun r => repr r p) (attr_ids l 2) /\ (length (attr_ids l 2) <= 2)%nat)); [|lia|].
  { intros p Hp Hs'. destruct Hp as (D & H1 & H2). destruct (H2 s Hs) as (d & L & Hl & Hf).
    exists d, p. split; [now apply fetch_done|]. split; [lia|]. split; [split; auto|auto]. }
  intro d. cbv beta.
  apply (safe_pre (fun p => (moved p /\ Forall (fun r => repr r p) (attr_ids d 2)) /\ (length (attr_ids d 2) <= 2)%nat)); [tauto|].
  apply safe_pure. intro Hl.
  eapply (safe_bind _ _ _ (5 * N.of_nat (length (attr_ids d 2)))).
  - apply (safe_bmap_each (fun p => moved p /\ Forall (fun r => repr r p) (attr_ids d 2)) repr).
    + apply stable_and; [exact HM|apply lasting_reprs].
    + auto.
    + apply lasting_repr.
    + intros r A Hr HA Hsub. apply safe_mapped_repr; auto. intros p Hp. destruct (Hsub p Hp) as [_ HF].
      rewrite Forall_forall in HF. auto.
  - lia.
  - intro rs. cbv beta. intros p [[Hp _] [Hlen Hr]] Hs'.
    destruct (safe_modify s rs Hs) with (p := p) as (u & p' & E & S' & Hm); auto; [rewrite Hlen; exact Hl|lia|].
    exists u, p'. split; auto. split; [lia|auto].
Qed.

Lemma safe_local_placement (A : proj -> Prop) l : (forall p, A p -> moved p) ->
  good_ent K sh (Ent KOpeningElement l) -> safe A 0 (local_placement l) (fun _ => A).
Proof.
  intros Hsub G. unfold local_placement.
  assert (HK : In KOpeningElement places) by (unfold places; cbn [In]; tauto).
  destruct (good_placed _ _ _ _ HK G) as (q & -> & Hq).
  eapply (safe_bind _ _ _ 0); [apply (safe_fetch _ 0 _ (fun l => good_ent K sh (Ent KLocalPlacement l))); intros p Hp; apply moved_old; auto; discriminate|lia|].
  intro lp. cbv beta. apply safe_pure. intro G1. destruct (good_placement _ _ _ G1) as (a & Ea & Ha).
  eapply (safe_bind _ _ _ 0); [apply (safe_need _ 0 _ Ea)|lia|]. intro b. cbv beta. apply safe_pure. intros ->.
  eapply (safe_bind _ _ _ 0); [apply (safe_fetch_any 0 _ (fun e => exists x, e = Ent KAxis3D x /\ good_ent K sh e))|lia|].
  { intros p Hp. destruct (moved_old p _ _ (Hsub p Hp) Ha) as (x & L & Gx); [discriminate|]. eauto. }
  intro e. cbv beta. apply safe_pure. intros (x & -> & G2). destruct (good_axis _ _ _ G2) as (c & Ec & Hcx).
  eapply (safe_bind _ _ _ 0); [apply (safe_need _ 0 _ Ec)|lia|]. intro b. cbv beta. apply safe_pure. intros ->.
  eapply (safe_bind _ _ _ 0); [apply (safe_fetch _ 0 _ (fun l => good_ent K sh (Ent KPoint3D l))); intros p Hp; apply moved_old; auto; discriminate|lia|].
  intro pt. cbv beta. apply safe_pure. intro G3. destruct (good_point _ _ _ G3) as (a1 & a2 & a3 & ->).
  apply safe_ret. auto.
Qed.

Lemma hget_In {V} (l : list (N * V)) k v : hget N.eqb l k = Some v -> In (k, v) l.
Proof.
  induction l as [|[k1 v1] l IH]; [discriminate|]. cbn [hget]. destruct (N.eqb_spec k1 k) as [->|].
  - intro E. injection E as ->. now left.
  - intro E. right. auto.
Qed.

Lemma concat_short {X} (ls : list (list X)) : Forall (fun l => (length l <= 1)%nat) ls -> (length (concat ls) <= length ls)%nat.
Proof. induction 1; cbn [concat length]; auto. rewrite app_length. lia. Qed.

Lemma filter_short {X} f (l : list X) : (length (filter f l) <= length l)%nat.
Proof. induction l as [|x l IH]; cbn [filter length]; auto. destruct (f x); cbn [length]; lia. Qed.

(** Number of openings of the storey. *)
Definition holes (st : storey) : N := N.of_nat (length (s_voids_wall st) + length (s_voids_slab st)).

Lemma host_moves h : In (host_kind h) transformable.
Proof. unfold host_kind, host_cls, transformable. destruct (h_slab h); cbn [kind_of_cls In]; tauto. Qed.

Lemma safe_drop_host h st : h_id h is host_kind h -> sgood K sh st ->
  safe moved (15 + 30 * holes st) (drop_host o h st) (fun _ => moved).
Proof.
  intros Hh (_ & _ & _ & _ & HW & HS & HF). unfold drop_host. destruct (h_tr h) as [t|]; [|now apply safe_ret].
  eapply safe_bind; [apply safe_transform; [exact Hh|apply host_moves]|lia|]. intros []. cbv beta.
  assert (Fo : fair o) by apply Ho.
  set (vs0 := if h_slab h then s_voids_slab st else s_voids_wall st).
  assert (HV : forall x, In x vs0 -> fst x is KOpeningElement).
  { intros x Hx. rewrite Forall_forall in HW, HS. unfold vs0 in Hx.
    destruct (h_slab h); [now apply HS|now apply HW]. }
  assert (Hlen0 : N.of_nat (length vs0) <= holes st) by (unfold holes, vs0; destruct (h_slab h); lia).
  eapply (safe_bind _ _ _ 0); [apply (safe_walk_pairs o HM Fo)|lia|]. intro vs. cbv beta. apply safe_pure. intros [Hl Hi].
  set (fs := filter _ vs).
  assert (Hfs : forall x, In x fs -> fst x is KOpeningElement).
  { intros x Hx. apply HV, Hi. now apply filter_In in Hx as [Hx _]. }
  assert (Hlen1 : (length fs <= length vs)%nat) by apply filter_short.
  eapply (safe_bind _ _ _ (0 * N.of_nat (length fs))).
  { apply (safe_bmap_each moved (fun (c : list (N * vec3)) _ => (length c <= 1)%nat /\ Forall (fun y => fst y is KOpeningElement) c)); auto.
    - intros c p p' H _ _ _. exact H.
    - intros x A Hx HA Hsub.
      eapply (safe_bind _ _ _ 0); [apply (safe_fetch _ 0 _ (fun l => good_ent K sh (Ent KOpeningElement l))); intros p Hp; apply moved_old; auto; discriminate|lia|].
      intro l. cbv beta. apply safe_pure. intro G.
      eapply (safe_bind _ _ _ 0); [apply (safe_local_placement A l Hsub G)|lia|]. intro q. cbv beta.
      apply safe_ret. intros p Hp. split; auto.
      destruct q; cbn [length]; split; auto. constructor; auto. cbn [fst]. now apply Hfs. }
  { lia. }
  intro ps. cbv beta. apply (safe_pre (fun p => moved p /\ ((length ps = length fs)%nat /\ Forall (fun c : list (N * vec3) => (length c <= 1)%nat /\ Forall (fun y => fst y is KOpeningElement) c) ps))); [tauto|].
  apply safe_pure. intros [Hlp Hps]. set (ops := concat ps).
  assert (Hlo : (length ops <= length ps)%nat).
  { apply concat_short. revert Hps. apply Forall_impl. tauto. }
  assert (Hops : forall y, In y ops -> fst y is KOpeningElement).
  { intros y Hy. apply in_concat in Hy as (c & Hcn & Hy). rewrite Forall_forall in Hps. destruct (Hps c Hcn) as [_ Hf].
    rewrite Forall_forall in Hf. auto. }
  eapply (safe_bind _ _ _ (15 * N.of_nat (length ops))).
  { apply (safe_bmap _ _ 15). intros y Hy. apply safe_transform; auto. unfold transformable; cbn [In]; tauto. }
  { lia. }
  intro u1. cbv beta. apply safe_pure. intros _.
  set (ws := flat_map _ ops).
  assert (Hlw : (length ws <= length ops)%nat).
  { apply flat_map_short. intro x. destruct (hget N.eqb (s_fills st) (fst x)); auto. }
  assert (Hws : forall y, In y ws -> fst y is KWindow).
  { intros y Hy. apply in_flat_map in Hy as (x & _ & Hy). destruct (hget N.eqb (s_fills st) (fst x)) as [w|] eqn:E; [|destruct Hy].
    destruct Hy as [<-|[]]. cbn [fst]. apply hget_In in E. rewrite Forall_forall in HF. apply (HF _ E). }
  eapply (safe_bind _ _ _ (15 * N.of_nat (length ws))).
  { apply (safe_bmap _ _ 15). intros y Hy. apply safe_transform; auto. unfold transformable; cbn [In]; tauto. }
  { lia. }
  intro u2. cbv beta. apply safe_ret. tauto.
Qed.
End Reached.
