(** Facts about reading geometry. *)

From Coq Require Import String Ascii List NArith ZArith Bool Lia.
From Verif Require Import Base Prims Float Kind Types WellTyped Schema Entity EntitySpec EntityFacts
  DataMap DataMapFacts Extractor Mapping MapSpec.
Import ListNotations.
Open Scope N_scope.

(** ** The shapes of attributes *)

Lemma wts_nil l : wts [] l = true -> l = [].
Proof. now destruct l. Qed.

Lemma wts_cons f fs l : wts (f :: fs) l = true ->
  exists v l', l = v :: l' /\ wt f v = true /\ wts fs l' = true.
Proof.
  destruct l as [|v l']; [discriminate|]. cbn [wts]. intro H. apply andb_prop in H as [H1 H2]. eauto.
Qed.

Lemma wt_ref ks b v : wt (TRef ks b) v = true -> exists n, v = VId n.
Proof. destruct v; try discriminate. eauto. Qed.

Lemma wt_real v : wt TReal v = true -> exists d, v = VReal d.
Proof. destruct v; try discriminate. eauto. Qed.

Lemma wt_vec2 v : wt TVec2 v = true -> exists d, v = VVec d.
Proof. destruct v; try discriminate. eauto. Qed.

Lemma wt_vec3 v : wt TVec3 v = true -> exists d, v = VVec d.
Proof. destruct v; try discriminate. eauto. Qed.

Lemma wt_enum vs v : wt (TEnum vs) v = true -> exists i, v = VEnum i.
Proof. destruct v; try discriminate. eauto. Qed.

Lemma wt_list t v : wt (TList t) v = true -> exists l, v = VList l /\ forallb (wt t) l = true.
Proof. destruct v; try discriminate. eauto. Qed.

Lemma wt_opt t v : wt (TOpt t) v = true -> v = VOmit \/ v = VInh \/ wt t v = true.
Proof. destruct v; auto. Qed.

Lemma wts_go : forall fs l,
  (fix go (fs : list fty) (l : list val) : bool :=
         match fs, l with
         | [], [] => true
         | f :: fs', v :: l' => wt f v && go fs' l'
         | _, _ => false
         end) fs l = wts fs l.
Proof. induction fs as [|f fs IH]; intros [|v l]; auto. Qed.

Lemma wt_idor k r v : wt (idor k r) v = true ->
  (exists n, v = VId n) \/ exists l, v = VEnt l /\ wts (row_fields r) l = true.
Proof.
  unfold idor. destruct v; try discriminate; cbn [wt]; eauto.
Qed.

Lemma all_refs ks b l : forallb (wt (TRef ks b)) l = true -> exists ns, l = map VId ns.
Proof.
  induction l as [|v l IH]; cbn [forallb]; [exists []; reflexivity|].
  intro H. apply andb_prop in H as [H1 H2]. apply wt_ref in H1 as (n & ->).
  apply IH in H2 as (ns & ->). now exists (n :: ns).
Qed.

Lemma all_vecs (t : fty) l : (t = TVec2 \/ t = TVec3) -> forallb (wt t) l = true -> exists ps, l = map VVec ps.
Proof.
  intro Ht. induction l as [|v l IH]; cbn [forallb]; [exists []; reflexivity|].
  intro H. apply andb_prop in H as [H1 H2].
  assert (exists d, v = VVec d) as (d & ->) by (destruct Ht as [-> | ->]; [now apply wt_vec2|now apply wt_vec3]).
  apply IH in H2 as (ps & ->). now exists (d :: ps).
Qed.

Lemma val_ids_map ns : val_ids (map VId ns) = ns.
Proof. induction ns as [|n ns IH]; auto. cbn. f_equal. exact IH. Qed.

Lemma coords_map ps : flat_map (fun v => match v with VVec p => [p] | _ => [] end) (map VVec ps) = ps.
Proof. induction ps as [|n ns IH]; auto. cbn. f_equal. exact IH. Qed.

(** Take the attributes of an object apart. *)
Ltac take H := let r := fresh "r" in let Hr := fresh in
  destruct H as (r & Hr & H); injection Hr as <-; cbn [row_fields] in H;
  repeat (apply wts_cons in H as (? & ? & -> & ? & H)); apply wts_nil in H; subst.

(** ** What is lacking *)

Definition fails (m : dmap) (ks : list kind) (v : val) : Prop :=
  (exists n, mentions v n /\
     (not_one_of m ks n \/ exists k1 l1, lookup m n = Some (Ent k1 l1) /\ In k1 ks /\ lacking m k1 l1)) \/
  (exists k1 l1, ks = [k1] /\ v = VEnt l1 /\ lacking m k1 l1).

Lemma lacking_iff m k l : lacking m k l <->
  (exists i ks v, In (i, ks) (follows k) /\ nth_error l i = Some v /\ fails m ks v) \/
  (k = KPolyLine /\ uneven m l).
Proof.
  split.
  - intros [(k' & l' & ks & n & Hu & Hl & Hn)|(l' & Hu & Hn)]; revert Hn.
    + destruct Hu as [k l|k l ks1 n1 k1 l1 k2 l2 (i & v & Hi & Hv & Hm) Hk1 Hin Hu|k l i k1 l1 k2 l2 Hi Hv Hu]; intro Hn.
      * destruct Hl as (i & v & Hi & Hv & Hm). left. exists i, ks, v. repeat split; auto. left. eauto.
      * left. exists i, ks1, v. repeat split; auto. left. exists n1. split; auto. right.
        exists k1, l1. repeat split; auto. left. eauto 10.
      * left. exists i, [k1], (VEnt l1). repeat split; auto. right. exists k1, l1. repeat split; auto. left. eauto 10.
    + remember KPolyLine as kp eqn:Ek.
      destruct Hu as [k l|k l ks1 n1 k1 l1 k2 l2 (i & v & Hi & Hv & Hm) Hk1 Hin Hu|k l i k1 l1 k2 l2 Hi Hv Hu]; intro Hn.
      * now right.
      * left. exists i, ks1, v. repeat split; auto. left. exists n1. split; auto. right.
        exists k1, l1. repeat split; auto. right. subst. eauto.
      * left. exists i, [k1], (VEnt l1). repeat split; auto. right. exists k1, l1. repeat split; auto.
        right. subst. eauto.
  - intros [(i & ks & v & Hi & Hv & [(n & Hm & [Hn|(k1 & l1 & Hk & Hin & HL)])|(k1 & l1 & -> & -> & HL)])|[-> Hu]].
    + left. exists k, l, ks, n. split; [constructor|]. split; auto. exists i, v. auto.
    + assert (Hld : leads k l ks n) by (exists i, v; auto).
      destruct HL as [(k' & l' & ks' & n' & Hu & Hl & Hn)|(l' & Hu & Hn)].
      * left. exists k', l', ks', n'. split; [econstructor 2; eauto|]. auto.
      * right. exists l'. split; auto. econstructor 2; eauto.
    + destruct HL as [(k' & l' & ks' & n' & Hu & Hl & Hn)|(l' & Hu & Hn)].
      * left. exists k', l', ks', n'. split; [econstructor 3; eauto|]. auto.
      * right. exists l'. split; auto. econstructor 3; eauto.
    + right. exists l. split; auto. constructor.
Qed.

(** Objects that lead nowhere lack nothing. *)
Lemma lacking_none m k l : follows k = [] -> k <> KPolyLine -> ~ lacking m k l.
Proof. intros Hf Hk. rewrite lacking_iff, Hf. cbn [In]. intros [(i & ks & v & [] & _)|[? _]]; auto. Qed.

Lemma fails_omit m ks : ~ fails m ks VOmit.
Proof. intros [(n & [H|(l & H & _)] & _)|(k & l & _ & H & _)]; discriminate. Qed.

Lemma fails_inh m ks : ~ fails m ks VInh.
Proof. intros [(n & [H|(l & H & _)] & _)|(k & l & _ & H & _)]; discriminate. Qed.

Lemma fails_id m ks n : fails m ks (VId n) <->
  not_one_of m ks n \/ exists k1 l1, lookup m n = Some (Ent k1 l1) /\ In k1 ks /\ lacking m k1 l1.
Proof.
  split.
  - intros [(n' & [H|(l & H & _)] & Hn)|(k & l & _ & H & _)]; try discriminate. now injection H as <-.
  - intro H. left. exists n. split; auto. now left.
Qed.

Lemma fails_ent m k l : fails m [k] (VEnt l) <-> lacking m k l.
Proof.
  split.
  - intros [(n' & [H|(l' & H & _)] & Hn)|(k' & l' & E & H & HL)]; try discriminate.
    injection H as <-. now injection E as <-.
  - intro H. right. eauto.
Qed.

(** The attributes of a known list one by one. *)
Ltac at_index H i := exists i; eexists _, _; split; [|split; [|exact H]]; [eauto 8|reflexivity].
Ltac lack := rewrite lacking_iff; cbn [follows In]; split;
  [ let i := fresh in let ks := fresh in let v := fresh in let Hi := fresh in
    let Hv := fresh in let Hf := fresh in let Hk := fresh in
    intros [(i & ks & v & Hi & Hv & Hf)|[Hk _]]; [|discriminate];
    repeat (destruct Hi as [Hi|Hi]; [injection Hi as <- <-; cbn [nth_error] in Hv; injection Hv as <-; tauto|]); destruct Hi
  | let H := fresh in intro H; left;
    repeat match type of H with _ \/ _ => destruct H as [H|H] end;
    first [at_index H 0%nat|at_index H 1%nat|at_index H 2%nat|at_index H 4%nat] ].

Lemma lacking_axis2 m a b : lacking m KAxis2D [a; b] <-> fails m [KPoint2D] a \/ fails m [KDirection2D] b.
Proof. lack. Qed.
Lemma lacking_axis3 m a b c : lacking m KAxis3D [a; b; c] <->
  fails m [KPoint3D] a \/ fails m [KDirection3D] b \/ fails m [KDirection3D] c.
Proof. lack. Qed.
Lemma lacking_curve m a b c : lacking m KIndexedPolyCurve [a; b; c] <-> fails m [KPointList2D; KPointList3D] a.
Proof. lack. Qed.
Lemma lacking_rectangle m a b c d e : lacking m KRectangleProfileDef [a; b; c; d; e] <-> fails m [KAxis2D; KAxis3D] c.
Proof. lack. Qed.
Lemma lacking_arbitrary m a b c : lacking m KArbitraryClosedProfileDef [a; b; c] <-> fails m [KIndexedPolyCurve; KPolyLine] c.
Proof. lack. Qed.
Lemma lacking_solid m a b c d : lacking m KExtrudedAreaSolid [a; b; c; d] <->
  fails m [KRectangleProfileDef; KArbitraryClosedProfileDef] a \/ fails m [KAxis3D] b \/ fails m [KDirection3D] c.
Proof. lack. Qed.
Lemma lacking_uniform m a b c d e : lacking m KCartesianTransformationOperator3D [a; b; c; d; e] <->
  fails m [KDirection3D] a \/ fails m [KDirection3D] b \/ fails m [KPoint3D] c \/ fails m [KDirection3D] e.
Proof. lack. Qed.
Lemma lacking_other m a b c d e f g : lacking m KCartesianTransformationOperator3DnonUniform [a; b; c; d; e; f; g] <->
  fails m [KDirection3D] a \/ fails m [KDirection3D] b \/ fails m [KPoint3D] c \/ fails m [KDirection3D] e.
Proof. lack. Qed.
Lemma lacking_map m a b : lacking m KRepresentationMap [a; b] <-> fails m [KAxis3D] a \/ fails m [KShapeRepresentation] b.
Proof. lack. Qed.
Lemma lacking_item m a b : lacking m KMappedItem [a; b] <-> fails m [KRepresentationMap] a \/
  fails m [KCartesianTransformationOperator3D; KCartesianTransformationOperator3DnonUniform] b.
Proof. lack. Qed.

(** ** Reading *)

(** [x] gives something with [P], or panics because of [B]. *)
Definition reads {A} (x : outcome A) (P : A -> Prop) (B : Prop) : Prop :=
  (exists a, x = Done a /\ P a /\ ~ B) \/ (x = Panic /\ B).

Lemma reads_bind {A C} x (f : A -> outcome C) P B Q D :
  reads x P B -> (forall a, P a -> reads (f a) Q D) -> reads (obind x f) Q (B \/ D).
Proof.
  intros [(a & -> & HP & HB)|[-> HB]] Hf; cbn [obind].
  - destruct (Hf a HP) as [(b & -> & HQ & HD)|[-> HD]]; [left; exists b; tauto|right; tauto].
  - right; tauto.
Qed.

Lemma reads_done {A} (a : A) (P : A -> Prop) : P a -> reads (Done a) P False.
Proof. intro H. left. exists a. tauto. Qed.

Lemma reads_iff {A} x (P Q : A -> Prop) B D : reads x P B -> (forall a, P a -> Q a) -> (B <-> D) -> reads x Q D.
Proof. intros [(a & -> & HP & HB)|[-> HB]] H1 H2; [left; exists a|right]; intuition. Qed.

Lemma reads_eq {A} x (P : A -> Prop) B D : reads x P B -> (B <-> D) -> reads x P D.
Proof. intros H1 H2. eapply reads_iff; eauto. Qed.

Section Typed.
Variable m : dmap.
Hypothesis typed : forall n k l, lookup m n = Some (Ent k l) -> wf_ent k l.

(** One object of a kind. *)
Lemma reads_get k n : reads (get k m n) (fun l => lookup m n = Some (Ent k l)) (not_one_of m [k] n).
Proof.
  unfold get, not_one_of. destruct (lookup m n) as [[k' l|s]|] eqn:E.
  - destruct (kind_eqb k' k) eqn:Ek.
    + apply kind_eqb_eq in Ek as ->. left. exists l. repeat split; auto. intro H. apply (H k l); cbn; auto.
    + right. split; auto. intros k0 l0 H [->|[]]. injection H as -> ->.
      rewrite (proj2 (kind_eqb_eq k0 k0)) in Ek by reflexivity. discriminate.
  - right. split; auto. discriminate.
  - right. split; auto. discriminate.
Qed.

Definition vec_kind (k : kind) : Prop := In k [KPoint2D; KPoint3D; KDirection2D; KDirection3D].

Lemma vec_lookup k n l : vec_kind k -> lookup m n = Some (Ent k l) -> exists v, l = [VVec v].
Proof.
  intros Hk H. apply typed in H.
  destruct Hk as [<-|[<-|[<-|[<-|[]]]]]; take H;
    match goal with H : wt _ ?v = true |- _ => first [apply wt_vec2 in H | apply wt_vec3 in H]; destruct H as (d & ->); eauto end.
Qed.

Lemma vec_kind_none k l : vec_kind k -> ~ lacking m k l.
Proof. intros Hk. apply lacking_none; destruct Hk as [<-|[<-|[<-|[<-|[]]]]]; auto; discriminate. Qed.

Lemma reads_vec k n : vec_kind k -> reads (get_vec k m n) (vec_at m k n) (fails m [k] (VId n)).
Proof.
  intro Hk. unfold get_vec. eapply reads_iff; [eapply reads_bind; [apply reads_get|]|..].
  - intros l Hl. apply reads_done with (P := vec_at m k n).
    destruct (vec_lookup _ _ _ Hk Hl) as (v & ->). exact Hl.
  - auto.
  - rewrite fails_id. split; [tauto|]. intros [H|(k1 & l1 & _ & [<-|[]] & HL)]; auto.
    now apply vec_kind_none in HL.
Qed.

Lemma reads_opt {A} (f : N -> outcome A) R ks v l i :
  (forall n, reads (f n) (R n) (fails m ks (VId n))) -> nth_error l i = Some v ->
  v = VOmit \/ v = VInh \/ (exists n, v = VId n) ->
  reads (omap f (attr_id l i)) (optional R v) (fails m ks v).
Proof.
  intros Hf Hn Hv. unfold attr_id. rewrite Hn. destruct Hv as [->|[->|(n & ->)]]; cbn [omap].
  - eapply reads_iff; [apply reads_done with (P := optional R VOmit); constructor|auto|].
    split; [tauto|]. apply fails_omit.
  - eapply reads_iff; [apply reads_done with (P := optional R VInh); constructor|auto|].
    split; [tauto|]. apply fails_inh.
  - eapply reads_iff; [eapply reads_bind; [apply Hf|]|..].
    + intros a Ha. apply reads_done with (P := optional R (VId n)). now constructor.
    + auto.
    + tauto.
Qed.

Lemma opt_refs ks b v : wt (TOpt (TRef ks b)) v = true -> v = VOmit \/ v = VInh \/ exists n, v = VId n.
Proof. intro H. apply wt_opt in H as [H|[H|H]]; auto. apply wt_ref in H. auto. Qed.

Ltac vk := unfold vec_kind; cbn [In]; auto 6.

Lemma the_id_at l i n : nth_error l i = Some (VId n) -> the_id l i = Done n.
Proof. intro H. unfold the_id, attr_id. now rewrite H. Qed.

Ltac ids := repeat match goal with
  | |- context [the_id ?l ?i] => rewrite (the_id_at l i _ eq_refl); cbn [obind] end.

(** ** Placements *)

Lemma reads_axis2 l : wf_ent KAxis2D l -> reads (map_axis2 m l) (axis_is m KAxis2D l) (lacking m KAxis2D l).
Proof.
  intro H. take H.
  match goal with H1 : wt (TRef _ _) _ = true, H2 : wt (TOpt _) _ = true |- _ =>
    apply wt_ref in H1 as (p & ->); apply opt_refs in H2 as Hx end.
  unfold map_axis2. ids.
  eapply reads_eq; [eapply reads_bind; [apply reads_vec; vk|intros v Hv;
    eapply reads_bind; [eapply reads_opt; [intro; apply reads_vec; vk|reflexivity|exact Hx]|intros d Hd]]|..].
  - apply reads_done. constructor; eauto.
  - rewrite lacking_axis2. tauto.
Qed.

Lemma reads_axis3 l : wf_ent KAxis3D l -> reads (map_axis3 m l) (axis_is m KAxis3D l) (lacking m KAxis3D l).
Proof.
  intro H. take H.
  match goal with H1 : wt (TRef _ _) _ = true, H2 : wt (TOpt _) _ = true, H3 : wt (TOpt _) _ = true |- _ =>
    apply wt_ref in H1 as (p & ->); apply opt_refs in H2 as Hx; apply opt_refs in H3 as Hz end.
  unfold map_axis3. ids.
  eapply reads_eq; [eapply reads_bind; [apply reads_vec; vk|intros v Hv;
    eapply reads_bind; [eapply reads_opt; [intro; apply reads_vec; vk|reflexivity|eassumption]|intros d Hd;
    eapply reads_bind; [eapply reads_opt; [intro; apply reads_vec; vk|reflexivity|eassumption]|intros d' Hd']]]|..].
  - apply reads_done. constructor; eauto.
  - rewrite lacking_axis3. tauto.
Qed.

Lemma kind_dec (a b : kind) : {a = b} + {a <> b}.
Proof. decide equality. Defined.

(** An object of one of several kinds. *)
Lemma reads_told {A} (f : entity -> outcome A) ks R n :
  (forall k l, lookup m n = Some (Ent k l) -> In k ks -> reads (f (Ent k l)) (R k l) (lacking m k l)) ->
  (forall k l, ~ In k ks -> f (Ent k l) = Panic) -> (forall s, f (EDummy s) = Panic) ->
  reads (obind (get_untyped m n) f) (told m R n) (fails m ks (VId n)).
Proof.
  intros H1 H2 H3. unfold get_untyped. destruct (lookup m n) as [[k l|s]|] eqn:E; cbn [obind].
  - destruct (in_dec kind_dec k ks) as [Hin|Hin].
    + eapply reads_iff; [apply H1; auto|..].
      * intros a Ha. exists k, l. auto.
      * rewrite fails_id. split; [intro H; right; eauto|].
        intros [H|(k1 & l1 & Hk & _ & HL)]; [now apply H in E|]. rewrite E in Hk. now injection Hk as <- <-.
    + right. rewrite H2 by auto. split; auto. apply fails_id. left. intros k1 l1 Hk.
      rewrite E in Hk. now injection Hk as <- <-.
  - right. rewrite H3. split; auto. apply fails_id. left. intros k1 l1 Hk. rewrite E in Hk. discriminate.
  - right. split; auto. apply fails_id. left. intros k1 l1 Hk. rewrite E in Hk. discriminate.
Qed.

Ltac others := let k := fresh in let l := fresh in let H := fresh in
  intros k l H; destruct k; auto; exfalso; apply H; cbn [In]; auto 6.

Lemma reads_map_axis n : reads (map_axis m n) (told m (axis_is m) n) (fails m [KAxis2D; KAxis3D] (VId n)).
Proof.
  apply reads_told; auto; [|others].
  intros k l Hl [<-|[<-|[]]]; [apply reads_axis2|apply reads_axis3]; eauto.
Qed.

(** ** Curves *)

Lemma in_map_id n ns : In (VId n) (map VId ns) <-> In n ns.
Proof.
  rewrite in_map_iff. split; [intros (n' & E & H); now injection E as ->|eauto].
Qed.

Lemma leads_line ns ks n : leads KPolyLine [VList (map VId ns)] ks n <-> ks = [KPoint2D; KPoint3D] /\ In n ns.
Proof.
  split.
  - intros (i & v & [Hi|[]] & Hv & Hm). injection Hi as <- <-. cbn [nth_error] in Hv. injection Hv as <-.
    split; auto. destruct Hm as [Hm|(l & Hm & Hin)]; [discriminate|]. injection Hm as <-. now apply in_map_id.
  - intros [-> Hin]. exists 0%nat, (VList (map VId ns)). split; [cbn; auto|]. split; auto.
    right. exists (map VId ns). split; auto. now apply in_map_id.
Qed.

Lemma uneven_line ns : uneven m [VList (map VId ns)] <->
  ns = [] \/ exists n n' v v', In n ns /\ In n' ns /\ vec_at m KPoint2D n v /\ vec_at m KPoint3D n' v'.
Proof.
  unfold uneven. split.
  - intros [H|(ks & n & n' & v & v' & H1 & H2 & H3 & H4)].
    + left. destruct ns as [|n ns]; auto. exfalso. apply (H [KPoint2D; KPoint3D] n), leads_line. cbn; auto.
    + right. apply leads_line in H1 as [-> H1], H2 as [_ H2]. eauto 10.
  - intros [->|(n & n' & v & v' & H1 & H2 & H3 & H4)].
    + left. intros ks n H. apply leads_line in H as [_ []].
    + right. exists [KPoint2D; KPoint3D], n, n', v, v'. rewrite !leads_line. auto.
Qed.

Lemma lacking_line ns : lacking m KPolyLine [VList (map VId ns)] <->
  (exists n, In n ns /\ not_one_of m [KPoint2D; KPoint3D] n) \/ ns = [] \/
  (exists n n' v v', In n ns /\ In n' ns /\ vec_at m KPoint2D n v /\ vec_at m KPoint3D n' v').
Proof.
  rewrite lacking_iff. cbn [follows In]. rewrite uneven_line. split.
  - intros [(i & ks & v & [Hi|[]] & Hv & Hf)|[_ H]]; [|now right]. injection Hi as <- <-.
    cbn [nth_error] in Hv. injection Hv as <-. left.
    destruct Hf as [(n & [Hm|(l & Hm & Hin)] & Hn)|(k1 & l1 & _ & E & _)]; try discriminate. injection Hm as <-.
    apply (proj1 (in_map_id n ns)) in Hin. exists n. split; auto.
    destruct Hn as [Hn|(k1 & l1 & _ & Hk & HL)]; auto.
    exfalso. revert HL. apply vec_kind_none. destruct Hk as [<-|[<-|[]]]; vk.
  - intros [(n & Hin & Hn)|H]; [left|now right]. exists 0%nat, [KPoint2D; KPoint3D], (VList (map VId ns)).
    split; auto. split; auto. left. exists n. split; auto. right. exists (map VId ns). split; auto.
    now apply in_map_id.
Qed.

Lemma reads_maps k ns : vec_kind k ->
  reads (maps (get_vec k m) ns) (Forall2 (vec_at m k) ns) (exists n, In n ns /\ forall v, ~ vec_at m k n v).
Proof.
  intro Hk. induction ns as [|n ns IH]; cbn [maps].
  - eapply reads_iff; [apply reads_done with (P := Forall2 (vec_at m k) []); constructor|auto|].
    split; [tauto|]. now intros (n & [] & _).
  - eapply reads_iff; [eapply reads_bind; [apply (reads_vec k n Hk)|intros v Hv; eapply reads_bind; [exact IH|intros vs Hvs]]|..].
    + apply reads_done with (P := Forall2 (vec_at m k) (n :: ns)). now constructor.
    + auto.
    + rewrite fails_id. split.
      * intros [[H|(k1 & l1 & Hl & [<-|[]] & HL)]|[(n' & Hin & Hn)|[]]].
        -- exists n. split; [now left|]. intros v Hv. apply (H k [VVec v]); auto. now left.
        -- now apply vec_kind_none in HL.
        -- exists n'. split; [now right|]. auto.
      * intros (n' & [<-|Hin] & Hn); [|right; left; eauto]. left. left. intros k' l' Hl [<-|[]].
        destruct (vec_lookup _ _ _ Hk Hl) as (v & ->). now apply (Hn v).
Qed.

Lemma vec_at_fun k k' n v v' : vec_at m k n v -> vec_at m k' n v' -> k = k'.
Proof. unfold vec_at. intros H1 H2. rewrite H1 in H2. now injection H2. Qed.

Lemma not_2d n : (forall v, ~ vec_at m KPoint2D n v) ->
  not_one_of m [KPoint2D; KPoint3D] n \/ exists v, vec_at m KPoint3D n v.
Proof.
  intro H. destruct (lookup m n) as [[k l|s]|] eqn:E.
  - destruct (kind_dec k KPoint3D) as [->|Hk].
    + right. destruct (vec_lookup KPoint3D n l) as (v & ->); auto; [vk|]. now exists v.
    + left. intros k' l' Hl [<-|[<-|[]]]; rewrite E in Hl; injection Hl as -> ->; [|congruence].
      destruct (vec_lookup KPoint2D n l') as (v & ->); auto; [vk|]. now apply (H v).
  - left. intros k' l' Hl. rewrite E in Hl. discriminate.
  - left. intros k' l' Hl. rewrite E in Hl. discriminate.
Qed.

Lemma not_3d n : (forall v, ~ vec_at m KPoint3D n v) ->
  not_one_of m [KPoint2D; KPoint3D] n \/ exists v, vec_at m KPoint2D n v.
Proof.
  intro H. destruct (lookup m n) as [[k l|s]|] eqn:E.
  - destruct (kind_dec k KPoint2D) as [->|Hk].
    + right. destruct (vec_lookup KPoint2D n l) as (v & ->); auto; [vk|]. now exists v.
    + left. intros k' l' Hl [<-|[<-|[]]]; rewrite E in Hl; injection Hl as -> ->; [congruence|].
      destruct (vec_lookup KPoint3D n l') as (v & ->); auto; [vk|]. now apply (H v).
  - left. intros k' l' Hl. rewrite E in Hl. discriminate.
  - left. intros k' l' Hl. rewrite E in Hl. discriminate.
Qed.

Lemma not_one_vec n k v : In k [KPoint2D; KPoint3D] -> not_one_of m [KPoint2D; KPoint3D] n -> ~ vec_at m k n v.
Proof. intros Hk H Hv. now apply (H _ _ Hv). Qed.

Lemma wf_line l : wf_ent KPolyLine l -> exists ns, l = [VList (map VId ns)].
Proof.
  intro H. take H. match goal with H : wt (TList _) _ = true |- _ => apply wt_list in H as (vs & -> & H); apply all_refs in H as (ns & ->) end.
  eauto.
Qed.

Lemma reads_line l : wf_ent KPolyLine l ->
  reads (polyline_points m l) (points_are m KPolyLine l) (lacking m KPolyLine l).
Proof.
  intro H. apply wf_line in H as (ns & ->). unfold polyline_points, attr_ids. cbn [nth_error].
  rewrite val_ids_map. destruct ns as [|n ns].
  { right. split; auto. apply lacking_line. auto. }
  unfold get_untyped. destruct (lookup m n) as [e|] eqn:E; cbn [obind].
  2:{ right. split; auto. apply lacking_line. left. exists n. split; [now left|]. intros k l Hl.
      rewrite E in Hl. discriminate. }
  assert (Hother : kind_of e <> KPoint2D -> kind_of e <> KPoint3D -> lacking m KPolyLine [VList (map VId (n :: ns))]).
  { intros H2 H3. apply lacking_line. left. exists n. split; [now left|]. intros k l Hl.
    rewrite E in Hl. injection Hl as ->. cbn [kind_of] in *. intros [<-|[<-|[]]]; auto. }
  destruct (kind_dec (kind_of e) KPoint2D) as [H2|H2]; [|destruct (kind_dec (kind_of e) KPoint3D) as [H3|H3]].
  - rewrite H2. destruct e as [k l|s]; [|discriminate]. cbn [kind_of] in H2. subst k.
    destruct (vec_lookup KPoint2D n l) as (v & ->); auto; [vk|].
    eapply reads_eq; [eapply reads_bind; [apply (reads_maps KPoint2D (n :: ns)); vk|intros ps Hps]|..].
    + apply reads_done. constructor; [discriminate|exact Hps].
    + rewrite lacking_line. split.
      * intros [(n' & Hin & Hn)|[]]. apply not_2d in Hn as [Hn|(v' & Hn)]; [eauto|].
        right. right. exists n, n', v, v'. split; [now left|]. auto.
      * intros [(n' & Hin & Hn)|[Hn|(a & b & va & vb & Ha & Hb & Hva & Hvb)]]; [| discriminate|].
        -- left. exists n'. split; auto. intro w. apply not_one_vec; cbn [In]; auto.
        -- left. exists b. split; auto. intros w Hw. now pose proof (vec_at_fun _ _ _ _ _ Hw Hvb).
  - rewrite H3. destruct e as [k l|s]; [|discriminate]. cbn [kind_of] in H3. subst k.
    destruct (vec_lookup KPoint3D n l) as (v & ->); auto; [vk|].
    eapply reads_eq; [eapply reads_bind; [apply (reads_maps KPoint3D (n :: ns)); vk|intros ps Hps]|..].
    + apply reads_done. constructor; [discriminate|exact Hps].
    + rewrite lacking_line. split.
      * intros [(n' & Hin & Hn)|[]]. apply not_3d in Hn as [Hn|(v' & Hn)]; [eauto|].
        right. right. exists n', n, v', v. split; auto. split; [now left|]. auto.
      * intros [(n' & Hin & Hn)|[Hn|(a & b & va & vb & Ha & Hb & Hva & Hvb)]]; [| discriminate|].
        -- left. exists n'. split; auto. intro w. apply not_one_vec; cbn [In]; auto.
        -- left. exists a. split; auto. intros w Hw. now pose proof (vec_at_fun _ _ _ _ _ Hw Hva).
  - right. split; auto. destruct (kind_of e); auto; congruence.
Qed.

Lemma points_lookup k n l : In k [KPointList2D; KPointList3D] -> lookup m n = Some (Ent k l) ->
  exists ps t, l = [VList (map VVec ps); t].
Proof.
  intros Hk H. apply typed in H. destruct Hk as [<-|[<-|[]]]; take H;
    match goal with H : wt (TList _) _ = true |- _ =>
      apply wt_list in H as (vs & -> & H); apply all_vecs in H as (ps & ->); eauto end.
Qed.

Lemma reads_curve_list n segments self :
  reads (obind (get_untyped m n) (fun e' => match e' with
      | Ent KPointList2D a => Done (Points2 (coord_list a))
      | Ent KPointList3D a => Done (Points3 (coord_list a))
      | _ => Panic end))
    (points_are m KIndexedPolyCurve [VId n; segments; self]) (fails m [KPointList2D; KPointList3D] (VId n)).
Proof.
  eapply reads_iff; [apply reads_told with
    (R := fun k l p => exists ps t, l = [VList (map VVec ps); t] /\
            (k = KPointList2D /\ p = Points2 ps \/ k = KPointList3D /\ p = Points3 ps))|..].
  - intros k l Hl Hk. destruct (points_lookup _ _ _ Hk Hl) as (ps & t & ->).
    assert (Hn : ~ lacking m k [VList (map VVec ps); t]).
    { apply lacking_none; destruct Hk as [<-|[<-|[]]]; auto; discriminate. }
    left. destruct Hk as [<-|[<-|[]]]; eexists; (split; [reflexivity|]); (split; [|exact Hn]);
      exists ps, t; unfold coord_list; cbn [nth_error]; rewrite coords_map; auto.
  - others.
  - auto.
  - intros p (k & l & Hl & ps & t & -> & [[-> ->]|[-> ->]]); econstructor; eauto.
  - tauto.
Qed.

Lemma reads_curve n : reads (curve_points m n) (told m (points_are m) n) (fails m [KIndexedPolyCurve; KPolyLine] (VId n)).
Proof.
  apply reads_told; auto; [|others].
  intros k l Hl [<-|[<-|[]]]; apply typed in Hl; [|now apply reads_line].
  take Hl. match goal with H : wt (TRef _ _) _ = true |- _ => apply wt_ref in H as (p & ->) end.
  unfold the_id. cbn [attr_id nth_error obind]. eapply reads_eq; [apply reads_curve_list|].
  rewrite lacking_curve. tauto.
Qed.

(** ** Profiles and solids *)

Lemma reads_rectangle l : wf_ent KRectangleProfileDef l ->
  reads (map_rectangle m l) (profile_is m KRectangleProfileDef l) (lacking m KRectangleProfileDef l).
Proof.
  intro H. take H.
  repeat match goal with H : wt TReal _ = true |- _ => apply wt_real in H as (? & ->) end.
  match goal with H : wt (TOpt (TRef _ _)) _ = true |- _ => apply opt_refs in H as Hx end.
  unfold map_rectangle, the_real. cbn [nth_error obind].
  eapply reads_eq; [eapply reads_bind; [eapply reads_opt; [intro; apply reads_map_axis|reflexivity|exact Hx]|intros a Ha]|..].
  - apply reads_done. constructor. exact Ha.
  - rewrite lacking_rectangle. tauto.
Qed.

Lemma reads_arbitrary l : wf_ent KArbitraryClosedProfileDef l ->
  reads (map_arbitrary m l) (profile_is m KArbitraryClosedProfileDef l) (lacking m KArbitraryClosedProfileDef l).
Proof.
  intro H. take H.
  match goal with H : wt (TRef _ _) _ = true, H' : wt (TEnum _) _ = true |- _ =>
    apply wt_ref in H as (n & ->); apply wt_enum in H' as (i & ->) end.
  unfold map_arbitrary, the_id. cbn [attr_id nth_error obind].
  eapply reads_eq; [eapply reads_bind; [apply reads_curve|intros ps Hps]|..].
  - apply reads_done. constructor. exact Hps.
  - rewrite lacking_arbitrary. tauto.
Qed.

Lemma reads_profile n :
  reads (obind (get_untyped m n) (fun e => match e with
        | Ent KRectangleProfileDef a => map_rectangle m a
        | Ent KArbitraryClosedProfileDef a => map_arbitrary m a
        | _ => Panic
        end)) (told m (profile_is m) n) (fails m [KRectangleProfileDef; KArbitraryClosedProfileDef] (VId n)).
Proof.
  apply reads_told; auto; [|others].
  intros k l Hl [<-|[<-|[]]]; apply typed in Hl; [now apply reads_rectangle|now apply reads_arbitrary].
Qed.

Lemma reads_axis3_at n :
  reads (obind (get KAxis3D m n) (map_axis3 m)) (axis3_at m n) (fails m [KAxis3D] (VId n)).
Proof.
  destruct (reads_get KAxis3D n) as [(l & -> & Hl & Hn)|[-> Hn]]; cbn [obind].
  - eapply reads_iff; [apply reads_axis3; eauto|..].
    + intros a Ha. exists l. auto.
    + rewrite fails_id. split; [intro H; right; exists KAxis3D, l; cbn; auto|].
      intros [H|(k1 & l1 & Hk & _ & HL)]; [easy|]. rewrite Hl in Hk. now injection Hk as <- <-.
  - right. split; auto. apply fails_id. auto.
Qed.

Lemma obind_assoc {A B C} (x : outcome A) (f : A -> outcome B) (g : B -> outcome C) :
  obind (obind x f) g = obind x (fun a => obind (f a) g).
Proof. now destruct x. Qed.

Lemma reads_solid l : wf_ent KExtrudedAreaSolid l ->
  reads (map_solid m l) (solid_is m KExtrudedAreaSolid l) (lacking m KExtrudedAreaSolid l).
Proof.
  intro H. take H.
  match goal with H : wt TReal _ = true |- _ => apply wt_real in H as (h & ->) end.
  repeat match goal with H : wt (TRef _ _) _ = true |- _ => apply wt_ref in H as (? & ->) end.
  match goal with H : wt (TOpt (TRef _ _)) _ = true |- _ => apply opt_refs in H as Hx end.
  unfold map_solid, the_real. ids. cbn [nth_error].
  rewrite <- obind_assoc.
  eapply reads_eq; [eapply reads_bind; [apply reads_profile|intros pr Hpr;
    eapply reads_bind; [eapply reads_opt; [intro; apply reads_axis3_at|reflexivity|exact Hx]|intros a Ha;
    eapply reads_bind; [apply reads_vec; vk|intros v Hv]]]|..].
  - apply reads_done. constructor; eauto.
  - rewrite lacking_solid. tauto.
Qed.

(** ** Transforms and mapped items *)

Definition is_vec_row (k : kind) (r : row) : Prop :=
  row_of k = Some r /\ (row_fields r = [TVec2] \/ row_fields r = [TVec3]).

Lemma reads_opt_vec k r v l i : vec_kind k -> is_vec_row k r ->
  nth_error l i = Some v -> wt (TOpt (idor k r)) v = true ->
  reads (opt_vec k m l i) (optional_vec m k v) (fails m [k] v).
Proof.
  intros Hk [_ Hr] Hn Hw. unfold opt_vec. rewrite Hn.
  apply wt_opt in Hw as [->|[->|Hw]].
  - eapply reads_iff; [apply reads_done with (P := optional_vec m k VOmit); constructor|auto|].
    split; [tauto|]. apply fails_omit.
  - eapply reads_iff; [apply reads_done with (P := optional_vec m k VInh); constructor|auto|].
    split; [tauto|]. apply fails_inh.
  - apply wt_idor in Hw as [(n & ->)|(a & -> & Hw)].
    + eapply reads_iff; [eapply reads_bind; [apply (reads_vec k n Hk)|intros w Hv]|..].
      * apply reads_done with (P := optional_vec m k (VId n)). now constructor.
      * auto.
      * tauto.
    + assert (exists w, a = [VVec w]) as (w & ->).
      { destruct Hr as [Hr|Hr]; rewrite Hr in Hw; apply wts_cons in Hw as (x & ? & -> & Hx & Hw);
          apply wts_nil in Hw as ->; [apply wt_vec2 in Hx as (d & ->)|apply wt_vec3 in Hx as (d & ->)]; eauto. }
      eapply reads_iff; [apply reads_done with (P := optional_vec m k (VEnt [VVec w])); constructor|auto|].
      rewrite fails_ent. split; [tauto|]. now apply vec_kind_none.
Qed.

Lemma opt_real_of v l i : nth_error l i = Some v -> wt (TOpt TReal) v = true -> optional_real v (the_opt_real l i).
Proof.
  intros Hn Hw. unfold the_opt_real. rewrite Hn. apply wt_opt in Hw as [->|[->|Hw]]; try constructor.
  apply wt_real in Hw as (d & ->). constructor.
Qed.

Ltac ov := eapply reads_opt_vec; [vk|split; [reflexivity|cbn; auto]|reflexivity|eassumption].

Lemma reads_uniform l : wf_ent KCartesianTransformationOperator3D l ->
  reads (map_transform true m l) (transform_is m KCartesianTransformationOperator3D l)
    (lacking m KCartesianTransformationOperator3D l).
Proof.
  intro H. take H. unfold map_transform.
  eapply reads_eq; [eapply reads_bind; [ov|intros vo Ho; eapply reads_bind; [ov|intros vx Hx;
    eapply reads_bind; [ov|intros vy Hy; eapply reads_bind; [ov|intros vz Hz]]]]|..].
  - apply reads_done.
    constructor; eauto. eapply opt_real_of; [reflexivity|eassumption].
  - rewrite lacking_uniform. tauto.
Qed.

Lemma reads_other l : wf_ent KCartesianTransformationOperator3DnonUniform l ->
  reads (map_transform false m l) (transform_is m KCartesianTransformationOperator3DnonUniform l)
    (lacking m KCartesianTransformationOperator3DnonUniform l).
Proof.
  intro H. take H. unfold map_transform.
  eapply reads_eq; [eapply reads_bind; [ov|intros vo Ho; eapply reads_bind; [ov|intros vx Hx;
    eapply reads_bind; [ov|intros vy Hy; eapply reads_bind; [ov|intros vz Hz]]]]|..].
  - apply reads_done.
    constructor; eauto; eapply opt_real_of; (reflexivity || eassumption).
  - rewrite lacking_other. tauto.
Qed.

Lemma reads_target n :
  reads (obind (get_untyped m n) (fun e => match e with
       | Ent KCartesianTransformationOperator3D a => map_transform true m a
       | Ent KCartesianTransformationOperator3DnonUniform a => map_transform false m a
       | _ => Panic
       end)) (told m (transform_is m) n)
    (fails m [KCartesianTransformationOperator3D; KCartesianTransformationOperator3DnonUniform] (VId n)).
Proof.
  apply reads_told; auto; [|others].
  intros k l Hl [<-|[<-|[]]]; apply typed in Hl; [now apply reads_uniform|now apply reads_other].
Qed.

(** An attribute that refers to or embeds an object. *)
Lemma reads_goe k r v : row_of k = Some r -> wt (idor k r) v = true ->
  (exists l, id_or_get k m v = Done l /\ given_or_embedded m k v l /\ wf_ent k l /\ (fails m [k] v <-> lacking m k l)) \/
  (id_or_get k m v = Panic /\ fails m [k] v).
Proof.
  intros Hr Hw. apply wt_idor in Hw as [(n & ->)|(a & -> & Hw)]; cbn [id_or_get].
  - destruct (reads_get k n) as [(l & -> & Hl & Hn)|[-> Hn]].
    + left. exists l. split; auto. split; [now constructor|]. split; [eauto|]. rewrite fails_id. split.
      * intros [H|(k1 & l1 & Hk & _ & HL)]; [easy|]. rewrite Hl in Hk. now injection Hk as <- <-.
      * intro H. right. exists k, l. cbn; auto.
    + right. split; auto. apply fails_id. auto.
  - left. exists a. split; auto. split; [constructor|]. split; [exists r; auto|]. apply fails_ent.
Qed.

Lemma reads_item l : wf_ent KMappedItem l ->
  reads (map_item m l) (fun r => says m KMappedItem l (MItem (fst (fst r)) (snd (fst r)) (snd r))) (lacking m KMappedItem l).
Proof.
  intro H. take H. match goal with H : wt (TRef _ _) _ = true |- _ => apply wt_ref in H as (tgt & ->) end.
  match goal with H : wt (idor _ _) _ = true |- _ => rename H into Hsrc end.
  unfold map_item. ids. eapply reads_eq; [|symmetry; apply lacking_item]. cbn [nth_error].
  destruct (reads_goe _ _ _ (eq_refl : row_of KRepresentationMap = Some row_RepresentationMap) Hsrc)
    as [(mp & -> & Hmp & Wmp & E1)|[-> Hf]]; cbn [obind]; [|right; auto].
  take Wmp. clear Hsrc. repeat match goal with H : wt (idor _ _) _ = true |- _ => revert H end. intros Ho Hs.
  cbn [nth_error]. rewrite lacking_map in E1.
  match type of Hs with wt (idor KAxis3D _) _ = true => rename Ho into Hz, Hs into Ho; rename Hz into Hs | _ => idtac end.
  destruct (reads_goe _ _ _ (eq_refl : row_of KAxis3D = Some row_Axis3D) Ho) as [(lo & -> & Hlo & Wlo & E2)|[-> Hf]];
    cbn [obind]; [|right; rewrite E1; auto].
  destruct (reads_goe _ _ _ (eq_refl : row_of KShapeRepresentation = Some row_ShapeRepresentation) Hs)
    as [(ls & -> & Hls & Wls & E3)|[-> Hf]]; cbn [obind]; [|right; rewrite E1; auto].
  rewrite <- obind_assoc. eapply reads_eq; [eapply reads_bind; [apply reads_target|intros t Ht;
    eapply reads_bind; [apply (reads_axis3 lo Wlo)|intros a Ha]]|].
  - apply reads_done. cbn [fst snd]. econstructor; eauto.
  - rewrite E1, E2, E3. split; [tauto|]. intros [[H|H]|H]; auto. exfalso. revert H. apply lacking_none; auto; discriminate.
Qed.

(** ** All together *)

Lemma reads_wrap {A B} (x : outcome A) (g : A -> B) (P : A -> Prop) (Q : B -> Prop) D :
  reads x P D -> (forall a, P a -> Q (g a)) -> reads (a <~ x; Done (g a)) Q D.
Proof.
  intros H1 H2. eapply reads_eq; [eapply reads_bind; [exact H1|intros a Ha; apply reads_done; auto]|tauto].
Qed.

Lemma mapping_none k l : mapping m k l = None <-> ~ In k readable_kinds.
Proof.
  split; [intros H Hin|intro H].
  - unfold readable_kinds in Hin. cbn [In] in Hin. repeat (destruct Hin as [<-|Hin]; [discriminate|]). destruct Hin.
  - destruct k; auto; exfalso; apply H; unfold readable_kinds; cbn [In]; auto 12.
Qed.

Lemma mapping_reads k l x : wf_ent k l -> mapping m k l = Some x -> reads x (says m k l) (lacking m k l).
Proof.
  intros Hw Hx. destruct k; cbn [mapping] in Hx; try discriminate; injection Hx as <-.
  all: eapply reads_wrap; [first
    [apply (reads_axis2 _ Hw)|apply (reads_axis3 _ Hw)|apply (reads_line _ Hw)|apply (reads_rectangle _ Hw)
    |apply (reads_arbitrary _ Hw)|apply (reads_solid _ Hw)|apply (reads_uniform _ Hw)|apply (reads_other _ Hw)
    |apply (reads_item _ Hw)]|].
  all: intros a Ha; first [exact Ha|now constructor].
Qed.

End Typed.

(** ** What an object says is read *)

Section Says.
Variable m : dmap.

Ltac ids := repeat match goal with
  | |- context [the_id ?l ?i] => rewrite (the_id_at l i _ eq_refl); cbn [obind] end.

Lemma lookup_get k n l : lookup m n = Some (Ent k l) -> get k m n = Done l.
Proof. apply get_spec. Qed.

Lemma vec_get k n v : vec_at m k n v -> get_vec k m n = Done v.
Proof. intro H. unfold get_vec. now rewrite (lookup_get _ _ _ H). Qed.

Lemma opt_get {A} (f : N -> outcome A) (R : N -> A -> Prop) v a l i :
  (forall n b, R n b -> f n = Done b) -> nth_error l i = Some v -> optional R v a -> omap f (attr_id l i) = Done a.
Proof.
  intros Hf Hn H. unfold attr_id. rewrite Hn. destruct H; auto. cbn [omap]. now rewrite (Hf _ _ H).
Qed.

Lemma axis2_says l a : axis_is m KAxis2D l a -> map_axis2 m l = Done a.
Proof.
  intro H. inversion H; subst. unfold map_axis2. ids.
  erewrite vec_get by eassumption. cbn [obind]. erewrite opt_get by first [eassumption|reflexivity|apply vec_get]. reflexivity.
Qed.

Lemma axis3_says l a : axis_is m KAxis3D l a -> map_axis3 m l = Done a.
Proof.
  intro H. inversion H; subst. unfold map_axis3. ids.
  erewrite vec_get by eassumption. cbn [obind].
  erewrite (opt_get _ _ _ _ _ 1%nat) by first [eassumption|reflexivity|apply vec_get]. cbn [obind].
  erewrite (opt_get _ _ _ _ _ 2%nat) by first [eassumption|reflexivity|apply vec_get]. reflexivity.
Qed.

Lemma maps_says k ns ps : Forall2 (vec_at m k) ns ps -> maps (get_vec k m) ns = Done ps.
Proof. induction 1 as [|n p ns ps H _ IH]; auto. cbn [maps]. now rewrite (vec_get _ _ _ H), IH. Qed.

Lemma line_says l p : points_are m KPolyLine l p -> polyline_points m l = Done p.
Proof.
  intro H. inversion H as [ns ps Hn H2|ns ps Hn H2| |]; subst; unfold polyline_points, attr_ids; cbn [nth_error];
    rewrite val_ids_map; (destruct ns as [|n ns]; [congruence|]); inversion H2 as [|? v ? ? Hv Hr]; subst;
    unfold get_untyped; rewrite Hv; cbn [obind kind_of]; now rewrite (maps_says _ _ _ H2).
Qed.

Lemma curve_says n p : told m (points_are m) n p -> curve_points m n = Done p.
Proof.
  intros (k & l & Hl & Hp). unfold curve_points, get_untyped. rewrite Hl. cbn [obind].
  inversion Hp; subst; try (now apply line_says); ids;
    match goal with H : lookup _ _ = Some (Ent KPointList2D _) |- _ => rewrite H
      | H : lookup _ _ = Some (Ent KPointList3D _) |- _ => rewrite H end;
    cbn [obind]; unfold coord_list; cbn [nth_error]; now rewrite coords_map.
Qed.

Lemma map_axis_says n a : told m (axis_is m) n a -> map_axis m n = Done a.
Proof.
  intros (k & l & Hl & Hp). unfold map_axis, get_untyped. rewrite Hl. cbn [obind].
  inversion Hp; subst; [now apply axis2_says|now apply axis3_says].
Qed.

Lemma rectangle_says l p : profile_is m KRectangleProfileDef l p -> map_rectangle m l = Done p.
Proof.
  intro H. inversion H; subst. unfold map_rectangle.
  erewrite opt_get by first [eassumption|reflexivity|apply map_axis_says]. reflexivity.
Qed.

Lemma arbitrary_says l p : profile_is m KArbitraryClosedProfileDef l p -> map_arbitrary m l = Done p.
Proof.
  intro H. inversion H; subst. unfold map_arbitrary. ids.
  erewrite curve_says by eassumption. reflexivity.
Qed.

Lemma axis3_at_says n a : axis3_at m n a -> obind (get KAxis3D m n) (map_axis3 m) = Done a.
Proof. intros (l & Hl & Ha). rewrite (lookup_get _ _ _ Hl). cbn [obind]. now apply axis3_says. Qed.

Lemma solid_says l p : solid_is m KExtrudedAreaSolid l p -> map_solid m l = Done p.
Proof.
  intro H. inversion H as [q pr pos a d v h (k & lp & Hlp & Hpr) Ha Hv]; subst. unfold map_solid.
  ids. unfold get_untyped. rewrite Hlp. cbn [obind].
  assert (E : match Ent k lp with
        | Ent KRectangleProfileDef a => map_rectangle m a
        | Ent KArbitraryClosedProfileDef a => map_arbitrary m a
        | _ => Panic
        end = Done pr).
  { inversion Hpr; subst; [now apply rectangle_says|now apply arbitrary_says]. }
  rewrite E. cbn [obind].
  erewrite (opt_get _ _ _ _ _ 1%nat) by first [exact Ha|reflexivity|apply axis3_at_says]. cbn [obind].
  ids. rewrite (vec_get _ _ _ Hv). reflexivity.
Qed.

Lemma opt_vec_says k v a l i : nth_error l i = Some v -> optional_vec m k v a -> opt_vec k m l i = Done a.
Proof.
  intros Hn H. unfold opt_vec. rewrite Hn. destruct H as [n w H| | |]; auto. now rewrite (vec_get _ _ _ H).
Qed.

Lemma opt_real_says v a l i : nth_error l i = Some v -> optional_real v a -> the_opt_real l i = a.
Proof. intros Hn H. unfold the_opt_real. rewrite Hn. now destruct H. Qed.

Ltac osay i := erewrite (opt_vec_says _ _ _ _ i) by first [reflexivity|eassumption]; cbn [obind].
Ltac rsay i := erewrite (opt_real_says _ _ _ i) by first [reflexivity|eassumption].

Lemma transform_says l t :
  (transform_is m KCartesianTransformationOperator3D l t -> map_transform true m l = Done t) /\
  (transform_is m KCartesianTransformationOperator3DnonUniform l t -> map_transform false m l = Done t).
Proof.
  split; intro H; inversion H; subst; unfold map_transform; osay 2%nat; osay 0%nat; osay 1%nat; osay 4%nat; rsay 3%nat; auto.
  rsay 5%nat. rsay 6%nat. reflexivity.
Qed.

Lemma goe_says k v l : given_or_embedded m k v l -> id_or_get k m v = Done l.
Proof. destruct 1 as [n l H|l]; auto. now apply lookup_get. Qed.

Lemma says_mapping k l r : says m k l r -> mapping m k l = Some (Done r).
Proof.
  destruct 1 as [k l a H|l p H|k l p H|k l s H|k l t H|src tgt o r lo lr a t Hs Ho Ha Hr (k & lt & Hl & Ht)].
  - inversion H; subst; cbn [mapping]; [rewrite (axis2_says _ _ H)|rewrite (axis3_says _ _ H)]; reflexivity.
  - cbn [mapping]. now rewrite (line_says _ _ H).
  - inversion H; subst; cbn [mapping]; [rewrite (rectangle_says _ _ H)|rewrite (arbitrary_says _ _ H)]; reflexivity.
  - inversion H; subst; cbn [mapping]; rewrite (solid_says _ _ H); reflexivity.
  - inversion H; subst; cbn [mapping]; rewrite ?(proj1 (transform_says _ _) H), ?(proj2 (transform_says _ _) H); reflexivity.
  - cbn [mapping]. unfold map_item. cbn [nth_error]. rewrite (goe_says _ _ _ Hs). cbn [obind nth_error].
    rewrite (goe_says _ _ _ Ho), (goe_says _ _ _ Hr). cbn [obind]. ids.
    unfold get_untyped. rewrite Hl. cbn [obind].
    inversion Ht; subst; rewrite ?(proj1 (transform_says _ _) Ht), ?(proj2 (transform_says _ _) Ht); cbn [obind];
      rewrite (axis3_says _ _ Ha); reflexivity.
Qed.

End Says.
