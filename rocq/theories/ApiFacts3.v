(** Facts about the public constructors and setters: statements and programs. *)

From Coq Require Import String Ascii List NArith ZArith Bool Sorted Lia ZifyBool ZifyNat ZifyN.
From Verif Require Import Mapping Base Prims Guid Float Kind Types WellTyped Schema Entity EntitySpec DataMap DataSpec DataMapFacts
  Header File HeaderSpec FileSpec EntityFacts FileFacts FileFacts3 Arith ArithFacts Api ApiSpec ApiFacts ApiFacts2.
Import ListNotations.
Open Scope N_scope.

(** ** Lists *)

Lemma nth_combine {A B} (l : list A) (l' : list B) i a b :
  nth_error l i = Some a -> nth_error l' i = Some b -> In (a, b) (combine l l').
Proof.
  revert l' i. induction l as [|x l IH]; intros [|y l'] [|i] H1 H2; try discriminate; cbn [combine nth_error] in *.
  - injection H1 as ->. injection H2 as ->. now left.
  - right. eauto.
Qed.

Lemma list_eqb_length {A} (f : A -> A -> bool) a b : list_eqb f a b = true -> length a = length b.
Proof.
  revert b. induction a as [|x a IH]; intros [|y b] H; try discriminate; auto.
  cbn [list_eqb length] in *. apply andb_true_iff in H as [_ H]. f_equal. auto.
Qed.

Lemma Forall2_nth {A B} (P : A -> B -> Prop) l l' i b : Forall2 P l l' -> nth_error l' i = Some b ->
  exists a, nth_error l i = Some a /\ P a b.
Proof.
  intro F. revert i. induction F as [|x y l l' H F IH]; intros [|i] E; try discriminate; cbn [nth_error] in *.
  - injection E as <-. eauto.
  - auto.
Qed.

Lemma Forall2_length {A B} (P : A -> B -> Prop) l l' : Forall2 P l l' -> length l = length l'.
Proof. induction 1; cbn [length]; auto. Qed.

Lemma wts_nth fs : forall l, wts fs l = true <->
  length fs = length l /\ forall i f v, nth_error fs i = Some f -> nth_error l i = Some v -> wt f v = true.
Proof.
  induction fs as [|f fs IH]; intros [|v l]; cbn [wts length]; try (split; [discriminate|intros [H _]; discriminate]).
  - split; auto. intros _. split; auto. intros [|i]; discriminate.
  - rewrite andb_true_iff, IH. split.
    + intros [H1 [H2 H3]]. split; [congruence|]. intros [|i] f' v' E1 E2; cbn [nth_error] in *; [|eauto].
      injection E1 as <-. injection E2 as <-. auto.
    + intros [H1 H2]. split; [apply (H2 0%nat); reflexivity|]. split; [congruence|]. intros i f' v'. apply (H2 (S i)).
Qed.

Lemma set_nth_length {A} i (a : A) l : length (set_nth i a l) = length l.
Proof. revert i. induction l as [|x l IH]; intros [|i]; cbn [set_nth length]; auto. Qed.

Lemma nth_set_nth {A} i (a : A) l j : (i < length l)%nat ->
  nth_error (set_nth i a l) j = if Nat.eqb i j then Some a else nth_error l j.
Proof.
  revert i j. induction l as [|x l IH]; intros i j H; cbn [length] in H; [lia|].
  destruct i as [|i], j as [|j]; cbn [set_nth nth_error Nat.eqb]; auto. apply IH. lia.
Qed.

(** ** Making *)

Lemma in_order_slots c args : in_order c args = flat_map (slot_args args) (mk_slots (maker_of c)).
Proof. destruct c; reflexivity. Qed.

Definition made (strict : bool) (rs : list reg) (c : ctor) (g : list N) (args : list arg) (m : dmap) (x : reg) (m' : dmap) : Prop :=
  fst x = mk_kind (maker_of c) /\ Forall2 (slot_is rs g args m m') (mk_slots (maker_of c)) (snd x) /\
  wf_ent (fst x) (snd x) /\ sound strict m' (Ent (fst x) (snd x)).

Lemma in_order_regs rs m c args : args_ok rs m (mk_pars (maker_of c)) args ->
  has_regs rs (flat_map arg_regs (in_order c args)).
Proof.
  intros [L A]. rewrite in_order_slots.
  intros r Hr. apply in_flat_map in Hr as (a & Ha & Hr). apply in_flat_map in Ha as (s & Hs & Ha).
  assert (exists i, nth_error args i = Some a) as [i Hi].
  { destruct s; cbn [slot_args] in Ha; try contradiction; destruct (nth_error args i) as [a'|] eqn:E; try contradiction;
      destruct Ha as [<-|[]]; eauto. }
  destruct (nth_error (mk_pars (maker_of c)) i) as [p|] eqn:Ep.
  - eapply arg_ok_regs; eauto.
  - apply nth_error_None in Ep. assert (i < length args)%nat by (apply nth_error_Some; congruence). lia.
Qed.

Lemma accepted_permitted (acc : kind -> bool) f ks e : agrees acc f = true -> In ks (field_kinds f) ->
  acc (kind_of e) = true -> (kind_of e = KDummy \/ In (kind_of e) all_kinds) -> permitted ks e.
Proof.
  intros A Hk Ha [Hd|Hin]; [now right|]. left. unfold agrees in A. rewrite forallb_forall in A. specialize (A _ Hk).
  rewrite forallb_forall in A. specialize (A _ Hin). rewrite Ha in A. apply eqb_prop in A. symmetry in A.
  unfold among in A. apply existsb_exists in A as (k & H1 & H2). apply kind_eqb_eq in H2. now rewrite H2.
Qed.

Lemma kinds_all k : k = KDummy \/ In k all_kinds.
Proof.
  destruct (kind_eqb k KDummy) eqn:E; [left; now apply kind_eqb_eq|]. right.
  assert (H : among k all_kinds = true) by (destruct k; try reflexivity; discriminate).
  unfold among in H. apply existsb_exists in H as (k' & H1 & H2). apply kind_eqb_eq in H2. now subst.
Qed.

Lemma unit_vector_wt t u : (t = TVec2 \/ t = TVec3) -> wt t u = true -> wt t (unit_vector u) = true.
Proof.
  intros [->| ->] H; destruct u as [| | | | | | |l| | | | |]; try discriminate.
  - destruct l as [|x [|y [|z l]]]; try discriminate. cbn [unit_vector wt]. now rewrite !fmul_okb.
  - destruct l as [|x [|y [|z [|u l]]]]; try discriminate. cbn [unit_vector]. unfold vnormalize, vscale.
    cbn [wt]. now rewrite !fmul_okb.
Qed.

Lemma slot_leads strict c rs g args m m' i s f v :
  sane_map strict m' -> keeps m m' -> guid_ok g = true -> args_ok rs m (mk_pars (maker_of c)) args ->
  nth_error (mk_slots (maker_of c)) i = Some s -> nth_error (fields (mk_kind (maker_of c))) i = Some f ->
  slot_is rs g args m m' s v ->
  wt f v = true /\
  forall ks n, points f v ks n -> exists j a x, s = SArg j /\ nth_error args j = Some a /\ lookup m' n = Some x /\
    refers rs m a (kind_of x) /\ In ks (field_kinds f) /\ agrees (accepted c j) f = true.
Proof.
  intros S K G [L A] Es Ef V. pose proof (makers_fit c) as F. unfold maker_fits in F.
  unfold fields in Ef. destruct (row_of (mk_kind (maker_of c))) as [r|] eqn:Er; [|discriminate].
  apply andb_true_iff in F as [_ F]. rewrite forallb_forall in F. pose proof (nth_combine _ _ _ _ _ Es Ef) as Hc.
  specialize (F _ Hc). cbn [fst snd] in F.
  pose proof (makers_agree c) as M. unfold maker_agrees, fields in M. rewrite Er in M. rewrite forallb_forall in M.
  specialize (M _ Hc). cbn [fst snd] in M. clear Hc.
  assert (O : forall w, is_opt f = true -> w = VOmit \/ w = VInh -> wt f w = true).
  { intros w Hf [->| ->]; destruct f; try discriminate; reflexivity. }
  destruct s as [| | | |j|t|j|j]; cbn [slot_fits slot_is] in *; subst.
  - destruct f; try discriminate. split; [exact G|]. intros ks n P. inversion P.
  - split; [apply O; auto|]. intros ks n P. apply points_blank in P; [contradiction|auto].
  - split; [apply O; auto|]. intros ks n P. apply points_blank in P; [contradiction|auto].
  - destruct f; try discriminate. split; [reflexivity|]. intros ks n P. apply points_blank in P; [contradiction|auto].
  - destruct (strip f) eqn:E; try discriminate. split.
    + apply wt_strip. rewrite E. exact F.
    + intros ks n P. apply points_strip in P. rewrite E in P. inversion P.
  - destruct (strip f) eqn:E; try discriminate. split.
    + apply wt_strip. rewrite E. exact F.
    + intros ks n P. apply points_strip in P. rewrite E in P. inversion P.
  - destruct V as (a & Ea & V). destruct (nth_error (mk_pars (maker_of c)) j) as [p|] eqn:Ep; [|discriminate].
    specialize (A j p a Ep Ea). destruct (arg_leads _ _ _ _ _ _ _ _ S K A V F) as [W P]. split; auto.
    intros ks n Q. destruct (P ks n Q) as (x & E1 & E2). exists j, a, x. repeat split; auto.
    + eapply points_kinds; eauto.
    + apply orb_true_iff in M as [M|M]; auto. exfalso. clear - M F Q. destruct p; try discriminate.
      * apply points_strip in Q. eapply same_points; eauto.
      * cbn [par_fits] in F. apply andb_true_iff in F as [_ F]. apply points_strip in Q. eapply same_points; eauto.
      * cbn [par_fits] in F. apply points_strip in Q. destruct (strip f); try discriminate. inversion Q; subst. eapply same_points; eauto.
  - destruct V as (a & u & Ea & V & ->). destruct (nth_error (mk_pars (maker_of c)) j) as [p|] eqn:Ep; [|discriminate].
    specialize (A j p a Ep Ea). destruct p as [t| | | | | | | | | | |]; try discriminate.
    assert (Ht : t = f /\ (f = TVec2 \/ f = TVec3)) by (destruct t, f; try discriminate; auto). destruct Ht as [-> Ht].
    destruct a as [|it|]; try contradiction. destruct it as [w| |]; try contradiction. cbn in A, V. subst u. split.
    + now apply unit_vector_wt.
    + intros ks n P. destruct Ht as [->| ->]; inversion P.
Qed.

Lemma fields_row k r : row_of k = Some r -> fields k = row_fields r.
Proof. unfold fields. now intros ->. Qed.

Lemma construct_ok strict c g args rs m :
  sane_map strict m -> regs_ok strict rs m -> guid_ok g = true -> args_ok rs m (mk_pars (maker_of c)) args ->
  (strict = true -> forall i a k, nth_error args i = Some a -> refers rs m a k -> accepted c i k = true) ->
  stores strict rs m (flat_map arg_regs (in_order c args)) (construct c g args rs m) (made strict rs c g args m).
Proof.
  intros S R G A Hs. unfold construct.
  pose proof (in_order_regs _ _ _ _ A) as Hr. rewrite in_order_slots in *.
  pose proof (makers_in c) as I. rewrite <- (proj1 A) in I.
  pose proof (fills_ok strict rs g args (mk_slots (maker_of c)) m S R I Hr) as F.
  destruct (fills rs g args m (mk_slots (maker_of c))) as [[vs m']| |]; cbn [obind stores] in *; auto.
  destruct F as (F1 & F2 & F3 & F4). cbn [fst snd]. split; [exact F1|]. split; [exact F2|]. split; [exact F3|].
  assert (K : keeps m m') by (rewrite F3; apply keeps_app).
  pose proof (makers_fit c) as M. unfold maker_fits in M.
  destruct (row_of (mk_kind (maker_of c))) as [r|] eqn:Er; [|discriminate]. apply andb_true_iff in M as [ML _].
  apply list_eqb_length in ML. rewrite map_length in ML.
  pose proof (fields_row _ _ Er) as Ef.
  assert (Hl : length vs = length (row_fields r)) by (rewrite <- ML; symmetry; eapply Forall2_length; eauto).
  split; [reflexivity|]. split; [exact F4|]. cbn [fst snd]. split.
  - exists r. split; auto. apply wts_nth. split; auto. intros i f v E1 E2. rewrite <- Ef in E1.
    destruct (Forall2_nth _ _ _ _ _ F4 E2) as (s & Es & V).
    now destruct (slot_leads strict c rs g args m m' i s f v F2 K G A Es E1 V).
  - intros ks n (k & l & r' & i & f & v & E & Er' & E1 & E2 & P). injection E as <- <-. rewrite Er in Er'. injection Er' as <-.
    rewrite <- Ef in E1. destruct (Forall2_nth _ _ _ _ _ F4 E2) as (s & Es & V).
    destruct (slot_leads strict c rs g args m m' i s f v F2 K G A Es E1 V) as [_ H].
    destruct (H ks n P) as (j & a & x & -> & Ea & L & Rf & Hk & Ha). exists x. split; auto. intro St.
    eapply accepted_permitted; eauto using kinds_all.
Qed.

(** ** Setting *)

Lemma fold_put_length (v : val) is : forall l, length (fold_left (fun l i => set_nth i v l) is l) = length l.
Proof. induction is as [|i is IH]; intro l; cbn [fold_left]; auto. now rewrite IH, set_nth_length. Qed.

Lemma fold_put_nth (v : val) is : forall (l : list val) j, forallb (fun i => Nat.ltb i (length l)) is = true ->
  nth_error (fold_left (fun l i => set_nth i v l) is l) j = if existsb (Nat.eqb j) is then Some v else nth_error l j.
Proof.
  induction is as [|i is IH]; intros l j H; cbn [fold_left existsb]; auto.
  cbn [forallb] in H. apply andb_true_iff in H as [H1 H2]. apply PeanoNat.Nat.ltb_lt in H1.
  rewrite IH by (now rewrite set_nth_length). rewrite nth_set_nth by auto.
  rewrite (PeanoNat.Nat.eqb_sym j i). destruct (existsb (Nat.eqb j) is); [now rewrite orb_true_r|].
  now destruct (Nat.eqb i j).
Qed.

(** What a setter makes of an attribute. *)
Definition new_value (h : how) (v o : val) : val :=
  match h with
  | Put _ => v
  | _ => match o with VList l => VList (l ++ [v]) | _ => VList [v] end
  end.

Lemma put_value_ok p h fs v l : how_fits p h fs = true -> wts fs l = true ->
  (put_value h v l = Panic /\ exists i, h = PushOpt i /\ nth_error l i = Some VInh) \/
  exists l', put_value h v l = Done l' /\ length l' = length l /\
    (forall i, h = PushOpt i -> nth_error l i <> Some VInh) /\
    forall j, nth_error l' j =
      if existsb (Nat.eqb j) (targets h) then option_map (new_value h v) (nth_error l j) else nth_error l j.
Proof.
  intros F W. apply wts_nth in W as [L W]. destruct h as [is|i|i]; cbn [how_fits put_value targets] in *.
  - right. eexists. split; [reflexivity|]. split; [apply fold_put_length|]. split; [discriminate|]. intro j.
    assert (B : forallb (fun i => Nat.ltb i (length l)) is = true).
    { rewrite forallb_forall in *. intros i Hi. specialize (F i Hi). destruct (nth_error fs i) eqn:E; [|discriminate].
      apply PeanoNat.Nat.ltb_lt. rewrite <- L. apply nth_error_Some. congruence. }
    rewrite fold_put_nth by auto. destruct (existsb (Nat.eqb j) is) eqn:E; auto.
    apply existsb_exists in E as (i & Hi & Ei). apply PeanoNat.Nat.eqb_eq in Ei. subst i.
    rewrite forallb_forall in B. specialize (B j Hi). apply PeanoNat.Nat.ltb_lt in B.
    destruct (nth_error l j) eqn:E2; [reflexivity|]. apply nth_error_None in E2. lia.
  - destruct (nth_error fs i) as [[]|] eqn:E; try discriminate.
    assert (Hi : (i < length l)%nat) by (rewrite <- L; apply nth_error_Some; congruence).
    destruct (nth_error l i) as [o|] eqn:Eo; [|apply nth_error_None in Eo; lia].
    specialize (W i _ _ E Eo). destruct o as [| | | | | | | | | | |os|]; try discriminate. right.
    cbn [err obind appended]. eexists. split; [reflexivity|]. split; [apply set_nth_length|]. split; [discriminate|].
    intro j. rewrite nth_set_nth by auto. cbn [existsb]. rewrite orb_false_r, (PeanoNat.Nat.eqb_sym j i).
    destruct (PeanoNat.Nat.eqb_spec i j) as [<-|]; auto. now rewrite Eo.
  - destruct (nth_error fs i) as [f|] eqn:E; try discriminate. destruct f as [| | | | | | | | | | | | | |f|]; try discriminate.
    destruct f as [| | | | | | | | | | | | | | |g]; try discriminate.
    assert (Hi : (i < length l)%nat) by (rewrite <- L; apply nth_error_Some; congruence).
    destruct (nth_error l i) as [o|] eqn:Eo; [|apply nth_error_None in Eo; lia].
    specialize (W i _ _ E Eo). destruct o as [| | | | | | | | | | |os|]; try discriminate; cbn [err obind appended].
    + right. eexists. split; [reflexivity|]. split; [apply set_nth_length|]. split.
      { intros i' Ei. injection Ei as <-. congruence. }
      intro j. rewrite nth_set_nth by auto. cbn [existsb]. rewrite orb_false_r, (PeanoNat.Nat.eqb_sym j i).
      destruct (PeanoNat.Nat.eqb_spec i j) as [<-|]; auto. now rewrite Eo.
    + left. split; eauto.
    + right. eexists. split; [reflexivity|]. split; [apply set_nth_length|]. split.
      { intros i' Ei. injection Ei as <-. congruence. }
      intro j. rewrite nth_set_nth by auto. cbn [existsb]. rewrite orb_false_r, (PeanoNat.Nat.eqb_sym j i).
      destruct (PeanoNat.Nat.eqb_spec i j) as [<-|]; auto. now rewrite Eo.
Qed.

(** The new list of attributes. *)
Definition set_to (s : setter) (v : val) (l l' : list val) : Prop :=
  length l' = length l /\
  forall j, nth_error l' j = if existsb (Nat.eqb j) (targets (me_how (method_of s)))
                             then option_map (new_value (me_how (method_of s)) v) (nth_error l j) else nth_error l j.

Definition star_at (s : setter) (l : list val) : Prop :=
  exists i, me_how (method_of s) = PushOpt i /\ nth_error l i = Some VInh.

Lemma wts_same_length fs l : wts fs l = true -> length fs = length l.
Proof. intro H. now apply wts_nth in H. Qed.

Lemma modify_ok strict s a rs x m :
  sane_map strict m -> regs_ok strict rs m -> wf_ent (fst x) (snd x) -> sound strict m (Ent (fst x) (snd x)) ->
  In (fst x) (me_kinds (method_of s)) -> arg_ok rs m (me_par (method_of s)) a ->
  (strict = true -> forall k, refers rs m a k -> accepted_set s (fst x) k = true) ->
  match modify s a rs x m with
  | Done (y, m') =>
      room m (length (arg_regs a)) /\ ~ star_at s (snd x) /\ sane_map strict m' /\
      m' = m ++ numbered (top m + 1) (objects rs (arg_regs a)) /\ fst y = fst x /\
      wf_ent (fst y) (snd y) /\ sound strict m' (Ent (fst y) (snd y)) /\
      exists v, stored rs m m' a v /\ set_to s v (snd x) (snd y)
  | Err => False
  | Panic => ~ room m (length (arg_regs a)) \/ star_at s (snd x)
  end.
Proof.
  intros S R W So Hk A Hs. destruct x as [k l]. cbn [fst snd] in *. unfold modify.
  pose proof (store_ok strict rs m a S R (arg_ok_regs _ _ _ _ A)) as St.
  destruct (store rs m a) as [[v m']| |]; cbn [obind stores fst snd] in *; auto.
  destruct St as (S1 & S2 & S3 & V).
  destruct W as (r & Er & W). pose proof (methods_fit s) as F. unfold method_fits in F. rewrite forallb_forall in F.
  specialize (F k Hk). rewrite Er in F.
  assert (K : keeps m m') by (rewrite S3; apply keeps_app).
  pose proof (put_value_ok _ _ _ v l F W) as [[E (i & Ei & En)]|(l' & E & L & Hn & N)].
  { rewrite E. cbn [obind]. right. exists i. auto. }
  rewrite E. cbn [obind fst snd]. split; [exact S1|]. split.
  { intros (i & H1 & H2). exact (Hn i H1 H2). }
  split; [exact S2|]. split; [exact S3|]. split; [reflexivity|].
  set (p := me_par (method_of s)) in *. set (h := me_how (method_of s)) in *.
  assert (Ll : forall f, par_fits p f = true -> leads rs m m' a f v) by (intros f Hf; eapply arg_leads; eauto).
  (* the attribute [j] afterwards *)
  assert (New : forall j f w, nth_error (row_fields r) j = Some f -> nth_error l' j = Some w ->
    wt f w = true /\ forall ks n, points f w ks n ->
      (exists o, nth_error l j = Some o /\ points f o ks n) \/
      (In j (targets h) /\ exists x, lookup m' n = Some x /\ refers rs m a (kind_of x))).
  { intros j f w Ef Ew. rewrite N in Ew. apply wts_nth in W as [WL W].
    destruct (existsb (Nat.eqb j) (targets h)) eqn:Ej.
    2:{ split; [eapply W; eauto|]. intros ks n P. left. eauto. }
    assert (Tj : In j (targets h)).
    { apply existsb_exists in Ej as (i & Hi & Ej). apply PeanoNat.Nat.eqb_eq in Ej. now subst. }
    destruct (nth_error l j) as [o|] eqn:Eo; [|discriminate]. injection Ew as <-.
    pose proof (W j f o Ef Eo) as Wo. clearbody h. destruct h as [is|i|i]; cbn [targets new_value how_fits] in *.
    - rewrite forallb_forall in F. specialize (F j Tj). rewrite Ef in F. destruct (Ll f F) as [W1 P1].
      split; auto. intros ks n P. right. eauto.
    - destruct Tj as [<-|[]]. rewrite Ef in F. destruct f as [| | | | | | | | | | | | | | |g]; try discriminate.
      apply andb_true_iff in F as [_ F]. destruct (Ll g F) as [W1 P1].
      destruct o as [| | | | | | | | | | |os|]; try discriminate. split.
      + cbn [wt] in *. rewrite forallb_app, Wo. cbn [forallb]. now rewrite W1.
      + intros ks n P. inversion P; subst. match goal with H : In _ (_ ++ _) |- _ => apply in_app_or in H as [H|H] end.
        * left. eexists. split; [reflexivity|]. econstructor; eauto.
        * match goal with H : In _ [_] |- _ => destruct H as [<-|[]] end. right. split; [now left|]. eauto.
    - destruct Tj as [<-|[]]. rewrite Ef in F. destruct f as [| | | | | | | | | | | | | |f|]; try discriminate.
      destruct f as [| | | | | | | | | | | | | | |g]; try discriminate.
      apply andb_true_iff in F as [_ F]. destruct (Ll g F) as [W1 P1].
      destruct o as [| | | | | | | | | | |os|]; try discriminate.
      + split; [cbn [wt forallb]; now rewrite W1|]. intros ks n P. inversion P; subst.
        match goal with H : points (TList _) _ _ _ |- _ => inversion H; subst end.
        match goal with H : In _ [_] |- _ => destruct H as [<-|[]] end. right. split; [now left|]. eauto.
      + exfalso. exact (Hn i eq_refl Eo).
      + split.
        * cbn [wt] in *. rewrite forallb_app, Wo. cbn [forallb]. now rewrite W1.
        * intros ks n P. inversion P; subst. match goal with H : points (TList _) _ _ _ |- _ => inversion H; subst end.
          match goal with H : In _ (_ ++ _) |- _ => apply in_app_or in H as [H|H] end.
          -- left. eexists. split; [reflexivity|]. constructor. econstructor; eauto.
          -- match goal with H : In _ [_] |- _ => destruct H as [<-|[]] end. right. split; [now left|]. eauto. }
  split; [|split].
  - exists r. split; auto. apply wts_nth. split; [rewrite L; now apply wts_same_length|].
    intros i f w E1 E2. now destruct (New i f w E1 E2).
  - intros ks n (k' & l0 & r' & j & f & w & E0 & Er' & E1 & E2 & P). injection E0 as <- <-. rewrite Er in Er'. injection Er' as <-.
    destruct (New j f w E1 E2) as [_ H]. destruct (H ks n P) as [(o & Eo & Po)|(Tj & y & Ey & Ry)].
    + eapply sound_keeps; [exact K|exact So|]. exists k, l, r, j, f, o. auto 10.
    + exists y. split; auto. intro Es. pose proof (methods_agree s) as M. unfold method_agrees in M.
      apply orb_true_iff in M as [M|M].
      * exfalso. clear - M A Ry. subst p. destruct (me_par (method_of s)) as [t|t|t| | | | | | | | |]; try discriminate;
          destruct a as [|i|is]; try contradiction; cbn [arg_ok] in A.
        -- destruct i; try contradiction. destruct Ry as [(? & ? & [] & _)|(? & ? & [] & _)].
        -- destruct Ry as [(? & ? & [] & _)|(? & ? & [] & _)].
        -- destruct i; try contradiction. destruct Ry as [(? & ? & [] & _)|(? & ? & [] & _)].
        -- rewrite Forall_forall in A. destruct Ry as [(q & ? & Hq & _)|(q & ? & Hq & _)]; cbn in Hq;
             apply in_flat_map in Hq as (i & Hi & Hq); specialize (A i Hi); destruct i; try contradiction; destruct Hq.
      * rewrite forallb_forall in M. specialize (M k Hk). rewrite forallb_forall in M. specialize (M j Tj).
        rewrite (fields_row _ _ Er), E1 in M. eapply accepted_permitted; eauto using kinds_all, points_kinds.
  - exists v. split; auto. split; auto.
Qed.

(** ** Statements *)

Definition world_ok (strict : bool) (w : world) : Prop :=
  sane_map strict (w_map w) /\ regs_ok strict (w_regs w) (w_map w).

Lemma regs_app strict rs x m : regs_ok strict rs m -> wf_ent (fst x) (snd x) -> sound strict m (Ent (fst x) (snd x)) ->
  regs_ok strict (rs ++ [x]) m.
Proof.
  intros R W S r y E. destruct (PeanoNat.Nat.lt_ge_cases r (length rs)) as [H|H].
  - rewrite nth_error_app1 in E by auto. eauto.
  - rewrite nth_error_app2 in E by auto. destruct (r - length rs)%nat as [|i]; [|now destruct i].
    injection E as <-. auto.
Qed.

Lemma regs_set strict rs r x m : regs_ok strict rs m -> wf_ent (fst x) (snd x) -> sound strict m (Ent (fst x) (snd x)) ->
  regs_ok strict (set_nth r x rs) m.
Proof.
  intros R W S q y E. destruct (PeanoNat.Nat.lt_ge_cases r (length rs)) as [H|H].
  - rewrite nth_set_nth in E by auto. destruct (Nat.eqb r q); [injection E as <-; auto|eauto].
  - assert (Es : forall {A} (a : A) l i, (length l <= i)%nat -> set_nth i a l = l).
    { clear. intros A a l. induction l as [|b l IH]; intros [|i] Hi; cbn [set_nth length] in *; auto; [lia|].
      f_equal. apply IH. lia. }
    rewrite Es in E by auto. eauto.
Qed.

(** Exchanging an object for one of the same kind. *)
Lemma sane_swap strict m n k l l0 : sane_map strict m -> lookup m n = Some (Ent k l0) -> wf_ent k l ->
  sound strict m (Ent k l) ->
  sane_map strict (put m n (Ent k l)) /\
  (forall e, sound strict m e -> sound strict (put m n (Ent k l)) e).
Proof.
  intros S E W So. pose proof (sane_inc _ _ S) as I.
  assert (H : forall e, sound strict m e -> sound strict (put m n (Ent k l)) e).
  { intros e He ks i C. destruct (He ks i C) as (x & Ex & Px). rewrite lookup_put by auto.
    destruct (N.eqb_spec i n) as [->|]; [|eauto]. rewrite E in Ex. injection Ex as <-. eexists. split; [reflexivity|].
    intro Hs. specialize (Px Hs). unfold permitted in *. exact Px. }
  split; auto. constructor.
  - now apply put_increasing.
  - apply Forall_forall. intros p Hp. apply put_keys in Hp as [->|Hp].
    + split; cbn [fst snd]; [eapply sane_range; eauto|exact W].
    + pose proof (sane_wf _ _ S) as F. rewrite Forall_forall in F. auto.
  - intros i e Ee. rewrite lookup_put in Ee by auto. destruct (i =? n).
    + injection Ee as <-. auto.
    + apply H. eapply sane_sound; eauto.
Qed.
