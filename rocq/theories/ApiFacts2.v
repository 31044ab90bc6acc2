(** Facts about the public constructors and setters: types of what they store. *)

From Coq Require Import String Ascii List NArith ZArith Bool Sorted Lia ZifyBool ZifyNat ZifyN.
From Verif Require Import Base Prims Guid Float Kind Types WellTyped Schema Entity EntitySpec DataMap DataSpec DataMapFacts
  Header File HeaderSpec FileSpec FileFacts FileFacts3 Arith ArithFacts Api ApiSpec ApiFacts.
Import ListNotations.
Open Scope N_scope.

(** ** Parameters and attributes *)

Fixpoint list_eqb {A} (f : A -> A -> bool) (a b : list A) : bool :=
  match a, b with
  | [], [] => true
  | x :: a', y :: b' => f x y && list_eqb f a' b'
  | _, _ => false
  end.

Lemma list_eqb_eq {A} (f : A -> A -> bool) : (forall x y, f x y = true -> x = y) ->
  forall a b, list_eqb f a b = true -> a = b.
Proof.
  intros H a. induction a as [|x a IH]; intros [|y b] E; try discriminate; auto.
  cbn [list_eqb] in E. apply andb_true_iff in E as [E1 E2]. f_equal; auto.
Qed.

(** The same type, without references. *)
Definition same (a b : fty) : bool :=
  match a, b with
  | TStr, TStr | TReal, TReal | TInt, TInt | TBool, TBool | TTime, TTime | TDim, TDim
  | TVec2, TVec2 | TVec3, TVec3 | TValue, TValue => true
  | TEnum x, TEnum y => list_eqb (list_eqb N.eqb) x y
  | _, _ => false
  end.

Lemma same_eq a b : same a b = true -> a = b.
Proof.
  destruct a, b; try discriminate; auto. intro H. f_equal. cbn [same] in H.
  eapply list_eqb_eq; [|exact H]. intros x y. apply list_eqb_eq. intros. lia.
Qed.

Lemma same_points a b v ks n : same a b = true -> ~ points b v ks n.
Proof. intros H P. destruct a, b; try discriminate; inversion P. Qed.

Definition strip (t : fty) : fty := match t with TOpt t' => t' | _ => t end.
Definition is_ref (t : fty) : bool := match t with TRef _ _ | TIdOr _ _ _ _ _ => true | _ => false end.

Definition par_fits (p : par) (f : fty) : bool :=
  match p with
  | PPlain t => same t (strip f)
  | POption t => is_opt f && same t (strip f)
  | PValues t => match strip f with TList g => same t g | _ => false end
  | PIdOr _ | PTyped _ | PNew _ | PRaw => is_ref (strip f)
  | PIdOrs _ | PTypeds _ | PNews _ | PRaws => match strip f with TList g => is_ref g | _ => false end
  | POptionRaw => is_opt f && is_ref (strip f)
  end.

Fixpoint field_kinds (t : fty) : list (list kind) :=
  match t with
  | TRef ks true => [ks]
  | TIdOr k _ _ _ _ => [[k]]
  | TOpt t' | TList t' => field_kinds t'
  | _ => []
  end.

Lemma points_kinds t : forall v ks n, points t v ks n -> In ks (field_kinds t).
Proof. intros v ks n H. induction H; cbn [field_kinds]; auto; now left. Qed.

Lemma wt_strip f v : wt (strip f) v = true -> wt f v = true.
Proof.
  destruct f; auto. cbn [strip wt]. intro H. destruct v; auto.
Qed.

Lemma points_strip f v ks n : points f v ks n -> points (strip f) v ks n.
Proof. intro H. destruct f; auto. now inversion H; subst. Qed.

Lemma points_blank f v ks n : v = VOmit \/ v = VInh \/ v = VList [] -> ~ points f v ks n.
Proof. intros E H. induction H; destruct E as [E|[E|E]]; try discriminate; eauto. injection E as ->. contradiction. Qed.

(** Every reference in [v] is to an object argument [a] refers to. *)
Definition leads (rs : list reg) (m m' : dmap) (a : arg) (f : fty) (v : val) : Prop :=
  wt f v = true /\ forall ks n, points f v ks n -> exists x, lookup m' n = Some x /\ refers rs m a (kind_of x).

Lemma ref_leads strict rs m m' ks i v f : sane_map strict m' -> keeps m m' -> item_ref ks rs m i ->
  item_stored rs m m' i v -> is_ref f = true ->
  wt f v = true /\ forall ks' n, points f v ks' n -> exists x, lookup m' n = Some x /\ refers rs m (AOne i) (kind_of x).
Proof.
  intros S K I V F. destruct i as [x|n|r]; cbn [item_ref item_stored] in *; [contradiction| |].
  - destruct I as [e E]. subst v. split.
    + apply K in E. apply sane_range with (strict := strict) in E; auto. destruct f; try discriminate; cbn [wt]; lia.
    + intros ks' n' P. assert (n' = n) by (destruct f; try discriminate; inversion P; auto). subst n'.
      exists e. split; auto. right. exists n, e. repeat split; auto. now left.
  - destruct I as (x & E & _). destruct V as (n & x' & -> & E' & _ & L). rewrite E in E'. injection E' as <-. split.
    + apply sane_range with (strict := strict) in L; auto. destruct f; try discriminate; cbn [wt]; lia.
    + intros ks' n' P. assert (n' = n) by (destruct f; try discriminate; inversion P; auto). subst n'.
      eexists. split; [exact L|]. left. exists r, x. repeat split; auto. now left.
Qed.

Lemma id_ref m rs i : item_id m i -> item_ref [] rs m i.
Proof. destruct i; cbn; tauto. Qed.

Lemma new_ref ks m rs i : item_new ks rs i -> item_ref ks rs m i.
Proof. destruct i; cbn; tauto. Qed.

Lemma refers_many rs m i l k : In i l -> refers rs m (AOne i) k -> refers rs m (AMany l) k.
Proof.
  intros Hi [(r & x & H1 & H2)|(n & e & H1 & H2)]; [left; exists r, x|right; exists n, e]; split; auto;
    cbn [arg_regs arg_ids] in *; apply in_flat_map; eauto.
Qed.

Lemma refs_leads strict rs m m' ks l vs g : sane_map strict m' -> keeps m m' -> Forall (item_ref ks rs m) l ->
  Forall2 (item_stored rs m m') l vs -> is_ref g = true ->
  forallb (wt g) vs = true /\
  forall v ks' n, In v vs -> points g v ks' n -> exists x, lookup m' n = Some x /\ refers rs m (AMany l) (kind_of x).
Proof.
  intros S K A V F.
  assert (H : forall v, In v vs -> exists i, In i l /\ item_ref ks rs m i /\ item_stored rs m m' i v).
  { clear - A V. induction V as [|i v l vs V1 V IH]; [intros _ []|]. inversion A; subst.
    intros w [<-|Hw]; [exists i; repeat split; auto; now left|]. destruct (IH H2 w Hw) as (j & J1 & J2). exists j.
    split; auto. now right. }
  split.
  - apply forallb_forall. intros v Hv. destruct (H v Hv) as (i & Hi & I1 & I2).
    now destruct (ref_leads _ _ _ _ _ _ _ g S K I1 I2 F).
  - intros v ks' n Hv P. destruct (H v Hv) as (i & Hi & I1 & I2).
    destruct (ref_leads _ _ _ _ _ _ _ g S K I1 I2 F) as [_ L]. destruct (L ks' n P) as (x & E & R).
    exists x. split; auto. eapply refers_many; eauto.
Qed.

Lemma arg_leads strict rs m m' p a v f : sane_map strict m' -> keeps m m' -> arg_ok rs m p a ->
  stored rs m m' a v -> par_fits p f = true -> leads rs m m' a f v.
Proof.
  intros S K A V F.
  assert (St : forall g w, f = g \/ f = TOpt g -> (wt g w = true -> wt f w = true) /\
                 (forall ks n, points f w ks n -> points g w ks n)).
  { intros g w [->| ->]; split; auto.
    - intro H. now apply wt_strip.
    - intros ks n H. now inversion H. }
  assert (Fs : f = strip f \/ f = TOpt (strip f)) by (destruct f; auto).
  assert (Plain : forall t w, same t (strip f) = true -> wt t w = true -> leads rs m m' a f w).
  { intros t w E W. split.
    - apply (St _ _ Fs). now rewrite <- (same_eq _ _ E).
    - intros ks n P. apply points_strip in P. now apply same_points with (a := t) in P. }
  assert (One : forall ks i, a = AOne i -> item_ref ks rs m i -> is_ref (strip f) = true -> leads rs m m' a f v).
  { intros ks i -> I R. cbn [stored] in V. destruct (ref_leads _ _ _ _ _ _ _ (strip f) S K I V R) as [W P]. split.
    - now apply (St _ _ Fs).
    - intros ks' n Q. apply points_strip in Q. eauto. }
  assert (Many : forall ks l g, a = AMany l -> Forall (item_ref ks rs m) l -> strip f = TList g -> is_ref g = true ->
            leads rs m m' a f v).
  { intros ks l g -> I E R. cbn [stored] in V. destruct V as (vs & -> & V).
    destruct (refs_leads _ _ _ _ _ _ _ g S K I V R) as [W P]. split.
    - apply (St _ _ Fs). rewrite E. exact W.
    - intros ks' n Q. apply points_strip in Q. rewrite E in Q. inversion Q; subst. eauto. }
  assert (Omit : is_opt f = true -> leads rs m m' a f VOmit).
  { intro O. destruct f; try discriminate. split; [reflexivity|]. intros ks n P. now apply points_blank in P; auto. }
  destruct p as [t|t|t|ks|ks|ks|ks|ks|ks| | |], a as [|i|l]; cbn [arg_ok] in A; try contradiction; cbn [par_fits] in F.
  - destruct i; try contradiction. cbn [stored item_stored] in V. subst. eapply Plain; eauto.
  - apply andb_true_iff in F as [F1 F2]. cbn [stored] in V. subst. auto.
  - apply andb_true_iff in F as [F1 F2]. destruct i; try contradiction. cbn [stored item_stored] in V. subst. eapply Plain; eauto.
  - destruct (strip f) as [| | | | | | | | | | | | | | |g] eqn:E; try discriminate. cbn [stored] in V. destruct V as (vs & -> & V).
    assert (W : forallb (wt g) vs = true).
    { rewrite <- (same_eq _ _ F). clear - A V. induction V as [|i v l vs V1 V IH]; [reflexivity|]. inversion A; subst.
      cbn [forallb]. rewrite IH by auto. destruct i; cbn in H1; try contradiction. cbn in V1. subst. now rewrite H1. }
    split.
    + apply (St _ _ Fs). exact W.
    + intros ks n P. apply points_strip in P. rewrite E in P. inversion P; subst.
      exfalso. eapply same_points; eauto.
  - eapply One; eauto.
  - destruct (strip f) as [| | | | | | | | | | | | | | |g] eqn:E; try discriminate. eapply Many; eauto.
  - apply (One [] i eq_refl (id_ref _ _ _ A) F).
  - destruct (strip f) as [| | | | | | | | | | | | | | |g] eqn:E; try discriminate. apply (Many [] l g); auto.
    eapply Forall_impl; [|exact A]. intro. apply id_ref.
  - apply (One ks i eq_refl (new_ref _ _ _ _ A) F).
  - destruct (strip f) as [| | | | | | | | | | | | | | |g] eqn:E; try discriminate. apply (Many ks l g); auto.
    eapply Forall_impl; [|exact A]. intro. apply new_ref.
  - apply (One [] i eq_refl (id_ref _ _ _ A) F).
  - apply andb_true_iff in F as [F1 F2]. cbn [stored] in V. subst. auto.
  - apply andb_true_iff in F as [F1 F2]. apply (One [] i eq_refl (id_ref _ _ _ A) F2).
  - destruct (strip f) as [| | | | | | | | | | | | | | |g] eqn:E; try discriminate. apply (Many [] l g); auto.
    eapply Forall_impl; [|exact A]. intro. apply id_ref.
Qed.

Lemma arg_ok_regs rs m p a : arg_ok rs m p a -> has_regs rs (arg_regs a).
Proof.
  assert (One : forall ks i, item_ref ks rs m i -> has_regs rs (item_regs i)).
  { intros ks [x|n|r] H q []; subst; [|contradiction]. destruct H as (x & H & _). eauto. }
  assert (Plain : forall t i, item_plain t i -> has_regs rs (item_regs i)).
  { intros t [x|n|r] H q []; subst; contradiction. }
  assert (Many : forall (P : item -> Prop) l, (forall i, P i -> has_regs rs (item_regs i)) -> Forall P l ->
             has_regs rs (flat_map item_regs l)).
  { intros P l H F. induction F as [|i l Hi F IH]; [intros r []|]. cbn [flat_map]. apply has_regs_app. auto. }
  destruct p, a; cbn [arg_ok arg_regs]; intro H; try contradiction; try (intros q []; fail);
    try (eapply One; exact H); try (eapply Plain; exact H).
  - eapply Many; [|exact H]. apply Plain.
  - eapply Many; [|exact H]. apply One.
  - eapply One, id_ref; eauto.
  - eapply Many; [|exact H]. intros j Hj. eapply One, id_ref; eauto.
  - eapply One, new_ref; eauto.
  - eapply Many; [|exact H]. intros j Hj. eapply One, new_ref; eauto.
  - eapply One, id_ref; eauto.
  - eapply One, id_ref; eauto.
  - eapply Many; [|exact H]. intros j Hj. eapply One, id_ref; eauto.
Qed.

(** ** The table of constructors *)

Definition fields (k : kind) : list fty := match row_of k with Some r => row_fields r | None => [] end.

Definition slot_fits (ps : list par) (s : slot) (f : fty) : bool :=
  match s with
  | SGuid => match f with TGuid => true | _ => false end
  | SOmit | SInh => is_opt f
  | SEmpty => match f with TList _ => true | _ => false end
  | SEnum i => match strip f with TEnum vs => Nat.ltb i (length vs) | _ => false end
  | SText t => match strip f with TStr => text_ok t | _ => false end
  | SArg i => match nth_error ps i with Some p => par_fits p f | None => false end
  | SUnit i =>
      match nth_error ps i, f with
      | Some (PPlain TVec2), TVec2 | Some (PPlain TVec3), TVec3 => true
      | _, _ => false
      end
  end.

Definition maker_fits (c : ctor) : bool :=
  let k := maker_of c in
  match row_of (mk_kind k) with
  | Some r => list_eqb (fun _ _ => true) (mk_slots k) (map (fun _ => SOmit) (row_fields r)) &&
              forallb (fun x => slot_fits (mk_pars k) (fst x) (snd x)) (combine (mk_slots k) (row_fields r))
  | None => false
  end.

Lemma makers_fit c : maker_fits c = true.
Proof. destruct c; vm_compute; reflexivity. Qed.

Lemma makers_in c : forallb (slot_in (length (mk_pars (maker_of c)))) (mk_slots (maker_of c)) = true.
Proof. destruct c; reflexivity. Qed.

(** The kinds the loader accepts are those of the specification. *)
Definition agrees (acc : kind -> bool) (f : fty) : bool :=
  forallb (fun ks => forallb (fun k => Bool.eqb (acc k) (among k ks)) all_kinds) (field_kinds f).

Definition refers_par (p : par) : bool :=
  match p with PPlain _ | POption _ | PValues _ => false | _ => true end.

Definition maker_agrees (c : ctor) : bool :=
  let k := maker_of c in
  forallb (fun x => match fst x with
                    | SArg i => match nth_error (mk_pars k) i with
                                | Some p => negb (refers_par p) || agrees (accepted c i) (snd x)
                                | None => false
                                end
                    | _ => true
                    end) (combine (mk_slots k) (fields (mk_kind k))).

Lemma makers_agree c : maker_agrees c = true.
Proof. destruct c; vm_compute; reflexivity. Qed.

(** ** The table of setters *)

Definition how_fits (p : par) (h : how) (fs : list fty) : bool :=
  match h with
  | Put is => forallb (fun i => match nth_error fs i with Some f => par_fits p f | None => false end) is
  | Push i => match nth_error fs i with Some (TList g) => negb (is_opt g) && par_fits p g | _ => false end
  | PushOpt i => match nth_error fs i with Some (TOpt (TList g)) => negb (is_opt g) && par_fits p g | _ => false end
  end.

Definition method_fits (s : setter) : bool :=
  forallb (fun k => match row_of k with Some r => how_fits (me_par (method_of s)) (me_how (method_of s)) (row_fields r) | None => false end)
    (me_kinds (method_of s)).

Lemma methods_fit s : method_fits s = true.
Proof. destruct s; vm_compute; reflexivity. Qed.

Definition targets (h : how) : list nat := match h with Put is => is | Push i | PushOpt i => [i] end.

Definition method_agrees (s : setter) : bool :=
  negb (refers_par (me_par (method_of s))) ||
  forallb (fun k => forallb (fun i => match nth_error (fields k) i with
                                      | Some f => agrees (accepted_set s k) f
                                      | None => false
                                      end) (targets (me_how (method_of s)))) (me_kinds (method_of s)).

Lemma methods_agree s : method_agrees s = true.
Proof. destruct s; vm_compute; reflexivity. Qed.
