(** Facts about the public constructors and setters. *)

From Coq Require Import String Ascii List NArith ZArith Bool Sorted Lia ZifyBool ZifyNat ZifyN.
From Verif Require Import Base Prims Guid Float Kind Types WellTyped Schema Entity EntitySpec DataMap DataSpec DataMapFacts
  Header File HeaderSpec FileSpec FileFacts FileFacts3 Arith ArithFacts Mapping Api ApiSpec.
Import ListNotations.
Open Scope N_scope.

(** ** Ids *)

Lemma top_spec m n e : In (n, e) m -> n <= top m.
Proof.
  induction m as [|[k x] m IH]; intros []; unfold top; cbn [map fst fold_right].
  - injection H as -> _. lia.
  - specialize (IH H). unfold top in IH. lia.
Qed.

Lemma top_max m : max_key m = match m with [] => None | _ => Some (top m) end.
Proof.
  induction m as [|[k e] m IH]; [reflexivity|]. unfold max_key. cbn [fold_right fst]. fold (max_key m). rewrite IH.
  unfold top. cbn [map fst fold_right]. destruct m as [|p m].
  - cbn. f_equal. lia.
  - reflexivity.
Qed.

Lemma top_app m l : top (m ++ l) = N.max (top m) (top l).
Proof. induction m as [|[k e] m IH]; unfold top in *; cbn [app map fst fold_right]; [lia|rewrite IH; lia]. Qed.

Lemma numbered_app n a : forall b, numbered n (a ++ b) = numbered n a ++ numbered (n + N.of_nat (length a)) b.
Proof.
  revert n. induction a as [|x a IH]; intros n b; cbn [app numbered length].
  - f_equal. lia.
  - rewrite IH. cbn [app]. do 3 f_equal. lia.
Qed.

Lemma numbered_top l : forall n, l <> [] -> top (numbered n l) = n + N.of_nat (length l) - 1.
Proof.
  induction l as [|x l IH]; intros n H; [congruence|]. cbn [numbered length]. unfold top. cbn [map fst fold_right].
  fold (top (numbered (n + 1) l)). destruct l as [|y l].
  - cbn. lia.
  - rewrite IH by congruence. cbn [length]. lia.
Qed.

Lemma top_numbered m l : top (m ++ numbered (top m + 1) l) = top m + N.of_nat (length l).
Proof.
  rewrite top_app. destruct l as [|x l]; [cbn; lia|]. rewrite numbered_top by congruence. cbn [length]. lia.
Qed.

Lemma put_above m n e : (forall k, In k (map fst m) -> k < n) -> put m n e = m ++ [(n, e)].
Proof.
  induction m as [|[k x] m IH]; intro H; [reflexivity|]. cbn [put app].
  assert (k < n) by (apply H; now left). replace (n <? k) with false by lia. replace (n =? k) with false by lia.
  rewrite IH; auto. intros j Hj. apply H. now right.
Qed.

Lemma insert_top m e : insert_new m e =
  if top m =? max_usize then None else Some (m ++ [(top m + 1, e)], top m + 1).
Proof.
  unfold insert_new. rewrite top_max. destruct m as [|p m]; [reflexivity|].
  destruct (top (p :: m) =? max_usize); [reflexivity|]. rewrite put_above; auto.
  intros k Hk. apply in_map_iff in Hk as ([n x] & <- & Hin). apply top_spec in Hin. cbn [fst]. lia.
Qed.

(** ** Maps that keep their objects *)

Definition keeps (m m' : dmap) : Prop := forall n e, lookup m n = Some e -> lookup m' n = Some e.

Lemma keeps_refl m : keeps m m. Proof. unfold keeps; auto. Qed.
Lemma keeps_trans a b c : keeps a b -> keeps b c -> keeps a c. Proof. unfold keeps; auto. Qed.
Lemma keeps_none m m' n : keeps m m' -> lookup m' n = None -> lookup m n = None.
Proof. intros K H. destruct (lookup m n) as [e|] eqn:E; auto. apply K in E. congruence. Qed.

Lemma lookup_app m l n : lookup (m ++ l) n = match lookup m n with Some e => Some e | None => lookup l n end.
Proof. induction m as [|[k e] m IH]; [reflexivity|]. cbn [app lookup]. destruct (k =? n); auto. Qed.

Lemma keeps_app m l : keeps m (m ++ l).
Proof. intros n e H. now rewrite lookup_app, H. Qed.

(** ** The invariant *)

(** References are there; if [strict], of a permitted kind. *)
Definition sound (strict : bool) (m : dmap) (e : entity) : Prop :=
  forall ks n, checked_ref e ks n -> exists x, lookup m n = Some x /\ (strict = true -> permitted ks x).

Definition regs_ok (strict : bool) (rs : list reg) (m : dmap) : Prop :=
  forall r x, nth_error rs r = Some x -> wf_ent (fst x) (snd x) /\ sound strict m (Ent (fst x) (snd x)).

Record sane_map (strict : bool) (m : dmap) : Prop := mk_sane
  { sane_inc : increasing m
  ; sane_wf : Forall wf_def m
  ; sane_sound : forall n e, lookup m n = Some e -> sound strict m e }.

Lemma sane_range strict m n e : sane_map strict m -> lookup m n = Some e -> n <= max_usize.
Proof.
  intros H E. apply lookup_In in E. pose proof (sane_wf _ _ H) as W. rewrite Forall_forall in W.
  now destruct (W _ E).
Qed.

Lemma sane_top strict m : sane_map strict m -> top m <= max_usize.
Proof.
  intros H. pose proof (sane_wf _ _ H) as W. clear H. induction W as [|[k e] m [Hk _] W IH].
  - cbv. discriminate.
  - unfold top in *. cbn [map fst fold_right] in *. lia.
Qed.

Lemma sound_keeps strict m m' e : keeps m m' -> sound strict m e -> sound strict m' e.
Proof. intros K H ks n C. destruct (H ks n C) as (x & E & P). exists x. split; auto. Qed.

Lemma regs_keeps strict rs m m' : keeps m m' -> regs_ok strict rs m -> regs_ok strict rs m'.
Proof. intros K H r x E. destruct (H r x E) as [W S]. split; auto. eapply sound_keeps; eauto. Qed.

Lemma sane_insert strict m k l : sane_map strict m -> wf_ent k l -> sound strict m (Ent k l) ->
  top m <> max_usize -> sane_map strict (m ++ [(top m + 1, Ent k l)]).
Proof.
  intros H W S T. assert (E : insert_new m (Ent k l) = Some (m ++ [(top m + 1, Ent k l)], top m + 1)).
  { rewrite insert_top. replace (top m =? max_usize) with false by lia. reflexivity. }
  pose proof (sane_top _ _ H). apply insert_new_spec in E as (_ & _ & _ & I & L); [|apply H]. constructor.
  - exact I.
  - apply Forall_app. split; [apply H|]. repeat constructor; cbn [fst snd wf_obj]; auto. lia.
  - intros n e E. apply sound_keeps with m; [apply keeps_app|]. rewrite L in E. destruct (n =? top m + 1).
    + injection E as <-. exact S.
    + eapply sane_sound; eauto.
Qed.

(** ** Storing arguments *)

Definition has_regs (rs : list reg) (l : list nat) : Prop := forall r, In r l -> exists x, nth_error rs r = Some x.

Lemma has_regs_app rs a b : has_regs rs (a ++ b) <-> has_regs rs a /\ has_regs rs b.
Proof.
  unfold has_regs. split.
  - intro H. split; intros r Hr; apply H, in_or_app; auto.
  - intros [A B] r Hr. apply in_app_or in Hr as []; auto.
Qed.

Lemma objects_app rs a b : objects rs (a ++ b) = objects rs a ++ objects rs b.
Proof. unfold objects. apply flat_map_app. Qed.

Lemma objects_length rs l : has_regs rs l -> length (objects rs l) = length l.
Proof.
  induction l as [|r l IH]; intro H; [reflexivity|]. unfold objects. cbn [flat_map]. fold (objects rs l).
  destruct (H r (or_introl eq_refl)) as [x ->]. cbn [app length]. f_equal. apply IH. intros q Hq. apply H. now right.
Qed.

Lemma Forall2_impl {A B} (P Q : A -> B -> Prop) l l' : (forall a b, P a b -> Q a b) -> Forall2 P l l' -> Forall2 Q l l'.
Proof. induction 2; constructor; auto. Qed.

(** What running a part with the registers [l] to insert means. *)
Definition stores {A} (strict : bool) (rs : list reg) (m : dmap) (l : list nat) (o : outcome (A * dmap)) (P : A -> dmap -> Prop) : Prop :=
  match o with
  | Done (a, m') => room m (length l) /\ sane_map strict m' /\ m' = m ++ numbered (top m + 1) (objects rs l) /\ P a m'
  | Err => False
  | Panic => ~ room m (length l)
  end.

Lemma item_stored_mono rs m0 m m1 m2 i v : keeps m0 m -> keeps m1 m2 -> item_stored rs m m1 i v -> item_stored rs m0 m2 i v.
Proof.
  intros K0 K H. destruct i as [x|n|r]; cbn [item_stored] in *; auto.
  destruct H as (n & x & -> & E & N1 & N2). exists n, x. repeat split; auto. eapply keeps_none; eauto.
Qed.

Lemma stored_mono rs m0 m m1 m2 a v : keeps m0 m -> keeps m1 m2 -> stored rs m m1 a v -> stored rs m0 m2 a v.
Proof.
  intros K0 K H. destruct a as [|i|l]; cbn [stored] in *; auto.
  - eapply item_stored_mono; eauto.
  - destruct H as (vs & -> & F). exists vs. split; auto. eapply Forall2_impl; [|exact F].
    intros i v. apply item_stored_mono; auto.
Qed.

Lemma store_item_ok strict rs m i : sane_map strict m -> regs_ok strict rs m -> has_regs rs (item_regs i) ->
  stores strict rs m (item_regs i) (store_item rs m i) (fun v m' => item_stored rs m m' i v).
Proof.
  intros S R H. pose proof (sane_top _ _ S) as T. destruct i as [v|n|r]; cbn [store_item item_regs stores length item_stored].
  - unfold room. rewrite app_nil_r. repeat split; auto; try apply S. lia.
  - unfold room. rewrite app_nil_r. repeat split; auto; try apply S. lia.
  - destruct (H r (or_introl eq_refl)) as [x E]. cbn [item_regs] in *. unfold err. rewrite E. cbn [obind].
    rewrite insert_top. assert (O : objects rs [r] = [x]) by (unfold objects; cbn [flat_map]; now rewrite E).
    destruct (N.eqb_spec (top m) max_usize) as [E1|E1]; cbn [full obind stores length fst snd]; rewrite ?O; cbn [numbered].
    + unfold room. lia.
    + destruct (R r x E) as [W So]. cbn [fst snd]. split; [unfold room; lia|]. split; [now apply sane_insert|].
      split; [reflexivity|]. exists (top m + 1), x. repeat split; auto.
      * destruct (lookup m (top m + 1)) as [e|] eqn:L; auto. apply lookup_In, top_spec in L. lia.
      * rewrite lookup_app. destruct (lookup m (top m + 1)) as [e|] eqn:L.
        -- apply lookup_In, top_spec in L. lia.
        -- cbn [lookup]. now rewrite N.eqb_refl.
Qed.

(** Sequencing. *)
Lemma stores_bind {A B} strict rs m l1 l2 (o : outcome (A * dmap)) (f : A * dmap -> outcome (B * dmap)) P Q :
  has_regs rs l1 -> sane_map strict m -> regs_ok strict rs m ->
  stores strict rs m l1 o P ->
  (forall a m', keeps m m' -> sane_map strict m' -> regs_ok strict rs m' -> P a m' ->
     stores strict rs m' l2 (f (a, m')) Q) ->
  stores strict rs m (l1 ++ l2) (obind o f) Q.
Proof.
  intros Hl Sm Rm H1 H2. destruct o as [[a m']| |]; cbn [obind].
  - destruct H1 as (R1 & S1 & E1 & P1). assert (K : keeps m m') by (rewrite E1; apply keeps_app).
    specialize (H2 a m' K S1 (regs_keeps _ _ _ _ K Rm) P1).
    assert (T : top m' = top m + N.of_nat (length l1)).
    { rewrite E1, top_numbered, objects_length; auto. }
    destruct (f (a, m')) as [[b m'']| |]; cbn [stores] in *; auto.
    + destruct H2 as (R2 & S2 & E2 & Q2). split.
      * unfold room in *. rewrite app_length. lia.
      * split; auto. split; auto. rewrite E2, objects_app, numbered_app, app_assoc, <- E1. do 2 f_equal.
        rewrite objects_length by auto. lia.
    + unfold room in *. rewrite app_length. lia.
  - exact H1.
  - cbn [stores] in *. unfold room in *. rewrite app_length. lia.
Qed.

Lemma stores_map {A} strict rs m l (o : outcome (A * dmap)) (P Q : A -> dmap -> Prop) :
  stores strict rs m l o P ->
  (forall a m', keeps m m' -> P a m' -> Q a m') ->
  stores strict rs m l o Q.
Proof.
  destruct o as [[a m']| |]; cbn [stores]; auto. intros (H1 & H2 & H3 & H4) H. repeat split; try apply H2; auto.
  apply H; auto. rewrite H3. apply keeps_app.
Qed.

Lemma stores_ret {A} strict rs m (a : A) (P : A -> dmap -> Prop) : sane_map strict m -> P a m -> stores strict rs m [] (Done (a, m)) P.
Proof.
  intros S H. cbn [stores length objects flat_map numbered]. rewrite app_nil_r. pose proof (sane_top _ _ S).
  unfold room. repeat split; try apply S; auto. lia.
Qed.

Lemma store_items_ok strict rs l : forall m, sane_map strict m -> regs_ok strict rs m -> has_regs rs (flat_map item_regs l) ->
  stores strict rs m (flat_map item_regs l) (store_items rs m l) (fun vs m' => Forall2 (item_stored rs m m') l vs).
Proof.
  induction l as [|i l IH]; intros m S R H; cbn [store_items flat_map].
  - apply stores_ret; auto.
  - cbn [flat_map] in H. apply has_regs_app in H as [H1 H2].
    eapply stores_bind; [exact H1|exact S|exact R|apply store_item_ok; auto|]. intros v m1 K1 S1 R1 V1. cbn [fst snd].
    rewrite <- (app_nil_r (flat_map item_regs l)).
    eapply stores_bind; [exact H2|exact S1|exact R1|apply IH; auto|]. intros vs m2 K2 S2 R2 V2. cbn [fst snd].
    apply stores_ret; auto. constructor.
    + eapply item_stored_mono; [apply keeps_refl|exact K2|exact V1].
    + eapply Forall2_impl; [|exact V2]. intros j w. apply item_stored_mono; auto using keeps_refl.
Qed.

Lemma store_ok strict rs m a : sane_map strict m -> regs_ok strict rs m -> has_regs rs (arg_regs a) ->
  stores strict rs m (arg_regs a) (store rs m a) (fun v m' => stored rs m m' a v).
Proof.
  intros S R H. destruct a as [|i|l]; cbn [store arg_regs].
  - apply stores_ret; auto. reflexivity.
  - now apply store_item_ok.
  - rewrite <- (app_nil_r (flat_map item_regs l)).
    eapply stores_bind; [exact H|exact S|exact R|apply store_items_ok; auto|]. intros vs m' K S1 R1 V. cbn [fst snd].
    apply stores_ret; auto. exists vs. auto.
Qed.

(** ** Making a value *)

Definition slot_args (args : list arg) (s : slot) : list arg :=
  match s with
  | SArg i | SUnit i => match nth_error args i with Some a => [a] | None => [] end
  | _ => []
  end.

Definition slot_is (rs : list reg) (g : list N) (args : list arg) (m m' : dmap) (s : slot) (v : val) : Prop :=
  match s with
  | SGuid => v = VGuid g
  | SOmit => v = VOmit
  | SInh => v = VInh
  | SEmpty => v = VList []
  | SEnum i => v = VEnum i
  | SText t => v = VStr t
  | SArg i => exists a, nth_error args i = Some a /\ stored rs m m' a v
  | SUnit i => exists a u, nth_error args i = Some a /\ stored rs m m' a u /\ v = unit_vector u
  end.

Definition slot_in (n : nat) (s : slot) : bool :=
  match s with SArg i | SUnit i => Nat.ltb i n | _ => true end.

Lemma slot_is_mono rs g args m0 m m1 m2 s v : keeps m0 m -> keeps m1 m2 ->
  slot_is rs g args m m1 s v -> slot_is rs g args m0 m2 s v.
Proof.
  intros K0 K H. destruct s; cbn [slot_is] in *; auto.
  - destruct H as (a & E & H). exists a. split; auto. eapply stored_mono; eauto.
  - destruct H as (a & u & E & H & ->). exists a, u. repeat split; auto. eapply stored_mono; eauto.
Qed.

Lemma fill_ok strict rs g args m s : sane_map strict m -> regs_ok strict rs m ->
  slot_in (length args) s = true -> has_regs rs (flat_map arg_regs (slot_args args s)) ->
  stores strict rs m (flat_map arg_regs (slot_args args s)) (fill rs g args m s)
    (fun v m' => slot_is rs g args m m' s v).
Proof.
  intros S R I H. destruct s as [| | | | | |i|i]; cbn [fill slot_args flat_map]; try (apply stores_ret; auto; reflexivity).
  - cbn [slot_in] in I. apply PeanoNat.Nat.ltb_lt in I. cbn [slot_args] in H. destruct (nth_error args i) as [a|] eqn:E.
    2:{ apply nth_error_None in E. lia. }
    cbn [err obind flat_map] in *. rewrite app_nil_r in *. eapply stores_map; [apply store_ok; auto|].
    intros v m' _ V. exists a. auto.
  - cbn [slot_in] in I. apply PeanoNat.Nat.ltb_lt in I. cbn [slot_args] in H. destruct (nth_error args i) as [a|] eqn:E.
    2:{ apply nth_error_None in E. lia. }
    cbn [err obind flat_map] in *. eapply stores_bind; [|exact S|exact R| |].
    + rewrite app_nil_r in H. exact H.
    + apply store_ok; auto. now rewrite app_nil_r in H.
    + intros v m' K S' R' V. cbn [fst snd]. apply stores_ret; auto. exists a, v. auto.
Qed.

Lemma fills_ok strict rs g args l : forall m, sane_map strict m -> regs_ok strict rs m ->
  forallb (slot_in (length args)) l = true -> has_regs rs (flat_map arg_regs (flat_map (slot_args args) l)) ->
  stores strict rs m (flat_map arg_regs (flat_map (slot_args args) l)) (fills rs g args m l)
    (fun vs m' => Forall2 (slot_is rs g args m m') l vs).
Proof.
  induction l as [|s l IH]; intros m S R I H; cbn [fills flat_map].
  - apply stores_ret; auto.
  - cbn [flat_map] in H. rewrite flat_map_app in *. apply has_regs_app in H as [H1 H2].
    cbn [forallb] in I. apply andb_true_iff in I as [I1 I2].
    eapply stores_bind; [exact H1|exact S|exact R|apply fill_ok; auto|]. intros v m1 K1 S1 R1 V1. cbn [fst snd].
    rewrite <- (app_nil_r (flat_map arg_regs (flat_map (slot_args args) l))).
    eapply stores_bind; [exact H2|exact S1|exact R1|apply IH; auto|]. intros vs m2 K2 S2 R2 V2. cbn [fst snd].
    apply stores_ret; auto. constructor.
    + eapply slot_is_mono; [apply keeps_refl|exact K2|exact V1].
    + eapply Forall2_impl; [|exact V2]. intros j w. apply slot_is_mono; auto using keeps_refl.
Qed.
