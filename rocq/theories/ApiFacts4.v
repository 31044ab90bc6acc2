(** Facts about the public constructors and setters: attributes by name, effects, programs. *)

From Coq Require Import String Ascii List NArith ZArith Bool Sorted Lia ZifyBool ZifyNat ZifyN.
From Verif Require Import Mapping Base Prims Guid Float Kind Types WellTyped Schema Entity EntitySpec DataMap DataSpec DataMapFacts
  Header File HeaderSpec FileSpec EntityFacts FileFacts FileFacts3 Arith ArithFacts Api ApiSpec ApiFacts ApiFacts2 ApiFacts3.
Import ListNotations.
Open Scope N_scope.

(** ** Names *)

Lemma index_nth n l i : index n l = Some i -> nth_error l i = Some n.
Proof.
  revert i. induction l as [|x l IH]; intros i H; cbn [index] in H; [discriminate|].
  destruct (String.eqb_spec x n) as [->|]; [injection H as <-; reflexivity|].
  destruct (index n l) as [j|]; [|discriminate]. injection H as <-. cbn [nth_error]. auto.
Qed.

Lemma index_In n l : In n l -> exists i, index n l = Some i.
Proof.
  induction l as [|x l IH]; [intros []|]. intro H. cbn [index]. destruct (String.eqb_spec x n); [eauto|].
  destruct H as [H|H]; [congruence|]. destruct (IH H) as [i ->]. exists (S i). reflexivity.
Qed.

Definition named (n : string) (l : list (string * val)) : val :=
  match find (fun p => String.eqb (fst p) n) l with Some p => snd p | None => VOmit end.

Definition slot_for (v : val) : slot :=
  match v with
  | VGuid _ => SGuid
  | VInh => SInh
  | VList _ => SEmpty
  | VEnum i => SEnum i
  | VStr t => SText t
  | _ => SOmit
  end.

Definition unit_ctor (c : ctor) : bool := match c with Direction2D_from | Direction3D_from => true | _ => false end.

Definition slot_of (c : ctor) (n : string) : slot :=
  match index n (ctor_attrs c) with
  | Some i => if unit_ctor c then SUnit i else SArg i
  | None => slot_for (named n (initial c []))
  end.

Lemma slots_named c : mk_slots (maker_of c) = map (slot_of c) (attr_names (mk_kind (maker_of c))).
Proof. destruct c; reflexivity. Qed.

Lemma initial_named c g n rs args m m' v : slot_is rs g args m m' (slot_for (named n (initial c []))) v -> v = named n (initial c g).
Proof.
  assert (F : Forall2 (fun p q => fst p = fst q /\ forall v, slot_is rs g args m m' (slot_for (snd p)) v -> v = snd q)
                (initial c []) (initial c g)).
  { destruct c; cbn [initial]; repeat (constructor; [split; [reflexivity|]; cbn; auto|]); constructor. }
  unfold named. induction F as [|p q l l' [E H] F IH]; cbn [find]; [cbn; auto|].
  rewrite <- E. destruct (String.eqb (fst p) n); auto.
Qed.

Lemma slots_new strict rs c g args m x m' : made strict rs c g args m x m' -> new_object c g args rs m m' x.
Proof.
  intros (Hk & F & _ & _). unfold new_object. split; [exact Hk|]. rewrite Hk.
  rewrite slots_named in F. split; [symmetry; rewrite <- (map_length (slot_of c)); eapply Forall2_length; eauto|].
  intros n Hn. destruct (index_In _ _ Hn) as [j Hj]. unfold attr. rewrite Hk, Hj. apply index_nth in Hj.
  assert (E : exists v, nth_error (snd x) j = Some v /\ slot_is rs g args m m' (slot_of c n) v).
  { apply (map_nth_error (slot_of c)) in Hj. clear - F Hj. revert j Hj.
    induction F as [|s v l l' H F IH]; intros [|j] Hj; try discriminate; cbn [nth_error] in *.
    - injection Hj as ->. eauto.
    - auto. }
  destruct E as (v & Ev & V). rewrite Ev. unfold slot_of in V. destruct (index n (ctor_attrs c)) as [i|].
  - unfold scaled. destruct c; cbn [unit_ctor slot_is] in V; try (destruct V as (a & Ea & V); exists a, v; now auto);
      destruct V as (a & u & Ea & V & ->); exists a, u; auto.
  - f_equal. apply initial_named in V. exact V.
Qed.

(** ** Setters by name *)

Definition names_targets (s : setter) : bool :=
  forallb (fun k => list_eqb (fun a b => match a, b with Some x, Some y => Nat.eqb x y | _, _ => false end)
                      (map (fun n => index n (attr_names k)) (setter_attrs s))
                      (map Some (targets (me_how (method_of s)))) &&
                    Nat.eqb (length (attr_names k)) (length (fields k)))
    (me_kinds (method_of s)).

Lemma targets_named s : names_targets s = true.
Proof. destruct s; vm_compute; reflexivity. Qed.

Lemma appenders_how s : match me_how (method_of s) with
                        | Put _ => ~ In s appenders
                        | Push _ => In s appenders /\ ~ In s optional_lists
                        | PushOpt _ => In s appenders /\ In s optional_lists
                        end.
Proof.
  assert (A : Forall (fun s => match me_how (method_of s) with Put _ => False | _ => True end) appenders)
    by (repeat constructor).
  assert (O : Forall (fun s => match me_how (method_of s) with PushOpt _ => True | _ => False end) optional_lists)
    by (repeat constructor).
  rewrite Forall_forall in A, O. specialize (A s). specialize (O s).
  destruct (me_how (method_of s)) eqn:E.
  - exact A.
  - split; [|exact O]. clear - E. destruct s; try discriminate E; repeat (first [left; reflexivity|right]).
  - clear - E. destruct s; try discriminate E; split; repeat (first [left; reflexivity|right]).
Qed.

Lemma target_named s k j n : In k (me_kinds (method_of s)) -> index n (attr_names k) = Some j ->
  (In n (setter_attrs s) <-> existsb (Nat.eqb j) (targets (me_how (method_of s))) = true).
Proof.
  intros Hk Hj. pose proof (targets_named s) as T. unfold names_targets in T. rewrite forallb_forall in T.
  specialize (T k Hk). apply andb_true_iff in T as [T _].
  assert (E : map (fun n => index n (attr_names k)) (setter_attrs s) = map Some (targets (me_how (method_of s)))).
  { eapply list_eqb_eq; [|exact T]. intros [x|] [y|] H; try discriminate. f_equal. lia. }
  split.
  - intro Hn. apply (in_map (fun n => index n (attr_names k))) in Hn. rewrite E, Hj in Hn.
    apply in_map_iff in Hn as (i & Ei & Hi). injection Ei as ->. apply existsb_exists. exists j. split; auto.
    apply PeanoNat.Nat.eqb_refl.
  - intro He. apply existsb_exists in He as (i & Hi & Ei). apply PeanoNat.Nat.eqb_eq in Ei. subst i.
    apply (in_map Some) in Hi. rewrite <- E in Hi. apply in_map_iff in Hi as (n' & En & Hn).
    apply index_nth in En, Hj. congruence.
Qed.

Lemma names_length s k r : In k (me_kinds (method_of s)) -> row_of k = Some r -> length (attr_names k) = length (row_fields r).
Proof.
  intros Hk Er. pose proof (targets_named s) as T. unfold names_targets in T. rewrite forallb_forall in T.
  specialize (T k Hk). apply andb_true_iff in T as [_ T]. apply PeanoNat.Nat.eqb_eq in T. now rewrite (fields_row _ _ Er) in T.
Qed.

Lemma push_values p h fs l j o : how_fits p h fs = true -> wts fs l = true -> (forall is, h <> Put is) ->
  In j (targets h) -> nth_error l j = Some o -> (forall i, h = PushOpt i -> nth_error l i <> Some VInh) ->
  (exists os, o = VList os) \/ o = VOmit.
Proof.
  intros F W Hp Hj Eo Hn. apply wts_nth in W as [L W]. destruct h as [is|i|i]; [now destruct (Hp is)| |];
    cbn [targets how_fits] in *; destruct Hj as [<-|[]].
  - destruct (nth_error fs i) as [f|] eqn:E; [|discriminate]. destruct f as [| | | | | | | | | | | | | | |g]; try discriminate.
    specialize (W i _ _ E Eo). destruct o; try discriminate. eauto.
  - destruct (nth_error fs i) as [f|] eqn:E; [|discriminate]. destruct f as [| | | | | | | | | | | | | |f|]; try discriminate.
    destruct f as [| | | | | | | | | | | | | | |g]; try discriminate.
    specialize (W i _ _ E Eo). destruct o; try discriminate; eauto. exfalso. eapply Hn; eauto.
Qed.

Lemma star_named s x : In (fst x) (me_kinds (method_of s)) ->
  (star_at s (snd x) <-> In s optional_lists /\ exists n, In n (setter_attrs s) /\ attr n x = Some VInh).
Proof.
  intro Hk. pose proof (appenders_how s) as A. split.
  - intros (i & Eh & Ei). rewrite Eh in A. split; [apply A|].
    pose proof (targets_named s) as T. unfold names_targets in T. rewrite forallb_forall in T.
    specialize (T _ Hk). apply andb_true_iff in T as [T _]. rewrite Eh in T. cbn [targets map] in T.
    destruct (setter_attrs s) as [|n [|]]; try discriminate.
    2:{ cbn [map list_eqb] in T. rewrite andb_false_r in T. discriminate. }
    exists n. split; [now left|]. unfold attr. cbn [map list_eqb] in T. destruct (index n (attr_names (fst x))) as [j|]; [|discriminate].
    rewrite andb_true_r in T. apply PeanoNat.Nat.eqb_eq in T. now subst.
  - intros [Ho (n & Hn & Ea)]. unfold attr in Ea. destruct (index n (attr_names (fst x))) as [j|] eqn:Ej; [|discriminate].
    pose proof (proj1 (target_named _ _ _ _ Hk Ej) Hn) as Ht. unfold star_at. destruct (me_how (method_of s)) as [is|i|i] eqn:Eh.
    + exfalso. apply A. unfold appenders. apply in_or_app. now left.
    + exfalso. now apply A.
    + exists i. split; auto. cbn [targets existsb] in Ht. rewrite orb_false_r in Ht. apply PeanoNat.Nat.eqb_eq in Ht. now subst.
Qed.

Lemma set_named s a rs m m' x x' v : In (fst x) (me_kinds (method_of s)) -> wf_ent (fst x) (snd x) ->
  ~ star_at s (snd x) -> fst x' = fst x -> stored rs m m' a v -> set_to s v (snd x) (snd x') ->
  set_object s a rs m m' x x'.
Proof.
  intros Hk (r & Er & W) Hn Ek V [L N]. split; [exact Ek|]. split; [exact L|]. exists v. split; [exact V|].
  intros n Hin. destruct (index_In _ _ Hin) as [j Ej]. unfold attr. rewrite Ek, Ej.
  assert (Hj : (j < length (snd x))%nat).
  { rewrite <- (wts_same_length _ _ W), <- (names_length _ _ _ Hk Er). apply nth_error_Some.
    apply index_nth in Ej. congruence. }
  destruct (nth_error (snd x) j) as [o|] eqn:Eo; [|apply nth_error_None in Eo; lia].
  exists o. rewrite N. pose proof (target_named _ _ _ _ Hk Ej) as T.
  destruct (existsb (Nat.eqb j) (targets (me_how (method_of s)))) eqn:Et.
  - rewrite Eo. cbn [option_map]. eexists. split; [reflexivity|]. split; [reflexivity|].
    split; [|intro H; exfalso; apply H; now apply T]. intros _.
    assert (Hj' : In j (targets (me_how (method_of s)))).
    { apply existsb_exists in Et as (i & Hi & Ei). apply PeanoNat.Nat.eqb_eq in Ei. now subst. }
    pose proof (appenders_how s) as A. pose proof (methods_fit s) as F. unfold method_fits in F. rewrite forallb_forall in F.
    specialize (F _ Hk). rewrite Er in F. unfold becomes.
    assert (P : (forall is, me_how (method_of s) <> Put is) -> (exists os, o = VList os) \/ o = VOmit).
    { intro Hp. eapply push_values; eauto. intros i Ei Es. apply Hn. exists i. auto. }
    destruct (me_how (method_of s)) as [is|i|i]; cbn [new_value].
    + right. auto.
    + left. split; [apply A|]. destruct P as [[os ->]| ->]; [discriminate| |]; eauto.
    + left. split; [apply A|]. destruct P as [[os ->]| ->]; [discriminate| |]; eauto.
  - rewrite Eo. exists o. split; auto. split; auto. split; auto.
    intro H. apply T in H. discriminate.
Qed.

(** ** Statements *)

Lemma put_fst m n e e' : increasing m -> lookup m n = Some e' -> map fst (put m n e) = map fst m.
Proof.
  intros I L. induction m as [|[k x] m IH]; [discriminate|]. cbn [lookup] in L. apply increasing_cons in I as [I F].
  cbn [put]. destruct (N.eqb_spec k n) as [->|].
  - replace (n <? n) with false by lia. now rewrite N.eqb_refl.
  - assert (k < n). { apply lookup_In in L. rewrite Forall_forall in F. now specialize (F _ L). }
    replace (n <? k) with false by lia. replace (n =? k) with false by lia. cbn [map fst]. f_equal. auto.
Qed.

Lemma exec_ok strict x w : world_ok strict w -> stmt_ok strict x w ->
  match exec x w with
  | Done (w', o) => world_ok strict w' /\ room (w_map w) (length (uses x)) /\ ~ starred x w /\ effect x w w' o
  | Err => False
  | Panic => ~ room (w_map w) (length (uses x)) \/ starred x w
  end.
Proof.
  intros [S R] H. destruct w as [rs m]. cbn [w_map w_regs] in *. pose proof (sane_top _ _ S) as T.
  destruct x as [c g args|k l|r s a|r|r n]; cbn [exec stmt_ok uses starred effect w_map w_regs] in *.
  - destruct H as (G & A & Hs). pose proof (construct_ok strict c g args rs m S R G A Hs) as C.
    destruct (construct c g args rs m) as [[y m']| |]; cbn [obind stores fst snd] in *; auto.
    destruct C as (C1 & C2 & C3 & C4). split; [|split; [exact C1|split; [tauto|]]].
    + split; [exact C2|]. cbn [w_map w_regs]. pose proof C4 as (_ & _ & C5 & C6). apply regs_app; auto.
      eapply regs_keeps; [|exact R]. rewrite C3. apply keeps_app.
    + split; [reflexivity|]. split; [exact C3|]. exists y. split; [reflexivity|]. eapply slots_new; eauto.
  - destruct H as (Hk & W & Ht & Hg). split; [|split; [|split; [tauto|]]].
    + split; [exact S|]. cbn [w_map w_regs]. apply regs_app; auto. cbn [fst snd]. intros ks n C. destruct strict.
      * destruct (Hg eq_refl ks n C) as (y & E & P). eauto.
      * destruct (Ht ks n C) as (y & E). exists y. split; auto. discriminate.
    + unfold room. cbn [length]. lia.
    + auto.
  - destruct H as (x & Ex & Hk & A & Hs). rewrite Ex. cbn [err obind]. destruct (R r x Ex) as [W So].
    pose proof (modify_ok strict s a rs x m S R W So Hk A Hs) as M.
    assert (St : star_at s (snd x) <-> exists v n, In s optional_lists /\ Some x = Some v /\ In n (setter_attrs s) /\ attr n v = Some VInh).
    { rewrite (star_named s x Hk). split.
      - intros [H1 (n & H2 & H3)]. exists x, n. auto.
      - intros (v & n & H1 & H2 & H3 & H4). injection H2 as <-. eauto. }
    destruct (modify s a rs x m) as [[y m']| |]; cbn [obind fst snd] in *; auto.
    + destruct M as (M1 & M2 & M3 & M4 & M5 & M6 & M7 & v & M8 & M9). split; [|split; [exact M1|split; [now rewrite <- St|]]].
      * split; [exact M3|]. cbn [w_map w_regs]. apply regs_set; auto. eapply regs_keeps; [|exact R]. rewrite M4. apply keeps_app.
      * assert (Hr : (r < length rs)%nat) by (apply nth_error_Some; congruence).
        split; [reflexivity|]. split; [exact M4|]. split; [apply set_nth_length|]. split.
        -- cbn [w_regs]. intros q Hq. rewrite nth_set_nth by auto. replace (Nat.eqb r q) with false by lia. reflexivity.
        -- exists x, y. cbn [w_regs]. split; auto. rewrite nth_set_nth by auto. rewrite PeanoNat.Nat.eqb_refl. split; auto.
           eapply set_named; eauto.
    + rewrite <- St. exact M.
  - destruct H as (x & Ex). rewrite Ex. cbn [err obind]. destruct (R r x Ex) as [W So]. rewrite insert_top.
    destruct (N.eqb_spec (top m) max_usize) as [E|E]; cbn [full obind fst snd].
    + left. unfold room. cbn [length]. lia.
    + split; [|split; [unfold room; cbn [length]; lia|split; [tauto|]]].
      * split; [now apply sane_insert|]. cbn [w_map w_regs]. eapply regs_keeps; [apply keeps_app|exact R].
      * split; [reflexivity|]. split; [reflexivity|]. eauto.
  - destruct H as (x & l & Ex & El). rewrite Ex. cbn [err obind]. unfold get. rewrite El.
    assert (Ekk : kind_eqb (fst x) (fst x) = true) by (now apply kind_eqb_eq). rewrite Ekk. cbn [obind].
    destruct (R r x Ex) as [W So]. destruct (sane_swap strict m n (fst x) (snd x) l S El W So) as [S' K].
    assert (Hr : (r < length rs)%nat) by (apply nth_error_Some; congruence).
    split; [|split; [unfold room; cbn [length]; lia|split; [tauto|]]].
    + split; [exact S'|]. cbn [w_map w_regs]. apply regs_set.
      * intros q y Eq. destruct (R q y Eq) as [Wq Sq]. split; auto.
      * pose proof (sane_wf _ _ S) as F. rewrite Forall_forall in F. apply lookup_In in El. now destruct (F _ El).
      * apply K. eapply sane_sound; eauto.
    + cbn [w_regs w_map]. split; [reflexivity|]. split; [eapply put_fst; eauto; apply S|]. split.
      { intros i Hi. rewrite lookup_put by apply S. now replace (i =? n) with false by lia. }
      split; [apply set_nth_length|]. split.
      { intros q Hq. rewrite nth_set_nth by auto. replace (Nat.eqb r q) with false by lia. reflexivity. }
      exists (fst x), (snd x), l. rewrite nth_set_nth, PeanoNat.Nat.eqb_refl by auto. rewrite lookup_put by apply S.
      rewrite N.eqb_refl. destruct x as [k l0]. cbn [fst snd]. auto.
Qed.

(** ** Programs *)

Lemma prog_weaken xs : forall w, prog_ok true xs w -> prog_ok false xs w.
Proof.
  induction xs as [|x xs IH]; intros w; cbn [prog_ok]; auto. intros [H1 H2]. split; [|eauto]. clear - H1.
  destruct x; cbn [stmt_ok] in *; auto.
  - destruct H1 as (H1 & H2 & _). repeat split; auto; try apply H2. discriminate.
  - destruct H1 as (H1 & H2 & H3 & _). repeat split; auto. discriminate.
  - destruct H1 as (y & H1 & H2 & H3 & _). exists y. repeat split; auto. discriminate.
Qed.

Lemma execs_ok strict xs : forall w, world_ok strict w -> prog_ok strict xs w ->
  match execs xs w with
  | Done (w', _) => world_ok strict w'
  | Err => False
  | Panic => True
  end.
Proof.
  induction xs as [|x xs IH]; intros w W P; cbn [execs prog_ok] in *; auto.
  destruct P as [P1 P2]. pose proof (exec_ok strict x w W P1) as E. destruct (exec x w) as [[w1 o]| |]; cbn [obind fst snd]; auto.
  destruct E as (E1 & _). specialize (IH w1 E1 (P2 w1 o eq_refl)). destruct (execs xs w1) as [[w2 os]| |]; cbn [obind fst snd]; auto.
Qed.

Lemma execs_app xs ys w : execs (xs ++ ys) w =
  obind (execs xs w) (fun y => obind (execs ys (fst y)) (fun z => Done (fst z, snd y ++ snd z))).
Proof.
  revert w. induction xs as [|x xs IH]; intro w; cbn [app execs obind fst snd].
  - destruct (execs ys w) as [[? ?]| |]; reflexivity.
  - destruct (exec x w) as [[w1 o]| |]; cbn [obind fst snd]; auto. rewrite IH.
    destruct (execs xs w1) as [[w2 os]| |]; cbn [obind fst snd]; auto. destruct (execs ys w2) as [[w3 os']| |]; reflexivity.
Qed.

Lemma start_ok strict v h m : ifc_ok v (mk_ifc h m) -> ~ dangling m -> (strict = true -> refs_ok m) ->
  world_ok strict (mk_world [] m).
Proof.
  intros (_ & I & F) D Hr. cbn [i_data] in *. split; [|intros [|r] x E; discriminate]. cbn [w_map]. constructor; auto.
  intros n e E ks i C. assert (Hh : has_ref m ks i) by (exists n, e; split; auto; now apply lookup_In).
  destruct strict.
  - destruct (Hr eq_refl ks i Hh) as (y & Ey & P). eauto.
  - destruct (lookup m i) as [y|] eqn:Ey.
    + exists y. split; auto. discriminate.
    + exfalso. apply D. exists ks, i. auto.
Qed.

Lemma sane_ifc strict v h m : header_ok v h -> sane_map strict m -> ifc_ok v (mk_ifc h m) /\ ~ dangling m /\ (strict = true -> refs_ok m).
Proof.
  intros H S. split; [|split].
  - split; [exact H|]. cbn [i_data]. split; apply S.
  - intros (ks & n & (i & e & Hin & C) & L). apply In_lookup in Hin; [|apply S].
    destruct (sane_sound _ _ S _ _ Hin ks n C) as (x & E & _). congruence.
  - intros Hs ks n (i & e & Hin & C). apply In_lookup in Hin; [|apply S].
    destruct (sane_sound _ _ S _ _ Hin ks n C) as (x & E & P). eauto.
Qed.

Lemma saved_not_panic v x : ifc_ok v x -> ~ dangling (i_data x) -> load v (save x) <> Panic.
Proof.
  intros Hx Hd. assert (P : parse_whole (p_ifc v) (save x) = Done (norm_ifc x)) by (apply parse_whole_done, p_ifc_saved; auto).
  apply (load_exists v (save x) (norm_ifc x) P). intros (ks & n & Hr & L). apply Hd. exists ks, n.
  split; [now apply has_ref_norm|]. unfold norm_ifc in L. cbn [i_data] in L. rewrite lookup_norm in L.
  destruct (lookup (i_data x) n); [discriminate|reflexivity].
Qed.

Lemma program_safe v h m xs : ifc_ok v (mk_ifc h m) -> ~ dangling m -> prog_ok false xs (mk_world [] m) ->
  execs xs (mk_world [] m) <> Err /\
  forall w os, execs xs (mk_world [] m) = Done (w, os) ->
    ifc_ok v (mk_ifc h (w_map w)) /\ load v (save (mk_ifc h (w_map w))) <> Panic.
Proof.
  intros Hx Hd P. assert (W : world_ok false (mk_world [] m)) by (eapply start_ok; eauto; discriminate).
  pose proof (execs_ok false xs _ W P) as E. split.
  - intro Ee. now rewrite Ee in E.
  - intros w os Ed. rewrite Ed in E. destruct E as [S _]. destruct (sane_ifc false v h (w_map w) (proj1 Hx) S) as (H1 & H2 & _).
    split; auto. now apply saved_not_panic.
Qed.

Lemma program_loads v h m xs w os : ifc_ok v (mk_ifc h m) -> refs_ok m -> prog_ok true xs (mk_world [] m) ->
  execs xs (mk_world [] m) = Done (w, os) ->
  load v (save (mk_ifc h (w_map w))) = Done (norm_ifc (mk_ifc h (w_map w))).
Proof.
  intros Hx Hr P E. assert (W : world_ok true (mk_world [] m)).
  { eapply start_ok; eauto. apply refs_ok_iff in Hr. tauto. }
  pose proof (execs_ok true xs _ W P) as S. rewrite E in S. destruct S as [S _].
  destruct (sane_ifc true v h (w_map w) (proj1 Hx) S) as (H1 & _ & H3). apply load_saved; auto.
Qed.
