(** Facts about the public constructors and setters: which references the loader refuses. *)

From Coq Require Import String Ascii List NArith ZArith Bool Sorted Lia ZifyBool ZifyNat ZifyN.
From Verif Require Import Mapping Base Prims Guid Float Kind Types WellTyped Schema Entity EntitySpec DataMap DataSpec DataMapFacts
  Header File HeaderSpec FileSpec EntityFacts FileFacts FileFacts3 Arith ArithFacts Api ApiSpec ApiFacts ApiFacts2 ApiFacts3 ApiFacts4.
Import ListNotations.
Open Scope N_scope.

(** ** What an argument refers to is what its attribute points at *)

Lemma ref_points f ks n : is_ref f = true -> In ks (field_kinds f) -> points f (VId n) ks n.
Proof.
  intros R H. destruct f; try discriminate; cbn [field_kinds] in H.
  - match goal with c : bool |- _ => destruct c; [|destruct H] end. destruct H as [<-|[]]. constructor.
  - destruct H as [<-|[]]. constructor.
Qed.

Lemma item_points rs m m' i v f ks k : keeps m m' -> item_stored rs m m' i v -> is_ref f = true -> In ks (field_kinds f) ->
  refers rs m (AOne i) k -> exists n x, points f v ks n /\ lookup m' n = Some x /\ kind_of x = k.
Proof.
  intros K V R H [(r & x & Hr & Ex & Ek)|(n & e & Hn & Ee & Ek)].
  - cbn [arg_regs item_regs] in Hr. destruct i as [u|n|q]; try destruct Hr. subst q.
    2:{ contradiction. }
    destruct V as (n & y & -> & Ey & _ & L). rewrite Ex in Ey. injection Ey as <-.
    exists n. eexists. split; [now apply ref_points|]. split; [exact L|]. exact Ek.
  - cbn [arg_ids item_ids] in Hn. destruct i as [u|n'|q]; try destruct Hn. 2:{ contradiction. } subst n'.
    cbn [item_stored] in V. subst v. exists n, e. split; [now apply ref_points|]. split; auto.
Qed.

Lemma refers_item rs m l k : refers rs m (AMany l) k -> exists i, In i l /\ refers rs m (AOne i) k.
Proof.
  intros [(r & x & Hr & H)|(n & e & Hn & H)]; cbn [arg_regs arg_ids] in *.
  - apply in_flat_map in Hr as (i & Hi & Hr). exists i. split; auto. left. exists r, x. auto.
  - apply in_flat_map in Hn as (i & Hi & Hn). exists i. split; auto. right. exists n, e. auto.
Qed.

Lemma strip_points f v ks n : points (strip f) v ks n -> points f v ks n.
Proof. destruct f; auto. intro H. now constructor. Qed.

Lemma strip_kinds f : field_kinds (strip f) = field_kinds f.
Proof. destruct f; reflexivity. Qed.

Lemma arg_points rs m m' p a v f ks k : keeps m m' -> arg_ok rs m p a -> stored rs m m' a v -> par_fits p f = true ->
  refers_par p = true -> In ks (field_kinds f) -> refers rs m a k ->
  exists n x, points f v ks n /\ lookup m' n = Some x /\ kind_of x = k.
Proof.
  intros K A V F Rp Hk Hr.
  assert (One : forall i, a = AOne i -> is_ref (strip f) = true ->
    exists n x, points f v ks n /\ lookup m' n = Some x /\ kind_of x = k).
  { intros i -> R. cbn [stored] in V. rewrite <- strip_kinds in Hk.
    destruct (item_points _ _ _ _ _ _ _ _ K V R Hk Hr) as (n & x & P & H). exists n, x. split; auto. now apply strip_points. }
  assert (Many : forall l g, a = AMany l -> strip f = TList g -> is_ref g = true ->
    exists n x, points f v ks n /\ lookup m' n = Some x /\ kind_of x = k).
  { intros l g -> E R. destruct V as (vs & -> & V). rewrite <- strip_kinds, E in Hk. cbn [field_kinds] in Hk.
    apply refers_item in Hr as (i & Hi & Hr).
    assert (exists w, In w vs /\ item_stored rs m m' i w) as (w & Hw & Vw).
    { clear - V Hi. induction V as [|j w l vs V1 V IH]; [destruct Hi|]. destruct Hi as [->|Hi].
      - exists w. split; auto. now left.
      - destruct (IH Hi) as (u & H1 & H2). exists u. split; auto. now right. }
    destruct (item_points _ _ _ _ _ _ _ _ K Vw R Hk Hr) as (n & x & P & H). exists n, x. split; auto.
    apply strip_points. rewrite E. econstructor; eauto. }
  destruct p as [t|t|t|qs|qs|qs|qs|qs|qs| | |]; try discriminate Rp; destruct a as [|i|l]; cbn [arg_ok] in A; try contradiction;
    cbn [par_fits] in F; try (eapply One; [reflexivity|]; auto; apply andb_true_iff in F; tauto);
    try (destruct (strip f) as [| | | | | | | | | | | | | | |g] eqn:E; try discriminate; now apply (Many l g)).
  exfalso. destruct Hr as [(? & ? & [] & _)|(? & ? & [] & _)].
Qed.

Lemma not_accepted (acc : kind -> bool) f ks e : agrees acc f = true -> In ks (field_kinds f) ->
  acc (kind_of e) = false -> acc KDummy = true -> ~ permitted ks e.
Proof.
  intros A Hk Ha Hd. destruct (kinds_all (kind_of e)) as [E|Hin]; [congruence|].
  unfold agrees in A. rewrite forallb_forall in A. specialize (A _ Hk).
  rewrite forallb_forall in A. specialize (A _ Hin). rewrite Ha in A. apply eqb_prop in A. symmetry in A.
  intros [P|P]; [|congruence]. enough (among (kind_of e) ks = true) by congruence.
  apply existsb_exists. exists (kind_of e). split; auto. now apply kind_eqb_eq.
Qed.

(** ** Constructors *)

Definition checked (f : fty) : bool := match field_kinds f with [] => false | _ => true end.

Definition maker_covers (c : ctor) : bool :=
  let k := maker_of c in
  forallb (fun j => match nth_error (mk_pars k) j with
                    | Some p => negb (refers_par p) || lax c j ||
                        existsb (fun x => match fst x with SArg i => Nat.eqb i j && checked (snd x) && agrees (accepted c j) (snd x) && par_fits p (snd x)
                                                         | _ => false end)
                          (combine (mk_slots k) (fields (mk_kind k)))
                    | None => true
                    end) (seq 0 (length (mk_pars k))).

Lemma makers_cover c : maker_covers c = true.
Proof. destruct c; vm_compute; reflexivity. Qed.

Lemma combine_nth_in {A B} (l : list A) (l' : list B) a b : In (a, b) (combine l l') ->
  exists i, nth_error l i = Some a /\ nth_error l' i = Some b.
Proof.
  revert l'. induction l as [|x l IH]; intros [|y l'] H; try destruct H as [H|H]; try contradiction.
  - injection H as -> ->. exists 0%nat. auto.
  - destruct (IH _ H) as [i Hi]. exists (S i). exact Hi.
Qed.

Lemma Forall2_nth1 {A B} (P : A -> B -> Prop) l l' i a : Forall2 P l l' -> nth_error l i = Some a ->
  exists b, nth_error l' i = Some b /\ P a b.
Proof.
  intro F. revert i. induction F as [|x y l l' H F IH]; intros [|i] E; try discriminate; cbn [nth_error] in *.
  - injection E as <-. eauto.
  - auto.
Qed.

Lemma plain_refers_nothing rs m p a k : arg_ok rs m p a -> refers_par p = false -> ~ refers rs m a k.
Proof.
  intros A R H. destruct p as [t|t|t| | | | | | | | |]; try discriminate; destruct a as [|i|l]; try contradiction; cbn [arg_ok] in A.
  - destruct i; try contradiction. destruct H as [(? & ? & [] & _)|(? & ? & [] & _)].
  - destruct H as [(? & ? & [] & _)|(? & ? & [] & _)].
  - destruct i; try contradiction. destruct H as [(? & ? & [] & _)|(? & ? & [] & _)].
  - rewrite Forall_forall in A. apply refers_item in H as (i & Hi & H). specialize (A i Hi). destruct i; try contradiction.
    destruct H as [(? & ? & [] & _)|(? & ? & [] & _)].
Qed.

Lemma made_refused strict rs c g args m x m' j a k : keeps m m' -> args_ok rs m (mk_pars (maker_of c)) args ->
  made strict rs c g args m x m' -> nth_error args j = Some a -> refers rs m a k -> accepted c j k = false ->
  exists ks n e, checked_ref (Ent (fst x) (snd x)) ks n /\ lookup m' n = Some e /\ ~ permitted ks e.
Proof.
  intros K [L A] (Ek & F & _) Ea Hr Ha.
  assert (Hj : (j < length (mk_pars (maker_of c)))%nat) by (rewrite <- L; apply nth_error_Some; congruence).
  destruct (nth_error (mk_pars (maker_of c)) j) as [p|] eqn:Ep; [|apply nth_error_None in Ep; lia].
  specialize (A j p a Ep Ea). pose proof (makers_cover c) as M. unfold maker_covers in M. rewrite forallb_forall in M.
  assert (Hs : In j (seq 0 (length (mk_pars (maker_of c))))) by (apply in_seq; lia).
  specialize (M j Hs). rewrite Ep in M. pose proof Ha as Ha1. unfold accepted in Ha1. apply orb_false_iff in Ha1 as [Ha1 _].
  apply orb_false_iff in Ha1 as [Ha1 _]. apply orb_false_iff in Ha1 as [_ Ha1]. rewrite Ha1, orb_false_r in M.
  destruct (refers_par p) eqn:Rp; [|exfalso; eapply plain_refers_nothing; eauto]. cbn [negb orb] in M.
  apply existsb_exists in M as ([s f] & Hin & M). cbn [fst snd] in M. destruct s; try discriminate.
  apply andb_true_iff in M as [M Mp]. apply andb_true_iff in M as [M Mg]. apply andb_true_iff in M as [Mi Mc].
  apply PeanoNat.Nat.eqb_eq in Mi. subst i. apply combine_nth_in in Hin as (i & Es & Ef).
  destruct (Forall2_nth1 _ _ _ _ _ F Es) as (v & Ev & (a' & Ea' & V)). rewrite Ea in Ea'. injection Ea' as <-.
  unfold checked in Mc. destruct (field_kinds f) as [|ks kss] eqn:Ek'; [discriminate|].
  assert (Hks : In ks (field_kinds f)) by (rewrite Ek'; now left).
  destruct (arg_points _ _ _ _ _ _ _ _ _ K A V Mp Rp Hks Hr) as (n & e & P & Le & Ke).
  exists ks, n, e. split; [|split; auto].
  - unfold fields in Ef. destruct (row_of (mk_kind (maker_of c))) as [r|] eqn:Er; [|destruct i; discriminate].
    exists (fst x), (snd x), r, i, f, v. rewrite Ek. auto 10.
  - eapply not_accepted; eauto.
    now rewrite Ke.
Qed.

(** ** Setters *)

Definition method_covers (s : setter) : bool :=
  negb (refers_par (me_par (method_of s))) ||
  forallb (fun k => lax_set s k ||
     existsb (fun i => match nth_error (fields k) i with
                       | Some f => checked f && agrees (accepted_set s k) f
                       | None => false
                       end) (targets (me_how (method_of s)))) (me_kinds (method_of s)).

Lemma methods_cover s : method_covers s = true.
Proof. destruct s; vm_compute; reflexivity. Qed.

Lemma put_refused s a rs m m' x y v k : keeps m m' -> In (fst x) (me_kinds (method_of s)) -> wf_ent (fst x) (snd x) ->
  ~ star_at s (snd x) -> fst y = fst x -> arg_ok rs m (me_par (method_of s)) a -> stored rs m m' a v ->
  set_to s v (snd x) (snd y) -> refers rs m a k -> accepted_set s (fst x) k = false ->
  exists ks n e, checked_ref (Ent (fst y) (snd y)) ks n /\ lookup m' n = Some e /\ ~ permitted ks e.
Proof.
  intros K Hk (r & Er & W) St Ey A V [L N] Hr Ha. pose proof (methods_cover s) as M. unfold method_covers in M.
  destruct (refers_par (me_par (method_of s))) eqn:Rp; [|exfalso; eapply plain_refers_nothing; eauto]. cbn [negb orb] in M.
  rewrite forallb_forall in M. specialize (M _ Hk). pose proof Ha as Ha'. unfold accepted_set in Ha'.
  apply orb_false_iff in Ha' as [Ha' _]. apply orb_false_iff in Ha' as [Ha' _]. apply orb_false_iff in Ha' as [_ Ha'].
  rewrite Ha' in M. cbn [orb] in M. apply existsb_exists in M as (i & Hi & M).
  destruct (nth_error (fields (fst x)) i) as [f|] eqn:Ef; [|discriminate]. apply andb_true_iff in M as [Mc Mg].
  rewrite (fields_row _ _ Er) in Ef. pose proof (methods_fit s) as F. unfold method_fits in F. rewrite forallb_forall in F.
  specialize (F _ Hk). rewrite Er in F.
  unfold checked in Mc. destruct (field_kinds f) as [|ks kss] eqn:Ek'; [discriminate|].
  assert (Hks : In ks (field_kinds f)) by (rewrite Ek'; now left). clear Mc Ek'.
  assert (Hlen : (i < length (snd x))%nat).
  { rewrite <- (wts_same_length _ _ W). apply nth_error_Some. congruence. }
  destruct (nth_error (snd x) i) as [o|] eqn:Eo; [|apply nth_error_None in Eo; lia].
  assert (Hp : (forall is, me_how (method_of s) <> Put is) -> (exists os, o = VList os) \/ o = VOmit).
  { intro Hp. eapply push_values; eauto. intros j Ej Es. apply St. exists j. auto. }
  assert (P : exists n e, points f (new_value (me_how (method_of s)) v o) ks n /\ lookup m' n = Some e /\ kind_of e = k).
  { destruct (me_how (method_of s)) as [is|j|j]; cbn [how_fits targets new_value] in *.
    - rewrite forallb_forall in F. specialize (F i Hi). rewrite Ef in F. eapply arg_points; eauto.
    - destruct Hi as [<-|[]]. rewrite Ef in F. destruct f as [| | | | | | | | | | | | | | |g]; try discriminate.
      apply andb_true_iff in F as [_ F]. cbn [field_kinds] in Hks.
      destruct (arg_points _ _ _ _ _ _ _ _ _ K A V F Rp Hks Hr) as (n & e & P & H). exists n, e. split; auto.
      destruct Hp as [[os ->]| ->]; [discriminate| |]; (econstructor; [|exact P]); [apply in_or_app; right|]; now left.
    - destruct Hi as [<-|[]]. rewrite Ef in F. destruct f as [| | | | | | | | | | | | | |f|]; try discriminate.
      destruct f as [| | | | | | | | | | | | | | |g]; try discriminate.
      apply andb_true_iff in F as [_ F]. cbn [field_kinds] in Hks.
      destruct (arg_points _ _ _ _ _ _ _ _ _ K A V F Rp Hks Hr) as (n & e & P & H). exists n, e. split; auto.
      constructor. destruct Hp as [[os ->]| ->]; [discriminate| |]; (econstructor; [|exact P]); [apply in_or_app; right|]; now left. }
  destruct P as (n & e & P & Le & Ke). exists ks, n, e. split; [|split; auto].
  - exists (fst y), (snd y), r, i, f, (new_value (me_how (method_of s)) v o). rewrite Ey. repeat split; auto.
    rewrite N. replace (existsb (Nat.eqb i) (targets (me_how (method_of s)))) with true.
    + rewrite Eo. reflexivity.
    + symmetry. apply existsb_exists. exists i. split; auto. apply PeanoNat.Nat.eqb_refl.
  - eapply not_accepted; eauto. now rewrite Ke.
Qed.

(** ** Saved and loaded *)

Lemma bad_insert v h m x m2 n ks i e : header_ok v h -> sane_map false m -> wf_ent (fst x) (snd x) ->
  sound false m (Ent (fst x) (snd x)) -> insert_new m (Ent (fst x) (snd x)) = Some (m2, n) ->
  checked_ref (Ent (fst x) (snd x)) ks i -> lookup m i = Some e -> ~ permitted ks e ->
  load v (save (mk_ifc h m2)) = Err.
Proof.
  intros H S W So E C L P. rewrite insert_top in E. destruct (N.eqb_spec (top m) max_usize) as [Et|Et]; [discriminate|].
  injection E as <- <-. assert (S2 : sane_map false (m ++ [(top m + 1, Ent (fst x) (snd x))])) by (now apply sane_insert).
  destruct (sane_ifc false v h _ H S2) as (Hx & Hd & _).
  apply (misdirected_refused v (mk_ifc h (m ++ [(top m + 1, Ent (fst x) (snd x))])) Hx); [|exact Hd]. cbn [i_data].
  exists ks, i, e. split; [|split; [now apply keeps_app|exact P]].
  exists (top m + 1), (Ent (fst x) (snd x)). split; auto. apply in_or_app. right. now left.
Qed.

Lemma world_weaken w : world_ok true w -> world_ok false w.
Proof.
  intros [S R]. assert (So : forall m e, sound true m e -> sound false m e).
  { intros m e H ks n C. destruct (H ks n C) as (x & E & _). exists x. split; auto. discriminate. }
  split.
  - destruct S as [S1 S2 S3]. constructor; auto. intros n e E. apply So. eauto.
  - intros r x E. destruct (R r x E). split; auto.
Qed.

Lemma strict_start v h m : ifc_ok v (mk_ifc h m) -> refs_ok m -> world_ok true (mk_world [] m).
Proof. intros Hx Hr. eapply start_ok; eauto. apply refs_ok_iff in Hr. tauto. Qed.

Lemma strict_program v h m xs w os : ifc_ok v (mk_ifc h m) -> refs_ok m -> prog_ok true xs (mk_world [] m) ->
  execs xs (mk_world [] m) = Done (w, os) -> world_ok true w.
Proof.
  intros Hx Hr P E. pose proof (execs_ok true xs _ (strict_start _ _ _ Hx Hr) P) as H. now rewrite E in H.
Qed.

Lemma strict_loads v h w : header_ok v h -> world_ok true w ->
  load v (save (mk_ifc h (w_map w))) = Done (norm_ifc (mk_ifc h (w_map w))).
Proof.
  intros H [S _]. destruct (sane_ifc true v h (w_map w) H S) as (H1 & _ & H3). apply load_saved; auto.
Qed.

Lemma inserted_ok strict w r w' o x : world_ok strict w -> nth_error (w_regs w) r = Some x ->
  exec (SInsert r) w = Done (w', o) -> world_ok strict w' /\ insert_new (w_map w) (Ent (fst x) (snd x)) = Some (w_map w', top (w_map w) + 1).
Proof.
  intros W E X. pose proof (exec_ok strict (SInsert r) w W) as H. rewrite X in H. destruct H as (H & Hr & _ & He); [cbn; eauto|].
  split; auto. cbn [effect] in He. destruct He as (_ & _ & y & Ey & ->). rewrite E in Ey. injection Ey as <-.
  rewrite insert_top. unfold room in Hr. cbn [uses length] in Hr. now replace (top (w_map w) =? max_usize) with false by lia.
Qed.

Lemma new_exact v h m xs w os c g args w1 o1 w2 o2 :
  ifc_ok v (mk_ifc h m) -> refs_ok m -> prog_ok true xs (mk_world [] m) -> execs xs (mk_world [] m) = Done (w, os) ->
  stmt_ok false (SNew c g args) w -> exec (SNew c g args) w = Done (w1, o1) ->
  exec (SInsert (length (w_regs w))) w1 = Done (w2, o2) ->
  ((forall i a k, nth_error args i = Some a -> refers (w_regs w) (w_map w) a k -> accepted c i k = true) ->
   load v (save (mk_ifc h (w_map w2))) = Done (norm_ifc (mk_ifc h (w_map w2)))) /\
  (forall i a k, nth_error args i = Some a -> refers (w_regs w) (w_map w) a k -> accepted c i k = false ->
   load v (save (mk_ifc h (w_map w2))) = Err).
Proof.
  intros Hx Hr P E Hs X1 X2. pose proof (strict_program _ _ _ _ _ _ Hx Hr P E) as W. split.
  - intro H. assert (Hs' : stmt_ok true (SNew c g args) w) by (cbn [stmt_ok] in *; tauto).
    pose proof (exec_ok true _ w W Hs') as H1. rewrite X1 in H1. destruct H1 as (W1 & _ & _ & (_ & _ & y & Ey & _)).
    apply strict_loads; [apply Hx|]. apply (inserted_ok true w1 (length (w_regs w)) w2 o2 y W1); auto. rewrite Ey, nth_error_app2 by auto.
    now rewrite PeanoNat.Nat.sub_diag.
  - intros i a k Ea Rf Ha. apply world_weaken in W. destruct W as [S R].
    pose proof Hs as (G & A & _).
    pose proof (construct_ok false c g args (w_regs w) (w_map w) S R G A ltac:(discriminate)) as C.
    cbn [exec] in X1. destruct (construct c g args (w_regs w) (w_map w)) as [[y m']| |]; try discriminate.
    cbn [obind fst snd stores] in *. injection X1 as <- <-. destruct C as (C1 & C2 & C3 & C4).
    assert (K : keeps (w_map w) m') by (rewrite C3; apply keeps_app).
    destruct (made_refused _ _ _ _ _ _ _ _ _ _ _ K A C4 Ea Rf Ha) as (ks & n & e & Hc & Le & Np).
    pose proof C4 as (_ & _ & Wy & Sy).
    assert (W1 : world_ok false (mk_world (w_regs w ++ [y]) m')).
    { split; [exact C2|]. cbn [w_regs w_map]. apply regs_app; auto. eapply regs_keeps; [exact K|exact R]. }
    assert (En : nth_error (w_regs (mk_world (w_regs w ++ [y]) m')) (length (w_regs w)) = Some y).
    { cbn [w_regs]. rewrite nth_error_app2 by auto. now rewrite PeanoNat.Nat.sub_diag. }
    destruct (inserted_ok false _ _ _ _ _ W1 En X2) as [_ I]. cbn [w_map] in I.
    eapply bad_insert; eauto. apply Hx.
Qed.

Lemma set_exact v h m xs w os r s a x w1 o1 w2 o2 :
  ifc_ok v (mk_ifc h m) -> refs_ok m -> prog_ok true xs (mk_world [] m) -> execs xs (mk_world [] m) = Done (w, os) ->
  stmt_ok false (SSet r s a) w -> nth_error (w_regs w) r = Some x -> exec (SSet r s a) w = Done (w1, o1) ->
  exec (SInsert r) w1 = Done (w2, o2) ->
  ((forall k, refers (w_regs w) (w_map w) a k -> accepted_set s (fst x) k = true) ->
   load v (save (mk_ifc h (w_map w2))) = Done (norm_ifc (mk_ifc h (w_map w2)))) /\
  (forall k, refers (w_regs w) (w_map w) a k -> accepted_set s (fst x) k = false ->
   load v (save (mk_ifc h (w_map w2))) = Err).
Proof.
  intros Hx Hr P E Hs Ex X1 X2. pose proof (strict_program _ _ _ _ _ _ Hx Hr P E) as W.
  pose proof Hs as (x' & Ex' & Hk & A & _). rewrite Ex in Ex'. injection Ex' as <-. split.
  - intro H. assert (Hs' : stmt_ok true (SSet r s a) w) by (cbn [stmt_ok]; exists x; auto).
    pose proof (exec_ok true _ w W Hs') as H1. rewrite X1 in H1. destruct H1 as (W1 & _ & _ & He).
    cbn [effect] in He. destruct He as (_ & _ & _ & _ & _ & y & _ & Ey & _).
    apply strict_loads; [apply Hx|]. now apply (inserted_ok true w1 r w2 o2 y W1).
  - intros k Rf Ha. apply world_weaken in W. destruct W as [S R]. destruct (R r x Ex) as [Wx Sx].
    pose proof (modify_ok false s a (w_regs w) x (w_map w) S R Wx Sx Hk A ltac:(discriminate)) as M.
    cbn [exec] in X1. rewrite Ex in X1. cbn [err obind] in X1.
    destruct (modify s a (w_regs w) x (w_map w)) as [[y m']| |]; try discriminate.
    cbn [obind fst snd] in *. injection X1 as <- <-. destruct M as (M1 & M2 & M3 & M4 & M5 & M6 & M7 & u & M8 & M9).
    assert (K : keeps (w_map w) m') by (rewrite M4; apply keeps_app).
    destruct (put_refused _ _ _ _ _ _ _ _ _ K Hk Wx M2 M5 A M8 M9 Rf Ha) as (ks & n & e & Hc & Le & Np).
    assert (Hl : (r < length (w_regs w))%nat) by (apply nth_error_Some; congruence).
    assert (W1 : world_ok false (mk_world (set_nth r y (w_regs w)) m')).
    { split; [exact M3|]. cbn [w_regs w_map]. apply regs_set; auto. eapply regs_keeps; [exact K|exact R]. }
    assert (En : nth_error (w_regs (mk_world (set_nth r y (w_regs w)) m')) r = Some y).
    { cbn [w_regs]. rewrite nth_set_nth by auto. now rewrite PeanoNat.Nat.eqb_refl. }
    destruct (inserted_ok false _ _ _ _ _ W1 En X2) as [_ I]. cbn [w_map] in I.
    eapply bad_insert; eauto. apply Hx.
Qed.

(** ** The order of setters *)

Lemma set_nth_other {A} i j (a : A) l : i <> j -> nth_error (set_nth i a l) j = nth_error l j.
Proof.
  revert i j. induction l as [|x l IH]; intros i j H; [now destruct i|].
  destruct i as [|i], j as [|j]; cbn [set_nth nth_error]; auto. now destruct H.
Qed.

Lemma set_nth_same {A} i (a : A) l : nth_error (set_nth i a l) i = option_map (fun _ => a) (nth_error l i).
Proof. revert i. induction l as [|x l IH]; intros [|i]; cbn [set_nth nth_error option_map]; auto. Qed.

Lemma set_nth_comm {A} i j (a b : A) l : i <> j -> set_nth i a (set_nth j b l) = set_nth j b (set_nth i a l).
Proof.
  revert i j. induction l as [|x l IH]; intros i j H; [now destruct i, j|].
  destruct i as [|i], j as [|j]; cbn [set_nth]; auto; [now destruct H|]. f_equal. auto.
Qed.

Lemma set_nth_twice {A} i (a b : A) l : set_nth i a (set_nth i b l) = set_nth i a l.
Proof. revert i. induction l as [|x l IH]; intros [|i]; cbn [set_nth]; auto. f_equal. auto. Qed.

Lemma set_nth_id {A} i (a : A) l : nth_error l i = Some a -> set_nth i a l = l.
Proof.
  revert i. induction l as [|x l IH]; intros [|i] H; cbn [set_nth nth_error] in *; try discriminate.
  - injection H as ->. reflexivity.
  - f_equal. auto.
Qed.

Notation put_all v is l := (fold_left (fun l0 i0 => set_nth i0 v l0) is l).

Lemma put_all_other (v : val) is : forall l i, ~ In i is -> nth_error (put_all v is l) i = nth_error l i.
Proof.
  induction is as [|j is IH]; intros l i H; cbn [fold_left]; auto. rewrite IH by (intro; apply H; now right).
  apply set_nth_other. intros ->. apply H. now left.
Qed.

Lemma put_all_set (v x : val) is : forall l i, ~ In i is -> set_nth i x (put_all v is l) = put_all v is (set_nth i x l).
Proof.
  induction is as [|j is IH]; intros l i H; cbn [fold_left]; auto. rewrite IH by (intro; apply H; now right).
  rewrite set_nth_comm; auto. intros ->. apply H. now left.
Qed.

Lemma put_all_comm (v v' : val) is is' : (forall i, In i is -> ~ In i is') ->
  forall l, put_all v' is' (put_all v is l) = put_all v is (put_all v' is' l).
Proof.
  revert is. induction is' as [|j is' IH]; intros is H l; cbn [fold_left]; auto.
  rewrite put_all_set by (intro Hj; apply (H j Hj); now left). apply IH. intros i Hi Hi'. apply (H i Hi). now right.
Qed.

Lemma put_all_twice (v v' : val) is : forall l, put_all v is (put_all v' is l) = put_all v is l.
Proof.
  intro l. assert (N : forall (w : val) (l : list val) j, nth_error (put_all w is l) j =
                         if in_dec PeanoNat.Nat.eq_dec j is then option_map (fun _ => w) (nth_error l j) else nth_error l j).
  { clear. intros w. induction is as [|i is IH]; intros l j; cbn [fold_left]; auto. rewrite IH.
    destruct (in_dec PeanoNat.Nat.eq_dec j is) as [H|H], (in_dec PeanoNat.Nat.eq_dec j (i :: is)) as [H'|H'].
    - destruct (PeanoNat.Nat.eq_dec i j) as [->|D]; [rewrite set_nth_same|rewrite set_nth_other by auto]; auto.
      now destruct (nth_error l j).
    - exfalso. apply H'. now right.
    - destruct H' as [->|H']; [|contradiction]. apply set_nth_same.
    - apply set_nth_other. intros ->. apply H'. now left. }
  assert (X : forall (a b : list val), (forall j, nth_error a j = nth_error b j) -> a = b).
  { clear. induction a as [|x a IH]; intros [|y b] H; auto; try (specialize (H 0%nat); discriminate).
    f_equal; [specialize (H 0%nat); now injection H|]. apply IH. intro j. exact (H (S j)). }
  apply X. intro j. rewrite !N. destruct (in_dec PeanoNat.Nat.eq_dec j is); auto. now destruct (nth_error l j).
Qed.

Lemma put_comm h h' v v' l : (forall i, In i (targets h) -> ~ In i (targets h')) ->
  put_value h v l <> Err -> put_value h' v' l <> Err ->
  obind (put_value h v l) (put_value h' v') = obind (put_value h' v' l) (put_value h v).
Proof.
  intros D N N'.
  assert (Pp : forall is (u u' : val) i h0, ~ In i is -> (h0 = Push i \/ h0 = PushOpt i) ->
    obind (put_value (Put is) u l) (put_value h0 u') = obind (put_value h0 u' l) (put_value (Put is) u)).
  { intros is u u' i h0 Hi Eh. cbn [put_value obind].
    destruct Eh as [->| ->]; cbn [put_value]; rewrite put_all_other by auto; destruct (nth_error l i) as [o|]; cbn [err obind]; auto;
      match goal with |- context [appended ?h u' o] => destruct (appended h u' o) end; cbn [obind]; auto; now rewrite put_all_set. }
  destruct h as [is|i|i], h' as [is'|i'|i']; cbn [targets] in D.
  - cbn [put_value obind]. f_equal. now apply put_all_comm.
  - apply (Pp is v v' i'); auto. intro H. apply (D _ H). now left.
  - apply (Pp is v v' i'); auto. intro H. apply (D _ H). now left.
  - symmetry. apply (Pp is' v' v i); auto. apply D. now left.
  - assert (i <> i') by (intros ->; apply (D i'); now left). cbn [put_value] in *.
    destruct (nth_error l i) as [o|] eqn:E; [|now destruct N]. destruct (nth_error l i') as [o'|] eqn:E'; [|now destruct N'].
    cbn [err obind] in *. destruct (appended (Push i) v o) eqn:A; try (now destruct N); destruct (appended (Push i') v' o') eqn:A';
      try (now destruct N'); cbn [obind put_value]; rewrite ?set_nth_other, ?E, ?E' by auto; cbn [err obind]; rewrite ?A, ?A'; cbn [obind];
      first [reflexivity|rewrite set_nth_comm by auto; reflexivity].
  - assert (i <> i') by (intros ->; apply (D i'); now left). cbn [put_value] in *.
    destruct (nth_error l i) as [o|] eqn:E; [|now destruct N]. destruct (nth_error l i') as [o'|] eqn:E'; [|now destruct N'].
    cbn [err obind] in *. destruct (appended (Push i) v o) eqn:A; try (now destruct N); destruct (appended (PushOpt i') v' o') eqn:A';
      try (now destruct N'); cbn [obind put_value]; rewrite ?set_nth_other, ?E, ?E' by auto; cbn [err obind]; rewrite ?A, ?A'; cbn [obind];
      first [reflexivity|rewrite set_nth_comm by auto; reflexivity].
  - symmetry. apply (Pp is' v' v i); auto. apply D. now left.
  - assert (i <> i') by (intros ->; apply (D i'); now left). cbn [put_value] in *.
    destruct (nth_error l i) as [o|] eqn:E; [|now destruct N]. destruct (nth_error l i') as [o'|] eqn:E'; [|now destruct N'].
    cbn [err obind] in *. destruct (appended (PushOpt i) v o) eqn:A; try (now destruct N); destruct (appended (Push i') v' o') eqn:A';
      try (now destruct N'); cbn [obind put_value]; rewrite ?set_nth_other, ?E, ?E' by auto; cbn [err obind]; rewrite ?A, ?A'; cbn [obind];
      first [reflexivity|rewrite set_nth_comm by auto; reflexivity].
  - assert (i <> i') by (intros ->; apply (D i'); now left). cbn [put_value] in *.
    destruct (nth_error l i) as [o|] eqn:E; [|now destruct N]. destruct (nth_error l i') as [o'|] eqn:E'; [|now destruct N'].
    cbn [err obind] in *. destruct (appended (PushOpt i) v o) eqn:A; try (now destruct N); destruct (appended (PushOpt i') v' o') eqn:A';
      try (now destruct N'); cbn [obind put_value]; rewrite ?set_nth_other, ?E, ?E' by auto; cbn [err obind]; rewrite ?A, ?A'; cbn [obind];
      first [reflexivity|rewrite set_nth_comm by auto; reflexivity].
Qed.

(** Without objects the argument does not change the model. *)
Lemma store_plain a : arg_regs a = [] -> exists v, forall rs m, store rs m a = Done (v, m).
Proof.
  assert (I : forall i, item_regs i = [] -> exists v, forall rs m, store_item rs m i = Done (v, m)).
  { intros [v|n|r] H; try discriminate; eexists; intros; reflexivity. }
  destruct a as [|i|l]; cbn [arg_regs store]; intro H.
  - eexists. reflexivity.
  - auto.
  - assert (exists vs, forall rs m, store_items rs m l = Done (vs, m)) as [vs Hv].
    { induction l as [|i l IH]; [eexists; reflexivity|]. cbn [flat_map] in H. apply app_eq_nil in H as [H1 H2].
      destruct (I i H1) as [v Hv]. destruct (IH H2) as [vs Hvs]. exists (v :: vs). intros rs m. cbn [store_items].
      rewrite Hv. cbn [obind fst snd]. now rewrite Hvs. }
    exists (VList vs). intros rs m. now rewrite Hv.
Qed.

Lemma store_ext rs rs' a : (forall r, In r (arg_regs a) -> nth_error rs r = nth_error rs' r) ->
  forall m, store rs m a = store rs' m a.
Proof.
  assert (I : forall i, (forall r, In r (item_regs i) -> nth_error rs r = nth_error rs' r) ->
                forall m, store_item rs m i = store_item rs' m i).
  { intros [v|n|r] H m; cbn [store_item]; auto. rewrite (H r); auto. now left. }
  destruct a as [|i|l]; cbn [arg_regs store]; intros H m; auto. f_equal.
  revert m. induction l as [|i l IH]; intro m; cbn [store_items]; auto. cbn [flat_map] in H.
  rewrite (I i) by (intros r Hr; apply H, in_or_app; now left). destruct (store_item rs' m i) as [[u m1]| |]; cbn [obind fst snd]; auto.
  rewrite IH; auto. intros r Hr. apply H, in_or_app. now right.
Qed.

Lemma set_comm r s a r' s' a' w : world_ok false w -> stmt_ok false (SSet r s a) w -> stmt_ok false (SSet r' s' a') w ->
  arg_regs a = [] -> arg_regs a' = [] ->
  r <> r' \/ (forall n, In n (setter_attrs s) -> ~ In n (setter_attrs s')) ->
  execs [SSet r s a; SSet r' s' a'] w = execs [SSet r' s' a'; SSet r s a] w.
Proof.
  intros W H H' Ha Ha' D. destruct (store_plain a Ha) as [v Hv]. destruct (store_plain a' Ha') as [v' Hv'].
  destruct W as [S R].
  assert (NE : forall r s a v, stmt_ok false (SSet r s a) w -> (forall rs m, store rs m a = Done (v, m)) ->
    exists x, nth_error (w_regs w) r = Some x /\ In (fst x) (me_kinds (method_of s)) /\
      put_value (me_how (method_of s)) v (snd x) <> Err).
  { clear - S R. intros r s a v (x & Ex & Hk & A & _) Hv. exists x. split; auto. split; auto. intro Ee.
    destruct (R r x Ex) as [Wx Sx].
    pose proof (modify_ok false s a (w_regs w) x (w_map w) S R Wx Sx Hk A ltac:(discriminate)) as M. unfold modify in M.
    rewrite Hv in M. cbn [obind fst snd] in M. rewrite Ee in M. exact M. }
  destruct (NE _ _ _ _ H Hv) as (x & Ex & Hk & N). destruct (NE _ _ _ _ H' Hv') as (x' & Ex' & Hk' & N'). clear NE H H'.
  cbn [execs exec]. rewrite Ex, Ex'. cbn [err obind]. unfold modify. rewrite Hv, Hv'. cbn [obind fst snd].
  destruct (PeanoNat.Nat.eq_dec r r') as [<-|Dr].
  - rewrite Ex in Ex'. injection Ex' as <-. destruct D as [D|D]; [now destruct D|].
    assert (Dt : forall i, In i (targets (me_how (method_of s))) -> ~ In i (targets (me_how (method_of s')))).
    { intros i Hi Hi'. pose proof (targets_named s) as T. unfold names_targets in T. rewrite forallb_forall in T.
      specialize (T _ Hk). apply andb_true_iff in T as [T _].
      assert (E : map (fun n => index n (attr_names (fst x))) (setter_attrs s) = map Some (targets (me_how (method_of s)))).
      { eapply list_eqb_eq; [|exact T]. intros [p|] [q|] Hpq; try discriminate. f_equal. lia. }
      apply (in_map Some) in Hi. rewrite <- E in Hi. apply in_map_iff in Hi as (n & En & Hn).
      apply (D n Hn). apply (target_named _ _ _ _ Hk' En). apply existsb_exists. exists i. split; auto. apply PeanoNat.Nat.eqb_refl. }
    pose proof (put_comm _ _ v v' (snd x) Dt N N') as C.
    assert (Hl : (r < length (w_regs w))%nat) by (apply nth_error_Some; congruence).
    destruct (put_value (me_how (method_of s)) v (snd x)) as [l1| |]; [|now destruct N|];
      destruct (put_value (me_how (method_of s')) v' (snd x)) as [l2| |]; try (now destruct N'); cbn [obind fst snd w_regs w_map] in *;
      rewrite ?nth_set_nth, ?PeanoNat.Nat.eqb_refl by auto; cbn [err obind fst snd]; rewrite ?Hv, ?Hv'; cbn [obind fst snd].
    + rewrite C. destruct (put_value (me_how (method_of s)) v l2) as [l3| |]; cbn [obind fst snd]; auto.
      now rewrite !set_nth_twice.
    + rewrite C. reflexivity.
    + rewrite <- C. reflexivity.
    + reflexivity.
  - destruct (put_value (me_how (method_of s)) v (snd x)) as [l1| |] eqn:P1; [|now destruct N|];
      destruct (put_value (me_how (method_of s')) v' (snd x')) as [l2| |] eqn:P2; try (now destruct N'); cbn [obind fst snd w_regs w_map] in *;
      rewrite ?set_nth_other, ?Ex, ?Ex' by auto; cbn [err obind fst snd]; rewrite ?Hv, ?Hv'; cbn [obind fst snd];
      rewrite ?P1, ?P2; cbn [obind fst snd]; auto.
    rewrite set_nth_comm by auto. reflexivity.
Qed.

(** The last call of a setter counts. *)
Lemma set_last r s a b w : stmt_ok false (SSet r s a) w -> ~ In s appenders -> arg_regs a = [] -> ~ In r (arg_regs b) ->
  obind (execs [SSet r s a; SSet r s b] w) (fun y => Done (fst y)) = obind (execs [SSet r s b] w) (fun y => Done (fst y)).
Proof.
  intros (x & Ex & Hk & A & _) Na Ha Hb. destruct (store_plain a Ha) as [v Hv]. cbn [execs exec]. rewrite Ex. cbn [err obind].
  unfold modify. rewrite Hv. cbn [obind fst snd]. pose proof (appenders_how s) as Hh.
  destruct (me_how (method_of s)) as [is|i|i] eqn:Eh; [|now destruct Na|now destruct Na]. cbn [put_value obind fst snd w_regs w_map].
  assert (Hl : (r < length (w_regs w))%nat) by (apply nth_error_Some; congruence).
  rewrite nth_set_nth, PeanoNat.Nat.eqb_refl by auto. cbn [err obind fst snd].
  rewrite (store_ext _ (w_regs w) b).
  2:{ intros q Hq. apply set_nth_other. intros ->. contradiction. }
  destruct (store (w_regs w) (w_map w) b) as [[u m']| |]; cbn [obind fst snd]; auto.
  now rewrite put_all_twice, set_nth_twice.
Qed.

(** ** After a program *)

Lemma program_world v h m xs w os : ifc_ok v (mk_ifc h m) -> ~ dangling m -> prog_ok false xs (mk_world [] m) ->
  execs xs (mk_world [] m) = Done (w, os) -> world_ok false w.
Proof.
  intros Hx Hd P E. assert (W : world_ok false (mk_world [] m)) by (eapply start_ok; eauto; discriminate).
  pose proof (execs_ok false xs _ W P) as H. now rewrite E in H.
Qed.

Lemma program_effect v h m xs w os x : ifc_ok v (mk_ifc h m) -> ~ dangling m -> prog_ok false xs (mk_world [] m) ->
  execs xs (mk_world [] m) = Done (w, os) -> stmt_ok false x w ->
  (exec x w <> Err) /\
  (exec x w = Panic <-> ~ room (w_map w) (length (uses x)) \/ starred x w) /\
  (forall w' o, exec x w = Done (w', o) -> effect x w w' o).
Proof.
  intros Hx Hd P E Hs. pose proof (exec_ok false x w (program_world _ _ _ _ _ _ Hx Hd P E) Hs) as H.
  destruct (exec x w) as [[w1 o1]| |].
  - destruct H as (_ & H1 & H2 & H3). split; [discriminate|]. split.
    + split; [discriminate|]. intros [H|H]; contradiction.
    + intros w' o Ed. injection Ed as <- <-. exact H3.
  - contradiction.
  - split; [discriminate|]. split; [tauto|]. discriminate.
Qed.

Lemma program_comm v h m xs w os r s a r' s' a' : ifc_ok v (mk_ifc h m) -> ~ dangling m ->
  prog_ok false xs (mk_world [] m) -> execs xs (mk_world [] m) = Done (w, os) ->
  stmt_ok false (SSet r s a) w -> stmt_ok false (SSet r' s' a') w -> arg_regs a = [] -> arg_regs a' = [] ->
  r <> r' \/ (forall n, In n (setter_attrs s) -> ~ In n (setter_attrs s')) ->
  execs (xs ++ [SSet r s a; SSet r' s' a']) (mk_world [] m) = execs (xs ++ [SSet r' s' a'; SSet r s a]) (mk_world [] m).
Proof.
  intros Hx Hd P E H1 H2 A1 A2 D. rewrite !execs_app, E. cbn [obind fst snd].
  now rewrite (set_comm r s a r' s' a' w (program_world _ _ _ _ _ _ Hx Hd P E) H1 H2 A1 A2 D).
Qed.

Lemma program_last m xs w os r s a b : execs xs (mk_world [] m) = Done (w, os) ->
  stmt_ok false (SSet r s a) w -> ~ In s appenders -> arg_regs a = [] -> ~ In r (arg_regs b) ->
  obind (execs (xs ++ [SSet r s a; SSet r s b]) (mk_world [] m)) (fun y => Done (fst y)) =
  obind (execs (xs ++ [SSet r s b]) (mk_world [] m)) (fun y => Done (fst y)).
Proof.
  intros E H1 H2 H3 H4. rewrite !execs_app, E. cbn [obind fst snd]. pose proof (set_last r s a b w H1 H2 H3 H4) as L.
  destruct (execs [SSet r s a; SSet r s b] w) as [[? ?]| |], (execs [SSet r s b] w) as [[? ?]| |]; cbn [obind fst snd] in *;
    try discriminate; auto.
Qed.
