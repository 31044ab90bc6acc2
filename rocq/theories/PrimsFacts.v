(** Facts about the primitive parsers of Prims.v. *)

From Coq Require Import String Ascii List NArith ZArith Bool Lia Arith.
From Coq Require Import ZifyBool ZifyN ZifyNat.
From Verif Require Import Base BaseFacts Spec Prims.
Import ListNotations.
Open Scope N_scope.

Ltac Zify.zify_post_hook ::= Z.div_mod_to_equations.

(** ** Gaps *)

Lemma is_space_blank c : is_space c = true <-> blank c.
Proof.
  unfold is_space, blank. rewrite !orb_true_iff, !N.eqb_eq. tauto.
Qed.

Lemma is_space_false c : is_space c = false <-> ~ blank c.
Proof.
  rewrite <- is_space_blank. destruct (is_space c); split; congruence.
Qed.

Lemma suffixing_comment : suffixing p_comment.
Proof.
  apply suffixing_bind. apply suffixing_tag. intros _.
  apply suffixing_pmap, suffixing_repeat_till. apply suffixing_any. apply suffixing_tag.
Qed.

Lemma consuming_comment : consuming p_comment.
Proof.
  apply consuming_bind_l. apply consuming_tag. intros _.
  apply suffixing_shrinking, suffixing_pmap, suffixing_repeat_till.
  apply suffixing_any. apply suffixing_tag.
Qed.

Lemma suffixing_single : suffixing p_single_space_or_comment.
Proof.
  apply suffixing_alt. apply suffixing_pmap, suffixing_take_while1.
  apply suffixing_comment.
Qed.

Lemma consuming_take_while1 f : consuming (take_while1 f).
Proof.
  intros s a r. unfold take_while1. destruct (span f s) as [x y] eqn:E.
  destruct x; try discriminate. intro H; inversion H; subst.
  apply span_spec in E as (-> & _). simpl. rewrite app_length. lia.
Qed.

Lemma consuming_single : consuming p_single_space_or_comment.
Proof.
  apply consuming_alt. apply consuming_pmap, consuming_take_while1.
  apply consuming_comment.
Qed.

(** The end mark is found at its first occurrence. *)
Lemma until_mark body r :
  ~ occurs (lit "*/") (body ++ lit "*") ->
  repeat_till any (tag (lit "*/")) (body ++ lit "*/" ++ r) = ROk (body, tt) r.
Proof.
  induction body as [|c body IH]; intros H.
  - rewrite repeat_till_eq by apply consuming_any. cbn [app].
    change (lit "*/" ++ r) with (lit "*/" ++ r). now rewrite tag_app.
  - rewrite repeat_till_eq by apply consuming_any.
    assert (Hb : tag (lit "*/") ((c :: body) ++ lit "*/" ++ r) = RBack).
    { apply tag_back. intros [x Hx]. apply H.
      change (lit "*/") with [42; 47] in *. change (lit "*") with [42] in *.
      cbn [app] in Hx. injection Hx as -> Hx.
      destruct body as [|d body]; cbn [app] in Hx.
      - injection Hx as Hx _. discriminate.
      - injection Hx as -> Hx. exists [], (body ++ [42]). reflexivity. }
    rewrite Hb. cbn [app any]. rewrite IH; [reflexivity|].
    intros (a & b & E). apply H. exists (c :: a), b. cbn [app]. now rewrite E.
Qed.

Lemma until_mark_inv s l u r :
  repeat_till any (tag (lit "*/")) s = ROk (l, u) r ->
  s = l ++ lit "*/" ++ r /\ ~ occurs (lit "*/") (l ++ lit "*").
Proof.
  revert l u r. induction s as [|c s IH]; intros l u r H;
    rewrite repeat_till_eq in H by apply consuming_any.
  - discriminate.
  - destruct (tag_cases (lit "*/") (c :: s)) as [(x & Hx & Ht) | Ht]; rewrite Ht in H.
    + inversion H; subst. split; auto. intros (a & b & E). cbn [app] in E.
      change (lit "*/") with [42; 47] in E. change (lit "*") with [42] in E.
      destruct a as [|x [|y a]]; cbn [app] in E; try discriminate;
        injection E as _ E; try discriminate.
    + cbn [any] in H.
      destruct (repeat_till any (tag (lit "*/")) s) as [[l' b'] r'| | |] eqn:E;
        try discriminate.
      inversion H; subst. destruct (IH _ _ _ eq_refl) as [-> Hn]. split; auto.
      intros (a & b & E'). destruct a as [|y a].
      * apply tag_back in Ht. apply Ht. cbn [app] in E'.
        change (lit "*/") with [42; 47] in *. change (lit "*") with [42] in *.
        cbn [app] in E'. injection E' as -> E'.
        destruct l' as [|d l']; cbn [app] in E' |- *.
        -- discriminate.
        -- injection E' as -> E'. eexists. reflexivity.
      * cbn [app] in E'. injection E' as -> E'. apply Hn. now exists a, b.
Qed.

(** A comment is recognised exactly when its end mark exists. *)
Lemma comment_ok body r :
  ~ occurs (lit "*/") (body ++ lit "*") ->
  p_comment (lit "/*" ++ body ++ lit "*/" ++ r) = ROk tt r.
Proof.
  intro H. unfold p_comment, bind. rewrite tag_app. unfold pmap.
  now rewrite until_mark.
Qed.

Lemma comment_inv s u r :
  p_comment s = ROk u r ->
  exists body, s = lit "/*" ++ body ++ lit "*/" ++ r /\
               ~ occurs (lit "*/") (body ++ lit "*").
Proof.
  unfold p_comment, bind. destruct (tag (lit "/*") s) as [u0 r0| | |] eqn:E; try discriminate.
  apply tag_ok in E. subst. unfold pmap.
  destruct (repeat_till any (tag (lit "*/")) r0) as [[l b] r'| | |] eqn:E; try discriminate.
  intro H; inversion H; subst. apply until_mark_inv in E as [-> Hn]. eauto.
Qed.

(** A text containing the end mark has a first occurrence of it. *)
Lemma first_mark body r :
  exists body' r', body ++ lit "*/" ++ r = body' ++ lit "*/" ++ r' /\
                   ~ occurs (lit "*/") (body' ++ lit "*").
Proof.
  induction body as [|c body IH].
  - exists [], r. split; auto. intros (a & b & E).
    change (lit "*/") with [42; 47] in E. change (lit "*") with [42] in E.
    destruct a as [|x [|y a]]; cbn [app] in E; try discriminate;
      injection E as _ E; try discriminate.
  - destruct IH as (b' & r' & E & Hn).
    destruct (tag_cases (lit "*/") ((c :: body) ++ lit "*/" ++ r)) as [(x & Hx & _) | Ht].
    + exists [], x. split; auto. intros (a & b & E').
      change (lit "*/") with [42; 47] in E'. change (lit "*") with [42] in E'.
      destruct a as [|y [|z a]]; cbn [app] in E'; try discriminate;
        injection E' as _ E'; try discriminate.
    + exists (c :: b'), r'. split. { cbn [app]. now rewrite E. }
      intros (a & b & E'). destruct a as [|y a].
      * apply tag_back in Ht. apply Ht. cbn [app] in E'.
        change ((c :: body) ++ lit "*/" ++ r) with (c :: (body ++ lit "*/" ++ r)).
        rewrite E. clear E.
        change (lit "*/") with [42; 47] in *. change (lit "*") with [42] in *.
        cbn [app] in E'. injection E' as -> E'.
        destruct b' as [|d b']; cbn [app] in E' |- *.
        -- discriminate.
        -- injection E' as -> E'. eexists. reflexivity.
      * cbn [app] in E'. injection E' as -> E'. apply Hn. now exists a, b.
Qed.

Lemma repeat_till_any_noncut s :
  forall e, repeat_till any (tag (lit "*/")) s = e -> e <> RCut /\ e <> RPanic.
Proof.
  induction s as [|c s IH]; intros e H; rewrite repeat_till_eq in H by apply consuming_any.
  - subst. split; discriminate.
  - destruct (tag_cases (lit "*/") (c :: s)) as [(x & _ & Ht) | Ht]; rewrite Ht in H.
    + subst; split; discriminate.
    + cbn [any] in H. destruct (IH _ eq_refl) as [H1 H2].
      destruct (repeat_till any (tag (lit "*/")) s) as [[l b] r| | |]; subst; split; congruence.
Qed.

(** [no_gap] is exactly where the gap parser makes no further step. *)
Lemma single_cases s :
  (exists r, p_single_space_or_comment s = ROk tt r) \/
  p_single_space_or_comment s = RBack.
Proof.
  unfold p_single_space_or_comment, alt, pmap.
  unfold take_while1. destruct (span is_space s) as [[|x a] b]; eauto.
  unfold p_comment, bind, pmap. destruct (tag_cases (lit "/*") s) as [(x & _ & ->) | ->]; auto.
  destruct (repeat_till any (tag (lit "*/")) x) as [[l u] r| | |] eqn:E; eauto;
    apply repeat_till_any_noncut in E; tauto.
Qed.

Lemma single_back s : p_single_space_or_comment s = RBack <-> no_gap s.
Proof.
  split.
  - intro H. unfold no_gap. destruct s as [|c s]; auto.
    unfold p_single_space_or_comment, alt, pmap, take_while1 in H. cbn [span] in H.
    destruct (is_space c) eqn:Ec.
    { destruct (span is_space s); discriminate. }
    apply is_space_false in Ec. split; auto.
    intros (body & r & E). destruct (first_mark body r) as (b' & r' & E' & Hn).
    rewrite E' in E. rewrite E in H. rewrite comment_ok in H by auto. discriminate.
  - intro H. destruct (single_cases s) as [[r Hr] | ]; auto. exfalso.
    unfold p_single_space_or_comment, alt, pmap, take_while1 in Hr.
    destruct s as [|c s].
    { cbn [span] in Hr. discriminate. }
    destruct H as [Hc Hn]. apply is_space_false in Hc.
    cbn [span] in Hr. rewrite Hc in Hr.
    apply comment_inv in Hr as (body & E & _). apply Hn. eauto.
Qed.

Definition p_ws := p_space_or_comment.

Lemma ws_eq s :
  p_space_or_comment s =
  match p_single_space_or_comment s with
  | ROk _ r => p_space_or_comment r
  | _ => ROk tt s
  end.
Proof.
  unfold p_space_or_comment at 1, pmap. rewrite repeat_till_eq by apply consuming_single.
  unfold peek, pnot.
  destruct (single_cases s) as [[r Hr] | Hb].
  - rewrite Hr. unfold p_space_or_comment, pmap.
    destruct (repeat_till _ _ r) as [[l b] r'| | |]; auto.
  - now rewrite Hb.
Qed.

Lemma ws_no_gap s : no_gap s -> p_space_or_comment s = ROk tt s.
Proof. intro H. rewrite ws_eq. apply single_back in H. now rewrite H. Qed.

Lemma span_space_cons c s a b :
  is_space c = true -> span is_space s = (a, b) -> span is_space (c :: s) = (c :: a, b).
Proof. intros Hc E. simpl. now rewrite Hc, E. Qed.

Lemma ws_blank c s : blank c -> p_space_or_comment (c :: s) = p_space_or_comment s.
Proof.
  intro Hc. apply is_space_blank in Hc.
  destruct (span is_space s) as [a b] eqn:E.
  rewrite ws_eq. unfold p_single_space_or_comment, alt, pmap, take_while1.
  rewrite (span_space_cons c s a b Hc E).
  destruct a as [|x a].
  - apply span_spec in E as (E & _). cbn [app] in E. now subst.
  - symmetry. rewrite ws_eq. unfold p_single_space_or_comment, alt, pmap, take_while1.
    now rewrite E.
Qed.

Lemma ws_comment body s :
  ~ occurs (lit "*/") (body ++ lit "*") ->
  p_space_or_comment (lit "/*" ++ body ++ lit "*/" ++ s) = p_space_or_comment s.
Proof.
  intro H. rewrite ws_eq. unfold p_single_space_or_comment, alt, pmap at 1, take_while1.
  replace (span is_space (lit "/*" ++ body ++ lit "*/" ++ s))
    with (@nil N, lit "/*" ++ body ++ lit "*/" ++ s) by reflexivity.
  now rewrite comment_ok.
Qed.

(** Gaps are skipped. *)
Lemma ws_gap g s : gap g -> p_space_or_comment (g ++ s) = p_space_or_comment s.
Proof.
  induction 1 as [|c g Hc _ IH|body g Hn _ IH].
  - reflexivity.
  - cbn [app]. now rewrite ws_blank.
  - rewrite <- !app_assoc. now rewrite ws_comment.
Qed.

Lemma ws_gap_stop g s : gap g -> no_gap s -> p_space_or_comment (g ++ s) = ROk tt s.
Proof. intros Hg Hs. rewrite ws_gap by auto. now apply ws_no_gap. Qed.

Lemma gap_app g1 g2 : gap g1 -> gap g2 -> gap (g1 ++ g2).
Proof.
  induction 1 as [|c g Hc _ IH|body g Hn _ IH]; intro H2; auto.
  - cbn [app]. constructor; auto.
  - rewrite <- !app_assoc. apply gap_comment; auto.
Qed.

(** The gap parser never fails, and what it removes is a gap. *)
Lemma ws_total s :
  exists g r, s = g ++ r /\ gap g /\ no_gap r /\ p_space_or_comment s = ROk tt r.
Proof.
  remember (length s) as n eqn:Hn. revert s Hn.
  induction n as [n IH] using lt_wf_ind. intros s ->.
  destruct (single_cases s) as [[r Hr] | Hb].
  - pose proof (consuming_single _ _ _ Hr) as Hlt.
    destruct (IH _ Hlt r eq_refl) as (g & r' & -> & Hg & Hno & Hp).
    assert (Hs : exists g0, s = g0 ++ g ++ r' /\ gap g0).
    { unfold p_single_space_or_comment, alt, pmap, take_while1 in Hr.
      destruct (span is_space s) as [[|x a] b] eqn:E.
      - apply comment_inv in Hr as (body & -> & Hn).
        exists (lit "/*" ++ body ++ lit "*/"). rewrite <- !app_assoc. split; auto.
        rewrite <- (app_nil_r (lit "/*" ++ body ++ lit "*/")). rewrite <- !app_assoc.
        apply gap_comment; auto. constructor.
      - inversion Hr; subst. apply span_spec in E as (-> & Ha & _).
        exists (x :: a). split; auto. clear -Ha. revert Ha.
        generalize (x :: a). intros l. induction l as [|c l IHl]; intro Ha.
        + constructor.
        + cbn [forallb] in Ha. apply andb_true_iff in Ha as [Hc Ha].
          constructor; auto. now apply is_space_blank. }
    destruct Hs as (g0 & -> & Hg0). exists (g0 ++ g), r'.
    rewrite app_assoc. repeat split; auto.
    + now apply gap_app.
    + rewrite <- app_assoc. rewrite ws_gap by auto. exact Hp.
  - exists [], s. apply single_back in Hb. repeat split; auto. constructor.
    now apply ws_no_gap.
Qed.

(** The text left after skipping a gap. *)
Definition skip (s : text) : text :=
  match p_space_or_comment s with ROk _ r => r | _ => s end.

Lemma ws_skip s : p_space_or_comment s = ROk tt (skip s).
Proof.
  unfold skip. destruct (ws_total s) as (g & r & _ & _ & _ & E). now rewrite E.
Qed.

Lemma skip_no_gap s : no_gap s -> skip s = s.
Proof. intro H. unfold skip. now rewrite ws_no_gap. Qed.

Lemma skip_gap g s : gap g -> skip (g ++ s) = skip s.
Proof. intro H. unfold skip. now rewrite ws_gap, (ws_skip s) by auto. Qed.

Lemma skip_gap_stop g s : gap g -> no_gap s -> skip (g ++ s) = s.
Proof. intros H1 H2. rewrite skip_gap by auto. now apply skip_no_gap. Qed.

Lemma skip_spec s : exists g, s = g ++ skip s /\ gap g /\ no_gap (skip s).
Proof.
  destruct (ws_total s) as (g & r & E & Hg & Hn & Hp). exists g.
  unfold skip. rewrite Hp. auto.
Qed.

Lemma skip_idem s : skip (skip s) = skip s.
Proof. destruct (skip_spec s) as (g & _ & _ & H). now apply skip_no_gap. Qed.

Lemma skip_length s : (length (skip s) <= length s)%nat.
Proof.
  destruct (skip_spec s) as (g & E & _). rewrite E at 2. rewrite app_length. lia.
Qed.

Lemma suffixing_ws : suffixing p_space_or_comment.
Proof.
  intros s a r H. rewrite ws_skip in H. inversion H; subst.
  destruct (skip_spec s) as (g & E & _). eauto.
Qed.

(** A first character that cannot start a gap. *)
Lemma no_gap_char c s : ~ blank c -> c <> 47 -> no_gap (c :: s).
Proof.
  intros H1 H2. split; auto. intros (b & r & E).
  change (lit "/*") with [47; 42] in E. cbn [app] in E. congruence.
Qed.

Lemma surrounded_eq {A} (p : parser A) s :
  surrounded p s =
  match p (skip s) with
  | ROk a r => ROk a (skip r)
  | RBack => RBack | RCut => RCut | RPanic => RPanic
  end.
Proof.
  unfold surrounded, bind, ret. rewrite ws_skip.
  destruct (p (skip s)); auto. now rewrite ws_skip.
Qed.

Lemma suffixing_surrounded {A} (p : parser A) : suffixing p -> suffixing (surrounded p).
Proof.
  intro H. apply suffixing_bind. apply suffixing_ws. intros _.
  apply suffixing_bind; auto. intro a.
  apply suffixing_bind. apply suffixing_ws. intros _. apply suffixing_ret.
Qed.

Lemma consuming_surrounded {A} (p : parser A) : consuming p -> consuming (surrounded p).
Proof.
  intros H s a r. rewrite surrounded_eq. destruct (p (skip s)) eqn:E; try discriminate.
  intro X; inversion X; subst. apply H in E.
  pose proof (skip_length s). pose proof (skip_length rest). lia.
Qed.

(** ** Decimal numbers *)

Lemma digits_value_acc_app a x y :
  digits_value_acc a (x ++ y) = digits_value_acc (digits_value_acc a x) y.
Proof. revert a. induction x; simpl; auto. Qed.

Lemma show_N_fuel_app f n acc :
  show_N_fuel f n acc = show_N_fuel f n [] ++ acc.
Proof.
  revert n acc. induction f as [|f IH]; intros n acc; cbn [show_N_fuel]; auto.
  destruct (n <? 10); auto. rewrite IH. rewrite (IH _ [48 + n mod 10]).
  now rewrite <- app_assoc.
Qed.

Lemma show_N_fuel_enough f n :
  (N.size_nat n < f)%nat -> show_N_fuel f n [] = show_N n.
Proof.
  unfold show_N. generalize (S (N.size_nat n)) (Nat.lt_succ_diag_r (N.size_nat n)).
  intros g Hg Hf. revert g n Hg Hf.
  induction f as [|f IH]; intros g n Hg Hf; [lia|].
  destruct g as [|g]; [lia|]. cbn [show_N_fuel].
  destruct (N.ltb_spec n 10); auto.
  rewrite show_N_fuel_app. rewrite (show_N_fuel_app g). f_equal.
  assert (Hs : (N.size_nat (n / 10) < N.size_nat n)%nat).
  { assert (Hsz : forall m, N.size_nat m = N.to_nat (N.size m)).
    { intros [|p]; auto. simpl. induction p; simpl; auto;
        rewrite IHp; now rewrite Pos2Nat.inj_succ. }
    rewrite !Hsz. assert (N.size (n / 10) < N.size n); [|lia].
    assert (0 < n / 10) by (apply N.div_str_pos; lia).
    rewrite !N.size_log2 by lia.
    assert (N.log2 (n / 10) < N.log2 n); [|lia].
    apply N.log2_lt_pow2; [lia|].
    pose proof (N.log2_spec n ltac:(lia)) as [_ Hlog].
    rewrite N.pow_succ_r' in Hlog. lia. }
  apply IH; lia.
Qed.

(** The printed digits, by cases on the size. *)
Lemma show_N_eq n :
  show_N n = if n <? 10 then [48 + n] else show_N (n / 10) ++ [48 + n mod 10].
Proof.
  unfold show_N at 1. cbn [show_N_fuel].
  destruct (N.ltb_spec n 10).
  - now rewrite N.mod_small by auto.
  - rewrite show_N_fuel_app. f_equal. apply show_N_fuel_enough.
    destruct n as [|p]; [lia|].
    assert (Hsz : forall m, N.size_nat m = N.to_nat (N.size m)).
    { intros [|q]; auto. simpl. induction q; simpl; auto;
        rewrite IHq; now rewrite Pos2Nat.inj_succ. }
    rewrite !Hsz. assert (N.size (N.pos p / 10) < N.size (N.pos p)); [|lia].
    assert (0 < N.pos p / 10) by (apply N.div_str_pos; lia).
    rewrite !N.size_log2 by lia.
    assert (N.log2 (N.pos p / 10) < N.log2 (N.pos p)); [|lia].
    apply N.log2_lt_pow2; [lia|].
    pose proof (N.log2_spec (N.pos p) ltac:(lia)) as [_ Hlog].
    rewrite N.pow_succ_r' in Hlog. lia.
Qed.

(** Induction along the printed digits. *)
Lemma digits_ind (P : N -> Prop) :
  (forall n, n < 10 -> P n) ->
  (forall n, 10 <= n -> P (n / 10) -> P n) ->
  forall n, P n.
Proof.
  intros H0 H1 n. induction n as [n IH] using (well_founded_induction N.lt_wf_0).
  destruct (N.lt_ge_cases n 10); auto. apply H1; auto. apply IH.
  apply N.div_lt; lia.
Qed.

Lemma show_N_digits n : forallb is_digit (show_N n) = true.
Proof.
  induction n as [n H|n H IH] using digits_ind; rewrite show_N_eq.
  - destruct (N.ltb_spec n 10); [|lia]. cbn [forallb]. unfold is_digit. lia.
  - destruct (N.ltb_spec n 10); [lia|]. rewrite forallb_app, IH. cbn [forallb].
    unfold is_digit. lia.
Qed.

Lemma show_N_value n : digits_value (show_N n) = n.
Proof.
  unfold digits_value. induction n as [n H|n H IH] using digits_ind; rewrite show_N_eq.
  - destruct (N.ltb_spec n 10); [|lia]. cbn [digits_value_acc]. lia.
  - destruct (N.ltb_spec n 10); [lia|]. rewrite digits_value_acc_app, IH.
    cbn [digits_value_acc]. lia.
Qed.

(** The first printed digit is not 0, except for the number 0. *)
Lemma show_N_head n :
  (n = 0 /\ show_N n = [48]) \/
  (0 < n /\ exists c r, show_N n = c :: r /\ 49 <= c <= 57 /\ forallb is_digit r = true).
Proof.
  induction n as [n H|n H IH] using digits_ind; rewrite show_N_eq.
  - destruct (N.ltb_spec n 10); [|lia]. destruct (N.eq_dec n 0) as [->|Hn].
    + left. auto.
    + right. split; [lia|]. exists (48 + n), []. repeat split; auto; lia.
  - destruct (N.ltb_spec n 10); [lia|]. right. split; [lia|].
    destruct IH as [[H1 _]|[_ (c & r & E & Hc & Hr)]].
    + exfalso. lia.
    + rewrite E. exists c, (r ++ [48 + n mod 10]). repeat split; try lia.
      rewrite forallb_app, Hr. cbn [forallb]. unfold is_digit. lia.
Qed.

Lemma show_N_nonempty n : show_N n <> [].
Proof.
  destruct (show_N_head n) as [[_ ->]|[_ (c & r & -> & _)]]; discriminate.
Qed.

(** Nothing that can continue a number follows. *)
Definition no_digit (s : text) : Prop :=
  match s with [] => True | c :: _ => is_digit c = false end.

Lemma recognize_show_N n s :
  no_digit s -> recognize_dec_uint (show_N n ++ s) = ROk (show_N n) s.
Proof.
  intro Hs. destruct (show_N_head n) as [[_ ->]|[_ (c & r & -> & Hc & Hr)]].
  - reflexivity.
  - cbn [app recognize_dec_uint].
    replace ((49 <=? c) && (c <=? 57)) with true by lia.
    rewrite span_app; auto.
Qed.

Lemma dec_uint_show n s :
  n <= max_usize -> no_digit s -> dec_uint_usize (show_N n ++ s) = ROk n s.
Proof.
  intros Hn Hs. unfold dec_uint_usize. rewrite recognize_show_N by auto.
  rewrite show_N_value. replace (n <=? max_usize) with true by lia. auto.
Qed.

Lemma p_id_show n s :
  n <= max_usize -> no_digit s -> p_id (d_id n ++ s) = ROk n s.
Proof.
  intros Hn Hs. unfold p_id, d_id, bind. rewrite <- app_assoc, tag_app.
  now apply dec_uint_show.
Qed.

Lemma p_id_range s n r : p_id s = ROk n r -> n <= max_usize.
Proof.
  unfold p_id, bind. destruct (tag (lit "#") s); try discriminate.
  unfold dec_uint_usize. destruct (recognize_dec_uint rest); try discriminate.
  destruct (N.leb_spec (digits_value a0) max_usize); try discriminate.
  intro H1; inversion H1; subst. auto.
Qed.

Lemma recognize_dec_int_show z s :
  no_digit s ->
  recognize_dec_int (show_Z z ++ s) = ROk ((z <? 0)%Z, show_N (Z.abs_N z)) s.
Proof.
  intro Hs. destruct z as [|p|p].
  - reflexivity.
  - cbn [show_Z Z.abs_N].
    destruct (show_N_head (Npos p)) as [[H _]|[_ (c & r & -> & Hc & Hr)]]; [lia|].
    cbn [app recognize_dec_int].
    replace (c =? 43) with false by lia. replace (c =? 45) with false by lia.
    replace (c =? 48) with false by lia.
    replace ((49 <=? c) && (c <=? 57)) with true by lia.
    rewrite span_app; auto.
  - cbn [show_Z Z.abs_N].
    destruct (show_N_head (Npos p)) as [[H _]|[_ (c & r & -> & Hc & Hr)]]; [lia|].
    cbn [app recognize_dec_int].
    replace (45 =? 43) with false by lia. replace (45 =? 45) with true by lia.
    replace ((49 <=? c) && (c <=? 57)) with true by lia.
    rewrite span_app; auto.
Qed.

Lemma dec_int_show lo hi z s :
  (lo <= z <= hi)%Z -> no_digit s -> dec_int lo hi (show_Z z ++ s) = ROk z s.
Proof.
  intros Hz Hs. unfold dec_int. rewrite recognize_dec_int_show by auto.
  rewrite show_N_value.
  replace (if (z <? 0)%Z then (- Z.of_N (Z.abs_N z))%Z else Z.of_N (Z.abs_N z)) with z
    by (destruct (Z.ltb_spec z 0); lia).
  unfold in_range. replace ((lo <=? z)%Z && (z <=? hi)%Z) with true by lia. auto.
Qed.

Lemma dec_int_range lo hi s z r : dec_int lo hi s = ROk z r -> (lo <= z <= hi)%Z.
Proof.
  unfold dec_int. destruct (recognize_dec_int s) as [[neg ds] r0| | |]; try discriminate.
  cbv zeta. destruct (in_range lo hi _) eqn:E; try discriminate.
  intro H; inversion H; subst. unfold in_range in E. lia.
Qed.

Lemma show_Z_nonempty z : show_Z z <> [].
Proof. destruct z; cbn [show_Z]; try apply show_N_nonempty; discriminate. Qed.

(** ** Quoted words *)

Lemma quote_word_app w s :
  ~ In 39 w -> p_quote_word (lit "'" ++ w ++ lit "'" ++ s) = ROk w s.
Proof.
  intro H. unfold p_quote_word, bind. rewrite tag_app. unfold p_word_until, take_while0.
  rewrite span_app.
  - now rewrite tag_app.
  - apply forallb_forall. intros c Hc. destruct (N.eqb_spec c 39); auto. congruence.
  - reflexivity.
Qed.

Lemma quote_word_inv s w r :
  p_quote_word s = ROk w r -> s = lit "'" ++ w ++ lit "'" ++ r /\ ~ In 39 w.
Proof.
  unfold p_quote_word, bind. destruct (tag (lit "'") s) as [u r1| | |] eqn:E1; try discriminate.
  apply tag_ok in E1. subst. unfold p_word_until, take_while0.
  destruct (span (fun c => negb (c =? 39)) r1) as [a b] eqn:E2.
  apply span_spec in E2 as (-> & Ha & _).
  destruct (tag (lit "'") b) as [u2 r2| | |] eqn:E3; try discriminate.
  apply tag_ok in E3. subst. intro H; inversion H; subst. split; auto.
  intro Hin. rewrite forallb_forall in Ha. apply Ha in Hin. discriminate.
Qed.

(** ** Decimal notation *)

Lemma show_N_decimal n : decimal n (show_N n).
Proof.
  induction n as [n H|n H IH] using digits_ind; rewrite show_N_eq.
  - destruct (N.ltb_spec n 10); [|lia]. now constructor.
  - destruct (N.ltb_spec n 10); [lia|].
    replace n with (10 * (n / 10) + n mod 10) at 1 by lia.
    constructor; auto; lia.
Qed.

Lemma show_Z_decimal z : decimal_int z (show_Z z).
Proof.
  unfold decimal_int. destruct z as [|p|p].
  - apply show_N_decimal.
  - apply show_N_decimal.
  - exists (show_N (Npos p)). split; auto. apply show_N_decimal.
Qed.

Lemma decimal_digits n ds : decimal n ds -> Forall (fun c => 48 <= c <= 57) ds.
Proof.
  induction 1.
  - constructor; [lia|constructor].
  - apply Forall_app. split; auto. constructor; [lia|constructor].
Qed.

Lemma show_N_inj n m : show_N n = show_N m -> n = m.
Proof. intro H. rewrite <- (show_N_value n), <- (show_N_value m). now rewrite H. Qed.

Lemma d_id_inj n m : d_id n = d_id m -> n = m.
Proof. intro H. apply show_N_inj. now apply app_inv_head in H. Qed.

Lemma show_Z_inj a b : show_Z a = show_Z b -> a = b.
Proof.
  intro H.
  assert (Ha := recognize_dec_int_show a [] I). assert (Hb := recognize_dec_int_show b [] I).
  rewrite H, Hb in Ha. injection Ha as H1 H2. apply show_N_inj in H2. lia.
Qed.

(** Numbers out of range are rejected. *)
Lemma p_id_out_of_range n s : max_usize < n -> no_digit s -> p_id (d_id n ++ s) = RBack.
Proof.
  intros Hn Hs. unfold p_id, d_id, bind. rewrite <- app_assoc, tag_app.
  unfold dec_uint_usize. rewrite recognize_show_N by auto. cbv zeta. rewrite show_N_value.
  destruct (N.leb_spec n max_usize); [lia|reflexivity].
Qed.

Lemma dec_int_out_of_range lo hi z s :
  (z < lo \/ hi < z)%Z -> no_digit s -> dec_int lo hi (show_Z z ++ s) = RBack.
Proof.
  intros Hz Hs. unfold dec_int. rewrite recognize_dec_int_show by auto. cbv zeta.
  rewrite show_N_value. unfold in_range.
  destruct (Z.ltb_spec z 0).
  - replace (- Z.of_N (Z.abs_N z))%Z with z by lia.
    destruct (Z.leb_spec lo z), (Z.leb_spec z hi); auto; lia.
  - replace (Z.of_N (Z.abs_N z))%Z with z by lia.
    destruct (Z.leb_spec lo z), (Z.leb_spec z hi); auto; lia.
Qed.
