(** Facts about the combinators of Base.v. *)

From Coq Require Import String Ascii List NArith ZArith Bool Lia Arith.
From Verif Require Import Base.
Import ListNotations.
Open Scope N_scope.

(** A parser that consumes at least one character whenever it succeeds. *)
Definition consuming {A} (p : parser A) : Prop :=
  forall s a r, p s = ROk a r -> (length r < length s)%nat.

(** A parser that never grows the remaining text. *)
Definition shrinking {A} (p : parser A) : Prop :=
  forall s a r, p s = ROk a r -> (length r <= length s)%nat.

(** What a parser leaves is a suffix of what it was given. *)
Definition suffixing {A} (p : parser A) : Prop :=
  forall s a r, p s = ROk a r -> exists pre, s = pre ++ r.

Lemma suffixing_shrinking {A} (p : parser A) : suffixing p -> shrinking p.
Proof.
  intros H s a r E. destruct (H _ _ _ E) as [pre ->].
  rewrite app_length. lia.
Qed.

Lemma consuming_shrinking {A} (p : parser A) : consuming p -> shrinking p.
Proof. intros H s a r E. apply H in E. lia. Qed.

(** ** Literals *)

Lemma strip_prefix_app t s : strip_prefix t (t ++ s) = Some s.
Proof.
  induction t as [|c t IH]; simpl; auto. now rewrite N.eqb_refl.
Qed.

Lemma strip_prefix_Some t s r : strip_prefix t s = Some r -> s = t ++ r.
Proof.
  revert s. induction t as [|c t IH]; simpl; intros s H.
  - now inversion H.
  - destruct s as [|d s]; [discriminate|].
    destruct (N.eqb_spec c d); [|discriminate]. subst. f_equal. auto.
Qed.

Lemma strip_prefix_None t s :
  strip_prefix t s = None <-> ~ exists r, s = t ++ r.
Proof.
  split.
  - intros H [r ->]. now rewrite strip_prefix_app in H.
  - intros H. destruct (strip_prefix t s) eqn:E; auto.
    apply strip_prefix_Some in E. exfalso. apply H. eauto.
Qed.

Lemma tag_app t s : tag t (t ++ s) = ROk tt s.
Proof. unfold tag. now rewrite strip_prefix_app. Qed.

Lemma tag_ok t s u r : tag t s = ROk u r -> s = t ++ r.
Proof.
  unfold tag. destruct (strip_prefix t s) eqn:E; intro H; inversion H; subst.
  now apply strip_prefix_Some.
Qed.

Lemma tag_back t s : tag t s = RBack <-> ~ exists r, s = t ++ r.
Proof.
  unfold tag. rewrite <- strip_prefix_None.
  destruct (strip_prefix t s); split; congruence.
Qed.

Lemma tag_cases t s :
  (exists r, s = t ++ r /\ tag t s = ROk tt r) \/ (tag t s = RBack).
Proof.
  unfold tag. destruct (strip_prefix t s) as [t0|] eqn:E; auto.
  left. exists t0. split; auto. now apply strip_prefix_Some.
Qed.

(** A literal whose first character differs is not found. *)
Lemma tag_neq c t d s : c <> d -> tag (c :: t) (d :: s) = RBack.
Proof.
  intros H. unfold tag. simpl. destruct (N.eqb_spec c d); congruence.
Qed.

Lemma tag_nil c t : tag (c :: t) [] = RBack.
Proof. reflexivity. Qed.

Lemma suffixing_tag t : suffixing (tag t).
Proof. intros s a r H. exists t. now apply tag_ok in H. Qed.

Lemma consuming_tag c t : consuming (tag (c :: t)).
Proof. intros s a r H. apply tag_ok in H. subst. simpl. rewrite app_length. lia. Qed.

(** ** Spans *)

Lemma span_spec f s a b :
  span f s = (a, b) ->
  s = a ++ b /\ forallb f a = true /\
  match b with [] => True | c :: _ => f c = false end.
Proof.
  revert a b. induction s as [|c s IH]; simpl; intros a b H.
  - inversion H; subst. auto.
  - destruct (f c) eqn:Ef.
    + destruct (span f s) as [a' b'] eqn:E. inversion H; subst.
      destruct (IH _ _ eq_refl) as (-> & H1 & H2).
      simpl. rewrite Ef, H1. auto.
    + inversion H; subst. simpl. auto.
Qed.

Lemma span_app f a b :
  forallb f a = true ->
  match b with [] => True | c :: _ => f c = false end ->
  span f (a ++ b) = (a, b).
Proof.
  intros Ha Hb. induction a as [|c a IH]; simpl in *.
  - destruct b; auto. simpl. now rewrite Hb.
  - apply andb_true_iff in Ha as [Hc Ha]. rewrite Hc, IH; auto.
Qed.

(** ** repeat_till *)

Lemma repeat_till_fuel_enough {A B} (f : parser A) (g : parser B) :
  consuming f ->
  forall n m s, (length s < n)%nat -> (length s < m)%nat ->
    repeat_till_fuel n f g s = repeat_till_fuel m f g s.
Proof.
  intros Hf. induction n as [|n IH]; intros m s Hn Hm; [lia|].
  destruct m as [|m]; [lia|]. simpl.
  destruct (g s); auto. destruct (f s) eqn:E; auto.
  apply Hf in E. rewrite (IH m rest); auto; lia.
Qed.

(** One unfolding of [repeat_till] for a consuming item parser. *)
Lemma repeat_till_eq {A B} (f : parser A) (g : parser B) s :
  consuming f ->
  repeat_till f g s =
  match g s with
  | ROk b r => ROk ([], b) r
  | RBack =>
      match f s with
      | ROk a r =>
          match repeat_till f g r with
          | ROk (l, b) r' => ROk (a :: l, b) r'
          | RBack => RBack
          | RCut => RCut
          | RPanic => RPanic
          end
      | RBack => RBack
      | RCut => RCut
      | RPanic => RPanic
      end
  | RCut => RCut
  | RPanic => RPanic
  end.
Proof.
  intros Hf. unfold repeat_till at 1. cbn [repeat_till_fuel].
  destruct (g s); auto. destruct (f s) eqn:E; auto.
  unfold repeat_till. apply Hf in E.
  erewrite (repeat_till_fuel_enough f g Hf (length s) (S (length rest)));
    [reflexivity| lia | lia].
Qed.

Lemma consuming_any : consuming any.
Proof. intros [|c s] a r H; inversion H; subst. simpl. lia. Qed.

(** Induction on the remaining text. *)
Lemma repeat_till_fuel_suffix {A B} (f : parser A) (g : parser B) n :
  suffixing f -> suffixing g -> suffixing (repeat_till_fuel n f g).
Proof.
  intros Hf Hg. induction n as [|n IH]; intros s a r; simpl; [discriminate|].
  destruct (g s) eqn:Eg; try discriminate.
  - intro H; inversion H; subst. eapply Hg; eauto.
  - destruct (f s) eqn:Ef; try discriminate.
    destruct (repeat_till_fuel n f g rest) as [[l b] r'| | |] eqn:E; try discriminate.
    intro H; inversion H; subst.
    destruct (IH _ _ _ E) as [p1 ->]. destruct (Hf _ _ _ Ef) as [p2 ->].
    exists (p2 ++ p1). now rewrite app_assoc.
Qed.

Lemma suffixing_repeat_till {A B} (f : parser A) (g : parser B) :
  suffixing f -> suffixing g -> suffixing (repeat_till f g).
Proof.
  intros Hf Hg s a r H.
  exact (repeat_till_fuel_suffix f g (S (length s)) Hf Hg s a r H).
Qed.

(** A property of items carries over to all collected items. *)
Lemma repeat_till_Forall {A B} (f : parser A) (g : parser B) (P : A -> Prop) :
  (forall s a r, f s = ROk a r -> P a) ->
  forall s l b r, repeat_till f g s = ROk (l, b) r -> Forall P l.
Proof.
  intros Hf s l b r. unfold repeat_till. generalize (S (length s)). intro n.
  revert s l b r. induction n as [|n IH]; intros s l b r; simpl; [discriminate|].
  destruct (g s) eqn:Eg; try discriminate.
  - intro H; inversion H; subst; constructor.
  - destruct (f s) eqn:Ef; try discriminate.
    destruct (repeat_till_fuel n f g rest) as [[l' b'] r'| | |] eqn:E; try discriminate.
    intro H; inversion H; subst. constructor; eauto.
Qed.

(** ** Suffix property of the other combinators *)

Lemma suffixing_bind {A B} (p : parser A) (f : A -> parser B) :
  suffixing p -> (forall a, suffixing (f a)) -> suffixing (bind p f).
Proof.
  intros Hp Hf s b r. unfold bind. destruct (p s) eqn:E; try discriminate.
  intro H. destruct (Hf _ _ _ _ H) as [q ->]. destruct (Hp _ _ _ E) as [q' ->].
  exists (q' ++ q). now rewrite app_assoc.
Qed.

Lemma suffixing_ret {A} (a : A) : suffixing (ret a).
Proof. intros s b r H. inversion H; subst. now exists []. Qed.

Lemma suffixing_pmap {A B} (f : A -> B) p : suffixing p -> suffixing (pmap f p).
Proof.
  intros Hp s b r. unfold pmap. destruct (p s) eqn:E; try discriminate.
  intro H; inversion H; subst. eauto.
Qed.

Lemma suffixing_pmap_unwrap {A B} (f : A -> option B) p :
  suffixing p -> suffixing (pmap_unwrap f p).
Proof.
  intros Hp s b r. unfold pmap_unwrap. destruct (p s) eqn:E; try discriminate.
  destruct (f a); try discriminate. intro H; inversion H; subst. eauto.
Qed.

Lemma suffixing_alt {A} (p q : parser A) :
  suffixing p -> suffixing q -> suffixing (alt p q).
Proof.
  intros Hp Hq s b r. unfold alt. destruct (p s) eqn:E; try discriminate; intro H.
  - inversion H; subst. eauto.
  - eauto.
Qed.

Lemma suffixing_fail {A} : suffixing (@fail A).
Proof. intros s a r H. discriminate. Qed.

Lemma suffixing_alts {A} (ps : list (parser A)) :
  Forall suffixing ps -> suffixing (alts ps).
Proof.
  induction 1; simpl. apply suffixing_fail. now apply suffixing_alt.
Qed.

Lemma suffixing_opt {A} (p : parser A) : suffixing p -> suffixing (opt p).
Proof.
  intros Hp s b r. unfold opt. destruct (p s) eqn:E; try discriminate; intro H;
    inversion H; subst; eauto. now exists [].
Qed.

Lemma suffixing_any : suffixing any.
Proof. intros [|c s] a r H; inversion H; subst. now exists [a]. Qed.

Lemma suffixing_one_of f : suffixing (one_of f).
Proof.
  intros [|c s] a r; simpl; try discriminate. destruct (f c); try discriminate.
  intro H; inversion H; subst. now exists [a].
Qed.

Lemma suffixing_peek {A} (p : parser A) : suffixing (peek p).
Proof.
  intros s a r. unfold peek. destruct (p s); try discriminate.
  intro H; inversion H; subst. now exists [].
Qed.

Lemma suffixing_pnot {A} (p : parser A) : suffixing (pnot p).
Proof.
  intros s a r. unfold pnot. destruct (p s); try discriminate.
  intro H; inversion H; subst. now exists [].
Qed.

Lemma suffixing_cut_err {A} (p : parser A) : suffixing p -> suffixing (cut_err p).
Proof.
  intros Hp s a r. unfold cut_err. destruct (p s) eqn:E; try discriminate.
  intro H; inversion H; subst. eauto.
Qed.

Lemma suffixing_take_while0 f : suffixing (take_while0 f).
Proof.
  intros s a r. unfold take_while0. destruct (span f s) as [x y] eqn:E.
  intro H; inversion H; subst. apply span_spec in E as (-> & _). eauto.
Qed.

Lemma suffixing_take_while1 f : suffixing (take_while1 f).
Proof.
  intros s a r. unfold take_while1. destruct (span f s) as [x y] eqn:E.
  destruct x; try discriminate.
  intro H; inversion H; subst. apply span_spec in E as (-> & _). eauto.
Qed.

Lemma suffixing_take_exactly n f : suffixing (take_exactly n f).
Proof.
  induction n as [|n IH]; intros s a r; simpl.
  - intro H; inversion H; subst. now exists [].
  - destruct s as [|c s]; try discriminate. destruct (f c); try discriminate.
    unfold pmap. destruct (take_exactly n f s) eqn:E; try discriminate.
    intro H; inversion H; subst. destruct (IH _ _ _ E) as [p ->].
    now exists (c :: p).
Qed.

(** Consumption of sequences. *)
Lemma consuming_bind_l {A B} (p : parser A) (f : A -> parser B) :
  consuming p -> (forall a, shrinking (f a)) -> consuming (bind p f).
Proof.
  intros Hp Hf s b r. unfold bind. destruct (p s) eqn:E; try discriminate.
  intro H. apply Hf in H. apply Hp in E. lia.
Qed.

Lemma consuming_bind_r {A B} (p : parser A) (f : A -> parser B) :
  shrinking p -> (forall a, consuming (f a)) -> consuming (bind p f).
Proof.
  intros Hp Hf s b r. unfold bind. destruct (p s) eqn:E; try discriminate.
  intro H. apply Hf in H. apply Hp in E. lia.
Qed.

Lemma consuming_pmap {A B} (f : A -> B) p : consuming p -> consuming (pmap f p).
Proof.
  intros Hp s b r. unfold pmap. destruct (p s) eqn:E; try discriminate.
  intro H; inversion H; subst. eauto.
Qed.

Lemma consuming_pmap_unwrap {A B} (f : A -> option B) p :
  consuming p -> consuming (pmap_unwrap f p).
Proof.
  intros Hp s b r. unfold pmap_unwrap. destruct (p s) eqn:E; try discriminate.
  destruct (f a); try discriminate. intro H; inversion H; subst. eauto.
Qed.

Lemma consuming_alt {A} (p q : parser A) :
  consuming p -> consuming q -> consuming (alt p q).
Proof.
  intros Hp Hq s b r. unfold alt. destruct (p s) eqn:E; try discriminate; intro H.
  - inversion H; subst. eauto.
  - eauto.
Qed.

Lemma consuming_fail {A} : consuming (@fail A).
Proof. intros s a r H. discriminate. Qed.

Lemma consuming_alts {A} (ps : list (parser A)) :
  Forall consuming ps -> consuming (alts ps).
Proof.
  induction 1; simpl. apply consuming_fail. now apply consuming_alt.
Qed.

Lemma shrinking_ret {A} (a : A) : shrinking (ret a).
Proof. intros s b r H. inversion H; subst. auto. Qed.

Lemma shrinking_bind {A B} (p : parser A) (f : A -> parser B) :
  shrinking p -> (forall a, shrinking (f a)) -> shrinking (bind p f).
Proof.
  intros Hp Hf s b r. unfold bind. destruct (p s) eqn:E; try discriminate.
  intro H. apply Hf in H. apply Hp in E. lia.
Qed.
