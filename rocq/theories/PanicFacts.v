(** Facts about where reading can panic. *)

From Coq Require Import String Ascii List NArith ZArith Bool Lia ZifyBool ZifyN ZifyNat.
From Verif Require Import Base Prims BaseFacts Spec PrimsFacts Guid GuidFacts Float FloatFacts
  Kind Types Schema Entity Layout WellTyped EntitySpec DataMap DataSpec Header File HeaderSpec
  TypesFacts TypesFacts2 EntityFacts SectionFacts.
Import ListNotations.
Open Scope N_scope.

(** ** Readers that never panic *)

Definition panic_in {A} (P : text -> Prop) (p : parser A) : Prop := forall s, p s = RPanic -> P s.
Definition lifting (P : text -> Prop) : Prop := forall a s, P s -> P (a ++ s).
Notation never p := (panic_in (fun _ => False) p).

Lemma never_in {A} P (p : parser A) : never p -> panic_in P p.
Proof. intros H s E. now apply H in E. Qed.

Section Combinators.
  Context (P : text -> Prop) (HP : lifting P).

  Lemma panic_tag t : panic_in P (tag t).
  Proof. intros s H. unfold tag in H. destruct (strip_prefix t s); discriminate. Qed.

  Lemma panic_ret {A} (a : A) : panic_in P (ret a).
  Proof. intros s H. discriminate. Qed.

  Lemma panic_fail {A} : panic_in P (@fail A).
  Proof. intros s H. discriminate. Qed.

  Lemma panic_bind {A B} (p : parser A) (f : A -> parser B) :
    suffixing p -> panic_in P p -> (forall a, panic_in P (f a)) -> panic_in P (bind p f).
  Proof.
    intros Hs Hp Hf s H. unfold bind in H. destruct (p s) as [a r| | |] eqn:E; try discriminate.
    - apply Hf in H. apply Hs in E as [w ->]. now apply HP.
    - now apply Hp.
  Qed.

  Lemma panic_pmap {A B} (f : A -> B) p : panic_in P p -> panic_in P (pmap f p).
  Proof. intros Hp s H. unfold pmap in H. destruct (p s) eqn:E; try discriminate. now apply Hp. Qed.

  Lemma panic_alt {A} (p q : parser A) : panic_in P p -> panic_in P q -> panic_in P (alt p q).
  Proof. intros Hp Hq s H. unfold alt in H. destruct (p s) eqn:E; try discriminate; [now apply Hq|now apply Hp]. Qed.

  Lemma panic_alts {A} (ps : list (parser A)) : Forall (panic_in P) ps -> panic_in P (alts ps).
  Proof. induction 1; cbn [alts]; [apply panic_fail|now apply panic_alt]. Qed.

  Lemma panic_opt {A} (p : parser A) : panic_in P p -> panic_in P (opt p).
  Proof. intros Hp s H. unfold opt in H. destruct (p s) eqn:E; try discriminate. now apply Hp. Qed.

  Lemma panic_cut_err {A} (p : parser A) : panic_in P p -> panic_in P (cut_err p).
  Proof. intros Hp s H. unfold cut_err in H. destruct (p s) eqn:E; try discriminate. now apply Hp. Qed.

  Lemma panic_one_of f : panic_in P (one_of f).
  Proof. intros [|c s] H; [discriminate|]. cbn in H. destruct (f c); discriminate. Qed.

  Lemma panic_any : panic_in P any.
  Proof. intros [|c s] H; discriminate. Qed.

  Lemma panic_while0 f : panic_in P (take_while0 f).
  Proof. intros s H. unfold take_while0 in H. destruct (span f s). discriminate. Qed.

  Lemma panic_while1 f : panic_in P (take_while1 f).
  Proof. intros s H. unfold take_while1 in H. destruct (span f s) as [[|] ?]; discriminate. Qed.

  Lemma panic_surrounded {A} (p : parser A) : panic_in P p -> panic_in P (surrounded p).
  Proof.
    intros Hp s H. rewrite surrounded_eq in H. destruct (p (skip s)) eqn:E; try discriminate.
    destruct (skip_spec s) as (g & Eg & _). rewrite Eg. apply HP. exact (Hp _ E).
  Qed.

  Lemma panic_repeat_till {A B} (f : parser A) (g : parser B) :
    suffixing f -> panic_in P f -> panic_in P g -> panic_in P (repeat_till f g).
  Proof.
    intros Hs Hf Hg s. unfold repeat_till. generalize (S (length s)). intro n. revert s.
    induction n as [|n IH]; intros s H; [discriminate|]. cbn [repeat_till_fuel] in H.
    destruct (g s) eqn:Eg; try discriminate; [|now apply Hg].
    destruct (f s) as [a r| | |] eqn:Ef; try discriminate; [|now apply Hf].
    destruct (repeat_till_fuel n f g r) as [[l b] r'| | |] eqn:E; try discriminate.
    apply Hs in Ef as [w ->]. apply HP. now apply IH.
  Qed.

  Lemma panic_repeat0 {A} (f : parser A) : suffixing f -> panic_in P f -> panic_in P (repeat0 f).
  Proof.
    intros Hs Hf s. unfold repeat0. generalize (S (length s)). intro n. revert s.
    induction n as [|n IH]; intros s H; [discriminate|]. cbn [repeat0_fuel] in H.
    destruct (f s) as [a r| | |] eqn:Ef; try discriminate; [|now apply Hf].
    destruct (repeat0_fuel n f r) as [l r'| | |] eqn:E; try discriminate.
    apply Hs in Ef as [w ->]. apply HP. now apply IH.
  Qed.

  Lemma panic_separated {A B} (f : parser A) (g : parser B) :
    suffixing f -> suffixing g -> panic_in P f -> panic_in P g -> panic_in P (separated f g).
  Proof.
    intros Hsf Hsg Hf Hg s H. unfold separated in H. destruct (f s) as [a r| | |] eqn:Ef; try discriminate; [|now apply Hf].
    apply Hsf in Ef as [w ->]. apply HP.
    assert (H' : separated_tail_fuel (S (length r)) f g r = RPanic)
      by (destruct (separated_tail_fuel (S (length r)) f g r); try discriminate; reflexivity).
    clear H. revert H'. generalize (S (length r)).
    intro n. revert r. induction n as [|n IH]; intros r H; [discriminate|].
    cbn [separated_tail_fuel] in H. destruct (g r) as [b r1| | |] eqn:Eg; try discriminate; [|now apply Hg].
    apply Hsg in Eg as [w1 ->]. apply HP.
    destruct (f r1) as [a' r2| | |] eqn:Ef; try discriminate; [|now apply Hf].
    apply Hsf in Ef as [w2 ->]. apply HP. apply IH.
    destruct (separated_tail_fuel n f g r2); try discriminate. reflexivity.
  Qed.

  Lemma panic_list {A} (p : parser A) : suffixing p -> panic_in P p -> panic_in P (p_list p).
  Proof.
    intros Hs Hp. unfold p_list. apply panic_bind; [apply suffixing_tag|apply panic_tag|]. intros _.
    apply panic_pmap. apply panic_repeat_till; [|apply panic_bind; auto|apply panic_tag].
    - apply suffixing_bind; auto. intro a. apply suffixing_bind; [|intros _; apply suffixing_ret].
      apply suffixing_surrounded, suffixing_opt, suffixing_tag.
    - intro a. apply panic_bind; [apply suffixing_surrounded, suffixing_opt, suffixing_tag| |intros _; apply panic_ret].
      apply panic_surrounded, panic_opt, panic_tag.
  Qed.
End Combinators.

Lemma lifting_False : lifting (fun _ => False).
Proof. intros a s []. Qed.
#[local] Hint Resolve lifting_False suffixing_tag suffixing_ret suffixing_surrounded suffixing_bind
  suffixing_pmap suffixing_opt suffixing_alt suffixing_take_while0 suffixing_take_while1 suffixing_one_of : core.

Lemma recognize_no_panic s : recognize_dec_int s <> RPanic.
Proof.
  unfold recognize_dec_int. destruct s as [|c s]; [discriminate|].
  assert (H : forall neg s', match s' with
      | c :: r => if (49 <=? c) && (c <=? 57) then let (a, b) := span is_digit r in ROk (neg, c :: a) b else RBack
      | [] => RBack
      end <> RPanic (A := bool * text)).
  { intros neg [|x s']; [discriminate|]. destruct (_ && _); [|discriminate]. destruct (span is_digit s'). discriminate. }
  destruct (c =? 43); [apply H|]. destruct (c =? 45); [apply H|]. destruct (c =? 48); [discriminate|exact (H false (c :: s))].
Qed.

Lemma never_dec_int lo hi : never (dec_int lo hi).
Proof.
  intros s H. unfold dec_int in H. destruct (recognize_dec_int s) as [[neg ds] r| | |] eqn:E; try discriminate.
  - cbv zeta in H. destruct (in_range _ _ _); discriminate.
  - now apply recognize_no_panic in E.
Qed.

Lemma never_id : never p_id.
Proof.
  apply panic_bind; auto; [apply panic_tag|]. intros _ s H. unfold dec_uint_usize in H.
  destruct (recognize_dec_uint s) as [ds r| | |] eqn:E; try discriminate.
  - cbv zeta in H. destruct (_ <=? _); discriminate.
  - unfold recognize_dec_uint in E. destruct s as [|c s]; [discriminate|]. destruct (_ && _).
    + destruct (span is_digit s). discriminate.
    + destruct (c =? 48); discriminate.
Qed.

Lemma never_quote_word : never p_quote_word.
Proof.
  unfold p_quote_word. apply panic_bind; auto; [apply panic_tag|]. intros _.
  apply panic_bind; [auto|apply suffixing_take_while0|apply panic_while0|]. intro w.
  apply panic_bind; auto; [apply panic_tag|]. intros _. apply panic_ret.
Qed.

Lemma never_variants vs : forall i, never (p_variants i vs).
Proof.
  induction vs as [|t vs IH]; intro i; cbn [p_variants]; [apply panic_fail|].
  apply panic_alt; [apply panic_pmap, panic_tag|apply IH].
Qed.

Lemma never_enum vs : never (p_enum vs).
Proof. apply panic_surrounded; auto. apply never_variants. Qed.

Lemma never_bool : never p_bool.
Proof.
  unfold p_bool. apply panic_surrounded; auto. apply panic_alts.
  apply Forall_forall. intros p Hp. apply in_map_iff in Hp as (x & <- & _). apply panic_pmap, panic_tag.
Qed.

Lemma never_sign : never p_sign.
Proof. apply panic_pmap, panic_opt, panic_one_of. Qed.

Lemma suffixing_sign : suffixing p_sign.
Proof. unfold p_sign. auto. Qed.

Lemma suffixing_mantissa : suffixing p_mantissa.
Proof. unfold p_mantissa. auto 20. Qed.

Lemma never_mantissa : never p_mantissa.
Proof.
  unfold p_mantissa. apply panic_alt; apply panic_bind; auto; try apply panic_while1; try apply panic_tag.
  - intro i. apply panic_bind; auto 10.
    + apply panic_opt, panic_bind; auto; [apply panic_tag|]. intros _.
      apply panic_bind; auto; [apply panic_opt, panic_while1|]. intro f. apply panic_ret.
    + intro f. apply panic_ret.
  - intros _. apply panic_bind; auto; [apply panic_while1|]. intro f. apply panic_ret.
Qed.

Lemma never_tag_caseless t : never (tag_caseless t).
Proof. intros s H. unfold tag_caseless in H. destruct (strip_prefix_caseless t s); discriminate. Qed.

Lemma suffixing_cut1 : suffixing (cut_err (take_while1 is_digit)).
Proof. apply suffixing_cut_err, suffixing_take_while1. Qed.

Lemma never_exponent : never p_exponent.
Proof.
  unfold p_exponent. apply panic_pmap, panic_opt. apply panic_bind; auto; [apply panic_one_of|]. intros _.
  apply panic_bind; auto using suffixing_sign, never_sign. intro neg.
  apply panic_bind; auto using suffixing_cut1; [apply panic_cut_err, panic_while1|]. intro ds. apply panic_ret.
Qed.

Lemma suffixing_exponent : suffixing p_exponent.
Proof.
  unfold p_exponent. apply suffixing_pmap, suffixing_opt, suffixing_bind; auto. intros _.
  apply suffixing_bind; [apply suffixing_sign|]. intro neg. apply suffixing_bind; [apply suffixing_cut1|].
  intro ds. apply suffixing_ret.
Qed.

Lemma never_real : never p_real.
Proof.
  unfold p_real, p_decimal. repeat apply panic_alt.
  - apply panic_bind; auto using suffixing_sign, never_sign. intro neg.
    apply panic_bind; auto using suffixing_mantissa, never_mantissa. intro m.
    apply panic_bind; auto using suffixing_exponent, never_exponent. intro x. apply panic_ret.
  - apply panic_pmap, never_tag_caseless.
  - apply panic_bind; auto using suffixing_sign, never_sign. intro neg.
    apply panic_bind; auto using suffixing_tag_caseless, never_tag_caseless. intros _. apply panic_ret.
  - apply panic_bind; auto using suffixing_sign, never_sign. intro neg.
    apply panic_bind; auto using suffixing_tag_caseless, never_tag_caseless. intros _. apply panic_ret.
Qed.

Lemma suffixing_comma : suffixing p_comma.
Proof. unfold p_comma. auto. Qed.

Lemma never_comma : never p_comma.
Proof. apply panic_surrounded; auto. apply panic_tag. Qed.

Lemma never_vec2 : never p_vec2.
Proof.
  unfold p_vec2. repeat (apply panic_bind;
    [exact lifting_False
    |first [apply suffixing_real|apply suffixing_comma|auto]
    |first [apply never_real|apply never_comma|apply panic_surrounded; auto; apply panic_tag|apply panic_tag]|intro]).
  apply panic_ret.
Qed.

Lemma never_vec3 : never p_vec3.
Proof.
  unfold p_vec3. repeat (apply panic_bind;
    [exact lifting_False
    |first [apply suffixing_real|apply suffixing_comma|auto]
    |first [apply never_real|apply never_comma|apply panic_surrounded; auto; apply panic_tag|apply panic_tag]|intro]).
  apply panic_ret.
Qed.

Lemma never_measures ns : forall i ps, Forall (fun p => never p) ps -> Forall suffixing ps -> never (p_measures i ns ps).
Proof.
  induction ns as [|n ns IH]; intros i ps Hp Hs; [apply panic_fail|].
  destruct Hp as [|p ps Hp Hps]; [apply panic_fail|]. inversion Hs; subst. cbn [p_measures].
  apply panic_alt; [|now apply IH]. unfold p_measure.
  apply panic_bind; auto; [apply panic_alt; apply panic_tag|]. intros _.
  apply panic_bind; auto; [apply panic_tag|]. intros _. apply panic_bind; auto. intro v.
  apply panic_bind; auto; [apply panic_tag|]. intros _. apply panic_ret.
Qed.

Lemma never_value : never p_value.
Proof.
  apply never_measures; [|apply suffixing_contents].
  assert (never p_string) by (apply panic_pmap, never_quote_word).
  unfold measure_contents. repeat constructor; apply panic_pmap; auto using never_bool, never_real.
Qed.

(** ** Attributes *)

(** No time stamp inside the type. *)
Fixpoint no_time (t : fty) : bool :=
  match t with
  | TTime => false
  | TIdOr _ _ _ fs _ => forallb no_time fs
  | TOpt t' | TList t' => no_time t'
  | _ => true
  end.

Lemma panic_attrs P ps : lifting P -> Forall suffixing ps -> Forall (panic_in P) ps -> panic_in P (p_attrs ps).
Proof.
  intros HP Hs Hp. induction Hp as [|p ps Hp Hps IH]; [apply panic_ret|]. inversion Hs; subst.
  cbn [p_attrs]. destruct ps as [|q ps]; [now apply panic_pmap|].
  apply panic_bind; auto. intro v. apply panic_bind; auto using suffixing_comma; [apply never_in, never_comma|].
  intros _. apply panic_bind; auto; [apply suffixing_attrs; auto|]. intro l. apply panic_ret.
Qed.

Lemma never_keyword ws kws : never (p_keyword ws kws).
Proof.
  unfold p_keyword. apply panic_alts. apply Forall_forall. intros p Hp. apply in_map_iff in Hp as (k & <- & _).
  destruct ws; [apply panic_surrounded; auto|]; apply panic_tag.
Qed.

Lemma never_closer ws c : never (p_closer ws c).
Proof. unfold p_closer. destruct ws; [apply panic_surrounded; auto|]; apply panic_tag. Qed.

Lemma panic_row P kws ws ps closer :
  lifting P -> Forall suffixing ps -> Forall (panic_in P) ps -> panic_in P (p_row kws ws ps closer).
Proof.
  intros HP Hs Hp. unfold p_row. apply panic_bind; auto using suffixing_keyword.
  { apply never_in, never_keyword. }
  intros _. apply panic_bind; auto using suffixing_attrs, panic_attrs. intro l.
  apply panic_bind; auto using suffixing_closer; [apply never_in, never_closer|]. intros _. apply panic_ret.
Qed.

Lemma never_ty t : no_time t = true -> never (p_ty t).
Proof.
  induction t as [| | | | | | | | | | |vs|ks chk|k kws ws fs closer IH|t IH|t IH] using fty_rect';
    intro H; cbn [p_ty]; try discriminate.
  - apply panic_pmap, panic_pmap, never_quote_word.
  - apply panic_pmap, never_real.
  - apply panic_pmap, never_dec_int.
  - apply panic_pmap, never_dec_int.
  - apply panic_pmap, never_bool.
  - apply panic_pmap. intros s E. now apply p_guid_no_panic in E.
  - apply panic_pmap, never_enum.
  - apply panic_pmap, never_vec2.
  - apply panic_pmap, never_vec3.
  - apply never_value.
  - apply panic_pmap, never_enum.
  - apply panic_pmap, never_id.
  - apply panic_alt; [apply panic_pmap, never_id|]. apply panic_pmap. apply panic_row; auto using suffixing_tys.
    cbn [no_time] in H. rewrite forallb_forall in H. rewrite Forall_forall in IH.
    apply Forall_forall. intros p Hp. apply in_map_iff in Hp as (f & <- & Hf). apply IH; auto.
  - repeat apply panic_alt; try (apply panic_pmap, panic_tag); auto.
    unfold fallback. destruct t; try apply panic_fail. apply panic_pmap, never_dec_int.
  - apply panic_pmap. apply panic_list; auto using suffixing_ty.
Qed.

(** ** Owner histories *)

Lemma attr_app a b : attr_text a -> attr_text b -> attr_text (a ++ b).
Proof.
  induction 1 as [|c s Hc Hs IH|g s Hg Hs IH]; intro Hb; auto.
  - cbn [app]. apply attr_one; auto.
  - rewrite <- app_assoc. apply attr_gap; auto.
Qed.

Lemma attr_of_gap g : gap g -> attr_text g.
Proof. intro H. rewrite <- (app_nil_r g). apply attr_gap; auto. constructor. Qed.

Lemma attr_chars s : Forall attr_char s -> attr_text s.
Proof. induction 1; constructor; auto. Qed.

Definition far_here (s : text) : Prop :=
  exists b ds z c, s = b ++ ds ++ c /\ attr_text b /\ numeral z ds /\ in_calendar z = false.

Lemma far_here_after b s : attr_text b -> far_here s -> far_here (b ++ s).
Proof.
  intros Hb (b' & ds & z & c & -> & H1 & H2 & H3). exists (b ++ b'), ds, z, c.
  rewrite <- app_assoc. auto using attr_app.
Qed.

Definition eats {A} (p : parser A) : Prop :=
  forall s a r, p s = ROk a r -> exists b, s = b ++ r /\ attr_text b.

Lemma numeral_of s neg ds r : recognize_dec_int s = ROk (neg, ds) r ->
  exists n, s = n ++ r /\
    numeral (if neg then - Z.of_N (digits_value ds) else Z.of_N (digits_value ds))%Z n.
Proof.
  unfold recognize_dec_int. destruct s as [|c s]; [discriminate|].
  assert (Hsg : forall neg' s', match s' with
      | [] => RBack
      | c :: r => if (49 <=? c) && (c <=? 57) then let (a, b) := span is_digit r in ROk (neg', c :: a) b else RBack
      end = ROk (neg, ds) r -> neg' = neg /\ s' = ds ++ r /\ Forall (fun c => 48 <= c <= 57) ds /\ ds <> []).
  { intros neg' [|x s'] H; [discriminate|]. destruct ((49 <=? x) && (x <=? 57)) eqn:E; [|discriminate].
    destruct (span is_digit s') as [a b] eqn:Es. injection H as <- <- <-.
    apply span_spec in Es as (-> & Ha & _). split; auto. split; auto. split; [|discriminate].
    constructor; [lia|]. apply Forall_forall. intros y Hy. rewrite forallb_forall in Ha.
    specialize (Ha y Hy). unfold is_digit in Ha. lia. }
  destruct (N.eqb_spec c 43) as [->|H43].
  { intro H. apply Hsg in H as (<- & -> & Hd & Hne). exists (43 :: ds). split; auto.
    exists [43], ds. auto 10. }
  destruct (N.eqb_spec c 45) as [->|H45].
  { intro H. apply Hsg in H as (<- & -> & Hd & Hne). exists (45 :: ds). split; auto.
    exists [45], ds. auto 10. }
  destruct (N.eqb_spec c 48) as [->|H48].
  { intro H. injection H as <- <- <-. exists [48]. split; auto. exists [], [48].
    repeat split; auto; [repeat constructor; lia|discriminate]. }
  intro H. apply (Hsg false (c :: s)) in H as (<- & E & Hd & Hne). exists ds. split; auto. exists [], ds. auto 10.
Qed.

Lemma numeral_attr z ds : numeral z ds -> attr_text ds.
Proof.
  intros (sg & d & Hd & _ & -> & Hs). apply attr_app; apply attr_chars.
  - destruct Hs as [[[-> | ->] _]|[-> _]]; repeat constructor; unfold attr_char; cbv; lia.
  - eapply Forall_impl; [|exact Hd]. unfold attr_char. cbv beta. intros; lia.
Qed.

Lemma eats_pmap {A B} (f : A -> B) p : eats p -> eats (pmap f p).
Proof. intros H s b r E. apply pmap_ok in E as (a & E & _). eauto. Qed.

Lemma eats_alt {A} (p q : parser A) : eats p -> eats q -> eats (alt p q).
Proof. intros Hp Hq s a r E. unfold alt in E. destruct (p s) eqn:E1; try discriminate; [injection E as <- <-|]; eauto. Qed.

Lemma eats_tag t : Forall attr_char t -> eats (tag t).
Proof. intros H s a r E. apply tag_ok in E as ->. exists t. auto using attr_chars. Qed.

Lemma eats_surrounded {A} (p : parser A) : eats p -> eats (surrounded p).
Proof.
  intros H s a r E. rewrite surrounded_eq in E. destruct (p (skip s)) as [b r'| | |] eqn:Ep; try discriminate.
  injection E as -> <-. apply H in Ep as (w & Es & Hw).
  destruct (skip_spec s) as (g & Eg & Hg & _). destruct (skip_spec r') as (g' & Eg' & Hg' & _).
  exists (g ++ w ++ g'). split.
  - rewrite <- !app_assoc. rewrite <- Eg', <- Es. exact Eg.
  - apply attr_app; [now apply attr_of_gap|]. apply attr_app; auto. now apply attr_of_gap.
Qed.

Lemma eats_bind {A B} (p : parser A) (f : A -> parser B) : eats p -> (forall a, eats (f a)) -> eats (bind p f).
Proof.
  intros Hp Hf s b r E. apply bind_ok in E as (a & r1 & E1 & E2).
  apply Hp in E1 as (w1 & -> & H1). apply Hf in E2 as (w2 & -> & H2). exists (w1 ++ w2).
  rewrite <- app_assoc. auto using attr_app.
Qed.

Lemma eats_fail {A} : eats (@fail A).
Proof. intros s a r E. discriminate. Qed.

Lemma eats_variants vs : Forall (Forall attr_char) vs -> forall i, eats (p_variants i vs).
Proof.
  induction 1; intro i; cbn [p_variants]; [apply eats_fail|]. apply eats_alt; auto.
  apply eats_pmap, eats_tag; auto.
Qed.

Lemma eats_int : eats p_int.
Proof.
  intros s z r E. unfold p_int, dec_int in E. destruct (recognize_dec_int s) as [[neg ds] r'| | |] eqn:Er; try discriminate.
  destruct (in_range _ _ _); [|discriminate]. injection E as _ <-.
  apply numeral_of in Er as (n & -> & Hn). exists n. split; auto. now apply numeral_attr in Hn.
Qed.

Lemma eats_id : eats p_id.
Proof.
  apply eats_bind; [apply eats_tag; repeat constructor; unfold attr_char; cbv; lia|].
  intros _ s n r E. unfold dec_uint_usize in E.
  destruct (recognize_dec_uint s) as [ds r'| | |] eqn:Er; try discriminate.
  destruct (_ <=? _); [|discriminate]. injection E as _ <-. exists ds.
  unfold recognize_dec_uint in Er. destruct s as [|c s]; [discriminate|].
  destruct ((49 <=? c) && (c <=? 57)) eqn:Ec.
  - destruct (span is_digit s) as [a b] eqn:Es. injection Er as <- <-. apply span_spec in Es as (-> & Ha & _).
    split; auto. apply attr_chars. constructor; [unfold attr_char; lia|].
    apply Forall_forall. intros y Hy. rewrite forallb_forall in Ha. specialize (Ha y Hy).
    unfold is_digit in Ha. unfold attr_char. lia.
  - destruct (N.eqb_spec c 48) as [->|]; [|discriminate]. injection Er as <- <-. split; auto.
    apply attr_chars. repeat constructor; unfold attr_char; lia.
Qed.

Lemma timestamp_panic s : p_timestamp s = RPanic -> far_here s.
Proof.
  unfold p_timestamp, pmap_unwrap. destruct (p_int s) as [z r| | |] eqn:E; try discriminate.
  - destruct (in_range ts_min ts_max z) eqn:Hr; [discriminate|]. intros _.
    unfold p_int, dec_int in E. destruct (recognize_dec_int s) as [[neg ds] r'| | |] eqn:Er; try discriminate.
    destruct (in_range i64_min i64_max _); [|discriminate]. injection E as <- <-.
    apply numeral_of in Er as (n & -> & Hn). exists [], n. eexists. exists r'. split; [reflexivity|].
    split; [constructor|]. split; [exact Hn|]. rewrite in_calendar_range. exact Hr.
  - intros _. now apply never_dec_int in E.
Qed.

Lemma eats_timestamp : eats p_timestamp.
Proof.
  intros s z r E. unfold p_timestamp, pmap_unwrap in E. destruct (p_int s) as [i r'| | |] eqn:Ei; try discriminate.
  destruct (in_range ts_min ts_max i); [|discriminate]. injection E as _ <-. now apply eats_int in Ei.
Qed.

(** The attribute types of an owner history. *)
Definition attr_charb (c : N) : bool :=
  is_digit c || ((65 <=? c) && (c <=? 90)) || existsb (N.eqb c) [35; 36; 42; 43; 44; 45; 46; 95].
Fixpoint plain_ty (t : fty) : bool :=
  match t with
  | TTime => true
  | TRef _ _ => true
  | TEnum vs => forallb (forallb attr_charb) vs
  | TOpt t' => plain_ty t'
  | _ => false
  end.

Lemma attr_charb_ok c : attr_charb c = true -> attr_char c.
Proof. unfold attr_charb, attr_char, is_digit. cbn [existsb]. lia. Qed.

Lemma plain_eats t : plain_ty t = true -> eats (p_ty t) /\ panic_in far_here (p_ty t).
Proof.
  induction t as [| | | | | | | | | | |vs|ks chk|k kws ws fs closer IH|t IH|t IH] using fty_rect';
    cbn [plain_ty]; intro H; try discriminate; cbn [p_ty].
  - split; [apply eats_pmap, eats_timestamp|]. apply panic_pmap. exact timestamp_panic.
  - split; [|apply panic_pmap; apply never_in, never_enum]. apply eats_pmap, eats_surrounded, eats_variants.
    apply Forall_forall. intros x Hx. rewrite forallb_forall in H. specialize (H x Hx).
    rewrite forallb_forall in H. apply Forall_forall. intros c Hc. now apply attr_charb_ok, H.
  - split; [apply eats_pmap, eats_id|]. apply panic_pmap, never_in, never_id.
  - destruct (IH H) as [He Hp]. split.
    + repeat apply eats_alt; auto; try (apply eats_pmap, eats_tag; repeat constructor; unfold attr_char; cbv; lia).
      destruct t; try discriminate; apply eats_fail.
    + repeat apply panic_alt; auto; try (apply panic_pmap, panic_tag). destruct t; try discriminate; apply panic_fail.
Qed.

Lemma panic_bind_eats {A B} (p : parser A) (f : A -> parser B) :
  eats p -> panic_in far_here p -> (forall a, panic_in far_here (f a)) -> panic_in far_here (bind p f).
Proof.
  intros He Hp Hf s H. unfold bind in H. destruct (p s) as [a r| | |] eqn:E; try discriminate.
  - apply Hf in H. apply He in E as (b & -> & Hb). now apply far_here_after.
  - now apply Hp.
Qed.

Lemma far_attrs fs : forallb plain_ty fs = true ->
  eats (p_attrs (map p_ty fs)) /\ panic_in far_here (p_attrs (map p_ty fs)).
Proof.
  assert (Hret : forall A (a : A), eats (ret a)).
  { intros A a s b r E. injection E as _ ->. exists []. split; auto. constructor. }
  assert (Hcom : eats p_comma).
  { unfold p_comma. apply eats_surrounded, eats_tag. repeat constructor; unfold attr_char; cbv; lia. }
  induction fs as [|f fs IH]; intro H; [split; [apply Hret|apply panic_ret]|].
  cbn [forallb] in H. apply andb_true_iff in H as [H1 H2]. apply plain_eats in H1 as [He Hp].
  specialize (IH H2) as [He' Hp']. cbn [map p_attrs]. destruct fs as [|f' fs].
  - split; [now apply eats_pmap|now apply panic_pmap].
  - cbn [map] in He', Hp' |- *. split.
    + apply eats_bind; auto. intro v. apply eats_bind; auto. intros _. apply eats_bind; auto.
    + apply panic_bind_eats; auto. intro v. apply panic_bind_eats; auto; [apply never_in, never_comma|].
      intros _. apply panic_bind_eats; auto. intro l. apply panic_ret.
Qed.

(** ** Objects and data sections *)

Lemma lifting_far : lifting far_stamp.
Proof.
  intros a s (a' & b & ds & z & c & -> & H). exists (a ++ a'), b, ds, z, c. rewrite <- app_assoc. auto.
Qed.

Lemma panic_owner_history : panic_in far_stamp (p_kind KOwnerHistory).
Proof.
  unfold p_kind. cbn [row_of]. apply panic_pmap. unfold p_row. cbn [row_kws row_ws row_fields row_closer row_OwnerHistory].
  intros s H. unfold bind in H at 1.
  destruct (p_keyword false [lit "IFCOWNERHISTORY("] s) as [u r| | |] eqn:E; try discriminate.
  - assert (Es : s = lit "IFCOWNERHISTORY(" ++ r).
    { unfold p_keyword in E. cbn [map alts] in E. apply alt_ok in E as [E|[_ E]]; [now apply tag_ok in E|discriminate]. }
    assert (Hf : far_here r).
    { revert r E Es H. intros r _ _ H.
      destruct (far_attrs (row_fields row_OwnerHistory) eq_refl) as [He Hp].
      cbn [row_fields row_OwnerHistory] in He, Hp.
      revert H. apply panic_bind_eats; auto. intro l. apply never_in.
      apply panic_bind; [auto|apply suffixing_closer|apply never_closer|]. intros _. apply panic_ret. }
    destruct Hf as (b & ds & z & c & -> & H1 & H2 & H3). exists [], b, ds, z, c. auto.
  - now apply never_keyword in E.
Qed.

Definition kind_no_time (k : kind) : bool :=
  match row_of k with
  | Some r => forallb no_time (row_fields r)
  | None => true
  end.

Lemma kinds_no_time k : k <> KOwnerHistory -> kind_no_time k = true.
Proof. destruct k; intro H; try (vm_compute; reflexivity). congruence. Qed.

Lemma panic_kind k : panic_in far_stamp (p_kind k).
Proof.
  destruct (kind_eqb k KOwnerHistory) eqn:E.
  - apply kind_eqb_eq in E as ->. exact panic_owner_history.
  - assert (H : kind_no_time k = true) by (apply kinds_no_time; intros ->; discriminate E).
    apply never_in. unfold kind_no_time in H. unfold p_kind. destruct (row_of k) as [r|]; [|apply panic_fail].
    apply panic_pmap, panic_row; auto using suffixing_tys. rewrite forallb_forall in H.
    apply Forall_forall. intros p Hp. apply in_map_iff in Hp as (f & <- & Hf). now apply never_ty, H.
Qed.

Lemma never_dummy : never p_dummy.
Proof.
  apply panic_pmap, panic_repeat_till; auto using suffixing_any; [apply panic_any|].
  apply panic_surrounded; auto. apply panic_tag.
Qed.

Lemma panic_obj : panic_in far_stamp p_obj.
Proof.
  apply panic_surrounded; [exact lifting_far|]. apply panic_alt.
  - apply panic_alts. apply Forall_forall. intros p Hp. apply in_map_iff in Hp as (k & <- & _). apply panic_kind.
  - apply panic_pmap, never_in, never_dummy.
Qed.

Lemma suffixing_line : suffixing p_line.
Proof.
  unfold p_line. apply suffixing_surrounded, suffixing_bind; [apply suffixing_id|]. intro n.
  apply suffixing_bind; auto. intros _. apply suffixing_bind; [apply suffixing_obj|]. auto.
Qed.

Lemma panic_line : panic_in far_stamp p_line.
Proof.
  pose proof lifting_far as L. apply panic_surrounded; auto.
  apply panic_bind; auto using suffixing_id; [apply never_in, never_id|]. intro n.
  apply panic_bind; auto; [apply panic_surrounded; auto; apply panic_tag|]. intros _.
  apply panic_bind; auto using suffixing_obj, panic_obj. intro e. apply panic_ret.
Qed.

Lemma panic_data : panic_in far_stamp p_data.
Proof.
  pose proof lifting_far as L. apply panic_surrounded; auto. apply panic_bind; auto; [apply panic_tag|]. intros _.
  apply panic_pmap, panic_pmap, panic_repeat_till; auto using suffixing_line, panic_line.
  apply panic_surrounded; auto. apply panic_tag.
Qed.

(** ** Headers *)

Lemma suffixing_data : suffixing p_data.
Proof.
  unfold p_data, p_lines. apply suffixing_surrounded, suffixing_bind; auto. intros _.
  apply suffixing_pmap, suffixing_pmap, suffixing_repeat_till; auto using suffixing_line.
Qed.

Lemma never_ws : never p_space_or_comment.
Proof. intros s H. rewrite ws_skip in H. discriminate. Qed.

Lemma suffixing_open n : suffixing (p_open n).
Proof. unfold p_open. auto 10 using suffixing_ws. Qed.

Lemma never_open n : never (p_open n).
Proof.
  apply panic_surrounded; auto. apply panic_bind; auto; [apply panic_tag|]. intros _.
  apply panic_bind; auto using suffixing_ws, never_ws. intros _. apply panic_tag.
Qed.

Lemma suffixing_end : suffixing p_end.
Proof. unfold p_end. auto 10 using suffixing_ws. Qed.

Lemma never_end : never p_end.
Proof.
  apply panic_surrounded; auto. apply panic_bind; auto; [apply panic_tag|]. intros _.
  apply panic_bind; auto using suffixing_ws, never_ws. intros _. apply panic_tag.
Qed.

Lemma suffixing_repeat0 {A} (f : parser A) : suffixing f -> suffixing (repeat0 f).
Proof.
  intros Hf s. unfold repeat0. generalize (S (length s)). intro n. revert s.
  induction n as [|n IH]; intros s l r H; [discriminate|]. cbn [repeat0_fuel] in H.
  destruct (f s) as [a r1| | |] eqn:Ef; try discriminate.
  - destruct (repeat0_fuel n f r1) as [l1 r2| | |] eqn:E; try discriminate. injection H as _ <-.
    apply Hf in Ef as [w ->]. apply IH in E as [w' ->]. exists (w ++ w'). now rewrite app_assoc.
  - injection H as _ <-. now exists [].
Qed.

Lemma suffixing_separated {A B} (f : parser A) (g : parser B) : suffixing f -> suffixing g -> suffixing (separated f g).
Proof.
  intros Hf Hg s l r H. unfold separated in H. destruct (f s) as [a r1| | |] eqn:Ef; try discriminate.
  - destruct (separated_tail_fuel (S (length r1)) f g r1) as [l1 r2| | |] eqn:E; try discriminate. injection H as _ <-.
    apply Hf in Ef as [w ->]. assert (Hr : exists w', r1 = w' ++ r2); [|destruct Hr as [w' ->]; exists (w ++ w'); now rewrite app_assoc].
    revert E. generalize (S (length r1)). clear w a. intro n. revert r1 l1 r2.
    induction n as [|n IH]; intros r1 l1 r2 H; [discriminate|]. cbn [separated_tail_fuel] in H.
    destruct (g r1) as [b r3| | |] eqn:Eg; try discriminate.
    + apply Hg in Eg as [w ->]. destruct (f r3) as [a r4| | |] eqn:Ef; try discriminate.
      * destruct (separated_tail_fuel n f g r4) as [l5 r5| | |] eqn:E; try discriminate. injection H as _ <-.
        apply Hf in Ef as [w' ->]. apply IH in E as [w2 ->]. exists (w ++ w' ++ w2). now rewrite <- !app_assoc.
      * injection H as _ <-. now exists [].
    + injection H as _ <-. now exists [].
  - injection H as _ <-. now exists [].
Qed.

Lemma suffixing_view_item : suffixing p_view_item.
Proof. unfold p_view_item. auto using suffixing_repeat0. Qed.

Lemma suffixing_view_items : suffixing p_view_items.
Proof. unfold p_view_items. auto 10 using suffixing_separated, suffixing_view_item. Qed.

Lemma suffixing_view v : suffixing (p_view v).
Proof.
  unfold p_view, p_ident. apply suffixing_bind; [apply suffixing_ws|]. intros _.
  apply suffixing_bind; [apply suffixing_take_while0|]. intro n.
  apply suffixing_bind; [apply suffixing_ws|]. intros _.
  apply suffixing_bind; [apply suffixing_view_items|]. intro l.
  apply suffixing_bind; [apply suffixing_ws|]. auto.
Qed.

Lemma never_view v : never (p_view v).
Proof.
  unfold p_view, p_ident. apply panic_bind; auto using suffixing_ws, never_ws. intros _.
  apply panic_bind; auto; [apply panic_while0|]. intro n.
  apply panic_bind; auto using suffixing_ws, never_ws. intros _.
  apply panic_bind; auto using suffixing_view_items.
  - unfold p_view_items. apply panic_bind; auto; [apply panic_tag|]. intros _.
    apply panic_bind; auto using suffixing_separated, suffixing_view_item.
    + apply panic_separated; auto using suffixing_view_item, panic_tag.
      apply panic_pmap, panic_repeat0; auto. apply panic_one_of.
    + intro l. apply panic_bind; auto; [apply panic_tag|]. intros _. apply panic_ret.
  - intro l. apply panic_bind; auto using suffixing_ws, never_ws. intros _. apply panic_ret.
Qed.

Lemma suffixing_views v : suffixing (p_views v).
Proof.
  unfold p_views. apply suffixing_bind; auto. intros _. apply suffixing_bind; auto.
  apply suffixing_alt; auto. apply suffixing_separated; auto. apply suffixing_surrounded.
  apply suffixing_bind; auto. intros _. apply suffixing_bind; auto using suffixing_view.
Qed.

Lemma never_views v : never (p_views v).
Proof.
  assert (Hs : suffixing (surrounded (bind (tag (lit "'")) (fun _ =>
     bind (p_view v) (fun d => bind (tag (lit "'")) (fun _ => ret d)))))).
  { apply suffixing_surrounded. apply suffixing_bind; auto. intros _. apply suffixing_bind; auto using suffixing_view. }
  unfold p_views. apply panic_bind; auto; [apply panic_tag|]. intros _. apply panic_bind; auto using suffixing_separated.
  - apply panic_alt; [apply panic_pmap, panic_tag|]. apply panic_separated; auto; [|apply panic_tag].
    apply panic_surrounded; auto. apply panic_bind; auto; [apply panic_tag|]. intros _.
    apply panic_bind; auto using suffixing_view, never_view. intro d. apply panic_bind; auto; [apply panic_tag|].
    intros _. apply panic_ret.
  - intro l. apply panic_bind; auto; [apply panic_tag|]. intros _. apply panic_ret.
Qed.

Lemma suffixing_level : suffixing p_level.
Proof. unfold p_level. auto. Qed.

Lemma never_level : never p_level.
Proof.
  unfold p_level. apply panic_bind; auto; [apply panic_tag|]. intros _.
  apply panic_bind; auto; [apply panic_surrounded; auto; apply panic_tag|]. intros _. apply panic_tag.
Qed.

Lemma suffixing_description v : suffixing (p_description v).
Proof.
  unfold p_description. apply suffixing_bind; [apply suffixing_open|]. intros _.
  apply suffixing_bind; [apply suffixing_views|]. intro l. apply suffixing_bind; [apply suffixing_comma|]. intros _.
  apply suffixing_bind; [apply suffixing_level|]. intros _. apply suffixing_bind; [apply suffixing_end|]. auto.
Qed.

Lemma never_description v : never (p_description v).
Proof.
  unfold p_description. apply panic_bind; auto using suffixing_open, never_open. intros _.
  apply panic_bind; auto using suffixing_views, never_views. intro l.
  apply panic_bind; auto using suffixing_comma, never_comma. intros _.
  apply panic_bind; auto using suffixing_level, never_level. intros _.
  apply panic_bind; auto using suffixing_end, never_end. intros _. apply panic_ret.
Qed.

Lemma suffixing_words : suffixing p_words.
Proof. unfold p_words. auto 10 using suffixing_separated, suffixing_quote_word. Qed.

Lemma never_words : never p_words.
Proof.
  unfold p_words. apply panic_bind; auto; [apply panic_tag|]. intros _.
  apply panic_bind; auto using suffixing_separated, suffixing_quote_word.
  - apply panic_separated; auto using suffixing_quote_word; [|apply panic_tag].
    apply panic_surrounded; auto using never_quote_word.
  - intro l. apply panic_bind; auto; [apply panic_tag|]. intros _. apply panic_ret.
Qed.

Lemma open_ok name s u r : p_open name s = ROk u r ->
  exists g0 g1 g2, s = g0 ++ name ++ g1 ++ lit "(" ++ g2 ++ r /\ gap g0 /\ gap g1 /\ gap g2.
Proof.
  unfold p_open. rewrite surrounded_eq. intro H.
  destruct ((tag name ;;; p_space_or_comment ;;; tag (lit "("))%parser (skip s)) as [u' r'| | |] eqn:E; try discriminate.
  injection H as _ <-. apply bind_ok in E as (u1 & r1 & E1 & E). apply tag_ok in E1.
  apply bind_ok in E as (u2 & r2 & E2 & E). rewrite ws_skip in E2. injection E2 as _ <-. apply tag_ok in E.
  destruct (skip_spec s) as (g0 & Es & Hg0 & _). destruct (skip_spec r1) as (g1 & Er & Hg1 & _).
  destruct (skip_spec r') as (g2 & Er' & Hg2 & _). exists g0, g1, g2. split; auto.
  rewrite <- Er', <- E, <- Er, <- E1. exact Es.
Qed.

Lemma comma_ok s u r : p_comma s = ROk u r -> exists g0 g1, s = g0 ++ lit "," ++ g1 ++ r /\ gap g0 /\ gap g1.
Proof.
  unfold p_comma. rewrite surrounded_eq. intro H. destruct (tag (lit ",") (skip s)) as [u' r'| | |] eqn:E; try discriminate.
  injection H as _ <-. apply tag_ok in E. destruct (skip_spec s) as (g0 & Es & Hg0 & _).
  destruct (skip_spec r') as (g1 & Er' & Hg1 & _). exists g0, g1. split; auto. rewrite <- Er', <- E. exact Es.
Qed.

Lemma lifting_bad v : lifting (bad_stamp v).
Proof.
  intros a s (w & (a' & g1 & g2 & n & g3 & g4 & r & -> & H) & Hw). exists w. split; auto.
  exists (a ++ a'), g1, g2, n, g3, g4, r. rewrite <- app_assoc. auto.
Qed.

Lemma panic_details v : panic_in (bad_stamp v) (p_details v).
Proof.
  intros s H. unfold p_details in H. unfold bind in H at 1.
  destruct (p_open (lit "FILE_NAME") s) as [u r| | |] eqn:E1; try discriminate; [|now apply never_open in E1].
  apply open_ok in E1 as (g0 & g1 & g2 & -> & Hg0 & Hg1 & Hg2). unfold bind in H at 1.
  destruct (p_file_name r) as [n r1| | |] eqn:E2; try discriminate.
  2:{ exfalso. assert (Hf : never p_file_name) by (apply panic_alt; [apply panic_pmap, panic_tag|apply never_quote_word]).
      exact (Hf _ E2). }
  assert (Hn : exists m, r = m ++ r1 /\ (m = lit "$" \/ exists m', plain m' /\ m = quoted m')).
  { unfold p_file_name in E2. apply alt_ok in E2 as [E2|[_ E2]].
    - apply pmap_ok in E2 as (? & E2 & _). apply tag_ok in E2. eauto.
    - apply quote_word_inv in E2 as [-> Hp]. exists (quoted n). unfold quoted. rewrite <- !app_assoc. eauto. }
  destruct Hn as (m & -> & Hm). unfold bind in H at 1.
  destruct (p_comma r1) as [u1 r2| | |] eqn:E3; try discriminate; [|now apply never_comma in E3].
  apply comma_ok in E3 as (g3 & g4 & -> & Hg3 & Hg4). unfold bind in H at 1.
  destruct (p_time v r2) as [t r3| | |] eqn:E4; try discriminate.
  - exfalso. revert H. 
    apply panic_bind with (P := fun _ => False); auto using suffixing_comma, never_comma. intros _.
    apply panic_bind; auto using suffixing_words, never_words. intro a.
    apply panic_bind; auto using suffixing_comma, never_comma. intros _.
    apply panic_bind; auto using suffixing_words, never_words. intro o.
    apply panic_bind; auto using suffixing_comma, never_comma. intros _.
    apply panic_bind; auto using suffixing_quote_word, never_quote_word. intro p.
    apply panic_bind; auto using suffixing_comma, never_comma. intros _.
    apply panic_bind; auto using suffixing_quote_word, never_quote_word. intro y.
    apply panic_bind; auto using suffixing_comma, never_comma. intros _.
    apply panic_bind; auto using suffixing_quote_word, never_quote_word. intro z.
    apply panic_bind; auto using suffixing_end, never_end. intros _. apply panic_ret.
  - clear H. unfold p_time, pmap_unwrap in E4.
    destruct (p_quote_word r2) as [w r3| | |] eqn:E5; try discriminate; [|now apply never_quote_word in E5].
    destruct (time_from_string v w) eqn:Ew; [discriminate|]. apply quote_word_inv in E5 as [-> Hp].
    exists w. split.
    + exists g0, g1, g2, m, g3, g4, r3. unfold quoted. rewrite <- !app_assoc. auto 10.
    + unfold time_from_string in Ew. destruct (rfc3339 v w); [discriminate|]. auto.
Qed.

Lemma suffixing_schema_inner : suffixing p_schema_inner.
Proof.
  unfold p_schema_inner. apply suffixing_bind; [apply suffixing_alts; repeat constructor; apply suffixing_tag|].
  intros _. apply suffixing_alts. repeat constructor; apply suffixing_pmap; auto;
    apply suffixing_alts; repeat constructor; apply suffixing_tag.
Qed.

Lemma never_schema_inner : never p_schema_inner.
Proof.
  unfold p_schema_inner. apply panic_bind; auto; try (apply panic_alts; repeat constructor; apply panic_tag).
  - apply suffixing_alts; repeat constructor; apply suffixing_tag.
  - intros _. apply panic_alts. repeat constructor; apply panic_pmap; try apply panic_tag;
    apply panic_alts; repeat constructor; apply panic_tag.
Qed.

Lemma suffixing_schema_item : suffixing p_schema_item.
Proof.
  unfold p_schema_item. apply suffixing_surrounded, suffixing_bind; auto. intros _.
  apply suffixing_bind; auto using suffixing_schema_inner.
Qed.

Lemma never_schema_item : never p_schema_item.
Proof.
  unfold p_schema_item. apply panic_surrounded; auto. apply panic_bind; auto; [apply panic_tag|]. intros _.
  apply panic_bind; auto using suffixing_schema_inner, never_schema_inner. intro x.
  apply panic_bind; auto; [apply panic_tag|]. intros _. apply panic_ret.
Qed.

Lemma suffixing_schema_list : suffixing p_schema_list.
Proof. unfold p_schema_list. auto 10 using suffixing_separated, suffixing_schema_item. Qed.

Lemma suffixing_schema : suffixing p_schema.
Proof. unfold p_schema. auto 10 using suffixing_open, suffixing_schema_list, suffixing_end. Qed.

Lemma never_schema : never p_schema.
Proof.
  unfold p_schema. apply panic_bind; auto using suffixing_open, never_open. intros _.
  apply panic_bind; auto using suffixing_schema_list.
  - unfold p_schema_list. apply panic_bind; auto; [apply panic_tag|]. intros _.
    apply panic_bind; auto using suffixing_separated, suffixing_schema_item.
    + apply panic_separated; auto using suffixing_schema_item, never_schema_item. apply panic_tag.
    + intro l. apply panic_bind; auto; [apply panic_tag|]. intros _. apply panic_ret.
  - intro l. apply panic_bind; auto using suffixing_end, never_end. intros _. apply panic_ret.
Qed.

Lemma suffixing_version : suffixing p_version.
Proof. unfold p_version. auto 10 using suffixing_ws. Qed.

Lemma never_version : never p_version.
Proof.
  unfold p_version. apply panic_bind; auto using suffixing_ws, never_ws. intros _.
  apply panic_bind; auto; [apply panic_tag|]. intros _.
  apply panic_bind; auto; [apply panic_tag|]. intros _. apply never_ws.
Qed.

Lemma suffixing_file_name : suffixing p_file_name.
Proof. unfold p_file_name. auto using suffixing_quote_word. Qed.

Lemma suffixing_time v : suffixing (p_time v).
Proof. unfold p_time. apply suffixing_pmap_unwrap, suffixing_quote_word. Qed.

Lemma suffixing_details v : suffixing (p_details v).
Proof.
  unfold p_details.
  repeat (apply suffixing_bind;
    [first [apply suffixing_open|apply suffixing_file_name|apply suffixing_comma|apply suffixing_time
           |apply suffixing_words|apply suffixing_quote_word|apply suffixing_end]|intro]). auto.
Qed.

Lemma panic_header v : panic_in (bad_stamp v) (p_header v).
Proof.
  pose proof (lifting_bad v) as L. unfold p_header.
  apply panic_bind; auto using suffixing_ws; [apply never_in, never_ws|]. intros _.
  apply panic_bind; auto using suffixing_version; [apply never_in, never_version|]. intros _.
  apply panic_bind; auto; [apply panic_surrounded; auto; apply panic_tag|]. intros _.
  apply panic_bind; auto using suffixing_description; [apply never_in, never_description|]. intro d.
  apply panic_bind; auto using suffixing_ws; [apply never_in, never_ws|]. intros _.
  apply panic_bind; auto using suffixing_details, panic_details. intro n.
  apply panic_bind; auto using suffixing_ws; [apply never_in, never_ws|]. intros _.
  apply panic_bind; auto using suffixing_schema; [apply never_in, never_schema|]. intro c.
  apply panic_bind; auto; [apply panic_surrounded; auto; apply panic_tag|]. intros _. apply panic_ret.
Qed.

Lemma suffixing_header v : suffixing (p_header v).
Proof.
  unfold p_header.
  repeat (apply suffixing_bind;
    [first [apply suffixing_ws|apply suffixing_version|apply suffixing_description|apply suffixing_details
           |apply suffixing_schema|apply suffixing_surrounded, suffixing_tag]|intro]). auto.
Qed.

Lemma never_footer : never p_footer.
Proof.
  unfold p_footer. apply panic_bind; auto using suffixing_ws, never_ws. intros _.
  apply panic_bind; auto 10 using suffixing_ws; [|intros _; apply never_ws].
  apply panic_bind; auto using suffixing_ws, never_ws. intros _.
  apply panic_bind; auto; [apply panic_tag|]. intros _. apply panic_bind; auto; [apply panic_tag|]. intros _.
  apply panic_bind; auto; [apply panic_tag|]. intros _. apply never_ws.
Qed.

Lemma panic_ifc v s : p_ifc v s = RPanic -> bad_stamp v s \/ far_stamp s.
Proof.
  unfold p_ifc. unfold bind at 1. destruct (p_header v s) as [h r| | |] eqn:Eh; intro H; try discriminate.
  - right. apply suffixing_header in Eh as [w ->]. apply lifting_far. revert H.
    apply panic_bind; auto using lifting_far, suffixing_data, panic_data. intro d.
    apply never_in. intros s' H. unfold bind in H. destruct (p_footer s') eqn:E; try discriminate.
    now apply never_footer in E.
  - left. now apply panic_header.
Qed.
