(** What is read is spelled by the text that is taken. *)

From Coq Require Import String Ascii List NArith ZArith Bool Lia ZifyBool ZifyNat ZifyN QArith.
From Verif Require Import Base Prims BaseFacts Spec TextSpec TextFacts PrimsFacts StringFacts Guid GuidFacts
  Float RoundFacts FloatFacts ArithSpec ArithRound Kind Types TypesFacts TypesFacts2 Schema Entity EntityFacts
  DataMap DataSpec DataMapFacts Header File HeaderSpec FileSpec FileFacts FileFacts2 PanicFacts SpellSpec.
Import ListNotations.
Open Scope N_scope.

(** ** Numerals *)

Lemma number_value ds : number ds = digits_value ds.
Proof.
  unfold number, digits_value. generalize 0. induction ds as [|c ds IH]; intro a; auto. cbn [fold_left digits_value_acc]. apply IH.
Qed.

Lemma digits_text ds : forallb is_digit ds = true <-> digit_text ds.
Proof.
  unfold digit_text. rewrite forallb_forall, Forall_forall. unfold is_digit.
  split; intros H x Hx; specialize (H x Hx); lia.
Qed.

Lemma nonzero_hd c ds : 49 <= c -> hd 48 (c :: ds) <> 48.
Proof. cbn. lia. Qed.

Lemma dec_int_text lo hi s z r : dec_int lo hi s = ROk z r ->
  exists w, s = w ++ r /\ int_text z w /\ (lo <= z <= hi)%Z.
Proof.
  intro H. pose proof (dec_int_range _ _ _ _ _ H) as R. unfold dec_int in H.
  destruct (recognize_dec_int s) as [[neg ds] r'| | |] eqn:E; try discriminate. cbv zeta in H.
  destruct (in_range lo hi _); [|discriminate]. injection H as <- <-.
  assert (X : forall neg sg s' ds' r2,
    match s' with
    | [] => RBack
    | c :: r => if (49 <=? c) && (c <=? 57) then let (a, b) := span is_digit r in ROk (neg, c :: a) b else RBack
    end = ROk (neg, ds') r2 -> sign_text neg sg ->
    exists w, sg ++ s' = w ++ r2 /\ int_text (signed neg (number ds')) w).
  { intros neg0 sg0 s' ds' r2 H Hs. destruct s' as [|c s']; [discriminate|].
    destruct ((49 <=? c) && (c <=? 57)) eqn:Ec; [|discriminate]. destruct (span is_digit s') as [a b] eqn:Es.
    injection H as <- <-. apply span_spec in Es as (-> & Ha & _). exists (sg0 ++ c :: a). split; [now rewrite <- app_assoc|].
    constructor; auto; [|apply nonzero_hd; lia]. constructor; [lia|]. now apply digits_text. }
  assert (Y : exists w, s = w ++ r' /\ int_text (signed neg (number ds)) w).
  { unfold recognize_dec_int in E. destruct s as [|c s]; [discriminate|].
    destruct (N.eqb_spec c 43) as [->|N1].
    - assert (neg = false) as -> by (destruct s as [|c s]; [discriminate|]; destruct ((49 <=? c) && (c <=? 57)); [|discriminate];
        destruct (span is_digit s); now injection E).
      apply (X _ (lit "+") _ _ _ E). constructor.
    - destruct (N.eqb_spec c 45) as [->|N2].
      + assert (neg = true) as -> by (destruct s as [|c s]; [discriminate|]; destruct ((49 <=? c) && (c <=? 57)); [|discriminate];
          destruct (span is_digit s); now injection E).
        apply (X _ (lit "-") _ _ _ E). constructor.
      + destruct (N.eqb_spec c 48) as [->|N3].
        * injection E as <- <- <-. exists (lit "0"). split; auto. constructor.
        * assert (neg = false) as -> by (destruct ((49 <=? c) && (c <=? 57)); [|discriminate];
            destruct (span is_digit s); now injection E).
          destruct (X false [] (c :: s) _ _ E sign_none) as (w & Ew & Hw). eauto. }
  destruct Y as (w & Ew & Hw). exists w. split; auto. split; auto. rewrite number_value in Hw.
  unfold signed in Hw. destruct neg; exact Hw.
Qed.

Lemma p_int_text s z r : p_int s = ROk z r -> exists w, s = w ++ r /\ int_text z w /\ in64 z.
Proof.
  intro H. apply dec_int_text in H as (w & E & Hw & R). exists w. split; auto. split; auto.
  unfold in64, i64_min, i64_max in *. lia.
Qed.

Lemma p_i32_text s z r : dec_int i32_min i32_max s = ROk z r -> exists w, s = w ++ r /\ int_text z w /\ in32 z.
Proof.
  intro H. apply dec_int_text in H as (w & E & Hw & R). exists w. split; auto. split; auto.
  unfold in32, i32_min, i32_max in *. lia.
Qed.

Lemma p_time_text s z r : p_timestamp s = ROk z r -> exists w, s = w ++ r /\ int_text z w /\ in64 z.
Proof.
  unfold p_timestamp, pmap_unwrap. destruct (p_int s) as [a r'| | |] eqn:E; try discriminate.
  destruct (in_range ts_min ts_max a); [|discriminate]. intro H. injection H as <- <-. now apply p_int_text.
Qed.

Lemma decimal_of_digits c ds : 49 <= c <= 57 -> digit_text ds -> decimal (digits_value (c :: ds)) (c :: ds).
Proof.
  intros Hc. induction ds as [|d ds IH] using rev_ind; intro H.
  - unfold digits_value. cbn [digits_value_acc]. replace (10 * 0 + (c - 48)) with (c - 48) by lia.
    replace c with (48 + (c - 48)) at 2 by lia. constructor. lia.
  - apply Forall_app in H as [H1 H2]. inversion H2 as [|? ? Hd _]; subst. specialize (IH H1).
    change (c :: ds ++ [d]) with ((c :: ds) ++ [d]).
    replace (digits_value ((c :: ds) ++ [d])) with (10 * digits_value (c :: ds) + (d - 48)).
    2:{ unfold digits_value. rewrite digits_value_acc_app. reflexivity. }
    replace [d] with [48 + (d - 48)] by (f_equal; lia). constructor; auto; [|lia].
    unfold digits_value. cbn [digits_value_acc]. clear - Hc.
    assert (X : forall l a, 0 < a -> 0 < digits_value_acc a l).
    { induction l as [|x l IH]; intros a Ha; cbn [digits_value_acc]; auto. apply IH. lia. }
    apply X. lia.
Qed.

Lemma p_id_text s n r : p_id s = ROk n r -> exists w, s = w ++ r /\ SpellSpec.id_text n w.
Proof.
  intro H. pose proof (p_id_range _ _ _ H) as R. unfold p_id in H. apply bind_ok in H as (? & r1 & E & H).
  apply tag_ok in E as ->. unfold dec_uint_usize in H. destruct (recognize_dec_uint r1) as [ds r'| | |] eqn:Er; try discriminate.
  cbv zeta in H. destruct (_ <=? _); [|discriminate]. injection H as <- <-. exists (lit "#" ++ ds).
  assert (X : r1 = ds ++ r' /\ decimal (digits_value ds) ds).
  { unfold recognize_dec_uint in Er. destruct r1 as [|c s]; [discriminate|]. destruct ((49 <=? c) && (c <=? 57)) eqn:Ec.
    - destruct (span is_digit s) as [a b] eqn:Es. injection Er as <- <-. apply span_spec in Es as (-> & Ha & _).
      split; auto. apply decimal_of_digits; [lia|]. now apply digits_text.
    - destruct (N.eqb_spec c 48) as [->|]; [|discriminate]. injection Er as <- <-. split; auto.
      change (decimal 0 [48 + 0]). constructor. lia. }
  destruct X as [-> X]. split; [now rewrite <- app_assoc|]. exists ds. split; auto. split; auto. unfold max_usize in R. lia.
Qed.

(** ** Reals *)

Lemma p_sign_text s neg r : p_sign s = ROk neg r -> exists w, s = w ++ r /\ sign_text neg w.
Proof.
  unfold p_sign. intro H. apply pmap_ok in H as (o & H & ->). unfold opt, one_of in H. destruct s as [|c s].
  - injection H as <- <-. exists []. split; auto. constructor.
  - unfold is_sign in H. destruct (N.eqb_spec c 43) as [->|N1].
    + injection H as <- <-. exists (lit "+"). split; auto. constructor.
    + destruct (N.eqb_spec c 45) as [->|N2]; injection H as <- <-; [exists (lit "-")|exists []]; split; auto; constructor.
Qed.

Lemma take_while1_text s ds r : take_while1 is_digit s = ROk ds r -> s = ds ++ r /\ ds <> [] /\ digit_text ds.
Proof.
  unfold take_while1. destruct (span is_digit s) as [a b] eqn:E. apply span_spec in E as (-> & Ha & _).
  destruct a as [|c a]; [discriminate|]. intro H. injection H as <- <-. split; auto. split; [discriminate|]. now apply digits_text.
Qed.

Lemma p_mantissa_text s i f r : p_mantissa s = ROk (i, f) r -> exists w, s = w ++ r /\ point_text i f w.
Proof.
  unfold p_mantissa. intro H. apply alt_ok in H as [H|[_ H]].
  - apply bind_ok in H as (i' & r1 & E1 & H). apply take_while1_text in E1 as (-> & Hi & Di).
    apply bind_ok in H as (o & r2 & E2 & H). injection H as <- <- <-. unfold opt in E2.
    destruct (bind (tag (lit ".")) _ r1) as [f' r3| | |] eqn:E3; try discriminate.
    + injection E2 as <- <-. apply bind_ok in E3 as (? & r4 & E4 & E3). apply tag_ok in E4 as ->.
      apply bind_ok in E3 as (o & r5 & E5 & E3). injection E3 as <- <-. unfold opt in E5.
      destruct (take_while1 is_digit r4) as [f'' r6| | |] eqn:E6; try discriminate; injection E5 as <- <-.
      * apply take_while1_text in E6 as (-> & _ & Df). exists (i' ++ lit "." ++ f''). split; [now rewrite <- !app_assoc|]. now constructor.
      * exists (i' ++ lit "." ++ []). split; [now rewrite <- !app_assoc|]. constructor; auto. constructor.
    + injection E2 as <- <-. exists i'. split; auto. now constructor.
  - apply bind_ok in H as (? & r1 & E1 & H). apply tag_ok in E1 as ->. apply bind_ok in H as (f' & r2 & E2 & H). injection H as <- <- <-.
    apply take_while1_text in E2 as (-> & Hf & Df). exists (lit "." ++ f'). split; [now rewrite <- app_assoc|]. now constructor.
Qed.

Lemma p_exponent_text s x r : p_exponent s = ROk x r -> exists w, s = w ++ r /\ exp_text x w.
Proof.
  unfold p_exponent. intro H. apply pmap_ok in H as (o & H & ->). unfold opt in H.
  destruct (bind _ _ s) as [z r'| | |] eqn:E; try discriminate; injection H as <- <-.
  - apply bind_ok in E as (c & r1 & E1 & E). apply bind_ok in E as (neg & r2 & E2 & E). apply bind_ok in E as (ds & r3 & E3 & E).
    injection E as <- <-. unfold one_of in E1. destruct s as [|c' s]; [discriminate|].
    destruct ((c' =? 101) || (c' =? 69)) eqn:Ec; [|discriminate]. injection E1 as <- <-.
    apply p_sign_text in E2 as (sg & -> & Hs). unfold cut_err in E3. destruct (take_while1 is_digit r2) as [ds' r4| | |] eqn:E4; try discriminate.
    injection E3 as <- <-. apply take_while1_text in E4 as (-> & Hne & Hd). exists ([c'] ++ sg ++ ds').
    split; [cbn [app]; now rewrite <- app_assoc|].
    assert (Es : (if neg then (- Z.of_N (digits_value ds'))%Z else Z.of_N (digits_value ds')) = signed neg (number ds'))
      by (rewrite number_value; now destruct neg). rewrite Es.
    constructor; auto. change (lit "e") with [101]. change (lit "E") with [69].
    destruct (N.eqb_spec c' 101) as [E1|E1]; [left; now f_equal|]. destruct (N.eqb_spec c' 69) as [E2|E2]; [right; now f_equal|]. discriminate.
  - exists []. split; auto. constructor.
Qed.

Lemma round_f64_negative neg n d : negative (round_f64 neg n d) = neg.
Proof.
  unfold round_f64. destruct (n =? 0); auto. cbv zeta. destruct (scale2 n d _). destruct (round_half_even _ _ =? 2 ^ 53);
  destruct (971 <? _)%Z; reflexivity.
Qed.

Lemma f64_of_dec_rounded neg q x :
  rounded (inject_Z (signed neg q) * inject_Z 10 ^ x) (f64_of_dec neg q x) /\ negative (f64_of_dec neg q x) = neg.
Proof.
  unfold f64_of_dec. pose proof (dec_frac_repr q x) as R. destruct (dec_frac q x) as [n d] eqn:E. cbn [fst snd] in R.
  split; [|apply round_f64_negative].
  assert (S : (inject_Z (signed neg q) * inject_Z 10 ^ x == sg neg * (qn q * b10 x))%Q).
  { unfold signed, sg, qn, b10. destruct neg; [rewrite inject_Z_opp|]; ring. }
  apply (rounded_eq (sg neg * (qn q * b10 x))); [now symmetry|].
  destruct (N.eq_dec n 0) as [->|Hn].
  - apply rounded_zero. destruct R as [Hd R]. change (qn 0) with 0%Q in R. apply qn_pos in Hd.
    destruct (Qmult_integral _ _ (Qeq_sym _ _ R)) as [Z0|Z0]; [rewrite Z0; ring|]. rewrite Z0 in Hd. discriminate Hd.
  - apply round_rounded; auto. lia.
Qed.

Lemma caseless_text t : forall s u r, (forall c, In c t -> 97 <= c <= 122) -> tag_caseless t s = ROk u r ->
  exists w, s = w ++ r /\ Forall2 (fun c d => c = d \/ c + 32 = d /\ 97 <= d <= 122) w t.
Proof.
  intros s u r Ht. unfold tag_caseless. intro H. destruct (strip_prefix_caseless t s) as [r'|] eqn:E; [|discriminate]. injection H as _ <-.
  revert s r' E. induction t as [|c t IH]; intros s r' E; cbn [strip_prefix_caseless] in E.
  - injection E as <-. exists []. split; auto.
  - destruct s as [|d s]; [discriminate|]. destruct (N.eqb_spec c (to_lower d)) as [Hc|]; [|discriminate].
    destruct (IH (fun x Hx => Ht x (or_intror Hx)) _ _ E) as (w & -> & Hw). exists (d :: w). split; auto. constructor; auto.
    unfold to_lower in Hc. specialize (Ht c (or_introl eq_refl)). destruct ((65 <=? d) && (d <=? 90)) eqn:Ed; [right|left]; lia.
Qed.

Lemma p_real_text s d r : p_real s = ROk d r -> exists w, s = w ++ r /\ real_text d w.
Proof.
  unfold p_real. intro H. apply alt_ok in H as [H|[_ H]]; [|apply alt_ok in H as [H|[_ H]]; [|apply alt_ok in H as [H|[_ H]]]].
  - unfold p_decimal in H. apply bind_ok in H as (neg & r1 & E1 & H). apply bind_ok in H as ([i f] & r2 & E2 & H).
    apply bind_ok in H as (x & r3 & E3 & H). injection H as <- <-.
    apply p_sign_text in E1 as (w1 & -> & H1). apply p_mantissa_text in E2 as (w2 & -> & H2). apply p_exponent_text in E3 as (w3 & -> & H3).
    exists (w1 ++ w2 ++ w3). split; [now rewrite <- !app_assoc|]. cbn [fst snd].
    destruct (f64_of_dec_rounded neg (digits_value (i ++ f)) (x - Z.of_nat (length f))) as [A B]. rewrite <- number_value in A, B |- *.
    eapply real_decimal; eauto.
  - apply pmap_ok in H as (u & H & ->). apply caseless_text in H as (w & -> & Hw); [|cbn; lia]. exists w. split; auto. now apply real_nan.
  - apply bind_ok in H as (neg & r1 & E1 & H). apply bind_ok in H as (? & r2 & E2 & H). injection H as <- <-.
    apply p_sign_text in E1 as (w1 & -> & H1). apply caseless_text in E2 as (w & -> & Hw); [|cbn; lia].
    exists (w1 ++ w). split; [now rewrite <- app_assoc|]. apply real_inf; auto.
  - apply bind_ok in H as (neg & r1 & E1 & H). apply bind_ok in H as (? & r2 & E2 & H). injection H as <- <-.
    apply p_sign_text in E1 as (w1 & -> & H1). apply caseless_text in E2 as (w & -> & Hw); [|cbn; lia].
    exists (w1 ++ w). split; [now rewrite <- app_assoc|]. apply real_inf; auto.
Qed.

(** ** Literals *)

Lemma occurs_cons t c s : t <> [] -> occurs t (c :: s) -> (exists r, c :: s = t ++ r) \/ occurs t s.
Proof.
  intros Ht (a & b & E). destruct a as [|x a]; [left; eauto|]. right. cbn [app] in E. injection E as -> ->. now exists a, b.
Qed.

Lemma replace_step e u s : e <> [] ->
  (exists r, s = e ++ r /\ replace e [u] s = u :: replace e [u] r) \/ s = [] \/
  exists c r, s = c :: r /\ strip_prefix e s = None /\ replace e [u] s = c :: replace e [u] r.
Proof.
  intro He. destruct s as [|c s]; auto. destruct (strip_prefix e (c :: s)) as [r|] eqn:E.
  - left. apply strip_prefix_Some in E. exists r. split; auto. rewrite E. now rewrite replace_hit.
  - right; right. exists c, s. split; auto. split; auto. now apply replace_miss.
Qed.

Lemma replace_prefix e u : e <> [] -> forall t s r, ~ In u t -> replace e [u] s = t ++ r -> exists r', s = t ++ r'.
Proof.
  intro He. induction t as [|c t IH]; intros s r Hu E; [now exists s|].
  destruct (replace_step e u s He) as [(r1 & -> & E1)|[->|(d & s' & -> & _ & E1)]].
  - rewrite E1 in E. injection E as E _. destruct Hu. now left.
  - discriminate E.
  - rewrite E1 in E. injection E as -> E. destruct (IH s' r) as (r' & ->); [intro X; apply Hu; now right|exact E|]. now exists r'.
Qed.

Lemma length_ind {A} (P : list A -> Prop) : (forall l, (forall m, (length m < length l)%nat -> P m) -> P l) -> forall l, P l.
Proof. intros H l. remember (length l) as n eqn:Hn. revert l Hn. induction n as [n IH] using lt_wf_ind. intros l ->. apply H. eauto. Qed.

Lemma replace_keeps e u t : e <> [] -> t <> [] -> ~ In u t -> forall s, occurs t (replace e [u] s) -> occurs t s.
Proof.
  intros He Ht Hu. induction s as [s IH] using length_ind. intro H.
  destruct (replace_step e u s He) as [(r & -> & E)|[->|(c & r & -> & _ & E)]]; rewrite ?E in H.
  - apply occurs_cons in H as [[r' E']|H]; auto.
    + destruct t as [|x t]; [easy|]. injection E' as E' _. destruct Hu. now left.
    + apply IH in H as (a & b & ->); [|rewrite app_length; destruct e; [easy|cbn; lia]].
      exists (e ++ a), b. now rewrite <- app_assoc.
  - exact H.
  - pose proof H as H'. apply occurs_cons in H as [[r' E']|H]; auto.
    + rewrite <- E in E'. apply replace_prefix in E' as (r2 & ->); auto. now exists [], r2.
    + apply IH in H as (a & b & ->); [|cbn; lia]. now exists (c :: a), b.
Qed.

Lemma replace_gone e u : e <> [] -> ~ In u e -> forall s, ~ occurs e (replace e [u] s).
Proof.
  intros He Hu. induction s as [s IH] using length_ind. intro H.
  destruct (replace_step e u s He) as [(r & -> & E)|[->|(c & r & -> & Hn & E)]]; rewrite ?E in H.
  - apply occurs_cons in H as [[r' E']|H]; auto.
    + destruct e as [|x e]; [easy|]. injection E' as E' _. destruct Hu. now left.
    + apply IH in H; auto. rewrite app_length; destruct e; [easy|cbn; lia].
  - destruct H as (a & b & H). destruct a; [|discriminate]. now destruct e.
  - apply occurs_cons in H as [[r' E']|H]; auto.
    + rewrite <- E in E'. apply replace_prefix in E' as (r2 & E2); auto. rewrite E2 in Hn.
      now rewrite strip_prefix_app in Hn.
    + apply IH in H; auto.
Qed.

Lemma decode_gone m s ue :
  (forall p q, In p m -> In q m -> ~ In (fst p) (snd q)) -> (forall p, In p m -> snd p <> []) -> In ue m ->
  ~ occurs (snd ue) (fold_left (fun v ue => replace (snd ue) [fst ue] v) m s).
Proof.
  intros H1 H2. assert (K : forall l v, incl l m -> In ue m -> ~ occurs (snd ue) v ->
    ~ occurs (snd ue) (fold_left (fun v ue => replace (snd ue) [fst ue] v) l v)).
  { induction l as [|p l IH]; intros v Hl Hu Hv; auto. cbn [fold_left]. apply IH; auto.
    - intros x Hx. apply Hl. now right.
    - intro O. apply Hv. assert (In p m) by (apply Hl; now left). eapply replace_keeps; [| | |exact O]; auto. }
  intro Hin. assert (J : forall l v, incl l m -> In ue l ->
    ~ occurs (snd ue) (fold_left (fun v ue => replace (snd ue) [fst ue] v) l v)).
  { induction l as [|p l IH]; intros v Hl Hu; [easy|]. cbn [fold_left]. assert (In p m) by (apply Hl; now left).
    assert (incl l m) by (intros x Hx; apply Hl; now right). destruct Hu as [->|Hu]; [|now apply IH].
    apply K; auto. apply replace_gone; auto. }
  apply J; auto. now intros x.
Qed.

Lemma map_directives g : In g german -> In (g, directive g) umlaut_map.
Proof. intro H. vm_compute in H. intuition subst; vm_compute; tauto. Qed.

Lemma decode_no_directive s g : In g german -> ~ occurs (directive g) (translate_decode s).
Proof.
  intro H. apply map_directives in H. unfold translate_decode.
  apply (decode_gone umlaut_map s (g, directive g)); auto.
  - assert (B : forallb (fun p => forallb (fun q => negb (existsb (N.eqb (fst p)) (snd q))) umlaut_map) umlaut_map = true) by (vm_compute; reflexivity).
    intros p q Hp Hq Hi. rewrite forallb_forall in B. specialize (B p Hp). rewrite forallb_forall in B. specialize (B q Hq).
    apply negb_true_iff in B. assert (X : existsb (N.eqb (fst p)) (snd q) = true); [|congruence].
    apply existsb_exists. exists (fst p). split; auto. apply N.eqb_refl.
  - intros p Hp E. assert (B : forallb (fun p => negb (Nat.eqb (length (snd p)) 0)) umlaut_map = true) by (vm_compute; reflexivity).
    rewrite forallb_forall in B. specialize (B p Hp). now rewrite E in B.
Qed.

Lemma in_ascii_encode s : in_ascii s = translate_encode s.
Proof. rewrite translate_encode_enc. unfold in_ascii, enc. apply flat_map_ext. intro c. now rewrite enc_char_in_ascii. Qed.

Lemma p_string_text s v r : p_string s = ROk v r -> exists w, s = w ++ r /\ str_text v w.
Proof.
  unfold p_string. intro H. apply pmap_ok in H as (c & H & ->). apply quote_word_inv in H as [-> Hc].
  exists (lit "'" ++ c ++ lit "'"). split; [now rewrite <- !app_assoc|]. exists c. split; auto. split; auto.
  split; [rewrite !in_ascii_encode; apply encode_decode|]. intros g Hg. now apply decode_no_directive.
Qed.

(** ** Identifiers of sixteen bytes *)

Lemma chunks_base l k : length l = (4 * k)%nat -> Forall (fun i => i < 64) l -> forall a,
  fold_left (fun a i => 256 * a + i) (decode_chunks l) a = fold_left (fun a i => 64 * a + i) l a.
Proof.
  revert k. induction l as [l Hl|a b c d l IH] using list_ind4; intros k Hk Hb x.
  - destruct l; auto. cbn in *. lia.
  - inversion Hb as [|? ? Ha Hb1]; subst. inversion Hb1 as [|? ? Hbb Hb2]; subst.
    inversion Hb2 as [|? ? Hc Hb3]; subst. inversion Hb3 as [|? ? Hd Hb4]; subst.
    cbn [decode_chunks fold_left]. rewrite (IH (pred k)) by (cbn [length] in Hk; auto; lia). f_equal.
    rewrite !get_base16_bytes_eq, combine64_eq by auto. change (2 ^ (2 * 8)) with 65536. change (2 ^ (1 * 8)) with 256. change (2 ^ (0 * 8)) with 1.
    clear - Ha Hbb Hc Hd. lia.
Qed.

Lemma base_from l : forall a, fold_left (fun a i => 64 * a + i) l a = a * 64 ^ N.of_nat (length l) + base 64 l.
Proof.
  unfold base. induction l as [|x l IH] using rev_ind; intro a; [cbn; lia|].
  rewrite !fold_left_app, app_length. cbn [fold_left length]. rewrite IH, (IH 0).
  replace (N.of_nat (length l + 1)) with (N.succ (N.of_nat (length l))) by lia. rewrite N.pow_succ_r'. ring.
Qed.

Lemma base_below l : Forall (fun i => i < 64) l -> base 64 l < 64 ^ N.of_nat (length l).
Proof.
  unfold base. induction l as [|x l IH] using rev_ind; intro H; [cbn; lia|].
  apply Forall_app in H as [H1 H2]. inversion H2; subst. specialize (IH H1).
  rewrite fold_left_app, app_length. cbn [fold_left length].
  replace (N.of_nat (length l + 1)) with (N.succ (N.of_nat (length l))) by lia. rewrite N.pow_succ_r'. lia.
Qed.

Lemma guid_base ds : length ds = 22%nat -> Forall (fun i => i < 64) ds -> base 256 (decode_guid ds) = base 64 ds mod 2 ^ 128.
Proof.
  destruct ds as [|a [|b l]]; try discriminate. intros Hl H. injection Hl as Hl.
  inversion H as [|? ? Ha H1]; subst. inversion H1 as [|? ? Hb H2]; subst.
  unfold base. cbn [decode_guid fold_left]. rewrite (chunks_base l 5) by auto. rewrite !base_from, Hl.
  pose proof (base_below l H2) as B. rewrite Hl in B. change (64 ^ N.of_nat 20) with (2 ^ 120) in *.
  rewrite combine_first_eq. generalize dependent (base 64 l). intros y B.
  change (256 * 0) with 0. change (64 * 0) with 0. rewrite !N.add_0_l.
  replace (b mod 64) with b by (symmetry; now apply N.mod_small).
  assert (E : 64 * a + b = 256 * (a / 4) + (a mod 4 * 64 + b)) by (clear; lia).
  rewrite E. apply N.mod_unique with (q := a / 4).
  - change (2 ^ 128) with (256 * 2 ^ 120). assert (a mod 4 * 64 + b < 256) by (clear - Hb; lia).
    generalize dependent (2 ^ 120). intros; nia.
  - change (2 ^ 128) with (256 * 2 ^ 120). ring.
Qed.

Lemma positions_digits cs : forallb in_alphabet cs = true ->
  Forall2 (fun c i => nth_error alphabet (N.to_nat i) = Some c) cs (guid_positions cs) /\ Forall (fun i => i < 64) (guid_positions cs).
Proof.
  induction cs as [|c cs IH]; [split; constructor|]. cbn [forallb]. intro H. apply andb_true_iff in H as [Hc Hs].
  destruct (IH Hs) as [A B]. unfold guid_positions in *. cbn [flat_map]. unfold in_alphabet in Hc.
  destruct (find_char c 0 alphabet) as [i|] eqn:E; [|discriminate]. cbn [app].
  apply find_char_nth in E as (_ & E & L). change (N.of_nat (length alphabet)) with 64 in L. rewrite N.sub_0_r in E.
  split; constructor; auto. rewrite <- E. apply nth_error_nth'. change (length alphabet) with 64%nat. lia.
Qed.

Lemma p_guid_text s g r : p_guid s = ROk g r -> exists w, s = w ++ r /\ guid_text g w.
Proof.
  intro H. apply p_guid_inv in H as (cs & -> & Hl & Ha & -> & Hw). exists (lit "'" ++ cs ++ lit "'").
  split; [now rewrite <- !app_assoc|]. destruct (positions_digits cs Ha) as [A B]. destruct Hw as [W1 W2].
  exists cs, (guid_positions cs). repeat (split; [assumption || reflexivity|]). apply guid_base; auto.
  clear - A Hl. rewrite <- Hl. clear Hl. induction A; cbn [length]; congruence.
Qed.

(** ** Words *)

Lemma p_bool_text s b r : p_bool s = ROk b r -> exists w, s = w ++ r /\ bool_text b w.
Proof.
  unfold p_bool. intro H. apply surrounded_ok in H as (r' & E & ->). apply alts_ok in E as (p & Hp & E).
  apply in_map_iff in Hp as ([t b'] & <- & Hin). apply pmap_ok in E as (u & E & ->). apply tag_ok in E. cbn [fst snd] in *.
  destruct (skip_spec s) as (g1 & Es & Hg1 & _). destruct (skip_spec r') as (g2 & Er & Hg2 & _).
  exists (g1 ++ t ++ g2). split; [rewrite <- !app_assoc, <- Er, <- E; exact Es|].
  exists g1, t, g2. split; auto. split; auto. split; auto. unfold bool_variants in Hin. cbn [In] in *. tauto.
Qed.

Lemma p_enum_text vs s i r : p_enum vs s = ROk i r -> exists w, s = w ++ r /\ enum_text vs i w.
Proof.
  unfold p_enum. intro H. apply surrounded_ok in H as (r' & E & ->). apply p_variants_ok in E as [Hi E].
  rewrite Nat.sub_0_r in E. destruct (skip_spec s) as (g1 & Es & Hg1 & _). destruct (skip_spec r') as (g2 & Er & Hg2 & _).
  exists (g1 ++ nth i vs [] ++ g2). split; [rewrite <- !app_assoc, <- Er, <- E; exact Es|].
  exists g1, (nth i vs []), g2. split; auto. split; auto. split; auto. apply nth_error_nth'. lia.
Qed.

Lemma mark_ok t s u r : surrounded (tag t) s = ROk u r -> exists w, s = w ++ r /\ mark_text t w.
Proof.
  intro H. apply sur_tag_ok in H as (g1 & g2 & H1 & H2 & _ & ->). exists (g1 ++ t ++ g2). split; [now rewrite <- !app_assoc|].
  now exists g1, g2.
Qed.

Lemma comma_text_ok s u r : p_comma s = ROk u r -> exists w, s = w ++ r /\ comma_text w.
Proof.
  intro H. apply comma_ok in H as (g1 & g2 & -> & H1 & H2). exists (g1 ++ lit "," ++ g2). split; [now rewrite <- !app_assoc|].
  now exists g1, g2.
Qed.

Lemma p_measure_text i names p (Q : val -> text -> Prop) s v r :
  (forall s v r, p s = ROk v r -> exists w, s = w ++ r /\ Q v w) -> p_measure i names p s = ROk v r ->
  exists n v' w, v = VMeasure i v' /\ (n = fst names \/ n = snd names) /\ Q v' w /\ s = (n ++ lit "(" ++ w ++ lit ")") ++ r.
Proof.
  intros Hp H. unfold p_measure in H. apply bind_ok in H as (? & r1 & E1 & H). apply bind_ok in H as (? & r2 & E2 & H).
  apply bind_ok in H as (v' & r3 & E3 & H). apply bind_ok in H as (? & r4 & E4 & H). injection H as <- <-.
  apply tag_ok in E2 as ->. apply Hp in E3 as (w & -> & Hw). apply tag_ok in E4 as ->.
  apply alt_ok in E1 as [E1|[_ E1]]; apply tag_ok in E1 as ->; [exists (fst names), v', w|exists (snd names), v', w];
    (split; [reflexivity|]); (split; [auto|]); (split; [exact Hw|]); now rewrite <- !app_assoc.
Qed.

Lemma p_value_text s v r : p_value s = ROk v r -> exists w, s = w ++ r /\ measure_text v w.
Proof.
  unfold p_value, measure_names, measure_contents. cbn [p_measures]. intro H.
  assert (S1 : forall s v r, pmap VStr p_string s = ROk v r -> exists w, s = w ++ r /\ exists x, v = VStr x /\ str_text x w).
  { intros s0 v0 r0 E. apply pmap_ok in E as (x & E & ->). apply p_string_text in E as (w & -> & Hw). eauto 6. }
  assert (S2 : forall s v r, pmap VReal p_real s = ROk v r -> exists w, s = w ++ r /\ exists x, v = VReal x /\ real_text x w).
  { intros s0 v0 r0 E. apply pmap_ok in E as (x & E & ->). apply p_real_text in E as (w & -> & Hw). eauto 6. }
  assert (S3 : forall s v r, pmap VBool p_bool s = ROk v r -> exists w, s = w ++ r /\ exists x, v = VBool x /\ bool_text x w).
  { intros s0 v0 r0 E. apply pmap_ok in E as (x & E & ->). apply p_bool_text in E as (w & -> & Hw). eauto 6. }
  apply alt_ok in H as [H|[_ H]]; [|apply alt_ok in H as [H|[_ H]]; [|apply alt_ok in H as [H|[_ H]]; [|apply alt_ok in H as [H|[_ H]];
    [|apply alt_ok in H as [H|[_ H]]; [|discriminate]]]]];
    first [apply (p_measure_text _ _ _ _ _ _ _ S1) in H | apply (p_measure_text _ _ _ _ _ _ _ S2) in H | apply (p_measure_text _ _ _ _ _ _ _ S3) in H];
    destruct H as (n & v' & w & -> & Hn & (x & -> & Hx) & ->); exists (n ++ lit "(" ++ w ++ lit ")"); (split; [reflexivity|]);
    cbn [fst snd] in Hn; constructor; auto.
Qed.

(** ** Attributes *)

Definition sound (t : fty) (p : parser val) : Prop := forall s v r, p s = ROk v r -> exists w, s = w ++ r /\ spells t v w.

Lemma attrs_sound fs : Forall (fun t => sound t (p_ty t)) fs -> forall s l r,
  p_attrs (map p_ty fs) s = ROk l r -> exists w, s = w ++ r /\ spells_attrs fs l w.
Proof.
  induction 1 as [|t fs Ht Hf IH]; intros s l r H.
  - injection H as <- <-. exists []. split; auto. constructor.
  - destruct fs as [|t' fs].
    + cbn [map p_attrs] in H. apply pmap_ok in H as (v & H & ->). apply Ht in H as (w & -> & Hw). exists w. split; auto. now constructor.
    + change (p_attrs (map p_ty (t :: t' :: fs)) s) with
        (bind (p_ty t) (fun v => bind p_comma (fun _ => bind (p_attrs (map p_ty (t' :: fs))) (fun l => ret (v :: l)))) s) in H.
      apply bind_ok in H as (v & r1 & E1 & H). apply bind_ok in H as (? & r2 & E2 & H). apply bind_ok in H as (l' & r3 & E3 & H).
      injection H as <- <-. apply Ht in E1 as (w1 & -> & W1). apply comma_text_ok in E2 as (c & -> & Hc). apply IH in E3 as (w2 & -> & W2).
      exists (w1 ++ c ++ w2). split; [now rewrite <- !app_assoc|]. constructor; auto. discriminate.
Qed.

Lemma row_sound kws ws fs closer : Forall (fun t => sound t (p_ty t)) fs -> forall s l r,
  p_row kws ws (map p_ty fs) closer s = ROk l r -> exists w, s = w ++ r /\ spells_row kws ws fs closer l w.
Proof.
  intros Hf s l r H. unfold p_row in H. apply bind_ok in H as (? & r1 & E1 & H). apply bind_ok in H as (l' & r2 & E2 & H).
  apply bind_ok in H as (? & r3 & E3 & H). injection H as <- <-. apply (attrs_sound fs Hf) in E2 as (w & -> & Hw).
  unfold p_keyword in E1. apply alts_ok in E1 as (p & Hp & E1). apply in_map_iff in Hp as (kw & <- & Hk). unfold p_closer in E3. destruct ws.
  - apply mark_ok in E1 as (o & -> & Ho). apply mark_ok in E3 as (e & -> & He). exists (o ++ w ++ e). split; [now rewrite <- !app_assoc|].
    econstructor; eauto.
  - apply tag_ok in E1 as ->. apply tag_ok in E3 as ->. exists (kw ++ w ++ closer). split; [now rewrite <- !app_assoc|].
    econstructor; eauto.
Qed.

Lemma items_sound t p : sound t p -> forall n s l u r,
  repeat_till_fuel n (bind p (fun a => bind (surrounded (opt (tag (lit ",")))) (fun _ => ret a))) (tag (lit ")")) s = ROk (l, u) r ->
  exists w, s = w ++ lit ")" ++ r /\ spells_items t l w.
Proof.
  intro Hp. induction n as [|n IH]; intros s l u r H; [discriminate|]. cbn [repeat_till_fuel] in H.
  destruct (tag (lit ")") s) as [b r1| | |] eqn:E1; try discriminate.
  - injection H as <- _ <-. apply tag_ok in E1 as ->. exists []. split; auto. constructor.
  - destruct (bind p _ s) as [a r1| | |] eqn:E2; try discriminate.
    destruct (repeat_till_fuel n _ _ r1) as [[l' b'] r2| | |] eqn:E3; try discriminate. injection H as <- <- <-.
    apply IH in E3 as (w2 & -> & W2). apply bind_ok in E2 as (a' & r3 & E2 & E4). apply bind_ok in E4 as (? & r4 & E4 & E5). injection E5 as <- ->.
    apply Hp in E2 as (w1 & -> & W1). apply surrounded_ok in E4 as (r5 & E4 & E5).
    destruct (skip_spec r3) as (g1 & Es & Hg1 & _). destruct (skip_spec r5) as (g2 & Er & Hg2 & _). rewrite <- E5 in Er.
    unfold opt in E4. destruct (tag (lit ",") (skip r3)) as [u1 r6| | |] eqn:E6; try discriminate; injection E4 as _ <-.
    + apply tag_ok in E6. exists (w1 ++ (g1 ++ lit "," ++ g2) ++ w2). split.
      * rewrite Es, E6, Er. now rewrite <- !app_assoc.
      * constructor; auto. left. now exists g1, g2.
    + exists (w1 ++ (g1 ++ g2) ++ w2). split.
      * rewrite Es, Er. now rewrite <- !app_assoc.
      * constructor; auto. right. now apply gap_app.
Qed.

Lemma ty_sound t : sound t (p_ty t).
Proof.
  induction t as [| | | | | | | | | | |vs|ks chk|k kws ws fs closer Hf|t IH|t IH] using fty_rect'; intros s v r H; cbn [p_ty] in H;
    try (apply pmap_ok in H as (x & H & ->)).
  - apply p_string_text in H as (w & -> & Hw). exists w. split; auto. now constructor.
  - apply p_real_text in H as (w & -> & Hw). exists w. split; auto. now constructor.
  - apply p_int_text in H as (w & -> & Hw & R). exists w. split; auto. now constructor.
  - apply p_i32_text in H as (w & -> & Hw & R). exists w. split; auto. now constructor.
  - apply p_bool_text in H as (w & -> & Hw). exists w. split; auto. now constructor.
  - apply p_guid_text in H as (w & -> & Hw). exists w. split; auto. now constructor.
  - apply p_time_text in H as (w & -> & Hw & R). exists w. split; auto. now constructor.
  - apply p_enum_text in H as (w & -> & Hw). exists w. split; auto. now constructor.
  - unfold p_vec2 in H. apply bind_ok in H as (? & r1 & E1 & H). apply bind_ok in H as (a & r2 & E2 & H).
    apply bind_ok in H as (? & r3 & E3 & H). apply bind_ok in H as (b & r4 & E4 & H). apply bind_ok in H as (? & r5 & E5 & H).
    injection H as <- <-. apply mark_ok in E1 as (o & -> & Ho). apply p_real_text in E2 as (w1 & -> & W1).
    apply comma_text_ok in E3 as (c & -> & Hc). apply p_real_text in E4 as (w2 & -> & W2). apply mark_ok in E5 as (e & -> & He).
    exists (o ++ w1 ++ c ++ w2 ++ e). split; [now rewrite <- !app_assoc|]. now constructor.
  - unfold p_vec3 in H. apply bind_ok in H as (? & r1 & E1 & H). apply bind_ok in H as (a & r2 & E2 & H).
    apply bind_ok in H as (? & r3 & E3 & H). apply bind_ok in H as (b & r4 & E4 & H). apply bind_ok in H as (? & r5 & E5 & H).
    apply bind_ok in H as (z & r6 & E6 & H). apply bind_ok in H as (? & r7 & E7 & H).
    injection H as <- <-. apply mark_ok in E1 as (o & -> & Ho). apply p_real_text in E2 as (w1 & -> & W1).
    apply comma_text_ok in E3 as (c & -> & Hc). apply p_real_text in E4 as (w2 & -> & W2).
    apply comma_text_ok in E5 as (c' & -> & Hc'). apply p_real_text in E6 as (w3 & -> & W3). apply mark_ok in E7 as (e & -> & He).
    exists (o ++ w1 ++ c ++ w2 ++ c' ++ w3 ++ e). split; [now rewrite <- !app_assoc|]. now constructor.
  - apply p_value_text in H as (w & -> & Hw). exists w. split; auto. now constructor.
  - apply p_enum_text in H as (w & -> & Hw). exists w. split; auto. now constructor.
  - apply p_id_text in H as (w & -> & Hw). exists w. split; auto. now constructor.
  - apply alt_ok in H as [H|[_ H]]; apply pmap_ok in H as (x & H & ->).
    + apply p_id_text in H as (w & -> & Hw). exists w. split; auto. now constructor.
    + apply (row_sound kws ws fs closer Hf) in H as (w & -> & Hw). exists w. split; auto. now apply sp_idor_ent.
  - apply alt_ok in H as [H|[_ H]]; [|apply alt_ok in H as [H|[_ H]]; [|apply alt_ok in H as [H|[_ H]]]].
    + apply pmap_ok in H as (x & H & ->). apply tag_ok in H as ->. exists (lit "$"). split; auto. constructor.
    + apply pmap_ok in H as (x & H & ->). apply tag_ok in H as ->. exists (lit "*"). split; auto. constructor.
    + apply IH in H as (w & -> & Hw). exists w. split; auto. now constructor.
    + destruct t; try discriminate. cbn [fallback] in H. apply pmap_ok in H as (x & H & ->).
      apply p_i32_text in H as (w & -> & Hw & R). exists w. split; auto. eapply sp_other_dim; eauto.
  - unfold p_list in H. apply bind_ok in H as (? & r1 & E1 & H). apply tag_ok in E1 as ->. apply pmap_ok in H as ([l u] & H & ->).
    apply (items_sound t (p_ty t) IH) in H as (w & -> & Hw). exists (lit "(" ++ w ++ lit ")"). split; [now rewrite <- !app_assoc|].
    now constructor.
Qed.

(** ** Objects and lines *)

Lemma obj_sound s e r : p_obj s = ROk e r -> exists g1 w g2, gap g1 /\ gap g2 /\ s = g1 ++ w ++ g2 ++ r /\ spells_object e w.
Proof.
  intro H. unfold p_obj in H. apply surrounded_ok in H as (r' & H & ->).
  destruct (skip_spec s) as (g1 & Es & Hg1 & _). destruct (skip_spec r') as (g2 & Er & Hg2 & _).
  apply alt_ok in H as [H|[_ H]].
  - unfold p_known in H. apply alts_ok in H as (p & Hp & H). apply in_map_iff in Hp as (k & <- & Hk). unfold p_kind in H.
    destruct (row_of k) as [rw|] eqn:E; [|discriminate]. apply pmap_ok in H as (l & H & ->).
    apply row_sound in H as (w & Ew & Hw); [|apply Forall_forall; intros t _; apply ty_sound].
    exists g1, w, g2. split; auto. split; auto. split; [rewrite <- Er, <- Ew; exact Es|]. econstructor; eauto.
  - apply pmap_ok in H as (w & H & ->). apply p_dummy_ok in H as (Hw & g3 & g4 & H3 & H4 & _ & E).
    exists g1, (w ++ g3 ++ lit ";"), (g4 ++ g2). split; auto. split; [now apply gap_app|]. split; [|now constructor].
    rewrite Es at 1. rewrite E, Er at 1. now rewrite <- !app_assoc.
Qed.

Lemma spells_lines_gap g l s : gap g -> spells_lines l s -> spells_lines l (g ++ s).
Proof.
  intros Hg H. destruct H as [g0 H0|g0 n w q e t l s H0 Hn Hq Ht Hl].
  - constructor. now apply gap_app.
  - rewrite app_assoc. constructor; auto. now apply gap_app.
Qed.

Lemma line_sound s n e r : p_line s = ROk (n, e) r ->
  exists g1 w q t g2, gap g1 /\ SpellSpec.id_text n w /\ mark_text (lit "=") q /\ spells_object e t /\ gap g2 /\ s = g1 ++ w ++ q ++ t ++ g2 ++ r.
Proof.
  intro H. unfold p_line in H. apply surrounded_ok in H as (r' & H & ->).
  destruct (skip_spec s) as (g1 & Es & Hg1 & _). destruct (skip_spec r') as (g2 & Er & Hg2 & _).
  apply bind_ok in H as (n' & r1 & E1 & H). apply bind_ok in H as (? & r2 & E2 & H). apply bind_ok in H as (e' & r3 & E3 & H).
  injection H as <- <- <-. apply p_id_text in E1 as (w & E1 & Hw). apply mark_ok in E2 as (q & -> & (q1 & q2 & Q1 & Q2 & ->)).
  apply obj_sound in E3 as (g3 & t & g4 & G3 & G4 & -> & Ht).
  exists g1, w, (q1 ++ lit "=" ++ (q2 ++ g3)), t, (g4 ++ g2).
  split; auto. split; auto. split; [exists q1, (q2 ++ g3); auto using gap_app|]. split; auto. split; [now apply gap_app|].
  rewrite Es, E1. rewrite Er at 1. now rewrite <- !app_assoc.
Qed.

Lemma lines_sound s : forall l r, p_lines s = ROk l r ->
  exists d g, gap g /\ spells_lines l d /\ s = d ++ lit "ENDSEC;" ++ g ++ r.
Proof.
  induction s as [s IH] using length_ind. intros l r H.
  unfold p_lines in H. apply pmap_ok in H as ([l' b] & H & ->). rewrite repeat_till_eq in H by apply SectionFacts.consuming_line.
  destruct (surrounded (tag (lit "ENDSEC;")) s) as [u r1| | |] eqn:E1; try discriminate.
  - injection H as <- _ <-. apply sur_tag_ok in E1 as (g1 & g2 & Hg1 & Hg2 & _ & ->).
    exists g1, g2. split; auto. split; [now constructor|reflexivity].
  - destruct (p_line s) as [[i e] r1| | |] eqn:E2; try discriminate.
    destruct (repeat_till p_line (surrounded (tag (lit "ENDSEC;"))) r1) as [[l2 b2] r2| | |] eqn:E3; try discriminate.
    injection H as <- <- <-. pose proof (SectionFacts.consuming_line _ _ _ E2) as Hlt.
    destruct (IH r1 Hlt l2 r2) as (d & g & Hg & Hd & Er).
    { unfold p_lines, pmap. now rewrite E3. }
    apply line_sound in E2 as (g1 & w & q & t & g2 & H1 & H2 & H3 & H4 & H5 & ->). cbn [fst].
    exists (g1 ++ w ++ q ++ t ++ (g2 ++ d)), g. split; auto. split; [|rewrite Er, <- !app_assoc; reflexivity].
    constructor; auto. now apply spells_lines_gap.
Qed.

Lemma data_sound s m r : p_data s = ROk m r ->
  exists g0 l d g1, gap g0 /\ gap g1 /\ spells_lines l d /\ m = from_list l /\ s = g0 ++ lit "DATA;" ++ d ++ lit "ENDSEC;" ++ g1 ++ r.
Proof.
  unfold p_data. intro H. apply surrounded_ok in H as (r' & E & ->).
  destruct (skip_spec s) as (g0 & Es & Hg0 & _). destruct (skip_spec r') as (g9 & Er & Hg9 & _).
  apply bind_ok in E as (? & r1 & E1 & E). apply tag_ok in E1. apply pmap_ok in E as (l & E & ->).
  apply lines_sound in E as (d & g & Hg & Hd & ->). exists g0, l, d, (g ++ g9).
  repeat (split; [auto using gap_app|]). rewrite <- !app_assoc, <- Er, <- E1. exact Es.
Qed.
