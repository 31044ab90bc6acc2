(** Every well-formed text is read. *)

From Coq Require Import String Ascii List NArith ZArith Bool Lia ZifyBool ZifyNat ZifyN QArith.
From Verif Require Import Base Prims BaseFacts Spec TextSpec TextFacts PrimsFacts StringFacts Guid GuidFacts
  Float RoundFacts FloatFacts Kind Types Layout WellTyped TypesFacts TypesFacts2 Schema Entity EntitySpec EntityFacts
  DataMap DataSpec SectionFacts SpellSpec SpellFacts GramSpec.
Import ListNotations.
Open Scope N_scope.

(** ** Numerals *)

Lemma digits_bool ds : digit_text ds -> forallb is_digit ds = true.
Proof. apply digits_text. Qed.

Lemma dec_int_form lo hi z w rest : int_text z w -> (lo <= z <= hi)%Z -> no_digit rest -> dec_int lo hi (w ++ rest) = ROk z rest.
Proof.
  intros Hw Hz Hr. unfold dec_int.
  assert (E : exists neg ds, recognize_dec_int (w ++ rest) = ROk (neg, ds) rest /\ signed neg (digits_value ds) = z).
  { destruct Hw as [|neg s ds Hs Hd Hh]; [exists false, (lit "0"); split; reflexivity|].
    destruct ds as [|c ds]; [now cbn in Hh|]. inversion Hd as [|? ? Hc Hd']; subst. cbn [hd] in Hh.
    exists neg, (c :: ds). rewrite number_value. split; auto. rewrite <- app_assoc.
    assert (Esp : span is_digit (ds ++ rest) = (ds, rest)).
    { apply span_app; [now apply digits_bool|]. destruct rest; auto. }
    assert (Ec : (49 <=? c) && (c <=? 57) = true) by lia.
    destruct Hs; cbn [app].
    - unfold recognize_dec_int. destruct (N.eqb_spec c 43); [lia|]. destruct (N.eqb_spec c 45); [lia|].
      destruct (N.eqb_spec c 48); [lia|]. rewrite Ec, Esp. reflexivity.
    - change (lit "+") with [43]. cbn [app]. unfold recognize_dec_int. cbn [N.eqb Pos.eqb]. now rewrite Ec, Esp.
    - change (lit "-") with [45]. cbn [app]. unfold recognize_dec_int. cbn [N.eqb Pos.eqb]. now rewrite Ec, Esp. }
  destruct E as (neg & ds & -> & E). cbv zeta.
  assert (E' : (if neg then (- Z.of_N (digits_value ds))%Z else Z.of_N (digits_value ds)) = z) by (rewrite <- E; now destruct neg).
  rewrite E'. unfold in_range. now replace ((lo <=? z)%Z && (z <=? hi)%Z) with true by lia.
Qed.

Lemma starter_digit c : 48 <= c <= 57 \/ c = 43 \/ c = 45 \/ c = 46 -> starter c = true.
Proof. intro H. destruct (starter c) eqn:E; auto. apply starter_false in E. unfold blank in E. lia. Qed.

Lemma starter_word c d : c = d \/ c + 32 = d /\ 97 <= d <= 122 -> 97 <= d <= 122 -> starter c = true.
Proof. intros H Hd. destruct (starter c) eqn:E; auto. apply starter_false in E. unfold blank in E. lia. Qed.

Lemma sign_starts neg s t : sign_text neg s -> starts_ok t = true -> starts_ok (s ++ t) = true.
Proof. intros [ | | ] H; cbn; auto. Qed.

Lemma digits_starts ds r : digit_text ds -> ds <> [] -> starts_ok (ds ++ r) = true.
Proof. destruct 1 as [|c ds Hc Hd]; [easy|]. intros _. cbn [app starts_ok]. apply starter_digit. auto. Qed.

Lemma int_starts z w : int_text z w -> starts_ok w = true.
Proof.
  intros [|neg s ds Hs Hd Hh]; [reflexivity|]. apply sign_starts with neg; auto.
  rewrite <- (app_nil_r ds). apply digits_starts; auto. intros ->. now cbn in Hh.
Qed.

Lemma decimal_value n ds : decimal n ds ->
  digit_text ds /\ digits_value ds = n /\ (ds = [48] \/ exists c r, ds = c :: r /\ 49 <= c <= 57).
Proof.
  induction 1 as [d Hd|n ds d Hn H (IH1 & IH2 & IH3) Hd].
  - split; [constructor; [lia|constructor]|]. split; [unfold digits_value; cbn [digits_value_acc]; lia|].
    destruct (N.eq_dec d 0) as [->|]; [left; reflexivity|]. right. exists (48 + d), []. split; auto. lia.
  - split; [apply Forall_app; split; auto; constructor; [lia|constructor]|]. split.
    + unfold digits_value in *. rewrite digits_value_acc_app. cbn [digits_value_acc]. lia.
    + right. destruct IH3 as [->|(c & r & -> & Hc)].
      * unfold digits_value in IH2. cbn in IH2. lia.
      * exists c, (r ++ [48 + d]). split; auto.
Qed.

Lemma id_form n w rest : SpellSpec.id_text n w -> no_digit rest -> p_id (w ++ rest) = ROk n rest.
Proof.
  intros (ds & -> & Hd & Hn) Hr. unfold p_id, bind. rewrite <- app_assoc, tag_app. unfold dec_uint_usize.
  apply decimal_value in Hd as (Hd & <- & Hh).
  assert (E : recognize_dec_uint (ds ++ rest) = ROk ds rest).
  { destruct Hh as [->|(c & r & -> & Hc)]; [reflexivity|]. cbn [app recognize_dec_uint].
    replace ((49 <=? c) && (c <=? 57)) with true by lia. inversion Hd; subst. rewrite span_app; auto. now apply digits_bool. }
  rewrite E. cbv zeta. replace (digits_value ds <=? max_usize) with true; auto. unfold max_usize. lia.
Qed.

Lemma p_sign_form neg s t : sign_text neg s -> (match t with [] => True | c :: _ => is_sign c = false end) -> p_sign (s ++ t) = ROk neg t.
Proof.
  intros [ | | ] H; [|reflexivity|reflexivity]. unfold p_sign, pmap, opt. cbn [app]. destruct t as [|c t]; auto. cbn [one_of]. now rewrite H.
Qed.

Lemma p_exponent_form x e rest : exp_text x e -> stop rest -> p_exponent (e ++ rest) = ROk x rest.
Proof.
  intros [|e' neg s ds He Hs Hd Hne] Hr.
  - cbn [app]. apply p_exponent_none. destruct rest; auto. apply stop_char in Hr. tauto.
  - unfold p_exponent, pmap, opt, bind at 1.
    assert (E : exists c, e' = [c] /\ (c =? 101) || (c =? 69) = true)
      by (destruct He as [->| ->]; [exists 101|exists 69]; split; reflexivity).
    destruct E as (c & -> & Ec). cbn [app one_of]. rewrite Ec. rewrite <- app_assoc. unfold bind at 1.
    rewrite (p_sign_form neg); auto.
    + unfold bind, cut_err. rewrite take_while1_app; auto using digits_bool.
      * unfold ret. rewrite number_value. now destruct neg.
      * apply stop_no_digit in Hr. destruct rest; auto.
    + apply digits_head; auto using digits_bool.
Qed.

Lemma exp_no_digit x e rest : exp_text x e -> stop rest -> match e ++ rest with [] => True | c :: _ => is_digit c = false /\ c <> 46 end.
Proof.
  intros [|e' neg s ds He Hs Hd Hne] Hr.
  - cbn [app]. destruct rest; auto. apply stop_char in Hr. tauto.
  - destruct He as [->| ->]; cbn; split; try reflexivity; discriminate.
Qed.

Lemma p_mantissa_form i f m x e rest : point_text i f m -> exp_text x e -> stop rest -> p_mantissa (m ++ e ++ rest) = ROk (i, f) (e ++ rest).
Proof.
  intros Hm He Hr. pose proof (exp_no_digit x e rest He Hr) as Hn.
  destruct Hm as [i Hi Hne|i f Hi Hne Hf|f Hf Hne].
  - apply p_mantissa_int; auto using digits_bool.
  - rewrite <- !app_assoc. apply p_mantissa_point; auto using digits_bool.
    destruct (e ++ rest); cbn; tauto.
  - unfold p_mantissa, alt. unfold bind at 1. rewrite take_while1_back by (cbn; reflexivity).
    rewrite <- app_assoc. unfold bind at 1. rewrite tag_app. unfold bind.
    rewrite take_while1_app; auto using digits_bool. destruct (e ++ rest); cbn; tauto.
Qed.

Lemma point_head i f m r : point_text i f m -> match m ++ r with [] => True | c :: _ => is_sign c = false end.
Proof.
  intros [i' Hi Hne|i' f' Hi Hne Hf|f' Hf Hne].
  - apply digits_head; auto using digits_bool.
  - rewrite <- app_assoc. apply digits_head; auto using digits_bool.
  - reflexivity.
Qed.

Lemma point_starts i f m r : point_text i f m -> starts_ok (m ++ r) = true.
Proof.
  intros [i' Hi Hne|i' f' Hi Hne Hf|f' Hf Hne]; try reflexivity; rewrite <- ?app_assoc; now apply digits_starts.
Qed.

Lemma caseless_form t : forall w rest, (forall c, In c t -> 97 <= c <= 122) ->
  Forall2 (fun c d => c = d \/ c + 32 = d /\ 97 <= d <= 122) w t -> tag_caseless t (w ++ rest) = ROk tt rest.
Proof.
  intros w rest Ht H. unfold tag_caseless.
  assert (E : strip_prefix_caseless t (w ++ rest) = Some rest).
  { induction H as [|c d w t Hc H IH]; [reflexivity|]. cbn [strip_prefix_caseless app].
    assert (d = to_lower c) as <-.
    { specialize (Ht d (or_introl eq_refl)). unfold to_lower. destruct ((65 <=? c) && (c <=? 90)) eqn:E; lia. }
    rewrite N.eqb_refl. apply IH. intros x Hx. apply Ht. now right. }
  now rewrite E.
Qed.

(** A word is no numeral. *)
Lemma word_no_mantissa c w : 65 <= c -> p_mantissa (c :: w) = RBack.
Proof.
  intro H. unfold p_mantissa, alt, bind. rewrite take_while1_back by (cbn; unfold is_digit; lia).
  change (lit ".") with [46]. rewrite tag_neq by lia. reflexivity.
Qed.

Lemma p_decimal_word neg s c w : sign_text neg s -> 65 <= c -> p_decimal (s ++ c :: w) = RBack.
Proof.
  intros Hs Hc. unfold p_decimal, bind at 1. rewrite (p_sign_form neg) by (auto; unfold is_sign; lia).
  unfold bind. now rewrite word_no_mantissa.
Qed.

Lemma p_nan_sign neg s c w : sign_text neg s -> to_lower c <> 110 -> tag_caseless (lit "nan") (s ++ c :: w) = RBack.
Proof.
  intros Hs Hc. destruct Hs; try reflexivity. cbn [app]. unfold tag_caseless. change (lit "nan") with [110; 97; 110].
  cbn [strip_prefix_caseless]. destruct (N.eqb_spec 110 (to_lower c)); [congruence|reflexivity].
Qed.

Lemma real_form_reads w : real_form w -> exists d, reads p_real w d /\ starts_ok w = true /\
  forall rest, stop rest -> p_real (w ++ rest) = ROk d rest.
Proof.
  intros [neg s i f m x e Hs Hm He|w' Hw|neg s w' Hs Hw].
  - exists (f64_of_dec neg (digits_value (i ++ f)) (x - Z.of_nat (length f))).
    assert (E : forall rest, stop rest -> p_real ((s ++ m ++ e) ++ rest) = ROk (f64_of_dec neg (digits_value (i ++ f)) (x - Z.of_nat (length f))) rest).
    { intros rest Hr. apply p_real_decimal. rewrite <- !app_assoc. unfold p_decimal, bind at 1.
      rewrite (p_sign_form neg) by (auto; eapply point_head; eauto). unfold bind at 1.
      rewrite (p_mantissa_form i f m x) by auto. unfold bind. now rewrite (p_exponent_form x). }
    split; [intros rest Hr; left; auto|]. split; auto. apply sign_starts with neg; auto. eapply point_starts; eauto.
  - exists FNan. unfold word in Hw. change (lit "nan") with [110; 97; 110] in Hw.
    inversion Hw as [|c d l l' Hc Hl E1 E2]; subst.
    assert (E : forall rest, p_real ((c :: l) ++ rest) = ROk FNan rest).
    { intro rest. unfold p_real, alt. cbn [app].
      assert (E0 : p_decimal (c :: l ++ rest) = RBack) by (apply (p_decimal_word false []); [constructor|lia]). rewrite E0.
      unfold pmap. change (c :: l ++ rest) with ((c :: l) ++ rest). rewrite caseless_form; auto. cbn; lia. }
    split; [intros rest Hr; left; auto|]. split; auto. cbn [starts_ok]. apply starter_word with 110; auto. lia.
  - exists (FInf neg).
    assert (Hh : exists c l, w' = c :: l /\ (c = 105 \/ c + 32 = 105 /\ 97 <= 105 <= 122)).
    { unfold word in Hw. change (lit "inf") with [105; 110; 102] in Hw. change (lit "infinity") with [105; 110; 102; 105; 110; 105; 116; 121] in Hw.
      destruct Hw as [Hw|Hw]; inversion Hw; subst; eauto. }
    destruct Hh as (c & l & -> & Hc).
    assert (Hlow : to_lower c = 105) by (unfold to_lower; destruct ((65 <=? c) && (c <=? 90)) eqn:E; lia).
    assert (Hsg : forall r, match (c :: l) ++ r with [] => True | c :: _ => is_sign c = false end)
      by (intro r; cbn [app]; unfold is_sign; lia).
    assert (E : forall rest, stop rest -> p_real ((s ++ c :: l) ++ rest) = ROk (FInf neg) rest).
    { intros rest Hr. rewrite <- app_assoc. cbn [app]. unfold p_real, alt.
      rewrite (p_decimal_word neg) by (auto; lia). unfold pmap. rewrite (p_nan_sign neg) by (auto; lia).
      change (c :: l ++ rest) with ((c :: l) ++ rest).
      unfold bind at 1. rewrite (p_sign_form neg) by (assumption || apply Hsg). unfold bind at 1.
      destruct Hw as [Hw|Hw].
      - assert (En : tag_caseless (lit "infinity") ((c :: l) ++ rest) = RBack).
        { unfold word in Hw. change (lit "inf") with [105; 110; 102] in Hw.
          inversion Hw as [|? ? l1 ? _ H1]; subst. inversion H1 as [|c2 ? l2 ? _ H2]; subst. inversion H2 as [|c3 ? l3 ? _ H3]; subst. inversion H3; subst.
          cbn [app]. unfold tag_caseless. change (lit "infinity") with [105; 110; 102; 105; 110; 105; 116; 121].
          cbn [strip_prefix_caseless]. destruct (105 =? to_lower c); [|reflexivity]. destruct (110 =? to_lower c2); [|reflexivity].
          destruct (102 =? to_lower c3); [|reflexivity]. destruct rest as [|d rest]; [reflexivity|].
          apply stop_char in Hr. destruct (N.eqb_spec 105 (to_lower d)) as [Ed|]; [|reflexivity]. exfalso.
          unfold to_lower in Ed. destruct ((65 <=? d) && (d <=? 90)) eqn:E9; lia. }
        rewrite En. unfold bind at 1. rewrite (p_sign_form neg) by (assumption || apply Hsg). unfold bind. rewrite caseless_form; auto. cbn; lia.
      - rewrite caseless_form; auto. cbn; lia. }
    split; [intros rest Hr; left; auto|]. split; auto. apply sign_starts with neg; auto. cbn [starts_ok].
    apply starter_word with 105; auto. lia.
Qed.

(** ** Words *)

Lemma bool_form w : In w [lit ".T."; lit ".TRUE."; lit ".F."; lit ".FALSE."; lit ".U."; lit ".UNKNOWN."] ->
  exists b, reads p_bool w b /\ starts_ok w = true.
Proof.
  intro H.
  assert (X : exists b, forall rest, p_bool (w ++ rest) = ROk b (skip rest) /\ starts_ok w = true).
  { cbn [In] in H. repeat destruct H as [<-|H]; try contradiction;
      [exists BTrue|exists BTrue|exists BFalse|exists BFalse|exists BUnknown|exists BUnknown];
      intro rest; (split; [|reflexivity]); unfold p_bool; rewrite surrounded_eq; rewrite skip_no_gap by (apply starts_no_gap; reflexivity); reflexivity. }
  destruct X as [b X]. exists b. split; [intros rest _; right; apply X|apply (X [])].
Qed.

Lemma enum_form vs w : variants_ok vs = true -> In w vs -> exists i, reads (p_enum vs) w i /\ starts_ok w = true.
Proof.
  intros Hv Hw. apply (In_nth vs w []) in Hw as (i & Hi & <-). exists i. split; [now apply p_enum_reads|now apply variants_ok_nth].
Qed.

Lemma find_char_in c s : forall i, In c s -> exists j, find_char c i s = Some j.
Proof.
  induction s as [|d s IH]; intros i [].
  - subst. cbn [find_char]. rewrite N.eqb_refl. eauto.
  - cbn [find_char]. destruct (c =? d); eauto.
Qed.

Lemma positions_length cs : Forall (fun c => In c alphabet) cs -> length (guid_positions cs) = length cs.
Proof.
  induction 1 as [|c cs Hc H IH]; auto. unfold guid_positions. cbn [flat_map]. destruct (find_char_in c alphabet 0 Hc) as [j ->].
  cbn [app length]. f_equal. exact IH.
Qed.

Lemma chunks_length l : forall k, length l = (4 * k)%nat -> length (decode_chunks l) = (3 * k)%nat.
Proof.
  induction l as [l Hl|a b c d l IH] using list_ind4; intros k Hk.
  - destruct l; cbn in *; lia.
  - destruct k as [|k]; [cbn in Hk; lia|]. cbn [decode_chunks length]. rewrite (IH k); cbn [length] in Hk; lia.
Qed.

Lemma guid_form cs rest : length cs = 22%nat -> Forall (fun c => In c alphabet) cs ->
  p_guid ((lit "'" ++ cs ++ lit "'") ++ rest) = ROk (decode_guid (guid_positions cs)) rest.
Proof.
  intros Hl Hc. rewrite <- !app_assoc. unfold p_guid, bind at 1. rewrite tag_app. unfold bind at 1, pmap_unwrap.
  rewrite <- Hl, take_exactly_app.
  2:{ apply forallb_forall. intros c Hin. rewrite Forall_forall in Hc. unfold in_alphabet. now destruct (find_char_in c alphabet 0 (Hc c Hin)) as [j ->]. }
  cbv zeta. assert (E : length (decode_guid (guid_positions cs)) = 16%nat).
  { pose proof (positions_length cs Hc) as Hp. rewrite Hl in Hp. unfold decode_guid. destruct (guid_positions cs) as [|a [|b r]]; try discriminate Hp.
    cbn [length] in *. rewrite (chunks_length r 5); lia. }
  rewrite E. cbn [Nat.eqb]. unfold bind. now rewrite tag_app.
Qed.

(** ** Vectors and measures *)

Lemma vec2_form a b g1 g2 g3 g4 : real_form a -> real_form b -> gap g1 -> gap g2 -> gap g3 -> gap g4 ->
  exists v, reads p_vec2 (lit "(" ++ g1 ++ a ++ g2 ++ lit "," ++ g3 ++ b ++ g4 ++ lit ")") v.
Proof.
  intros Ha Hb H1 H2 H3 H4. apply real_form_reads in Ha as (x & _ & Sx & Hx). apply real_form_reads in Hb as (y & _ & Sy & Hy).
  exists (x, y). intros rest Hr. right. rewrite <- !app_assoc. unfold p_vec2, bind.
  rewrite p_open_gap by (auto; now apply starts_no_gap).
  rewrite Hx by (apply stop_gap; auto; apply stop_comma).
  rewrite p_comma_gap by (auto; now apply starts_no_gap).
  rewrite Hy by (apply stop_gap; auto; apply stop_close).
  now rewrite p_close_gap.
Qed.

Lemma vec3_form a b c g1 g2 g3 g4 g5 g6 : real_form a -> real_form b -> real_form c ->
  gap g1 -> gap g2 -> gap g3 -> gap g4 -> gap g5 -> gap g6 ->
  exists v, reads p_vec3 (lit "(" ++ g1 ++ a ++ g2 ++ lit "," ++ g3 ++ b ++ g4 ++ lit "," ++ g5 ++ c ++ g6 ++ lit ")") v.
Proof.
  intros Ha Hb Hc H1 H2 H3 H4 H5 H6. apply real_form_reads in Ha as (x & _ & Sx & Hx).
  apply real_form_reads in Hb as (y & _ & Sy & Hy). apply real_form_reads in Hc as (z & _ & Sz & Hz).
  exists (x, y, z). intros rest Hr. right. rewrite <- !app_assoc. unfold p_vec3, bind.
  rewrite p_open_gap by (auto; now apply starts_no_gap).
  rewrite Hx by (apply stop_gap; auto; apply stop_comma).
  rewrite p_comma_gap by (auto; now apply starts_no_gap).
  rewrite Hy by (apply stop_gap; auto; apply stop_comma).
  rewrite p_comma_gap by (auto; now apply starts_no_gap).
  rewrite Hz by (apply stop_gap; auto; apply stop_close).
  now rewrite p_close_gap.
Qed.

(** Three numbers are not two. *)
Lemma vec2_on_vec3 a b c g1 g2 g3 g4 g5 g6 rest : real_form a -> real_form b -> gap g1 -> gap g2 -> gap g3 -> gap g4 ->
  p_vec2 (lit "(" ++ g1 ++ a ++ g2 ++ lit "," ++ g3 ++ b ++ g4 ++ lit "," ++ g5 ++ c ++ g6 ++ lit ")" ++ rest) = RBack.
Proof.
  intros Ha Hb H1 H2 H3 H4. apply real_form_reads in Ha as (x & _ & Sx & Hx). apply real_form_reads in Hb as (y & _ & Sy & Hy).
  unfold p_vec2, bind. rewrite p_open_gap by (auto; now apply starts_no_gap).
  rewrite Hx by (apply stop_gap; auto; apply stop_comma).
  rewrite p_comma_gap by (auto; now apply starts_no_gap).
  rewrite Hy by (apply stop_gap; auto; apply stop_comma).
  rewrite surrounded_eq, skip_gap_stop by (auto using no_gap_comma). reflexivity.
Qed.

Lemma measure_hit i n m p txt w s : m = fst n \/ m = snd n /\ incomparable (fst n) m = true ->
  reads p txt w -> p_measure i n p (m ++ lit "(" ++ txt ++ lit ")" ++ s) = ROk (VMeasure i w) s.
Proof.
  intros Hm H. unfold p_measure, bind, alt.
  assert (E : match tag (fst n) (m ++ lit "(" ++ txt ++ lit ")" ++ s) with
              | RBack => tag (snd n) (m ++ lit "(" ++ txt ++ lit ")" ++ s) | r => r end = ROk tt (lit "(" ++ txt ++ lit ")" ++ s)).
  { destruct Hm as [->|[-> Hi]]; [now rewrite tag_app|]. now rewrite incomparable_back, tag_app by auto. }
  rewrite E. rewrite tag_app.
  destruct (H (lit ")" ++ s) (stop_close s)) as [-> | ->].
  - now rewrite tag_app.
  - rewrite skip_no_gap by apply no_gap_close. now rewrite tag_app.
Qed.

Lemma measure_form n t w v : 
  In (n, t) [(lit "IFCBOOLEAN", TBool); (lit "IfcBoolean", TBool); (lit "IFCLABEL", TStr); (lit "IfcLabel", TStr);
             (lit "IFCREAL", TReal); (lit "IfcReal", TReal); (lit "IFCIDENTIFIER", TStr); (lit "IfcIdentifier", TStr);
             (lit "IFCTHERMALTRANSMITTANCEMEASURE", TReal); (lit "IfcThermaltransmittancemeasure", TReal)] ->
  reads (p_ty t) w v -> exists u, reads p_value (n ++ lit "(" ++ w ++ lit ")") u.
Proof.
  intros Hin H.
  assert (X : exists i, forall s, p_value (n ++ lit "(" ++ w ++ lit ")" ++ s) = ROk (VMeasure i v) s).
  { cbn [In] in Hin.
    repeat destruct Hin as [E|Hin]; try contradiction; injection E as <- <-; cbn [p_ty] in H;
      [exists 0%nat|exists 0%nat|exists 1%nat|exists 1%nat|exists 2%nat|exists 2%nat|exists 3%nat|exists 3%nat|exists 4%nat|exists 4%nat]; intro s;
      unfold p_value, measure_names, measure_contents; cbn [p_measures]; unfold alt;
      repeat (rewrite p_measure_miss by reflexivity);
      lazymatch goal with |- context [p_measure ?i ?n ?p (?m ++ _)] => rewrite (measure_hit i n m p w v s); auto; try (left; reflexivity); right; split; reflexivity end. }
  destruct X as [i X]. exists (VMeasure i v). intros rest Hr. left. rewrite <- !app_assoc. apply X.
Qed.

Lemma measure_name_starts n t : 
  In (n, t) [(lit "IFCBOOLEAN", TBool); (lit "IfcBoolean", TBool); (lit "IFCLABEL", TStr); (lit "IfcLabel", TStr);
             (lit "IFCREAL", TReal); (lit "IfcReal", TReal); (lit "IFCIDENTIFIER", TStr); (lit "IfcIdentifier", TStr);
             (lit "IFCTHERMALTRANSMITTANCEMEASURE", TReal); (lit "IfcThermaltransmittancemeasure", TReal)] ->
  starts_ok n = true /\ ty_ok t = true.
Proof. cbn [In]. intro H. repeat destruct H as [E|H]; try contradiction; injection E as <- <-; split; reflexivity. Qed.

(** ** Attributes, rows and lists *)

Definition form_stmt t txt :=
  ty_ok t = true -> (exists v, reads (p_ty t) txt v) /\ opens txt /\ (is_opt t = false -> starts_ok txt = true).
Definition form_row_stmt kws (ws : bool) fs closer txt :=
  keywords_ok kws = true -> closer_ok closer = true -> forallb ty_ok fs = true ->
  (exists l, forall rest, p_row kws ws (map p_ty fs) closer (txt ++ rest) = ROk l (if ws then skip rest else rest)) /\
  starts_ok txt = true /\ (forall s, p_id (txt ++ s) = RBack).
Definition form_attrs_stmt fs txt :=
  forallb ty_ok fs = true -> (exists l, reads (p_attrs (map p_ty fs)) txt l) /\ opens txt.
Definition form_items_stmt t txt :=
  ty_ok t = true -> is_opt t = false ->
  (exists l, forall rest, repeat_till (item t) (tag (lit ")")) (txt ++ lit ")" ++ rest) = ROk (l, tt) rest) /\
  (txt = [] \/ starts_ok txt = true).

Lemma atom_stmt t txt : (ty_ok t = true -> (exists v, reads (p_ty t) txt v) /\ starts_ok txt = true) -> form_stmt t txt.
Proof. intros H Hok. destruct (H Hok) as [H1 H2]. split; auto. split; auto. now apply starts_opens. Qed.

Theorem form_reads_all :
  (forall t txt, form t txt -> form_stmt t txt) /\
  (forall kws ws fs closer txt, form_row kws ws fs closer txt -> form_row_stmt kws ws fs closer txt) /\
  (forall fs txt, form_attrs fs txt -> form_attrs_stmt fs txt) /\
  (forall t txt, form_items t txt -> form_items_stmt t txt).
Proof.
  apply (form_ind4 (fun t txt _ => form_stmt t txt)
    (fun kws ws fs closer txt _ => form_row_stmt kws ws fs closer txt)
    (fun fs txt _ => form_attrs_stmt fs txt)
    (fun t txt _ => form_items_stmt t txt)).
  - intros c Hc. apply atom_stmt. intros _. split; [|reflexivity]. eexists. cbn [p_ty]. apply reads_map. intros r Hr. left.
    rewrite <- !app_assoc. now apply p_string_quoted.
  - intros w Hw. apply atom_stmt. intros _. apply real_form_reads in Hw as (d & Hd & Hs & _). split; auto. eexists. cbn [p_ty]. now apply reads_map, Hd.
  - intros z w Hw Hz. apply atom_stmt. intros _. split; [|now apply int_starts in Hw]. eexists. cbn [p_ty]. apply reads_map. intros r Hr. left.
    apply (dec_int_form _ _ z); auto using stop_no_digit. unfold in64, i64_min, i64_max in *. lia.
  - intros z w Hw Hz. apply atom_stmt. intros _. split; [|now apply int_starts in Hw]. eexists. cbn [p_ty]. apply reads_map. intros r Hr. left.
    apply (dec_int_form _ _ z); auto using stop_no_digit. unfold in32, i32_min, i32_max in *. lia.
  - intros w Hw. apply atom_stmt. intros _. apply bool_form in Hw as (b & Hb & Hs). split; auto. eexists. cbn [p_ty]. now apply reads_map, Hb.
  - intros cs Hl Hc. apply atom_stmt. intros _. split; [|reflexivity]. eexists. cbn [p_ty]. apply reads_map. intros r Hr. left. now apply guid_form.
  - intros z w Hw Hz. apply atom_stmt. intros _. split; [|now apply int_starts in Hw]. eexists. cbn [p_ty]. apply reads_map. intros r Hr. left.
    unfold p_timestamp, pmap_unwrap, p_int. rewrite (dec_int_form _ _ z); auto using stop_no_digit.
    + rewrite in_calendar_range in Hz. now rewrite Hz.
    + rewrite in_calendar_range in Hz. unfold in_range, ts_min, ts_max, i64_min, i64_max in *. lia.
  - intros w Hw. apply atom_stmt. intros _. destruct (enum_form _ w (eq_refl : variants_ok [lit "1"; lit "2"; lit "3"] = true) Hw) as (i & Hi & Hs).
    split; auto. eexists. cbn [p_ty]. apply reads_map. exact Hi.
  - intros. apply atom_stmt. intros _. split; [|reflexivity]. destruct (vec2_form a b g1 g2 g3 g4) as [v Hv]; auto.
    eexists. cbn [p_ty]. apply reads_map. exact Hv.
  - intros. apply atom_stmt. intros _. split; [|reflexivity]. destruct (vec3_form a b c g1 g2 g3 g4 g5 g6) as [v Hv]; auto.
    eexists. cbn [p_ty]. apply reads_map. exact Hv.
  - intros n t w Hin _ IH. apply atom_stmt. intros _. destruct (measure_name_starts n t Hin) as [H1 H2].
    destruct (IH H2) as ((v & Hv) & _). split; [|now apply starts_app]. cbn [p_ty]. eapply measure_form; eauto.
  - intros vs w Hw. apply atom_stmt. cbn [ty_ok]. intro Hok. destruct (enum_form vs w Hok Hw) as (i & Hi & Hs). split; auto.
    eexists. cbn [p_ty]. apply reads_map. exact Hi.
  - intros ks b n w Hw. apply atom_stmt. intros _. split; [|destruct Hw as (ds & -> & _); reflexivity].
    eexists. cbn [p_ty]. apply reads_map. intros r Hr. left. apply id_form; eauto using stop_no_digit.
  - intros k kws ws fs closer n w Hw. apply atom_stmt. intros _. split; [|destruct Hw as (ds & -> & _); reflexivity].
    exists (VId n). intros rest Hr. left. cbn [p_ty]. unfold alt, pmap at 1. rewrite (id_form n) by auto using stop_no_digit. reflexivity.
  - intros k kws ws fs closer w _ IH. apply atom_stmt. intro Hok. cbn [ty_ok] in Hok. rewrite !andb_true_iff in Hok. destruct Hok as [[[Hk Hc] Hf] _].
    destruct (IH Hk Hc Hf) as ((l & H1) & H2 & H3). split; auto. exists (VEnt l).
    intros rest Hr. cbn [p_ty]. unfold alt, pmap. rewrite H3, H1. destruct ws; auto.
  - intros t _. split; [|split; [cbn; auto|discriminate]]. exists VOmit. intros rest Hr. left. reflexivity.
  - intros t _. split; [|split; [cbn; auto|discriminate]]. exists VInh. intros rest Hr. left. reflexivity.
  - intros t txt _ IH Hok. cbn [ty_ok] in Hok. apply andb_true_iff in Hok as [Hno Hok]. apply negb_true_iff in Hno.
    destruct (IH Hok) as ((v & H1) & H2 & H3). specialize (H3 Hno).
    split; [|split; [now apply starts_opens|discriminate]]. exists v. intros rest Hr.
    destruct (starts_cons txt H3) as (c & s & -> & Hc). apply starter_spec in Hc.
    assert (E : p_ty (TOpt t) ((c :: s) ++ rest) = alt (p_ty t) (fallback t) ((c :: s) ++ rest)).
    { cbn [p_ty app]. unfold alt at 1 2, pmap. change (lit "$") with [36].
      change (lit "*") with [42]. rewrite (tag_neq 36), (tag_neq 42) by lia. reflexivity. }
    rewrite E. unfold alt. destruct (H1 rest Hr) as [-> | ->]; auto.
  - (* other numbers of dimensions *)
    intros z w Hw Hz Hh _. pose proof (int_starts z w Hw) as H3. split; [|split; [now apply starts_opens|discriminate]].
    exists VInh. intros rest Hr. left.
    assert (Ef : fallback TDim (w ++ rest) = ROk VInh rest).
    { cbn [fallback]. unfold dim_fallback, pmap. rewrite (dec_int_form _ _ z); auto using stop_no_digit. unfold in32, i32_min, i32_max in *. lia. }
    destruct (starts_cons w H3) as (c & s & -> & Hc). apply starter_spec in Hc. cbn [hd] in Hh. change (lit "123") with [49; 50; 51] in Hh. cbn [In] in Hh.
    cbn [p_ty app]. unfold alt, pmap. change (lit "$") with [36]. change (lit "*") with [42]. rewrite (tag_neq 36), (tag_neq 42) by lia.
    assert (Ee : p_enum dim_variants (c :: s ++ rest) = RBack).
    { unfold p_enum. rewrite surrounded_eq. change (c :: s ++ rest) with ((c :: s) ++ rest).
      rewrite skip_no_gap by (now apply starts_no_gap). unfold dim_variants. cbn [p_variants]. unfold alt, pmap.
      change (lit "1") with [49]. change (lit "2") with [50]. change (lit "3") with [51]. cbn [app].
      rewrite (tag_neq 49), (tag_neq 50), (tag_neq 51) by lia. reflexivity. }
    rewrite Ee. exact Ef.
  - intros t txt _ IH Hok. cbn [ty_ok] in Hok. apply andb_true_iff in Hok as [Hno Hok]. apply negb_true_iff in Hno.
    destruct (IH Hok Hno) as ((l & H1) & H2). split; [|split; [now apply starts_opens|auto]].
    exists (VList l). intros rest Hr. left. cbn [p_ty]. unfold p_list, pmap, bind at 1.
    rewrite <- !app_assoc, tag_app. specialize (H1 rest). unfold item in H1. now rewrite H1.
  - (* row *)
    intros kws ws fs closer kw g1 txt g2 Hin Hg1 Hg2 Hws _ IH Hk Hc Hf.
    destruct (IH Hf) as ((l & H1) & H2). destruct (keyword_facts kws kw Hk Hin) as [H3 H4].
    split; [|split].
    + exists l. intros rest. rewrite <- !app_assoc.
      assert (E : p_row kws ws (map p_ty fs) closer (kw ++ g1 ++ txt ++ g2 ++ closer ++ rest) =
                  bind (p_attrs (map p_ty fs)) (fun l => bind (p_closer ws closer) (fun _ => ret l))
                    (txt ++ g2 ++ closer ++ rest)).
      { unfold p_row, bind at 1. rewrite p_keyword_show by auto. destruct ws.
        - rewrite skip_gap_stop; auto. now apply opens_no_gap.
        - now destruct (Hws eq_refl) as [-> _]. }
      rewrite E. unfold bind at 1.
      destruct (stop_closer closer rest Hc) as [Hcs Hcg].
      assert (Hst : stop (g2 ++ closer ++ rest)) by now apply stop_gap.
      assert (Hsk : skip (g2 ++ closer ++ rest) = closer ++ rest) by now apply skip_gap_stop.
      destruct ws.
      * destruct (reads_skip _ _ _ _ H1 Hst) as (r & -> & Hr').
        unfold bind, p_closer, ret. rewrite surrounded_eq, Hr', Hsk. now rewrite tag_app.
      * destruct (Hws eq_refl) as [_ ->]. cbn [app] in *.
        destruct (H1 _ Hst) as [-> | ->]; [|rewrite Hsk]; unfold bind, p_closer, ret;
          now rewrite tag_app.
    + now apply starts_app.
    + intro s. rewrite <- app_assoc. apply H4.
  - intros t txt _ IH Hf. cbn [forallb] in Hf. apply andb_true_iff in Hf as [Hf _].
    destruct (IH Hf) as ((v & H1) & H2 & _). split; auto.
    eexists. cbn [map p_attrs]. exact (reads_map (fun v => [v]) _ _ _ H1).
  - intros t txt g1 g2 fs txt' _ IH Hg1 Hg2 Hrest IH' Hf.
    cbn [forallb] in Hf. apply andb_true_iff in Hf as [Hf Hf']. destruct (IH Hf) as ((v & H1) & H2 & _).
    destruct (IH' Hf') as ((l & H1') & H2'). split; [|now apply opens_app].
    exists (v :: l). intros rest Hr. rewrite <- !app_assoc.
    destruct (reads_skip _ _ _ (g1 ++ lit "," ++ g2 ++ txt' ++ rest) H1) as (r & E & Hsk);
      [apply stop_gap; auto; apply stop_comma|].
    assert (Ec : p_comma r = ROk tt (txt' ++ rest)).
    { rewrite (p_comma_skip _ _ Hsk). apply p_comma_gap; auto. now apply opens_no_gap. }
    assert (Ea : p_attrs (map p_ty (t :: fs)) =
                 (v <- p_ty t ;; p_comma ;;; l <- p_attrs (map p_ty fs) ;; ret (v :: l))%parser).
    { destruct fs; [inversion Hrest|reflexivity]. }
    rewrite Ea. unfold bind, ret. rewrite E, Ec.
    destruct (H1' rest Hr) as [-> | ->]; [left|right]; reflexivity.
  - intros t Hok _. split; [|now left]. exists []. intro rest. rewrite repeat_till_eq by now apply consuming_item.
    cbn [app]. now rewrite tag_app.
  - intros t txt g1 c g2 txt' _ IH Hg1 Hg2 Hc Hrest IH' Hok Hno.
    destruct (IH Hok) as ((v & H1) & _ & H2). specialize (H2 Hno).
    destruct (IH' Hok Hno) as ((l & H1') & H2').
    split; [|right; now apply starts_app].
    exists (v :: l). intro rest. rewrite repeat_till_eq by now apply consuming_item.
    rewrite <- !app_assoc. rewrite opens_not_close by now apply starts_opens.
    set (more := txt' ++ lit ")" ++ rest).
    assert (Hn : no_gap more).
    { unfold more. destruct H2' as [->|H2']. apply no_gap_close. now apply starts_no_gap. }
    assert (Ht : tag (lit ",") more = RBack).
    { unfold more. destruct H2' as [->|H2']; [reflexivity|].
      apply starts_opens, opens_cons in H2' as (x & y & -> & Hx). cbn [app].
      change (lit ",") with [44]. apply tag_neq. lia. }
    assert (Hst : stop (g1 ++ c ++ g2 ++ more)).
    { destruct Hc as [->|[-> [Hne| ->]]].
      - apply stop_gap; auto. apply stop_comma.
      - cbn [app]. now apply gap_app_ne.
      - unfold more. cbn [app]. rewrite app_assoc.
        apply stop_gap; [now apply gap_app|]. apply stop_close. }
    assert (Ho : exists o, forall r, skip r = skip (g1 ++ c ++ g2 ++ more) ->
              surrounded (opt (tag (lit ","))) r = ROk o more).
    { destruct Hc as [->|[-> _]].
      - exists (Some tt). intros r E. apply (opt_comma_skip r (lit ",") g2); auto. rewrite E.
        rewrite skip_gap_stop; auto. apply no_gap_comma.
      - exists None. intros r E. apply (opt_comma_skip r [] []); auto. constructor.
        rewrite E. cbn [app]. rewrite app_assoc. apply skip_gap_stop; auto. now apply gap_app. }
    destruct Ho as [o Ho].
    destruct (reads_skip _ _ _ _ H1 Hst) as (r & E & Hsk).
    assert (Ei : item t (txt ++ g1 ++ c ++ g2 ++ more) = ROk v more).
    { unfold item, bind. rewrite E. rewrite (Ho r Hsk). reflexivity. }
    rewrite Ei. unfold more. rewrite H1'. reflexivity.
Qed.

(** ** Kinds *)

Definition form_ent (k : kind) (w : text) : Prop :=
  exists r, row_of k = Some r /\ form_row (row_kws r) (row_ws r) (row_fields r) (row_closer r) w.

Lemma form_ent_keyword k w : form_ent k w -> exists kw t, In kw (kws k) /\ w = kw ++ t /\ starts_ok kw = true.
Proof.
  intros (r & Hr & H). unfold kws. rewrite Hr.
  pose proof (row_ok_inv r (all_rows_ok k r Hr)) as (Hk & _).
  inversion H; subst. eexists _, _. split; [eassumption|]. split; [reflexivity|]. eapply keyword_facts; eauto.
Qed.

Lemma form_kind_miss k' k w rest : disjoint_kws k' k = true -> form_ent k w -> p_kind k' (w ++ rest) = RBack.
Proof.
  intros Hd Hl. apply form_ent_keyword in Hl as (kw & t & Hin & -> & Hs).
  unfold p_kind. unfold disjoint_kws, kws in Hd. destruct (row_of k') as [r'|]; [|reflexivity].
  unfold pmap, p_row, bind. rewrite <- app_assoc. rewrite p_keyword_miss; auto.
  rewrite forallb_forall in *. intros x Hx. specialize (Hd x Hx). rewrite forallb_forall in Hd. auto.
Qed.

Lemma form_kind_same k' k w rest : same_keyword k' k = true -> form_ent k w -> p_kind k' (w ++ rest) = RBack.
Proof.
  intros Hs (r & Hr & Hl).
  assert (Hgen : forall kw, row_kws r = [kw] -> row_ws r = false -> row_fields r = [TVec3] ->
            exists a b c g1 g2 g3 g4 g5 g6, real_form a /\ real_form b /\ gap g1 /\ gap g2 /\ gap g3 /\ gap g4 /\
              w = kw ++ (lit "(" ++ g1 ++ a ++ g2 ++ lit "," ++ g3 ++ b ++ g4 ++
                    lit "," ++ g5 ++ c ++ g6 ++ lit ")") ++ row_closer r).
  { intros kw E1 E2 E3. rewrite E1, E2, E3 in *.
    inversion Hl as [? ? ? ? kw' h1 t h2 Hin G1 G2 Hws Ha]; subst.
    destruct Hin as [<-|[]]. destruct (Hws eq_refl) as [-> ->].
    inversion Ha as [? ? Hv|? ? ? ? ? ? ? ? ? Hbad]; subst; [|inversion Hbad].
    inversion Hv; subst.
    exists a, b, c, g1, g2, g3, g4, g5, g6. cbn [app]. tauto. }
  unfold same_keyword in Hs. apply orb_true_iff in Hs as [Hs|Hs]; apply andb_true_iff in Hs as [H1 H2];
    apply kind_eqb_eq in H1, H2; subst k k'; cbn [row_of] in Hr; injection Hr as <-.
  - destruct (Hgen _ eq_refl eq_refl eq_refl) as (x & y & z & g1 & g2 & g3 & g4 & g5 & g6 & Hx & Hy & G1 & G2 & G3 & G4 & ->).
    rewrite <- !app_assoc. unfold p_kind. cbn [row_of]. unfold row_Direction2D. cbn [row_kws row_ws row_fields row_closer map p_ty].
    unfold pmap at 1, p_row, bind at 1. rewrite (p_keyword_show false [lit "IFCDIRECTION("]) by (auto; now left).
    unfold bind at 1. cbn [p_attrs]. unfold pmap at 1 2. now rewrite vec2_on_vec3.
  - destruct (Hgen _ eq_refl eq_refl eq_refl) as (x & y & z & g1 & g2 & g3 & g4 & g5 & g6 & Hx & Hy & G1 & G2 & G3 & G4 & ->).
    rewrite <- !app_assoc. unfold p_kind. cbn [row_of]. unfold row_Point2D. cbn [row_kws row_ws row_fields row_closer map p_ty].
    unfold pmap at 1, p_row, bind at 1. rewrite (p_keyword_show false [lit "IFCCARTESIANPOINT("]) by (auto; now left).
    unfold bind at 1. cbn [p_attrs]. unfold pmap at 1 2. now rewrite vec2_on_vec3.
Qed.

Lemma form_kind_reads k w : form_ent k w ->
  exists l, spells_object (Ent k l) w /\ forall rest, exists r, p_kind k (w ++ rest) = ROk (Ent k l) r /\ (r = rest \/ r = skip rest).
Proof.
  intros (r & Hr & Hl). destruct (row_ok_inv r (all_rows_ok k r Hr)) as (H1 & H2 & H3 & _).
  destruct (proj1 (proj2 form_reads_all) _ _ _ _ _ Hl H1 H2 H3) as ((l & H) & _). exists l. split.
  { pose proof (H []) as E. assert (Er : (if row_ws r then skip [] else []) = @nil N) by now destruct (row_ws r). rewrite Er in E.
    apply row_sound in E as (w' & E & Hw); [|apply Forall_forall; intros t _; apply ty_sound]. rewrite !app_nil_r in E. subst w'. econstructor; eauto. }
  intro rest. unfold p_kind, pmap. rewrite Hr, H. eexists. split; [reflexivity|]. destruct (row_ws r); auto.
Qed.

Lemma form_obj_known k w : form_ent k w ->
  exists l, spells_object (Ent k l) w /\ forall g rest, gap g -> no_gap rest -> p_obj (w ++ g ++ rest) = ROk (Ent k l) rest.
Proof.
  intro H. destruct (form_kind_reads k w H) as (l & Hsp & E). exists l. split; auto. intros g rest Hg Hr.
  assert (Hn : no_gap (w ++ g ++ rest)).
  { destruct (form_ent_keyword k w H) as (kw & t & _ & -> & Hs). rewrite <- app_assoc. now apply starts_no_gap. }
  assert (Hk : In k all_kinds).
  { apply all_kinds_complete. intros ->. destruct H as (r & Er & _). discriminate. }
  unfold p_obj. rewrite surrounded_eq, skip_no_gap by auto. destruct (E (g ++ rest)) as (r & Er & Hx).
  assert (Ek : p_known (w ++ g ++ rest) = ROk (Ent k l) r).
  { unfold p_known. rewrite (alts_first p_kind all_kinds k); auto; [|rewrite Er; discriminate].
    intros k' Hin. pose proof dispatch_check as D. rewrite forallb_forall in D. specialize (D k Hk).
    rewrite forallb_forall in D. specialize (D k' Hin). apply orb_true_iff in D as [D|D].
    - eapply form_kind_miss; eauto.
    - eapply form_kind_same; eauto. }
  unfold alt. rewrite Ek. f_equal. assert (Hs : skip (g ++ rest) = rest) by now apply skip_gap_stop.
  destruct Hx as [-> | ->]; auto. now rewrite skip_idem.
Qed.

(** ** Objects and lines *)

Lemma form_obj s w : form_object s w ->
  exists e, is_sort e s /\ spells_object e w /\ forall g1 g2 rest, gap g1 -> gap g2 -> no_gap rest -> p_obj (g1 ++ w ++ g2 ++ rest) = ROk e rest.
Proof.
  intros [k r w' Hr Hw|t Ht].
  - destruct (form_obj_known k w' (ex_intro _ r (conj Hr Hw))) as (l & Hsp & H). exists (Ent k l). split; [now exists l|]. split; auto.
    intros g1 g2 rest H1 H2 H3. rewrite <- (H g2 rest H2 H3). unfold p_obj. rewrite !surrounded_eq. now rewrite skip_gap.
  - exists (EDummy t). split; [reflexivity|]. split.
    { pose proof (p_obj_dummy t [] [] [] Ht gap_nil gap_nil I) as E. apply p_obj_dummy_inv in E as [E _].
      change (t ++ lit ";") with (t ++ [] ++ lit ";"). constructor; auto. constructor. }
    intros g1 g2 rest H1 H2 H3. rewrite <- app_assoc. now apply p_obj_dummy.
Qed.

Lemma form_line n w s t g1 g2 g3 : SpellSpec.id_text n w -> gap g1 -> gap g2 -> gap g3 -> form_object s t ->
  exists e, is_sort e s /\ p_obj t = ROk e [] /\ forall rest, no_gap rest -> p_line (w ++ g1 ++ lit "=" ++ g2 ++ t ++ g3 ++ rest) = ROk (n, e) rest.
Proof.
  intros Hw H1 H2 H3 Ho. destruct (form_obj s t Ho) as (e & He & _ & E). exists e. split; auto. split.
  { specialize (E [] [] [] gap_nil gap_nil I). cbn [app] in E. now rewrite app_nil_r in E. }
  intros rest Hr. unfold p_line. rewrite surrounded_eq. rewrite skip_no_gap.
  2:{ destruct Hw as (ds & -> & _). rewrite <- app_assoc. apply (starts_no_gap (lit "#")). reflexivity. }
  unfold bind. rewrite (id_form n); auto.
  2:{ change (lit "=") with [61]. cbn [app]. now apply SectionFacts.gap_no_digit. }
  rewrite surrounded_eq, skip_gap_stop; auto.
  2:{ cbn [app]. apply no_gap_char; [unfold blank; cbv; lia|cbv; lia]. }
  rewrite tag_app, skip_gap by auto.
  assert (Eo : p_obj (skip (t ++ g3 ++ rest)) = ROk e rest).
  { specialize (E [] g3 rest gap_nil H3 Hr). cbn [app] in E. unfold p_obj in *. rewrite surrounded_eq in *. now rewrite skip_idem. }
  rewrite Eo. unfold ret. f_equal. now apply skip_no_gap.
Qed.

Lemma form_lines_no_gap l w rest : form_lines l w -> no_gap rest -> no_gap (w ++ rest).
Proof.
  intros [|n w' s g1 g2 t g3 l' w2 (ds & -> & _) _ _ _ _ _] H; auto. rewrite <- !app_assoc. apply (starts_no_gap (lit "#")). reflexivity.
Qed.

Lemma form_lines_reads l w : form_lines l w ->
  exists l', Forall2 same l l' /\
    forall g rest, gap g -> no_gap rest -> p_lines (w ++ lit "ENDSEC;" ++ g ++ rest) = ROk l' rest.
Proof.
  intro H.
  assert (X : exists l', Forall2 same l l' /\ forall g rest, gap g -> no_gap rest ->
    repeat_till p_line (surrounded (tag (lit "ENDSEC;"))) (w ++ lit "ENDSEC;" ++ g ++ rest) = ROk (l', tt) rest).
  { induction H as [|n w s g1 g2 t g3 l w' Hw H1 H2 H3 Ho Hl IH].
    - exists []. split; [constructor|]. intros g rest Hg Hr. rewrite repeat_till_eq by apply SectionFacts.consuming_line. rewrite surrounded_eq.
      cbn [app]. rewrite skip_no_gap by apply SectionFacts.no_gap_endsec. rewrite tag_app. f_equal. now apply skip_gap_stop.
    - destruct IH as (l' & Hl' & IH). destruct (form_line n w s t g1 g2 g3 Hw H1 H2 H3 Ho) as (e & He & _ & E).
      exists ((n, e) :: l'). split; [constructor; auto; split; auto|]. intros g rest Hg Hr.
      rewrite repeat_till_eq by apply SectionFacts.consuming_line. rewrite surrounded_eq. rewrite <- !app_assoc.
      assert (Hd : exists ds, w = lit "#" ++ ds) by (destruct Hw as (ds & -> & _); eauto). destruct Hd as [ds Ed].
      rewrite skip_no_gap.
      2:{ rewrite Ed, <- app_assoc. apply (starts_no_gap (lit "#")). reflexivity. }
      assert (Et : tag (lit "ENDSEC;") (w ++ g1 ++ lit "=" ++ g2 ++ t ++ g3 ++ w' ++ lit "ENDSEC;" ++ g ++ rest) = RBack) by (rewrite Ed; reflexivity).
      rewrite Et. rewrite E.
      + rewrite IH by auto. reflexivity.
      + apply form_lines_no_gap with l; auto. apply SectionFacts.no_gap_endsec. }
  destruct X as (l' & Hl & X). exists l'. split; auto. intros g rest Hg Hr. unfold p_lines, pmap. now rewrite X.
Qed.
