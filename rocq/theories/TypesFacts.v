(** Facts about the generic attribute reader and writer. *)

From Coq Require Import String Ascii List NArith ZArith Bool Lia ZifyBool ZifyNat ZifyN.
From Verif Require Import Base Prims BaseFacts Spec PrimsFacts StringFacts Guid GuidFacts
  Float RoundFacts FloatFacts Kind Types Layout WellTyped.
Import ListNotations.
Open Scope N_scope.

Notation normv := (norm_val norm_real).

(** ** The calendar *)

Lemma in_calendar_range z : in_calendar z = in_range ts_min ts_max z.
Proof.
  unfold in_calendar, in_range, ts_min, ts_max.
  change (86400 * days_to (-262143))%Z with (-8334601228800)%Z. change (86400 * days_to 262143)%Z with 8210266876800%Z. lia.
Qed.

(** ** Induction on attribute types *)

Lemma fty_rect' (P : fty -> Prop) :
  P TStr -> P TReal -> P TInt -> P TI32 -> P TBool -> P TGuid -> P TTime -> P TDim ->
  P TVec2 -> P TVec3 -> P TValue -> (forall vs, P (TEnum vs)) ->
  (forall ks chk, P (TRef ks chk)) ->
  (forall k kws ws fs closer, Forall P fs -> P (TIdOr k kws ws fs closer)) ->
  (forall t, P t -> P (TOpt t)) -> (forall t, P t -> P (TList t)) ->
  forall t, P t.
Proof.
  intros H1 H2 H3 H4 H5 H6 H7 H8 H9 H10 H11 He Hr Hi Ho Hl. fix IH 1. intro t.
  destruct t as [| | | | | | | | | | |vs|ks chk|k kws ws fs closer|t|t]; try assumption.
  - apply He.
  - apply Hr.
  - apply Hi. induction fs; constructor; auto.
  - apply Ho, IH.
  - apply Hl, IH.
Qed.

(** ** Beginnings of texts *)

Lemma starter_spec c : starter c = true ->
  ~ blank c /\ c <> 47 /\ c <> 41 /\ c <> 44 /\ c <> 36 /\ c <> 42.
Proof.
  unfold starter. change (lit "/),$*") with [47; 41; 44; 36; 42]. cbn [existsb].
  rewrite andb_true_iff, !negb_true_iff, is_space_false. intros [H1 H2]. split; auto. lia.
Qed.

Lemma starter_false c : starter c = false ->
  blank c \/ c = 47 \/ c = 41 \/ c = 44 \/ c = 36 \/ c = 42.
Proof.
  unfold starter. change (lit "/),$*") with [47; 41; 44; 36; 42]. cbn [existsb].
  rewrite andb_false_iff, !negb_false_iff, is_space_blank. intros [H|H]; auto. lia.
Qed.

(** The text of an attribute, optional or not. *)
Definition opens (s : text) : Prop :=
  match s with [] => False | c :: _ => starter c = true \/ c = 36 \/ c = 42 end.

Lemma opens_app s r : opens s -> opens (s ++ r).
Proof. now destruct s. Qed.

Lemma starts_opens s : starts_ok s = true -> opens s.
Proof. destruct s; [discriminate|]. now left. Qed.

Lemma starts_app s r : starts_ok s = true -> starts_ok (s ++ r) = true.
Proof. destruct s; auto; discriminate. Qed.

Lemma starts_cons s : starts_ok s = true -> exists c r, s = c :: r /\ starter c = true.
Proof. destruct s as [|c r]; [discriminate|]. intro H. exists c, r. auto. Qed.

Lemma opens_cons s : opens s ->
  exists c r, s = c :: r /\ ~ blank c /\ c <> 47 /\ c <> 41 /\ c <> 44.
Proof.
  destruct s as [|c s]; [contradiction|]. intro H. exists c, s. split; auto.
  destruct H as [H|[->| ->]].
  - apply starter_spec in H. tauto.
  - unfold blank. lia.
  - unfold blank. lia.
Qed.

Lemma opens_no_gap s r : opens s -> no_gap (s ++ r).
Proof.
  intro H. apply opens_cons in H as (c & s' & -> & H). cbn [app]. apply no_gap_char; tauto.
Qed.

Lemma starts_no_gap s r : starts_ok s = true -> no_gap (s ++ r).
Proof. intro H. now apply opens_no_gap, starts_opens. Qed.

Lemma opens_not_close s r : opens s -> tag (lit ")") (s ++ r) = RBack.
Proof.
  intro H. apply opens_cons in H as (c & s' & -> & H). cbn [app]. change (lit ")") with [41]. apply tag_neq. lia.
Qed.

(** ** What may follow an attribute *)

Lemma stop_gap g s : gap g -> stop s -> stop (g ++ s).
Proof.
  intros Hg Hs. destruct Hg as [|c g Hc Hg|body g Hn Hg]; auto.
  - cbn. tauto.
  - cbn. tauto.
Qed.

Lemma gap_head_stop g s : gap g -> g <> [] -> stop (g ++ s).
Proof.
  intros Hg Hs. destruct Hg as [|c g Hc Hg|body g Hn Hg]; [congruence| |]; cbn; tauto.
Qed.

Lemma gap_app_ne g1 g2 : gap g1 -> gap g2 -> g1 ++ g2 <> [] -> forall s, stop (g1 ++ g2 ++ s).
Proof.
  intros H1 H2 Hne s. rewrite app_assoc. apply gap_head_stop; auto. now apply gap_app.
Qed.

Lemma stop_comma s : stop (lit "," ++ s).
Proof. cbn. auto. Qed.
Lemma stop_close s : stop (lit ")" ++ s).
Proof. cbn. auto. Qed.
Lemma stop_closer c s : closer_ok c = true -> stop (c ++ s) /\ no_gap (c ++ s).
Proof.
  unfold closer_ok. destruct c as [|d c]; [discriminate|]. cbn [hd app]. intro H.
  apply N.eqb_eq in H. subst. split; [cbn; auto|]. apply no_gap_char; unfold blank; lia.
Qed.
Lemma no_gap_comma s : no_gap (lit "," ++ s).
Proof. apply no_gap_char; unfold blank; cbv; lia. Qed.
Lemma no_gap_close s : no_gap (lit ")" ++ s).
Proof. apply no_gap_char; unfold blank; cbv; lia. Qed.
Lemma no_gap_open s : no_gap (lit "(" ++ s).
Proof. apply no_gap_char; unfold blank; cbv; lia. Qed.

(** [reads p txt v]: before anything that may follow an attribute, [p] takes
    [txt] (and possibly the gap after it) and returns [v]. *)
Definition reads {A} (p : parser A) (txt : text) (v : A) : Prop :=
  forall rest, stop rest ->
    p (txt ++ rest) = ROk v rest \/ p (txt ++ rest) = ROk v (skip rest).

Lemma reads_map {A B} (f : A -> B) p txt v : reads p txt v -> reads (pmap f p) txt (f v).
Proof.
  intros H rest Hr. unfold pmap. destruct (H rest Hr) as [-> | ->]; auto.
Qed.

Lemma reads_skip {A} (p : parser A) txt v rest :
  reads p txt v -> stop rest -> exists r, p (txt ++ rest) = ROk v r /\ skip r = skip rest.
Proof.
  intros H Hr. destruct (H rest Hr) as [-> | ->]; eexists; split; eauto. apply skip_idem.
Qed.

(** ** Alternatives of literals *)

Lemma incomparable_back a b s : incomparable a b = true -> tag a (b ++ s) = RBack.
Proof.
  intro H. apply tag_back. intros [r E]. unfold incomparable in H. revert b H E.
  induction a as [|c a IH]; intros b H E; cbn in H.
  - destruct b; discriminate.
  - destruct b as [|d b]; cbn in H; [discriminate|].
    cbn in E. injection E as E1 E2. subst d. rewrite N.eqb_refl in H. eapply IH; eauto.
Qed.

Lemma incomparable_sym a b : incomparable a b = incomparable b a.
Proof.
  unfold incomparable. destruct (strip_prefix a b), (strip_prefix b a); auto.
Qed.

Lemma pairwise_nth {A} (f : A -> A -> bool) l d :
  pairwise f l = true -> forall i j, (i < j < length l)%nat -> f (nth i l d) (nth j l d) = true.
Proof.
  induction l as [|x l IH]; cbn [pairwise length]; intros H i j Hij; [lia|].
  apply andb_true_iff in H as [H1 H2]. destruct j as [|j]; [lia|]. destruct i as [|i].
  - cbn [nth]. rewrite forallb_forall in H1. apply H1, nth_In. lia.
  - cbn [nth]. apply IH; auto. lia.
Qed.

Lemma p_variants_show vs : forall k i s,
  pairwise incomparable vs = true -> (i < length vs)%nat ->
  p_variants k vs (nth i vs [] ++ s) = ROk (k + i)%nat s.
Proof.
  induction vs as [|v vs IH]; intros k i s H Hi; cbn [length] in Hi; [lia|].
  cbn [pairwise] in H. apply andb_true_iff in H as [H1 H2]. cbn [p_variants]. unfold alt, pmap.
  destruct i as [|i]; cbn [nth].
  - rewrite tag_app. now rewrite Nat.add_0_r.
  - rewrite incomparable_back.
    + rewrite IH by (auto; lia). f_equal. lia.
    + rewrite forallb_forall in H1. apply H1, nth_In. lia.
Qed.

Lemma variants_ok_nth vs i :
  variants_ok vs = true -> (i < length vs)%nat -> starts_ok (nth i vs []) = true.
Proof.
  intros H Hi. apply andb_true_iff in H as [H _]. rewrite forallb_forall in H.
  now apply H, nth_In.
Qed.

Lemma p_enum_reads vs i :
  variants_ok vs = true -> (i < length vs)%nat -> reads (p_enum vs) (d_enum vs i) i.
Proof.
  intros H Hi rest Hr. right. unfold p_enum, d_enum. rewrite surrounded_eq.
  rewrite skip_no_gap by (apply starts_no_gap; now apply variants_ok_nth).
  rewrite p_variants_show; auto. now apply andb_true_iff in H.
Qed.

Lemma p_variants_ok vs : forall k s i r,
  p_variants k vs s = ROk i r -> (k <= i < k + length vs)%nat /\ s = nth (i - k) vs [] ++ r.
Proof.
  induction vs as [|v vs IH]; intros k s i r H; [discriminate|].
  cbn [p_variants] in H. unfold alt, pmap in H.
  destruct (tag_cases v s) as [(q & -> & E)|E]; rewrite E in H.
  - injection H as <- <-. cbn [length]. rewrite Nat.sub_diag. split; auto. lia.
  - apply IH in H as [H1 H2]. cbn [length]. split; [lia|].
    destruct (i - k)%nat as [|j] eqn:Ei; [lia|]. cbn [nth]. now replace j with (i - S k)%nat by lia.
Qed.

Lemma p_enum_ok vs s i r : p_enum vs s = ROk i r -> (i < length vs)%nat.
Proof.
  unfold p_enum. rewrite surrounded_eq. destruct (p_variants 0 vs (skip s)) eqn:E; try discriminate.
  intro H. injection H as <- _. apply p_variants_ok in E. lia.
Qed.

Lemma suffixing_variants vs : forall k, suffixing (p_variants k vs).
Proof.
  induction vs as [|v vs IH]; intro k; cbn [p_variants]. apply suffixing_fail.
  apply suffixing_alt; auto. apply suffixing_pmap, suffixing_tag.
Qed.

Lemma consuming_tag_ne t : t <> [] -> consuming (tag t).
Proof. destruct t; [congruence|]. intros _. apply consuming_tag. Qed.

Lemma consuming_variants vs : forallb starts_ok vs = true -> forall k, consuming (p_variants k vs).
Proof.
  induction vs as [|v vs IH]; intros H k; cbn [p_variants]. apply consuming_fail.
  cbn [forallb] in H. apply andb_true_iff in H as [H1 H2].
  apply consuming_alt; auto. apply consuming_pmap, consuming_tag_ne. intros ->. discriminate.
Qed.

(** ** Scalars *)

Lemma p_bool_reads b : reads p_bool (d_bool b) b.
Proof.
  intros rest Hr. right. unfold p_bool. rewrite surrounded_eq.
  rewrite skip_no_gap by (apply starts_no_gap; now destruct b).
  now destruct b.
Qed.

Lemma f64_okb_ok d : f64_okb d = true <-> f64_ok d.
Proof.
  destruct d as [| |neg m e]; cbn [f64_okb f64_ok]; try tauto.
  rewrite !andb_true_iff, orb_true_iff, N.ltb_lt, !Z.leb_le, Z.eqb_eq. tauto.
Qed.

Lemma text_ok_iff s : text_ok s = true <-> ~ In 39 s.
Proof.
  unfold text_ok. rewrite negb_true_iff, <- not_true_iff_false, existsb_exists.
  split; intros H; contradict H.
  - exists 39. auto.
  - destruct H as (c & H & E). apply N.eqb_eq in E. now subst.
Qed.

Lemma guid_ok_iff g : guid_ok g = true <-> wf_guid g.
Proof.
  unfold guid_ok, wf_guid, bytes. rewrite andb_true_iff, Nat.eqb_eq, forallb_forall, Forall_forall.
  split; intros [H1 H2]; split; auto; intros x Hx; specialize (H2 x Hx); lia.
Qed.

Lemma p_real_reads d : f64_ok d -> reads p_real (d_real d) (norm_real d).
Proof. intros H rest Hr. left. now apply p_real_show. Qed.

Lemma p_real_starts s d r : p_real s = ROk d r -> starts_ok s = true.
Proof.
  destruct s as [|c s]; [discriminate|]. cbn [starts_ok]. intro H.
  destruct (starter c) eqn:E; auto. exfalso.
  apply starter_false in E. unfold blank in E.
  repeat destruct E as [E|E]; subst; discriminate H.
Qed.

Lemma d_real_starts d : f64_ok d -> starts_ok (d_real d) = true.
Proof.
  intro H. pose proof (p_real_show d [] H I) as E. rewrite app_nil_r in E.
  eapply p_real_starts; eauto.
Qed.

Lemma p_real_nonsci d s : f64_ok d -> stop s -> p_real (d_nonsci d ++ s) = ROk d s.
Proof.
  intros Hok Hs. unfold d_nonsci. destruct d as [|neg|neg m e].
  - reflexivity.
  - cbn [fract is_zero show_f64]. rewrite <- !app_assoc. now apply inf_read.
  - cbn [show_f64]. destruct (N.eqb_spec m 0) as [->|Hm].
    + apply not_scientific_zero in Hok. subst e. rewrite <- !app_assoc.
      change (is_zero (fract (FFin neg 0 (-1074)))) with true.
      apply p_real_decimal.
      change (lit "0" ++ lit "." ++ s) with (lit "0" ++ lit "." ++ [] ++ s).
      rewrite p_decimal_point by (auto; discriminate). destruct neg; reflexivity.
    + rewrite <- !app_assoc. apply p_real_shortest; auto; [lia|].
      intro Hz. destruct (fract_zero_integer neg m e Hz ltac:(lia) Hok) as [V HV].
      apply (shortest_integer neg m e V); auto. lia.
Qed.

Lemma show_N_starts n : starts_ok (show_N n) = true.
Proof.
  destruct (show_N_head n) as [[_ ->]|[_ (c & r & -> & H & _)]]; auto.
  cbn [starts_ok]. destruct (starter c) eqn:E; auto. apply starter_false in E.
  unfold blank in E. lia.
Qed.

Lemma show_Z_starts z : starts_ok (show_Z z) = true.
Proof. destruct z; cbn [show_Z]; auto using show_N_starts. Qed.

(** ** Commas and keywords *)

Lemma p_comma_gap g1 g2 s :
  gap g1 -> gap g2 -> no_gap s -> p_comma (g1 ++ lit "," ++ g2 ++ s) = ROk tt s.
Proof.
  intros H1 H2 H3. unfold p_comma. rewrite surrounded_eq.
  rewrite (skip_gap_stop g1) by (auto using no_gap_comma). rewrite tag_app.
  now rewrite skip_gap_stop.
Qed.

Lemma p_comma_skip r s : skip r = skip s -> p_comma r = p_comma s.
Proof. intro H. unfold p_comma. now rewrite !surrounded_eq, H. Qed.

(** Keywords. *)
Lemma p_keyword_show ws kws kw s :
  keywords_ok kws = true -> In kw kws ->
  p_keyword ws kws (kw ++ s) = ROk tt (if ws then skip s else s).
Proof.
  unfold keywords_ok, variants_ok. rewrite !andb_true_iff. intros [[[H1 H2] _] _].
  unfold p_keyword. induction kws as [|k kws IH]; intros Hin; [contradiction|].
  cbn [forallb pairwise] in H1, H2. apply andb_true_iff in H1 as [H1 H1'].
  apply andb_true_iff in H2 as [H2 H2']. cbn [map alts]. unfold alt.
  assert (Hkw : starts_ok kw = true).
  { destruct Hin as [<-|Hin]; auto. rewrite forallb_forall in H1'. auto. }
  destruct Hin as [->|Hin].
  - destruct ws; [|now rewrite tag_app].
    rewrite surrounded_eq, skip_no_gap by (now apply starts_no_gap). now rewrite tag_app.
  - assert (E : tag k (kw ++ s) = RBack).
    { apply incomparable_back. rewrite forallb_forall in H2. auto. }
    assert (E' : (if ws then surrounded (tag k) else tag k) (kw ++ s) = RBack).
    { destruct ws; auto. rewrite surrounded_eq, skip_no_gap by (now apply starts_no_gap).
      now rewrite E. }
    rewrite E'. apply IH; auto.
Qed.

Lemma keyword_facts kws kw :
  keywords_ok kws = true -> In kw kws -> starts_ok kw = true /\ forall s, p_id (kw ++ s) = RBack.
Proof.
  unfold keywords_ok, variants_ok. rewrite !andb_true_iff, !forallb_forall.
  intros [[[H1 _] H2] _] Hin. specialize (H1 _ Hin). specialize (H2 _ Hin). split; auto.
  intro s. destruct kw as [|c kw]; [discriminate|]. cbn [hd] in H2. unfold p_id, bind.
  cbn [app]. change (lit "#") with [35]. rewrite tag_neq; auto. lia.
Qed.

(** ** Vectors *)

Lemma p_open_gap g s :
  gap g -> no_gap s -> surrounded (tag (lit "(")) (lit "(" ++ g ++ s) = ROk tt s.
Proof.
  intros Hg Hs. rewrite surrounded_eq. rewrite skip_no_gap by apply no_gap_open.
  rewrite tag_app. now rewrite skip_gap_stop.
Qed.

Lemma p_close_gap g s :
  gap g -> surrounded (tag (lit ")")) (g ++ lit ")" ++ s) = ROk tt (skip s).
Proof.
  intros Hg. rewrite surrounded_eq. rewrite skip_gap_stop by (auto using no_gap_close).
  now rewrite tag_app.
Qed.

Lemma p_vec2_reads x y g1 g2 g3 g4 :
  f64_ok x -> f64_ok y -> gap g1 -> gap g2 -> gap g3 -> gap g4 ->
  reads p_vec2
    (lit "(" ++ g1 ++ d_real x ++ g2 ++ lit "," ++ g3 ++ d_real y ++ g4 ++ lit ")")
    (norm_real x, norm_real y).
Proof.
  intros Hx Hy H1 H2 H3 H4 rest Hr. right. rewrite <- !app_assoc. unfold p_vec2, bind.
  rewrite p_open_gap by (auto; apply starts_no_gap; now apply d_real_starts).
  rewrite p_real_show by (auto; apply stop_gap; auto; apply stop_comma).
  rewrite p_comma_gap by (auto; apply starts_no_gap; now apply d_real_starts).
  rewrite p_real_show by (auto; apply stop_gap; auto; apply stop_close).
  now rewrite p_close_gap.
Qed.

Lemma p_vec3_reads x y z g1 g2 g3 g4 g5 g6 :
  f64_ok x -> f64_ok y -> f64_ok z ->
  gap g1 -> gap g2 -> gap g3 -> gap g4 -> gap g5 -> gap g6 ->
  reads p_vec3
    (lit "(" ++ g1 ++ d_real x ++ g2 ++ lit "," ++ g3 ++ d_real y ++ g4 ++ lit "," ++
     g5 ++ d_real z ++ g6 ++ lit ")")
    (norm_real x, norm_real y, norm_real z).
Proof.
  intros Hx Hy Hz H1 H2 H3 H4 H5 H6 rest Hr. right. rewrite <- !app_assoc. unfold p_vec3, bind.
  rewrite p_open_gap by (auto; apply starts_no_gap; now apply d_real_starts).
  rewrite p_real_show by (auto; apply stop_gap; auto; apply stop_comma).
  rewrite p_comma_gap by (auto; apply starts_no_gap; now apply d_real_starts).
  rewrite p_real_show by (auto; apply stop_gap; auto; apply stop_comma).
  rewrite p_comma_gap by (auto; apply starts_no_gap; now apply d_real_starts).
  rewrite p_real_show by (auto; apply stop_gap; auto; apply stop_close).
  now rewrite p_close_gap.
Qed.

(** ** Measures *)

Lemma p_measure_hit i n p v txt w s :
  reads p txt w ->
  v = VMeasure i w ->
  p_measure i n p (fst n ++ lit "(" ++ txt ++ lit ")" ++ s) = ROk v s.
Proof.
  intros H ->. unfold p_measure, bind, alt. rewrite tag_app. rewrite tag_app.
  destruct (H (lit ")" ++ s) (stop_close s)) as [-> | ->].
  - now rewrite tag_app.
  - rewrite skip_no_gap by apply no_gap_close. now rewrite tag_app.
Qed.

Lemma p_measure_miss i n p m s :
  incomparable (fst n) m = true -> incomparable (snd n) m = true ->
  p_measure i n p (m ++ s) = RBack.
Proof.
  intros H1 H2. unfold p_measure, bind, alt. now rewrite !incomparable_back.
Qed.

Lemma p_value_reads v :
  wt TValue v = true -> reads p_value (d_value v) (normv v) /\ starts_ok (d_value v) = true.
Proof.
  intro H. destruct v as [| | | | | | | |i c| | | |]; try discriminate H. cbn [wt] in H.
  assert (Hs : starts_ok (d_value (VMeasure i c)) = true).
  { unfold d_value. apply starts_app.
    destruct i as [|[|[|[|[|i]]]]]; try reflexivity. destruct c; discriminate H. }
  split; auto. intros rest Hr. left. clear Hs Hr.
  unfold d_value, p_value. rewrite <- !app_assoc.
  destruct i as [|[|[|[|[|i]]]]]; destruct c as [str|d| |b| | | | | | | | |]; try discriminate H;
    cbn [measure_ok] in H; cbn [norm_val d_content]; unfold measure_names, measure_contents;
    cbn [nth fst p_measures]; unfold alt;
    repeat (rewrite p_measure_miss by reflexivity);
    lazymatch goal with
    | |- context [p_measure ?i ?n ?p] =>
        (erewrite (p_measure_hit i n p); [reflexivity| |reflexivity])
    end.
  - apply reads_map, p_bool_reads.
  - apply reads_map. intros r Hr. left. now apply p_string_d_string, text_ok_iff.
  - apply reads_map, p_real_reads. now apply f64_okb_ok.
  - apply reads_map. intros r Hr. left. now apply p_string_d_string, text_ok_iff.
  - apply reads_map. intros r Hr. left. apply p_real_nonsci; auto. now apply f64_okb_ok.
Qed.

(** ** Readers take a beginning of the text *)

Create HintDb sfx.
#[global] Hint Resolve suffixing_fail suffixing_ret suffixing_tag suffixing_any suffixing_ws
  suffixing_take_while0 suffixing_take_while1 suffixing_take_exactly suffixing_one_of
  suffixing_variants : sfx.
Ltac sfx :=
  repeat first
    [ solve [auto with sfx] | apply suffixing_cut_err | apply suffixing_bind; [|intro] | apply suffixing_pmap | apply suffixing_pmap_unwrap
    | apply suffixing_alt | apply suffixing_opt | apply suffixing_surrounded
    | apply suffixing_repeat_till ].

Lemma suffixing_quote_word : suffixing p_quote_word.
Proof. unfold p_quote_word, p_word_until. sfx. Qed.
Lemma suffixing_string : suffixing p_string.
Proof. unfold p_string. apply suffixing_pmap, suffixing_quote_word. Qed.

Lemma suffixing_dec_uint : suffixing dec_uint_usize.
Proof.
  intros s a r. unfold dec_uint_usize, recognize_dec_uint. destruct s as [|c s]; [discriminate|].
  destruct ((49 <=? c) && (c <=? 57)).
  - destruct (span is_digit s) as [x y] eqn:E. apply span_spec in E as (-> & _). cbv zeta.
    destruct (_ <=? _); [|discriminate]. intro H. injection H as _ <-. now exists (c :: x).
  - destruct (c =? 48); [|discriminate]. cbv zeta. destruct (_ <=? _); [|discriminate].
    intro H. injection H as _ <-. now exists [c].
Qed.

Lemma recognize_dec_int_suffix s a r :
  recognize_dec_int s = ROk a r -> exists c pre, s = c :: pre ++ r.
Proof.
  unfold recognize_dec_int. destruct s as [|c s]; [discriminate|].
  destruct (c =? 43); [|destruct (c =? 45); [|destruct (c =? 48)]].
  - destruct s as [|d s]; [discriminate|]. destruct ((49 <=? d) && (d <=? 57)); [|discriminate].
    destruct (span is_digit s) as [x y] eqn:E. apply span_spec in E as (-> & _).
    intro H. injection H as _ <-. now exists c, (d :: x).
  - destruct s as [|d s]; [discriminate|]. destruct ((49 <=? d) && (d <=? 57)); [|discriminate].
    destruct (span is_digit s) as [x y] eqn:E. apply span_spec in E as (-> & _).
    intro H. injection H as _ <-. now exists c, (d :: x).
  - intro H. injection H as _ <-. now exists c, [].
  - destruct ((49 <=? c) && (c <=? 57)); [|discriminate].
    destruct (span is_digit s) as [x y] eqn:E. apply span_spec in E as (-> & _).
    intro H. injection H as _ <-. now exists c, x.
Qed.

Lemma dec_int_suffix lo hi s z r : dec_int lo hi s = ROk z r -> exists c pre, s = c :: pre ++ r.
Proof.
  unfold dec_int. destruct (recognize_dec_int s) as [[neg ds] r0| | |] eqn:E; try discriminate.
  cbv zeta. destruct (in_range _ _ _); [|discriminate]. intro H. injection H as _ <-.
  now apply recognize_dec_int_suffix in E.
Qed.

Lemma suffixing_dec_int lo hi : suffixing (dec_int lo hi).
Proof. intros s a r H. apply dec_int_suffix in H as (c & pre & ->). now exists (c :: pre). Qed.
Lemma consuming_dec_int lo hi : consuming (dec_int lo hi).
Proof.
  intros s a r H. apply dec_int_suffix in H as (c & pre & ->). cbn [length].
  rewrite app_length. lia.
Qed.

Lemma suffixing_id : suffixing p_id.
Proof. unfold p_id. apply suffixing_bind; [sfx|]. intros _. apply suffixing_dec_uint. Qed.
Lemma consuming_id : consuming p_id.
Proof.
  apply consuming_bind_l. apply consuming_tag. intros _. apply suffixing_shrinking, suffixing_dec_uint.
Qed.

Lemma suffixing_tag_caseless t : suffixing (tag_caseless t).
Proof.
  intros s a r. unfold tag_caseless. revert s. induction t as [|c t IH]; intros s; cbn.
  - intro H. injection H as _ <-. now exists [].
  - destruct s as [|d s]; [discriminate|]. destruct (c =? to_lower d); [|discriminate].
    intro H. apply IH in H as [pre ->]. now exists (d :: pre).
Qed.
#[global] Hint Resolve suffixing_tag_caseless suffixing_string suffixing_id suffixing_dec_int : sfx.

Lemma suffixing_real : suffixing p_real.
Proof.
  unfold p_real, p_decimal, p_sign, p_mantissa, p_exponent. sfx.
Qed.

(** Taking nothing is impossible for a mantissa. *)
Lemma consuming_mantissa : consuming p_mantissa.
Proof.
  unfold p_mantissa. apply consuming_alt.
  - apply consuming_bind_l. apply consuming_take_while1. intro i. apply suffixing_shrinking. sfx.
  - apply consuming_bind_l. apply consuming_tag. intro i. apply suffixing_shrinking. sfx.
Qed.

Lemma consuming_tag_caseless c t : consuming (tag_caseless (c :: t)).
Proof.
  intros s a r. unfold tag_caseless. cbn. destruct s as [|d s]; [discriminate|].
  destruct (c =? to_lower d); [|discriminate].
  intro H. assert (H' : tag_caseless t s = ROk a r) by exact H.
  apply suffixing_tag_caseless in H' as [pre ->]. cbn [length]. rewrite app_length. lia.
Qed.

Lemma consuming_real : consuming p_real.
Proof.
  unfold p_real, p_decimal. repeat apply consuming_alt.
  - apply consuming_bind_r. apply suffixing_shrinking. unfold p_sign. sfx. intro neg.
    apply consuming_bind_l. apply consuming_mantissa. intro m. apply suffixing_shrinking.
    unfold p_exponent, p_sign. sfx.
  - apply consuming_pmap. apply (consuming_tag_caseless 110).
  - apply consuming_bind_r. apply suffixing_shrinking. unfold p_sign. sfx. intro neg.
    apply consuming_bind_l. apply (consuming_tag_caseless 105). intro. apply shrinking_ret.
  - apply consuming_bind_r. apply suffixing_shrinking. unfold p_sign. sfx. intro neg.
    apply consuming_bind_l. apply (consuming_tag_caseless 105). intro. apply shrinking_ret.
Qed.
#[global] Hint Resolve suffixing_real : sfx.

Lemma suffixing_guid : suffixing p_guid.
Proof.
  intros s g r H. apply p_guid_inv in H as (w & -> & _). exists (lit "'" ++ w ++ lit "'").
  now rewrite <- !app_assoc.
Qed.
Lemma consuming_guid : consuming p_guid.
Proof.
  intros s g r H. apply p_guid_inv in H as (w & -> & H & _). rewrite !app_length. lia.
Qed.
#[global] Hint Resolve suffixing_guid : sfx.

Lemma suffixing_bool : suffixing p_bool.
Proof.
  unfold p_bool. apply suffixing_surrounded, suffixing_alts. unfold bool_variants. cbn [map].
  repeat (constructor; [sfx|]). constructor.
Qed.
Lemma consuming_bool : consuming p_bool.
Proof.
  unfold p_bool. apply consuming_surrounded, consuming_alts. unfold bool_variants. cbn [map].
  repeat (constructor; [apply consuming_pmap; apply (consuming_tag 46)|]). constructor.
Qed.
#[global] Hint Resolve suffixing_bool : sfx.

Lemma suffixing_measures ns : forall i ps, Forall suffixing ps -> suffixing (p_measures i ns ps).
Proof.
  induction ns as [|n ns IH]; intros i ps H; cbn [p_measures]; [apply suffixing_fail|].
  destruct H; [apply suffixing_fail|]. apply suffixing_alt; auto. unfold p_measure. sfx; auto.
Qed.
Lemma consuming_measures ns :
  forall i ps, Forall suffixing ps -> consuming (p_measures i ns ps).
Proof.
  induction ns as [|n ns IH]; intros i ps H; cbn [p_measures]; [apply consuming_fail|].
  destruct H; [apply consuming_fail|]. apply consuming_alt; auto. unfold p_measure.
  apply consuming_bind_r. apply suffixing_shrinking. sfx. intros _.
  apply consuming_bind_l. apply consuming_tag. intros _. apply suffixing_shrinking. sfx; auto.
Qed.
Lemma suffixing_contents : Forall suffixing measure_contents.
Proof. unfold measure_contents. repeat (constructor; [sfx|]). constructor. Qed.

Lemma suffixing_attrs ps : Forall suffixing ps -> suffixing (p_attrs ps).
Proof.
  induction 1 as [|p ps Hp Hps IH]; cbn [p_attrs]. apply suffixing_ret.
  destruct ps; [now apply suffixing_pmap|]. apply suffixing_bind; auto. intro v.
  apply suffixing_bind. unfold p_comma. sfx. intros _. apply suffixing_bind; auto.
  intro. apply suffixing_ret.
Qed.

Lemma suffixing_keyword ws kws : suffixing (p_keyword ws kws).
Proof.
  unfold p_keyword. apply suffixing_alts, Forall_forall. intros p Hp.
  apply in_map_iff in Hp as (k & <- & _). destruct ws; sfx.
Qed.
Lemma consuming_keyword ws kws : keywords_ok kws = true -> consuming (p_keyword ws kws).
Proof.
  unfold keywords_ok, variants_ok. rewrite !andb_true_iff, !forallb_forall. intros [[[H _] _] _].
  unfold p_keyword. apply consuming_alts, Forall_forall. intros p Hp.
  apply in_map_iff in Hp as (k & <- & Hk). apply H in Hk.
  destruct ws; try apply consuming_surrounded; apply consuming_tag_ne; now destruct k.
Qed.
Lemma suffixing_closer ws c : suffixing (p_closer ws c).
Proof. unfold p_closer. destruct ws; sfx. Qed.

Lemma suffixing_row kws ws ps closer : Forall suffixing ps -> suffixing (p_row kws ws ps closer).
Proof.
  intro H. unfold p_row. apply suffixing_bind. apply suffixing_keyword. intros _.
  apply suffixing_bind. now apply suffixing_attrs. intro l.
  apply suffixing_bind. apply suffixing_closer. intro. apply suffixing_ret.
Qed.
Lemma consuming_row kws ws ps closer :
  keywords_ok kws = true -> Forall suffixing ps -> consuming (p_row kws ws ps closer).
Proof.
  intros Hk H. unfold p_row. apply consuming_bind_l. now apply consuming_keyword. intros _.
  apply suffixing_shrinking. apply suffixing_bind. now apply suffixing_attrs. intro l.
  apply suffixing_bind. apply suffixing_closer. intro. apply suffixing_ret.
Qed.

Lemma suffixing_vec2 : suffixing p_vec2.
Proof. unfold p_vec2, p_comma. sfx. Qed.
Lemma suffixing_vec3 : suffixing p_vec3.
Proof. unfold p_vec3, p_comma. sfx. Qed.

Lemma suffixing_list {A} (p : parser A) : suffixing p -> suffixing (p_list p).
Proof. intro H. unfold p_list. sfx; auto. Qed.

Lemma suffixing_fallback t : suffixing (fallback t).
Proof. destruct t; try apply suffixing_fail. unfold fallback, dim_fallback. sfx. Qed.
Lemma consuming_fallback t : consuming (fallback t).
Proof.
  destruct t; try apply consuming_fail. apply consuming_pmap, consuming_dec_int.
Qed.

Lemma suffixing_ty t : suffixing (p_ty t).
Proof.
  induction t using fty_rect'; cbn [p_ty];
    try solve [unfold p_int, p_enum; sfx]; try solve [apply suffixing_pmap, suffixing_vec2];
    try solve [apply suffixing_pmap, suffixing_vec3];
    try solve [apply suffixing_pmap, suffixing_pmap_unwrap, suffixing_dec_int];
    try solve [apply suffixing_measures, suffixing_contents].
  - apply suffixing_alt; [sfx|]. apply suffixing_pmap, suffixing_row.
    apply Forall_map. exact H.
  - apply suffixing_alt; [sfx|]. apply suffixing_alt; [sfx|]. apply suffixing_alt; auto.
    apply suffixing_fallback.
Qed.

Lemma suffixing_tys fs : Forall suffixing (map p_ty fs).
Proof. apply Forall_map, Forall_forall. intros t _. apply suffixing_ty. Qed.

Lemma consuming_ty t : ty_ok t = true -> consuming (p_ty t).
Proof.
  induction t using fty_rect'; intro Hok; cbn [p_ty ty_ok] in *.
  - apply consuming_pmap. unfold p_string, p_quote_word. apply consuming_pmap.
    apply consuming_bind_l. apply consuming_tag. intros _. apply suffixing_shrinking.
    unfold p_word_until. sfx.
  - apply consuming_pmap, consuming_real.
  - apply consuming_pmap, consuming_dec_int.
  - apply consuming_pmap, consuming_dec_int.
  - apply consuming_pmap, consuming_bool.
  - apply consuming_pmap, consuming_guid.
  - apply consuming_pmap, consuming_pmap_unwrap, consuming_dec_int.
  - apply consuming_pmap, consuming_surrounded, consuming_variants. reflexivity.
  - apply consuming_pmap. unfold p_vec2. apply consuming_bind_l.
    apply consuming_surrounded, consuming_tag. intros _. apply suffixing_shrinking.
    unfold p_comma. sfx.
  - apply consuming_pmap. unfold p_vec3. apply consuming_bind_l.
    apply consuming_surrounded, consuming_tag. intros _. apply suffixing_shrinking.
    unfold p_comma. sfx.
  - apply consuming_measures, suffixing_contents.
  - apply consuming_pmap, consuming_surrounded, consuming_variants.
    unfold variants_ok in Hok. now apply andb_true_iff in Hok.
  - apply consuming_pmap, consuming_id.
  - rewrite !andb_true_iff in Hok. apply consuming_alt. apply consuming_pmap, consuming_id.
    apply consuming_pmap, consuming_row. tauto. apply suffixing_tys.
  - rewrite !andb_true_iff in Hok. repeat apply consuming_alt; try apply consuming_pmap, consuming_tag.
    tauto. apply consuming_fallback.
  - apply consuming_pmap. unfold p_list. apply consuming_bind_l. apply consuming_tag.
    intros _. apply suffixing_shrinking. sfx. apply suffixing_ty.
Qed.

(** ** Every layout of a value is read as the value *)

Lemma wt_ent k kws ws fs closer l : wt (TIdOr k kws ws fs closer) (VEnt l) = wts fs l.
Proof. cbn [wt]. revert l. induction fs as [|f fs IH]; intros [|v l]; cbn; auto. Qed.

Lemma wt_opt t v : v <> VOmit -> v <> VInh -> wt (TOpt t) v = wt t v.
Proof. destruct v; cbn [wt]; congruence. Qed.

Lemma atomic_reads t v :
  atomic t = true -> ty_ok t = true -> wt t v = true ->
  reads (p_ty t) (d_ty t v) (normv v) /\ starts_ok (d_ty t v) = true.
Proof.
  intros Ha Hok Hwt. destruct t; try discriminate Ha; clear Ha.
  9:{ destruct (p_value_reads v Hwt) as [H1 H2]. now split. }
  all: destruct v; try discriminate Hwt; cbn [wt ty_ok p_ty d_ty norm_val] in *.
  - split; auto. apply reads_map. intros r Hr. left. now apply p_string_d_string, text_ok_iff.
  - apply f64_okb_ok in Hwt. split. now apply reads_map, p_real_reads. now apply d_real_starts.
  - split. 2: apply show_Z_starts. apply reads_map. intros r Hr. left. unfold p_int.
    apply dec_int_show. unfold in_range in Hwt. lia. now apply stop_no_digit.
  - split. 2: apply show_Z_starts. apply reads_map. intros r Hr. left.
    apply dec_int_show. unfold in_range in Hwt. lia. now apply stop_no_digit.
  - split. apply reads_map, p_bool_reads. now destruct b.
  - split; auto. apply reads_map. intros r Hr. left. now apply p_guid_show, guid_ok_iff.
  - split. 2: apply show_Z_starts. apply reads_map. intros r Hr. left. unfold p_timestamp, pmap_unwrap.
    unfold p_int. unfold d_timestamp.
    rewrite in_calendar_range in Hwt. rewrite dec_int_show.
    + now rewrite Hwt.
    + unfold in_range, ts_min, ts_max, i64_min, i64_max in *. lia.
    + now apply stop_no_digit.
  - apply Nat.ltb_lt in Hwt. split. apply reads_map. now apply p_enum_reads.
    unfold d_enum. destruct i as [|[|[|]]]; auto; lia.
  - apply Nat.ltb_lt in Hwt. split. apply reads_map. now apply p_enum_reads.
    now apply variants_ok_nth.
  - split; auto. apply reads_map. intros r Hr. left. apply p_id_show. lia. now apply stop_no_digit.
Qed.

Definition lay_reads_stmt t v txt :=
  ty_ok t = true -> wt t v = true ->
  reads (p_ty t) txt (normv v) /\ opens txt /\ (is_opt t = false -> starts_ok txt = true).
Definition lay_row_reads_stmt kws ws fs closer l txt :=
  keywords_ok kws = true -> closer_ok closer = true -> forallb ty_ok fs = true ->
  wts fs l = true ->
  (forall rest, p_row kws ws (map p_ty fs) closer (txt ++ rest) =
                ROk (map normv l) (if ws then skip rest else rest)) /\
  starts_ok txt = true /\
  (forall s, p_id (txt ++ s) = RBack).
Definition lay_attrs_reads_stmt fs l txt :=
  forallb ty_ok fs = true -> wts fs l = true ->
  reads (p_attrs (map p_ty fs)) txt (map normv l) /\ opens txt.
Definition item (t : fty) : parser val :=
  (a <- p_ty t ;; surrounded (opt (tag (lit ","))) ;;; ret a)%parser.
Definition lay_items_reads_stmt t l txt :=
  ty_ok t = true -> is_opt t = false -> forallb (wt t) l = true ->
  (forall rest, repeat_till (item t) (tag (lit ")")) (txt ++ lit ")" ++ rest) =
                ROk (map normv l, tt) rest) /\
  (txt = [] \/ starts_ok txt = true).

Lemma consuming_item t : ty_ok t = true -> consuming (item t).
Proof.
  intro H. unfold item. apply consuming_bind_l. now apply consuming_ty. intro v.
  apply suffixing_shrinking. sfx.
Qed.

Lemma opt_comma_skip s c g2 s' :
  (c = lit "," \/ c = []) -> gap g2 -> skip s = c ++ g2 ++ s' ->
  no_gap s' -> tag (lit ",") s' = RBack ->
  surrounded (opt (tag (lit ","))) s = ROk (match c with [] => None | _ => Some tt end) s'.
Proof.
  intros Hc Hg Hs Hn Ht. rewrite surrounded_eq, Hs. unfold opt. destruct Hc as [->| ->].
  - rewrite tag_app. rewrite skip_gap_stop; auto.
  - cbn [app]. cbn [app] in Hs.
    assert (E : g2 ++ s' = s').
    { rewrite <- Hs. rewrite <- (skip_idem s), Hs. now rewrite skip_gap_stop. }
    rewrite E, Ht. now rewrite skip_no_gap.
Qed.

Theorem lay_reads_all :
  (forall t v txt, lay t v txt -> lay_reads_stmt t v txt) /\
  (forall kws ws fs closer l txt, lay_row kws ws fs closer l txt ->
     lay_row_reads_stmt kws ws fs closer l txt) /\
  (forall fs l txt, lay_attrs fs l txt -> lay_attrs_reads_stmt fs l txt) /\
  (forall t l txt, lay_items t l txt -> lay_items_reads_stmt t l txt).
Proof.
  apply (lay_ind4 (fun t v txt _ => lay_reads_stmt t v txt)
    (fun kws ws fs closer l txt _ => lay_row_reads_stmt kws ws fs closer l txt)
    (fun fs l txt _ => lay_attrs_reads_stmt fs l txt)
    (fun t l txt _ => lay_items_reads_stmt t l txt)).
  - (* atomic *)
    intros t v Ha Hok Hwt. destruct (atomic_reads t v Ha Hok Hwt) as [H1 H2].
    split; auto. split; auto. now apply starts_opens.
  - (* vec2 *)
    intros x y g1 g2 g3 g4 H1 H2 H3 H4 _ Hwt. cbn [wt] in Hwt.
    apply andb_true_iff in Hwt as [Hx Hy]. apply f64_okb_ok in Hx, Hy.
    split; [|split; [now apply starts_opens|auto]].
    cbn [p_ty norm_val map].
    exact (reads_map (fun v => VVec [fst v; snd v]) _ _ _
             (p_vec2_reads x y g1 g2 g3 g4 Hx Hy H1 H2 H3 H4)).
  - (* vec3 *)
    intros x y z g1 g2 g3 g4 g5 g6 H1 H2 H3 H4 H5 H6 _ Hwt. cbn [wt] in Hwt.
    rewrite !andb_true_iff, !f64_okb_ok in Hwt. destruct Hwt as [[Hx Hy] Hz].
    split; [|split; [now apply starts_opens|auto]].
    cbn [p_ty norm_val map].
    exact (reads_map (fun v => VVec [fst (fst v); snd (fst v); snd v]) _ _ _
             (p_vec3_reads x y z g1 g2 g3 g4 g5 g6 Hx Hy Hz H1 H2 H3 H4 H5 H6)).
  - (* id *)
    intros k kws ws fs closer n Hok Hwt. cbn [wt] in Hwt. apply N.leb_le in Hwt.
    split; [|split; [now apply starts_opens|auto]].
    intros rest Hr. left. cbn [p_ty norm_val]. unfold alt, pmap at 1.
    rewrite p_id_show; auto. now apply stop_no_digit.
  - (* entity *)
    intros k kws ws fs closer l txt _ IH Hok Hwt. rewrite wt_ent in Hwt.
    cbn [ty_ok] in Hok. rewrite !andb_true_iff in Hok. destruct Hok as [[[Hk Hc] Hf] _].
    destruct (IH Hk Hc Hf Hwt) as (H1 & H2 & H3).
    split; [|split; [now apply starts_opens|auto]].
    intros rest Hr. cbn [p_ty norm_val]. unfold alt, pmap. rewrite H3.
    rewrite H1. destruct ws; auto.
  - intros t _ _. split; [|split; [cbn; auto|discriminate]].
    intros rest Hr. left. reflexivity.
  - intros t _ _. split; [|split; [cbn; auto|discriminate]].
    intros rest Hr. left. reflexivity.
  - (* present *)
    intros t v txt Ho Hi _ IH Hok Hwt. rewrite wt_opt in Hwt by auto.
    cbn [ty_ok] in Hok. apply andb_true_iff in Hok as [Hno Hok]. apply negb_true_iff in Hno.
    destruct (IH Hok Hwt) as (H1 & H2 & H3). specialize (H3 Hno).
    split; [|split; [now apply starts_opens|discriminate]].
    intros rest Hr.
    destruct (starts_cons txt H3) as (c & s & -> & Hc). apply starter_spec in Hc.
    assert (E : p_ty (TOpt t) ((c :: s) ++ rest) = alt (p_ty t) (fallback t) ((c :: s) ++ rest)).
    { cbn [p_ty app]. unfold alt at 1 2, pmap. change (lit "$") with [36].
      change (lit "*") with [42]. rewrite (tag_neq 36), (tag_neq 42) by lia. reflexivity. }
    rewrite E. unfold alt. specialize (H1 rest Hr).
    destruct H1 as [-> | ->]; auto.
  - (* list *)
    intros t l txt _ IH Hok Hwt. cbn [wt ty_ok] in *.
    apply andb_true_iff in Hok as [Hno Hok]. apply negb_true_iff in Hno.
    destruct (IH Hok Hno Hwt) as (H1 & H2).
    split; [|split; [now apply starts_opens|auto]].
    intros rest Hr. left. cbn [p_ty norm_val]. unfold p_list, pmap, bind at 1.
    rewrite <- !app_assoc, tag_app. specialize (H1 rest). unfold item in H1.
    now rewrite H1.
  - (* row *)
    intros kws ws fs closer l kw g1 txt g2 Hin Hg1 Hg2 Hws _ IH Hk Hc Hf Hwt.
    destruct (IH Hf Hwt) as [H1 H2]. destruct (keyword_facts kws kw Hk Hin) as [H3 H4].
    split; [|split].
    + intros rest. rewrite <- !app_assoc.
      assert (E : p_row kws ws (map p_ty fs) closer (kw ++ g1 ++ txt ++ g2 ++ closer ++ rest) =
                  bind (p_attrs (map p_ty fs)) (fun l => bind (p_closer ws closer) (fun _ => ret l))
                    (txt ++ g2 ++ closer ++ rest)).
      { unfold p_row, bind at 1. rewrite p_keyword_show by auto. destruct ws.
        - rewrite skip_gap_stop; auto. now apply opens_no_gap.
        - now destruct (Hws eq_refl) as [-> _]. }
      rewrite E. unfold bind at 1.
      destruct (stop_closer closer rest Hc) as [Hcs Hcg].
      assert (Hst : stop (g2 ++ closer ++ rest)) by now apply stop_gap.
      assert (Hsk : skip (g2 ++ closer ++ rest) = closer ++ rest) by now apply skip_gap_stop.
      destruct ws.
      * destruct (reads_skip _ _ _ _ H1 Hst) as (r & -> & Hr').
        unfold bind, p_closer, ret. rewrite surrounded_eq, Hr', Hsk. now rewrite tag_app.
      * destruct (Hws eq_refl) as [_ ->]. cbn [app] in *.
        destruct (H1 _ Hst) as [-> | ->]; [|rewrite Hsk]; unfold bind, p_closer, ret;
          now rewrite tag_app.
    + now apply starts_app.
    + intro s. rewrite <- app_assoc. apply H4.
  - (* last attribute *)
    intros t v txt _ IH Hf Hwt. cbn [forallb wts] in *. apply andb_true_iff in Hf as [Hf _].
    apply andb_true_iff in Hwt as [Hwt _]. destruct (IH Hf Hwt) as (H1 & H2 & _). split; auto.
    cbn [map p_attrs]. exact (reads_map (fun v => [v]) _ _ _ H1).
  - (* further attributes *)
    intros t v txt g1 g2 fs l txt' _ IH Hg1 Hg2 Hrest IH' Hf Hwt.
    cbn [forallb wts] in *. apply andb_true_iff in Hf as [Hf Hf'].
    apply andb_true_iff in Hwt as [Hwt Hwt']. destruct (IH Hf Hwt) as (H1 & H2 & _).
    destruct (IH' Hf' Hwt') as (H1' & H2').
    split; [|now apply opens_app].
    intros rest Hr. rewrite <- !app_assoc.
    destruct (reads_skip _ _ _ (g1 ++ lit "," ++ g2 ++ txt' ++ rest) H1) as (r & E & Hsk);
      [apply stop_gap; auto; apply stop_comma|].
    assert (Ec : p_comma r = ROk tt (txt' ++ rest)).
    { rewrite (p_comma_skip _ _ Hsk). apply p_comma_gap; auto. now apply opens_no_gap. }
    assert (Ea : p_attrs (map p_ty (t :: fs)) =
                 (v <- p_ty t ;; p_comma ;;; l <- p_attrs (map p_ty fs) ;; ret (v :: l))%parser).
    { destruct fs; [inversion Hrest|reflexivity]. }
    rewrite Ea. unfold bind, ret. rewrite E, Ec.
    destruct (H1' rest Hr) as [-> | ->]; [left|right]; reflexivity.
  - (* no items *)
    intros t Hok _ _. split; [|now left]. intro rest. rewrite repeat_till_eq by now apply consuming_item.
    cbn [app map]. now rewrite tag_app.
  - (* items *)
    intros t v txt g1 c g2 l txt' _ IH Hg1 Hg2 Hc Hrest IH' Hok Hno Hwt.
    cbn [forallb] in Hwt. apply andb_true_iff in Hwt as [Hwt Hwt'].
    destruct (IH Hok Hwt) as (H1 & _ & H2). specialize (H2 Hno).
    destruct (IH' Hok Hno Hwt') as (H1' & H2').
    split; [|right; now apply starts_app].
    intro rest. rewrite repeat_till_eq by now apply consuming_item.
    rewrite <- !app_assoc. rewrite opens_not_close by now apply starts_opens.
    set (more := txt' ++ lit ")" ++ rest).
    assert (Hn : no_gap more).
    { unfold more. destruct H2' as [->|H2']. apply no_gap_close. now apply starts_no_gap. }
    assert (Ht : tag (lit ",") more = RBack).
    { unfold more. destruct H2' as [->|H2']; [reflexivity|].
      apply starts_opens, opens_cons in H2' as (x & y & -> & Hx). cbn [app].
      change (lit ",") with [44]. apply tag_neq. lia. }
    assert (Hst : stop (g1 ++ c ++ g2 ++ more)).
    { destruct Hc as [->|[-> [Hne| ->]]].
      - apply stop_gap; auto. apply stop_comma.
      - cbn [app]. now apply gap_app_ne.
      - unfold more. inversion Hrest; subst. cbn [app]. rewrite app_assoc.
        apply stop_gap; [now apply gap_app|]. apply stop_close. }
    assert (Ho : exists o, forall r, skip r = skip (g1 ++ c ++ g2 ++ more) ->
              surrounded (opt (tag (lit ","))) r = ROk o more).
    { destruct Hc as [->|[-> _]].
      - exists (Some tt). intros r E. apply (opt_comma_skip r (lit ",") g2); auto. rewrite E.
        rewrite skip_gap_stop; auto. apply no_gap_comma.
      - exists None. intros r E. apply (opt_comma_skip r [] []); auto. constructor.
        rewrite E. cbn [app]. rewrite app_assoc. apply skip_gap_stop; auto. now apply gap_app. }
    destruct Ho as [o Ho].
    destruct (reads_skip _ _ _ _ H1 Hst) as (r & E & Hsk).
    assert (Ei : item t (txt ++ g1 ++ c ++ g2 ++ more) = ROk (normv v) more).
    { unfold item, bind. rewrite E. rewrite (Ho r Hsk). reflexivity. }
    rewrite Ei. unfold more. rewrite H1'. reflexivity.
Qed.

Lemma lay_reads t v txt :
  ty_ok t = true -> wt t v = true -> lay t v txt -> reads (p_ty t) txt (normv v).
Proof. intros H1 H2 H. now apply (proj1 lay_reads_all). Qed.

Lemma lay_row_reads kws ws fs closer l txt :
  keywords_ok kws = true -> closer_ok closer = true -> forallb ty_ok fs = true ->
  wts fs l = true -> lay_row kws ws fs closer l txt ->
  (forall rest, p_row kws ws (map p_ty fs) closer (txt ++ rest) =
                ROk (map normv l) (if ws then skip rest else rest)) /\
  starts_ok txt = true.
Proof.
  intros H1 H2 H3 H4 H.
  destruct (proj1 (proj2 lay_reads_all) _ _ _ _ _ _ H H1 H2 H3 H4) as (A & B & _). auto.
Qed.
