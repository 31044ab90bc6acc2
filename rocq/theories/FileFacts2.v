(** Facts about what has been read: headers, schema names, the parts of a file. *)

From Coq Require Import String Ascii List NArith ZArith Bool Lia ZifyBool ZifyN ZifyNat Sorted.
From Verif Require Import Base Prims BaseFacts Spec PrimsFacts Guid GuidFacts Float FloatFacts
  Kind Types Schema Entity Layout WellTyped EntitySpec DataMap DataSpec Header File HeaderSpec FileSpec
  TypesFacts TypesFacts2 EntityFacts DataMapFacts SectionFacts HeaderFacts PanicFacts FileFacts.
Import ListNotations.
Open Scope N_scope.

(** ** Headers that have been read *)

Lemma separated_Forall {A B} (P : A -> Prop) (f : parser A) (g : parser B) s l r :
  (forall s a r, f s = ROk a r -> P a) -> separated f g s = ROk l r -> Forall P l.
Proof.
  intros Hf H. unfold separated in H. destruct (f s) as [a r1| | |] eqn:Ef; try discriminate.
  - destruct (separated_tail_fuel (S (length r1)) f g r1) as [l1 r2| | |] eqn:E; try discriminate.
    injection H as <- <-. constructor; [eauto|]. revert E. generalize (S (length r1)). intro n.
    clear Ef. revert r1 l1 r2. induction n as [|n IH]; intros r1 l1 r2 H; [discriminate|].
    cbn [separated_tail_fuel] in H. destruct (g r1) as [b r3| | |]; try discriminate.
    + destruct (f r3) as [a' r4| | |] eqn:Ef; try discriminate.
      * destruct (separated_tail_fuel n f g r4) as [l5 r5| | |] eqn:E; try discriminate. injection H as <- <-.
        constructor; eauto.
      * injection H as <- _. constructor.
    + injection H as <- _. constructor.
  - injection H as <- _. constructor.
Qed.

Lemma repeat0_Forall {A} (P : A -> Prop) (f : parser A) s l r :
  (forall s a r, f s = ROk a r -> P a) -> repeat0 f s = ROk l r -> Forall P l.
Proof.
  intros Hf. unfold repeat0. generalize (S (length s)). intro n. revert s l r.
  induction n as [|n IH]; intros s l r H; [discriminate|]. cbn [repeat0_fuel] in H.
  destruct (f s) as [a r1| | |] eqn:Ef; try discriminate.
  - destruct (repeat0_fuel n f r1) as [l1 r2| | |] eqn:E; try discriminate. injection H as <- _. constructor; eauto.
  - injection H as <- _. constructor.
Qed.

Lemma surrounded_ok {A} (p : parser A) s a r : surrounded p s = ROk a r ->
  exists r', p (skip s) = ROk a r' /\ r = skip r'.
Proof. rewrite surrounded_eq. destruct (p (skip s)) as [b r'| | |]; try discriminate. intro H. injection H as <- <-. eauto. Qed.

Lemma drop_white_spec s : exists w, s = w ++ drop_white s /\
  (drop_white s = [] \/ exists c r, drop_white s = c :: r /\ is_white c = false).
Proof.
  induction s as [|c s (w & E & H)]; cbn [drop_white]; [exists []; auto|]. destruct (is_white c) eqn:Ec.
  - exists (c :: w). split; auto. cbn. now f_equal.
  - exists []. split; auto. right. eauto.
Qed.

Lemma trim_ok s : ~ In 44 s -> ~ In 93 s -> trim s <> [] -> item_ok (trim s).
Proof.
  unfold trim. intros H44 H93 Hne. destruct (drop_white_spec s) as (w & Es & Hs).
  destruct (drop_white_spec (rev (drop_white s))) as (w' & Er & Hr).
  set (b := drop_white (rev (drop_white s))) in *.
  assert (Ea : drop_white s = rev b ++ rev w') by (rewrite <- rev_app_distr, <- Er; now rewrite rev_involutive).
  destruct Hr as [Hr|(c & r & Hb & Hc)]; [rewrite Hr in Hne; contradiction|].
  assert (Hin : forall x, In x (rev b) -> In x s).
  { intros x Hx. rewrite Es, Ea. apply in_or_app. right. apply in_or_app. now left. }
  split; [intro; apply H44; auto|]. split; [intro; apply H93; auto|].
  destruct (rev b) as [|d t] eqn:Eb; [contradiction|]. exists d, t, c. split; auto.
  destruct Hs as [Hs|(d' & t' & Hs & Hd)]; [rewrite Ea in Hs; discriminate|].
  rewrite Ea in Hs. cbn [app] in Hs. injection Hs as <- _. split; [now apply is_white_false|].
  split; [|now apply is_white_false]. assert (E : d :: t = rev r ++ [c]) by (rewrite <- Eb, Hb; reflexivity).
  rewrite E. apply last_last.
Qed.

Lemma view_item_ok s w r : p_view_item s = ROk w r -> w <> [] -> item_ok w.
Proof.
  intros H Hne. apply pmap_ok in H as (l & H & ->).
  apply repeat0_Forall with (P := fun c => c <> 44 /\ c <> 93) in H.
  - rewrite Forall_forall in H. apply trim_ok; auto; intro Hin; specialize (H _ Hin); lia.
  - intros [|c s'] a r' E; [discriminate|]. cbn in E. destruct (negb _) eqn:En; [|discriminate].
    injection E as <- _. lia.
Qed.

Lemma view_read v s d r : p_view v s = ROk d r -> view_ok v d.
Proof.
  unfold p_view. intro H. apply bind_ok in H as (? & ? & _ & H). apply bind_ok in H as (n & ? & Hn & H).
  apply bind_ok in H as (? & ? & _ & H). apply bind_ok in H as (l & ? & Hl & H).
  apply bind_ok in H as (? & ? & _ & H). injection H as <- _. split; cbn [vd_name vd_items].
  - unfold p_ident, take_while0 in Hn. destruct (span (is_ident v) x0) as [a b] eqn:E. injection Hn as <- _.
    apply span_spec in E as (_ & Ha & _). apply Forall_forall. intros c Hc. rewrite forallb_forall in Ha.
    now apply is_ident_iff, Ha.
  - unfold p_view_items in Hl. apply bind_ok in Hl as (? & ? & _ & Hl). apply bind_ok in Hl as (l' & ? & Hs & Hl).
    apply bind_ok in Hl as (? & ? & _ & Hl). injection Hl as <- _.
    apply separated_Forall with (P := fun w => w <> [] -> item_ok w) in Hs.
    + apply Forall_forall. intros w Hw. apply filter_In in Hw as [Hin Hw]. rewrite Forall_forall in Hs.
      apply Hs; auto. intros ->. discriminate.
    + intros. eauto using view_item_ok.
Qed.

Lemma views_read v s l r : p_views v s = ROk l r -> Forall (view_ok v) l.
Proof.
  unfold p_views. intro H. apply bind_ok in H as (? & ? & _ & H). apply bind_ok in H as (l' & ? & Hl & H).
  apply bind_ok in H as (? & ? & _ & H). injection H as <- _. apply alt_ok in Hl as [Hl|[_ Hl]].
  - apply pmap_ok in Hl as (? & _ & ->). constructor.
  - apply separated_Forall with (P := view_ok v) in Hl; auto. intros s' a r' E.
    apply surrounded_ok in E as (r1 & E & _). apply bind_ok in E as (? & ? & _ & E).
    apply bind_ok in E as (d & ? & Hd & E). apply bind_ok in E as (? & ? & _ & E). injection E as <- _.
    now apply view_read in Hd.
Qed.

Lemma quote_word_plain s w r : p_quote_word s = ROk w r -> plain w.
Proof. intro H. now apply quote_word_inv in H. Qed.

Lemma words_read s l r : p_words s = ROk l r -> Forall plain l.
Proof.
  unfold p_words. intro H. apply bind_ok in H as (? & ? & _ & H). apply bind_ok in H as (l' & ? & Hl & H).
  apply bind_ok in H as (? & ? & _ & H). injection H as <- _.
  apply separated_Forall with (P := plain) in Hl; auto. intros s' a r' E.
  apply surrounded_ok in E as (r1 & E & _). now apply quote_word_plain in E.
Qed.

(** Everything [header_ok] says except for the time stamp. *)
Lemma header_read v s h r : p_header v s = ROk h r ->
  civil (h_time h) -> chrono_reads v (h_time h) -> header_ok v h.
Proof.
  unfold p_header. intro H. apply bind_ok in H as (? & ? & _ & H). apply bind_ok in H as (? & ? & _ & H).
  apply bind_ok in H as (? & ? & _ & H). apply bind_ok in H as (d & ? & Hd & H).
  apply bind_ok in H as (? & ? & _ & H). apply bind_ok in H as (n & ? & Hn & H).
  apply bind_ok in H as (? & ? & _ & H). apply bind_ok in H as (c & ? & _ & H).
  apply bind_ok in H as (? & ? & _ & H). injection H as <- _. intros Hc Ht.
  unfold p_description in Hd. apply bind_ok in Hd as (? & ? & _ & Hd). apply bind_ok in Hd as (l & ? & Hl & Hd).
  apply bind_ok in Hd as (? & ? & _ & Hd). apply bind_ok in Hd as (? & ? & _ & Hd).
  apply bind_ok in Hd as (? & ? & _ & Hd). injection Hd as <- _. apply views_read in Hl.
  unfold p_details in Hn. apply bind_ok in Hn as (? & ? & _ & Hn).
  apply bind_ok in Hn as (fn & ? & Hfn & Hn). apply bind_ok in Hn as (? & ? & _ & Hn).
  apply bind_ok in Hn as (t & ? & _ & Hn). apply bind_ok in Hn as (? & ? & _ & Hn).
  apply bind_ok in Hn as (a & ? & Ha & Hn). apply bind_ok in Hn as (? & ? & _ & Hn).
  apply bind_ok in Hn as (o & ? & Ho & Hn). apply bind_ok in Hn as (? & ? & _ & Hn).
  apply bind_ok in Hn as (p & ? & Hp & Hn). apply bind_ok in Hn as (? & ? & _ & Hn).
  apply bind_ok in Hn as (y & ? & Hy & Hn). apply bind_ok in Hn as (? & ? & _ & Hn).
  apply bind_ok in Hn as (u & ? & Hu & Hn). apply bind_ok in Hn as (? & ? & _ & Hn). injection Hn as <- _.
  apply words_read in Ha, Ho. apply quote_word_plain in Hp, Hy, Hu.
  unfold header_ok.
  cbn [f_name f_time f_authors f_orgs f_pre f_sys f_auth h_views h_name h_time h_authors h_orgs h_pre h_sys h_auth] in *.
  split; auto. split; [|auto 10].
  unfold p_file_name in Hfn. apply alt_ok in Hfn as [Hfn|[_ Hfn]].
  - apply pmap_ok in Hfn as (? & _ & ->). intros [].
  - now apply quote_word_plain in Hfn.
Qed.

(** ** Loading what has been loaded *)

Lemma loaded_ok v s x : load v s = Done x ->
  civil (h_time (i_header x)) -> chrono_reads v (h_time (i_header x)) -> dummies_stay (i_data x) ->
  ifc_ok v x /\ refs_ok (i_data x).
Proof.
  intros Hl Hc Ht Hd. apply load_done in Hl as [Hp Hr]. split; auto. apply parse_whole_done in Hp.
  unfold p_ifc in Hp. apply bind_ok in Hp as (h & r1 & Hh & Hp). apply bind_ok in Hp as (m & r2 & Hm & Hp).
  apply bind_ok in Hp as (? & ? & _ & Hp). injection Hp as <- _. cbn [i_header i_data] in *.
  apply p_data_ok in Hm as [Hi Hf]. split; [now apply header_read in Hh|]. split; auto.
  rewrite Forall_forall in *. intros [n e] Hin. specialize (Hf _ Hin) as [Hn He]. split; auto.
  cbn [snd] in *. destruct e as [k l|w]; auto. cbn [wf_obj]. eapply Hd; eauto.
Qed.

(** ** Schema names *)

Definition soft {A} (p : parser A) : Prop := forall s, p s = RBack \/ exists a r, p s = ROk a r.

Lemma soft_tag t : soft (tag t).
Proof. intro s. unfold tag. destruct (strip_prefix t s); eauto. Qed.
Lemma soft_bind {A B} (p : parser A) (f : A -> parser B) : soft p -> (forall a, soft (f a)) -> soft (bind p f).
Proof. intros Hp Hf s. unfold bind. destruct (Hp s) as [->|(a & r & ->)]; auto. apply Hf. Qed.
Lemma soft_pmap {A B} (f : A -> B) p : soft p -> soft (pmap f p).
Proof. intros Hp s. unfold pmap. destruct (Hp s) as [->|(a & r & ->)]; eauto. Qed.
Lemma soft_alt {A} (p q : parser A) : soft p -> soft q -> soft (alt p q).
Proof. intros Hp Hq s. unfold alt. destruct (Hp s) as [->|(a & r & ->)]; eauto. Qed.
Lemma soft_fail {A} : soft (@fail A).
Proof. intro s. now left. Qed.
Lemma soft_alts {A} (ps : list (parser A)) : Forall soft ps -> soft (alts ps).
Proof. induction 1; cbn [alts]; [apply soft_fail|now apply soft_alt]. Qed.
Lemma soft_surrounded {A} (p : parser A) : soft p -> soft (surrounded p).
Proof. intros Hp s. rewrite surrounded_eq. destruct (Hp (skip s)) as [->|(a & r & ->)]; eauto. Qed.

Lemma soft_schema_item : soft p_schema_item.
Proof.
  apply soft_surrounded, soft_bind; [apply soft_tag|]. intros _. apply soft_bind.
  - apply soft_bind; [apply soft_alts; repeat (apply Forall_cons; [apply soft_tag|]); apply Forall_nil|]. intros _.
    apply soft_alts. repeat (apply Forall_cons; [apply soft_pmap; first [apply soft_tag|
      apply soft_alts; repeat (apply Forall_cons; [apply soft_tag|]); apply Forall_nil]|]). apply Forall_nil.
  - intro x. apply soft_bind; [apply soft_tag|]. intros _ s. right. eexists _, _. reflexivity.
Qed.

Lemma schema_inner_ok s x r : p_schema_inner s = ROk x r -> exists w, In (w, x) spellings /\ s = w ++ r.
Proof.
  unfold p_schema_inner. intro H. apply bind_ok in H as (u & r1 & Hp & H).
  assert (Hpre : exists p, In p [lit "IFC"; lit "Ifc"; lit "ifc"] /\ s = p ++ r1).
  { cbn [alts] in Hp. repeat (apply alt_ok in Hp as [Hp|[_ Hp]]); try discriminate; apply tag_ok in Hp;
      eexists; (split; [|exact Hp]); cbn [In]; auto. }
  destruct Hpre as (p & Hin & ->).
  assert (Hsuf : exists q, In (q, x)
    [ (lit "4X3_ADD2", S_IFC4X3_ADD2); (lit "4x3_ADD2", S_IFC4X3_ADD2)
    ; (lit "4X3", S_IFC4X3_ADD2); (lit "4x3", S_IFC4X3_ADD2)
    ; (lit "2X3", S_IFC2X3); (lit "2x3", S_IFC2X3)
    ; (lit "4X2", S_IFC4); (lit "4x2", S_IFC4); (lit "4", S_IFC4) ] /\ r1 = q ++ r).
  { cbn [alts] in H. repeat (apply alt_ok in H as [H|[_ H]]); try discriminate; apply pmap_ok in H as (? & H & ->);
      repeat (apply alt_ok in H as [H|[_ H]]); try discriminate; apply tag_ok in H;
      eexists; (split; [|exact H]); cbn [In]; auto 10. }
  destruct Hsuf as (q & Hq & ->). exists (p ++ q). split; [|now rewrite app_assoc].
  unfold spellings. apply in_flat_map. exists p. split; auto. apply in_map_iff. exists (q, x). auto.
Qed.

Lemma spellings_plain w x : In (w, x) spellings -> plain w.
Proof.
  assert (H : forallb (fun p => negb (existsb (N.eqb 39) (fst p))) spellings = true) by (vm_compute; reflexivity).
  intros Hin Hw. rewrite forallb_forall in H. specialize (H _ Hin). apply negb_true_iff in H.
  rewrite <- not_true_iff_false in H. apply H. apply existsb_exists. exists 39. auto.
Qed.

Lemma schema_inner_reads w x s : In (w, x) spellings -> p_schema_inner (w ++ lit "'" ++ s) = ROk x (lit "'" ++ s).
Proof.
  assert (H : Forall (fun p => p_schema_inner (fst p ++ lit "'" ++ s) = ROk (snd p) (lit "'" ++ s)) spellings).
  { repeat (apply Forall_cons; [reflexivity|]). apply Forall_nil. }
  intro Hin. rewrite Forall_forall in H. exact (H _ Hin).
Qed.

Lemma plain_split a b s t : plain a -> plain b -> a ++ lit "'" ++ s = b ++ lit "'" ++ t -> a = b /\ s = t.
Proof.
  change (lit "'") with [39]. revert b. induction a as [|c a IH]; intros [|d b] Ha Hb E; cbn [app] in E.
  - injection E as ->. auto.
  - injection E as <- _. exfalso. apply Hb. now left.
  - injection E as -> _. exfalso. apply Ha. now left.
  - injection E as -> E. apply IH in E as [-> ->]; auto; intro; [apply Ha|apply Hb]; now right.
Qed.

Lemma schema_item_spec w g s : plain w -> gap g ->
  (forall x, In (w, x) spellings -> p_schema_item (g ++ quoted w ++ s) = ROk x (skip s)) /\
  ((forall x, ~ In (w, x) spellings) -> p_schema_item (g ++ quoted w ++ s) = RBack).
Proof.
  intros Hw Hg. assert (Hsk : skip (g ++ quoted w ++ s) = quoted w ++ s).
  { apply skip_gap_stop; auto. apply no_gap_quoted. }
  split.
  - intros x Hx. unfold p_schema_item. rewrite surrounded_eq, Hsk. unfold quoted. rewrite <- !app_assoc.
    rewrite tag_step. erewrite bind_step by (apply schema_inner_reads; exact Hx). rewrite tag_step. reflexivity.
  - intro Hno. destruct (soft_schema_item (g ++ quoted w ++ s)) as [E|(x & r & E)]; auto. exfalso.
    apply surrounded_ok in E as (r' & E & _). rewrite Hsk in E. unfold quoted in E. rewrite <- !app_assoc in E.
    rewrite tag_step in E. apply bind_ok in E as (y & r1 & E1 & E). apply bind_ok in E as (? & r2 & E2 & E).
    injection E as <- <-. apply tag_ok in E2. apply schema_inner_ok in E1 as (w' & Hin & E1). subst r1.
    apply plain_split in E1 as [<- _]; auto; [|now apply spellings_plain in Hin]. now apply (Hno y).
Qed.

Lemma spelling_unique w x y : In (w, x) spellings -> In (w, y) spellings -> x = y.
Proof.
  intros Hx Hy. pose proof (schema_inner_reads w x [] Hx) as E. rewrite (schema_inner_reads w y [] Hy) in E.
  now injection E.
Qed.

Lemma d_schema_spelled x : In (d_schema x, x) spellings.
Proof. destruct x; vm_compute; tauto. Qed.

(** ** The parts of a file *)

Lemma end_ok s u r : p_end s = ROk u r ->
  exists g0 g1 g2, s = g0 ++ lit ")" ++ g1 ++ lit ";" ++ g2 ++ r /\ gap g0 /\ gap g1 /\ gap g2.
Proof.
  unfold p_end. intro H. apply surrounded_ok in H as (r' & E & ->).
  apply bind_ok in E as (u1 & r1 & E1 & E). apply tag_ok in E1.
  apply bind_ok in E as (u2 & r2 & E2 & E). rewrite ws_skip in E2. injection E2 as _ <-. apply tag_ok in E.
  destruct (skip_spec s) as (g0 & Es & Hg0 & _). destruct (skip_spec r1) as (g1 & Er & Hg1 & _).
  destruct (skip_spec r') as (g2 & Er' & Hg2 & _). exists g0, g1, g2. split; auto.
  rewrite <- Er', <- E, <- Er, <- E1. exact Es.
Qed.

(** A reader of a header entry. *)
Definition entry_reader {A} (name : text) (p : parser A) : Prop :=
  forall s a r, p s = ROk a r -> exists g0 e g1, gap g0 /\ gap g1 /\ entry name e /\ s = g0 ++ e ++ g1 ++ r.

Lemma entry_intro name g0 g1 g2 body g3 g4 g5 r :
  gap g0 -> gap g1 -> gap g2 -> gap g3 -> gap g4 -> gap g5 ->
  exists g0' e g1', gap g0' /\ gap g1' /\ entry name e /\
    g0 ++ name ++ g1 ++ lit "(" ++ g2 ++ body ++ g3 ++ lit ")" ++ g4 ++ lit ";" ++ g5 ++ r = g0' ++ e ++ g1' ++ r.
Proof.
  intros. exists g0, (name ++ g1 ++ lit "(" ++ (g2 ++ body ++ g3) ++ lit ")" ++ g4 ++ lit ";"), g5.
  repeat split; auto.
  - exists g1, (g2 ++ body ++ g3), g4. auto.
  - now rewrite <- !app_assoc.
Qed.

Lemma entry_bind {A B} name (q : parser A) (f : A -> B) :
  suffixing q -> entry_reader name (p_open name ;;; x <- q ;; p_end ;;; ret (f x))%parser.
Proof.
  intros Hq s a r H. apply bind_ok in H as (u & r1 & H1 & H). apply bind_ok in H as (x & r2 & H2 & H).
  apply bind_ok in H as (? & r3 & H3 & H). injection H as <- <-.
  apply open_ok in H1 as (g0 & g1 & g2 & -> & Hg0 & Hg1 & Hg2). apply Hq in H2 as [body ->].
  apply end_ok in H3 as (g3 & g4 & g5 & -> & Hg3 & Hg4 & Hg5). now apply entry_intro.
Qed.

Lemma entry_description v : entry_reader (lit "FILE_DESCRIPTION") (p_description v).
Proof.
  intros s a r H.
  eapply (entry_bind (lit "FILE_DESCRIPTION") (l <- p_views v ;; p_comma ;;; p_level ;;; ret l)%parser (fun x => x)).
  - apply suffixing_bind; [apply suffixing_views|]. intro l. apply suffixing_bind; [apply suffixing_comma|]. intros _.
    apply suffixing_bind; [apply suffixing_level|]. intros _. apply suffixing_ret.
  - revert H. unfold p_description, bind. destruct (p_open _ s) as [? r1| | |]; try discriminate.
    destruct (p_views v r1) as [? r2| | |]; try discriminate. destruct (p_comma r2) as [? r3| | |]; try discriminate.
    destruct (p_level r3) as [? r4| | |]; try discriminate. exact (fun H => H).
Qed.

Lemma entry_schema : entry_reader (lit "FILE_SCHEMA") p_schema.
Proof. apply (entry_bind (lit "FILE_SCHEMA") p_schema_list (fun x => x)). apply suffixing_schema_list. Qed.

Lemma entry_details v : entry_reader (lit "FILE_NAME") (p_details v).
Proof.
  intros s a r Hn. unfold p_details in Hn. apply bind_ok in Hn as (? & r1 & H1 & Hn).
  assert (Hq : exists u q p r2, q ++ r2 = r1 /\ (p_end ;;; ret u)%parser r2 = ROk a p /\ p = r).
  { apply bind_ok in Hn as (fn & ? & E1 & Hn). apply suffixing_file_name in E1 as [w1 ->].
    apply bind_ok in Hn as (? & ? & E2 & Hn). apply suffixing_comma in E2 as [w2 ->].
    apply bind_ok in Hn as (t & ? & E3 & Hn). apply suffixing_time in E3 as [w3 ->].
    apply bind_ok in Hn as (? & ? & E4 & Hn). apply suffixing_comma in E4 as [w4 ->].
    apply bind_ok in Hn as (? & ? & E5 & Hn). apply suffixing_words in E5 as [w5 ->].
    apply bind_ok in Hn as (? & ? & E6 & Hn). apply suffixing_comma in E6 as [w6 ->].
    apply bind_ok in Hn as (? & ? & E7 & Hn). apply suffixing_words in E7 as [w7 ->].
    apply bind_ok in Hn as (? & ? & E8 & Hn). apply suffixing_comma in E8 as [w8 ->].
    apply bind_ok in Hn as (? & ? & E9 & Hn). apply suffixing_quote_word in E9 as [w9 ->].
    apply bind_ok in Hn as (? & ? & E10 & Hn). apply suffixing_comma in E10 as [w10 ->].
    apply bind_ok in Hn as (? & ? & E11 & Hn). apply suffixing_quote_word in E11 as [w11 ->].
    apply bind_ok in Hn as (? & ? & E12 & Hn). apply suffixing_comma in E12 as [w12 ->].
    apply bind_ok in Hn as (? & ? & E13 & Hn). apply suffixing_quote_word in E13 as [w13 ->].
    eexists _, (w1 ++ w2 ++ w3 ++ w4 ++ w5 ++ w6 ++ w7 ++ w8 ++ w9 ++ w10 ++ w11 ++ w12 ++ w13), _, _.
    split; [|split; [exact Hn|reflexivity]]. now rewrite <- !app_assoc. }
  destruct Hq as (u & q & p & r2 & <- & H3 & ->). apply bind_ok in H3 as (? & r3 & H3 & H4). injection H4 as _ <-.
  apply open_ok in H1 as (g0 & g1 & g2 & -> & Hg0 & Hg1 & Hg2).
  apply end_ok in H3 as (g3 & g4 & g5 & -> & Hg3 & Hg4 & Hg5). now apply entry_intro.
Qed.

Lemma sur_tag_ok t s u r : surrounded (tag t) s = ROk u r ->
  exists g1 g2, gap g1 /\ gap g2 /\ no_gap r /\ s = g1 ++ t ++ g2 ++ r.
Proof.
  intro H. apply surrounded_ok in H as (r' & E & ->). apply tag_ok in E.
  destruct (skip_spec s) as (g1 & Es & Hg1 & _). destruct (skip_spec r') as (g2 & Er & Hg2 & Hn).
  exists g1, g2. repeat split; auto. rewrite <- Er, <- E. exact Es.
Qed.

Lemma ws_ok s u r : p_space_or_comment s = ROk u r -> exists g, gap g /\ s = g ++ r.
Proof. rewrite ws_skip. intro H. injection H as _ <-. destruct (skip_spec s) as (g & E & Hg & _). eauto. Qed.

Lemma header_parts v s h r : p_header v s = ROk h r ->
  exists g0 g1 g2 e1 g3 e2 g4 e3 g5 g6,
    gap g0 /\ gap g1 /\ gap g2 /\ gap g3 /\ gap g4 /\ gap g5 /\ gap g6 /\
    entry (lit "FILE_DESCRIPTION") e1 /\ entry (lit "FILE_NAME") e2 /\ entry (lit "FILE_SCHEMA") e3 /\
    s = g0 ++ lit "ISO-10303-21;" ++ g1 ++ lit "HEADER;" ++ g2 ++ e1 ++ g3 ++ e2 ++ g4 ++ e3 ++ g5 ++
        lit "ENDSEC;" ++ g6 ++ r.
Proof.
  unfold p_header. intro H. apply bind_ok in H as (? & ? & E0 & H). apply ws_ok in E0 as (a0 & A0 & ->).
  apply bind_ok in H as (? & ? & E1 & H). unfold p_version in E1.
  apply bind_ok in E1 as (? & ? & F0 & E1). apply ws_ok in F0 as (a1 & A1 & ->).
  apply bind_ok in E1 as (? & ? & F0 & E1). apply tag_ok in F0 as ->.
  apply bind_ok in E1 as (? & ? & F0 & E1). apply tag_ok in F0 as ->. apply ws_ok in E1 as (a2 & A2 & ->).
  apply bind_ok in H as (? & ? & E2 & H). apply sur_tag_ok in E2 as (a3 & a4 & A3 & A4 & _ & ->).
  apply bind_ok in H as (d & ? & E3 & H). apply entry_description in E3 as (a5 & e1 & a6 & A5 & A6 & He1 & ->).
  apply bind_ok in H as (? & ? & E4 & H). apply ws_ok in E4 as (a7 & A7 & ->).
  apply bind_ok in H as (n & ? & E5 & H). apply entry_details in E5 as (a8 & e2 & a9 & A8 & A9 & He2 & ->).
  apply bind_ok in H as (? & ? & E6 & H). apply ws_ok in E6 as (b0 & B0 & ->).
  apply bind_ok in H as (c & ? & E7 & H). apply entry_schema in E7 as (b1 & e3 & b2 & B1 & B2 & He3 & ->).
  apply bind_ok in H as (? & ? & E8 & H). apply sur_tag_ok in E8 as (b3 & b4 & B3 & B4 & _ & ->).
  injection H as _ <-.
  exists (a0 ++ a1), (a2 ++ a3), (a4 ++ a5), e1, (a6 ++ a7 ++ a8), e2, (a9 ++ b0 ++ b1), e3, (b2 ++ b3), b4.
  repeat split; auto using gap_app. rewrite <- !app_assoc. reflexivity.
Qed.

Lemma footer_parts s u r : p_footer s = ROk u r ->
  exists g0 g1, gap g0 /\ gap g1 /\ s = g0 ++ lit "END-ISO-10303-21;" ++ g1 ++ r.
Proof.
  unfold p_footer. intro H. apply bind_ok in H as (? & ? & E0 & H). apply ws_ok in E0 as (a0 & A0 & ->).
  apply bind_ok in H as (? & ? & E1 & H). apply ws_ok in H as (a3 & A3 & ->).
  apply bind_ok in E1 as (? & ? & F0 & E1). apply ws_ok in F0 as (a1 & A1 & ->).
  apply bind_ok in E1 as (? & ? & F0 & E1). apply tag_ok in F0 as ->.
  apply bind_ok in E1 as (? & ? & F0 & E1). apply tag_ok in F0 as ->.
  apply bind_ok in E1 as (? & ? & F0 & E1). apply tag_ok in F0 as ->. apply ws_ok in E1 as (a2 & A2 & ->).
  exists (a0 ++ a1), (a2 ++ a3). repeat split; auto using gap_app. rewrite <- !app_assoc. reflexivity.
Qed.

(** Objects end with a semicolon. *)
Lemma closer_semicolon k r : k <> KPlaneAngleMeasure -> row_of k = Some r -> exists c, row_closer r = c ++ lit ";".
Proof.
  destruct k; intros Hk H; try discriminate; try congruence; injection H as <-; exists (lit ")"); reflexivity.
Qed.

(** What ends an object. *)
Definition ended (s r : text) : Prop :=
  (exists b g, gap g /\ s = b ++ lit ";" ++ g ++ r) \/
  (exists g1 b g, gap g1 /\ gap g /\ s = g1 ++ lit "IFCPLANEANGLEMEASURE(" ++ b ++ lit ")" ++ g ++ r).

Lemma obj_ended s e r : p_obj s = ROk e r -> ended s r.
Proof.
  unfold p_obj. intro H. apply surrounded_ok in H as (r' & E & ->).
  destruct (skip_spec s) as (g0 & Es & Hg0 & _). destruct (skip_spec r') as (g1 & Er & Hg1 & _).
  assert (Hb : ended (skip s) r').
  { apply alt_ok in E as [E|[_ E]].
    - unfold p_known in E. apply alts_ok in E as (p & Hp & E). apply in_map_iff in Hp as (k & <- & _).
      unfold p_kind in E. destruct (row_of k) as [row|] eqn:Hk; [|discriminate]. apply pmap_ok in E as (l & E & _).
      unfold p_row in E.
      apply bind_ok in E as (? & r1 & E1 & E).
      apply bind_ok in E as (? & r2 & E2 & E). apply suffixing_attrs in E2 as [w2 E2]; [|apply suffixing_tys].
      apply bind_ok in E as (? & r3 & E3 & E). injection E as _ <-. unfold p_closer in E3.
      destruct (kind_eqb k KPlaneAngleMeasure) eqn:Ek.
      + apply kind_eqb_eq in Ek as ->. injection Hk as <-. cbn [row_ws row_closer row_kws row_PlaneAngleMeasure] in *.
        unfold p_keyword in E1. cbn [map alts] in E1. apply alt_ok in E1 as [E1|[_ E1]]; [|discriminate].
        apply sur_tag_ok in E1 as (b1 & b2 & B1 & B2 & _ & E1).
        apply sur_tag_ok in E3 as (a1 & a2 & A1 & A2 & _ & ->). right.
        exists b1, (b2 ++ w2 ++ a1), a2. repeat split; auto. rewrite E1, E2, <- !app_assoc. reflexivity.
      + destruct (closer_semicolon k row) as [c Hc]; auto.
        { intros ->. discriminate Ek. }
        apply suffixing_keyword in E1 as [w1 E1]. left. destruct (row_ws row).
        * apply sur_tag_ok in E3 as (a1 & a2 & A1 & A2 & _ & ->). exists (w1 ++ w2 ++ a1 ++ c), a2. split; auto.
          rewrite E1, E2, Hc, <- !app_assoc. reflexivity.
        * apply tag_ok in E3 as ->. exists (w1 ++ w2 ++ c), []. split; [constructor|].
          rewrite E1, E2, Hc, <- !app_assoc. reflexivity.
    - apply pmap_ok in E as (w & E & ->). apply p_dummy_ok in E as (_ & g2 & g3 & Hg2 & Hg3 & _ & E).
      left. exists (w ++ g2), g3. split; auto. rewrite E, <- !app_assoc. reflexivity. }
  destruct Hb as [(b & g & Hg & Hb)|(b1 & b & g & B1 & Hg & Hb)]; [left|right].
  - exists (g0 ++ b), (g ++ g1). split; [now apply gap_app|]. rewrite <- !app_assoc, <- Er, <- Hb. exact Es.
  - exists (g0 ++ b1), b, (g ++ g1). repeat split; auto using gap_app. rewrite <- !app_assoc, <- Er, <- Hb. exact Es.
Qed.

Lemma id_text s n r : p_id s = ROk n r ->
  exists ds, s = lit "#" ++ ds ++ r /\ ds <> [] /\ Forall (fun c => 48 <= c <= 57) ds /\ digits_value ds = n.
Proof.
  unfold p_id. intro H. apply bind_ok in H as (? & r1 & E & H). apply tag_ok in E as ->.
  unfold dec_uint_usize in H. destruct (recognize_dec_uint r1) as [ds r'| | |] eqn:Er; try discriminate.
  cbv zeta in H. destruct (_ <=? _); [|discriminate]. injection H as <- <-. exists ds.
  unfold recognize_dec_uint in Er. destruct r1 as [|c s]; [discriminate|].
  destruct ((49 <=? c) && (c <=? 57)) eqn:Ec.
  - destruct (span is_digit s) as [a b] eqn:Es. injection Er as <- <-. apply span_spec in Es as (-> & Ha & _).
    repeat split; auto; [discriminate|]. constructor; [lia|].
    apply Forall_forall. intros y Hy. rewrite forallb_forall in Ha. specialize (Ha y Hy). unfold is_digit in Ha. lia.
  - destruct (N.eqb_spec c 48) as [->|]; [|discriminate]. injection Er as <- <-.
    repeat split; auto; [discriminate|]. repeat constructor; lia.
Qed.

Lemma line_parts s n e r : p_line s = ROk (n, e) r ->
  exists g1 ds g2 t, gap g1 /\ gap g2 /\ ds <> [] /\ Forall (fun c => 48 <= c <= 57) ds /\
    digits_value ds = n /\ ended t r /\ s = g1 ++ lit "#" ++ ds ++ g2 ++ lit "=" ++ t.
Proof.
  unfold p_line. intro H. apply surrounded_ok in H as (r' & E & ->).
  destruct (skip_spec s) as (g0 & Es & Hg0 & _). destruct (skip_spec r') as (g9 & Er & Hg9 & _).
  apply bind_ok in E as (n' & r1 & E1 & E). apply bind_ok in E as (? & r2 & E2 & E).
  apply bind_ok in E as (e' & r3 & E3 & E). injection E as <- <- <-.
  apply id_text in E1 as (ds & E1 & Hne & Hd & Hv). apply sur_tag_ok in E2 as (g2 & g3 & Hg2 & Hg3 & _ & ->).
  apply obj_ended in E3.
  exists g0, ds, g2, (g3 ++ r2). repeat split; auto.
  - destruct E3 as [(b & g4 & Hg4 & ->)|(b1 & b & g4 & B1 & Hg4 & ->)]; [left|right].
    + exists (g3 ++ b), (g4 ++ g9). split; [now apply gap_app|]. rewrite <- !app_assoc. now rewrite <- Er.
    + exists (g3 ++ b1), b, (g4 ++ g9). repeat split; auto using gap_app. rewrite <- !app_assoc. now rewrite <- Er.
  - rewrite <- E1. exact Es.
Qed.

Lemma def_texts_gap g ns s : gap g -> def_texts ns s -> def_texts ns (g ++ s).
Proof.
  intros Hg H. destruct H.
  - constructor. now apply gap_app.
  - rewrite app_assoc. apply def_texts_cons; auto using gap_app.
  - rewrite app_assoc. apply def_texts_angle; auto using gap_app.
Qed.

Lemma lines_parts s : forall l r, p_lines s = ROk l r ->
  exists d g, gap g /\ def_texts (map fst l) d /\ s = d ++ lit "ENDSEC;" ++ g ++ r.
Proof.
  remember (length s) as n eqn:Hn. revert s Hn.
  induction n as [n IH] using (well_founded_induction Wf_nat.lt_wf). intros s Hn l r H.
  unfold p_lines in H. apply pmap_ok in H as ([l' b] & H & ->). rewrite repeat_till_eq in H by apply consuming_line.
  destruct (surrounded (tag (lit "ENDSEC;")) s) as [u r1| | |] eqn:E1; try discriminate.
  - injection H as <- _ <-. apply sur_tag_ok in E1 as (g1 & g2 & Hg1 & Hg2 & _ & ->).
    exists g1, g2. split; auto. split; [now constructor|reflexivity].
  - destruct (p_line s) as [[i e] r1| | |] eqn:E2; try discriminate.
    destruct (repeat_till p_line (surrounded (tag (lit "ENDSEC;"))) r1) as [[l2 b2] r2| | |] eqn:E3; try discriminate.
    injection H as <- <- <-. pose proof (consuming_line _ _ _ E2) as Hlt.
    destruct (IH (length r1)) with (s := r1) (l := l2) (r := r2) as (d & g & Hg & Hd & Er); auto.
    + subst n. exact Hlt.
    + unfold p_lines, pmap. now rewrite E3.
    + apply line_parts in E2 as (g1 & ds & g2 & t & H1 & H2 & H4 & H5 & H6 & Ht & ->). subst i. cbn [map fst].
      destruct Ht as [(body & g3 & H3 & ->)|(g4 & body & g3 & Hg4 & H3 & ->)].
      * exists (g1 ++ lit "#" ++ ds ++ g2 ++ lit "=" ++ body ++ lit ";" ++ (g3 ++ d)), g. split; auto.
        split; [|rewrite Er, <- !app_assoc; reflexivity]. constructor; auto. now apply def_texts_gap.
      * exists (g1 ++ lit "#" ++ ds ++ g2 ++ lit "=" ++ g4 ++ lit "IFCPLANEANGLEMEASURE(" ++ body ++ lit ")" ++ (g3 ++ d)), g.
        split; auto. split; [|rewrite Er, <- !app_assoc; reflexivity]. apply def_texts_angle; auto. now apply def_texts_gap.
Qed.

Lemma from_list_keys l n : In n (map fst (from_list l)) <-> In n (map fst l).
Proof.
  pose proof (from_list_last l n) as H. destruct (lookup (from_list l) n) as [e|] eqn:E; cbn [last_def] in H.
  - split; intros _.
    + destruct H as (a & b & -> & _). rewrite map_app, in_app_iff. right. now left.
    + apply lookup_In in E. apply in_map_iff. exists (n, e). auto.
  - apply lookup_None in E. tauto.
Qed.

Lemma data_parts s m r : p_data s = ROk m r ->
  exists g0 d g1 ns, gap g0 /\ gap g1 /\ def_texts ns d /\ (forall n, In n (map fst m) <-> In n ns) /\
    s = g0 ++ lit "DATA;" ++ d ++ lit "ENDSEC;" ++ g1 ++ r.
Proof.
  unfold p_data. intro H. apply surrounded_ok in H as (r' & E & ->).
  destruct (skip_spec s) as (g0 & Es & Hg0 & _). destruct (skip_spec r') as (g9 & Er & Hg9 & _).
  apply bind_ok in E as (? & r1 & E1 & E). apply tag_ok in E1. apply pmap_ok in E as (l & E & ->).
  apply lines_parts in E as (d & g & Hg & Hd & ->). exists g0, d, (g ++ g9), (map fst l).
  repeat split; auto using gap_app; try apply from_list_keys.
  rewrite <- !app_assoc, <- Er. rewrite <- E1. exact Es.
Qed.

Lemma loaded_parts v s x : parse_whole (p_ifc v) s = Done x ->
  exists ns, file_text ns s /\ forall n, In n (map fst (i_data x)) <-> In n ns.
Proof.
  intro H. apply parse_whole_done in H. unfold p_ifc in H. apply bind_ok in H as (h & r1 & E1 & H).
  apply bind_ok in H as (m & r2 & E2 & H). apply bind_ok in H as (? & r3 & E3 & H). injection H as <- ->.
  apply header_parts in E1 as (g0 & g1 & g2 & e1 & g3 & e2 & g4 & e3 & g5 & g6 &
    H0 & H1 & H2 & H3 & H4 & H5 & H6 & He1 & He2 & He3 & ->).
  apply data_parts in E2 as (a0 & d & a1 & ns & A0 & A1 & Hd & Hns & ->).
  apply footer_parts in E3 as (b0 & b1 & B0 & B1 & ->). exists ns. split; auto.
  exists g0, g1, g2, e1, g3, e2, g4, e3, g5, (g6 ++ a0), d, (a1 ++ b0), b1.
  repeat split; auto using gap_app. now rewrite app_nil_r, <- !app_assoc.
Qed.
