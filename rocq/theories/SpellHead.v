(** What is read from a header and from a whole file is spelled there. *)

From Coq Require Import String Ascii List NArith ZArith Bool Lia ZifyBool ZifyNat ZifyN.
From Verif Require Import Base Prims BaseFacts Spec TextSpec PrimsFacts Kind Types TypesFacts TypesFacts2 Schema Entity EntityFacts
  DataMap DataSpec DataMapFacts Header File HeaderSpec HeaderFacts FileSpec FileFacts FileFacts2 PanicFacts SpellSpec SpellFacts.
Import ListNotations.
Open Scope N_scope.

Lemma separated_listed {A} (P : A -> text -> Prop) (f : parser A) :
  (forall s a r, f s = ROk a r -> exists w, s = w ++ r /\ P a w) ->
  forall s l r, separated f (tag (lit ",")) s = ROk l r -> exists w, s = w ++ r /\ listed P l w.
Proof.
  intros Hf.
  assert (T : forall n s l r, separated_tail_fuel n f (tag (lit ",")) s = ROk l r ->
    l = [] /\ s = r \/ l <> [] /\ exists w, s = lit "," ++ w ++ r /\ listed P l w).
  { induction n as [|n IH]; intros s l r H; [discriminate|]. cbn [separated_tail_fuel] in H.
    destruct (tag (lit ",") s) as [u r1| | |] eqn:E1; try discriminate.
    - destruct (f r1) as [a r2| | |] eqn:E2; try discriminate.
      + destruct (separated_tail_fuel n f (tag (lit ",")) r2) as [l' r3| | |] eqn:E3; try discriminate. injection H as <- <-.
        apply tag_ok in E1 as ->. apply Hf in E2 as (w & -> & Hw). right. split; [discriminate|].
        apply IH in E3 as [[-> ->]|(Hl & w' & -> & Hw')].
        * exists w. split; auto. now constructor.
        * exists (w ++ lit "," ++ w'). split; [now rewrite <- !app_assoc|]. now constructor.
      + injection H as <- <-. now left.
    - injection H as <- <-. now left. }
  intros s l r H. unfold separated in H. destruct (f s) as [a r1| | |] eqn:E; try discriminate.
  - destruct (separated_tail_fuel _ f (tag (lit ",")) r1) as [l' r2| | |] eqn:E2; try discriminate. injection H as <- <-.
    apply Hf in E as (w & -> & Hw). apply T in E2 as [[-> ->]|(Hl & w' & -> & Hw')].
    + exists w. split; auto. now constructor.
    + exists (w ++ lit "," ++ w'). split; [now rewrite <- !app_assoc|]. now constructor.
  - injection H as <- <-. exists []. split; auto. constructor.
Qed.

Lemma loose_ok {A} (P : A -> text -> Prop) (f : parser A) :
  (forall s a r, f s = ROk a r -> exists w, s = w ++ r /\ P a w) ->
  forall s a r, surrounded f s = ROk a r -> exists w, s = w ++ r /\ loose P a w.
Proof.
  intros Hf s a r H. apply surrounded_ok in H as (r' & E & ->). apply Hf in E as (w & E & Hw).
  destruct (skip_spec s) as (g1 & Es & Hg1 & _). destruct (skip_spec r') as (g2 & Er & Hg2 & _).
  exists (g1 ++ w ++ g2). split.
  - rewrite Es, E. rewrite Er at 1. now rewrite <- !app_assoc.
  - now exists g1, w, g2.
Qed.

Lemma raw_ok s a r : p_quote_word s = ROk a r -> exists w, s = w ++ r /\ raw_text a w.
Proof.
  intro H. apply quote_word_inv in H as [-> H]. exists (lit "'" ++ a ++ lit "'"). split; [now rewrite <- !app_assoc|]. now split.
Qed.

Lemma drop_white_all s : exists w, s = w ++ drop_white s /\ Forall white w /\
  (drop_white s = [] \/ exists c r, drop_white s = c :: r /\ ~ white c).
Proof.
  induction s as [|c s (w & E & Hw & H)]; cbn [drop_white]; [exists []; auto|]. destruct (is_white c) eqn:Ec.
  - exists (c :: w). split; [cbn; now f_equal|]. split; auto. constructor; auto. now apply is_white_iff.
  - exists []. split; auto. split; auto. right. exists c, s. split; auto. intro X. apply is_white_iff in X. congruence.
Qed.

Lemma trim_trimmed s : trimmed (trim s) s.
Proof.
  unfold trim. destruct (drop_white_all s) as (w & Es & Ww & Hs).
  destruct (drop_white_all (rev (drop_white s))) as (w' & Er & Ww' & Hr).
  set (b := drop_white (rev (drop_white s))) in *.
  assert (Ea : drop_white s = rev b ++ rev w') by (rewrite <- rev_app_distr, <- Er; now rewrite rev_involutive).
  exists w, (rev w'). split; [now rewrite <- Ea|]. split; auto. split; [now apply Forall_rev|].
  destruct Hr as [->|(d & t & Hb & Hd)]; [now left|]. right. rewrite Hb in *. cbn [rev] in *.
  destruct Hs as [Hs|(c & r & Hs & Hc)].
  - rewrite Ea in Hs. destruct (rev t); discriminate.
  - rewrite Ea in Hs. destruct (rev t) as [|x q] eqn:Et.
    + cbn [app] in *. injection Hs as -> _. exists c, [], c. auto.
    + cbn [app] in *. injection Hs as -> _. exists c, (q ++ [d]), d. split; auto. split; auto. split; auto.
      change (c :: q ++ [d]) with ((c :: q) ++ [d]). apply last_last.
Qed.

Lemma repeat0_all (f : N -> bool) : forall n s l r, repeat0_fuel n (one_of f) s = ROk l r -> s = l ++ r /\ Forall (fun c => f c = true) l.
Proof.
  induction n as [|n IH]; intros s l r H; cbn [repeat0_fuel] in H; [discriminate|].
  destruct (one_of f s) as [a r1| | |] eqn:E; try discriminate.
  - destruct (repeat0_fuel n (one_of f) r1) as [l' r2| | |] eqn:E2; try discriminate. injection H as <- <-.
    apply IH in E2 as [-> Hl]. unfold one_of in E. destruct s as [|c s]; [discriminate|]. destruct (f c) eqn:Ef; [|discriminate].
    injection E as <- ->. split; auto.
  - injection H as <- <-. split; auto.
Qed.

Lemma item_sound s a r : p_view_item s = ROk a r -> exists w, s = w ++ r /\ item_text a w.
Proof.
  unfold p_view_item. intro H. apply pmap_ok in H as (l & H & ->). apply repeat0_all in H as [-> Hl].
  exists l. split; auto. split; [apply trim_trimmed|]. rewrite Forall_forall in Hl. split; intro X; apply Hl in X; discriminate X.
Qed.

Lemma view_sound v s d r : bind (tag (lit "'")) (fun _ => bind (p_view v) (fun d => bind (tag (lit "'")) (fun _ => ret d))) s = ROk d r ->
  exists w, s = w ++ r /\ view_text v d w.
Proof.
  intro H. apply bind_ok in H as (? & r1 & E1 & H). apply tag_ok in E1 as ->. apply bind_ok in H as (d' & r2 & E2 & H).
  apply bind_ok in H as (? & r3 & E3 & H). injection H as <- <-. apply tag_ok in E3 as ->.
  unfold p_view in E2. apply bind_ok in E2 as (? & ? & F1 & E2). apply ws_ok in F1 as (g1 & G1 & ->).
  apply bind_ok in E2 as (n & ? & F2 & E2). apply bind_ok in E2 as (? & ? & F3 & E2). apply ws_ok in F3 as (g2 & G2 & ->).
  apply bind_ok in E2 as (l & ? & F4 & E2). apply bind_ok in E2 as (? & ? & F5 & E2). apply ws_ok in F5 as (g3 & G3 & ->).
  injection E2 as <- ->. unfold p_view_items in F4. apply bind_ok in F4 as (? & ? & K1 & F4). apply tag_ok in K1 as ->.
  apply bind_ok in F4 as (ts & ? & K2 & F4). apply (separated_listed item_text _ item_sound) in K2 as (b & -> & Hb).
  apply bind_ok in F4 as (? & ? & K3 & F4). apply tag_ok in K3 as ->. injection F4 as <- ->.
  unfold p_ident, take_while0 in F2.
  match type of F2 with (let (_, _) := span ?f ?x in _) = _ => destruct (span f x) as [a b'] eqn:E end.
  injection F2 as <- ->. apply span_spec in E as (-> & Ha & _).
  exists (lit "'" ++ g1 ++ a ++ g2 ++ lit "[" ++ b ++ lit "]" ++ g3 ++ lit "'"). split; [now rewrite <- !app_assoc|].
  exists g1, g2, ts, b, g3. cbn [vd_name vd_items]. repeat (split; [assumption|]). split; [|auto].
  apply Forall_forall. intros c Hc. rewrite forallb_forall in Ha. now apply is_ident_iff, Ha.
Qed.

Lemma open_text_ok name s u r : p_open name s = ROk u r -> exists w, s = w ++ r /\ open_text name w.
Proof.
  intro H. apply open_ok in H as (g0 & g1 & g2 & -> & H0 & H1 & H2). exists (g0 ++ name ++ g1 ++ lit "(" ++ g2).
  split; [now rewrite <- !app_assoc|]. now exists g0, g1, g2.
Qed.
Lemma end_text_ok s u r : p_end s = ROk u r -> exists w, s = w ++ r /\ end_text w.
Proof.
  intro H. apply end_ok in H as (g0 & g1 & g2 & -> & H0 & H1 & H2). exists (g0 ++ lit ")" ++ g1 ++ lit ";" ++ g2).
  split; [now rewrite <- !app_assoc|]. now exists g0, g1, g2.
Qed.

Lemma description_sound v s l r : p_description v s = ROk l r -> exists w, s = w ++ r /\ description_text v l w.
Proof.
  unfold p_description. intro H. apply bind_ok in H as (? & ? & E1 & H). apply open_text_ok in E1 as (o & -> & Ho).
  apply bind_ok in H as (l' & ? & E2 & H). apply bind_ok in H as (? & ? & E3 & H). apply comma_text_ok in E3 as (c & -> & Hc).
  apply bind_ok in H as (? & ? & E4 & H). apply bind_ok in H as (? & ? & E5 & H). apply end_text_ok in E5 as (e & -> & He). injection H as <- ->.
  unfold p_level in E4. apply bind_ok in E4 as (? & ? & F1 & E4). apply tag_ok in F1 as ->. apply bind_ok in E4 as (? & ? & F2 & E4).
  apply tag_ok in E4 as ->. apply sur_tag_ok in F2 as (g1 & g2 & G1 & G2 & _ & ->).
  unfold p_views in E2. apply bind_ok in E2 as (? & ? & K1 & E2). apply tag_ok in K1 as ->. apply bind_ok in E2 as (l2 & ? & K2 & E2).
  apply bind_ok in E2 as (? & ? & K3 & E2). apply tag_ok in K3 as ->. injection E2 as <- ->.
  assert (V : forall x rest,
    alt (pmap (fun _ => []) (tag (lit "''")))
      (separated (surrounded (bind (tag (lit "'")) (fun _ => bind (p_view v) (fun d => bind (tag (lit "'")) (fun _ => ret d))))) (tag (lit ","))) x = ROk l2 rest ->
    exists s, x = s ++ rest /\ views_text v l2 s).
  { intros x' rest K. apply alt_ok in K as [K|[_ K]].
    - apply pmap_ok in K as (? & K & ->). apply tag_ok in K as ->. exists (lit "''"). split; [auto|left; auto].
    - eapply separated_listed in K; [|apply loose_ok; apply view_sound]. destruct K as (w & -> & Hw).
      exists w. split; [auto|right; exact Hw]. }
  apply V in K2 as (w & -> & Hw). clear V.
  exists (o ++ lit "(" ++ w ++ lit ")" ++ c ++ lit "'" ++ g1 ++ lit "2;1" ++ g2 ++ lit "'" ++ e).
  split; [now rewrite <- !app_assoc|]. exists o, w, c, g1, g2, e. auto 10.
Qed.

Lemma words_sound s l r : p_words s = ROk l r -> exists w, s = lit "(" ++ w ++ lit ")" ++ r /\ listed (loose raw_text) l w.
Proof.
  unfold p_words. intro H. apply bind_ok in H as (? & ? & E1 & H). apply tag_ok in E1 as ->. apply bind_ok in H as (l' & ? & E2 & H).
  apply bind_ok in H as (? & ? & E3 & H). apply tag_ok in E3 as ->. injection H as <- ->.
  eapply separated_listed in E2; [|apply loose_ok; apply raw_ok]. destruct E2 as (w & -> & Hw). eauto.
Qed.

Lemma name_sound s a r : p_file_name s = ROk a r -> exists w, s = w ++ r /\ name_text a w.
Proof.
  unfold p_file_name. intro H. apply alt_ok in H as [H|[_ H]].
  - apply pmap_ok in H as (? & H & ->). apply tag_ok in H as ->. exists (lit "$"). split; auto. now left.
  - apply raw_ok in H as (w & -> & Hw). exists w. split; auto. now right.
Qed.

Lemma time_sound v s t r : p_time v s = ROk t r -> exists w, s = w ++ r /\ time_text v t w.
Proof.
  unfold p_time, pmap_unwrap. destruct (p_quote_word s) as [a r'| | |] eqn:E; try discriminate.
  destruct (time_from_string v a) as [t'|] eqn:Et; [|discriminate]. intro H. injection H as <- <-.
  apply raw_ok in E as (w & -> & Hw). exists w. split; auto. exists a. split; auto.
  unfold time_from_string in Et. destruct (rfc3339 v a) as [t2|]; [injection Et as ->; now left|]. now right.
Qed.

Lemma details_sound v s n d c r : p_details v s = ROk n r ->
  exists w, s = w ++ r /\
    details_text v (mk_header d (f_name n) (f_time n) (f_authors n) (f_orgs n) (f_pre n) (f_sys n) (f_auth n) c) w.
Proof.
  unfold p_details. intro H. apply bind_ok in H as (? & ? & E1 & H). apply open_text_ok in E1 as (o & -> & Ho).
  apply bind_ok in H as (fn & ? & E2 & H). apply name_sound in E2 as (w2 & -> & W2).
  apply bind_ok in H as (? & ? & E3 & H). apply comma_text_ok in E3 as (c1 & -> & C1).
  apply bind_ok in H as (t & ? & E4 & H). apply time_sound in E4 as (w4 & -> & W4).
  apply bind_ok in H as (? & ? & E5 & H). apply comma_text_ok in E5 as (c2 & -> & C2).
  apply bind_ok in H as (a & ? & E6 & H). apply words_sound in E6 as (w6 & -> & W6).
  apply bind_ok in H as (? & ? & E7 & H). apply comma_text_ok in E7 as (c3 & -> & C3).
  apply bind_ok in H as (b & ? & E8 & H). apply words_sound in E8 as (w8 & -> & W8).
  apply bind_ok in H as (? & ? & E9 & H). apply comma_text_ok in E9 as (c4 & -> & C4).
  apply bind_ok in H as (p & ? & E10 & H). apply raw_ok in E10 as (w10 & -> & W10).
  apply bind_ok in H as (? & ? & E11 & H). apply comma_text_ok in E11 as (c5 & -> & C5).
  apply bind_ok in H as (y & ? & E12 & H). apply raw_ok in E12 as (w12 & -> & W12).
  apply bind_ok in H as (? & ? & E13 & H). apply comma_text_ok in E13 as (c6 & -> & C6).
  apply bind_ok in H as (u & ? & E14 & H). apply raw_ok in E14 as (w14 & -> & W14).
  apply bind_ok in H as (? & ? & E15 & H). apply end_text_ok in E15 as (e & -> & He). injection H as <- ->.
  eexists. split; [|exists o, w2, c1, w4, c2, w6, c3, w8, c4, w10, c5, w12, c6, w14, e; cbn [h_name h_time h_authors h_orgs h_pre h_sys h_auth f_name f_time f_authors f_orgs f_pre f_sys f_auth]; repeat (split; [eassumption|]); reflexivity].
  now rewrite <- !app_assoc.
Qed.

Lemma schema_sound s l r : p_schema s = ROk l r -> exists w, s = w ++ r /\ schemas_text l w.
Proof.
  unfold p_schema. intro H. apply bind_ok in H as (? & ? & E1 & H). apply open_text_ok in E1 as (o & -> & Ho).
  apply bind_ok in H as (l' & ? & E2 & H). apply bind_ok in H as (? & ? & E3 & H). apply end_text_ok in E3 as (e & -> & He). injection H as <- ->.
  unfold p_schema_list in E2. apply bind_ok in E2 as (? & ? & F1 & E2). apply tag_ok in F1 as ->. apply bind_ok in E2 as (l2 & ? & F2 & E2).
  apply bind_ok in E2 as (? & ? & F3 & E2). apply tag_ok in F3 as ->. injection E2 as <- ->.
  eapply separated_listed with (P := loose schema_text) in F2.
  - destruct F2 as (w & -> & Hw). exists (o ++ lit "(" ++ w ++ lit ")" ++ e). split; [now rewrite <- !app_assoc|].
    exists o, w, e. auto.
  - unfold p_schema_item. apply loose_ok. intros s0 a r0 H. apply bind_ok in H as (? & ? & K1 & H). apply tag_ok in K1 as ->.
    apply bind_ok in H as (x9 & ? & K2 & H). apply bind_ok in H as (? & ? & K3 & H). apply tag_ok in K3 as ->. injection H as <- ->.
    apply schema_inner_ok in K2 as (w & Hw & ->). exists (lit "'" ++ w ++ lit "'"). split; [now rewrite <- !app_assoc|]. now exists w.
Qed.

Lemma open_text_gap name g w : gap g -> open_text name w -> open_text name (g ++ w).
Proof. intros Hg (g0 & g1 & g2 & H0 & H1 & H2 & ->). exists (g ++ g0), g1, g2. repeat (split; [auto using gap_app|]). now rewrite <- !app_assoc. Qed.

Lemma header_sound v s h r : p_header v s = ROk h r -> exists w, s = w ++ r /\ spells_header v h w.
Proof.
  unfold p_header. intro H. apply bind_ok in H as (? & ? & E0 & H). apply ws_ok in E0 as (a0 & A0 & ->).
  apply bind_ok in H as (? & ? & E1 & H). unfold p_version in E1.
  apply bind_ok in E1 as (? & ? & F0 & E1). apply ws_ok in F0 as (a1 & A1 & ->).
  apply bind_ok in E1 as (? & ? & F1 & E1). apply tag_ok in F1 as ->. apply bind_ok in E1 as (? & ? & F2 & E1). apply tag_ok in F2 as ->.
  apply ws_ok in E1 as (a2 & A2 & ->). apply bind_ok in H as (? & ? & E2 & H). apply mark_ok in E2 as (m2 & -> & M2).
  apply bind_ok in H as (d & ? & E3 & H). apply description_sound in E3 as (wd & -> & Wd).
  apply bind_ok in H as (? & ? & E4 & H). apply ws_ok in E4 as (a3 & A3 & ->).
  apply bind_ok in H as (n & ? & E5 & H).
  apply bind_ok in H as (? & ? & E6 & H). apply ws_ok in E6 as (a4 & A4 & ->).
  apply bind_ok in H as (c & ? & E7 & H). apply schema_sound in E7 as (wc & -> & Wc).
  apply (details_sound v _ n d c) in E5 as (wn & -> & Wn).
  apply bind_ok in H as (? & ? & E8 & H). apply mark_ok in E8 as (m3 & -> & M3). injection H as <- ->.
  eexists. split.
  2:{ exists ((a0 ++ a1) ++ lit "ISO-10303-21;" ++ a2), m2, wd, (a3 ++ wn), (a4 ++ wc), m3.
      split; [exists (a0 ++ a1), a2; auto using gap_app|]. split; auto. split; [exact Wd|].
      split; [|split; [|split; [exact M3|reflexivity]]].
      - destruct Wn as (o & n' & c1 & t & c2 & a & c3 & b & c4 & p & c5 & y & c6 & u & e & Ho & Wn).
        exists (a3 ++ o), n', c1, t, c2, a, c3, b, c4, p, c5, y, c6, u, e. split; [now apply open_text_gap|].
        do 14 (destruct Wn as [? Wn]; split; [assumption|]). rewrite Wn. now rewrite <- app_assoc.
      - destruct Wc as (o & s' & e & Ho & Hs & He & ->). exists (a4 ++ o), s', e. split; [now apply open_text_gap|].
        split; auto. split; auto. now rewrite <- !app_assoc. }
  change (lit "ISO-10303-21;") with (lit "ISO-10303-21" ++ lit ";"). now rewrite <- !app_assoc.
Qed.

Lemma file_sound v s x : load v s = Done x -> exists l, spells_file v (i_header x) l s /\ i_data x = from_list l.
Proof.
  intro H. apply load_done in H as [H _]. apply parse_whole_done in H. unfold p_ifc in H. apply bind_ok in H as (h & r1 & E1 & H).
  apply bind_ok in H as (m & r2 & E2 & H). apply bind_ok in H as (? & r3 & E3 & H). injection H as <- ->. cbn [i_header i_data].
  apply header_sound in E1 as (w & -> & Hw). apply data_sound in E2 as (g0 & l & d & g1 & G0 & G1 & Hl & -> & ->).
  apply footer_parts in E3 as (b0 & b1 & B0 & B1 & ->). exists l. split; auto.
  exists w, g0, d, (g1 ++ b0), b1. repeat (split; [auto using gap_app|]). rewrite app_nil_r. now rewrite <- !app_assoc.
Qed.
