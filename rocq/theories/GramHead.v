(** Every well-formed header, and every well-formed file, is read. *)

From Coq Require Import String Ascii List NArith ZArith Bool Lia ZifyBool ZifyNat ZifyN.
From Verif Require Import Base Prims BaseFacts Spec TextSpec PrimsFacts StringFacts Kind Types WellTyped TypesFacts TypesFacts2 Schema Entity EntityFacts
  DataMap DataSpec DataMapFacts SectionFacts Header File HeaderSpec HeaderFacts FileSpec FileFacts FileFacts2 PanicFacts SpellSpec SpellFacts SpellHead
  GramSpec GramFacts.
Import ListNotations.
Open Scope N_scope.

(** ** Marks *)

Lemma mark_form t w rest : starts_ok t = true -> mark_text t w -> surrounded (tag t) (w ++ rest) = ROk tt (skip rest).
Proof.
  intros Ht (g1 & g2 & H1 & H2 & ->). rewrite <- !app_assoc. rewrite surrounded_eq, skip_gap_stop by (auto; now apply starts_no_gap).
  rewrite tag_app. now rewrite skip_gap.
Qed.

Lemma comma_form c rest : comma_text c -> p_comma (c ++ rest) = ROk tt (skip rest).
Proof.
  intros (g1 & g2 & H1 & H2 & ->). rewrite <- !app_assoc. unfold p_comma. rewrite surrounded_eq, skip_gap_stop by (auto; apply no_gap_comma).
  rewrite tag_app. now rewrite skip_gap.
Qed.

Lemma open_form name w rest : starts_ok name = true -> open_text name w -> p_open name (w ++ rest) = ROk tt (skip rest).
Proof.
  intros Hn (g0 & g1 & g2 & H0 & H1 & H2 & ->). rewrite <- !app_assoc. unfold p_open. rewrite surrounded_eq, skip_gap_stop by (auto; now apply starts_no_gap).
  rewrite tag_step, ws_step, skip_gap_stop by (auto; apply no_gap_open). rewrite tag_app. now rewrite skip_gap.
Qed.

Lemma open_skip name s : p_open name (skip s) = p_open name s.
Proof. unfold p_open. rewrite !surrounded_eq. now rewrite skip_idem. Qed.

Lemma end_form w rest : end_text w -> p_end (w ++ rest) = ROk tt (skip rest).
Proof.
  intros (g0 & g1 & g2 & H0 & H1 & H2 & ->). rewrite <- !app_assoc. unfold p_end. rewrite surrounded_eq, skip_gap_stop by (auto; apply no_gap_close).
  rewrite tag_step, ws_step, skip_gap_stop; auto.
  2:{ cbn [app]. apply no_gap_char; [unfold blank; cbv; lia|cbv; lia]. }
  rewrite tag_app. now rewrite skip_gap.
Qed.

(** ** Lists *)

(** What follows an element: a comma or the end of the list. *)
Definition closes (e r : text) : Prop := (exists x, r = lit "," ++ x) \/ (exists x, r = e ++ x).

Lemma listed_pairs {A} (P : A -> text -> Prop) l w : listed P l w ->
  exists q, l = map snd q /\ w = join (lit ",") (map fst q) /\ Forall (fun p => P (snd p) (fst p)) q.
Proof.
  induction 1 as [|a w H|a w l s Hl H _ (q & -> & -> & Hq)].
  - exists []. auto.
  - exists [(w, a)]. auto.
  - exists ((w, a) :: q). split; auto. split; [|constructor; auto]. cbn [map fst]. rewrite join_cons; auto. destruct q; [now destruct Hl|discriminate].
Qed.

Lemma listed_form {A} (P : A -> text -> Prop) (f : parser A) e l w rest :
  (forall a t r, P a t -> closes e r -> f (t ++ r) = ROk a r) -> tag (lit ",") (e ++ rest) = RBack -> l <> [] ->
  listed P l w -> separated f (tag (lit ",")) (w ++ e ++ rest) = ROk l (e ++ rest).
Proof.
  intros Hf Ht Hl H. apply listed_pairs in H as (q & -> & -> & Hq). apply separated_reads; auto.
  - intros ->. now apply Hl.
  - rewrite Forall_forall in *. intros p Hp r Hr. apply Hf; [now apply Hq|]. destruct Hr as [Hr| ->]; [now left|right; eauto].
Qed.

Lemma closes_no_gap r : closes (lit ")") r -> no_gap r.
Proof. intros [(x & ->)|(x & ->)]; cbn [app]; apply no_gap_char; unfold blank; cbv; lia. Qed.

Lemma loose_form {A} (P : A -> text -> Prop) (f : parser A) :
  (forall a t r, P a t -> f (t ++ r) = ROk a r /\ no_gap (t ++ r)) ->
  forall a t r, loose P a t -> closes (lit ")") r -> surrounded f (t ++ r) = ROk a r.
Proof.
  intros Hf a t r (g1 & u & g2 & H1 & H2 & Hp & ->) Hr. rewrite <- !app_assoc. destruct (Hf a u (g2 ++ r) Hp) as [E N].
  rewrite surrounded_eq, skip_gap_stop by auto. rewrite E. now rewrite skip_gap_stop by auto using closes_no_gap.
Qed.

Lemma raw_form a w r : raw_text a w -> p_quote_word (w ++ r) = ROk a r /\ no_gap (w ++ r).
Proof. intros [Ha ->]. rewrite <- !app_assoc. split; [now apply quote_word_app|apply no_gap_quote]. Qed.

Lemma listed_none {A} (P : A -> text -> Prop) w : listed P [] w -> w = [].
Proof. inversion 1; auto. Qed.

(** ** View definitions *)

Lemma drop_white_app a s : Forall white a -> drop_white (a ++ s) = drop_white s.
Proof. induction 1 as [|c a Hc H IH]; auto. cbn [app drop_white]. apply is_white_iff in Hc. now rewrite Hc. Qed.

Lemma trim_unique t s : trimmed t s -> trim s = t.
Proof.
  intros (a & b & -> & Ha & Hb & Ht). unfold trim. rewrite drop_white_app by auto. destruct Ht as [->|(c & r & d & E & Hc & Hd & Wd)].
  - cbn [app]. rewrite <- (app_nil_r b), drop_white_app by auto. reflexivity.
  - assert (E1 : drop_white (t ++ b) = t ++ b) by (rewrite E; cbn [app drop_white]; now rewrite (proj2 (is_white_false c) Hc)).
    rewrite E1, rev_app_distr, drop_white_app by (now apply Forall_rev).
    destruct (rev t) as [|x y] eqn:Er; [rewrite E in Er; cbn in Er; destruct (rev r); discriminate|].
    assert (Et : t = rev y ++ [x]) by (rewrite <- (rev_involutive t), Er; reflexivity).
    rewrite Et, last_last in Hd. subst x. cbn [drop_white]. rewrite (proj2 (is_white_false d) Wd). now rewrite <- Er, rev_involutive.
Qed.

Lemma item_form a w r : item_text a w -> closes (lit "]") r -> p_view_item (w ++ r) = ROk a r.
Proof.
  intros (Ht & H1 & H2) Hr. rewrite view_item_reads; auto; [now rewrite (trim_unique a w)|].
  destruct Hr as [(x & ->)|(x & ->)]; cbn; auto.
Qed.

Lemma items_form ts b rest : listed item_text ts b ->
  p_view_items (lit "[" ++ b ++ lit "]" ++ rest) = ROk (filter (fun t => negb (is_empty t)) ts) rest.
Proof.
  intro H. unfold p_view_items. rewrite tag_step. destruct ts as [|t ts].
  - apply listed_none in H as ->. rewrite (bind_step _ _ _ [[]] (lit "]" ++ rest)).
    + now rewrite tag_step.
    + apply (listed_form item_text p_view_item (lit "]") [[]] []); auto using item_form; [discriminate|].
      constructor. split; [|split; auto]. exists [], []. auto.
  - rewrite (bind_step _ _ _ (t :: ts) (lit "]" ++ rest)).
    + now rewrite tag_step.
    + apply (listed_form item_text p_view_item (lit "]")); auto using item_form. discriminate.
Qed.

Lemma gap_bracket v g s : gap g -> match g ++ lit "[" ++ s with [] => True | c :: _ => is_ident v c = false end.
Proof.
  intros [|c g' Hc Hg|b g' Hb Hg]; cbn [app]; auto; try reflexivity. destruct Hc as [->|[->|[->| ->]]]; reflexivity.
Qed.

Lemma no_gap_bracket s : no_gap (lit "[" ++ s).
Proof. cbn [app]. apply no_gap_char; unfold blank; cbv; lia. Qed.

Lemma view_form v d w rest : view_text v d w ->
  bind (tag (lit "'")) (fun _ => bind (p_view v) (fun d => bind (tag (lit "'")) (fun _ => ret d))) (w ++ rest) = ROk d rest /\ no_gap (w ++ rest).
Proof.
  intros (g1 & g2 & ts & b & g3 & H1 & H2 & H3 & Hn & Hb & Hi & ->). rewrite <- !app_assoc. split; [|apply no_gap_quote].
  rewrite tag_step.
  rewrite (bind_step _ _ _ d (lit "'" ++ rest)); [now rewrite tag_step|].
  unfold p_view. rewrite ws_step.
  set (after := lit "[" ++ b ++ lit "]" ++ g3 ++ lit "'" ++ rest).
  assert (E : exists g, gap g /\ skip (g1 ++ vd_name d ++ g2 ++ after) = vd_name d ++ g ++ after).
  { destruct (vd_name d) as [|c n].
    - exists []. split; [constructor|]. cbn [app]. rewrite app_assoc. rewrite skip_gap_stop; auto using gap_app. apply no_gap_bracket.
    - exists g2. split; auto. rewrite skip_gap_stop; auto. inversion Hn as [|? ? Hc Hn']; subst. cbn [app]. unfold ident_char in Hc.
      apply no_gap_char; [unfold blank|]; lia. }
  destruct E as (g & Hg & ->).
  rewrite (bind_step _ _ _ (vd_name d) (g ++ after)).
  - rewrite ws_step, skip_gap_stop by (auto; apply no_gap_bracket). unfold after.
    rewrite (bind_step _ _ _ _ _ (items_form ts b _ Hb)). rewrite ws_step, skip_gap_stop by (auto using no_gap_quote).
    unfold ret. rewrite <- Hi. now destruct d.
  - unfold p_ident, take_while0. rewrite span_app; [reflexivity| |now apply gap_bracket].
    apply forallb_forall. intros c Hc. rewrite Forall_forall in Hn. now apply is_ident_iff, Hn.
Qed.

Lemma view_quote v d w r : loose (view_text v) d w -> tag (lit "''") (w ++ r) = RBack.
Proof.
  intros (g1 & t & g2 & H1 & H2 & (a1 & a2 & ts & b & a3 & A1 & A2 & A3 & Hn & _ & _ & ->) & ->). rewrite <- !app_assoc.
  change (lit "''") with [39; 39].
  destruct H1 as [|c g Hc Hg|x g Hx Hg]; cbn [app].
  - unfold tag. change (lit "'") with [39]. cbn [app strip_prefix]. rewrite N.eqb_refl.
    assert (X : exists c s, a1 ++ vd_name d ++ a2 ++ lit "[" ++ b ++ lit "]" ++ a3 ++ lit "'" ++ g2 ++ r = c :: s /\ c <> 39).
    { destruct A1 as [|c g Hc Hg|x g Hx Hg]; [|exists c, (g ++ vd_name d ++ a2 ++ lit "[" ++ b ++ lit "]" ++ a3 ++ lit "'" ++ g2 ++ r); split; [reflexivity|unfold blank in Hc; lia]
        |eexists _, _; split; [reflexivity|discriminate]].
      destruct Hn as [|c n Hc Hn']; cbn [app]; [|eexists _, _; split; [reflexivity|unfold ident_char in Hc; lia]].
      destruct A2 as [|c g Hc Hg|x g Hx Hg]; cbn [app]; eexists _, _; (split; [reflexivity|]); [discriminate|unfold blank in Hc; lia|discriminate]. }
    destruct X as (c & s & E & Hc). change (lit "'") with [39] in E. cbn [app] in E. rewrite E. destruct (N.eqb_spec 39 c); [congruence|reflexivity].
  - apply tag_neq. unfold blank in Hc. lia.
  - reflexivity.
Qed.

Lemma views_form v l w rest : views_text v l w -> p_views v (lit "(" ++ w ++ lit ")" ++ rest) = ROk l rest.
Proof.
  intro H. unfold p_views. rewrite tag_step.
  rewrite (bind_step _ _ _ l (lit ")" ++ rest)); [now rewrite tag_step|]. unfold alt, pmap.
  destruct H as [[-> ->]|H]; [now rewrite tag_app|].
  assert (E : tag (lit "''") (w ++ lit ")" ++ rest) = RBack).
  { inversion H as [|a t Ht|a t l' s Hl Ht Hs]; subst; [reflexivity|eapply view_quote; eauto|]. rewrite <- app_assoc. eapply view_quote; eauto. }
  rewrite E. destruct l as [|d l].
  - apply listed_none in H as ->. apply separated_none. reflexivity.
  - apply (listed_form (loose (view_text v))); auto; [|discriminate]. apply loose_form. intros a t r. apply view_form.
Qed.

Lemma words_form l w rest : listed (loose raw_text) l w -> p_words (lit "(" ++ w ++ lit ")" ++ rest) = ROk l rest.
Proof.
  intro H. unfold p_words. rewrite tag_step. rewrite (bind_step _ _ _ l (lit ")" ++ rest)); [now rewrite tag_step|].
  destruct l as [|d l].
  - apply listed_none in H as ->. apply separated_none. reflexivity.
  - apply (listed_form (loose raw_text)); auto; [|discriminate]. apply loose_form. intros a t r. apply raw_form.
Qed.

Lemma schema_form x w rest : schema_text x w ->
  bind (tag (lit "'")) (fun _ => bind p_schema_inner (fun x => bind (tag (lit "'")) (fun _ => ret x))) (w ++ rest) = ROk x rest /\ no_gap (w ++ rest).
Proof.
  intros (s & Hin & ->). rewrite <- !app_assoc. split; [|apply no_gap_quote]. rewrite tag_step.
  assert (E : p_schema_inner (s ++ lit "'" ++ rest) = ROk x (lit "'" ++ rest)).
  { unfold spellings in Hin. cbn [flat_map map app fst snd In] in Hin.
    repeat destruct Hin as [E|Hin]; try contradiction; injection E as <- <-; reflexivity. }
  rewrite (bind_step _ _ _ _ _ E). now rewrite tag_step.
Qed.

Lemma schemas_form l w rest : schemas_text l w -> p_schema (w ++ rest) = ROk l (skip rest).
Proof.
  intros (o & s & e & Ho & Hs & He & ->). rewrite <- !app_assoc. unfold p_schema.
  rewrite (bind_step _ _ _ _ _ (open_form (lit "FILE_SCHEMA") o _ eq_refl Ho)). rewrite skip_no_gap by apply no_gap_open.
  rewrite (bind_step _ _ _ l (e ++ rest)).
  - now rewrite (bind_step _ _ _ _ _ (end_form e rest He)).
  - unfold p_schema_list. rewrite tag_step. rewrite (bind_step _ _ _ l (lit ")" ++ e ++ rest)); [now rewrite tag_step|].
    destruct l as [|d l].
    + apply listed_none in Hs as ->. apply separated_none. reflexivity.
    + apply (listed_form (loose schema_text)); auto; [|discriminate]. unfold p_schema_item. apply loose_form. intros a t r. apply schema_form.
Qed.

Lemma description_form v l w rest : description_text v l w -> p_description v (w ++ rest) = ROk l (skip rest).
Proof.
  intros (o & s & c & g1 & g2 & e & Ho & Hs & Hc & H1 & H2 & He & ->). rewrite <- !app_assoc. unfold p_description.
  rewrite (bind_step _ _ _ _ _ (open_form (lit "FILE_DESCRIPTION") o _ eq_refl Ho)). rewrite skip_no_gap by apply no_gap_open.
  rewrite (bind_step _ _ _ _ _ (views_form v l s _ Hs)).
  rewrite (bind_step _ _ _ _ _ (comma_form c _ Hc)). rewrite skip_no_gap by apply no_gap_quote.
  rewrite (bind_step _ _ _ tt (e ++ rest)).
  - now rewrite (bind_step _ _ _ _ _ (end_form e rest He)).
  - unfold p_level. rewrite tag_step.
    assert (E : surrounded (tag (lit "2;1")) ((g1 ++ lit "2;1" ++ g2) ++ lit "'" ++ e ++ rest) = ROk tt (skip (lit "'" ++ e ++ rest)))
      by (apply mark_form; [reflexivity|now exists g1, g2]).
    rewrite <- !app_assoc in E. rewrite (bind_step _ _ _ _ _ E). rewrite skip_no_gap by apply no_gap_quote. now rewrite tag_app.
Qed.

Lemma name_form a w rest : name_text a w -> p_file_name (w ++ rest) = ROk a rest /\ no_gap (w ++ rest).
Proof.
  intros [[-> ->]|[Ha ->]].
  - split; [reflexivity|]. cbn [app]. apply no_gap_char; unfold blank; cbv; lia.
  - rewrite <- !app_assoc. split; [|apply no_gap_quote]. unfold p_file_name, alt, pmap. cbn [app]. change (lit "$") with [36].
    change (lit "'") with [39]. cbn [app]. rewrite tag_neq by discriminate. exact (quote_word_app a rest Ha).
Qed.

Lemma time_form v t w rest : time_text v t w -> p_time v (w ++ rest) = ROk t rest /\ no_gap (w ++ rest).
Proof.
  intros (s & Hr & Ht). destruct (raw_form s w rest Hr) as [E N]. split; auto. unfold p_time, pmap_unwrap. rewrite E.
  unfold time_from_string. destruct Ht as [->|[-> ->]]; reflexivity.
Qed.

Lemma details_form v h w rest : details_text v h w ->
  p_details v (w ++ rest) = ROk (mk_details (h_name h) (h_time h) (h_authors h) (h_orgs h) (h_pre h) (h_sys h) (h_auth h)) (skip rest).
Proof.
  intros (o & n & c1 & t & c2 & a & c3 & b & c4 & p & c5 & s & c6 & u & e & Ho & Hn & C1 & Ht & C2 & Ha & C3 & Hb & C4 & Hp & C5 & Hs & C6 & Hu & He & ->).
  rewrite <- !app_assoc. unfold p_details.
  rewrite (bind_step _ _ _ _ _ (open_form (lit "FILE_NAME") o _ eq_refl Ho)).
  match goal with |- context [n ++ ?r] => destruct (name_form _ n r Hn) as [E1 N1] end. rewrite skip_no_gap by exact N1.
  rewrite (bind_step _ _ _ _ _ E1). rewrite (bind_step _ _ _ _ _ (comma_form c1 _ C1)).
  match goal with |- context [t ++ ?r] => destruct (time_form v _ t r Ht) as [E2 N2] end. rewrite skip_no_gap by exact N2.
  rewrite (bind_step _ _ _ _ _ E2). rewrite (bind_step _ _ _ _ _ (comma_form c2 _ C2)). rewrite skip_no_gap by apply no_gap_open.
  rewrite (bind_step _ _ _ _ _ (words_form _ a _ Ha)). rewrite (bind_step _ _ _ _ _ (comma_form c3 _ C3)). rewrite skip_no_gap by apply no_gap_open.
  rewrite (bind_step _ _ _ _ _ (words_form _ b _ Hb)). rewrite (bind_step _ _ _ _ _ (comma_form c4 _ C4)).
  match goal with |- context [p ++ ?r] => destruct (raw_form _ p r Hp) as [E3 N3] end. rewrite skip_no_gap by exact N3.
  rewrite (bind_step _ _ _ _ _ E3). rewrite (bind_step _ _ _ _ _ (comma_form c5 _ C5)).
  match goal with |- context [s ++ ?r] => destruct (raw_form _ s r Hs) as [E4 N4] end. rewrite skip_no_gap by exact N4.
  rewrite (bind_step _ _ _ _ _ E4). rewrite (bind_step _ _ _ _ _ (comma_form c6 _ C6)).
  match goal with |- context [u ++ ?r] => destruct (raw_form _ u r Hu) as [E5 N5] end. rewrite skip_no_gap by exact N5.
  rewrite (bind_step _ _ _ _ _ E5). now rewrite (bind_step _ _ _ _ _ (end_form e rest He)).
Qed.

Lemma sur_skip {A} (p : parser A) s : surrounded p (skip s) = surrounded p s.
Proof. rewrite !surrounded_eq. now rewrite skip_idem. Qed.

Lemma description_skip v s : p_description v (skip s) = p_description v s.
Proof. unfold p_description, bind at 1 5. now rewrite open_skip. Qed.
Lemma details_skip v s : p_details v (skip s) = p_details v s.
Proof. unfold p_details, bind at 1 15. now rewrite open_skip. Qed.
Lemma schema_skip s : p_schema (skip s) = p_schema s.
Proof. unfold p_schema, bind at 1 3. now rewrite open_skip. Qed.

Lemma header_form v h w rest : spells_header v h w -> p_header v (w ++ rest) = ROk h (skip rest).
Proof.
  intros (m1 & m2 & d & n & c & m3 & (a1 & a2 & A1 & A2 & ->) & M2 & Hd & Hn & Hc & M3 & ->). rewrite <- !app_assoc.
  unfold p_header. rewrite ws_step. change (lit "ISO-10303-21;") with (lit "ISO-10303-21" ++ lit ";"). rewrite <- !app_assoc.
  rewrite skip_gap_stop by (auto; apply starts_no_gap; reflexivity).
  match goal with |- context [a2 ++ ?r] => rewrite (bind_step _ _ _ tt (skip r)) end.
  - rewrite (bind_step _ _ _ tt (skip (d ++ n ++ c ++ m3 ++ rest))) by (rewrite sur_skip; now apply mark_form).
    rewrite (bind_step _ _ _ (h_views h) (skip (n ++ c ++ m3 ++ rest))) by (rewrite description_skip; now apply description_form).
    rewrite ws_step, skip_idem.
    rewrite (bind_step _ _ _ (mk_details (h_name h) (h_time h) (h_authors h) (h_orgs h) (h_pre h) (h_sys h) (h_auth h)) (skip (c ++ m3 ++ rest)))
      by (rewrite details_skip; now apply details_form).
    rewrite ws_step, skip_idem.
    rewrite (bind_step _ _ _ (h_schemas h) (skip (m3 ++ rest))) by (rewrite schema_skip; now apply schemas_form).
    rewrite (bind_step _ _ _ tt (skip rest)) by (rewrite sur_skip; now apply mark_form).
    cbn [f_name f_time f_authors f_orgs f_pre f_sys f_auth]. now destruct h.
  - unfold p_version. rewrite ws_step. rewrite skip_no_gap by (apply starts_no_gap; reflexivity).
    rewrite !tag_step. rewrite ws_skip. now rewrite skip_gap.
Qed.

(** ** Files *)

Lemma footer_form g s : gap g -> no_gap s -> p_footer (skip (lit "END-ISO-10303-21;" ++ g ++ s)) = ROk tt s.
Proof.
  intros Hg Hs. rewrite skip_no_gap by (apply starts_no_gap; reflexivity). unfold p_footer. rewrite ws_step.
  rewrite skip_no_gap by (apply starts_no_gap; reflexivity).
  rewrite (bind_step _ _ _ tt s).
  - rewrite ws_skip. f_equal. now apply skip_no_gap.
  - rewrite ws_step. rewrite skip_no_gap by (apply starts_no_gap; reflexivity).
    change (lit "END-ISO-10303-21;" ++ g ++ s) with (lit "END-" ++ lit "ISO-10303-21" ++ lit ";" ++ g ++ s).
    rewrite !tag_step. rewrite ws_skip. f_equal. now apply skip_gap_stop.
Qed.

Lemma sections_read v h w g0 g1 d g2 g3 l' : spells_header v h w -> gap g0 -> gap g1 -> gap g2 -> gap g3 ->
  (forall g rest, gap g -> no_gap rest -> p_lines (d ++ lit "ENDSEC;" ++ g ++ rest) = ROk l' rest) ->
  p_ifc v (w ++ g0 ++ lit "DATA;" ++ g1 ++ d ++ lit "ENDSEC;" ++ g2 ++ lit "END-ISO-10303-21;" ++ g3) = ROk (mk_ifc h (from_list l')) [].
Proof.
  intros Hw H0 H1 H2 H3 E.
  assert (Hn : no_gap (lit "END-ISO-10303-21;" ++ g3)) by (apply starts_no_gap; reflexivity).
  specialize (E g2 _ H2 Hn). unfold p_ifc. rewrite (bind_step _ _ _ _ _ (header_form v h w _ Hw)).
  rewrite (bind_step _ _ _ (from_list l') (skip (lit "END-ISO-10303-21;" ++ g3))).
  + pose proof (footer_form g3 [] H3 I) as F. rewrite app_nil_r in F. now rewrite (bind_step _ _ _ _ _ F).
  + assert (Es : skip (g0 ++ lit "DATA;" ++ g1 ++ d ++ lit "ENDSEC;" ++ g2 ++ lit "END-ISO-10303-21;" ++ g3) =
                 [] ++ lit "DATA;" ++ g1 ++ d ++ lit "ENDSEC;" ++ g2 ++ lit "END-ISO-10303-21;" ++ g3)
      by (cbn [app]; apply skip_gap_stop; auto; apply starts_no_gap; reflexivity).
    rewrite Es. rewrite p_data_lines by constructor. rewrite p_lines_gap by auto. now rewrite E.
Qed.

Lemma file_form v h l s : form_file v h l s ->
  exists l', Forall2 same l l' /\ spells_file v h l' s /\ p_ifc v s = ROk (mk_ifc h (from_list l')) [].
Proof.
  intros (w & g0 & g1 & d & g2 & g3 & Hw & H0 & H1 & Hd & H2 & H3 & ->).
  destruct (form_lines_reads l d Hd) as (l' & Hl & E). exists l'. split; auto. split; [|now apply sections_read].
  assert (Hn : no_gap (lit "END-ISO-10303-21;" ++ g3)) by (apply starts_no_gap; reflexivity).
  specialize (E g2 _ H2 Hn). apply lines_sound in E as (d' & g & Hg & Hd' & E). exists w, g0, (g1 ++ d'), g, g3.
  repeat (split; [auto using spells_lines_gap|]). rewrite E. now rewrite <- !app_assoc.
Qed.

Lemma attribute_form k r t w : row_of k = Some r -> In t (row_fields r) -> form t w ->
  exists v, spells t v w /\ forall rest, may_follow rest -> exists g r, gap g /\ rest = g ++ r /\ p_ty t (w ++ rest) = ROk v r.
Proof.
  intros Hr Ht Hw. destruct (row_ok_inv r (all_rows_ok k r Hr)) as (_ & _ & Hok & _). rewrite forallb_forall in Hok.
  destruct (proj1 form_reads_all t w Hw (Hok t Ht)) as ((v & H) & _). exists v. split.
  2:{ intros rest Hf. destruct (skip_spec rest) as (g & Es & Hg & _). destruct (H rest Hf) as [E|E]; [exists [], rest|exists g, (skip rest)]; repeat split; auto. constructor. }
  assert (E : p_ty t (w ++ []) = ROk v []) by (destruct (H [] I) as [E|E]; exact E).
  apply ty_sound in E as (w' & E & Hs). rewrite !app_nil_r in E. now subst w'.
Qed.

Lemma file_form_loads v h l s : form_file v h l s ->
  exists x l', i_header x = h /\ Forall2 same l l' /\ spells_file v h l' s /\ increasing (i_data x) /\
    (forall n, last_def l' n (lookup (i_data x) n)) /\
    (load v s = Done x <-> refs_ok (i_data x)) /\
    (load v s = Done x \/ load v s = Err /\ misdirected (i_data x) \/ load v s = Panic /\ dangling (i_data x)).
Proof.
  intro H. apply file_form in H as (l' & Hl & Hs & E). exists (mk_ifc h (from_list l')), l'. cbn [i_header i_data].
  split; auto. split; auto. split; auto. split; [apply from_list_increasing|]. split; [intro n; apply from_list_last|].
  apply parse_whole_done in E. split.
  - split; intro H; [now apply load_done in H|now apply load_ok].
  - pose proof (load_parsed v s _ E) as H. destruct (load v s); auto. left. now destruct H as [-> _].
Qed.

Lemma header_form_stop v h w rest : spells_header v h w -> no_gap rest -> p_header v (w ++ rest) = ROk h rest.
Proof. intros H Hr. rewrite (header_form v h w rest H). now rewrite skip_no_gap. Qed.

Lemma header_form_unique v h h' w : spells_header v h w -> spells_header v h' w -> h = h'.
Proof.
  intros H H'. pose proof (header_form_stop v h w [] H I) as E. rewrite (header_form_stop v h' w [] H' I) in E. now injection E.
Qed.

Lemma header_iff v h w : p_header v w = ROk h [] <-> spells_header v h w.
Proof.
  split; intro H.
  - apply header_sound in H as (w' & -> & H). now rewrite app_nil_r.
  - rewrite <- (app_nil_r w) at 1. apply header_form_stop; auto. exact I.
Qed.
