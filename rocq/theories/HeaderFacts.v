(** Facts about reading and printing headers. *)

From Coq Require Import String Ascii List NArith ZArith Bool Lia ZifyBool ZifyN ZifyNat.
From Verif Require Import Base Prims BaseFacts Spec PrimsFacts Kind Types Schema Entity
  Layout WellTyped EntitySpec DataMap DataSpec Header File HeaderSpec TypesFacts TypesFacts2
  SectionFacts.
Import ListNotations.
Open Scope N_scope.
Ltac Zify.zify_post_hook ::= Z.div_mod_to_equations.

(** ** Sequencing *)

Lemma bind_step {A B} (p : parser A) (f : A -> parser B) s a r :
  p s = ROk a r -> bind p f s = f a r.
Proof. unfold bind. now intros ->. Qed.

Lemma ws_step {B} (f : unit -> parser B) s : bind p_space_or_comment f s = f tt (skip s).
Proof. apply bind_step, ws_skip. Qed.

Lemma tag_step {B} t (f : unit -> parser B) s : bind (tag t) f (t ++ s) = f tt s.
Proof. apply bind_step, tag_app. Qed.

Lemma sur_tag t s : starts_ok t = true -> surrounded (tag t) (t ++ s) = ROk tt (skip s).
Proof.
  intro H. rewrite surrounded_eq, skip_no_gap by now apply starts_no_gap. now rewrite tag_app.
Qed.

Lemma comma_step {B} (f : unit -> parser B) s : bind p_comma f (lit "," ++ s) = f tt (skip s).
Proof.
  apply bind_step. unfold p_comma. rewrite surrounded_eq, skip_no_gap by apply no_gap_comma.
  now rewrite tag_app.
Qed.

Lemma open_step {B} name (f : unit -> parser B) s :
  starts_ok name = true -> bind (p_open name) f (name ++ lit "(" ++ s) = f tt (skip s).
Proof.
  intro H. apply bind_step. unfold p_open. rewrite surrounded_eq, skip_no_gap by now apply starts_no_gap.
  rewrite tag_step, ws_step, skip_no_gap by apply no_gap_open. now rewrite tag_app.
Qed.

Lemma end_step {B} (f : unit -> parser B) s : bind p_end f (lit ");" ++ s) = f tt (skip s).
Proof.
  apply bind_step. unfold p_end. rewrite surrounded_eq.
  change (lit ");" ++ s) with (lit ")" ++ lit ";" ++ s).
  rewrite skip_no_gap by apply no_gap_close. rewrite tag_step, ws_step.
  rewrite skip_no_gap by (cbn [app]; apply no_gap_char; [unfold blank; cbv; lia|cbv; lia]).
  now rewrite tag_app.
Qed.

Lemma quote_step {B} w (f : text -> parser B) s :
  plain w -> bind p_quote_word f (quoted w ++ s) = f w s.
Proof.
  intro H. apply bind_step. unfold quoted. rewrite <- !app_assoc. now apply quote_word_app.
Qed.

Lemma no_gap_quote s : no_gap (lit "'" ++ s).
Proof. cbn [app]. apply no_gap_char; [unfold blank; cbv; lia|cbv; lia]. Qed.

Lemma no_gap_quoted w s : no_gap (quoted w ++ s).
Proof. unfold quoted. rewrite <- app_assoc. apply no_gap_quote. Qed.

(** ** Separated lists *)

Section Separated.
  Context {A : Type} (f : parser A).

  Fixpoint tail_text (l : list (text * A)) : text :=
    match l with [] => [] | (t, _) :: l' => lit "," ++ t ++ tail_text l' end.

  Lemma join_tail t a (l : list (text * A)) :
    join (lit ",") (map fst ((t, a) :: l)) = t ++ tail_text l.
  Proof.
    revert t a. induction l as [|[t' a'] l IH]; intros t a; [cbn; now rewrite app_nil_r|].
    cbn [map fst]. rewrite join_cons by discriminate. cbn [map fst] in IH.
    rewrite (IH t' a'). reflexivity.
  Qed.

  Lemma tail_length (l : list (text * A)) : (length l <= length (tail_text l))%nat.
  Proof.
    induction l as [|[t a] l IH]; cbn [tail_text length]; auto. rewrite !app_length. change (length (lit ",")) with 1%nat. lia.
  Qed.

  Definition reads_in (rest : text) (p : text * A) : Prop :=
    forall r, (exists x, r = lit "," ++ x) \/ r = rest -> f (fst p ++ r) = ROk (snd p) r.

  Lemma tail_follow (l : list (text * A)) rest :
    (exists x, tail_text l ++ rest = lit "," ++ x) \/ tail_text l ++ rest = rest.
  Proof. destruct l as [|[t a] l]; auto. left. cbn [tail_text]. rewrite <- !app_assoc. eauto. Qed.

  Lemma separated_tail_reads (l : list (text * A)) : forall n rest,
    (length l < n)%nat -> Forall (reads_in rest) l -> tag (lit ",") rest = RBack ->
    separated_tail_fuel n f (tag (lit ",")) (tail_text l ++ rest) = ROk (map snd l) rest.
  Proof.
    induction l as [|[t a] l IH]; intros n rest Hn Hl Hr; destruct n as [|n]; try (cbn in Hn; lia).
    - cbn [tail_text app separated_tail_fuel]. now rewrite Hr.
    - cbn [tail_text separated_tail_fuel]. rewrite <- !app_assoc. rewrite tag_app.
      inversion Hl; subst. pose proof (H1 _ (tail_follow l rest)) as E. cbn [fst snd] in E.
      rewrite E, IH; auto. cbn in Hn. lia.
  Qed.

  Lemma separated_reads (l : list (text * A)) rest :
    l <> [] -> Forall (reads_in rest) l -> tag (lit ",") rest = RBack ->
    separated f (tag (lit ",")) (join (lit ",") (map fst l) ++ rest) = ROk (map snd l) rest.
  Proof.
    intros Hne Hl Hr. destruct l as [|[t a] l]; [congruence|]. rewrite join_tail, <- app_assoc.
    unfold separated. inversion Hl; subst. pose proof (H1 _ (tail_follow l rest)) as E.
    cbn [fst snd] in E. rewrite E, separated_tail_reads; auto.
    rewrite app_length. pose proof (tail_length l). lia.
  Qed.

  Lemma separated_none rest : f rest = RBack -> separated f (tag (lit ",")) rest = ROk [] rest.
  Proof. unfold separated. now intros ->. Qed.
End Separated.

(** ** Words *)

Lemma sur_quote w s : plain w ->
  (exists x, s = lit "," ++ x) \/ (exists x, s = lit ")" ++ x) ->
  surrounded p_quote_word (quoted w ++ s) = ROk w s.
Proof.
  intros H Hs. rewrite surrounded_eq, skip_no_gap by apply no_gap_quoted.
  unfold quoted. rewrite <- !app_assoc. rewrite quote_word_app by auto. f_equal. apply skip_no_gap.
  destruct Hs as [[x ->]|[x ->]]; [apply no_gap_comma|apply no_gap_close].
Qed.

Lemma words_step {B} l (f : list text -> parser B) s :
  Forall plain l -> bind p_words f (d_words l ++ s) = f l s.
Proof.
  intro H. apply bind_step. unfold p_words, d_words. rewrite <- !app_assoc. rewrite tag_step.
  destruct l as [|w l].
  - cbn [map join app]. rewrite (bind_step _ _ _ [] (lit ")" ++ s)).
    + now rewrite tag_step.
    + apply separated_none. rewrite surrounded_eq, skip_no_gap by apply no_gap_close. reflexivity.
  - rewrite (bind_step _ _ _ (w :: l) (lit ")" ++ s)).
    + now rewrite tag_step.
    + pose proof (separated_reads (surrounded p_quote_word) (map (fun x => (quoted x, x)) (w :: l)) (lit ")" ++ s)) as E.
      rewrite !map_map in E. cbn [fst snd] in E. rewrite map_id in E. apply E; auto.
      * discriminate.
      * apply Forall_forall. intros p Hp. apply in_map_iff in Hp as (x & <- & Hx).
        intros r Hr. cbn [fst snd]. apply sur_quote; [|destruct Hr as [Hr| ->]; eauto].
        rewrite Forall_forall in H. auto.
Qed.

(** ** Schemas *)

Lemma schema_inner_reads x s : p_schema_inner (d_schema x ++ lit "'" ++ s) = ROk x (lit "'" ++ s).
Proof. destruct x; reflexivity. Qed.

Lemma sur_schema x s :
  (exists x, s = lit "," ++ x) \/ (exists x, s = lit ")" ++ x) ->
  p_schema_item (quoted (d_schema x) ++ s) = ROk x s.
Proof.
  intro Hs. unfold p_schema_item. rewrite surrounded_eq, skip_no_gap by apply no_gap_quoted.
  unfold quoted. rewrite <- !app_assoc. rewrite tag_step.
  rewrite (bind_step _ _ _ x (lit "'" ++ s)) by apply schema_inner_reads. rewrite tag_step.
  unfold ret. f_equal. apply skip_no_gap.
  destruct Hs as [[y ->]|[y ->]]; [apply no_gap_comma|apply no_gap_close].
Qed.

Lemma schemas_step {B} l (f : list schema -> parser B) s :
  bind p_schema_list f (d_schemas l ++ s) = f l s.
Proof.
  apply bind_step. unfold p_schema_list, d_schemas. rewrite <- !app_assoc. rewrite tag_step.
  destruct l as [|w l].
  - cbn [map join app]. rewrite (bind_step _ _ _ [] (lit ")" ++ s)).
    + now rewrite tag_step.
    + apply separated_none. unfold p_schema_item. rewrite surrounded_eq, skip_no_gap by apply no_gap_close.
      reflexivity.
  - rewrite (bind_step _ _ _ (w :: l) (lit ")" ++ s)).
    + now rewrite tag_step.
    + pose proof (separated_reads p_schema_item (map (fun x => (quoted (d_schema x), x)) (w :: l)) (lit ")" ++ s)) as E.
      rewrite !map_map in E. cbn [fst snd] in E. rewrite map_id in E. apply E; auto.
      * discriminate.
      * apply Forall_forall. intros p Hp. apply in_map_iff in Hp as (x & <- & Hx).
        intros r Hr. cbn [fst snd]. apply sur_schema. destruct Hr as [Hr| ->]; eauto.
Qed.

(** ** View definitions *)

Lemma is_ident_iff v c : is_ident v c = true <-> ident_char v c.
Proof.
  unfold is_ident, ident_char, is_digit. destruct (N.ltb_spec c 128).
  - split; intro H0; [|]; rewrite ?orb_true_iff, ?andb_true_iff in *; lia.
  - split; intro H0.
    + rewrite ?orb_true_iff in H0. destruct H0 as [[[[H0|H0]|H0]|H0]|H0]; try lia. auto 10.
    + destruct H0 as [H0|[H0|[H0|[H0|[H0|[H0|[H0|[_ H0]]]]]]]]; try lia. now rewrite H0.
Qed.

Lemma is_white_iff c : is_white c = true <-> white c.
Proof. unfold is_white, white. rewrite ?orb_true_iff, ?andb_true_iff. lia. Qed.

Lemma is_white_false c : is_white c = false <-> ~ white c.
Proof. rewrite <- is_white_iff. destruct (is_white c); split; intro; congruence. Qed.

Lemma trim_item s : item_ok s -> trim s = s.
Proof.
  intros (_ & _ & c & r & d & -> & Hc & Hd & Hw). unfold trim. cbn [drop_white].
  rewrite (proj2 (is_white_false c) Hc). rewrite <- (rev_involutive (c :: r)) at 2. f_equal.
  destruct (rev (c :: r)) as [|x y] eqn:E; [reflexivity|]. cbn [drop_white].
  assert (c :: r = rev y ++ [x]) as E2.
  { rewrite <- (rev_involutive (c :: r)), E. reflexivity. }
  rewrite E2 in Hd. rewrite last_last in Hd. subst d. now rewrite (proj2 (is_white_false x) Hw).
Qed.

Lemma trim_blank s : trim (32 :: s) = trim s.
Proof. reflexivity. Qed.

Lemma repeat0_one_of (P : N -> bool) w : forall n r,
  (length w < n)%nat -> forallb P w = true -> match r with [] => True | c :: _ => P c = false end ->
  repeat0_fuel n (one_of P) (w ++ r) = ROk w r.
Proof.
  induction w as [|c w IH]; intros n r Hn Hw Hr; destruct n as [|n]; try (cbn in Hn; lia).
  - cbn [app repeat0_fuel]. destruct r as [|c r]; [reflexivity|]. cbn [one_of]. now rewrite Hr.
  - cbn [forallb] in Hw. apply andb_true_iff in Hw as [H1 H2]. cbn [app repeat0_fuel one_of].
    rewrite H1. rewrite IH; auto. cbn in Hn. lia.
Qed.

Definition not_item (r : text) : Prop :=
  match r with [] => True | c :: _ => c = 44 \/ c = 93 end.

Lemma view_item_reads w r : ~ In 44 w -> ~ In 93 w -> not_item r ->
  p_view_item (w ++ r) = ROk (trim w) r.
Proof.
  intros H1 H2 Hr. unfold p_view_item, pmap, repeat0. rewrite repeat0_one_of; auto.
  - rewrite app_length. lia.
  - apply forallb_forall. intros c Hc. apply negb_true_iff, orb_false_iff.
    split; apply N.eqb_neq; intros ->; auto.
  - destruct r as [|c r]; auto. cbn in Hr. destruct Hr as [-> | ->]; reflexivity.
Qed.

(** The printed items with the blanks that follow commas. *)
Definition item_texts (l : list text) : list (text * text) :=
  match l with
  | [] => []
  | x :: l' => (x, x) :: map (fun y => (32 :: y, y)) l'
  end.

Lemma item_texts_join l : join (lit ", ") l = join (lit ",") (map fst (item_texts l)).
Proof.
  destruct l as [|x l]; [reflexivity|]. cbn [item_texts]. revert x.
  induction l as [|y l IH]; intro x; [reflexivity|]. rewrite (join_cons (lit ", ")) by discriminate.
  cbn [map fst]. rewrite (join_cons (lit ",")) by discriminate. f_equal.
  rewrite (IH y). cbn [map fst]. change (lit ", ") with (lit "," ++ [32]). rewrite <- app_assoc. f_equal.
  destruct (map fst (map (fun z => (32 :: z, z)) l)) eqn:E.
  - destruct l; [reflexivity|discriminate].
  - rewrite !join_cons by discriminate. reflexivity.
Qed.

Lemma item_texts_snd l : map snd (item_texts l) = l.
Proof. destruct l as [|x l]; [reflexivity|]. cbn [item_texts map snd]. rewrite map_map. cbn [snd]. now rewrite map_id. Qed.

Lemma items_step {B} l (f : list text -> parser B) s :
  Forall item_ok l -> bind p_view_items f (lit "[" ++ join (lit ", ") l ++ lit "]" ++ s) = f l s.
Proof.
  intro H. apply bind_step. unfold p_view_items. rewrite tag_step.
  destruct l as [|x l].
  - cbn [join app]. rewrite (bind_step _ _ _ [[]] (lit "]" ++ s)).
    + now rewrite tag_step.
    + pose proof (separated_reads p_view_item [([], [])] (lit "]" ++ s)) as E. cbn [map fst snd join app] in E.
      apply E; auto.
      * discriminate.
      * repeat constructor. intros r Hr. cbn [fst snd].
        apply (view_item_reads [] r); auto. destruct Hr as [[y ->]| ->]; cbn; auto.
  - rewrite item_texts_join. rewrite (bind_step _ _ _ (x :: l) (lit "]" ++ s)).
    + rewrite tag_step. unfold ret. f_equal. clear f. induction H as [|y m Hy Hm IH]; auto. cbn [filter].
      destruct Hy as (_ & _ & c & r & d & -> & _). cbn [is_empty negb]. now f_equal.
    + rewrite <- (item_texts_snd (x :: l)) at 2. apply separated_reads; auto.
      * discriminate.
      * apply Forall_forall. intros p Hp r Hr.
        assert (Hni : not_item r) by (destruct Hr as [[y ->]| ->]; cbn; auto).
        rewrite Forall_forall in H. destruct Hp as [<-|Hp].
        -- cbn [fst snd]. rewrite view_item_reads; [now rewrite trim_item by (apply H; now left)| | |];
             auto; apply (H x (or_introl eq_refl)).
        -- apply in_map_iff in Hp as (y & <- & Hy). cbn [fst snd].
           specialize (H y (or_intror Hy)). rewrite view_item_reads; auto.
           ++ rewrite trim_blank. now rewrite trim_item.
           ++ intros [E|E]; [discriminate|]. now apply H in E.
           ++ intros [E|E]; [discriminate|]. now apply (proj1 (proj2 H)) in E.
Qed.

Lemma ident_no_gap v n s : Forall (ident_char v) n -> no_gap s -> no_gap (n ++ s).
Proof.
  intros H Hs. destruct H as [|c n Hc H]; auto. cbn [app]. unfold ident_char in Hc.
  apply no_gap_char; [unfold blank|]; lia.
Qed.

Lemma view_reads v d s :
  view_ok v d -> no_gap s -> p_view v (d_view d ++ s) = ROk d s.
Proof.
  intros [Hn Hi] Hs. unfold p_view, d_view. rewrite ws_step. rewrite <- !app_assoc.
  change (lit " [") with ([32] ++ lit "["). rewrite <- !app_assoc.
  destruct (vd_name d) as [|c n] eqn:En.
  - rewrite (app_nil_l (A := N)). rewrite (skip_gap_stop [32]).
    2:{ apply gap_one. unfold blank. auto. }
    2:{ cbn [app]. apply no_gap_char; [unfold blank; cbv; lia|cbv; lia]. }
    rewrite (bind_step _ _ _ [] (lit "[" ++ join (lit ", ") (vd_items d) ++ lit "]" ++ s)).
    + rewrite ws_step, skip_no_gap by (cbn [app]; apply no_gap_char; [unfold blank; cbv; lia|cbv; lia]).
      rewrite items_step, ws_step by auto. rewrite skip_no_gap by auto. rewrite <- En. now destruct d.
    + unfold p_ident, take_while0. cbn [app]. reflexivity.
  - rewrite skip_no_gap.
    2:{ inversion Hn; subst. cbn [app]. unfold ident_char in H1. apply no_gap_char; [unfold blank|]; lia. }
    rewrite (bind_step _ _ _ (c :: n) ([32] ++ lit "[" ++ join (lit ", ") (vd_items d) ++ lit "]" ++ s)).
    + rewrite ws_step, skip_gap_stop.
      2:{ apply gap_one. unfold blank. auto. }
      2:{ cbn [app]. apply no_gap_char; [unfold blank; cbv; lia|cbv; lia]. }
      rewrite items_step, ws_step by auto. rewrite skip_no_gap by auto. rewrite <- En. now destruct d.
    + unfold p_ident, take_while0. rewrite span_app; [reflexivity| |].
      * apply forallb_forall. intros x Hx. apply is_ident_iff. rewrite Forall_forall in Hn. auto.
      * cbn [app]. reflexivity.
Qed.

Lemma sur_view v d s : view_ok v d ->
  (exists x, s = lit "," ++ x) \/ (exists x, s = lit ")" ++ x) ->
  surrounded (bind (tag (lit "'")) (fun _ => bind (p_view v) (fun d => bind (tag (lit "'")) (fun _ => ret d))))
    (quoted (d_view d) ++ s) = ROk d s.
Proof.
  intros H Hs. rewrite surrounded_eq, skip_no_gap by apply no_gap_quoted.
  unfold quoted. rewrite <- !app_assoc. rewrite tag_step.
  rewrite (bind_step _ _ _ d (lit "'" ++ s)) by (apply view_reads; auto using no_gap_quote).
  rewrite tag_step. unfold ret. f_equal. apply skip_no_gap.
  destruct Hs as [[y ->]|[y ->]]; [apply no_gap_comma|apply no_gap_close].
Qed.

Lemma d_view_head v d : view_ok v d -> forall s, tag (lit "''") (quoted (d_view d) ++ s) = RBack.
Proof.
  intros [H _] s. unfold quoted, d_view. rewrite <- !app_assoc. cbn [app].
  destruct H as [|c n Hc H]; [reflexivity|]. cbn [app]. unfold ident_char in Hc.
  change (lit "''") with [39; 39]. change (lit "'") with [39]. cbn [app].
  unfold tag. cbn [strip_prefix]. rewrite N.eqb_refl.
  destruct (N.eqb_spec 39 c); [lia|reflexivity].
Qed.

Lemma views_step {B} v l (f : list view_def -> parser B) s :
  Forall (view_ok v) l -> bind (p_views v) f (lit "(" ++ d_views l ++ lit ")" ++ s) = f l s.
Proof.
  intro H. apply bind_step. unfold p_views. rewrite tag_step.
  destruct l as [|w l].
  - cbn [d_views]. rewrite (bind_step _ _ _ [] (lit ")" ++ s)).
    + now rewrite tag_step.
    + unfold alt, pmap. now rewrite tag_app.
  - rewrite (bind_step _ _ _ (w :: l) (lit ")" ++ s)).
    + now rewrite tag_step.
    + cbn [d_views]. unfold alt, pmap.
      assert (E1 : tag (lit "''") (join (lit ",") (map (fun d => quoted (d_view d)) (w :: l)) ++ lit ")" ++ s) = RBack).
      { inversion H; subst. cbn [map].
        destruct (map (fun d => quoted (d_view d)) l) eqn:Em.
        - cbn [join]. now apply d_view_head with v.
        - rewrite join_cons by discriminate. rewrite <- app_assoc. now apply d_view_head with v. }
      rewrite E1.
      pose proof (separated_reads (surrounded (bind (tag (lit "'")) (fun _ => bind (p_view v) (fun d => bind (tag (lit "'")) (fun _ => ret d)))))
        (map (fun x => (quoted (d_view x), x)) (w :: l)) (lit ")" ++ s)) as E.
      rewrite !map_map in E. cbn [fst snd] in E. rewrite map_id in E. apply E; auto.
      * discriminate.
      * apply Forall_forall. intros p Hp. apply in_map_iff in Hp as (x & <- & Hx).
        intros r Hr. cbn [fst snd]. apply sur_view; [|destruct Hr as [Hr| ->]; eauto].
        rewrite Forall_forall in H. auto.
Qed.

(** ** Time stamps *)

Definition eq_text (a b : text) : bool := if list_eq_dec N.eq_dec a b then true else false.

Lemma pad2 n : n <= 99 -> pad 2 n = two n.
Proof.
  intro H. assert (E : forallb (fun k => eq_text (pad 2 (N.of_nat k)) (two (N.of_nat k))) (seq 0 100) = true)
    by (vm_compute; reflexivity).
  rewrite forallb_forall in E. specialize (E (N.to_nat n)). rewrite N2Nat.id in E.
  unfold eq_text in E. destruct (list_eq_dec N.eq_dec (pad 2 n) (two n)); auto.
  discriminate E. apply in_seq. lia.
Qed.

Lemma pad4 n : n <= 9999 -> pad 4 n = two (n / 100) ++ two (n mod 100).
Proof.
  intro H.
  assert (E : forallb (fun k => forallb (fun j => let n := N.of_nat k * 100 + N.of_nat j in
      eq_text (pad 4 n) (two (n / 100) ++ two (n mod 100))) (seq 0 100)) (seq 0 100) = true)
    by (vm_compute; reflexivity).
  rewrite forallb_forall in E. assert (Hi : In (N.to_nat (n / 100)) (seq 0 100)) by (apply in_seq; lia).
  specialize (E _ Hi). rewrite forallb_forall in E. specialize (E (N.to_nat (n mod 100))).
  cbv zeta in E. rewrite !N2Nat.id in E. replace (n / 100 * 100 + n mod 100) with n in E by lia.
  unfold eq_text in E. destruct (list_eq_dec N.eq_dec (pad 4 n) (two (n / 100) ++ two (n mod 100))); auto.
  discriminate E. apply in_seq. lia.
Qed.

Lemma d_time_iso t : civil t -> d_time t = iso t.
Proof.
  intros (Hy & Hm & Hd & Hh & Hi & Hs & _). unfold d_time, iso, d_year.
  destruct (Z.ltb_spec (st_year t) 0); [lia|]. destruct (Z.ltb_spec 9999 (st_year t)); [lia|].
  replace (Z.abs_N (st_year t)) with (Z.to_N (st_year t)) by lia.
  rewrite pad4, !pad2 by lia. cbv zeta. now rewrite <- !app_assoc.
Qed.

Lemma two_plain n s : n <= 99 -> plain s -> plain (two n ++ s).
Proof. unfold plain, two. cbn [app In]. intros H Hs [E|[E|E]]; auto; lia. Qed.

Lemma iso_plain t : civil t -> plain (iso t).
Proof.
  intros (Hy & Hm & Hd & Hh & Hi & Hs & _). unfold iso. cbv zeta.
  assert (Hl : forall c s, c <> 39 -> plain s -> plain ([c] ++ s)).
  { unfold plain. cbn [app In]. intros c s Hc Hp [E|E]; auto. }
  change (lit "-") with [45]. change (lit "T") with [84]. change (lit ":") with [58].
  repeat first [apply two_plain; [lia|] | apply Hl; [lia|]].
  intros [].
Qed.

Lemma time_step {B} v t (f : stamp -> parser B) s :
  civil t -> chrono_reads v t -> bind (p_time v) f (quoted (d_time t) ++ s) = f t s.
Proof.
  intros Hc [H1 H2]. apply bind_step. unfold p_time, pmap_unwrap. rewrite d_time_iso by auto.
  unfold quoted. rewrite <- !app_assoc. rewrite quote_word_app by now apply iso_plain.
  unfold time_from_string. now rewrite H1, H2.
Qed.

(** ** Headers *)

Lemma file_name_step {B} w (f : text -> parser B) s :
  plain w -> bind p_file_name f (quoted w ++ s) = f w s.
Proof.
  intro H. apply bind_step. unfold p_file_name, alt, pmap. unfold quoted. rewrite <- !app_assoc.
  change (tag (lit "$") (lit "'" ++ w ++ lit "'" ++ s)) with (@RBack unit).
  now apply quote_word_app.
Qed.

Lemma no_gap_words l s : no_gap (d_words l ++ s).
Proof. unfold d_words. rewrite <- app_assoc. apply no_gap_open. Qed.

Lemma no_gap_end s : no_gap (lit ");" ++ s).
Proof. cbn [app]. apply no_gap_char; [unfold blank; cbv; lia|cbv; lia]. Qed.

Lemma skip_nl s : no_gap s -> skip (nl ++ s) = s.
Proof. intro H. apply skip_gap_stop; auto. apply gap_one. unfold blank. auto. Qed.

Lemma details_step {B} v h (f : details -> parser B) s :
  header_ok v h ->
  bind (p_details v) f (lit "FILE_NAME(" ++ d_details h ++ lit ");" ++ s) =
  f (mk_details (h_name h) (h_time h) (h_authors h) (h_orgs h) (h_pre h) (h_sys h) (h_auth h)) (skip s).
Proof.
  intros (_ & Hn & Hc & Ht & Ha & Ho & Hp & Hs & Hu). apply bind_step.
  unfold p_details, d_details. change (lit "FILE_NAME(") with (lit "FILE_NAME" ++ lit "(").
  rewrite <- !app_assoc. rewrite open_step by reflexivity.
  rewrite skip_no_gap by apply no_gap_quoted. rewrite file_name_step by auto.
  rewrite comma_step, skip_no_gap by apply no_gap_quoted. rewrite time_step by auto.
  rewrite comma_step, skip_no_gap by apply no_gap_words. rewrite words_step by auto.
  rewrite comma_step, skip_no_gap by apply no_gap_words. rewrite words_step by auto.
  rewrite comma_step, skip_no_gap by apply no_gap_quoted. rewrite quote_step by auto.
  rewrite comma_step, skip_no_gap by apply no_gap_quoted. rewrite quote_step by auto.
  rewrite comma_step, skip_no_gap by apply no_gap_quoted. rewrite quote_step by auto.
  rewrite end_step. reflexivity.
Qed.

Lemma description_step {B} v l (f : list view_def -> parser B) s :
  Forall (view_ok v) l ->
  bind (p_description v) f (lit "FILE_DESCRIPTION(" ++ d_description l ++ lit ");" ++ s) = f l (skip s).
Proof.
  intro H. apply bind_step. unfold p_description, d_description.
  change (lit "FILE_DESCRIPTION(") with (lit "FILE_DESCRIPTION" ++ lit "(").
  rewrite <- !app_assoc. rewrite open_step by reflexivity. rewrite skip_no_gap by apply no_gap_open.
  rewrite views_step by auto. rewrite comma_step, skip_no_gap by apply no_gap_quoted.
  rewrite (bind_step p_level _ _ tt (lit ");" ++ s)).
  2:{ unfold p_level, quoted. rewrite <- !app_assoc. rewrite tag_step.
      rewrite (bind_step _ _ _ tt (lit "'" ++ lit ");" ++ s)).
      - now rewrite tag_app.
      - rewrite sur_tag by reflexivity. now rewrite skip_no_gap by apply no_gap_quote. }
  rewrite end_step. reflexivity.
Qed.

Lemma schema_step {B} l (f : list schema -> parser B) s :
  bind p_schema f (lit "FILE_SCHEMA(" ++ d_schemas l ++ lit ");" ++ s) = f l (skip s).
Proof.
  apply bind_step. unfold p_schema. change (lit "FILE_SCHEMA(") with (lit "FILE_SCHEMA" ++ lit "(").
  rewrite <- !app_assoc. rewrite open_step by reflexivity.
  rewrite skip_no_gap by (unfold d_schemas; rewrite <- app_assoc; apply no_gap_open).
  rewrite schemas_step, end_step. reflexivity.
Qed.

Lemma p_header_reads v h g0 s :
  header_ok v h -> gap g0 -> p_header v (g0 ++ d_header h ++ s) = ROk h (skip s).
Proof.
  intros Hh Hg. unfold p_header, d_header. rewrite ws_step. rewrite <- !app_assoc.
  rewrite skip_gap_stop by (auto; apply starts_no_gap; reflexivity).
  rewrite (bind_step p_version _ _ tt
    (lit "HEADER;" ++ nl ++ lit "FILE_DESCRIPTION(" ++ d_description (h_views h) ++ lit ");" ++ nl ++
     lit "FILE_NAME(" ++ d_details h ++ lit ");" ++ nl ++
     lit "FILE_SCHEMA(" ++ d_schemas (h_schemas h) ++ lit ");" ++ nl ++ lit "ENDSEC;" ++ nl ++ s)).
  2:{ unfold p_version. rewrite ws_step, skip_no_gap by (apply starts_no_gap; reflexivity).
      rewrite !tag_step, ws_skip. rewrite skip_nl; [reflexivity|]. apply starts_no_gap. reflexivity. }
  rewrite (bind_step (surrounded (tag (lit "HEADER;"))) _ _ tt _ (sur_tag (lit "HEADER;") _ eq_refl)).
  rewrite skip_nl by (apply starts_no_gap; reflexivity).
  rewrite description_step by apply Hh. rewrite ws_step, !skip_idem.
  rewrite skip_nl by (apply starts_no_gap; reflexivity).
  rewrite details_step by auto. rewrite ws_step, !skip_idem.
  rewrite skip_nl by (apply starts_no_gap; reflexivity).
  rewrite schema_step. rewrite skip_nl by (apply starts_no_gap; reflexivity).
  rewrite (bind_step (surrounded (tag (lit "ENDSEC;"))) _ _ tt _ (sur_tag (lit "ENDSEC;") _ eq_refl)).
  cbn [f_name f_time f_authors f_orgs f_pre f_sys f_auth]. unfold ret. f_equal.
  - now destruct h.
  - apply skip_gap. apply gap_one. unfold blank. auto.
Qed.

(** ** Footer *)

Lemma p_footer_reads g1 g2 : gap g1 -> gap g2 ->
  p_footer (g1 ++ lit "END-" ++ lit "ISO-10303-21" ++ lit ";" ++ g2) = ROk tt [].
Proof.
  intros H1 H2. unfold p_footer. rewrite ws_step.
  rewrite skip_gap_stop by (auto; apply starts_no_gap; reflexivity).
  assert (E : skip g2 = []).
  { rewrite <- (app_nil_r g2). now apply skip_gap_stop. }
  rewrite (bind_step _ _ _ tt []).
  - rewrite ws_skip. reflexivity.
  - rewrite ws_step, skip_no_gap by (apply starts_no_gap; reflexivity).
    rewrite !tag_step. rewrite ws_skip. now rewrite E.
Qed.
