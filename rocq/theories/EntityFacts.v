(** Facts about reading and printing entities. *)

From Coq Require Import String Ascii List NArith ZArith Bool Lia ZifyBool ZifyNat ZifyN.
From Verif Require Import Base Prims BaseFacts Spec PrimsFacts StringFacts Guid GuidFacts
  Float RoundFacts FloatFacts Kind Types Layout WellTyped Schema Entity EntitySpec
  TypesFacts TypesFacts2.
Import ListNotations.
Open Scope N_scope.

(** ** The tables are sensible *)

Definition kind_row_ok (k : kind) : bool :=
  match row_of k with Some r => row_ok r | None => kind_eqb k KDummy end.

Lemma all_rows_ok : forall k r, row_of k = Some r -> row_ok r = true.
Proof.
  assert (H : forall k, kind_row_ok k = true) by (intros []; vm_compute; reflexivity).
  intros k r E. specialize (H k). unfold kind_row_ok in H. now rewrite E in H.
Qed.

Lemma row_ok_inv r : row_ok r = true ->
  keywords_ok (row_kws r) = true /\ closer_ok (row_closer r) = true /\
  forallb ty_ok (row_fields r) = true /\ row_fields r <> [].
Proof.
  unfold row_ok. rewrite !andb_true_iff. intros [[[H1 H2] H3] H4]. repeat split; auto.
  now destruct (row_fields r).
Qed.

Lemma kind_eqb_eq a b : kind_eqb a b = true <-> a = b.
Proof.
  unfold kind_eqb. rewrite N.eqb_eq. split; [|now intros ->].
  destruct a; destruct b; intro H; try reflexivity; discriminate H.
Qed.

Lemma all_kinds_complete k : k <> KDummy -> In k all_kinds.
Proof.
  intro H. assert (E : existsb (kind_eqb k) all_kinds = true) by (destruct k; try reflexivity; congruence).
  apply existsb_exists in E as (k' & Hin & E). apply kind_eqb_eq in E. now subst.
Qed.

(** ** Dispatch *)

Definition kws (k : kind) : list text :=
  match row_of k with Some r => row_kws r | None => [] end.

Definition disjoint_kws (a b : kind) : bool :=
  forallb (fun x => forallb (incomparable x) (kws b)) (kws a).

(** The two pairs of kinds with the same keyword. *)
Definition same_keyword (a b : kind) : bool :=
  (kind_eqb a KDirection2D && kind_eqb b KDirection3D) ||
  (kind_eqb a KPoint2D && kind_eqb b KPoint3D).

Fixpoint before (k : kind) (l : list kind) : list kind :=
  match l with
  | [] => []
  | x :: l' => if kind_eqb x k then [] else x :: before k l'
  end.

Lemma dispatch_check :
  forallb (fun k => forallb (fun k' => disjoint_kws k' k || same_keyword k' k) (before k all_kinds))
    all_kinds = true.
Proof. vm_compute. reflexivity. Qed.

Lemma alts_first {A} (f : kind -> parser A) l k s :
  In k l -> (forall k', In k' (before k l) -> f k' s = RBack) -> f k s <> RBack ->
  alts (map f l) s = f k s.
Proof.
  intros Hin Hb Hk. induction l as [|x l IH]; [contradiction|]. cbn [map alts before] in *.
  unfold alt. destruct (kind_eqb x k) eqn:E.
  - apply kind_eqb_eq in E. subst x. now destruct (f k s).
  - rewrite Hb by now left. apply IH.
    + destruct Hin as [->|Hin]; auto. assert (kind_eqb k k = true) by now apply kind_eqb_eq. congruence.
    + intros k' Hk'. apply Hb. now right.
Qed.

Lemma p_keyword_miss ws kws kw s :
  starts_ok kw = true -> forallb (fun x => incomparable x kw) kws = true ->
  p_keyword ws kws (kw ++ s) = RBack.
Proof.
  intros Hs H. unfold p_keyword. induction kws as [|k kws IH]; auto.
  cbn [forallb] in H. apply andb_true_iff in H as [H1 H2]. cbn [map alts]. unfold alt.
  assert (E : (if ws then surrounded (tag k) else tag k) (kw ++ s) = RBack).
  { destruct ws.
    - rewrite surrounded_eq, skip_no_gap by (now apply starts_no_gap).
      now rewrite incomparable_back.
    - now apply incomparable_back. }
  rewrite E. auto.
Qed.

Lemma lay_entity_keyword k l txt :
  lay_entity k l txt -> exists kw t, In kw (kws k) /\ txt = kw ++ t /\ starts_ok kw = true.
Proof.
  intros (r & Hr & H). unfold kws. rewrite Hr.
  pose proof (row_ok_inv r (all_rows_ok k r Hr)) as (Hk & _).
  inversion H; subst. eexists _, _. split; [eassumption|]. split; [reflexivity|].
  eapply keyword_facts; eauto.
Qed.

Lemma p_kind_miss k' k l txt rest :
  disjoint_kws k' k = true -> lay_entity k l txt -> p_kind k' (txt ++ rest) = RBack.
Proof.
  intros Hd Hl. apply lay_entity_keyword in Hl as (kw & t & Hin & -> & Hs).
  unfold p_kind. unfold disjoint_kws, kws in Hd. destruct (row_of k') as [r'|]; [|reflexivity].
  unfold pmap, p_row, bind. rewrite <- app_assoc. rewrite p_keyword_miss; auto.
  rewrite forallb_forall in *. intros x Hx. specialize (Hd x Hx). rewrite forallb_forall in Hd. auto.
Qed.

Lemma p_vec2_on_vec3 x y z g1 g2 g3 g4 g5 g6 rest :
  f64_ok x -> f64_ok y -> gap g1 -> gap g2 -> gap g3 -> gap g4 ->
  p_vec2 (lit "(" ++ g1 ++ d_real x ++ g2 ++ lit "," ++ g3 ++ d_real y ++ g4 ++ lit "," ++
          g5 ++ d_real z ++ g6 ++ lit ")" ++ rest) = RBack.
Proof.
  intros Hx Hy H1 H2 H3 H4. unfold p_vec2, bind.
  rewrite p_open_gap by (auto; apply starts_no_gap; now apply d_real_starts).
  rewrite p_real_show by (auto; apply stop_gap; auto; apply stop_comma).
  rewrite p_comma_gap by (auto; apply starts_no_gap; now apply d_real_starts).
  rewrite p_real_show by (auto; apply stop_gap; auto; apply stop_comma).
  rewrite surrounded_eq, skip_gap_stop by (auto using no_gap_comma). reflexivity.
Qed.

Lemma p_kind_same k' k l txt rest :
  same_keyword k' k = true -> wf_ent k l -> lay_entity k l txt -> p_kind k' (txt ++ rest) = RBack.
Proof.
  intros Hs (r & Hr & Hw) (r' & Hr' & Hl). rewrite Hr in Hr'. injection Hr' as <-.
  assert (Hgen : forall kw, row_kws r = [kw] -> row_ws r = false -> row_fields r = [TVec3] ->
            exists x y z g1 g2 g3 g4 g5 g6, f64_ok x /\ f64_ok y /\ gap g1 /\ gap g2 /\ gap g3 /\ gap g4 /\
              txt = kw ++ (lit "(" ++ g1 ++ d_real x ++ g2 ++ lit "," ++ g3 ++ d_real y ++ g4 ++
                    lit "," ++ g5 ++ d_real z ++ g6 ++ lit ")") ++ row_closer r).
  { intros kw E1 E2 E3. rewrite E1, E2, E3 in *.
    inversion Hl as [? ? ? ? ? kw' h1 t h2 Hin G1 G2 Hws Ha]; subst.
    destruct Hin as [<-|[]]. destruct (Hws eq_refl) as [-> ->].
    inversion Ha as [? v ? Hv|? ? ? ? ? ? ? ? ? ? ? Hbad]; subst; [|inversion Hbad].
    cbn [wts] in Hw. rewrite andb_true_r in Hw.
    inversion Hv as [? ? Hat| |x y z g1 g2 g3 g4 g5 g6| | | | | |]; subst; [discriminate|].
    cbn [wt] in Hw. rewrite !andb_true_iff, !f64_okb_ok in Hw.
    exists x, y, z, g1, g2, g3, g4, g5, g6. cbn [app]. tauto. }
  unfold same_keyword in Hs. apply orb_true_iff in Hs as [Hs|Hs]; apply andb_true_iff in Hs as [H1 H2];
    apply kind_eqb_eq in H1, H2; subst k k'; cbn [row_of] in Hr; injection Hr as <-.
  - destruct (Hgen _ eq_refl eq_refl eq_refl) as (x & y & z & g1 & g2 & g3 & g4 & g5 & g6 & Hx & Hy & G1 & G2 & G3 & G4 & ->).
    rewrite <- !app_assoc. unfold p_kind. cbn [row_of]. unfold row_Direction2D. cbn [row_kws row_ws row_fields row_closer map p_ty].
    unfold pmap at 1, p_row, bind at 1. rewrite (p_keyword_show false [lit "IFCDIRECTION("]) by (auto; now left).
    unfold bind at 1. cbn [p_attrs]. unfold pmap at 1 2. now rewrite p_vec2_on_vec3.
  - destruct (Hgen _ eq_refl eq_refl eq_refl) as (x & y & z & g1 & g2 & g3 & g4 & g5 & g6 & Hx & Hy & G1 & G2 & G3 & G4 & ->).
    rewrite <- !app_assoc. unfold p_kind. cbn [row_of]. unfold row_Point2D. cbn [row_kws row_ws row_fields row_closer map p_ty].
    unfold pmap at 1, p_row, bind at 1. rewrite (p_keyword_show false [lit "IFCCARTESIANPOINT("]) by (auto; now left).
    unfold bind at 1. cbn [p_attrs]. unfold pmap at 1 2. now rewrite p_vec2_on_vec3.
Qed.

(** Every layout of an entity is read by its kind. *)
Lemma p_kind_reads k l txt rest :
  wf_ent k l -> lay_entity k l txt ->
  exists r, p_kind k (txt ++ rest) = ROk (Ent k (map normv l)) r /\ (r = rest \/ r = skip rest).
Proof.
  intros (r & Hr & Hw) (r' & Hr' & Hl). rewrite Hr in Hr'. injection Hr' as <-.
  destruct (row_ok_inv r (all_rows_ok k r Hr)) as (H1 & H2 & H3 & _).
  destruct (lay_row_reads _ _ _ _ _ _ H1 H2 H3 Hw Hl) as [H _].
  unfold p_kind, pmap. rewrite Hr, H. eexists. split; [reflexivity|]. destruct (row_ws r); auto.
Qed.

(** ... and by no kind tried before. *)
Lemma p_kind_before k k' l txt rest :
  wf_ent k l -> lay_entity k l txt -> In k' (before k all_kinds) -> p_kind k' (txt ++ rest) = RBack.
Proof.
  intros Hw Hl Hin.
  assert (Hk : In k all_kinds).
  { apply all_kinds_complete. intros ->. destruct Hw as (r & E & _). discriminate. }
  pose proof dispatch_check as H. rewrite forallb_forall in H. specialize (H k Hk).
  rewrite forallb_forall in H. specialize (H k' Hin). apply orb_true_iff in H as [H|H].
  - eapply p_kind_miss; eauto.
  - eapply p_kind_same; eauto.
Qed.

Lemma p_known_reads k l txt rest :
  wf_ent k l -> lay_entity k l txt ->
  exists r, p_known (txt ++ rest) = ROk (Ent k (map normv l)) r /\ (r = rest \/ r = skip rest).
Proof.
  intros Hw Hl. destruct (p_kind_reads k l txt rest Hw Hl) as (r & E & Hr).
  exists r. split; auto. unfold p_known. rewrite (alts_first p_kind all_kinds k); auto.
  - apply all_kinds_complete. intros ->. destruct Hw as (q & E' & _). discriminate.
  - intros k' Hk'. eapply p_kind_before; eauto.
  - rewrite E. discriminate.
Qed.

Lemma lay_entity_starts k l txt : lay_entity k l txt -> starts_ok txt = true.
Proof. intro H. apply lay_entity_keyword in H as (kw & t & _ & -> & H). now apply starts_app. Qed.

Lemma p_obj_reads k l txt g1 g2 rest :
  wf_ent k l -> lay_entity k l txt -> gap g1 -> gap g2 -> no_gap rest ->
  p_obj (g1 ++ txt ++ g2 ++ rest) = ROk (Ent k (map normv l)) rest.
Proof.
  intros Hw Hl H1 H2 Hr. unfold p_obj. rewrite surrounded_eq.
  rewrite skip_gap_stop; auto.
  2:{ apply starts_no_gap. now apply lay_entity_starts in Hl. }
  destruct (p_known_reads k l txt (g2 ++ rest) Hw Hl) as (r & E & Hr').
  unfold alt. rewrite E. f_equal.
  assert (Hs : skip (g2 ++ rest) = rest) by now apply skip_gap_stop.
  destruct Hr' as [-> | ->]; auto. now rewrite skip_idem.
Qed.

(** ** Unknown entities *)

Lemma p_dummy_reads s rest :
  ends_at s -> p_dummy (s ++ lit ";" ++ rest) = ROk s (skip rest).
Proof.
  unfold p_dummy, pmap. intro H.
  assert (E : repeat_till any (surrounded (tag (lit ";"))) (s ++ lit ";" ++ rest) = ROk (s, tt) (skip rest)).
  { induction s as [|c s IH]; rewrite repeat_till_eq by apply consuming_any.
    - cbn [app]. rewrite surrounded_eq. rewrite skip_no_gap by (apply no_gap_char; unfold blank; cbv; lia).
      now rewrite tag_app.
    - rewrite surrounded_eq.
      destruct (skip_spec ((c :: s) ++ lit ";" ++ rest)) as (g & Hg & Hgap & _).
      destruct (tag_cases (lit ";") (skip ((c :: s) ++ lit ";" ++ rest))) as [(r & Er & _)|Er].
      + exfalso. rewrite Er in Hg. apply (H [] (c :: s) g r rest); auto. discriminate.
      + rewrite Er. cbn [app any]. cbn [app] in IH. rewrite IH.
        * reflexivity.
        * intros a b g' r' rest' Ea Hb Hg'. apply (H (c :: a) b g' r' rest'); auto. cbn. now f_equal. }
  rewrite E. reflexivity.
Qed.

Lemma keyword_no_semicolon k r kw : row_of k = Some r -> In kw (row_kws r) -> ~ In 59 kw.
Proof.
  assert (H : forall k, forallb (fun kw => negb (existsb (N.eqb 59) kw)) (kws k) = true)
    by (intros []; vm_compute; reflexivity).
  intros Hr Hin Hc. specialize (H k). unfold kws in H. rewrite Hr, forallb_forall in H.
  specialize (H kw Hin). apply negb_true_iff in H. rewrite <- not_true_iff_false in H. apply H.
  apply existsb_exists. exists 59. auto.
Qed.

Lemma unknown_app s rest kw k r t :
  unknown s -> row_of k = Some r -> In kw (row_kws r) -> s ++ lit ";" ++ rest <> kw ++ t.
Proof.
  intros Hu Hr Hin E. apply app_eq_app in E as (q & [[E1 E2]|[E1 E2]]).
  - eapply Hu; eauto.
  - destruct q as [|c q].
    + rewrite app_nil_r in E1. apply (Hu k r kw [] Hr Hin). now rewrite app_nil_r.
    + change (lit ";") with [59] in E2. cbn in E2. injection E2 as <- _.
      apply (keyword_no_semicolon k r kw Hr Hin). rewrite E1. apply in_or_app. right. now left.
Qed.

Lemma p_kind_unknown k s rest :
  (forall rest, no_gap (s ++ lit ";" ++ rest)) -> unknown s ->
  p_kind k (s ++ lit ";" ++ rest) = RBack.
Proof.
  intros Hn Hu. unfold p_kind. destruct (row_of k) as [r|] eqn:Hr; [|reflexivity].
  unfold pmap, p_row, bind, p_keyword.
  assert (Ek : forall kws, incl kws (row_kws r) ->
    alts (map (fun k0 => if row_ws r then surrounded (tag k0) else tag k0) kws)
      (s ++ lit ";" ++ rest) = RBack).
  { induction kws0 as [|kw ks IHk]; intro Hi; [reflexivity|]. cbn [map alts]. unfold alt.
    assert (Et : tag kw (s ++ lit ";" ++ rest) = RBack).
    { apply tag_back. intros [t E]. eapply unknown_app; eauto. apply Hi. now left. }
    assert (Es : (if row_ws r then surrounded (tag kw) else tag kw) (s ++ lit ";" ++ rest) = RBack).
    { destruct (row_ws r); auto. rewrite surrounded_eq, skip_no_gap by apply Hn. now rewrite Et. }
    rewrite Es. apply IHk. intros x Hx. apply Hi. now right. }
  rewrite Ek; auto. apply incl_refl.
Qed.

Lemma p_known_rejected s rest :
  (forall k, p_kind k (s ++ lit ";" ++ rest) = RBack) -> p_known (s ++ lit ";" ++ rest) = RBack.
Proof.
  intro H. unfold p_known. induction all_kinds as [|k l IH]; [reflexivity|].
  cbn [map alts]. unfold alt. now rewrite H.
Qed.

Lemma p_known_unknown s rest :
  (forall rest, no_gap (s ++ lit ";" ++ rest)) -> unknown s ->
  p_known (s ++ lit ";" ++ rest) = RBack.
Proof. intros Hn Hu. apply p_known_rejected. intro k. now apply p_kind_unknown. Qed.

Lemma p_obj_rejected s g1 g2 rest :
  (forall rest, no_gap (s ++ lit ";" ++ rest)) -> ends_at s ->
  (forall k rest, p_kind k (s ++ lit ";" ++ rest) = RBack) ->
  gap g1 -> gap g2 -> no_gap rest ->
  p_obj (g1 ++ s ++ lit ";" ++ g2 ++ rest) = ROk (EDummy s) rest.
Proof.
  intros Hn He Hu H1 H2 Hr. unfold p_obj. rewrite surrounded_eq.
  rewrite skip_gap_stop by auto. unfold alt. rewrite p_known_rejected by auto.
  unfold pmap. rewrite p_dummy_reads by auto. f_equal. rewrite skip_idem. now apply skip_gap_stop.
Qed.

Lemma p_obj_dummy s g1 g2 rest :
  opaque s -> gap g1 -> gap g2 -> no_gap rest ->
  p_obj (g1 ++ s ++ lit ";" ++ g2 ++ rest) = ROk (EDummy s) rest.
Proof.
  intros (Hn & He & Hu) H1 H2 Hr. apply p_obj_rejected; auto. intros k r. now apply p_kind_unknown.
Qed.

Lemma simple_body_opaque s : simple_body s -> unknown s -> opaque s.
Proof.
  intros (Hh & Hl & Hs & Hc) Hu. split; [|split]; auto.
  - intro rest. destruct s as [|c s]; [contradiction|]. cbn [app]. apply no_gap_char; tauto.
  - intros a b g r rest E Hb Hg Heq. subst s.
    assert (Hs' : ~ In 59 b) by (intro; apply Hs; apply in_or_app; now right).
    assert (Hc' : ~ occurs (lit "/*") b).
    { intros (x & y & ->). apply Hc. exists (a ++ x), y. now rewrite <- !app_assoc. }
    assert (Hl' : ~ blank (last b 0)).
    { replace (last b 0) with (last (a ++ b) 0); auto. destruct (exists_last Hb) as (b' & c & ->).
      now rewrite app_assoc, !last_last. }
    clear Hh Hl Hs Hc Hu a. revert b Hb Hs' Hc' Hl' Heq.
    induction Hg as [|c g Hc Hg IH|body g Hno Hg IH]; intros b Hb Hs Ho Hl Heq.
    + destruct b as [|d b]; [congruence|]. injection Heq as E _. apply Hs. left. exact E.
    + destruct b as [|d b]; [congruence|]. injection Heq as E Heq. subst d.
      destruct b as [|d b].
      * cbn [last] in Hl. contradiction.
      * eapply (IH (d :: b)); eauto.
        -- discriminate.
        -- intro. apply Hs. now right.
        -- intros (x & y & E). apply Ho. exists (c :: x), y. rewrite E. reflexivity.
    + destruct b as [|d b]; [congruence|]. change (lit "/*") with [47; 42] in *.
      cbn [app] in Heq. injection Heq as E Heq. subst d. destruct b as [|d b].
      * change (lit ";") with [59] in Heq. cbn in Heq. discriminate.
      * cbn [app] in Heq. injection Heq as E Heq. subst d. apply Ho. exists [], b. reflexivity.
Qed.

(** ** Printing *)

Lemma d_entity_lay k l : wf_ent k l -> lay_entity k l (d_entity (Ent k l)).
Proof.
  intros (r & Hr & Hw). exists r. split; auto. cbn [d_entity]. rewrite Hr.
  destruct (row_ok_inv r (all_rows_ok k r Hr)) as (H1 & H2 & H3 & H4).
  now apply d_row_lay.
Qed.

Lemma exact_norm t : forall v, wt t v = true -> exact_val v = true -> normv v = v.
Proof.
  assert (Hr : forall d, f64_okb d = true -> negb (is_scientific d) = true -> norm_real d = d).
  { intros d. rewrite f64_okb_ok, negb_true_iff. apply norm_real_plain. }
  assert (Hs : forall s, negb (existsb (N.eqb 92) s) = true -> translate_decode (translate_encode s) = s).
  { intros s H. apply decode_encode, no_backslash_no_lead. intro Hin. apply negb_true_iff in H.
    rewrite <- not_true_iff_false in H. apply H. apply existsb_exists. exists 92. auto. }
  induction t using fty_rect'; intros v Hwt He.
  15:{ destruct v; try reflexivity; rewrite wt_opt in Hwt by discriminate; auto. }
  all: destruct v as [| | | | | | |lv|i c| | |lv|lv]; try discriminate Hwt; cbn [norm_val];
    cbn [exact_val] in He; try reflexivity.
  - now rewrite Hs.
  - now rewrite Hr.
  - destruct lv as [|x [|y [|]]]; try discriminate Hwt. cbn [wt map forallb] in *.
    rewrite !andb_true_iff in *. now rewrite !Hr.
  - destruct lv as [|x [|y [|z [|]]]]; try discriminate Hwt. cbn [wt map forallb] in *.
    rewrite !andb_true_iff in *. now rewrite !Hr.
  - cbn [wt] in Hwt.
    destruct i as [|[|[|[|[|]]]]]; destruct c; try discriminate Hwt; cbn [norm_val measure_ok exact_val] in *;
      auto.
    + now rewrite Hs.
    + now rewrite Hr.
    + now rewrite Hs.
  - rewrite wt_ent in *. f_equal. revert lv Hwt He.
    induction H as [|t fs Ht Hfs IH]; intros [|v l] Hwt He; auto; try discriminate Hwt.
    cbn [map wts forallb] in *. rewrite !andb_true_iff in *. rewrite Ht by tauto. f_equal.
    now apply IH.
  - cbn [wt] in *. rewrite forallb_forall in *. f_equal.
    rewrite <- (map_id lv) at 2. apply map_ext_in. auto.
Qed.

Lemma exact_norms fs : forall l, wts fs l = true -> forallb exact_val l = true -> map normv l = l.
Proof.
  induction fs as [|t fs IH]; intros [|v l] H He; auto; try discriminate. cbn [wts map forallb] in *.
  apply andb_true_iff in H as [H1 H2]. apply andb_true_iff in He as [E1 E2].
  rewrite (exact_norm t) by auto. f_equal. now apply IH.
Qed.

Lemma exact_ent k l : wf_ent k l -> forallb exact_val l = true -> map normv l = l.
Proof. intros (r & _ & H). now apply exact_norms with (row_fields r). Qed.

(** ** What is read *)

Lemma p_kind_ok k s e r : p_kind k s = ROk e r -> exists l, e = Ent k l /\ wf_ent k l.
Proof.
  unfold p_kind. destruct (row_of k) as [row|] eqn:Hr; [|discriminate].
  intro H. apply pmap_ok in H as (l & H & ->). exists l. split; auto. exists row. split; auto.
  eapply p_row_wts; eauto.
Qed.

Lemma alts_ok {A} (ps : list (parser A)) s a r :
  alts ps s = ROk a r -> exists p, In p ps /\ p s = ROk a r.
Proof.
  induction ps as [|p ps IH]; [discriminate|]. cbn [alts]. intro H.
  apply alt_ok in H as [H|[_ H]].
  - exists p. split; auto. now left.
  - apply IH in H as (q & Hq & H). exists q. split; auto. now right.
Qed.

Lemma p_known_ok s e r : p_known s = ROk e r -> exists k l, e = Ent k l /\ wf_ent k l.
Proof.
  intro H. apply alts_ok in H as (p & Hp & H). apply in_map_iff in Hp as (k & <- & _).
  apply p_kind_ok in H as (l & -> & H). eauto.
Qed.

Lemma suffixing_kind k : suffixing (p_kind k).
Proof.
  unfold p_kind. destruct (row_of k); [|apply suffixing_fail].
  apply suffixing_pmap, suffixing_row, suffixing_tys.
Qed.
Lemma suffixing_known : suffixing p_known.
Proof.
  apply suffixing_alts, Forall_forall. intros p Hp. apply in_map_iff in Hp as (k & <- & _).
  apply suffixing_kind.
Qed.
Lemma suffixing_dummy : suffixing p_dummy.
Proof. unfold p_dummy. sfx. Qed.
Lemma suffixing_obj : suffixing p_obj.
Proof.
  unfold p_obj. apply suffixing_surrounded, suffixing_alt. apply suffixing_known.
  apply suffixing_pmap, suffixing_dummy.
Qed.

(** ** What an unknown entity is *)

Lemma p_dummy_ok s : forall w r, p_dummy s = ROk w r ->
  ~ In 59 w /\ exists g1 g2, gap g1 /\ gap g2 /\ no_gap r /\ s = w ++ g1 ++ lit ";" ++ g2 ++ r.
Proof.
  unfold p_dummy. intros w r H. apply pmap_ok in H as ([l u] & H & ->). cbn [fst].
  revert l u r H. induction s as [|c s IH]; intros l u r H;
    rewrite repeat_till_eq in H by apply consuming_any; rewrite surrounded_eq in H.
  - change (skip []) with (@nil N) in H. discriminate H.
  - destruct (skip_spec (c :: s)) as (g & Hg & Hgap & _).
    destruct (tag_cases (lit ";") (skip (c :: s))) as [(q & Eq & Et)|Et]; rewrite Et in H.
    + injection H as <- _ <-. split; [auto|].
      destruct (skip_spec q) as (g2 & E2 & Hg2 & Hn). exists g, g2. repeat split; auto.
      cbn [app]. rewrite Hg at 1. rewrite Eq. now rewrite <- E2.
    + cbn [any] in H. destruct (repeat_till any (surrounded (tag (lit ";"))) s) as [[l' b] r'| | |] eqn:E;
        try discriminate. injection H as <- <- <-. cbn [fst] in *.
      destruct (IH _ _ _ eq_refl) as (Hin & g1 & g2 & H1 & H2 & Hr & Es). split.
      * intros [E'|Hi]; auto. subst c.
        rewrite skip_no_gap in Et by (apply no_gap_char; unfold blank; lia).
        change (lit ";") with [59] in Et. discriminate Et.
      * exists g1, g2. repeat split; auto. cbn [app]. now rewrite Es at 1.
Qed.

Lemma p_obj_ok s e r : p_obj s = ROk e r ->
  (exists k l, e = Ent k l /\ wf_ent k l) \/
  (exists w g0 g1 g2, e = EDummy w /\ ~ In 59 w /\ gap g0 /\ gap g1 /\ gap g2 /\
     s = g0 ++ w ++ g1 ++ lit ";" ++ g2 ++ r).
Proof.
  unfold p_obj. rewrite surrounded_eq. destruct (skip_spec s) as (g0 & Hs & Hg0 & Hn).
  destruct (alt p_known (pmap EDummy p_dummy) (skip s)) as [e' r'| | |] eqn:E; try discriminate.
  intro H. injection H as <- <-. apply alt_ok in E as [E|[_ E]].
  - left. now apply p_known_ok in E.
  - right. apply pmap_ok in E as (w & E & ->).
    apply p_dummy_ok in E as (Hin & g1 & g2 & H1 & H2 & _ & E).
    destruct (skip_spec r') as (g3 & E3 & Hg3 & _).
    exists w, g0, g1, (g2 ++ g3). repeat split; auto.
    + now apply gap_app.
    + rewrite Hs at 1. rewrite E. rewrite <- !app_assoc. now rewrite <- E3.
Qed.

(** ** Deciding [unknown] *)

Definition unknownb (s : text) : bool :=
  forallb (fun k => forallb (fun kw => match strip_prefix kw s with None => true | _ => false end) (kws k))
    all_kinds.

Lemma unknownb_ok s : unknownb s = true -> unknown s.
Proof.
  intros H k r kw t Hr Hin E. unfold unknownb in H. rewrite forallb_forall in H.
  assert (Hk : In k all_kinds). { apply all_kinds_complete. intros ->. discriminate. }
  specialize (H k Hk). rewrite forallb_forall in H. unfold kws in H. rewrite Hr in H.
  specialize (H kw Hin). pose proof (tag_app kw t) as T. rewrite <- E in T. unfold tag in T.
  destruct (strip_prefix kw s); discriminate.
Qed.

Lemma p_obj_wf s k l r : p_obj s = ROk (Ent k l) r -> wf_ent k l.
Proof.
  intro H. apply p_obj_ok in H as [(k' & l' & E & H)|(w & ? & ? & ? & E & _)]; [|discriminate].
  injection E as -> ->. exact H.
Qed.

Lemma p_obj_dummy_inv s w r : p_obj s = ROk (EDummy w) r ->
  ~ In 59 w /\ exists g0 g1 g2, gap g0 /\ gap g1 /\ gap g2 /\ s = g0 ++ w ++ g1 ++ lit ";" ++ g2 ++ r.
Proof.
  intro H. apply p_obj_ok in H as [(k' & l' & E & H)|(w' & g0 & g1 & g2 & E & H)]; [discriminate|].
  injection E as <-. split; [tauto|]. exists g0, g1, g2. tauto.
Qed.

(** The kind of what is read in front is decided by the keyword. *)
Lemma p_known_kind k l txt rest k' :
  wf_ent k l -> lay_entity k l txt -> In k' (before k all_kinds) ->
  p_kind k' (txt ++ rest) = RBack.
Proof. apply p_kind_before. Qed.

Lemma wf_kind k l : wf_ent k l -> In k all_kinds.
Proof. intros (r & E & _). apply all_kinds_complete. intros ->. discriminate. Qed.

Lemma p_known_printed k l rest :
  wf_ent k l ->
  exists g r, gap g /\ rest = g ++ r /\
    p_known (d_entity (Ent k l) ++ rest) = ROk (Ent k (map normv l)) r.
Proof.
  intro Hw. destruct (p_known_reads k l _ rest Hw (d_entity_lay k l Hw)) as (r & E & [-> | ->]).
  - exists [], rest. repeat split; auto. constructor.
  - destruct (skip_spec rest) as (g & Eg & Hg & _). exists g, (skip rest). auto.
Qed.

Lemma lines_differ k l k' l' :
  wf_ent k l -> wf_ent k' l' -> d_entity (Ent k l) = d_entity (Ent k' l') -> k = k'.
Proof.
  intros Hw Hw' E.
  destruct (p_known_printed k l [] Hw) as (? & ? & _ & _ & H).
  destruct (p_known_printed k' l' [] Hw') as (? & ? & _ & _ & H').
  rewrite E, H' in H. now injection H.
Qed.
