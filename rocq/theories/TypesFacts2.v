(** Printing is one of the layouts; reading returns well-typed values; printing
    and reading twice is the same as once. *)

From Coq Require Import String Ascii List NArith ZArith Bool Lia ZifyBool ZifyNat ZifyN.
From Verif Require Import Base Prims BaseFacts Spec PrimsFacts StringFacts Guid GuidFacts
  Float RoundFacts FloatFacts Kind Types Layout WellTyped TypesFacts.
Import ListNotations.
Open Scope N_scope.

(** ** The printed text is a layout *)

Lemma d_ent k kws ws fs closer l :
  d_ty (TIdOr k kws ws fs closer) (VEnt l) = d_row kws (d_tys fs l) closer.
Proof. reflexivity. Qed.

Lemma d_opt t v : v <> VOmit -> v <> VInh -> d_ty (TOpt t) v = d_ty t v.
Proof. destruct v; cbn [d_ty]; congruence. Qed.

Lemma join_cons sep x l : l <> [] -> join sep (x :: l) = x ++ sep ++ join sep l.
Proof. destruct l; [congruence|reflexivity]. Qed.

Lemma d_attrs_lay fs l :
  Forall (fun t => forall v, ty_ok t = true -> wt t v = true -> lay t v (d_ty t v)) fs ->
  forallb ty_ok fs = true -> fs <> [] -> wts fs l = true ->
  lay_attrs fs l (d_attrs (d_tys fs l)).
Proof.
  intros H. revert l. induction H as [|t fs Ht Hfs IH]; intros l Hok Hne Hwt; [congruence|].
  destruct l as [|v l]; [discriminate|]. cbn [forallb wts] in *.
  apply andb_true_iff in Hok as [Hok Hok']. apply andb_true_iff in Hwt as [Hwt Hwt'].
  unfold d_attrs in *. cbn [d_tys]. destruct fs as [|t' fs].
  - destruct l; [|discriminate]. cbn [d_tys join]. constructor. auto.
  - rewrite join_cons.
    + apply (lay_attrs_cons t v (d_ty t v) [] [] (t' :: fs) l (join (lit ",") (d_tys (t' :: fs) l)));
        try solve [constructor]; auto. apply IH; auto. discriminate.
    + destruct l; [discriminate|]. discriminate.
Qed.

Lemma d_items_lay t l :
  (forall v, wt t v = true -> lay t v (d_ty t v)) -> forallb (wt t) l = true ->
  lay_items t l (join (lit ",") (map (d_ty t) l)).
Proof.
  intro H. induction l as [|v l IH]; intro Hwt; cbn [map]; [constructor|].
  cbn [forallb] in Hwt. apply andb_true_iff in Hwt as [Hwt Hwt']. destruct l as [|v' l].
  - cbn [map join]. rewrite <- (app_nil_r (d_ty t v)).
    apply (lay_items_cons t v (d_ty t v) [] [] [] [] []); try solve [constructor]; auto.
  - rewrite join_cons by (cbn; discriminate).
    apply (lay_items_cons t v (d_ty t v) [] (lit ",") [] (v' :: l)); try solve [constructor]; auto.
Qed.

Lemma d_ty_lay t : forall v, ty_ok t = true -> wt t v = true -> lay t v (d_ty t v).
Proof.
  induction t using fty_rect'; intros v Hok Hwt;
    try (apply lay_atom; reflexivity).
  - destruct v as [| | | | | | |[|x [|y [|]]]| | | | |]; try discriminate Hwt.
    apply (lay_vec2 x y [] [] [] []); constructor.
  - destruct v as [| | | | | | |[|x [|y [|z [|]]]]| | | | |]; try discriminate Hwt.
    apply (lay_vec3 x y z [] [] [] [] [] []); constructor.
  - destruct v; try discriminate Hwt; [apply lay_idor_id|].
    rewrite d_ent. rewrite wt_ent in Hwt. apply lay_idor_ent. cbn [ty_ok] in Hok.
    rewrite !andb_true_iff in Hok. destruct Hok as [[[Hk Hc] Hf] Hne]. unfold d_row.
    apply (lay_row_intro kws ws fs closer l (hd [] kws) [] (d_attrs (d_tys fs l)) []);
      try solve [constructor]; auto.
    + destruct kws; [|now left]. unfold keywords_ok in Hk. rewrite andb_false_r in Hk. discriminate.
    + apply d_attrs_lay; auto. destruct fs; [discriminate|discriminate].
  - cbn [ty_ok] in Hok. apply andb_true_iff in Hok as [_ Hok].
    destruct v; try solve [apply lay_omitted|apply lay_inherited]; rewrite d_opt by discriminate;
      rewrite wt_opt in Hwt by discriminate; apply lay_present; try discriminate; auto.
  - cbn [ty_ok] in Hok. apply andb_true_iff in Hok as [_ Hok].
    destruct v; try discriminate Hwt. cbn [wt d_ty] in *. unfold d_list. apply lay_list.
    apply d_items_lay; auto.
Qed.

Lemma d_row_lay kws ws fs closer l :
  keywords_ok kws = true -> forallb ty_ok fs = true -> fs <> [] -> wts fs l = true ->
  lay_row kws ws fs closer l (d_row kws (d_tys fs l) closer).
Proof.
  intros Hk Hf Hne Hwt. unfold d_row.
  apply (lay_row_intro kws ws fs closer l (hd [] kws) [] (d_attrs (d_tys fs l)) []);
    try solve [constructor]; auto.
  - destruct kws; [|now left]. unfold keywords_ok in Hk. rewrite andb_false_r in Hk. discriminate.
  - apply d_attrs_lay; auto. apply Forall_forall. intros t _ v. apply d_ty_lay.
Qed.

(** ** What is read is well-typed *)

Lemma pmap_ok {A B} (f : A -> B) p s b r :
  pmap f p s = ROk b r -> exists a, p s = ROk a r /\ b = f a.
Proof. unfold pmap. destruct (p s); try discriminate. intro H. injection H as <- <-. eauto. Qed.

Lemma bind_ok {A B} (p : parser A) (f : A -> parser B) s b r :
  bind p f s = ROk b r -> exists a r', p s = ROk a r' /\ f a r' = ROk b r.
Proof. unfold bind. destruct (p s); try discriminate. eauto. Qed.

Lemma alt_ok {A} (p q : parser A) s a r :
  alt p q s = ROk a r -> p s = ROk a r \/ (p s = RBack /\ q s = ROk a r).
Proof. unfold alt. destruct (p s); auto; discriminate. Qed.

Lemma p_string_ok s w r : p_string s = ROk w r -> text_ok w = true.
Proof.
  intro H. apply pmap_ok in H as (w' & H & ->). apply quote_word_inv in H as [_ H].
  apply text_ok_iff. now apply decode_apostrophe.
Qed.

Lemma p_measures_ok ns : forall i ps s v r,
  p_measures i ns ps s = ROk v r ->
  exists j w s' r', (j < length ps)%nat /\ nth j ps fail s' = ROk w r' /\ v = VMeasure (i + j) w.
Proof.
  induction ns as [|n ns IH]; intros i ps s v r H; [discriminate|].
  destruct ps as [|p ps]; [discriminate|]. cbn [p_measures] in H.
  apply alt_ok in H as [H|[_ H]].
  - unfold p_measure in H. apply bind_ok in H as (? & r1 & _ & H). apply bind_ok in H as (? & r2 & _ & H).
    apply bind_ok in H as (w & r3 & Hp & H). apply bind_ok in H as (? & r4 & _ & H).
    injection H as <- _. exists O, w, r2, r3. cbn [nth length]. rewrite Nat.add_0_r.
    split; [lia|]. auto.
  - apply IH in H as (j & w & s' & r' & Hj & H1 & ->). exists (S j), w, s', r'. cbn [nth length].
    split; [lia|]. split; auto. f_equal. lia.
Qed.

Lemma p_value_ok s v r : p_value s = ROk v r -> wt TValue v = true.
Proof.
  intro H. apply p_measures_ok in H as (j & w & s' & r' & Hj & H & ->). cbn [Nat.add wt].
  unfold measure_contents in *. cbn [length] in Hj.
  destruct j as [|[|[|[|[|j]]]]]; [..|lia]; cbn [nth] in H; apply pmap_ok in H as (a & H & ->);
    cbn [measure_ok]; auto.
  - now apply p_string_ok in H.
  - now apply f64_okb_ok, (p_real_ok s' a r').
  - now apply p_string_ok in H.
  - now apply f64_okb_ok, (p_real_ok s' a r').
Qed.

Lemma p_attrs_ok fs :
  Forall (fun t => forall s v r, p_ty t s = ROk v r -> wt t v = true) fs ->
  forall s l r, p_attrs (map p_ty fs) s = ROk l r -> wts fs l = true.
Proof.
  induction 1 as [|t fs Ht Hfs IH]; intros s l r H.
  - injection H as <- _. reflexivity.
  - cbn [map p_attrs] in H. destruct fs as [|t' fs].
    + apply pmap_ok in H as (v & H & ->). cbn [wts]. rewrite (Ht _ _ _ H). reflexivity.
    + cbn [map] in *. apply bind_ok in H as (v & r1 & Hv & H). apply bind_ok in H as (? & r2 & _ & H).
      apply bind_ok in H as (l' & r3 & Hl & H). injection H as <- _. cbn [wts].
      rewrite (Ht _ _ _ Hv). apply (IH _ _ _ Hl).
Qed.

Lemma p_row_ok kws ws fs closer s l r :
  Forall (fun t => forall s v r, p_ty t s = ROk v r -> wt t v = true) fs ->
  p_row kws ws (map p_ty fs) closer s = ROk l r -> wts fs l = true.
Proof.
  intros Hf H. unfold p_row in H. apply bind_ok in H as (? & r1 & _ & H).
  apply bind_ok in H as (l' & r2 & H & H'). apply bind_ok in H' as (? & r3 & _ & H').
  injection H' as <- _. eapply p_attrs_ok; eauto.
Qed.

Lemma p_ty_ok t : forall s v r, p_ty t s = ROk v r -> wt t v = true.
Proof.
  induction t using fty_rect'; intros s v r Hp; cbn [p_ty] in Hp;
    try (apply pmap_ok in Hp as (a & Hp & ->); cbn [wt]).
  - now apply p_string_ok in Hp.
  - now apply f64_okb_ok, (p_real_ok s a r).
  - apply dec_int_range in Hp. unfold in_range. lia.
  - apply dec_int_range in Hp. unfold in_range. lia.
  - reflexivity.
  - apply p_guid_inv in Hp as (w & _ & _ & _ & _ & Hp). now apply guid_ok_iff.
  - unfold p_timestamp, pmap_unwrap in Hp. destruct (p_int s) as [z r0| | |]; try discriminate.
    destruct (in_range ts_min ts_max z) eqn:E; [|discriminate]. injection Hp as <- _. now rewrite in_calendar_range.
  - apply p_enum_ok in Hp. now apply Nat.ltb_lt.
  - destruct a as [x y]. cbn [fst snd]. unfold p_vec2 in Hp.
    apply bind_ok in Hp as (? & r1 & _ & Hp). apply bind_ok in Hp as (x' & r2 & Hx & Hp).
    apply bind_ok in Hp as (? & r3 & _ & Hp). apply bind_ok in Hp as (y' & r4 & Hy & Hp).
    apply bind_ok in Hp as (? & r5 & _ & Hp). injection Hp as <- <- _.
    apply p_real_ok in Hx, Hy. apply andb_true_iff. split; now apply f64_okb_ok.
  - destruct a as [[x y] z]. cbn [fst snd]. unfold p_vec3 in Hp.
    apply bind_ok in Hp as (? & r1 & _ & Hp). apply bind_ok in Hp as (x' & r2 & Hx & Hp).
    apply bind_ok in Hp as (? & r3 & _ & Hp). apply bind_ok in Hp as (y' & r4 & Hy & Hp).
    apply bind_ok in Hp as (? & r5 & _ & Hp). apply bind_ok in Hp as (z' & r6 & Hz & Hp).
    apply bind_ok in Hp as (? & r7 & _ & Hp). injection Hp as <- <- <- _.
    apply p_real_ok in Hx, Hy, Hz. rewrite !andb_true_iff. repeat split; now apply f64_okb_ok.
  - eapply p_value_ok; eauto.
  - apply p_enum_ok in Hp. now apply Nat.ltb_lt.
  - apply p_id_range in Hp. now apply N.leb_le.
  - apply alt_ok in Hp as [Hp|[_ Hp]]; apply pmap_ok in Hp as (a & Hp & ->).
    + apply p_id_range in Hp. cbn [wt]. now apply N.leb_le.
    + rewrite wt_ent. eapply p_row_ok; eauto.
  - apply alt_ok in Hp as [Hp|[_ Hp]]; [apply pmap_ok in Hp as (a & _ & ->); reflexivity|].
    apply alt_ok in Hp as [Hp|[_ Hp]]; [apply pmap_ok in Hp as (a & _ & ->); reflexivity|].
    apply alt_ok in Hp as [Hp|[_ Hp]].
    + apply IHt in Hp. destruct v; auto.
    + destruct t; try discriminate Hp. apply pmap_ok in Hp as (a & _ & ->). reflexivity.
  - cbn [wt]. unfold p_list in Hp. apply bind_ok in Hp as (? & r1 & _ & Hp).
    apply pmap_ok in Hp as ([l u] & Hp & ->). cbn [fst]. apply forallb_forall.
    apply Forall_forall. eapply repeat_till_Forall; [|eassumption].
    intros s' v' r' H. cbv beta. apply bind_ok in H as (w & r2 & H & H').
    apply bind_ok in H' as (? & r3 & _ & H'). injection H' as <- _. eauto.
Qed.

Lemma p_row_wts kws ws fs closer s l r :
  p_row kws ws (map p_ty fs) closer s = ROk l r -> wts fs l = true.
Proof. apply p_row_ok, Forall_forall. intros t _ . apply p_ty_ok. Qed.

(** ** Printing and reading twice *)

Lemma norm_string_ok s : text_ok s = true -> text_ok (translate_decode (translate_encode s)) = true.
Proof. rewrite !text_ok_iff. intro H. apply decode_apostrophe. now rewrite encode_apostrophe. Qed.

Lemma norm_string_idem s :
  translate_decode (translate_encode (translate_decode (translate_encode s))) =
  translate_decode (translate_encode s).
Proof. now rewrite encode_stable. Qed.

Lemma wt_norm t : forall v, wt t v = true -> wt t (normv v) = true.
Proof.
  assert (Hr : forall d, f64_okb d = true -> f64_okb (norm_real d) = true).
  { intro d. rewrite !f64_okb_ok. apply norm_real_ok. }
  induction t using fty_rect'; intros v Hwt.
  15:{ destruct v; try exact Hwt; rewrite wt_opt in Hwt by discriminate;
       specialize (IHt _ Hwt); cbn [norm_val] in *; try exact IHt.
       destruct i as [|[|[|[|[|]]]]]; exact IHt. }
  all: destruct v as [| | | | | | |lv|i c| | |lv|lv]; try discriminate Hwt; cbn [norm_val];
    try exact Hwt.
  - now apply norm_string_ok.
  - now apply Hr.
  - destruct lv as [|x [|y [|]]]; try discriminate Hwt. cbn [wt map] in *.
    apply andb_true_iff in Hwt as [H1 H2]. now rewrite !Hr.
  - destruct lv as [|x [|y [|z [|]]]]; try discriminate Hwt. cbn [wt map] in *.
    rewrite !andb_true_iff in Hwt. destruct Hwt as [[H1 H2] H3]. now rewrite !Hr.
  - cbn [wt] in Hwt.
    destruct i as [|[|[|[|[|]]]]]; destruct c; try discriminate Hwt; cbn [norm_val wt measure_ok] in *;
      auto using norm_string_ok.
  - rewrite wt_ent in *. revert lv Hwt. induction H as [|t fs Ht Hfs IH]; intros [|v l] Hwt; auto.
    cbn [map wts] in *. apply andb_true_iff in Hwt as [H1 H2]. rewrite Ht by auto. now apply IH.
  - cbn [wt] in *. rewrite forallb_forall in *. intros v Hv. apply in_map_iff in Hv as (u & <- & Hu).
    auto.
Qed.

Lemma norm_idem t : forall v, wt t v = true -> normv (normv v) = normv v.
Proof.
  assert (Hr : forall d, f64_okb d = true -> norm_real (norm_real d) = norm_real d).
  { intro d. rewrite f64_okb_ok. apply norm_real_idem. }
  induction t using fty_rect'; intros v Hwt.
  15:{ destruct v; try reflexivity; rewrite wt_opt in Hwt by discriminate; auto. }
  all: destruct v as [| | | | | | |lv|i c| | |lv|lv]; try discriminate Hwt; cbn [norm_val];
    try reflexivity.
  - now rewrite norm_string_idem.
  - now rewrite Hr.
  - destruct lv as [|x [|y [|]]]; try discriminate Hwt. cbn [wt map] in *.
    apply andb_true_iff in Hwt as [H1 H2]. now rewrite !Hr.
  - destruct lv as [|x [|y [|z [|]]]]; try discriminate Hwt. cbn [wt map] in *.
    rewrite !andb_true_iff in Hwt. destruct Hwt as [[H1 H2] H3]. now rewrite !Hr.
  - cbn [wt] in Hwt.
    destruct i as [|[|[|[|[|]]]]]; destruct c; try discriminate Hwt; cbn [norm_val measure_ok] in *;
      auto.
    + now rewrite norm_string_idem.
    + now rewrite Hr.
    + now rewrite norm_string_idem.
  - rewrite wt_ent in *. f_equal. revert lv Hwt.
    induction H as [|t fs Ht Hfs IH]; intros [|v l] Hwt; auto; try discriminate Hwt.
    cbn [map wts] in *. apply andb_true_iff in Hwt as [H1 H2]. rewrite Ht by auto. f_equal.
    now apply IH.
  - cbn [wt] in *. rewrite forallb_forall in *. f_equal. rewrite map_map. apply map_ext_in. auto.
Qed.

Lemma wts_norm fs : forall l, wts fs l = true -> wts fs (map normv l) = true.
Proof.
  induction fs as [|t fs IH]; intros [|v l] H; auto; try discriminate. cbn [wts map] in *.
  apply andb_true_iff in H as [H1 H2]. rewrite wt_norm by auto. now apply IH.
Qed.

Lemma norms_idem fs : forall l, wts fs l = true -> map normv (map normv l) = map normv l.
Proof.
  induction fs as [|t fs IH]; intros [|v l] H; auto; try discriminate. cbn [wts map] in *.
  apply andb_true_iff in H as [H1 H2]. rewrite (norm_idem t) by auto. f_equal. now apply IH.
Qed.
