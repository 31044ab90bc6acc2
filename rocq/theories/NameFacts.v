(** Proofs about names and words. *)

From Coq Require Import String Ascii List NArith ZArith Bool Lia.
From Verif Require Import Base BaseFacts Prims PrimsFacts StringFacts Spec Float FloatFacts Kind Types Layout WellTyped TypesFacts TypesFacts2 Schema
  Entity EntitySpec EntityFacts AttrFacts NameSpec.
Import ListNotations.
Open Scope N_scope.

(** ** Enumerations *)

Definition text_eqb (a b : text) : bool := if list_eq_dec N.eq_dec a b then true else false.
Lemma text_eqb_eq a b : text_eqb a b = true -> a = b.
Proof. unfold text_eqb. destruct (list_eq_dec N.eq_dec a b); auto. discriminate. Qed.
Definition texts_eqb (a b : list text) : bool := if list_eq_dec (list_eq_dec N.eq_dec) a b then true else false.
Lemma texts_eqb_eq a b : texts_eqb a b = true -> a = b.
Proof. unfold texts_eqb. destruct (list_eq_dec (list_eq_dec N.eq_dec) a b); auto. discriminate. Qed.

Definition called_b (q : string * string) : bool :=
  text_eqb (letters (lit (snd q))) (letters (lit (fst q))) ||
  existsb (fun p => String.eqb (fst p) (fst q) && String.eqb (snd p) (snd q)) misnamed.
Lemma called_b_ok q : called_b q = true -> called (fst q) (snd q).
Proof.
  intro H. apply orb_true_iff in H as [H|H]; [left; now apply text_eqb_eq|].
  apply existsb_exists in H as (p & H1 & H2). apply andb_true_iff in H2 as [H2 H3].
  apply String.eqb_eq in H2, H3. right. destruct p, q; cbn [fst snd] in *. now subst.
Qed.

Fixpoint distinct (l : list string) : bool :=
  match l with [] => true | a :: l' => negb (existsb (String.eqb a) l') && distinct l' end.
Lemma distinct_ok l : distinct l = true -> NoDup l.
Proof.
  induction l as [|a l IH]; intro H; constructor; cbn [distinct] in H; apply andb_true_iff in H as [H1 H2]; auto.
  intro E. apply negb_true_iff in H1. enough (existsb (String.eqb a) l = true) by congruence.
  apply existsb_exists. exists a. split; auto. apply String.eqb_refl.
Qed.

Definition enum_b (x : list text * list (string * string)) : bool :=
  let (vs, t) := x in
  texts_eqb vs (map (fun q => lit (snd q)) t) && distinct (map fst t) && forallb called_b t && variants_ok vs.
Lemma enums_ok : forallb enum_b enumerations = true.
Proof. vm_compute. reflexivity. Qed.

Lemma enum_inv vs t : In (vs, t) enumerations ->
  vs = map (fun q => lit (snd q)) t /\ NoDup (map fst t) /\ (forall n w, In (n, w) t -> called n w) /\ variants_ok vs = true.
Proof.
  intro H. pose proof (proj1 (forallb_forall _ _) enums_ok _ H) as E. cbn [enum_b] in E.
  apply andb_true_iff in E as [E E4]. apply andb_true_iff in E as [E E3]. apply andb_true_iff in E as [E1 E2].
  apply texts_eqb_eq in E1. apply distinct_ok in E2. repeat split; auto.
  intros n w Hn. exact (called_b_ok (n, w) (proj1 (forallb_forall _ _) E3 _ Hn)).
Qed.

Lemma enum_spelled vs t : In (vs, t) enumerations ->
  vs = map (fun q => lit (snd q)) t /\ NoDup (map fst t) /\ (forall n w, In (n, w) t -> called n w).
Proof. intro H. destruct (enum_inv vs t H) as (H1 & H2 & H3 & _). auto. Qed.

Lemma enum_read vs t i n w g1 g2 rest :
  In (vs, t) enumerations -> nth_error t i = Some (n, w) -> gap g1 -> gap g2 -> no_gap rest ->
  d_enum vs i = lit w /\ p_enum vs (g1 ++ lit w ++ g2 ++ rest) = ROk i rest.
Proof.
  intros H Hi H1 H2 Hr. destruct (enum_inv vs t H) as (E & _ & _ & Hv).
  assert (D : d_enum vs i = lit w).
  { unfold d_enum. rewrite E. apply nth_error_nth with (d := []) . now rewrite nth_error_map, Hi. }
  split; auto. rewrite <- D. apply p_enum_text; auto. rewrite E, map_length. apply nth_error_Some. congruence.
Qed.

Lemma variants_miss vs s : (forall v r, In v vs -> s <> v ++ r) -> forall i, p_variants i vs s = RBack.
Proof.
  induction vs as [|v vs IH]; intros H i; auto. cbn [p_variants]. unfold alt, pmap at 1.
  destruct (tag v s) as [a r| | |] eqn:E.
  - apply tag_ok in E. exfalso. exact (H v r (or_introl eq_refl) E).
  - apply IH. intros v' r Hv. apply H. now right.
  - exfalso. unfold tag in E. destruct (strip_prefix v s); discriminate.
  - exfalso. unfold tag in E. destruct (strip_prefix v s); discriminate.
Qed.

Lemma enum_other vs t g s :
  In (vs, t) enumerations -> gap g -> no_gap s -> (forall n w r, In (n, w) t -> s <> lit w ++ r) ->
  p_enum vs (g ++ s) = RBack.
Proof.
  intros H Hg Hs Hn. unfold p_enum. rewrite surrounded_eq, skip_gap_stop by auto.
  rewrite variants_miss; auto. intros v r Hv. destruct (enum_inv vs t H) as (E & _). rewrite E in Hv.
  apply in_map_iff in Hv as ([n w] & <- & Hw). exact (Hn n w r Hw).
Qed.

(** Every enumeration that occurs in the schema is in the table. *)
Fixpoint enums_of (f : fty) : list (list text) :=
  match f with
  | TEnum vs => [vs]
  | TOpt f | TList f => enums_of f
  | TIdOr _ _ _ fs _ => flat_map enums_of fs
  | _ => []
  end.
Lemma enums_of_inside vs f : inside (TEnum vs) f -> In vs (enums_of f).
Proof.
  intro H. remember (TEnum vs) as t eqn:E. induction H; subst; cbn [enums_of]; auto; [now left|].
  apply in_flat_map. exists f. auto.
Qed.
Lemma schema_enums : forallb (fun k => match row_of k with
    | Some r => forallb (fun vs => existsb (fun e => texts_eqb vs (fst e)) enumerations) (flat_map enums_of (row_fields r))
    | None => true
    end) (map fst structs) = true.
Proof. vm_compute. reflexivity. Qed.
Lemma all_structs k : row_of k <> None -> exists n, In (k, n) structs.
Proof. destruct k; intro H; try (now elim H); eexists; vm_compute; repeat (first [left; reflexivity|right]). Qed.

Lemma enum_known k vs : used_in k (TEnum vs) -> exists t, In (vs, t) enumerations.
Proof.
  intros (r & f & Hr & Hf & Hi). destruct (all_structs k) as (n & Hn); [congruence|].
  pose proof (proj1 (forallb_forall _ _) schema_enums k (in_map fst _ _ Hn)) as E. cbv beta in E. rewrite Hr in E.
  pose proof (proj1 (forallb_forall _ _) E vs) as X.
  assert (In vs (flat_map enums_of (row_fields r))) by (apply in_flat_map; exists f; split; auto; now apply enums_of_inside).
  apply X in H. apply existsb_exists in H as ([vs' t] & H1 & H2). apply texts_eqb_eq in H2. cbn [fst] in H2. subst. eauto.
Qed.

(** ** Measures *)

Lemma p_measure_hit2 i n p v txt w s :
  incomparable (fst n) (snd n) = true -> reads p txt w -> v = VMeasure i w ->
  p_measure i n p (snd n ++ lit "(" ++ txt ++ lit ")" ++ s) = ROk v s.
Proof.
  intros Hn H ->. unfold p_measure, bind, alt. rewrite incomparable_back by auto. rewrite tag_app. rewrite tag_app.
  destruct (H (lit ")" ++ s) (stop_close s)) as [-> | ->].
  - now rewrite tag_app.
  - rewrite skip_no_gap by apply no_gap_close. now rewrite tag_app.
Qed.

Lemma measure_words i v n c txt c' kw s :
  nth_error measures i = Some (v, n) -> contents v c txt c' -> wt TValue (VMeasure i c) = true ->
  d_value (VMeasure i c) = map upper (lit n) ++ lit "(" ++ txt ++ lit ")" /\
  (kw = map upper (lit n) \/ kw = lit n ->
   p_value (kw ++ lit "(" ++ txt ++ lit ")" ++ s) = ROk (VMeasure i c') s).
Proof.
  intros Hi Hc H. cbn [wt] in H. assert (B : forall b, long_bool b = d_bool b) by (intros []; reflexivity).
  assert (exists p, nth_error measure_contents i = Some p /\ reads p txt c' /\ d_content i c = txt) as (p & Hp & Hr & Hd).
  { destruct i as [|[|[|[|[|i]]]]]; try (destruct i; discriminate Hi); injection Hi as <- <-; inversion Hc; subst;
      eexists; (split; [reflexivity|split; [|try reflexivity]]); cbn [measure_ok] in H.
    - rewrite B. apply reads_map, p_bool_reads.
    - apply reads_map. intros r Hr. left. now apply p_string_d_string, text_ok_iff.
    - apply reads_map, p_real_reads. now apply f64_okb_ok.
    - apply reads_map. intros r Hr. left. now apply p_string_d_string, text_ok_iff.
    - apply reads_map. intros r Hr. left. apply p_real_nonsci; auto. now apply f64_okb_ok. }
  split.
  - cbn [d_value]. rewrite Hd. f_equal.
    destruct i as [|[|[|[|[|i]]]]]; try (destruct i; discriminate Hi); injection Hi as <- <-; reflexivity.
  - intro K. unfold p_value, measure_names.
    destruct i as [|[|[|[|[|i]]]]]; try (destruct i; discriminate Hi); injection Hi as <- <-; injection Hp as <-;
      destruct K as [-> | ->]; unfold measure_contents; cbn [p_measures]; unfold alt;
      repeat (rewrite p_measure_miss by reflexivity);
      lazymatch goal with
      | |- context [p_measure ?i ?n ?p] =>
          first [(erewrite (p_measure_hit i n p); [reflexivity|exact Hr|reflexivity])
                |(erewrite (p_measure_hit2 i n p); [reflexivity|reflexivity|exact Hr|reflexivity])]
      end.
Qed.

(** ** Kinds *)

Lemma keywords_ok : forallb (fun q => match row_of (fst q) with
    | Some r => match row_kws r with
                | a :: l => text_eqb a (keyword (snd q) ++ lit "(") &&
                    texts_eqb l (if existsb (kind_eqb (fst q)) standard_cases then [keyword (snd q) ++ lit "STANDARDCASE("] else [])
                | [] => false
                end
    | None => false
    end) structs = true.
Proof. vm_compute. reflexivity. Qed.

Lemma keyword_inv k n r : In (k, n) structs -> row_of k = Some r ->
  row_kws r = (keyword n ++ lit "(") :: (if existsb (kind_eqb k) standard_cases then [keyword n ++ lit "STANDARDCASE("] else []).
Proof.
  intros H Hr. pose proof (proj1 (forallb_forall _ _) keywords_ok _ H) as E. cbn [fst snd] in E. rewrite Hr in E.
  destruct (row_kws r) as [|a l]; [discriminate|]. apply andb_true_iff in E as [E1 E2].
  apply text_eqb_eq in E1. apply texts_eqb_eq in E2. now subst.
Qed.

Lemma keyword_printed k n l : In (k, n) structs -> wf_ent k l ->
  exists body, d_entity (Ent k l) = keyword n ++ lit "(" ++ body /\
    (forall g1 g2 rest, gap g1 -> gap g2 -> no_gap rest ->
      p_obj (g1 ++ (keyword n ++ lit "(" ++ body) ++ g2 ++ rest) = ROk (Ent k (map (norm_val norm_real) l)) rest) /\
    (In k standard_cases -> forall g1 g2 rest, gap g1 -> gap g2 -> no_gap rest ->
      p_obj (g1 ++ (keyword n ++ lit "STANDARDCASE(" ++ body) ++ g2 ++ rest) = ROk (Ent k (map (norm_val norm_real) l)) rest).
Proof.
  intros H Hw. pose proof Hw as (r & Hr & Hf). pose proof (keyword_inv k n r H Hr) as E.
  destruct (row_ok_inv r (all_rows_ok k r Hr)) as (H1 & H2 & H3 & H4).
  assert (L : forall kw, In kw (row_kws r) -> lay_entity k l (kw ++ d_attrs (d_tys (row_fields r) l) ++ row_closer r)).
  { intros kw Hk. exists r. split; auto.
    apply (lay_row_intro (row_kws r) (row_ws r) (row_fields r) (row_closer r) l kw [] (d_attrs (d_tys (row_fields r) l)) []);
      try solve [constructor]; auto. apply d_attrs_lay; auto. apply Forall_forall. intros t _ v. apply d_ty_lay. }
  exists (d_attrs (d_tys (row_fields r) l) ++ row_closer r). split; [|split].
  - cbn [d_entity]. rewrite Hr. unfold d_row. rewrite E. cbn [hd]. now rewrite <- app_assoc.
  - intros g1 g2 rest G1 G2 G3. apply p_obj_reads; auto. specialize (L (keyword n ++ lit "(")). rewrite E in L.
    rewrite <- app_assoc in L. apply L. now left.
  - intros K g1 g2 rest G1 G2 G3. apply p_obj_reads; auto. specialize (L (keyword n ++ lit "STANDARDCASE(")). rewrite E in L.
    rewrite <- app_assoc in L. apply L. right.
    assert (X : existsb (kind_eqb k) standard_cases = true).
    { apply existsb_exists. exists k. split; auto. now apply kind_eqb_eq. }
    rewrite X. now left.
Qed.

(** ** Reals *)

Lemma digits_eq s : nonzero_digits s = length (filter (fun c => is_digit c && negb (c =? 48)) s).
Proof.
  unfold nonzero_digits. f_equal. apply filter_ext. intro c. unfold is_digit.
  destruct (N.leb_spec 49 c), (N.leb_spec c 57), (N.leb_spec 48 c), (N.eqb_spec c 48); cbn; lia.
Qed.

Lemma no_exponent d : ~ In 69 (show_f64 d).
Proof.
  assert (D : forall l, forallb is_digit l = true -> ~ In 69 l).
  { intros l H I. rewrite forallb_forall in H. specialize (H _ I). discriminate. }
  assert (M : forall b, ~ In 69 (minus b)) by (intros [] I; cbn in I; intuition discriminate).
  destruct d as [|neg|neg m e]; cbn [show_f64].
  - intro I. cbn in I. intuition discriminate.
  - intro I. apply in_app_iff in I as [I|I]; [now apply M in I|]. cbn in I. intuition discriminate.
  - intro I. apply in_app_iff in I as [I|I]; [now apply M in I|]. destruct (m =? 0); [cbn in I; intuition discriminate|].
    destruct (shortest m e) as [q x]. destruct (plain_decimal_cases q x) as (i & f & _ & Hi & Hf & E & _). rewrite E in I.
    apply in_app_iff in I as [I|I]; [now apply D in I|]. destruct f as [|c f]; [contradiction|].
    apply in_app_iff in I as [I|I]; [cbn in I; intuition discriminate|now apply D in I].
Qed.

Lemma real_form d : f64_ok d -> In 69 (d_real d) <-> (10 < nonzero_digits (show_f64 (fract d)))%nat.
Proof.
  intro Hok. rewrite digits_eq. fold (Nat.lt 10). unfold d_real. destruct (is_scientific d) eqn:E; unfold is_scientific in E.
  - apply Nat.ltb_lt in E. split; auto. intros _.
    destruct (is_scientific_fin d) as (neg & m & e & -> & Hm); [now apply Nat.ltb_lt|auto|].
    cbn [show_sci]. apply in_app_iff. right. destruct (if m =? 0 then (0, 0%Z) else digits15 m e) as [q k].
    rewrite !in_app_iff. right. right. right. left. now left.
  - apply Nat.ltb_ge in E. split; [|lia]. intro I. exfalso. apply in_app_iff in I as [I|I]; [now apply no_exponent in I|].
    destruct (is_zero (fract d)); cbn in I; intuition discriminate.
Qed.

(** ** The standard *)

Lemma left_out_ok : forallb (fun q => forallb (fun v => incomparable v (lit (snd q))) (fst q)) left_out = true.
Proof. vm_compute. reflexivity. Qed.
Lemma left_out_back vs w s : In (vs, w) left_out -> p_enum vs (lit w ++ s) = RBack.
Proof.
  intro H. pose proof (proj1 (forallb_forall _ _) left_out_ok _ H) as E. cbn [fst snd] in E. rewrite forallb_forall in E.
  unfold p_enum. rewrite surrounded_eq. replace (skip (lit w ++ s)) with (lit w ++ s).
  2:{ symmetry. apply skip_no_gap, starts_no_gap. cbn [left_out In] in H.
      repeat (destruct H as [H|H]; [injection H as _ <-; reflexivity|]). contradiction. }
  rewrite variants_miss; auto. intros v r Hv X. specialize (E v Hv).
  pose proof (incomparable_back v (lit w) s E) as B. rewrite X, tag_app in B. discriminate.
Qed.
