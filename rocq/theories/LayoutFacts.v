(** Proofs about the text of a saved file. *)

From Coq Require Import String Ascii List NArith ZArith Bool Lia.
From Verif Require Import Base Prims Spec PrimsFacts Kind Types WellTyped Schema Entity EntitySpec DataMap DataSpec
  SectionFacts TypesFacts2 Header File HeaderSpec HeaderFacts FileSpec FileFacts NameSpec DeclSpec DeclFacts LayoutSpec.
Import ListNotations.
Open Scope N_scope.

(** ** Lists *)

Lemma apart_join c l w : apart c l w <-> w = join c l.
Proof.
  split.
  - induction 1; auto. cbn [join]. cbn [join] in IHapart. now rewrite <- IHapart.
  - intros ->. induction l as [|x l IH]; [constructor|]. destruct l as [|y l]; [constructor|].
    change (join c (x :: y :: l)) with (x ++ c ++ join c (y :: l)). now constructor.
Qed.

(** ** Numbers *)

Lemma decimal_is n ds : decimal n ds -> ds = show_N n.
Proof.
  induction 1 as [d H|n ds d Hn Hd IH H]; rewrite show_N_eq.
  - destruct (N.ltb_spec d 10); [reflexivity|lia].
  - destruct (N.ltb_spec (10 * n + d) 10); [lia|].
    replace ((10 * n + d) / 10) with n by (apply (N.div_unique _ 10 n d); lia).
    replace ((10 * n + d) mod 10) with d by (apply (N.mod_unique _ 10 n d); lia).
    now rewrite IH.
Qed.
Lemma decimal_show n ds : decimal n ds <-> ds = show_N n.
Proof. split; [apply decimal_is|intros ->; apply show_N_decimal]. Qed.

Lemma zeros_repeat z : Forall (fun c => c = 48) z -> z = repeat 48 (length z).
Proof. induction 1; cbn; [reflexivity|]. now subst x; f_equal. Qed.

Lemma digits_pad k n w : digits_of k n w <-> w = pad k n.
Proof.
  unfold digits_of, pad. cbv zeta. split.
  - intros (z & ds & -> & Hd & Hz & Hl). apply decimal_is in Hd. subst ds. f_equal.
    rewrite app_length in Hl. apply zeros_repeat in Hz. rewrite Hz at 1. f_equal.
    destruct Hl as [Hl|[-> Hl]]; cbn in *; lia.
  - intros ->. exists (repeat 48 (k - length (show_N n))), (show_N n). split; [reflexivity|].
    split; [apply show_N_decimal|]. split.
    + apply Forall_forall. intros c Hc. now apply repeat_spec in Hc.
    + rewrite app_length, repeat_length. destruct (Nat.le_gt_cases (length (show_N n)) k).
      * left. lia.
      * right. replace (k - length (show_N n))%nat with O by lia. split; [reflexivity|]. lia.
Qed.

Lemma year_is y w : year_text y w <-> w = d_year y.
Proof.
  unfold year_text, d_year. split.
  - intros (s & ds & -> & Hd & H). apply digits_pad in Hd. subst ds.
    destruct (Z.ltb_spec y 0), (Z.ltb_spec 9999 y);
      destruct H as [[H ->]|[[H ->]|[H ->]]]; try lia; reflexivity.
  - intros ->. exists (if (y <? 0)%Z then lit "-" else if (9999 <? y)%Z then lit "+" else []), (pad 4 (Z.abs_N y)).
    split; [destruct (y <? 0)%Z, (9999 <? y)%Z; reflexivity|]. split; [now apply digits_pad|].
    destruct (Z.ltb_spec y 0), (Z.ltb_spec 9999 y); try (left; split; [lia|reflexivity]);
      [right; right|right; left]; split; try lia; reflexivity.
Qed.

Lemma stamp_is t w : stamp_text t w <-> w = d_time t.
Proof.
  unfold stamp_text, d_time. split.
  - intros (y & mo & d & h & mi & s & Hy & Hm & Hd & Hh & Hi & Hs & ->).
    apply year_is in Hy. apply digits_pad in Hm, Hd, Hh, Hi, Hs. now subst.
  - intros ->. do 6 eexists. split; [now apply year_is|]. do 5 (split; [now apply digits_pad|]). reflexivity.
Qed.

Lemma stamp_iso t : civil t -> forall w, stamp_text t w <-> w = iso t.
Proof. intros H w. rewrite stamp_is. now rewrite (d_time_iso t H). Qed.

(** ** The header *)

Lemma texts_is l w : texts l w <-> w = d_words l.
Proof.
  unfold texts, d_words. split.
  - intros (u & Hu & ->). apply apart_join in Hu. now subst u.
  - intros ->. eexists. split; [now apply apart_join|reflexivity].
Qed.

Lemma view_is d w : view_text d w <-> w = d_view d.
Proof.
  unfold view_text, d_view. split.
  - intros (u & Hu & ->). apply apart_join in Hu. now subst u.
  - intros ->. eexists. split; [now apply apart_join|reflexivity].
Qed.

Lemma each_is {A} (P : A -> text -> Prop) f : (forall a w, P a w <-> w = f a) ->
  forall l ts, Forall2 P l ts <-> ts = map f l.
Proof.
  intros H l. induction l as [|a l IH]; intro ts; split.
  - now inversion 1.
  - intros ->. constructor.
  - inversion 1; subst. cbn. f_equal; [now apply H|now apply IH].
  - intros ->. cbn. constructor; [now apply H|now apply IH].
Qed.

Lemma views_is l w : views_text l w <-> w = lit "(" ++ d_views l ++ lit ")".
Proof.
  unfold views_text. split.
  - intros [[-> ->]|(Hl & ts & Ht & Hw)]; [reflexivity|].
    apply (each_is _ _ view_is) in Ht. apply texts_is in Hw. subst. unfold d_words. rewrite map_map.
    destruct l; [easy|reflexivity].
  - intros ->. destruct l as [|d l]; [now left|]. right. split; [discriminate|].
    eexists. split; [now apply (each_is _ _ view_is)|]. apply texts_is. unfold d_words. rewrite map_map. reflexivity.
Qed.

Lemma schema_is x w : schema_name x w <-> w = d_schema x.
Proof. split; [now destruct 1|intros ->; destruct x; constructor]. Qed.

Lemma header_is h w : header_text h w <-> w = d_header h.
Proof.
  assert (E : forall vs st au os sc,
    vs = lit "(" ++ d_views (h_views h) ++ lit ")" -> st = d_time (h_time h) -> au = d_words (h_authors h) ->
    os = d_words (h_orgs h) -> sc = d_words (map d_schema (h_schemas h)) ->
    lit "ISO-10303-21;" ++ [10] ++ lit "HEADER;" ++ [10] ++
    lit "FILE_DESCRIPTION(" ++ vs ++ lit ",'2;1');" ++ [10] ++
    lit "FILE_NAME('" ++ h_name h ++ lit "','" ++ st ++ lit "'," ++ au ++ lit "," ++ os ++
      lit ",'" ++ h_pre h ++ lit "','" ++ h_sys h ++ lit "','" ++ h_auth h ++ lit "');" ++ [10] ++
    lit "FILE_SCHEMA(" ++ sc ++ lit ");" ++ [10] ++ lit "ENDSEC;" ++ [10] = d_header h).
  { intros vs st au os sc -> -> -> -> ->.
    unfold d_header, d_description, d_details, d_schemas, quoted, nl.
    replace (d_words (map d_schema (h_schemas h)))
      with (lit "(" ++ join (lit ",") (map (fun x => lit "'" ++ d_schema x ++ lit "'") (h_schemas h)) ++ lit ")")
      by (unfold d_words; now rewrite map_map).
    cbn [lit app]. rewrite <- ?app_assoc. cbn. rewrite <- ?app_assoc. reflexivity. }
  split.
  - intros (vs & st & au & os & names & sc & Hv & Hs & Ha & Ho & Hn & Hc & ->).
    apply views_is in Hv. apply stamp_is in Hs. apply texts_is in Ha, Ho, Hc.
    apply (each_is _ _ schema_is) in Hn. subst names. now apply E.
  - intros ->. do 6 eexists. split; [now apply views_is|]. split; [now apply stamp_is|].
    split; [now apply texts_is|]. split; [now apply texts_is|].
    split; [now apply (each_is _ _ schema_is)|]. split; [now apply texts_is|]. symmetry. now apply E.
Qed.

(** ** Objects *)

Definition has_text (e : entity) : Prop := match e with Ent k l => wf_ent k l | EDummy _ => True end.

Lemma object_is e w : object_text e w -> w = d_entity e.
Proof.
  destruct 1 as [k s a l ws u Hs Ha Hw Hu|s]; [|reflexivity].
  apply apart_join in Hu. subst u. symmetry. exact (line_printed k s a l ws Hs Ha Hw).
Qed.

Lemma object_has e : has_text e -> object_text e (d_entity e).
Proof.
  destruct e as [k l|s]; cbn [has_text]; intro H; [|constructor].
  assert (Hk : k <> KDummy) by (intros ->; destruct H as (r & E & _); discriminate).
  destruct (every_kind k Hk) as (s & a & Hs & Ha).
  destruct (proj1 (wf_declared k s a l Hs Ha) H) as (ws & Hw).
  rewrite (line_printed k s a l ws Hs Ha Hw). econstructor; eauto. now apply apart_join.
Qed.

Lemma line_is n e : d_line (n, e) = lit "#" ++ show_N n ++ lit "= " ++ d_entity e ++ [10].
Proof. unfold d_line, d_id. cbn [fst snd]. now rewrite <- app_assoc. Qed.

Lemma lines_are l w : lines_text l w -> w = flat_map d_line l.
Proof.
  induction 1 as [|n ds e o l w Hd Ho _ IH]; [reflexivity|].
  apply decimal_is in Hd. apply object_is in Ho. subst. cbn [flat_map]. rewrite line_is.
  now rewrite <- !app_assoc.
Qed.

Lemma lines_have l : Forall (fun p => has_text (snd p)) l -> lines_text l (flat_map d_line l).
Proof.
  induction 1 as [|[n e] l He _ IH]; [constructor|]. cbn [flat_map]. rewrite line_is, <- !app_assoc.
  constructor; auto using show_N_decimal, object_has.
Qed.

(** ** Files *)

Lemma save_is x h d : h = d_header (i_header x) -> d = flat_map d_line (i_data x) ->
  h ++ [10] ++ lit "DATA;" ++ [10] ++ d ++ lit "ENDSEC;" ++ [10] ++ [10] ++ lit "END-ISO-10303-21;" ++ [10] = save x.
Proof.
  intros -> ->. unfold save, d_data, d_footer, nl. rewrite <- !app_assoc. reflexivity.
Qed.

Lemma whole_is x w : whole_text x w -> w = save x.
Proof.
  intros (h & d & Hh & Hd & ->). apply header_is in Hh. apply lines_are in Hd. now apply save_is.
Qed.

Lemma whole_saved x : (forall n k l, In (n, Ent k l) (i_data x) -> wf_ent k l) -> whole_text x (save x).
Proof.
  intro H. exists (d_header (i_header x)), (flat_map d_line (i_data x)). split; [now apply header_is|]. split.
  - apply lines_have. apply Forall_forall. intros [n [k l|s]] Hi; cbn; eauto.
  - symmetry. now apply save_is.
Qed.

Lemma loaded_objects v s x : load v s = Done x -> forall n k l, In (n, Ent k l) (i_data x) -> wf_ent k l.
Proof.
  intros H n k l Hi. apply load_done in H as [H _]. apply parse_whole_done in H. unfold p_ifc in H.
  apply bind_ok in H as (h & r1 & _ & H). apply bind_ok in H as (m & r2 & E2 & H).
  apply bind_ok in H as (? & r3 & _ & H). injection H as <- _. cbn [i_data] in Hi.
  apply p_data_ok in E2 as [_ E2]. rewrite Forall_forall in E2. exact (proj2 (E2 _ Hi)).
Qed.

Lemma whole_loaded v s x : load v s = Done x -> whole_text x (save x).
Proof. intro H. apply whole_saved. exact (loaded_objects v s x H). Qed.
