(** The loaded model depends on the header and on the last text of each id only. *)

From Coq Require Import String Ascii List NArith ZArith Bool Permutation Lia.
From Verif Require Import Base Prims BaseFacts Spec PrimsFacts Kind Types WellTyped TypesFacts Schema Entity EntityFacts DataMap DataSpec DataMapFacts SectionFacts
  Header File HeaderSpec FileSpec FileFacts SpellSpec GramSpec GramFacts GramHead LinesSpec.
Import ListNotations.
Open Scope N_scope.

(** The object that a text is read as. *)
Definition object_of (t : text) : entity := match p_obj t with ROk e _ => e | _ => EDummy [] end.
Definition object_line (p : N * text) : N * entity := (fst p, object_of (snd p)).

Lemma written_no_gap l w rest : written l w -> no_gap rest -> no_gap (w ++ rest).
Proof.
  intros [|n w' g1 g2 s t g3 l' w2 (ds & -> & _) _ _ _ _ _] H; auto. rewrite <- !app_assoc. apply (starts_no_gap (lit "#")). reflexivity.
Qed.

Lemma written_reads l w : written l w ->
  forall g rest, gap g -> no_gap rest -> p_lines (w ++ lit "ENDSEC;" ++ g ++ rest) = ROk (map object_line l) rest.
Proof.
  intros H g rest Hg Hr.
  assert (X : repeat_till p_line (surrounded (tag (lit "ENDSEC;"))) (w ++ lit "ENDSEC;" ++ g ++ rest) = ROk (map object_line l, tt) rest).
  { induction H as [|n w g1 g2 s t g3 l w' Hw H1 H2 H3 Ho Hl IH].
    - rewrite repeat_till_eq by apply SectionFacts.consuming_line. rewrite surrounded_eq.
      cbn [app]. rewrite skip_no_gap by apply SectionFacts.no_gap_endsec. rewrite tag_app. f_equal. now apply skip_gap_stop.
    - destruct (form_line n w s t g1 g2 g3 Hw H1 H2 H3 Ho) as (e & He & Eo & E).
      rewrite repeat_till_eq by apply SectionFacts.consuming_line. rewrite surrounded_eq. rewrite <- !app_assoc.
      assert (Hd : exists ds, w = lit "#" ++ ds) by (destruct Hw as (ds & -> & _); eauto). destruct Hd as [ds Ed].
      rewrite skip_no_gap.
      2:{ rewrite Ed, <- app_assoc. apply (starts_no_gap (lit "#")). reflexivity. }
      assert (Et : tag (lit "ENDSEC;") (w ++ g1 ++ lit "=" ++ g2 ++ t ++ g3 ++ w' ++ lit "ENDSEC;" ++ g ++ rest) = RBack) by (rewrite Ed; reflexivity).
      rewrite Et. rewrite E.
      + rewrite IH. cbn [map]. unfold object_line at 2, object_of. cbn [fst snd]. now rewrite Eo.
      + apply written_no_gap with l; auto. apply SectionFacts.no_gap_endsec. }
  unfold p_lines, pmap. now rewrite X.
Qed.

Lemma written_parsed v h l s : written_file v h l s -> parse_whole (p_ifc v) s = Done (mk_ifc h (from_list (map object_line l))).
Proof.
  intros (w & g0 & g1 & d & g2 & g3 & Hw & H0 & H1 & Hd & H2 & H3 & ->). apply parse_whole_done.
  apply sections_read; auto. now apply written_reads.
Qed.

Lemma final_lookup l n e : lookup (from_list (map object_line l)) n = Some e <-> exists t, final l n t /\ object_of t = e.
Proof.
  pose proof (from_list_last (map object_line l) n) as H. split.
  - intro E. rewrite E in H. destruct H as (a & b & El & Hb).
    apply map_eq_app in El as (a' & b' & -> & Ea & Eb). destruct b' as [|[n' t] b']; [discriminate|]. cbn [map] in Eb. injection Eb as E1 E2 E3.
    cbn [fst snd] in *. subst n'. exists t. split; auto. exists a', b'. split; auto. intro Hin. apply Hb. rewrite <- E3.
    rewrite map_map. exact Hin.
  - intros (t & (a & b & -> & Hb) & <-). rewrite map_app in *. cbn [map] in *.
    destruct (lookup (from_list (map object_line a ++ object_line (n, t) :: map object_line b)) n) as [e|] eqn:E; cbn [last_def] in H.
    + destruct H as (a' & b' & El & Hb').
      assert (X : forall (a a' : list (N * entity)) b b' x y, a ++ (n, x) :: b = a' ++ (n, y) :: b' -> ~ In n (map fst b) -> ~ In n (map fst b') -> x = y).
      { clear. induction a as [|p a IH]; intros [|q a'] b b' x y H Hb Hb'; cbn [app] in H.
        - now injection H.
        - injection H as <- ->. exfalso. apply Hb. rewrite map_app, in_app_iff. right. now left.
        - injection H as -> <-. exfalso. apply Hb'. rewrite map_app, in_app_iff. right. now left.
        - injection H as _ H. eauto. }
      f_equal. symmetry. eapply X; eauto. rewrite map_map. exact Hb.
    + exfalso. apply H. rewrite map_app, in_app_iff. right. now left.
Qed.

Lemma same_finals l l' : (forall n t, final l n t <-> final l' n t) -> from_list (map object_line l) = from_list (map object_line l').
Proof.
  intro H. apply lookup_ext; try apply from_list_increasing. intro n.
  assert (X : forall e, lookup (from_list (map object_line l)) n = Some e <-> lookup (from_list (map object_line l')) n = Some e).
  { intro e. rewrite !final_lookup. split; intros (t & Ht & E); exists t; split; auto; now apply H. }
  destruct (lookup (from_list (map object_line l)) n) as [e|] eqn:E.
  - symmetry. now apply X.
  - destruct (lookup (from_list (map object_line l')) n) as [e|] eqn:E'; auto. now apply X.
Qed.

Theorem written_load v h l l' s s' : written_file v h l s -> written_file v h l' s' ->
  (forall n t, final l n t <-> final l' n t) -> load v s = load v s'.
Proof.
  intros H H' Hf. apply written_parsed in H, H'. rewrite (same_finals l l' Hf) in H. unfold load. now rewrite H, H'.
Qed.

Lemma final_in l n t : NoDup (map fst l) -> final l n t <-> In (n, t) l.
Proof.
  intro Hd. split.
  - intros (a & b & -> & _). apply in_app_iff. right. now left.
  - intro H. apply in_split in H as (a & b & ->). exists a, b. split; auto. rewrite map_app in Hd. apply NoDup_remove_2 in Hd.
    intro Hn. apply Hd. apply in_app_iff. now right.
Qed.

Theorem written_order v h l l' s s' : written_file v h l s -> written_file v h l' s' ->
  Permutation l l' -> NoDup (map fst l) -> load v s = load v s'.
Proof.
  intros H H' Hp Hd. apply (written_load v h l l'); auto. intros n t. rewrite !final_in; auto.
  - split; apply Permutation_in; auto. now apply Permutation_sym.
  - apply Permutation_NoDup with (map fst l); auto. now apply Permutation_map.
Qed.

Lemma final_app a b n t : final (a ++ b) n t <-> final b n t \/ ~ In n (map fst b) /\ final a n t.
Proof.
  split.
  - revert b. induction a as [|p a IH]; intros b (c & d & E & Hd).
    + left. now exists c, d.
    + destruct c as [|q c]; cbn [app] in E.
      * injection E as -> <-. rewrite map_app, in_app_iff in Hd. right. split; [tauto|]. exists [], a. split; auto.
      * injection E as <- E. destruct (IH b) as [H|[Hb (a1 & a2 & -> & Ha)]]; [now exists c, d|now left|].
        right. split; auto. now exists (p :: a1), a2.
  - intros [(c & d & -> & Hd)|[Hb (c & d & -> & Hd)]].
    + exists (a ++ c), d. split; auto. now rewrite <- app_assoc.
    + exists c, (d ++ b). split; [now rewrite <- app_assoc|]. rewrite map_app, in_app_iff. tauto.
Qed.

Theorem written_overridden v h a b n t s s' : written_file v h (a ++ (n, t) :: b) s -> written_file v h (a ++ b) s' ->
  In n (map fst b) -> load v s = load v s'.
Proof.
  intros H H' Hn. apply (written_load v h _ _ _ _ H H'). intros k u. rewrite !final_app.
  change ((n, t) :: b) with ([(n, t)] ++ b). rewrite final_app. rewrite map_app, in_app_iff.
  assert (X : final [(n, t)] k u -> k = n).
  { intros ([|x [|y c]] & d & E & _); cbn [app] in E; try discriminate. now injection E. }
  cbn [map In fst]. split.
  - intros [[H1|[H1 H2]]|[H1 H2]]; auto.
    + apply X in H2 as ->. contradiction.
    + right. tauto.
  - intros [H1|[H1 H2]]; auto. right. split; auto. intros [[<-|[]]|H3]; contradiction.
Qed.
