(** Walls whose predefined type is an enumeration value. *)

From Coq Require Import String Ascii List NArith ZArith Bool Lia.
From Verif Require Import Base Prims BaseFacts Spec PrimsFacts Guid Float FloatFacts
  Kind Types Layout WellTyped Schema Entity EntitySpec TypesFacts TypesFacts2 EntityFacts.
Import ListNotations.
Open Scope N_scope.

(** Attributes in front of further attributes. *)
Lemma attrs_prefix fs l txt ps g1 g2 rest :
  lay_attrs fs l txt -> forallb ty_ok fs = true -> wts fs l = true -> ps <> [] ->
  gap g1 -> gap g2 -> no_gap rest ->
  p_attrs (map p_ty fs ++ ps) (txt ++ g1 ++ lit "," ++ g2 ++ rest) =
  match p_attrs ps rest with
  | ROk l' r => ROk (map normv l ++ l') r
  | RBack => RBack | RCut => RCut | RPanic => RPanic
  end.
Proof.
  intros Hl. revert g1 g2 rest. induction Hl as [t v txt Hv|t v txt h1 h2 fs l txt' Hv G1 G2 Hl IH];
    intros g1 g2 rest Hok Hwt Hps H1 H2 Hr; cbn [forallb wts] in *; apply andb_true_iff in Hok as [Hok Hok'];
    apply andb_true_iff in Hwt as [Hwt Hwt'].
  - destruct (reads_skip _ _ _ (g1 ++ lit "," ++ g2 ++ rest) (lay_reads t v txt Hok Hwt Hv)) as (r & E & Hs).
    { apply stop_gap; auto. apply stop_comma. }
    cbn [map app]. destruct ps as [|p ps]; [congruence|].
    change (p_attrs (p_ty t :: p :: ps)) with
      (v <- p_ty t ;; p_comma ;;; l <- p_attrs (p :: ps) ;; ret (v :: l))%parser.
    unfold bind, ret. rewrite E. rewrite (p_comma_skip _ _ Hs). rewrite p_comma_gap by auto.
    now destruct (p_attrs (p :: ps) rest).
  - destruct (reads_skip _ _ _ (h1 ++ lit "," ++ h2 ++ txt' ++ g1 ++ lit "," ++ g2 ++ rest) (lay_reads t v txt Hok Hwt Hv)) as (r & E & Hs).
    { apply stop_gap; auto. apply stop_comma. }
    specialize (IH g1 g2 rest Hok' Hwt' Hps H1 H2 Hr).
    cbn [map app]. rewrite <- !app_assoc.
    assert (Ea : p_attrs (p_ty t :: map p_ty fs ++ ps) =
                 (v <- p_ty t ;; p_comma ;;; l <- p_attrs (map p_ty fs ++ ps) ;; ret (v :: l))%parser).
    { destruct fs; [inversion Hl|reflexivity]. }
    rewrite Ea. unfold bind, ret. rewrite E. rewrite (p_comma_skip _ _ Hs). rewrite p_comma_gap; auto.
    + rewrite IH. now destruct (p_attrs ps rest).
    + apply opens_no_gap. destruct (proj1 (proj2 (proj2 lay_reads_all)) fs l txt' Hl) as [_ H]; auto.
Qed.

Definition starts_dot (x : text) : Prop := exists y, x = lit "." ++ y.

Lemma wall_type_back x rest : starts_dot x ->
  p_ty (TOpt (idor KWallType row_WallType)) (x ++ rest) = RBack.
Proof.
  intros [y ->]. rewrite <- app_assoc. change (lit ".") with [46]. cbn [app p_ty idor fallback].
  set (s := 46 :: y ++ rest).
  assert (Hs : skip s = s) by (apply skip_no_gap, no_gap_char; unfold blank; lia).
  unfold alt at 1, pmap at 1. change (tag (lit "$") s) with (@RBack unit).
  unfold alt at 1, pmap at 1. change (tag (lit "*") s) with (@RBack unit).
  unfold alt at 1 2, pmap at 1. change (p_id s) with (@RBack N).
  unfold pmap, p_row, bind, p_keyword. cbn [row_WallType row_kws row_ws map alts].
  unfold alt. rewrite surrounded_eq, Hs. reflexivity.
Qed.

Lemma wall_enum_unknown kw g1 l txt h1 h2 x rest :
  In kw (row_kws row_Wall) -> gap g1 -> gap h1 -> gap h2 ->
  wts fields_Element l = true -> lay_attrs fields_Element l txt -> starts_dot x ->
  p_known (kw ++ g1 ++ txt ++ h1 ++ lit "," ++ h2 ++ x ++ rest) = RBack.
Proof.
  intros Hkw Hg1 Hh1 Hh2 Hwt Hl Hx. set (s := kw ++ _).
  assert (Hkws : starts_ok kw = true).
  { destruct Hkw as [<-|[<-|[]]]; reflexivity. }
  assert (H : forall k, In k all_kinds -> p_kind k s = RBack).
  { intros k Hk. unfold p_kind. destruct (row_of k) as [r|] eqn:Hr; [|reflexivity].
    assert (Hd : kind_eqb k KWall || forallb (fun a => forallb (incomparable a) (row_kws row_Wall)) (kws k) = true).
    { destruct k; try (vm_compute; reflexivity); discriminate Hr. }
    apply orb_true_iff in Hd as [Hd|Hd].
    - apply kind_eqb_eq in Hd. subst k. injection Hr as <-. unfold pmap, p_row, bind at 1, s.
      rewrite (p_keyword_show (row_ws row_Wall) (row_kws row_Wall) kw); auto.
      cbn [row_ws row_Wall]. rewrite skip_gap_stop; auto.
      + cbn [row_fields row_Wall]. rewrite map_app. unfold bind at 1.
        rewrite (attrs_prefix fields_Element l txt); auto.
        * cbn [map p_attrs]. unfold pmap. now rewrite wall_type_back.
        * discriminate.
        * destruct Hx as [y ->]. cbn [app]. apply no_gap_char; [unfold blank; cbv; lia|cbv; lia].
      + apply opens_no_gap. destruct (proj1 (proj2 (proj2 lay_reads_all)) fields_Element l txt Hl) as [_ H]; auto.
    - unfold pmap, p_row, bind, s. rewrite p_keyword_miss; auto.
      unfold kws in Hd. rewrite Hr in Hd. rewrite forallb_forall in *. intros a Ha. specialize (Hd a Ha).
      rewrite forallb_forall in Hd. auto. }
  unfold p_known. clearbody s. induction all_kinds as [|k ks IH]; [reflexivity|].
  cbn [map alts]. unfold alt. rewrite H by now left. apply IH. intros k' Hk'. apply H. now right.
Qed.

Lemma wall_enum_not_wall kw g1 l txt h1 h2 x rest e r :
  In kw (row_kws row_Wall) -> gap g1 -> gap h1 -> gap h2 ->
  wts fields_Element l = true -> lay_attrs fields_Element l txt -> starts_dot x ->
  p_obj (kw ++ g1 ++ txt ++ h1 ++ lit "," ++ h2 ++ x ++ rest) = ROk e r -> kind_of e = KDummy.
Proof.
  intros Hkw Hg1 Hh1 Hh2 Hwt Hl Hx. unfold p_obj. rewrite surrounded_eq.
  rewrite skip_no_gap.
  - unfold alt. rewrite (wall_enum_unknown kw g1 l) by auto. unfold pmap.
    destruct (p_dummy _); try discriminate. intro H. injection H as <- _. reflexivity.
  - apply starts_no_gap. destruct Hkw as [<-|[<-|[]]]; reflexivity.
Qed.
