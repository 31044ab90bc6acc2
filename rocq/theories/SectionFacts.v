(** Facts about reading and printing data sections. *)

From Coq Require Import String Ascii List NArith ZArith Bool Lia Sorted.
From Verif Require Import Base Prims BaseFacts Spec PrimsFacts StringFacts Guid Float FloatFacts
  Kind Types Schema Entity Layout WellTyped EntitySpec DataMap DataSpec TypesFacts TypesFacts2
  EntityFacts DataMapFacts.
Import ListNotations.
Open Scope N_scope.

(** What reading the printed object gives. *)
Definition norm_entity (e : entity) : entity :=
  match e with
  | Ent k l => Ent k (map normv l)
  | EDummy s => EDummy s
  end.
Definition norm_def (p : N * entity) : N * entity := (fst p, norm_entity (snd p)).

Lemma exact_norm_entity e : wf_obj e -> exact_obj e = true -> norm_entity e = e.
Proof.
  destruct e as [k l|s]; cbn [wf_obj exact_obj norm_entity]; auto. intros H1 H2.
  now rewrite (exact_ent k l).
Qed.

Lemma wf_norm_entity e : wf_obj e -> wf_obj (norm_entity e).
Proof.
  destruct e as [k l|s]; cbn; auto. intros (r & Hr & Hw). exists r. split; auto. now apply wts_norm.
Qed.

Lemma norm_entity_idem e : wf_obj e -> norm_entity (norm_entity e) = norm_entity e.
Proof.
  destruct e as [k l|s]; cbn; auto. intros (r & _ & Hw). f_equal. now apply norms_idem with (row_fields r).
Qed.

Lemma opaque_stays s : opaque s -> stays s.
Proof. intros (Hn & He & Hu). split; [|split]; auto. intros k rest. now apply p_kind_unknown. Qed.

(** ** One object, one line *)

Lemma p_obj_lay e txt g1 g2 rest :
  wf_obj e -> lay_obj e txt -> gap g1 -> gap g2 -> no_gap rest ->
  p_obj (g1 ++ txt ++ g2 ++ rest) = ROk (norm_entity e) rest.
Proof.
  destruct e as [k l|s]; cbn [wf_obj lay_obj norm_entity]; intros Hw Hl H1 H2 Hr.
  - now apply p_obj_reads.
  - subst txt. rewrite <- app_assoc. destruct Hw as (Hn & He & Hk). now apply p_obj_rejected.
Qed.

Lemma gap_no_digit g c s : gap g -> is_digit c = false -> no_digit (g ++ c :: s).
Proof.
  intros Hg Hc. destruct Hg as [|b g Hb Hg|body g Hb Hg]; cbn [app no_digit]; auto.
  unfold is_digit. destruct Hb as [->|[->|[->| ->]]]; reflexivity.
  reflexivity.
Qed.

Lemma p_line_reads n e g1 g2 txt g3 rest :
  wf_def (n, e) -> lay_obj e txt -> gap g1 -> gap g2 -> gap g3 -> no_gap rest ->
  p_line (d_id n ++ g1 ++ lit "=" ++ g2 ++ txt ++ g3 ++ rest) = ROk (n, norm_entity e) rest.
Proof.
  intros [Hn Hw] Hl H1 H2 H3 Hr. cbn [fst snd] in *. unfold p_line. rewrite surrounded_eq.
  rewrite skip_no_gap by (apply (starts_no_gap (d_id n)); reflexivity).
  unfold bind. rewrite p_id_show; auto.
  2:{ change (lit "=") with [61]. cbn [app]. now apply gap_no_digit. }
  rewrite surrounded_eq, skip_gap_stop; auto.
  2:{ cbn [app]. apply no_gap_char; [unfold blank; cbv; lia|cbv; lia]. }
  rewrite tag_app, skip_gap by auto.
  assert (Eo : p_obj (skip (txt ++ g3 ++ rest)) = ROk (norm_entity e) rest).
  { pose proof (p_obj_lay e txt [] g3 rest Hw Hl gap_nil H3 Hr) as E. cbn [app] in E.
    unfold p_obj in *. rewrite surrounded_eq in *. now rewrite skip_idem. }
  rewrite Eo. unfold ret. f_equal. now apply skip_no_gap.
Qed.

(** ** All lines *)

Lemma consuming_line : consuming p_line.
Proof.
  unfold p_line. apply consuming_surrounded. apply consuming_bind_l; [apply consuming_id|].
  intro n. apply suffixing_shrinking. apply suffixing_bind; [apply suffixing_surrounded, suffixing_tag|].
  intros _. apply suffixing_bind; [apply suffixing_obj|]. intro e. apply suffixing_ret.
Qed.

Lemma lay_defs_head l txt : lay_defs l txt -> l = [] /\ txt = [] \/ exists r, txt = lit "#" ++ r.
Proof.
  destruct 1; auto. right. eexists. unfold d_id. rewrite <- app_assoc. reflexivity.
Qed.

Lemma lay_defs_no_gap l txt rest : lay_defs l txt -> no_gap rest -> no_gap (txt ++ rest).
Proof.
  intros H Hr. apply lay_defs_head in H as [[_ ->]|[r ->]]; auto.
  cbn [app]. apply no_gap_char; [unfold blank; cbv; lia|cbv; lia].
Qed.

Lemma no_gap_endsec rest : no_gap (lit "ENDSEC;" ++ rest).
Proof. apply starts_no_gap. reflexivity. Qed.

Lemma p_lines_reads l txt g rest :
  Forall wf_def l -> lay_defs l txt -> gap g -> no_gap rest ->
  p_lines (txt ++ lit "ENDSEC;" ++ g ++ rest) = ROk (map norm_def l) rest.
Proof.
  intros Hw Hl Hg Hr.
  assert (E : repeat_till p_line (surrounded (tag (lit "ENDSEC;"))) (txt ++ lit "ENDSEC;" ++ g ++ rest) =
              ROk (map norm_def l, tt) rest).
  { induction Hl as [|n e g1 g2 t g3 l txt' H1 H2 H3 Ho Hl IH];
      rewrite repeat_till_eq by apply consuming_line; rewrite surrounded_eq.
    - cbn [app map]. rewrite skip_no_gap by apply no_gap_endsec. rewrite tag_app. f_equal.
      now apply skip_gap_stop.
    - inversion Hw; subst. rewrite skip_no_gap.
      2:{ rewrite <- !app_assoc. apply (starts_no_gap (d_id n)). reflexivity. }
      assert (Et : tag (lit "ENDSEC;") ((d_id n ++ g1 ++ lit "=" ++ g2 ++ t ++ g3 ++ txt') ++ lit "ENDSEC;" ++ g ++ rest) = RBack).
      { unfold d_id. reflexivity. }
      rewrite Et. rewrite <- !app_assoc. rewrite (p_line_reads n e); auto.
      + rewrite IH by auto. reflexivity.
      + apply lay_defs_no_gap with l; auto. apply no_gap_endsec. }
  unfold p_lines, pmap. now rewrite E.
Qed.

Lemma p_data_reads l s g0 g2 rest :
  Forall wf_def l -> lay_data l s -> gap g0 -> gap g2 -> no_gap rest ->
  p_data (g0 ++ s ++ g2 ++ rest) = ROk (from_list (map norm_def l)) rest.
Proof.
  intros Hw (g1 & txt & Hg1 & Hl & ->) H0 H2 Hr. unfold p_data. rewrite surrounded_eq.
  rewrite <- !app_assoc. rewrite skip_gap_stop; auto.
  2:{ apply starts_no_gap. reflexivity. }
  unfold bind. rewrite tag_app. unfold pmap.
  assert (E : p_lines (g1 ++ txt ++ lit "ENDSEC;" ++ g2 ++ rest) = ROk (map norm_def l) rest).
  { assert (Esk : skip (g1 ++ txt ++ lit "ENDSEC;" ++ g2 ++ rest) = txt ++ lit "ENDSEC;" ++ g2 ++ rest).
    { apply skip_gap_stop; auto. apply lay_defs_no_gap with l; auto. apply no_gap_endsec. }
    pose proof (p_lines_reads l txt g2 rest Hw Hl H2 Hr) as E0. rewrite <- Esk in E0.
    revert E0. generalize (g1 ++ txt ++ lit "ENDSEC;" ++ g2 ++ rest). intros x E0.
    unfold p_lines, pmap in *. rewrite repeat_till_eq in * by apply consuming_line.
    rewrite surrounded_eq in *. rewrite skip_idem in E0.
    destruct (tag (lit "ENDSEC;") (skip x)); auto.
    unfold p_line in E0 |- *. rewrite surrounded_eq, skip_idem in E0. rewrite surrounded_eq. exact E0. }
  rewrite E. f_equal. now apply skip_no_gap.
Qed.

(** Definitions in front of any text. *)
Lemma p_lines_prefix l txt rest :
  Forall wf_def l -> lay_defs l txt -> no_gap rest ->
  p_lines (txt ++ rest) =
  match p_lines rest with ROk l' r => ROk (map norm_def l ++ l') r | e => e end.
Proof.
  intros Hw Hl Hr. unfold p_lines, pmap.
  induction Hl as [|n e g1 g2 t g3 l txt' H1 H2 H3 Ho Hl IH].
  - cbn [app map]. destruct (repeat_till _ _ rest) as [[l' b] r| | |]; reflexivity.
  - inversion Hw; subst. rewrite repeat_till_eq by apply consuming_line. rewrite surrounded_eq.
    rewrite skip_no_gap.
    2:{ rewrite <- !app_assoc. apply (starts_no_gap (d_id n)). reflexivity. }
    assert (Et : tag (lit "ENDSEC;") ((d_id n ++ g1 ++ lit "=" ++ g2 ++ t ++ g3 ++ txt') ++ rest) = RBack).
    { unfold d_id. reflexivity. }
    rewrite Et. rewrite <- !app_assoc. rewrite (p_line_reads n e); auto.
    2:{ apply lay_defs_no_gap with l; auto. }
    specialize (IH H5). destruct (repeat_till p_line _ (txt' ++ rest)) as [[l1 b1] r1| | |];
      destruct (repeat_till p_line _ rest) as [[l2 b2] r2| | |]; try discriminate; auto.
    injection IH as -> ->. reflexivity.
Qed.

Lemma p_data_lines s g0 : gap g0 ->
  p_data (g0 ++ lit "DATA;" ++ s) =
  match p_lines s with ROk l r => ROk (from_list l) (skip r) | RBack => RBack | RCut => RCut | RPanic => RPanic end.
Proof.
  intro H. unfold p_data. rewrite surrounded_eq. rewrite skip_gap_stop; auto.
  2:{ apply starts_no_gap. reflexivity. }
  unfold bind. rewrite tag_app. unfold pmap at 1. destruct (p_lines s); reflexivity.
Qed.

Lemma p_lines_gap g s : gap g -> p_lines (g ++ s) = p_lines s.
Proof.
  intro Hg. unfold p_lines, pmap. rewrite !(repeat_till_eq p_line) by apply consuming_line.
  rewrite !surrounded_eq, skip_gap by auto. destruct (tag (lit "ENDSEC;") (skip s)); auto.
  assert (E : p_line (g ++ s) = p_line s).
  { unfold p_line. rewrite !surrounded_eq. now rewrite skip_gap by auto. }
  now rewrite E.
Qed.

(** A line that is read up to a character which begins no line. *)
Lemma measure_semicolon l txt n v t g1 g2 g3 g4 g5 rest :
  Forall wf_def l -> lay_defs l txt -> n <= max_usize ->
  wf_ent KPlaneAngleMeasure [v] -> lay_entity KPlaneAngleMeasure [v] t ->
  gap g1 -> gap g2 -> gap g3 -> gap g4 -> gap g5 ->
  p_data (g4 ++ lit "DATA;" ++ g5 ++ txt ++ d_id n ++ g1 ++ lit "=" ++ g2 ++ t ++ g3 ++ lit ";" ++ rest) = RBack.
Proof.
  intros Hw Hl Hn Hv Ht H1 H2 H3 H4 H5. rewrite p_data_lines by auto. rewrite p_lines_gap by auto.
  rewrite (p_lines_prefix l) by (auto; apply (starts_no_gap (d_id n)); reflexivity).
  assert (E : p_lines (d_id n ++ g1 ++ lit "=" ++ g2 ++ t ++ g3 ++ lit ";" ++ rest) = RBack).
  { pose proof (p_lines_prefix [(n, Ent KPlaneAngleMeasure [v])]
      (d_id n ++ g1 ++ lit "=" ++ g2 ++ t ++ g3 ++ []) (lit ";" ++ rest)) as H.
    rewrite <- !app_assoc in H. cbn [app] in H. cbn [app]. rewrite H; clear H.
    - reflexivity.
    - repeat constructor; auto.
    - apply lay_defs_cons; auto. constructor.
    - cbn [app]. apply no_gap_char; [unfold blank; cbv; lia|cbv; lia]. }
  now rewrite E.
Qed.

(** ** Printing *)

Lemma d_entity_lay_obj e : wf_obj e -> lay_obj e (d_entity e).
Proof.
  destruct e as [k l|s]; cbn [wf_obj lay_obj]; intro H; [now apply d_entity_lay|reflexivity].
Qed.

Lemma gap_one c : blank c -> gap [c].
Proof. intro H. apply gap_blank; auto. constructor. Qed.

Lemma d_lines_lay m : Forall wf_def m -> lay_defs m (flat_map d_line m).
Proof.
  induction 1 as [|[n e] m [Hn Hw] Hm IH]; [constructor|]. cbn [flat_map]. unfold d_line at 1.
  cbn [fst snd] in *. rewrite <- !app_assoc. change (lit "= ") with (lit "=" ++ [32]).
  rewrite <- app_assoc. apply (lay_defs_cons n e [] [32] (d_entity e) nl); auto.
  - constructor.
  - apply gap_one. unfold blank. auto.
  - apply gap_one. unfold blank. auto.
  - now apply d_entity_lay_obj.
Qed.

Lemma d_data_lay m : Forall wf_def m -> exists s, lay_data m s /\ d_data m = s ++ nl.
Proof.
  intro H. exists (lit "DATA;" ++ nl ++ flat_map d_line m ++ lit "ENDSEC;"). split.
  - exists nl, (flat_map d_line m). split; [apply gap_one; unfold blank; auto|]. split; auto.
    now apply d_lines_lay.
  - unfold d_data. now rewrite <- !app_assoc.
Qed.

Lemma norm_map_increasing m : increasing m -> increasing (map norm_def m).
Proof.
  unfold increasing. rewrite map_map. cbn [norm_def fst]. auto.
Qed.

Lemma exact_norm_map m :
  Forall wf_def m -> forallb (fun p => exact_obj (snd p)) m = true -> map norm_def m = m.
Proof.
  induction 1 as [|[n e] m [_ Hw] Hm IH]; auto. cbn [forallb map fst snd]. intro H.
  apply andb_true_iff in H as [H1 H2]. unfold norm_def at 1. cbn [fst snd].
  rewrite exact_norm_entity, IH; auto.
Qed.

Lemma p_data_printed m g0 g rest :
  increasing m -> Forall wf_def m -> gap g0 -> gap g -> no_gap rest ->
  p_data (g0 ++ d_data m ++ g ++ rest) = ROk (map norm_def m) rest.
Proof.
  intros Hs Hw H0 Hg Hr. destruct (d_data_lay m Hw) as (s & Hl & ->). rewrite <- app_assoc.
  rewrite (app_assoc nl g rest). rewrite (p_data_reads m s g0 (nl ++ g) rest); auto.
  - now rewrite from_list_sorted by now apply norm_map_increasing.
  - apply gap_app; auto. apply gap_one. unfold blank. auto.
Qed.

(** ** What is read *)

(** Definitions that come from a file: ids fit, known objects are well formed. *)
Definition read_def (p : N * entity) : Prop :=
  fst p <= max_usize /\
  match snd p with Ent k l => wf_ent k l | EDummy s => ~ In 59 s end.

Lemma p_id_range s n r : p_id s = ROk n r -> n <= max_usize.
Proof.
  unfold p_id, bind. destruct (tag (lit "#") s) as [? q| | |]; try discriminate.
  unfold dec_uint_usize, bind. intro H.
  destruct (recognize_dec_uint q); try discriminate.
  destruct (N.leb_spec (digits_value a0) max_usize); [|discriminate]. injection H as <- _. exact H0.
Qed.

Lemma p_line_ok s p r : p_line s = ROk p r -> read_def p.
Proof.
  unfold p_line. rewrite surrounded_eq.
  destruct (bind p_id _ (skip s)) as [q r'| | |] eqn:E; try discriminate. intro H. injection H as <- <-.
  apply bind_ok in E as (n & r1 & E1 & E). apply bind_ok in E as (? & r2 & _ & E).
  apply bind_ok in E as (e & r3 & E3 & E). injection E as <- <-.
  split; [now apply p_id_range in E1|]. cbn [snd]. destruct e as [k l|w].
  - now apply p_obj_wf in E3.
  - now apply p_obj_dummy_inv in E3.
Qed.

Lemma p_data_ok s m r : p_data s = ROk m r -> increasing m /\ Forall read_def m.
Proof.
  unfold p_data. rewrite surrounded_eq.
  destruct (bind (tag (lit "DATA;")) _ (skip s)) as [q r'| | |] eqn:E; try discriminate.
  intro H. injection H as <- <-. apply bind_ok in E as (? & r1 & _ & E).
  apply pmap_ok in E as (l & E & ->). apply pmap_ok in E as ([l' b] & E & ->). cbn [fst].
  split; [apply from_list_increasing|]. apply repeat_till_Forall with (P := read_def) in E.
  - rewrite Forall_forall in *. intros p Hp. apply E. now apply from_list_In.
  - apply p_line_ok.
Qed.

(** ** Computing with opaque texts *)

Fixpoint no_comment (s : text) : bool :=
  match s with
  | a :: ((b :: _) as t) => negb ((a =? 47) && (b =? 42)) && no_comment t
  | _ => true
  end.

Lemma no_comment_ok s : no_comment s = true -> ~ occurs (lit "/*") s.
Proof.
  intros H (a & b & ->). induction a as [|c a IH].
  - cbn in H. discriminate.
  - apply IH. cbn [app] in H. destruct (a ++ lit "/*" ++ b) as [|d t] eqn:E.
    + reflexivity.
    + cbn [no_comment] in H. apply andb_true_iff in H as [_ H]. exact H.
Qed.

Definition is_blankb (c : N) : bool := (c =? 32) || (c =? 9) || (c =? 13) || (c =? 10).
Definition opaqueb (s : text) : bool :=
  match s with [] => false | c :: _ => negb (is_blankb c) && negb (c =? 47) end &&
  negb (is_blankb (last s 0)) && forallb (fun c => negb (c =? 59)) s && no_comment s && unknownb s.

Lemma is_blankb_ok c : is_blankb c = false -> ~ blank c.
Proof.
  unfold is_blankb, blank. intros H [H1|[H1|[H1|H1]]]; subst c; discriminate.
Qed.

Lemma opaqueb_ok s : opaqueb s = true -> opaque s.
Proof.
  unfold opaqueb. rewrite !andb_true_iff. intros [[[[H1 H2] H3] H4] H5].
  apply simple_body_opaque; [|now apply unknownb_ok].
  split; [|split; [|split]].
  - destruct s as [|c s]; [discriminate|]. apply andb_true_iff in H1 as [Ha Hb].
    split; [apply is_blankb_ok; now apply negb_true_iff|]. apply negb_true_iff, N.eqb_neq in Hb. exact Hb.
  - apply is_blankb_ok. now apply negb_true_iff.
  - intro Hin. rewrite forallb_forall in H3. specialize (H3 59 Hin). discriminate.
  - now apply no_comment_ok.
Qed.
