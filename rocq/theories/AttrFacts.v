(** Facts about attributes in the form used by the property theorems. *)

From Coq Require Import String Ascii List NArith ZArith Bool Lia ZifyBool ZifyNat ZifyN.
From Verif Require Import Base Prims BaseFacts Spec PrimsFacts StringFacts Guid GuidFacts
  Float RoundFacts FloatFacts Kind Types Layout WellTyped Schema Entity EntitySpec
  TypesFacts TypesFacts2 EntityFacts.
Import ListNotations.
Open Scope N_scope.

Lemma inside_ok t f : inside t f -> ty_ok f = true -> ty_ok t = true.
Proof.
  induction 1 as [|f H IH|f H IH|k kws ws fs closer f Hin H IH]; auto; cbn [ty_ok];
    rewrite ?andb_true_iff; intro Hok; try tauto.
  apply IH. destruct Hok as [[_ Hf] _]. rewrite forallb_forall in Hf. auto.
Qed.

Lemma used_ok k t : used_in k t -> ty_ok t = true.
Proof.
  intros (r & f & Hr & Hf & Hi). apply (inside_ok t f); auto.
  destruct (row_ok_inv r (all_rows_ok k r Hr)) as (_ & _ & H & _).
  rewrite forallb_forall in H. auto.
Qed.

Lemma delimited_stop rest : delimited_here rest -> stop rest.
Proof.
  intros (g & c & r & Hg & Hc & ->). apply stop_gap; auto. cbn. tauto.
Qed.

Lemma reads_reads_as {A} (p : parser A) txt v : reads p txt v -> reads_as p txt v.
Proof.
  intros H rest Hr. destruct (H rest (delimited_stop rest Hr)) as [E|E].
  - exists [], rest. repeat split; auto. constructor.
  - destruct (skip_spec rest) as (g & Eg & Hg & _). exists g, (skip rest). auto.
Qed.

(** ** Enumerations *)

Lemma p_enum_text vs i g1 g2 rest :
  variants_ok vs = true -> (i < length vs)%nat -> gap g1 -> gap g2 -> no_gap rest ->
  p_enum vs (g1 ++ nth i vs [] ++ g2 ++ rest) = ROk i rest.
Proof.
  intros Hok Hi H1 H2 Hr. pose proof (variants_ok_nth vs i Hok Hi) as Hs.
  apply andb_true_iff in Hok as [_ Hp].
  unfold p_enum. rewrite surrounded_eq, skip_gap_stop; auto.
  - rewrite (p_variants_show vs 0 i) by auto. cbn [Nat.add]. f_equal. now apply skip_gap_stop.
  - now apply starts_no_gap.
Qed.

Lemma variants_distinct vs i j t :
  variants_ok vs = true -> (i < length vs)%nat -> (j < length vs)%nat -> i <> j ->
  nth i vs [] <> nth j vs [] ++ t.
Proof.
  intros Hok Hi Hj Hij E.
  unfold variants_ok in Hok. apply andb_true_iff in Hok as [_ Hp].
  assert (H : incomparable (nth j vs []) (nth i vs []) = true).
  { destruct (Nat.lt_ge_cases i j).
    - rewrite incomparable_sym. apply (pairwise_nth incomparable vs []); auto; lia.
    - apply (pairwise_nth incomparable vs []); auto; lia. }
  apply incomparable_back with (s := []) in H. rewrite app_nil_r in H.
  rewrite E, tag_app in H. discriminate.
Qed.

(** ** Booleans *)

Definition long_bool (b : bool3) : text :=
  match b with BTrue => lit ".TRUE." | BFalse => lit ".FALSE." | BUnknown => lit ".UNKNOWN." end.
Definition short_bool (b : bool3) : text :=
  match b with BTrue => lit ".T." | BFalse => lit ".F." | BUnknown => lit ".U." end.

Lemma p_bool_text b txt g1 g2 rest :
  txt = long_bool b \/ txt = short_bool b -> gap g1 -> gap g2 -> no_gap rest ->
  p_bool (g1 ++ txt ++ g2 ++ rest) = ROk b rest.
Proof.
  intros Ht H1 H2 Hr. unfold p_bool. rewrite surrounded_eq, skip_gap_stop; auto.
  - assert (E : forall s, alts (map (fun kv => pmap (fun _ => snd kv) (tag (fst kv))) bool_variants) (txt ++ s) = ROk b s)
      by (intro s; destruct Ht as [-> | ->], b; reflexivity).
    rewrite E. f_equal. now apply skip_gap_stop.
  - apply starts_no_gap. destruct Ht as [-> | ->], b; reflexivity.
Qed.

(** ** Optional attributes *)

Lemma d_ty_starts t v : ty_ok t = true -> is_opt t = false -> wt t v = true ->
  starts_ok (d_ty t v) = true.
Proof.
  intros Hok Ho Hwt.
  destruct (proj1 lay_reads_all t v _ (d_ty_lay t v Hok Hwt) Hok Hwt) as (_ & _ & H). auto.
Qed.

Lemma d_ty_not_marker t v c r : ty_ok t = true -> is_opt t = false -> wt t v = true ->
  d_ty t v = c :: r -> c <> 36 /\ c <> 42.
Proof.
  intros Hok Ho Hwt E. pose proof (d_ty_starts t v Hok Ho Hwt) as H. rewrite E in H. cbn in H.
  apply starter_spec in H. tauto.
Qed.

Lemma d_ty_nonempty t v : ty_ok t = true -> is_opt t = false -> wt t v = true -> d_ty t v <> [].
Proof. intros Hok Ho Hwt E. pose proof (d_ty_starts t v Hok Ho Hwt) as H. now rewrite E in H. Qed.

Lemma ty_ok_opt t : ty_ok (TOpt t) = true -> ty_ok t = true /\ is_opt t = false.
Proof. cbn [ty_ok]. rewrite andb_true_iff, negb_true_iff. tauto. Qed.

Lemma wt_not_marker t v : is_opt t = false -> wt t v = true -> v <> VOmit /\ v <> VInh.
Proof.
  intros Ho Hw. destruct t; try discriminate Ho; split; intros ->; discriminate Hw.
Qed.

Lemma p_opt_omitted t s r : ty_ok (TOpt t) = true ->
  p_ty (TOpt t) s = ROk VOmit r -> s = lit "$" ++ r.
Proof.
  intros Hok H. apply ty_ok_opt in Hok as [Hok Ho]. cbn [p_ty] in H.
  apply alt_ok in H as [H|[_ H]].
  - apply pmap_ok in H as (? & H & _). now apply tag_ok in H.
  - apply alt_ok in H as [H|[_ H]].
    + apply pmap_ok in H as (? & _ & H). discriminate.
    + apply alt_ok in H as [H|[_ H]].
      * apply p_ty_ok in H. now apply wt_not_marker in H.
      * destruct t; try discriminate H. cbn [fallback] in H. unfold dim_fallback in H.
        apply pmap_ok in H as (? & _ & H). discriminate.
Qed.

Lemma p_opt_inherited t s r : ty_ok (TOpt t) = true -> t <> TDim ->
  p_ty (TOpt t) s = ROk VInh r -> s = lit "*" ++ r.
Proof.
  intros Hok Hd H. apply ty_ok_opt in Hok as [Hok Ho]. cbn [p_ty] in H.
  apply alt_ok in H as [H|[_ H]].
  - apply pmap_ok in H as (? & _ & H). discriminate.
  - apply alt_ok in H as [H|[_ H]].
    + apply pmap_ok in H as (? & H & _). now apply tag_ok in H.
    + apply alt_ok in H as [H|[_ H]].
      * apply p_ty_ok in H. now apply wt_not_marker in H.
      * destruct t; try discriminate H. congruence.
Qed.

(** ** Dimension counts *)

Lemma dim_kept i rest : (i < 3)%nat -> delimited_here rest ->
  exists g r, gap g /\ rest = g ++ r /\
    p_ty (TOpt TDim) (show_N (N.of_nat i + 1) ++ rest) = ROk (VEnum i) r.
Proof.
  intros Hi Hr.
  assert (E : show_N (N.of_nat i + 1) = d_ty (TOpt TDim) (VEnum i)).
  { destruct i as [|[|[|]]]; [reflexivity..|lia]. }
  rewrite E. apply (reads_reads_as (p_ty (TOpt TDim)) _ (VEnum i)); auto.
  apply (lay_reads (TOpt TDim) (VEnum i)); try reflexivity.
  - cbn [wt]. now apply Nat.ltb_lt.
  - apply d_ty_lay; try reflexivity. cbn [wt]. now apply Nat.ltb_lt.
Qed.

Lemma dim_lost z c ds rest :
  (i32_min <= z <= i32_max)%Z -> show_Z z = c :: ds -> c <> 49 -> c <> 50 -> c <> 51 -> no_digit rest ->
  p_ty (TOpt TDim) (show_Z z ++ rest) = ROk VInh rest.
Proof.
  intros Hz E H1 H2 H3 Hr. cbn [p_ty fallback].
  assert (Hs : starts_ok (show_Z z) = true) by apply show_Z_starts.
  assert (Hg : no_gap (show_Z z ++ rest)) by now apply starts_no_gap.
  assert (Et : forall x, x = [49] \/ x = [50] \/ x = [51] \/ x = [36] \/ x = [42] -> tag x (show_Z z ++ rest) = RBack).
  { rewrite E in Hs. cbn in Hs. apply starter_spec in Hs. rewrite E. cbn [app].
    intros x [->|[->|[->|[->| ->]]]]; apply tag_neq; intuition congruence. }
  unfold alt at 1, pmap at 1. rewrite (Et (lit "$")) by (cbv; auto).
  unfold alt at 1, pmap at 1. rewrite (Et (lit "*")) by (cbv; tauto).
  unfold alt at 1, pmap at 1, p_enum. rewrite surrounded_eq, skip_no_gap by auto.
  unfold dim_variants. cbn [p_variants]. unfold alt, pmap at 1 2 3.
  rewrite (Et (lit "1")), (Et (lit "2")), (Et (lit "3")) by (cbv; tauto).
  unfold fail, dim_fallback, pmap. now rewrite dec_int_show.
Qed.

(** A longer number that begins with 1, 2 or 3 is cut after its first digit. *)
Lemma dim_cut i ds rest : (i < 3)%nat -> no_gap (ds ++ rest) ->
  p_ty (TOpt TDim) (show_N (N.of_nat i + 1) ++ ds ++ rest) = ROk (VEnum i) (ds ++ rest).
Proof.
  intros Hi Hg. cbn [p_ty].
  assert (Hn : no_gap (show_N (N.of_nat i + 1) ++ ds ++ rest)).
  { apply starts_no_gap, show_N_starts. }
  assert (E : p_enum dim_variants (show_N (N.of_nat i + 1) ++ ds ++ rest) = ROk i (ds ++ rest)).
  { unfold p_enum. rewrite surrounded_eq, skip_no_gap by auto.
    destruct i as [|[|[|]]]; [..|lia]; cbn - [skip]; now rewrite skip_no_gap. }
  unfold alt, pmap. rewrite E.
  destruct i as [|[|[|]]]; [..|lia]; reflexivity.
Qed.
