(** Facts: the accuracy of saving and loading. *)

From Coq Require Import String Ascii List NArith ZArith Bool Lia.
From Coq Require Import QArith Qpower Qabs Lqa.
From Verif Require Import Base Prims BaseFacts Spec PrimsFacts StringFacts Guid Float RoundFacts FloatFacts
  Kind Types Schema Entity Layout WellTyped EntitySpec DataMap DataSpec TypesFacts TypesFacts2
  EntityFacts DataMapFacts SectionFacts Header HeaderSpec File FileSpec FileFacts
  Arith ArithSpec ArithRound ArithUnit
  Builder BuilderRun BuilderSpec BuilderLoadSpec BuilderOut BuilderLoad HistorySpec MoveSpec FormSpec BuilderForm BuilderForm2
  BuilderExample DirSpec BuilderDirs DirFacts GeoSpec GeoFacts AccSpec.
Import ListNotations.
Open Scope Q_scope.

(** ** Numbers *)

Lemma stop_nil : stop [].
Proof. exact I. Qed.

Lemma fv_abs neg m e : Qabs (fv (FFin neg m e)) == qn m * b2 e.
Proof.
  pose proof (qn_nonneg m). pose proof (b2_pos e). cbn [fv]. fold (b2 e). fold (qn m).
  assert (P : 0 <= qn m * b2 e) by nra.
  destruct neg; rewrite Qabs_Qmult, (Qabs_pos (qn m * b2 e)) by exact P; change (Qabs (-1)) with 1; change (Qabs 1) with 1; ring.
Qed.

Lemma fv_same neg m e m' e' :
  Qabs (fv (FFin neg m' e') - fv (FFin neg m e)) == Qabs (qn m' * b2 e' - qn m * b2 e).
Proof.
  cbn [fv]. fold (b2 e). fold (b2 e'). fold (qn m). fold (qn m').
  destruct neg.
  - rewrite <- Qabs_opp. apply Qabs_wd. ring.
  - apply Qabs_wd. ring.
Qed.

Lemma close_refl d : f64_ok d -> close_real d d.
Proof.
  destruct d as [|s|s m e]; cbn [close_real]; auto. intro H. split; [reflexivity|]. split; [exact H|].
  assert (E : Qabs (fv (FFin s m e) - fv (FFin s m e)) == 0) by (rewrite fv_same; assert (X : qn m * b2 e - qn m * b2 e == 0) by ring; rewrite X; reflexivity).
  rewrite E. pose proof (Qabs_nonneg (fv (FFin s m e))). assert (0 <= inject_Z 10 ^ (-14)) by (vm_compute; discriminate). nra.
Qed.

Lemma norm_close d : f64_ok d -> close_real d (norm_real d).
Proof.
  intro Hok. destruct (is_scientific d) eqn:Es.
  - destruct (p_real_sci_nearest d [] Hok Es stop_nil) as (neg & m & e & i & f & ks & k & m' & e' & -> & _ & _ & _ & _ & _ & H).
    cbv zeta in H. set (x := qn (digits_value (i ++ f)) * b10 (k - 14)) in *. destruct H as (Ha & Hp & Hok' & Hn).
    assert (Hp' := p_real_show (FFin neg m e) [] Hok stop_nil). rewrite Hp in Hp'. injection Hp' as <-.
    cbn [close_real]. split; [reflexivity|]. split; [exact Hok'|].
    rewrite fv_same, fv_abs. specialize (Hn neg m e Hok).
    assert (B : b10 (-14) == inject_Z 10 ^ (-14)) by reflexivity. rewrite <- B.
    set (u := qn m * b2 e) in *. set (w := qn m' * b2 e') in *.
    assert (T : Qabs (w - u) <= Qabs (w - x) + Qabs (x - u)).
    { eapply Qle_trans; [|apply Qabs_triangle]. apply Qle_lteq. right. apply Qabs_wd. ring. }
    assert (S : Qabs (u - x) == Qabs (x - u)) by (rewrite <- Qabs_opp; apply Qabs_wd; ring).
    rewrite S in Hn. assert (E : (1 # 2) * b10 (-14) * u == (1#2) * (b10 (-14) * u)) by ring. rewrite E in Ha. lra.
  - rewrite norm_real_plain by auto. now apply close_refl.
Qed.

(** ** Values and models *)

Lemma occurs_dec t s : {occurs t s} + {~ occurs t s}.
Proof.
  induction s as [|c s IH].
  - destruct t as [|d t]; [left; now exists [], []|]. right. intros (a & b & E). destruct a; discriminate.
  - destruct (strip_prefix t (c :: s)) as [r|] eqn:P.
    + left. exists [], r. now apply strip_prefix_Some in P.
    + destruct IH as [H|H].
      * left. destruct H as (a & b & ->). now exists (c :: a), b.
      * right. intros (a & b & E). destruct a as [|d a].
        -- cbn [app] in E. rewrite E, strip_prefix_app in P. discriminate.
        -- injection E as -> E. apply H. now exists a, b.
Qed.

Lemma norm_text s : translate_decode (translate_encode s) = s \/ occurs (lit "X2\0") s.
Proof.
  destruct (occurs_dec (lit "X2\0") s) as [H|H]; [now right|]. left. now apply decode_encode.
Qed.

Lemma norm_val_close t : forall v, wt t v = true -> close_val v (normv v).
Proof.
  assert (Hr : forall d, f64_okb d = true -> close_real d (norm_real d)).
  { intros d H. apply norm_close. now apply f64_okb_ok. }
  assert (Hs : forall d, f64_okb d = true -> close_real d d).
  { intros d H. apply close_refl. now apply f64_okb_ok. }
  induction t using fty_rect'; intros v Hwt.
  15:{ destruct v; try (now constructor); rewrite wt_opt in Hwt by discriminate; auto. }
  all: destruct v as [| | | | | | |lv|i c| | |lv|lv]; try discriminate Hwt; cbn [norm_val];
    try (now constructor).
  - constructor. apply norm_text.
  - constructor. auto.
  - destruct lv as [|x [|y [|]]]; try discriminate Hwt. cbn [wt map] in *.
    apply andb_true_iff in Hwt as [H1 H2]. constructor. auto.
  - destruct lv as [|x [|y [|z [|]]]]; try discriminate Hwt. cbn [wt map] in *.
    rewrite !andb_true_iff in Hwt. destruct Hwt as [[H1 H2] H3]. constructor. auto.
  - cbn [wt] in Hwt.
    destruct i as [|[|[|[|[|]]]]]; destruct c; try discriminate Hwt; cbn [norm_val measure_ok] in *;
      constructor; try constructor; auto; apply norm_text.
  - rewrite wt_ent in *. constructor. revert lv Hwt.
    induction H as [|t fs Ht Hfs IH]; intros [|v l] Hwt; try discriminate Hwt; cbn [map]; [constructor|].
    cbn [wts] in *. apply andb_true_iff in Hwt as [H1 H2]. constructor; auto.
  - cbn [wt] in *. rewrite forallb_forall in *. constructor. induction lv as [|x lv IHl]; cbn [map]; constructor.
    + apply IHt. apply Hwt. now left.
    + apply IHl. intros y Hy. apply Hwt. now right.
Qed.

Lemma norm_list_close fs : forall l, wts fs l = true -> Forall2 close_val l (map normv l).
Proof.
  induction fs as [|t fs IH]; intros [|v l] H; try discriminate H; cbn [map]; [constructor|].
  cbn [wts] in H. apply andb_true_iff in H as [H1 H2]. constructor; auto. now apply norm_val_close with t.
Qed.

Lemma norm_entity_close e : wf_obj e -> close_entity e (norm_entity e).
Proof.
  destruct e as [k l|s]; cbn [wf_obj norm_entity]; [|constructor]. intros (r & _ & H). constructor.
  eapply norm_list_close; eauto.
Qed.

Lemma norm_ifc_close v x : ifc_ok v x -> close_model (i_data x) (i_data (norm_ifc x)).
Proof.
  intros (_ & _ & H). cbn [i_data norm_ifc]. unfold close_model. induction H as [|[n e] m [_ He] _ IH]; cbn [map]; constructor; auto.
  split; [reflexivity|]. now apply norm_entity_close.
Qed.

Lemma saved_close v x : ifc_ok v x ->
  exists y, p_ifc v (save x) = ROk y [] /\ i_header y = i_header x /\ close_model (i_data x) (i_data y).
Proof. intro H. exists (norm_ifc x). split; [now apply p_ifc_saved|]. split; [reflexivity|]. now apply norm_ifc_close with v. Qed.

Lemma loaded_close v x : ifc_ok v x -> refs_ok (i_data x) ->
  exists y, load v (save x) = Done y /\ i_header y = i_header x /\ close_model (i_data x) (i_data y).
Proof. intros H Hr. exists (norm_ifc x). split; [now apply load_saved|]. split; [reflexivity|]. now apply norm_ifc_close with v. Qed.

Lemma built_close v o t i xs ls r :
  sane o -> info_ok i = true -> forallb op_ok xs = true -> existsb is_shading xs = false ->
  program o i xs = Done (ls, r) -> honest [] xs ls -> civil t -> chrono_reads v t ->
  exists y, load v (save (mk_ifc (default_header t) (p_map r))) = Done y /\ close_model (p_map r) (i_data y).
Proof.
  intros Ho Hi Hx Hs H Hh H1 H2. exists (norm_ifc (mk_ifc (default_header t) (p_map r))).
  split; [exact (proj1 (builder_loads v o t i xs ls r Ho Hi Hx Hs H Hh H1 H2))|].
  destruct (program_good _ _ _ _ _ Ho Hi Hx H Hh) as [HI _]. rewrite Hs in HI.
  exact (norm_ifc_close v _ (built_ok v t _ _ _ HI H1 H2)).
Qed.

(** ** Objects of close models *)

Lemma close_lookup m m' n : close_model m m' ->
  match lookup m n with
  | None => lookup m' n = None
  | Some e => exists e', lookup m' n = Some e' /\ close_entity e e'
  end.
Proof.
  intro H. induction H as [|[a e] [b e'] m m' [E C] _ IH]; cbn [lookup]; [reflexivity|].
  cbn [fst snd] in *. subst b. destruct (a =? n)%N; eauto.
Qed.

Lemma close_at m m' n k l : close_model m m' -> lookup m n = Some (Ent k l) ->
  exists l', lookup m' n = Some (Ent k l') /\ Forall2 close_val l l'.
Proof.
  intros H E. pose proof (close_lookup m m' n H) as C. rewrite E in C. destruct C as (e' & E' & C).
  inversion C; subst. eauto.
Qed.

Lemma close_back m m' n k l' : close_model m m' -> lookup m' n = Some (Ent k l') ->
  exists l, lookup m n = Some (Ent k l) /\ Forall2 close_val l l'.
Proof.
  intros H E. pose proof (close_lookup m m' n H) as C. destruct (lookup m n) as [e|] eqn:L.
  - destruct C as (e' & E' & C). rewrite E in E'. injection E' as <-. inversion C; subst. eauto.
  - congruence.
Qed.

Ltac inv_close :=
  repeat match goal with
  | H : Forall2 _ (_ :: _) _ |- _ => inversion H; clear H; subst
  | H : Forall2 _ [] _ |- _ => inversion H; clear H; subst
  | H : close_val (VId _) _ |- _ => inversion H; clear H; subst
  | H : close_val (VEnum _) _ |- _ => inversion H; clear H; subst
  | H : close_val VOmit _ |- _ => inversion H; clear H; subst
  | H : close_val (VReal _) _ |- _ => inversion H; clear H; subst
  | H : close_val (VList _) _ |- _ => inversion H; clear H; subst
  | H : close_val (VVec _) _ |- _ => inversion H; clear H; subst
  end.

Ltac at_close C :=
  repeat match goal with
  | H : lookup ?m _ = Some (Ent _ _) |- _ =>
      apply (close_at m _ _ _ _ C) in H; let l := fresh "l" in let H' := fresh "V" in destruct H as (l & H & H')
  end.

Lemma close_ids l l' : Forall2 close_val (map VId l) l' -> l' = map VId l.
Proof.
  revert l'. induction l as [|n l IH]; intros l' H; inversion H; subst; cbn [map]; [reflexivity|].
  f_equal; [|auto]. match goal with X : close_val _ _ |- _ => inversion X end. reflexivity.
Qed.

Lemma close_vec v x : close_val (vec v) x -> exists v', x = vec v' /\ close3 v v'.
Proof.
  destruct v as [[a b] c]. cbn [vec]. intro H. inv_close. eexists (_, _, _). split; [reflexivity|]. unfold close3. cbn [coords]. auto.
Qed.

Lemma close_vec2 v x : close_val (vec_2 v) x -> exists v', x = vec_2 v' /\ close2 v v'.
Proof.
  unfold vec_2. intro H. inv_close. eexists (_, _). split; [reflexivity|]. split; assumption.
Qed.

Lemma close_points l x : Forall2 close_val (map vec l) x -> exists l', x = map vec l' /\ Forall2 close3 l l'.
Proof.
  revert x. induction l as [|v l IH]; intros x H; inversion H as [|? ? ? ? H1 H2]; subst; cbn [map].
  - exists []. split; [reflexivity|constructor].
  - apply close_vec in H1 as (v' & -> & C). destruct (IH _ H2) as (l1 & -> & F). exists (v' :: l1). split; [reflexivity|now constructor].
Qed.

Lemma close_points2 l x : Forall2 close_val (map vec_2 l) x -> exists l', x = map vec_2 l' /\ Forall2 close2 l l'.
Proof.
  revert x. induction l as [|v l IH]; intros x H; inversion H as [|? ? ? ? H1 H2]; subst; cbn [map].
  - exists []. split; [reflexivity|constructor].
  - apply close_vec2 in H1 as (v' & -> & C). destruct (IH _ H2) as (l1 & -> & F). exists (v' :: l1). split; [reflexivity|now constructor].
Qed.

(** ** Directions *)

Lemma close_square d d' : finite d -> close_real d d' ->
  finite d' /\ Qabs (fv d' * fv d' - fv d * fv d) <= (2000001 # 1000000) * inject_Z 10 ^ (-14) * (fv d * fv d).
Proof.
  intros Hd H. destruct d as [| |s m e]; try contradiction. destruct d' as [| |s' m' e']; cbn [close_real] in H; try contradiction.
  destruct H as (_ & F & H). split; [exact F|]. set (a := fv (FFin s m e)) in *. set (b := fv (FFin s' m' e')) in *. clearbody a b.
  set (t := inject_Z 10 ^ (-14)) in *. assert (T : 0 <= t <= (1 # 1000000)) by (split; vm_compute; discriminate). clearbody t. clear - H T.
  assert (E : b * b - a * a == (b - a) * (b - a) + 2 * a * (b - a)) by ring. rewrite E.
  assert (S : a * a == Qabs a * Qabs a).
  { rewrite <- Qabs_Qmult. symmetry. apply Qabs_pos. nra. }
  eapply Qle_trans; [apply Qabs_triangle|]. rewrite !Qabs_Qmult. change (Qabs 2) with 2. rewrite S.
  pose proof (Qabs_nonneg a) as Pa. pose proof (Qabs_nonneg (b - a)) as Pb. set (p := Qabs a) in *. set (q := Qabs (b - a)) in *. clearbody p q. clear - H T Pa Pb.
  assert (q * q <= (t * p) * (t * p)) by nra. assert (2 * p * q <= 2 * p * (t * p)) by nra.
  assert (0 <= p * p) by nra. assert ((t * p) * (t * p) <= (1 # 1000000) * (t * (p * p))).
  { assert (X : (t * p) * (t * p) == t * (t * (p * p))) by ring. rewrite X. assert (0 <= t * (p * p)) by nra. nra. }
  lra.
Qed.

Lemma close_unit v v' : unit3 v -> close3 v v' -> nearly_unit v'.
Proof.
  destruct v as [[x y] z], v' as [[x' y'] z']. unfold unit3, close3, nearly_unit. cbn [coords].
  intros [F U] C. inversion F as [|? ? Fx F1]; subst. inversion F1 as [|? ? Fy F2]; subst. inversion F2 as [|? ? Fz _]; subst.
  inversion C as [|? ? ? ? Cx C1]; subst. inversion C1 as [|? ? ? ? Cy C2]; subst. inversion C2 as [|? ? ? ? Cz _]; subst.
  destruct (close_square x x' Fx Cx) as [Fx' Hx]. destruct (close_square y y' Fy Cy) as [Fy' Hy]. destruct (close_square z z' Fz Cz) as [Fz' Hz].
  split; [auto|]. cbn [sum_sq fold_right] in *.
  set (t := (2000001 # 1000000) * inject_Z 10 ^ (-14)) in *.
  assert (T : 0 <= t) by (vm_compute; discriminate).
  assert (B : t * (1 + inject_Z 2 ^ (-47)) + inject_Z 2 ^ (-47) <= inject_Z 2 ^ (-45)) by (vm_compute; discriminate).
  set (e := inject_Z 2 ^ (-47)) in *. set (g := inject_Z 2 ^ (-45)) in *. clearbody t e g.
  apply Qabs_Qle_condition in U. apply Qabs_Qle_condition in Hx. apply Qabs_Qle_condition in Hy. apply Qabs_Qle_condition in Hz.
  apply Qabs_Qle_condition.
  set (a := fv x * fv x) in *. set (b := fv y * fv y) in *. set (c := fv z * fv z) in *.
  set (a' := fv x' * fv x') in *. set (b' := fv y' * fv y') in *. set (c' := fv z' * fv z') in *. clearbody a b c a' b' c'.
  assert (M : t * (a + b + c) <= t * (1 + e)) by (clear - T U; nra).
  clear - U Hx Hy Hz M B. split; lra.
Qed.

Lemma close_directions m m' : unit_directions m -> close_model m m' -> nearly_unit_directions m'.
Proof.
  intros U C n l H. apply (close_back m m' n KDirection3D l C) in H as (l0 & H & V). apply U in H as (v & -> & Hv).
  inversion V as [|? ? ? ? V1 V2]; subst. inversion V2; subst. apply close_vec in V1 as (v' & -> & Hc).
  exists v'. split; [reflexivity|]. now apply close_unit with v.
Qed.

Lemma close_component c c' q e : finite c -> close_real c c' -> Qabs (fv c) <= 1 + inject_Z 2 ^ (-46) ->
  Qabs (fv c - q) <= inject_Z 2 ^ (-46) -> e == inject_Z 2 ^ (-45) -> Qabs (fv c' - q) <= e.
Proof.
  intros F C B H ->. destruct c as [| |s m x]; try contradiction. destruct c' as [| |s' m' x']; cbn [close_real] in C; try contradiction.
  destruct C as (_ & _ & C). set (a := fv (FFin s m x)) in *. set (b := fv (FFin s' m' x')) in *. clearbody a b.
  assert (T : Qabs (b - q) <= Qabs (b - a) + Qabs (a - q)).
  { eapply Qle_trans; [|apply Qabs_triangle]. apply Qle_lteq. right. apply Qabs_wd. ring. }
  assert (N : inject_Z 10 ^ (-14) * (1 + inject_Z 2 ^ (-46)) + inject_Z 2 ^ (-46) <= inject_Z 2 ^ (-45)) by (vm_compute; discriminate).
  assert (P : 0 <= inject_Z 10 ^ (-14)) by (vm_compute; discriminate).
  set (t := inject_Z 10 ^ (-14)) in *. set (g := inject_Z 2 ^ (-46)) in *. set (h := inject_Z 2 ^ (-45)) in *. clearbody t g h.
  assert (t * Qabs a <= t * (1 + g)) by nra. lra.
Qed.

Lemma unit_component a b c : 0 <= b -> 0 <= c -> Qabs (a * a + (b + (c + 0)) - 1) <= inject_Z 2 ^ (-47) -> Qabs a <= 1 + inject_Z 2 ^ (-46).
Proof.
  intros Hb Hc H. apply Qabs_Qle_condition in H. assert (G : inject_Z 2 ^ (-47) * 2 == inject_Z 2 ^ (-46)) by (vm_compute; reflexivity).
  assert (P : 0 <= inject_Z 2 ^ (-47)) by (vm_compute; discriminate). set (e := inject_Z 2 ^ (-47)) in *. set (g := inject_Z 2 ^ (-46)) in *. clearbody e g.
  assert (S : a * a <= 1 + e) by lra. clear - S P G. apply Qabs_Qle_condition. split; nra.
Qed.

Lemma close_points_to a d d' : points_to a d -> close3 d d' -> nearly_points_to a d'.
Proof.
  intros [U (k & Pk & H)] C. split; [now apply close_unit with d|]. exists k. split; [exact Pk|].
  destruct a as [[x y] z], d as [[u v] w], d' as [[u' v'] w']. destruct U as [F U]. unfold close3 in C. cbn [coords] in *.
  inversion F as [|? ? Fx F1]; subst. inversion F1 as [|? ? Fy F2]; subst. inversion F2 as [|? ? Fz _]; subst.
  inversion C as [|? ? ? ? Cx C1]; subst. inversion C1 as [|? ? ? ? Cy C2]; subst. inversion C2 as [|? ? ? ? Cz _]; subst.
  destruct H as (H1 & H2 & H3). cbn [sum_sq fold_right] in U.
  assert (Sq : forall q : Q, 0 <= q * q) by (intro q; nra).
  refine (conj _ (conj _ _)).
  - refine (close_component _ _ _ _ Fx Cx _ H1 (Qeq_refl _)). eapply unit_component; [apply (Sq (fv v))|apply (Sq (fv w))|exact U].
  - refine (close_component _ _ _ _ Fy Cy _ H2 (Qeq_refl _)). eapply unit_component; [apply (Sq (fv u))|apply (Sq (fv w))|].
    eapply Qle_trans; [|exact U]. apply Qle_lteq. right. apply Qabs_wd. ring.
  - refine (close_component _ _ _ _ Fz Cz _ H3 (Qeq_refl _)). eapply unit_component; [apply (Sq (fv u))|apply (Sq (fv v))|].
    eapply Qle_trans; [|exact U]. apply Qle_lteq. right. apply Qabs_wd. ring.
Qed.

(** ** Shapes *)

Ltac look C H :=
  let l := fresh "l" in let V := fresh "V" in
  apply (close_at _ _ _ _ _ C) in H; destruct H as (l & H & V).

Lemma outlined_close m m' p f : close_model m m' -> outlined m p f -> nearly_outlined m' p f.
Proof.
  intro C. destruct f as [a b|l|l]; cbn [outlined nearly_outlined].
  - intros (ax & c & H1 & H2 & H3). look C H1. look C H2. look C H3. inversion V1 as [|? ? ? ? W1 W2]; subst. apply close_vec2 in W1 as (z & -> & Hz).
    inv_close. eexists _, _, _, _, _. refine (conj H1 (conj H2 (conj H3 (conj _ (conj _ Hz))))); assumption.
  - intros (c & q & H1 & H2 & H3). look C H1. look C H2. look C H3. inv_close.
    match goal with X : Forall2 _ (map vec_2 _) _ |- _ => apply close_points2 in X as (l1 & -> & F) end.
    eexists _, _, _. refine (conj H1 (conj H2 (conj H3 F))).
  - intros (c & q & H1 & H2 & H3). look C H1. look C H2. look C H3. inv_close.
    match goal with X : Forall2 _ (map vec _) _ |- _ => apply close_points in X as (l1 & -> & F) end.
    eexists _, _, _. refine (conj H1 (conj H2 (conj H3 F))).
Qed.

Lemma body_close m m' r f : close_model m m' -> body m r f -> exists d', nearly_body m' r f d'.
Proof.
  intro C. destruct f as [[out dir] len]. intros (ctx & s & p & d & H1 & H2 & H3 & H4).
  look C H1. look C H2. look C H3. apply (outlined_close m m' p out C) in H4.
  inversion V1 as [|? ? ? ? W1 W2]; subst. apply close_vec in W1 as (z & -> & Hz). inv_close.
  exists z. eexists _, _, _, _, _. refine (conj H1 (conj H2 (conj H3 (conj Hz (conj _ H4))))). assumption.
Qed.

Lemma axis_close m m' r v : close_model m m' -> axis m r v -> nearly_axis m' r v.
Proof.
  intro C. intros (ctx & l & a & b & H1 & H2 & H3 & H4). unfold pointed in *.
  look C H1. look C H2. look C H3. look C H4.
  inversion V1 as [|? ? ? ? W1 W2]; subst. apply (close_vec v_zero) in W1 as (z & -> & Hz).
  inversion V2 as [|? ? ? ? W1 W3]; subst. apply close_vec in W1 as (z' & -> & Hz'). inv_close.
  eexists _, _, _, _, _, _. refine (conj H1 (conj H2 (conj H3 (conj Hz (conj H4 Hz'))))).
Qed.

Lemma depicts_close m m' rs f ax : close_model m m' -> depicts m rs f ax -> exists d', nearly_depicts m' rs f ax d'.
Proof.
  intro C. destruct ax as [v|]; cbn [depicts nearly_depicts].
  - intros (r & x & -> & Hb & Hx). apply (body_close m m' r f C) in Hb as (d' & Hb). exists d', r, x.
    refine (conj eq_refl (conj Hb _)). now apply axis_close with m.
  - intros (r & -> & Hb). apply (body_close m m' r f C) in Hb as (d' & Hb). exists d', r. auto.
Qed.

Lemma shape_close m m' n : close_model m m' -> forall s, shape_of m n = Some s -> shape_of m' n = Some s.
Proof.
  intros C s. unfold shape_of. destruct (lookup m n) as [[k l|t]|] eqn:E; try discriminate. look C E. rewrite E.
  destruct (nth_error l 6) as [v|] eqn:En; try discriminate. intro H. destruct v; try discriminate.
  assert (X : exists v', nth_error l0 6 = Some v' /\ close_val (VId n0) v').
  { clear - V En. revert En. generalize 6%nat. induction V as [|a b l l' Hc _ IH]; intros [|i] En; try discriminate; cbn [nth_error] in *.
    - injection En as ->. eauto.
    - eauto. }
  destruct X as (v' & -> & Hc). inversion Hc. assumption.
Qed.

Lemma drawn_close m m' n rs : close_model m m' -> drawn m n rs -> drawn m' n rs.
Proof.
  intros C (sh & H1 & H2). exists sh. split; [now apply shape_close with m|]. look C H2. inv_close.
  match goal with X : Forall2 _ (map VId _) _ |- _ => apply close_ids in X; rewrite X in H2 end. assumption.
Qed.

Lemma shows_trans m a b c : shows m a b -> shows m b c -> shows m a c.
Proof. intros H K. induction H; auto. econstructor; eauto. Qed.

Lemma moved_close m m' mvs r r' : close_model m m' -> moved m mvs r r' -> shows m' r r'.
Proof.
  intros C H. induction H as [r|l [[keep t] origin] r r1 r' _ IH M]; [constructor|].
  destruct M as (ctx & i & it & mp & tr & ax & pt & H1 & H2 & H3 & _). look C H1. look C H2. look C H3. inv_close.
  eapply shows_mapped; eauto.
Qed.

Lemma built_shapes_close v o t i xs ls r cs c ds k n :
  sane o -> info_ok i = true -> forallb op_ok xs = true -> existsb is_shading xs = false ->
  program o i xs = Done (ls, r) -> honest [] xs ls -> civil t -> chrono_reads v t ->
  calls [] xs ls = cs ++ c :: ds -> In (k, n) (call_products c) ->
  exists y f ax rs rs' d,
    load v (save (mk_ifc (default_header t) (p_map r))) = Done y /\
    form_of o cs c n f ax /\ drawn (i_data y) n rs' /\ Forall2 (shows (i_data y)) rs' rs /\
    nearly_depicts (i_data y) rs f ax d /\
    (Forall directed xs -> exists a, way cs c n a /\ nearly_points_to a d).
Proof.
  intros Ho Hi Hx Hs H Hh H1 H2 E Hn.
  destruct (built_close v o t i xs ls r Ho Hi Hx Hs H Hh H1 H2) as (y & HL & C).
  destruct (built_fits o (proj1 Ho) i xs ls r cs c ds k n H Hh E Hn) as (f & ax & rs & rs' & mvs & Hf & Hp & Hj & Hw & Hm).
  destruct (depicts_close _ _ rs f ax C Hp) as (d & Hd). exists y, f, ax, rs, rs', d.
  refine (conj HL (conj Hf (conj (drawn_close _ _ _ _ C Hw) (conj _ (conj Hd _))))).
  - clear - Hm C. induction Hm as [|a b l l' M _ IH]; constructor; auto. eapply moved_close; eauto.
  - intro Hdir. assert (D : forall c', In c' (cs ++ c :: ds) -> directed (given c')).
    { intros c' X. rewrite <- E in X. apply calls_given in X. rewrite Forall_forall in Hdir. auto. }
    destruct (form_points o cs c n f ax Hf) as (a & Ha & Hpt).
    + apply D. apply in_or_app. right. now left.
    + intros c' X. apply D. apply in_or_app. now left.
    + exists a. split; [exact Ha|]. assert (C3 : close3 (aim f) d).
      { destruct f as [[out dir] len]. cbn [aim]. destruct ax; cbn [nearly_depicts] in Hd.
        - destruct Hd as (? & ? & _ & (? & ? & ? & ? & ? & _ & _ & _ & X & _) & _). exact X.
        - destruct Hd as (? & _ & (? & ? & ? & ? & ? & _ & _ & _ & X & _)). exact X. }
      now apply close_points_to with (aim f).
Qed.

Lemma loaded_directions v o t i xs ls r :
  sane o -> info_ok i = true -> forallb op_ok xs = true -> existsb is_shading xs = false ->
  program o i xs = Done (ls, r) -> honest [] xs ls -> civil t -> chrono_reads v t -> Forall directed xs ->
  exists y, load v (save (mk_ifc (default_header t) (p_map r))) = Done y /\ nearly_unit_directions (i_data y).
Proof.
  intros Ho Hi Hx Hs H Hh H1 H2 Hd.
  destruct (built_close v o t i xs ls r Ho Hi Hx Hs H Hh H1 H2) as (y & HL & C). exists y. split; [exact HL|].
  apply close_directions with (p_map r); [|exact C]. eapply program_dirs; eauto.
Qed.
