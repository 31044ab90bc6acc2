(** Every object the builder makes has attributes of the right types that refer to
    objects of the right kinds.

    [K] are the kinds of the objects at the end of the program; since no object is ever
    removed or changes its kind, what a call returns can be described with [K] alone. *)

From Coq Require Import String Ascii List NArith ZArith Bool Lia Permutation.
From Coq Require Import ZifyBool ZifyNat ZifyN.
From Verif Require Import Base Prims PrimsFacts Float Kind Types WellTyped TypesFacts Schema Entity
  EntityFacts DataMap DataSpec DataMapFacts Extractor Arith ArithFacts Builder BuilderRun BuilderBase
  BuilderGrow BuilderAny BuilderSpec BuilderLoadSpec TemplateSpec.
Import ListNotations.
Open Scope N_scope.
Open Scope builder_scope.

(** ** Texts and vectors *)

Lemma text_ok_app a b : text_ok (a ++ b) = text_ok a && text_ok b.
Proof. unfold text_ok. now rewrite existsb_app, negb_orb. Qed.

Lemma text_ok_show n : text_ok (show_N n) = true.
Proof.
  apply text_ok_iff. intro H. pose proof (show_N_digits n) as D. rewrite forallb_forall in D.
  specialize (D _ H). discriminate.
Qed.

Lemma vadd_ok a b : vec3_ok (vadd a b) = true.
Proof. destruct a as [[x y] z], b as [[x' y'] z']. cbn [vadd vec3_ok]. now rewrite !fadd_okb. Qed.
Lemma vsub_ok a b : vec3_ok (vsub a b) = true.
Proof. destruct a as [[x y] z], b as [[x' y'] z']. cbn [vsub vec3_ok]. now rewrite !fsub_okb. Qed.
Lemma vscale_ok a k : vec3_ok (vscale a k) = true.
Proof. destruct a as [[x y] z]. cbn [vscale vec3_ok]. now rewrite !fmul_okb. Qed.
Lemma vnormalize_ok a : vec3_ok (vnormalize a) = true.
Proof. apply vscale_ok. Qed.
Lemma vextend_ok a z : vec2_ok a = true -> f64_okb z = true -> vec3_ok (vextend a z) = true.
Proof. unfold vec2_ok, vextend, vec3_ok. intros H ->. now rewrite H. Qed.

(** ** Goodness *)

(** Kinds with a placement. *)
Definition products : list kind :=
  [ KSite; KBuilding; KStorey; KWall; KSlab; KRoof; KShadingDevice; KSpace; KOpeningElement; KWindow; KDoor ].

Section Good.
Variable K : N -> option kind.
Hypothesis HK : forall n k, K n = Some k -> n <= max_usize.
(** Whether shading devices are allowed, and whether the project exists already. *)
Variables sh up : bool.
Variable o : oracle.
Hypothesis Ho : sane o.

Definition good_ref (ks : list kind) (n : N) : Prop := exists k, K n = Some k /\ In k ks.

Definition gv (t : fty) (v : val) : Prop :=
  wt t v = true /\ Forall (fun r => good_ref (fst r) (snd r)) (refs t v).

Definition loose (k : kind) : bool := sh && kind_eqb k KRelContainedInSpatialStructure.

(** Lines have two points in space, and nothing is embedded. *)
Definition drawn (k : kind) (l : list val) : Prop :=
  match k with
  | KPolyLine => exists a b, l = [ids [a; b]] /\ K a = Some KPoint3D /\ K b = Some KPoint3D
  | KMappedItem | KRepresentationMap
  | KCartesianTransformationOperator3D | KCartesianTransformationOperator3DnonUniform =>
      forallb (fun v => match v with VEnt _ => false | _ => true end) l = true
  | _ => True
  end.

(** A row of the kind; the owner history is any. *)
Definition loosen (s : slot) : slot := match s with Owner => RefTo KOwnerHistory | _ => s end.
Definition tmpl (k : kind) (l : list val) : Prop :=
  exists row, In row (template k) /\ fits_all K 0 l (map loosen row) l.

(** The association of a table has the row of that table. *)
Definition acls_kind (c : cls) (t : bool) : kind := if t then type_kind c else kind_of_cls c.
Definition aok (x : akey * list val) : Prop :=
  exists w, In (acls_kind (fst (fst (fst x))) (snd (fst (fst x))), w) material_words /\
    fits_all K 0 (snd x) (map loosen (assoc_row (acls_kind (fst (fst (fst x))) (snd (fst (fst x))), w))) (snd x).

Definition placed (k : kind) (l : list val) : Prop :=
  (In k products -> forall n, attr_id l 5 = Some n -> K n = Some KLocalPlacement) /\ drawn k l /\ tmpl k l.

Definition good_ent (e : entity) : Prop :=
  match e with
  | Ent k l => exists r, row_of k = Some r /\ wts (row_fields r) l = true /\
      (loose k = false -> Forall2 gv (row_fields r) l) /\ placed k l
  | EDummy _ => False
  end.

Definition inv (p : proj) : Prop :=
  dense (p_map p) /\ (forall n e, lookup (p_map p) n = Some e -> good_ent e) /\
  (up = true ->
     K (p_owner p) = Some KOwnerHistory /\ K (p_project p) = Some KProject /\
     Forall (fun x => good_ent (Ent KRelAssociatesMaterial (snd x)) /\ aok x) (p_assoc p) /\
     Forall (fun n => K n = Some KSite) (p_sites p)).

Definition below (p : proj) : Prop := forall n e, lookup (p_map p) n = Some e -> K n = Some (kind_of e).

Definition tr {A} (c : B A) (Q : A -> Prop) : Prop :=
  forall p a p', c p = Done (a, p') -> below p' -> inv p -> inv p' /\ Q a.

Notation gr c := (steps (grow anything) c).

(** ** Values *)

Lemma gv_omit t : gv (TOpt t) VOmit.
Proof.
  split; [reflexivity|]. cbn [refs]. induction t as [| | | | | | | | | | | |ks [|]| |t IH|]; cbn [refs]; auto.
Qed.
Lemma gv_inh t : gv (TOpt t) VInh.
Proof.
  split; [reflexivity|]. cbn [refs]. induction t as [| | | | | | | | | | | |ks [|]| |t IH|]; cbn [refs]; auto.
Qed.
Lemma gv_opt t v : gv t v -> gv (TOpt t) v.
Proof. intros [H1 H2]. split; auto. cbn [wt]. now destruct v. Qed.
Lemma gv_str s : text_ok s = true -> gv TStr (VStr s).
Proof. split; [auto|constructor]. Qed.
Lemma gv_real d : f64_okb d = true -> gv TReal (VReal d).
Proof. split; [auto|constructor]. Qed.
Lemma gv_ref n k ks c : K n = Some k -> In k ks -> gv (TRef ks c) (VId n).
Proof.
  intros H1 H2. split.
  - cbn [wt]. apply N.leb_le. eauto.
  - destruct c; cbn [refs]; constructor; auto. now exists k.
Qed.
Lemma gv_any n k ks : K n = Some k -> gv (TRef ks false) (VId n).
Proof. intros H1. split; [|constructor]. cbn [wt]. apply N.leb_le. eauto. Qed.
Lemma gv_idor n k a b c d : K n = Some k -> gv (TIdOr k a b c d) (VId n).
Proof.
  intros H1. split; [cbn [wt]; apply N.leb_le; eauto|]. constructor; auto. exists k. cbn [In fst snd]. auto.
Qed.
Lemma gv_list t l : Forall (gv t) l -> gv (TList t) (VList l).
Proof.
  intro H. split.
  - cbn [wt]. rewrite forallb_forall. rewrite Forall_forall in H. intros v Hv. now apply H.
  - cbn [refs]. rewrite Forall_forall in *. intros r Hr. apply in_flat_map in Hr as (v & Hv & Hr).
    destruct (H v Hv) as [_ H2]. rewrite Forall_forall in H2. auto.
Qed.
Lemma gv_ids t l : Forall (fun n => gv t (VId n)) l -> gv (TList t) (ids l).
Proof. intro H. apply gv_list. now rewrite Forall_map. Qed.
Lemma gv_enum vs i : Nat.ltb i (length vs) = true -> gv (TEnum vs) (VEnum i).
Proof. split; [auto|constructor]. Qed.
Lemma gv_dim i : Nat.ltb i 3 = true -> gv TDim (VEnum i).
Proof. split; [auto|constructor]. Qed.
Lemma gv_guid t : gv TGuid (VGuid (o_guid o t)).
Proof. split; [apply Ho|constructor]. Qed.
Lemma gv_time t : gv TTime (VInt (o_now o t)).
Proof. split; [apply Ho|constructor]. Qed.
Lemma gv_vec v : vec3_ok v = true -> gv TVec3 (vec v).
Proof. destruct v as [[x y] z]. split; [auto|constructor]. Qed.
Lemma gv_vec2 v : vec2_ok v = true -> gv TVec2 (vec_2 v).
Proof. split; [auto|constructor]. Qed.
Lemma gv_value v : wt TValue v = true -> gv TValue v.
Proof. split; [auto|]. destruct v; constructor. Qed.

Lemma gvs_wts fs l : Forall2 gv fs l -> wts fs l = true.
Proof. induction 1 as [|f v fs l [H _] _ IH]; cbn [wts]; auto. now rewrite H, IH. Qed.

Lemma good_intro k l r :
  row_of k = Some r -> Forall2 gv (row_fields r) l -> placed k l -> good_ent (Ent k l).
Proof. intros H1 H2 H3. exists r. split; auto. split; [now apply gvs_wts|]. auto. Qed.

(** A list without references is good when it has the right types. *)
Lemma gvs_plain fs l : wts fs l = true -> refs_list fs l = [] -> Forall2 gv fs l.
Proof.
  revert l. induction fs as [|f fs IH]; intros [|v l] H R; cbn [wts refs_list] in *; try discriminate; constructor.
  - apply andb_true_iff in H as [H _]. split; auto. apply app_eq_nil in R as [-> _]. constructor.
  - apply andb_true_iff in H as [_ H]. apply app_eq_nil in R as [_ R]. auto.
Qed.

Lemma Forall2_nth {A C} (R : A -> C -> Prop) la lc i a c :
  Forall2 R la lc -> nth_error la i = Some a -> nth_error lc i = Some c -> R a c.
Proof.
  intro H. revert i. induction H; intros [|i]; cbn; try discriminate; eauto.
  intros E1 E2. injection E1 as <-. injection E2 as <-. auto.
Qed.

(** ** Composition *)

Lemma chg_lookup m m1 n e : Forall2 chg m m1 -> lookup m n = Some e ->
  exists e', lookup m1 n = Some e' /\ kind_of e' = kind_of e.
Proof.
  induction 1 as [|[a x] [b y] m m1 H _ IH]; cbn [lookup]; [discriminate|].
  pose proof (chg_kind _ _ H) as Hk. destruct H as [H _]. cbn [fst snd] in *. subst b.
  destruct (a =? n); auto. intro E. injection E as <-. eauto.
Qed.

Lemma grow_below p p' : grow anything p p' -> dense (p_map p) -> below p' -> below p.
Proof.
  intros H Hd Hb n e He. destruct (H Hd) as (_ & _ & _ & m1 & new & E & F & _).
  destruct (chg_lookup _ _ _ _ F He) as (e' & H1 & H2). rewrite <- H2. apply Hb.
  now rewrite E, lookup_app, H1.
Qed.

Lemma tr_bind {A C} (c : B A) (f : A -> B C) Q R :
  tr c Q -> gr c -> (forall a, gr (f a)) -> (forall a, Q a -> tr (f a) R) -> tr (bbind c f) R.
Proof.
  intros Hc Gc Gf Hf p b p'' H Hb Hi. apply bbind_inv in H as (a & p' & H1 & H2).
  assert (Hd : dense (p_map p')) by (apply (Gc _ _ _ H1); apply Hi).
  destruct (Hc _ _ _ H1) as [Hi' HQ]; auto.
  { eapply grow_below; eauto. eapply Gf; eauto. }
  eapply Hf; eauto.
Qed.

Lemma tr_ret {A} (a : A) (Q : A -> Prop) : Q a -> tr (bret a) Q.
Proof. intros HQ p b p' H _ Hi. apply bret_inv in H as [-> ->]. auto. Qed.

Lemma tr_weaken {A} (c : B A) (Q R : A -> Prop) : tr c Q -> (forall a, Q a -> R a) -> tr c R.
Proof. intros H HR p a p' E Hb Hi. destruct (H _ _ _ E Hb Hi). auto. Qed.

Lemma tr_panic {A} (Q : A -> Prop) : tr bpanic Q.
Proof. intros p a p' H. discriminate. Qed.

Lemma tr_err {A} (Q : A -> Prop) : tr err Q.
Proof. intros p a p' H. discriminate. Qed.

Lemma tr_get : tr bget inv.
Proof. intros p a p' H Hb Hi. injection H as <- <-. auto. Qed.

Lemma tr_need {A} (x : option A) (Q : A -> Prop) : (forall a, x = Some a -> Q a) -> tr (need x) Q.
Proof. intros H p a p' E Hb Hi. apply need_inv in E as [-> E]. auto. Qed.

Lemma tr_bmap {A C} (f : A -> B C) (l : list A) (Q : C -> Prop) :
  (forall a, gr (f a)) -> (forall a, In a l -> tr (f a) Q) -> tr (bmap f l) (Forall Q).
Proof.
  intros G. induction l as [|a l IH]; intro H; cbn [bmap]; [now apply tr_ret|].
  apply (tr_bind _ _ Q); [apply H; now left|auto|intro; st|].
  intros c Hc. apply (tr_bind _ _ (Forall Q)); [apply IH; intros; apply H; now right|st; auto|intro; st|].
  intros cs Hcs. apply tr_ret. auto.
Qed.

Lemma tr_and {A} (c : B A) (Q R : A -> Prop) : tr c Q -> tr c R -> tr c (fun a => Q a /\ R a).
Proof. intros H1 H2 p a p' E Hb Hi. destruct (H1 _ _ _ E Hb Hi). destruct (H2 _ _ _ E Hb Hi). auto. Qed.

Lemma tr_bmap_length {A C} (f : A -> B C) (l : list A) :
  (forall a, gr (f a)) -> (forall a, In a l -> tr (f a) (fun _ => True)) ->
  tr (bmap f l) (fun cs => length cs = length l).
Proof.
  intros G. induction l as [|a l IH]; intro H; cbn [bmap]; [now apply tr_ret|].
  apply (tr_bind _ _ (fun _ => True)); [apply H; now left|auto|intro; st|].
  intros c _. apply (tr_bind _ _ (fun cs => length cs = length l)); [apply IH; intros; apply H; now right|st; auto|intro; st|].
  intros cs Hcs. apply tr_ret. cbn [length]. now rewrite Hcs.
Qed.

Lemma tr_bmap_index {A C} (f : N -> A -> B C) i (l : list A) (Q : C -> Prop) :
  (forall i a, gr (f i a)) -> (forall i a, In a l -> tr (f i a) Q) -> tr (bmap_index f i l) (Forall Q).
Proof.
  intros G. revert i. induction l as [|a l IH]; intros i H; cbn [bmap_index]; [now apply tr_ret|].
  apply (tr_bind _ _ Q); [apply H; now left|auto|intro; st|].
  intros c Hc. apply (tr_bind _ _ (Forall Q)); [apply IH; intros; apply H; now right|st; auto|intro; st|].
  intros cs Hcs. apply tr_ret. auto.
Qed.

Lemma tr_bfind {A C} (f : A -> B (option C)) (l : list A) (Q : C -> Prop) :
  (forall a, gr (f a)) ->
  (forall a, In a l -> tr (f a) (fun r => forall c, r = Some c -> Q c)) ->
  tr (bfind f l) (fun r => forall c, r = Some c -> Q c).
Proof.
  intros G. induction l as [|a l IH]; intro H; cbn [bfind].
  - apply tr_ret. intros c E. discriminate.
  - apply (tr_bind _ _ (fun r => forall c, r = Some c -> Q c)); [apply H; now left|auto|intro r; destruct r; st; auto|].
    intros [c|] Hc; [now apply tr_ret|]. apply IH. intros. apply H. now right.
Qed.

(** ** Primitive calls *)

Lemma tr_ins k l : good_ent (Ent k l) -> tr (ins k l) (fun n => K n = Some k).
Proof.
  intros Hg p n p' H Hb (Hd & Hl & Hu). apply ins_inv in H as (-> & H2 & -> & H4); auto.
  cbn [set_map p_map] in *. split.
  - split; auto. split; [|exact Hu]. cbn [set_map p_map]. intros m e He. rewrite lookup_app in He.
    destruct (lookup (p_map p) m) eqn:E; [injection He as <-; eauto|].
    cbn [lookup] in He. destruct (_ =? m); [|discriminate]. injection He as <-. exact Hg.
  - specialize (Hb (size (p_map p) + 1) (Ent k l)). apply Hb. cbn [set_map p_map].
    rewrite lookup_app. cbn [lookup]. rewrite N.eqb_refl.
    destruct (lookup (p_map p) (size (p_map p) + 1)) eqn:E; auto.
    assert (1 <= size (p_map p) + 1 <= size (p_map p)) by (apply dense_lookup; eauto). clear - H. lia.
Qed.

Lemma tr_tick : tr tick (fun _ => True).
Proof. intros p t p' H Hb Hi. injection H as <- <-. auto. Qed.

Lemma tr_fetch k n : tr (fetch k n) (fun l => good_ent (Ent k l) /\ K n = Some k).
Proof.
  intros p l p' H Hb Hi. apply fetch_inv in H as [-> H]. split; auto. split; [eapply Hi; eauto|].
  exact (Hb _ _ H).
Qed.

Lemma tr_fetch_any n : tr (fetch_any n) (fun e => good_ent e /\ K n = Some (kind_of e)).
Proof.
  intros p e p' H Hb Hi. apply fetch_any_inv in H as [-> H]. split; auto. split; [eapply Hi; eauto|].
  exact (Hb _ _ H).
Qed.

Lemma tr_modify n rs :
  Forall (fun r => K r = Some KShapeRepresentation) rs -> In (length rs) [1%nat; 2%nat] ->
  tr (modify KProductDefinitionShape n (set_at 2 (ids rs))) (fun _ => True).
Proof.
  intros Hr Hlen p u p' H Hb (Hd & Hl & Hu). pose proof (grow_modify anything _ _ _ _ _ H Hd) as (Hd' & _).
  apply modify_inv in H as (l & H & ->). split; [|exact I]. split; [exact Hd'|].
  split; [|exact Hu]. cbn [set_map p_map]. intros m e He. destruct (N.eqb_spec m n) as [E|E].
  - subst m. rewrite lookup_put, N.eqb_refl in He by now apply dense_increasing. injection He as <-.
    destruct (Hl _ _ H) as (r & R1 & R2 & R3 & R4). exists r. split; auto.
    assert (HG : Forall2 gv (row_fields r) (set_at 2 (ids rs) l)).
    { assert (Hlo : loose KProductDefinitionShape = false) by (unfold loose; now rewrite andb_comm).
      specialize (R3 Hlo). injection R1 as <-. cbn [row_of row_fields row_ProductDefinitionShape] in *.
      repeat match goal with
      | H : Forall2 gv (_ :: _) _ |- _ => inversion H; clear H; subst
      | H : Forall2 gv [] _ |- _ => inversion H; clear H; subst
      end.
      cbn [set_at]. repeat (constructor; [assumption|]).
      constructor; [|constructor]. apply gv_ids. eapply Forall_impl; [|exact Hr].
      intros x Hx. apply (gv_ref _ KShapeRepresentation); [exact Hx|now left]. }
    split; [now apply gvs_wts|]. split; auto. split; [|split; [exact I|]].
    2:{ destruct R4 as (_ & _ & row & [<-|[]] & F).
        destruct l as [|v0 [|v1 [|v2 [|? ?]]]]; try (exfalso; cbn in F; tauto).
        cbn [map loosen fits_all fits] in F. destruct F as (-> & -> & _ & _).
        eexists. split; [left; reflexivity|]. cbn [map loosen fits_all fits set_at].
        split; [reflexivity|]. split; [reflexivity|]. split; [|exact I]. exists rs. split; [reflexivity|].
        split; [exact Hlen|exact Hr]. }
    intro Hi. exfalso. cbn in Hi. repeat (destruct Hi as [Hi|Hi]; [discriminate|]). exact Hi.
  - rewrite lookup_put in He by now apply dense_increasing. apply N.eqb_neq in E. rewrite E in He. eauto.
Qed.
End Good.
