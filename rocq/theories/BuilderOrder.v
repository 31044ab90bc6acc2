(** Two runs of builder calls under different oracles keep a renaming of ids between
    their states. *)

From Coq Require Import String Ascii List NArith ZArith Bool Lia Permutation.
From Coq Require Import ZifyBool ZifyNat ZifyN.
From Verif Require Import Base Prims PrimsFacts Float Arith Kind Types Schema Entity EntityFacts DataMap DataSpec DataMapFacts
  Extractor Builder BuilderRun BuilderSpec BuilderBase OrderSpec.
Import ListNotations.
Open Scope N_scope.
Open Scope builder_scope.

(** ** Values *)

Definition idn (n : N) : N := n.

Lemma val_rec' (P : val -> Prop) :
  (forall s, P (VStr s)) -> (forall d, P (VReal d)) -> (forall z, P (VInt z)) -> (forall b, P (VBool b)) ->
  (forall g, P (VGuid g)) -> (forall i, P (VEnum i)) -> (forall n, P (VId n)) -> (forall l, P (VVec l)) ->
  (forall i v, P v -> P (VMeasure i v)) -> P VOmit -> P VInh ->
  (forall l, Forall P l -> P (VList l)) -> (forall l, Forall P l -> P (VEnt l)) -> forall v, P v.
Proof.
  intros H1 H2 H3 H4 H5 H6 H7 H8 H9 H10 H11 H12 H13.
  fix IH 1. intros [s|d|z|b|g|i|n|l|i v| | |l|l];
    [apply H1|apply H2|apply H3|apply H4|apply H5|apply H6|apply H7|apply H8|apply H9, IH|apply H10|apply H11| |].
  - apply H12. induction l; constructor; [apply IH|assumption].
  - apply H13. induction l; constructor; [apply IH|assumption].
Qed.

Lemma ren_ren f g v : ren g (ren f v) = ren (fun n => g (f n)) v.
Proof.
  induction v as [| | | | | | | |i v IH| | |l IH|l IH] using val_rec'; cbn [ren]; auto; try congruence;
    f_equal; rewrite map_map; apply map_ext_Forall; auto.
Qed.

Lemma ren_ext f g v : (forall n, In n (ids_in v) -> f n = g n) -> ren f v = ren g v.
Proof.
  induction v as [| | | | | | | |i v IH| | |l IH|l IH] using val_rec'; cbn [ren ids_in]; intro H; auto.
  - rewrite H; auto. now left.
  - f_equal. auto.
  - f_equal. apply map_ext_Forall. rewrite Forall_forall in *. intros w Hw. apply IH; auto.
    intros n Hn. apply H. apply in_flat_map. eauto.
  - f_equal. apply map_ext_Forall. rewrite Forall_forall in *. intros w Hw. apply IH; auto.
    intros n Hn. apply H. apply in_flat_map. eauto.
Qed.

Lemma ids_ren f v : ids_in (ren f v) = map f (ids_in v).
Proof.
  assert (H : forall l, Forall (fun v => ids_in (ren f v) = map f (ids_in v)) l ->
            flat_map ids_in (map (ren f) l) = map f (flat_map ids_in l)).
  { induction 1 as [|w l Hw Hl IH]; cbn [map flat_map]; auto. rewrite map_app. congruence. }
  induction v as [| | | | | | | |i v IH| | |l IH|l IH] using val_rec'; cbn [ren ids_in]; auto.
Qed.

Definition at_most (b : N) (v : val) : Prop := Forall (fun n => n <= b) (ids_in v).

Lemma at_most_mono b b' v : b <= b' -> at_most b v -> at_most b' v.
Proof. intros Hb H. eapply Forall_impl; [|exact H]. cbn beta. intros; lia. Qed.

(** An id that is not renamed; two ids, two values, two lists that correspond. *)
Definition fx (f : N -> N) (b n : N) : Prop := f n = n /\ n <= b.
Definition ir (f : N -> N) (b n n' : N) : Prop := n' = f n /\ n <= b /\ n' <= b.
Definition vr (f : N -> N) (b : N) (v v' : val) : Prop := ren f v = ren idn v' /\ at_most b v /\ at_most b v'.
Definition lr (f : N -> N) (b : N) : list val -> list val -> Prop := Forall2 (vr f b).
Definition is_ {A} (b : N) (a a' : A) : Prop := a' = a.
Definition id_ (f : N -> N) (b : N) (n n' : N) : Prop := n' = n /\ fx f b n.

Lemma fx_mono f b b' n : b <= b' -> fx f b n -> fx f b' n.
Proof. unfold fx. intuition lia. Qed.
Lemma ir_mono f b b' n n' : b <= b' -> ir f b n n' -> ir f b' n n'.
Proof. unfold ir. intuition lia. Qed.
Lemma vr_mono f b b' v v' : b <= b' -> vr f b v v' -> vr f b' v v'.
Proof. unfold vr. intuition eauto using at_most_mono. Qed.
Lemma lr_mono f b b' l l' : b <= b' -> lr f b l l' -> lr f b' l l'.
Proof. intros Hb. induction 1; constructor; auto. eapply vr_mono; eauto. Qed.
Lemma fxs_mono f b b' l : b <= b' -> Forall (fx f b) l -> Forall (fx f b') l.
Proof. intros Hb H. eapply Forall_impl; [|exact H]. intros n. apply fx_mono; auto. Qed.
Lemma irs_mono f b b' l l' : b <= b' -> Forall2 (ir f b) l l' -> Forall2 (ir f b') l l'.
Proof. intros Hb. induction 1; constructor; auto. eapply ir_mono; eauto. Qed.

Lemma fx_ir f b n : fx f b n -> ir f b n n.
Proof. unfold fx, ir. intuition. Qed.
Lemma fxs_irs f b l : Forall (fx f b) l -> Forall2 (ir f b) l l.
Proof. induction 1; constructor; auto using fx_ir. Qed.

Lemma vr_closed f b v : ids_in v = [] -> vr f b v v.
Proof.
  intro H. split; [apply ren_ext; rewrite H; intros ? []|]. unfold at_most. rewrite H. auto.
Qed.
Lemma vr_guid f b g g' : vr f b (VGuid g) (VGuid g').
Proof. repeat split; constructor. Qed.
Lemma vr_id f b n n' : ir f b n n' -> vr f b (VId n) (VId n').
Proof. intros (-> & H1 & H2). repeat split; repeat constructor; auto. Qed.
Lemma vr_fx f b n : fx f b n -> vr f b (VId n) (VId n).
Proof. intro H. apply vr_id, fx_ir, H. Qed.
Lemma vr_list f b l l' : lr f b l l' -> vr f b (VList l) (VList l').
Proof.
  intro H. unfold vr, at_most. cbn [ren ids_in]. induction H as [|v v' l l' (H1 & H2 & H3) H IH]; cbn [map flat_map].
  - repeat split; constructor.
  - destruct IH as (I1 & I2 & I3). split; [|split; apply Forall_app; auto]. injection I1 as I1. now rewrite H1, I1.
Qed.
Lemma vr_ids f b l l' : Forall2 (ir f b) l l' -> vr f b (ids l) (ids l').
Proof.
  intro H. apply vr_list. unfold lr. induction H; cbn [map]; constructor; auto using vr_id.
Qed.
Lemma vr_fxs f b l : Forall (fx f b) l -> vr f b (ids l) (ids l).
Proof. intro H. apply vr_ids, fxs_irs, H. Qed.

Lemma ren_fun f v v' : ren f v = ren idn v' ->
  match v with
  | VId n => v' = VId (f n)
  | VGuid _ => exists g, v' = VGuid g
  | VMeasure i x => exists x', v' = VMeasure i x' /\ ren f x = ren idn x'
  | VList l => exists l', v' = VList l' /\ map (ren f) l = map (ren idn) l'
  | VEnt l => exists l', v' = VEnt l' /\ map (ren f) l = map (ren idn) l'
  | _ => v' = v
  end.
Proof.
  destruct v, v'; cbn [ren]; intro H; try discriminate H; try congruence; eauto.
  - injection H as -> H. eauto.
  - injection H as H. eauto.
  - injection H as H. eauto.
Qed.

Ltac same_form H :=
  lazymatch type of H with
  | exists _, _ /\ _ => let x := fresh "x" in destruct H as (x & -> & H)
  | exists _, _ => let x := fresh "x" in destruct H as (x & ->)
  | _ => subst
  end.

(** ** Reading attributes of corresponding lists *)

Lemma lr_nth f b l l' i : lr f b l l' ->
  match nth_error l i with
  | Some v => exists v', nth_error l' i = Some v' /\ vr f b v v'
  | None => nth_error l' i = None
  end.
Proof.
  intro H. revert i. induction H as [|v v' l l' Hv H IH]; intros [|i]; cbn [nth_error]; auto; [eauto|apply IH].
Qed.

Lemma lr_attr_id f b l l' i n : lr f b l l' -> attr_id l i = Some n -> exists n', attr_id l' i = Some n' /\ ir f b n n'.
Proof.
  intros H E. pose proof (lr_nth _ _ _ _ i H) as Hn. unfold attr_id in *. destruct (nth_error l i) as [v|]; [|discriminate].
  destruct Hn as (v' & E' & H1 & H2 & H3). destruct v; try discriminate. injection E as ->.
  apply ren_fun in H1. subst v'. rewrite E'. eexists. split; eauto. inversion H2; inversion H3; subst.
  split; auto.
Qed.
Lemma lr_attr_none f b l l' i : lr f b l l' -> attr_id l i = None -> attr_id l' i = None.
Proof.
  intros H E. pose proof (lr_nth _ _ _ _ i H) as Hn. unfold attr_id in *. destruct (nth_error l i) as [v|].
  - destruct Hn as (v' & E' & H1 & _). rewrite E'. apply ren_fun in H1.
    destruct v; try discriminate; same_form H1; reflexivity.
  - now rewrite Hn.
Qed.

Lemma vr_items f b l l' : vr f b (VList l) (VList l') -> lr f b l l'.
Proof.
  unfold vr, at_most. cbn [ren ids_in]. revert l'. induction l as [|v l IH]; intros [|v' l'] (H1 & H2 & H3); try discriminate H1.
  - constructor.
  - cbn [map flat_map] in *. injection H1 as H1 H4. apply Forall_app in H2 as [? ?], H3 as [? ?].
    constructor; [repeat split; auto|]. apply IH. split; [now rewrite H4|auto].
Qed.

Lemma lr_val_ids f b l l' : lr f b l l' -> Forall2 (ir f b) (val_ids l) (val_ids l').
Proof.
  unfold val_ids. induction 1 as [|v v' l l' (H1 & H2 & H3) H IH]; cbn [flat_map]; [constructor|].
  apply ren_fun in H1. destruct v; same_form H1; try exact IH.
  cbn [app]. constructor; auto. inversion H2; inversion H3; subst. split; auto.
Qed.

Lemma lr_attr_ids f b l l' i : lr f b l l' -> Forall2 (ir f b) (attr_ids l i) (attr_ids l' i).
Proof.
  intro H. pose proof (lr_nth _ _ _ _ i H) as Hn. unfold attr_ids. destruct (nth_error l i) as [v|]; [|rewrite Hn; constructor].
  destruct Hn as (v' & E' & Hv). rewrite E'. pose proof Hv as (H1 & _). apply ren_fun in H1.
  destruct v; same_form H1; try apply Forall2_nil. apply lr_val_ids. now apply vr_items.
Qed.

Lemma lr_set_at f b i v v' l l' : lr f b l l' -> vr f b v v' -> lr f b (set_at i v l) (set_at i v' l').
Proof.
  intros H Hv. revert i. induction H as [|x x' l l' Hx H IH]; intros [|i]; cbn [set_at]; constructor; auto. apply IH.
Qed.

Lemma lr_app f b l l' k k' : lr f b l l' -> lr f b k k' -> lr f b (l ++ k) (l' ++ k').
Proof. apply Forall2_app. Qed.

Lemma lr_push_at f b i n l l' : lr f b l l' -> fx f b n -> lr f b (push_at i n l) (push_at i n l').
Proof.
  intros H Hf. pose proof (lr_nth _ _ _ _ i H) as Hn. unfold push_at. destruct (nth_error l i) as [v|]; [|now rewrite Hn].
  destruct Hn as (v' & E' & Hv). rewrite E'. pose proof Hv as (H1 & _). apply ren_fun in H1.
  destruct v; same_form H1; try exact H.
  apply lr_set_at; auto. apply vr_list, lr_app; [now apply vr_items|]. constructor; [now apply vr_fx|constructor].
Qed.

(** ** States *)

Record wf (p : proj) : Prop := {
  wf_dense : dense (p_map p);
  wf_refs : forall n k l, lookup (p_map p) n = Some (Ent k l) -> Forall (at_most (size (p_map p))) l;
  wf_owner : p_owner p <= size (p_map p);
  wf_project : p_project p <= size (p_map p);
  wf_sites : Forall (fun n => n <= size (p_map p)) (p_sites p);
  wf_assoc : Forall (fun x => snd (fst x) <= size (p_map p) /\ Forall (at_most (size (p_map p))) (snd x)) (p_assoc p);
  wf_users : NoDup (flat_map (fun x : akey * list val => attr_ids (snd x) 4) (p_assoc p)) }.

Record rel (f : N -> N) (p p' : proj) : Prop := {
  r_wf : wf p;
  r_wf' : wf p';
  r_size : size (p_map p') = size (p_map p);
  r_bij : one_to_one f;
  r_move : forall n, f n <> n -> exists k, kind_at (p_map p) n = Some k /\ shuffled k = true;
  r_like : forall n e, lookup (p_map p) n = Some e -> exists e', lookup (p_map p') (f n) = Some e' /\ like f e e';
  r_kind : forall n, kind_at (p_map p') n = kind_at (p_map p) n;
  r_owner : p_owner p' = p_owner p /\ f (p_owner p) = p_owner p;
  r_project : p_project p' = p_project p /\ f (p_project p) = p_project p;
  r_sites : p_sites p' = p_sites p /\ Forall (fun n => f n = n) (p_sites p);
  r_assoc : Forall2 (fun x y => fst y = fst x /\ f (snd (fst x)) = snd (fst x) /\
              Forall2 (fun v v' => ren f v = ren idn v') (snd x) (snd y)) (p_assoc p) (p_assoc p') }.

Lemma inj f : one_to_one f -> forall a b, f a = f b -> a = b.
Proof. intros [g H] a b E. destruct (H a) as [Ha _], (H b) as [Hb _]. congruence. Qed.

Lemma out_kind m n : dense m -> size m < n -> kind_at m n = None.
Proof.
  intros D H. unfold kind_at. destruct (lookup m n) as [e|] eqn:E; auto.
  pose proof (proj1 (dense_lookup _ n D) (ex_intro _ e E)). lia.
Qed.

Lemma r_out f p p' n : rel f p p' -> size (p_map p) < n -> f n = n.
Proof.
  intros R H. destruct (N.eq_dec (f n) n) as [E|E]; auto. destruct (r_move _ _ _ R n E) as (k & K & _).
  rewrite (out_kind _ _ (wf_dense _ (r_wf _ _ _ R)) H) in K. discriminate.
Qed.

Lemma r_in f p p' n : rel f p p' -> n <= size (p_map p) -> f n <= size (p_map p).
Proof.
  intros R H. destruct (N.eq_dec (f n) n) as [E|E]; [lia|]. destruct (r_move _ _ _ R n E) as (k & K & _).
  unfold kind_at in K. destruct (lookup (p_map p) n) as [e|] eqn:L; [|discriminate].
  destruct (r_like _ _ _ R n e L) as (e' & L' & _).
  pose proof (proj1 (dense_lookup _ _ (wf_dense _ (r_wf' _ _ _ R))) (ex_intro _ _ L')). rewrite (r_size _ _ _ R) in H0. lia.
Qed.

Lemma r_ir f p p' n : rel f p p' -> n <= size (p_map p) -> ir f (size (p_map p)) n (f n).
Proof. intros R H. split; auto. split; auto. eapply r_in; eauto. Qed.

(** Kinds without attributes that depend on the surroundings. *)
Definition ordinary (k : kind) : Prop := forall i, part_of k i = Same.

Lemma likes_ordinary f k l l' : ordinary k -> Forall2 (fun v v' => ren f v = ren idn v') l l' -> forall i, likes f k i l l'.
Proof. intros K. induction 1; intro i; cbn [likes]; auto. rewrite (K i). split; auto. Qed.
Lemma ordinary_likes f k i l l' : ordinary k -> likes f k i l l' -> Forall2 (fun v v' => ren f v = ren idn v') l l'.
Proof.
  intros K. revert i l'. induction l as [|v l IH]; intros i [|v' l']; cbn [likes]; try tauto; [constructor|].
  rewrite (K i). intros [H1 H2]. constructor; eauto.
Qed.

Lemma to_lr f b l l' : Forall2 (fun v v' => ren f v = ren idn v') l l' -> Forall (at_most b) l -> Forall (at_most b) l' -> lr f b l l'.
Proof.
  induction 1 as [|v v' l l' Hv H IH]; intros H1 H2; constructor; inversion H1; inversion H2; subst; auto. repeat split; auto.
  apply IH; auto.
Qed.
Lemma lr_ren f b l l' : lr f b l l' -> Forall2 (fun v v' => ren f v = ren idn v') l l'.
Proof. induction 1 as [|v v' l l' (H1 & _) H IH]; constructor; auto. Qed.
Lemma lr_left f b l l' : lr f b l l' -> Forall (at_most b) l.
Proof. induction 1 as [|v v' l l' (_ & H1 & _) H IH]; constructor; auto. Qed.
Lemma lr_right f b l l' : lr f b l l' -> Forall (at_most b) l'.
Proof. induction 1 as [|v v' l l' (_ & _ & H1) H IH]; constructor; auto. Qed.

Lemma rel_lookup f p p' n k l : rel f p p' -> ordinary k -> lookup (p_map p) n = Some (Ent k l) ->
  exists l', lookup (p_map p') (f n) = Some (Ent k l') /\ lr f (size (p_map p)) l l'.
Proof.
  intros R K L. destruct (r_like _ _ _ R n _ L) as ([k' l'|s] & L' & H); cbn [like] in H; [|contradiction].
  destruct H as [-> H]. exists l'. split; auto. apply to_lr.
  - eapply ordinary_likes; eauto.
  - exact (wf_refs _ (r_wf _ _ _ R) _ _ _ L).
  - rewrite <- (r_size _ _ _ R). exact (wf_refs _ (r_wf' _ _ _ R) _ _ _ L').
Qed.

(** ** Calls *)

Definition sim {A} (f : N -> N) (b : N) (c c' : B A) (R : N -> A -> A -> Prop) : Prop :=
  forall p p' a q, rel f p p' -> b <= size (p_map p) -> c p = Done (a, q) ->
    exists a' q', c' p' = Done (a', q') /\ rel f q q' /\ size (p_map p) <= size (p_map q) /\ R (size (p_map q)) a a'.

Lemma sim_ret {A} f b (a a' : A) (R : N -> A -> A -> Prop) :
  (forall b', b <= b' -> R b' a a') -> sim f b (bret a) (bret a') R.
Proof.
  intros H p p' x q Hr Hb E. apply bret_inv in E as [-> ->]. exists a', p'. repeat split; auto; try apply Hr. lia.
Qed.

Lemma sim_bind {A C} f b (c c' : B A) (k k' : A -> B C) R R' :
  sim f b c c' R -> (forall b' a a', b <= b' -> R b' a a' -> sim f b' (k a) (k' a') R') ->
  sim f b (bbind c k) (bbind c' k') R'.
Proof.
  intros H1 H2 p p' x q Hr Hb E. apply bbind_inv in E as (a & p1 & E1 & E2).
  destruct (H1 _ _ _ _ Hr Hb E1) as (a' & p1' & E1' & Hr1 & Hb1 & HR).
  destruct (H2 (size (p_map p1)) a a' ltac:(lia) HR _ _ _ _ Hr1 ltac:(lia) E2) as (x' & q' & E2' & Hr2 & Hb2 & HR').
  exists x', q'. unfold bbind. rewrite E1'. repeat (split; auto). lia.
Qed.

Lemma sim_weak {A} f b (c c' : B A) (R R' : N -> A -> A -> Prop) :
  sim f b c c' R -> (forall b' a a', b <= b' -> R b' a a' -> R' b' a a') -> sim f b c c' R'.
Proof.
  intros H HR p p' x q Hr Hb E. destruct (H _ _ _ _ Hr Hb E) as (a' & q' & E' & Hr' & Hb' & HR').
  exists a', q'. repeat (split; auto). apply HR; auto. lia.
Qed.

Lemma sim_mono {A} f b b' (c c' : B A) R : b <= b' -> sim f b c c' R -> sim f b' c c' R.
Proof. intros Hb H p p' x q Hr Hb'. apply H; auto. lia. Qed.

Lemma sim_panic {A} f b c' (R : N -> A -> A -> Prop) : sim f b bpanic c' R.
Proof. intros p p' x q Hr Hb E. discriminate. Qed.
Lemma sim_err {A} f b c' (R : N -> A -> A -> Prop) : sim f b err c' R.
Proof. intros p p' x q Hr Hb E. discriminate. Qed.

Lemma sim_need {A} f b (x x' : option A) (R : N -> A -> A -> Prop) :
  (forall a, x = Some a -> exists a', x' = Some a' /\ forall b', b <= b' -> R b' a a') -> sim f b (need x) (need x') R.
Proof.
  intros H p p' a q Hr Hb E. apply need_inv in E as [-> ->]. destruct (H a eq_refl) as (a' & -> & HR).
  exists a', p'. repeat (split; auto). lia.
Qed.
Lemma sim_need_eq {A} f b (x : option A) : sim f b (need x) (need x) is_.
Proof. apply sim_need. intros a ->. exists a. repeat split. Qed.

Lemma sim_bmap {A C} f b (F F' : A -> B C) (R : N -> A -> A -> Prop) (S : N -> C -> C -> Prop) l l' :
  (forall b' c a a', b <= b' -> R b a a' -> b <= c -> c <= b' -> True) ->
  (forall b1 b2 x y, b1 <= b2 -> S b1 x y -> S b2 x y) ->
  (forall b' a a', b <= b' -> R b a a' -> sim f b' (F a) (F' a') S) ->
  Forall2 (R b) l l' -> sim f b (bmap F l) (bmap F' l') (fun b' => Forall2 (S b')).
Proof.
  intros _ HS H. assert (G : forall l l', Forall2 (R b) l l' -> forall b', b <= b' ->
    sim f b' (bmap F l) (bmap F' l') (fun b' => Forall2 (S b'))).
  { induction 1 as [|a a' x x' Ha Hx IH]; intros b' Hb; cbn [bmap].
    - apply sim_ret. constructor.
    - eapply sim_bind; [apply H; eauto|]. cbn beta. intros b1 c c' Hb1 Hc.
      eapply sim_bind; [apply IH; lia|]. cbn beta. intros b2 d d' Hb2 Hd. apply sim_ret. intros b3 Hb3.
      constructor; [eapply HS; [|exact Hc]; lia|]. clear - Hd Hb3 HS. induction Hd; constructor; eauto. }
  intro Hl. apply (G l l' Hl b). lia.
Qed.

Lemma sim_bfind {A C} f b (F F' : A -> B (option C)) (R : N -> A -> A -> Prop) l l' :
  (forall b' a a', b <= b' -> R b a a' -> sim f b' (F a) (F' a') is_) ->
  Forall2 (R b) l l' -> sim f b (bfind F l) (bfind F' l') is_.
Proof.
  intros H. assert (G : forall l l', Forall2 (R b) l l' -> forall b', b <= b' -> sim f b' (bfind F l) (bfind F' l') is_).
  { induction 1 as [|a a' x x' Ha Hx IH]; intros b' Hb; cbn [bfind].
    - apply sim_ret. reflexivity.
    - eapply sim_bind; [apply H; eauto|]. cbn beta. intros b1 c c' Hb1 ->.
      destruct c; [apply sim_ret; reflexivity|]. apply IH. lia. }
  intro Hl. apply (G l l' Hl b). lia.
Qed.

(** ** Primitive calls *)

Lemma get_of k m n l : lookup m n = Some (Ent k l) -> get k m n = Done l.
Proof.
  intro H. unfold get. rewrite H. assert (E : kind_eqb k k = true) by now apply kind_eqb_eq. now rewrite E.
Qed.

Lemma sim_fetch f b k n n' : ordinary k -> ir f b n n' -> sim f b (fetch k n) (fetch k n') (lr f).
Proof.
  intros K (-> & Hn & Hn') p p' l q R Hb E. apply fetch_inv in E as [-> L].
  destruct (rel_lookup _ _ _ _ _ _ R K L) as (l' & L' & H). exists l', p'. split; [|repeat split; auto; try apply R; lia].
  unfold fetch. now rewrite (get_of _ _ _ _ L').
Qed.

Definition er (f : N -> N) (b : N) (e e' : entity) : Prop :=
  match e, e' with
  | Ent k l, Ent k' l' => k' = k /\ (ordinary k -> lr f b l l')
  | EDummy s, EDummy s' => s' = s
  | _, _ => False
  end.

Lemma sim_fetch_any f b n n' : ir f b n n' -> sim f b (fetch_any n) (fetch_any n') (er f).
Proof.
  intros (-> & Hn & Hn') p p' e q R Hb E. apply fetch_any_inv in E as [-> L].
  destruct (r_like _ _ _ R _ _ L) as (e' & L' & H). exists e', p'. split; [unfold fetch_any, get_untyped; now rewrite L'|].
  split; [exact R|split; [lia|]]. destruct e as [k l|s], e' as [k' l'|s']; cbn [like er] in *; auto.
  destruct H as [-> H]. split; auto. intro K. destruct (rel_lookup _ _ _ _ _ _ R K L) as (l'' & L'' & H'').
  rewrite L' in L''. now injection L'' as ->.
Qed.

Lemma wf_mono_refs p m n k l : Forall (at_most (size (p_map p))) l -> size (p_map p) <= size m ->
  lookup (p_map p) n = Some (Ent k l) -> Forall (at_most (size m)) l.
Proof. intros H Hs _. eapply Forall_impl; [|exact H]. intro v. now apply at_most_mono. Qed.

Lemma size_snoc m x : size (m ++ [x]) = size m + 1.
Proof. unfold size. rewrite app_length. cbn [length]. lia. Qed.

Lemma lookup_snoc m n e k : dense m -> n = size m + 1 ->
  lookup (m ++ [(n, e)]) k = if k =? n then Some e else lookup m k.
Proof.
  intros D ->. rewrite lookup_app. cbn [lookup fst snd]. destruct (N.eqb_spec k (size m + 1)) as [->|Hk].
  - destruct (lookup m (size m + 1)) as [x|] eqn:E; [|now rewrite N.eqb_refl].
    pose proof (proj1 (dense_lookup _ _ D) (ex_intro _ x E)). lia.
  - destruct (lookup m k); auto. destruct (N.eqb_spec (size m + 1) k); [lia|auto].
Qed.

Lemma kind_snoc m n e k : dense m -> n = size m + 1 ->
  kind_at (m ++ [(n, e)]) k = if k =? n then Some (kind_of e) else kind_at m k.
Proof. intros D H. unfold kind_at. rewrite lookup_snoc; auto. now destruct (k =? n). Qed.

Lemma wf_ins p k l m n : wf p -> Forall (at_most (size (p_map p) + 1)) l ->
  n = size (p_map p) + 1 -> m = p_map p ++ [(n, Ent k l)] -> dense m -> wf (set_map m p).
Proof.
  intros W Hl En Em Hd. assert (Es : size m = size (p_map p) + 1) by (subst m; apply size_snoc).
  assert (U : forall x, Forall (at_most (size (p_map p))) x -> Forall (at_most (size m)) x).
  { intros x H. eapply Forall_impl; [|exact H]. intro v. apply at_most_mono. lia. }
  constructor; cbn [set_map p_map p_owner p_project p_sites p_assoc]; auto.
  - intros x k' l' L. subst m. rewrite lookup_snoc in L by (auto; apply W). destruct (x =? n).
    + injection L as <- <-. now rewrite Es.
    + apply U. exact (wf_refs _ W _ _ _ L).
  - pose proof (wf_owner _ W). lia.
  - pose proof (wf_project _ W). lia.
  - eapply Forall_impl; [|exact (wf_sites _ W)]. cbn beta. intros; lia.
  - eapply Forall_impl; [|exact (wf_assoc _ W)]. cbn beta. intros x [H1 H2]. split; [lia|auto].
  - exact (wf_users _ W).
Qed.

Lemma ins_done k l p : dense (p_map p) -> size (p_map p) + 1 <= max_usize ->
  ins k l p = Done (size (p_map p) + 1, set_map (p_map p ++ [(size (p_map p) + 1, Ent k l)]) p).
Proof.
  intros D H. unfold ins. destruct (insert_new (p_map p) (Ent k l)) as [[m n]|] eqn:E.
  - apply dense_insert_new in E as (-> & _ & -> & _); auto.
  - unfold insert_new in E. destruct (max_key (p_map p)) as [j|] eqn:M; [|discriminate].
    destruct (N.eqb_spec j max_usize) as [->|]; [|discriminate]. apply max_key_spec in M as [M _].
    apply dense_In in M; auto. lia.
Qed.

Lemma rel_ins f p p' k l l' n m m' :
  rel f p p' -> likes f k 0 l l' -> Forall (at_most (size (p_map p) + 1)) l -> Forall (at_most (size (p_map p) + 1)) l' ->
  n = size (p_map p) + 1 -> m = p_map p ++ [(n, Ent k l)] -> m' = p_map p' ++ [(n, Ent k l')] -> dense m -> dense m' ->
  rel f (set_map m p) (set_map m' p').
Proof.
  intros R Hlk Hl Hl' En Em Em' D D'. pose proof (r_size _ _ _ R) as Hs.
  assert (Fn : f n = n) by (eapply r_out; [exact R|lia]).
  assert (I : forall x, f x = n -> x = n) by (intros x E; apply (inj f (r_bij _ _ _ R)); congruence).
  assert (Dp : dense (p_map p)) by apply R. assert (Dp' : dense (p_map p')) by apply R.
  constructor.
  - apply (wf_ins p k l m n); auto. apply R.
  - apply (wf_ins p' k l' m' n); auto; try apply R; rewrite Hs; auto.
  - cbn [set_map p_map]. rewrite Em, Em', !size_snoc. lia.
  - apply R.
  - intros x Hx. destruct (r_move _ _ _ R x Hx) as (k0 & K & Sh). exists k0. split; auto. cbn [set_map p_map].
    rewrite Em, kind_snoc by auto. destruct (N.eqb_spec x n) as [->|]; [congruence|auto].
  - cbn [set_map p_map]. intros x e L. rewrite Em, lookup_snoc in L by auto. rewrite Em', lookup_snoc by (auto; lia).
    destruct (N.eqb_spec x n) as [->|Hx].
    + injection L as <-. rewrite Fn, N.eqb_refl. eexists. split; eauto. split; auto.
    + destruct (N.eqb_spec (f x) n) as [Hfx|_]; [now apply I in Hfx|]. exact (r_like _ _ _ R x e L).
  - intro x. cbn [set_map p_map]. rewrite Em, Em', !kind_snoc by (auto; lia). destruct (x =? n); auto. apply R.
  - apply R.
  - apply R.
  - apply R.
  - apply R.
Qed.

Lemma sim_ins_gen f b k l l' :
  likes f k 0 l l' -> Forall (at_most b) l -> Forall (at_most b) l' -> sim f b (ins k l) (ins k l') (id_ f).
Proof.
  intros Hlk Hl Hl' p p' n q R Hb E. assert (Dp : dense (p_map p)) by apply R. assert (Dp' : dense (p_map p')) by apply R.
  pose proof (r_size _ _ _ R) as Hs.
  apply ins_inv in E as (En & Hm & -> & D); auto.
  assert (E' : ins k l' p' = Done (n, set_map (p_map p' ++ [(n, Ent k l')]) p')).
  { rewrite ins_done by (auto; lia). rewrite Hs, <- En. reflexivity. }
  pose proof (ins_inv _ _ _ _ _ E' Dp') as (_ & _ & _ & D').
  assert (U : forall x, Forall (at_most b) x -> Forall (at_most (size (p_map p) + 1)) x).
  { intros x H. eapply Forall_impl; [|exact H]. intro v. apply at_most_mono. lia. }
  exists n, (set_map (p_map p' ++ [(n, Ent k l')]) p'). split; auto. split.
  - apply (rel_ins f p p' k l l' n); auto.
  - cbn [set_map p_map]. rewrite size_snoc. split; [lia|]. split; auto. split; [|lia]. eapply r_out; eauto. lia.
Qed.

Lemma sim_ins f b k l l' : ordinary k -> lr f b l l' -> sim f b (ins k l) (ins k l') (id_ f).
Proof.
  intros K H. apply sim_ins_gen; [apply likes_ordinary; auto; eapply lr_ren; eauto|eapply lr_left; eauto|eapply lr_right; eauto].
Qed.

Lemma put_size m n e e0 : increasing m -> lookup m n = Some e0 -> size (put m n e) = size m.
Proof. intros I L. unfold size. rewrite (put_present m n e e0 I L). now rewrite map_length. Qed.

Lemma put_dense m n e e0 : dense m -> lookup m n = Some e0 -> dense (put m n e).
Proof.
  intros D L. pose proof (dense_increasing _ D) as I. pose proof (put_size m n e e0 I L) as Hs. destruct D as [D1 D2].
  split; [|now rewrite Hs]. unfold size in Hs. apply Nat2N.inj in Hs. rewrite Hs, <- D1.
  rewrite (put_present m n e e0 I L), map_map. apply map_ext. intros [k x]. cbn [fst].
  destruct (N.eqb_spec k n); auto.
Qed.

Lemma kind_put m n k l l0 x : dense m -> lookup m n = Some (Ent k l0) -> kind_at (put m n (Ent k l)) x = kind_at m x.
Proof.
  intros D L. unfold kind_at. rewrite lookup_put by now apply dense_increasing. destruct (N.eqb_spec x n) as [->|]; auto.
  now rewrite L.
Qed.

Lemma wf_put p k n l0 l : wf p -> lookup (p_map p) n = Some (Ent k l0) -> Forall (at_most (size (p_map p))) l ->
  wf (set_map (put (p_map p) n (Ent k l)) p).
Proof.
  intros W L Hl. assert (D : dense (p_map p)) by apply W. pose proof (dense_increasing _ D) as I.
  pose proof (put_size _ _ (Ent k l) _ I L) as Hs.
  constructor; cbn [set_map p_map p_owner p_project p_sites p_assoc]; rewrite ?Hs; try apply W.
  - eapply put_dense; eauto.
  - intros x k' l' E. rewrite lookup_put in E by auto. destruct (x =? n).
    + now injection E as <- <-.
    + exact (wf_refs _ W _ _ _ E).
Qed.

Lemma update_of k m n g l : lookup m n = Some (Ent k l) -> update k m n g = Done (put m n (Ent k (g l))).
Proof. intro H. unfold update. now rewrite (get_of _ _ _ _ H). Qed.

Lemma sim_modify f b k n n' g g' :
  ordinary k -> ir f b n n' -> (forall b' l l', b <= b' -> lr f b' l l' -> lr f b' (g l) (g' l')) ->
  sim f b (modify k n g) (modify k n' g') (fun _ _ _ => True).
Proof.
  intros K (-> & Hn & Hn') Hg p p' u q R Hb E. apply modify_inv in E as (l & L & ->).
  destruct (rel_lookup _ _ _ _ _ _ R K L) as (l' & L' & H). specialize (Hg _ _ _ Hb H).
  assert (Dp : dense (p_map p)) by apply R. assert (Dp' : dense (p_map p')) by apply R.
  pose proof (dense_increasing _ Dp) as I. pose proof (dense_increasing _ Dp') as I'.
  pose proof (r_size _ _ _ R) as Hs.
  exists tt, (set_map (put (p_map p') (f n) (Ent k (g' l'))) p'). split; [unfold modify; now rewrite (update_of _ _ _ _ _ L')|].
  split; [|cbn [set_map p_map]; rewrite (put_size _ _ _ _ I L); split; [lia|auto]].
  constructor; cbn [set_map p_map p_owner p_project p_sites p_assoc]; try apply R.
  - eapply wf_put; eauto; [apply R|]. eapply lr_left; eauto.
  - eapply wf_put; eauto; [apply R|]. rewrite Hs. eapply lr_right; eauto.
  - now rewrite (put_size _ _ _ _ I L), (put_size _ _ _ _ I' L').
  - intros x Hx. rewrite (kind_put _ _ _ _ _ _ Dp L). exact (r_move _ _ _ R x Hx).
  - intros x e E. rewrite lookup_put in E |- * by auto. destruct (N.eqb_spec x n) as [->|Hx].
    + injection E as <-. rewrite N.eqb_refl. eexists. split; eauto. split; auto. apply likes_ordinary; auto. eapply lr_ren; eauto.
    + destruct (N.eqb_spec (f x) (f n)) as [Ef|_]; [apply (inj f (r_bij _ _ _ R)) in Ef; contradiction|].
      exact (r_like _ _ _ R x e E).
  - intro x. rewrite (kind_put _ _ _ _ _ _ Dp L), (kind_put _ _ _ _ _ _ Dp' L'). apply R.
Qed.

Lemma wf_tick p t : wf p -> wf (set_tick t p).
Proof. intro W. constructor; apply W. Qed.
Lemma rel_tick f p p' t t' : rel f p p' -> rel f (set_tick t p) (set_tick t' p').
Proof. intro R. constructor; try apply R; apply wf_tick, R. Qed.

Lemma sim_tick f b : sim f b tick tick (fun _ _ _ => True).
Proof.
  intros p p' t q R Hb E. injection E as <- <-. exists (p_tick p'), (set_tick (S (p_tick p')) p'). split; auto.
  split; [now apply rel_tick|]. split; [cbn; lia|auto].
Qed.

Lemma sim_get f b : sim f b bget bget (fun b' p p' => rel f p p' /\ size (p_map p) = b').
Proof.
  intros p p' t q R Hb E. injection E as <- <-. exists p', p'. split; [reflexivity|]. split; [exact R|]. split; [lia|auto].
Qed.

Section Two.
Variables o o' : oracle.

Lemma sim_guid f b : sim f b (fresh_guid o) (fresh_guid o') (vr f).
Proof.
  eapply sim_bind; [apply sim_tick|]. intros b1 t t' Hb _. apply sim_ret. intros. apply vr_guid.
Qed.

Lemma lr4 f b x y z w x' y' z' w' : vr f b x x' -> vr f b y y' -> vr f b z z' -> vr f b w w' ->
  lr f b [x; y; z; w] [x'; y'; z'; w'].
Proof. intros. repeat (apply Forall2_cons; auto). Qed.

Lemma sim_root f b name : sim f b (root o name) (root o' name) (lr f).
Proof.
  eapply sim_bind; [apply sim_guid|]. intros b1 g g' Hb Hg. apply sim_ret. intros b2 Hb2.
  apply lr4; try (now apply vr_closed). eapply vr_mono; eauto.
Qed.

Lemma sim_owned f b name : sim f b (owned o name) (owned o' name) (lr f).
Proof.
  eapply sim_bind; [apply sim_guid|]. intros b1 g g' Hb Hg.
  eapply sim_bind; [apply sim_get|]. intros b2 p p' Hb2 [R Hs]. apply sim_ret. intros b3 Hb3.
  destruct (r_owner _ _ _ R) as [E1 E2]. rewrite E1.
  apply lr4; try (now apply vr_closed).
  - eapply vr_mono; [|eauto]. lia.
  - apply vr_fx. split; auto. pose proof (wf_owner _ (r_wf _ _ _ R)). lia.
Qed.

Lemma sim_walk f b l : fair o -> fair o' -> sim f b (walk o l) (walk o' l) (fun _ x y => Permutation x l /\ Permutation y l).
Proof.
  intros F F'. eapply sim_bind; [apply sim_tick|]. intros b1 t t' Hb _. apply sim_ret. intros. split; [apply F|apply F'].
Qed.

(** ** Associations *)

Lemma attr_ids_push n l : attr_ids (push_at 4 n l) 4 = attr_ids l 4 ++ [n] \/ attr_ids (push_at 4 n l) 4 = attr_ids l 4.
Proof.
  unfold push_at. destruct (nth_error l 4) as [v|] eqn:E; [|now right]. destruct v; try (now right). left.
  unfold attr_ids at 2. rewrite E. assert (G : forall i l v, nth_error l i <> None -> nth_error (set_at i v l) i = Some v).
  { clear. induction i as [|i IH]; intros [|x l] v; cbn [nth_error set_at]; try congruence; auto. }
  unfold attr_ids. rewrite G by congruence. unfold val_ids. rewrite flat_map_app. reflexivity.
Qed.

Lemma push_at_most b n l : Forall (at_most b) l -> n <= b -> Forall (at_most b) (push_at 4 n l).
Proof.
  intros H Hn. unfold push_at. destruct (nth_error l 4) as [v|] eqn:E; [|auto]. destruct v; auto.
  assert (Hv : at_most b (VList l0)) by (rewrite Forall_forall in H; apply H; eapply nth_error_In; eauto).
  assert (G : forall i l v, Forall (at_most b) l -> at_most b v -> Forall (at_most b) (set_at i v l)).
  { clear. induction i as [|i IH]; intros [|x l] v H Hv; cbn [set_at]; auto; inversion H; subst; constructor; auto. }
  apply G; auto. unfold at_most in *. cbn [ids_in] in *. rewrite flat_map_app. apply Forall_app. split; auto.
  constructor; auto.
Qed.

Lemma akey_eqb_eq a b : akey_eqb a b = true -> a = b.
Proof.
  destruct a as [[c t] m], b as [[c' t'] m']. unfold akey_eqb. cbn [fst snd]. intro H.
  apply andb_prop in H as [H H3]. apply andb_prop in H as [H1 H2]. apply N.eqb_eq in H3. apply Bool.eqb_prop in H2.
  destruct c, c'; try discriminate; congruence.
Qed.

Definition users (l : list (akey * list val)) : list N := flat_map (fun x => attr_ids (snd x) 4) l.

Lemma users_hset l k n rel0 :
  (match hget akey_eqb l k with Some r => rel0 = r | None => attr_ids rel0 4 = [] end) ->
  Permutation (users (hset akey_eqb l k (push_at 4 n rel0))) (n :: users l) \/
  Permutation (users (hset akey_eqb l k (push_at 4 n rel0))) (users l).
Proof.
  unfold users. induction l as [|[k' r] l IH]; cbn [hget hset]; intro H.
  - cbn [flat_map snd app]. rewrite app_nil_r. destruct (attr_ids_push n rel0) as [E|E]; rewrite E, H; [left|right]; auto.
  - destruct (akey_eqb k' k).
    + subst r. cbn [flat_map snd]. destruct (attr_ids_push n rel0) as [E|E]; rewrite E; [left|right; auto].
      rewrite <- app_assoc. cbn [app]. symmetry. apply Permutation_middle.
    + cbn [flat_map snd]. destruct (IH H) as [P|P]; [left|right].
      * rewrite P. symmetry. apply Permutation_middle.
      * now rewrite P.
Qed.

Lemma attr_ids_bound b i r : Forall (at_most b) r -> Forall (fun n => n <= b) (attr_ids r i).
Proof.
  intro Hx. unfold attr_ids. destruct (nth_error r i) as [v|] eqn:E; [|constructor]. destruct v; try constructor.
  assert (Hv : at_most b (VList l)) by (rewrite Forall_forall in Hx; apply Hx; eapply nth_error_In; eauto).
  unfold at_most in Hv. cbn [ids_in] in Hv. unfold val_ids. clear - Hv. induction l as [|v l IH]; cbn [flat_map] in *; [constructor|].
  apply Forall_app in Hv as [H1 H2]. apply Forall_app. split; auto. destruct v; try constructor; auto. now inversion H1.
Qed.

Lemma users_bound b l : Forall (fun x => snd (fst x) <= b /\ Forall (at_most b) (snd x)) l -> Forall (fun n => n <= b) (users l).
Proof.
  unfold users. induction 1 as [|x l [_ Hx] H IH]; cbn [flat_map]; [constructor|]. apply Forall_app. split; auto.
  now apply attr_ids_bound.
Qed.

Definition ar (f : N -> N) (x y : akey * list val) : Prop :=
  fst y = fst x /\ f (snd (fst x)) = snd (fst x) /\ Forall2 (fun v v' => ren f v = ren idn v') (snd x) (snd y).

Lemma hget_ar f l l' k : Forall2 (ar f) l l' ->
  match hget akey_eqb l k, hget akey_eqb l' k with
  | Some r, Some r' => Forall2 (fun v v' => ren f v = ren idn v') r r'
  | None, None => True
  | _, _ => False
  end.
Proof.
  induction 1 as [|[k1 r] [k2 r'] l l' (E & _ & Hr) H IH]; cbn [hget]; auto. cbn [fst snd] in *. subst k2.
  destruct (akey_eqb k1 k); auto.
Qed.

Lemma hset_ar f l l' k r r' : Forall2 (ar f) l l' -> f (snd k) = snd k -> Forall2 (fun v v' => ren f v = ren idn v') r r' ->
  Forall2 (ar f) (hset akey_eqb l k r) (hset akey_eqb l' k r').
Proof.
  intros H Hk Hr. induction H as [|[k1 x] [k2 x'] l l' (E & Hk1 & Hx) H IH]; cbn [hset].
  - constructor; [|constructor]. repeat split; auto.
  - cbn [fst snd] in *. subst k2. destruct (akey_eqb k1 k); constructor; auto; repeat split; auto.
Qed.

Lemma hget_In {V} (l : list (akey * V)) k v : hget akey_eqb l k = Some v -> In (k, v) l.
Proof.
  induction l as [|[k' v'] l IH]; cbn [hget]; [discriminate|]. destruct (akey_eqb k' k) eqn:E.
  - intro H. injection H as ->. apply akey_eqb_eq in E. subst. now left.
  - intro H. right. auto.
Qed.

Lemma hset_Forall (P : akey * list val -> Prop) l k v : Forall P l -> P (k, v) -> Forall P (hset akey_eqb l k v).
Proof.
  intros H Hk. induction H as [|[k' v'] l Hx H IH]; cbn [hset]; [now repeat constructor|].
  destruct (akey_eqb k' k); constructor; auto.
Qed.

Lemma wf_associate p k n r :
  wf p -> snd k <= size (p_map p) -> n <= size (p_map p) -> ~ In n (users (p_assoc p)) -> Forall (at_most (size (p_map p))) r ->
  (match hget akey_eqb (p_assoc p) k with Some r' => r = r' | None => attr_ids r 4 = [] end) ->
  wf (set_assoc (hset akey_eqb (p_assoc p) k (push_at 4 n r)) p).
Proof.
  intros W Hk Hn Hu Hr Hg. constructor; try apply W; cbn [set_assoc p_map p_assoc].
  - apply hset_Forall; [apply W|]. cbn [fst snd]. split; auto. now apply push_at_most.
  - destruct (users_hset _ _ n _ Hg) as [P|P]; unfold users in P; rewrite P; [constructor; auto|]; apply W.
Qed.

Lemma rel_associate f p p' k n r r' :
  rel f p p' -> fx f (size (p_map p)) (snd k) -> fx f (size (p_map p)) n ->
  ~ In n (users (p_assoc p)) -> ~ In n (users (p_assoc p')) -> lr f (size (p_map p)) r r' ->
  (match hget akey_eqb (p_assoc p) k with Some x => r = x | None => attr_ids r 4 = [] end) ->
  (match hget akey_eqb (p_assoc p') k with Some x => r' = x | None => attr_ids r' 4 = [] end) ->
  rel f (set_assoc (hset akey_eqb (p_assoc p) k (push_at 4 n r)) p)
        (set_assoc (hset akey_eqb (p_assoc p') k (push_at 4 n r')) p').
Proof.
  intros R [K1 K2] [N1 N2] U U' Hr G G'. pose proof (r_size _ _ _ R) as Hs. constructor; try apply R.
  - apply wf_associate; auto; [apply R|]. eapply lr_left; eauto.
  - apply wf_associate; auto; try rewrite Hs; auto; [apply R|]. eapply lr_right; eauto.
  - cbn [set_assoc p_assoc]. apply hset_ar; auto; [apply R|]. apply (lr_ren f (size (p_map p))). apply lr_push_at; auto. now split.
Qed.

Lemma associate_rel f c t m n p p' u q :
  rel f p p' -> fx f (size (p_map p)) m -> fx f (size (p_map p)) n ->
  ~ In n (users (p_assoc p)) -> ~ In n (users (p_assoc p')) -> associate o c t m n p = Done (u, q) ->
  exists q', associate o' c t m n p' = Done (tt, q') /\ rel f q q' /\ p_map q = p_map p.
Proof.
  intros R Hm Hn U U' E. unfold associate in *. pose proof (r_size _ _ _ R) as Hs.
  apply bbind_inv in E as (p0 & p1 & E0 & E). injection E0 as <- <-.
  assert (Eb : forall q (k : proj -> B unit), bbind bget k q = k q q) by reflexivity.
  rewrite Eb. pose proof (hget_ar f _ _ (c, t, m) (r_assoc _ _ _ R)) as Hg.
  destruct (hget akey_eqb (p_assoc p) (c, t, m)) as [r|] eqn:G, (hget akey_eqb (p_assoc p') (c, t, m)) as [r'|] eqn:G'; try contradiction.
  - apply bbind_inv in E as (x & p1 & E1 & E). apply bret_inv in E1 as [-> ->].
    apply bbind_inv in E as (x & p1 & E1 & E). injection E1 as <- <-. injection E as _ <-.
    exists (set_assoc (hset akey_eqb (p_assoc p') (c, t, m) (push_at 4 n r')) p'). split; [reflexivity|]. split; [|reflexivity].
    apply rel_associate; auto; try (now rewrite ?G, ?G'). apply to_lr; auto.
    + apply hget_In in G. pose proof (wf_assoc _ (r_wf _ _ _ R)) as W. rewrite Forall_forall in W. apply (W _ G).
    + apply hget_In in G'. pose proof (wf_assoc _ (r_wf' _ _ _ R)) as W. rewrite Forall_forall, Hs in W. apply (W _ G').
  - apply bbind_inv in E as (r & p1 & E1 & E). apply bbind_inv in E as (x & p2 & E2 & E). injection E2 as <- <-. injection E as _ <-.
    apply bbind_inv in E1 as (r0 & p2 & E1 & E2). apply bret_inv in E2 as [-> ->].
    unfold owned, fresh_guid, tick, bbind, bget, bret in E1. injection E1 as <- <-. cbn [p_owner set_tick].
    destruct (r_owner _ _ _ R) as [Eo Ef]. pose proof (wf_owner _ (r_wf _ _ _ R)) as Ho.
    eexists. split; [unfold owned, fresh_guid, tick, bbind, bget, bret, bput; reflexivity|]. split; [|reflexivity].
    cbn [p_owner set_tick p_assoc]. apply (rel_associate f (set_tick _ p) (set_tick _ p')); cbn [set_tick p_map p_assoc]; auto.
    + now apply rel_tick.
    + rewrite Eo. apply lr_app; [apply lr4|]; try (now apply vr_closed); [apply vr_guid|apply vr_fx; now split|].
      constructor; [now apply vr_closed|]. constructor; [now apply vr_fx|constructor].
    + now rewrite G.
    + now rewrite G'.
Qed.

Lemma sim_ins_associate {A} f b k l l' c t m (K K' : N -> B A) R :
  ordinary k -> lr f b l l' -> fx f b m ->
  (forall b' n, b <= b' -> fx f b' n -> sim f b' (K n) (K' n) R) ->
  sim f b (n <-- ins k l ;; u <-- associate o c t m n ;; K n) (n <-- ins k l' ;; u <-- associate o' c t m n ;; K' n) R.
Proof.
  intros Ko Hl Hm HK p p' a q Hr Hb E. apply bbind_inv in E as (n & p1 & E1 & E).
  destruct (sim_ins f b k l l' Ko Hl _ _ _ _ Hr Hb E1) as (n' & p1' & E1' & R1 & Hs1 & -> & Hn).
  apply bbind_inv in E as (u & p2 & E2 & E).
  assert (Dp : dense (p_map p)) by apply Hr. assert (Dp' : dense (p_map p')) by apply Hr.
  pose proof (r_size _ _ _ Hr) as Hs.
  pose proof (ins_inv _ _ _ _ _ E1 Dp) as (En & _ & Ep & _). pose proof (ins_inv _ _ _ _ _ E1' Dp') as (En' & _ & Ep' & _).
  destruct (associate_rel f c t m n p1 p1' u p2 R1) as (p2' & E2' & R2 & Es2); auto.
  - eapply fx_mono; [|exact Hm]. lia.
  - subst p1. cbn [set_map p_assoc]. intro Hi. pose proof (users_bound _ _ (wf_assoc _ (r_wf _ _ _ Hr))) as U.
    rewrite Forall_forall in U. specialize (U _ Hi). lia.
  - subst p1'. cbn [set_map p_assoc]. intro Hi. pose proof (users_bound _ _ (wf_assoc _ (r_wf' _ _ _ Hr))) as U.
    rewrite Forall_forall in U. specialize (U _ Hi). lia.
  - destruct (HK (size (p_map p2)) n) with (p := p2) (p' := p2') (a := a) (q := q) as (a' & q' & E' & R' & Hs' & Ha); auto.
    + rewrite Es2. lia.
    + now rewrite Es2.
    + lia.
    + exists a', q'. unfold bbind at 1. rewrite E1'. unfold bbind at 1. rewrite E2'. repeat (split; auto). rewrite Es2 in Hs'. lia.
Qed.

End Two.
