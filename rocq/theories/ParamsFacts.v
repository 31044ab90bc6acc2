(** Facts about the setters of a transform. *)

From Coq Require Import List NArith ZArith Bool Lia.
From Coq Require Import QArith.
From Verif Require Import Float Arith Builder BuilderRun BuilderExample Params ArithSpec DirSpec BuilderDirs DirFacts ParamsSpec.
Import ListNotations.
Open Scope N_scope.

Lemma is_zero_iff d : f64_ok d -> is_zero d = true <-> exists s, d = FFin s 0 (-1074).
Proof.
  destruct d as [|s|s m e]; cbn [is_zero]; intro H.
  - split; [discriminate|]. intros [s E]. discriminate.
  - split; [discriminate|]. intros [s' E]. discriminate.
  - split.
    + intro E. apply N.eqb_eq in E. subst m. destruct H as (_ & _ & [->|H]); [eauto|lia].
    + intros [s' E]. injection E as -> -> ->. reflexivity.
Qed.

Lemma zero_iff v : in_bits v -> vec_is_zero v = true <-> zero_vector v.
Proof.
  destruct v as [[x y] z]. unfold in_bits, coords, vec_is_zero, zero_vector. intro H.
  inversion H as [|? ? Hx H1]; subst. inversion H1 as [|? ? Hy H2]; subst. inversion H2 as [|? ? Hz _]; subst.
  rewrite !andb_true_iff, !is_zero_iff by auto. split.
  - intros [[[s ->] [t ->]] [u ->]]. now exists s, t, u.
  - intros (s & t & u & E). injection E as -> -> ->. repeat split; eauto.
Qed.

Definition zeros_last (d : vec3) (l : list vec3) : vec3 :=
  fold_left (fun a v => if vec_is_zero v then a else v) l d.

Lemma zeros_last_spec l : forall d, Forall in_bits l ->
  last_such (fun v => ~ zero_vector v) d l (zeros_last d l).
Proof.
  induction l as [|v l IH] using rev_ind; intros d H.
  - right. split; auto.
  - apply Forall_app in H as [H Hv]. inversion Hv as [|? ? Hv' _]; subst. unfold zeros_last. rewrite fold_left_app. cbn [fold_left].
    destruct (vec_is_zero v) eqn:E.
    + apply zero_iff in E; auto. destruct (IH d H) as [(a & b & E1 & E2 & E3)|[E1 E2]].
      * left. fold (zeros_last d l). exists a, (b ++ [v]). split; [now rewrite E1 at 1; rewrite <- app_assoc|]. split; auto.
        intros u Hu. apply in_app_iff in Hu as [Hu|[<-|[]]]; auto.
      * right. split; auto. intros u Hu. apply in_app_iff in Hu as [Hu|[<-|[]]]; auto.
    + left. exists l, []. split; auto. split; [|intros u []]. intro Z. apply zero_iff in Z; auto. congruence.
Qed.

Lemma fold_params l : forall t,
  t_move (fold_left set_one l t) = last (given_move l) (t_move t) /\
  t_x (fold_left set_one l t) = zeros_last (t_x t) (given_x l) /\
  t_y (fold_left set_one l t) = zeros_last (t_y t) (given_y l) /\
  t_z (fold_left set_one l t) = zeros_last (t_z t) (given_z l).
Proof.
  induction l as [|s l IH]; intro t; [repeat split|]. cbn [fold_left]. destruct (IH (set_one t s)) as (H1 & H2 & H3 & H4).
  rewrite H1, H2, H3, H4. clear. unfold given_move, given_x, given_y, given_z. cbn [flat_map].
  assert (L : forall (v d : vec3) k, last (v :: k) d = last k v).
  { intros v d k. revert v d. induction k as [|a k IH]; intros v d; [reflexivity|].
    change (last (v :: a :: k) d) with (last (a :: k) d). now rewrite !IH. }
  destruct s as [v|v|v|v|q]; cbn [set_one app].
  - rewrite L. repeat split.
  - unfold set_x_rotation, zeros_last. cbn [fold_left]. destruct (vec_is_zero v); repeat split.
  - unfold set_y_rotation, zeros_last. cbn [fold_left]. destruct (vec_is_zero v); repeat split.
  - unfold set_z_rotation, zeros_last. cbn [fold_left]. destruct (vec_is_zero v); repeat split.
  - unfold set_rotation, set_x_rotation, set_y_rotation, set_z_rotation, zeros_last. cbn [fold_left].
    destruct (vec_is_zero (q v_x)), (vec_is_zero (q v_y)), (vec_is_zero (q v_z)); repeat split.
Qed.

Lemma last_such_holds (P Q : vec3 -> Prop) d l v :
  last_such P d l v -> Q d -> (forall u, In u l -> P u -> Q u) -> Q v.
Proof.
  intros [(a & b & -> & Pv & _)|[-> _]] Hd H; auto. apply H; auto. apply in_or_app. right. now left.
Qed.

Lemma last_last l : forall d, last_such (fun _ => True) d l (last l d).
Proof.
  induction l as [|v l IH] using rev_ind; intro d; [right; split; auto|].
  left. exists l, []. rewrite List.last_last. repeat split; auto.
Qed.

Lemma params_settings l :
  Forall in_bits (given_x l ++ given_y l ++ given_z l) ->
  last_such (fun _ => True) v_zero (given_move l) (t_move (params l)) /\
  last_such (fun v => ~ zero_vector v) v_x (given_x l) (t_x (params l)) /\
  last_such (fun v => ~ zero_vector v) v_y (given_y l) (t_y (params l)) /\
  last_such (fun v => ~ zero_vector v) v_z (given_z l) (t_z (params l)).
Proof.
  rewrite !Forall_app. intros (Hx & Hy & Hz). unfold params. destruct (fold_params l tparam_default) as (-> & -> & -> & ->).
  split; [apply last_last|]. repeat split; now apply zeros_last_spec.
Qed.

Lemma axis_not_zero : ~ zero_vector v_x /\ ~ zero_vector v_y /\ ~ zero_vector v_z.
Proof. repeat split; intros (s & t & u & E); discriminate E. Qed.

Lemma params_never_zero l :
  Forall in_bits (given_x l ++ given_y l ++ given_z l) ->
  ~ zero_vector (t_x (params l)) /\ ~ zero_vector (t_y (params l)) /\ ~ zero_vector (t_z (params l)).
Proof.
  intro H. destruct (params_settings l H) as (_ & Hx & Hy & Hz). destruct axis_not_zero as (Zx & Zy & Zz).
  exact (conj (last_such_holds _ (fun v => ~ zero_vector v) _ _ _ Hx Zx (fun _ _ h => h))
           (conj (last_such_holds _ (fun v => ~ zero_vector v) _ _ _ Hy Zy (fun _ _ h => h))
                 (last_such_holds _ (fun v => ~ zero_vector v) _ _ _ Hz Zz (fun _ _ h => h)))).
Qed.

Lemma params_directed l :
  Forall in_bits (given_x l ++ given_y l ++ given_z l) ->
  (forall v, In v (given_x l ++ given_y l ++ given_z l) -> zero_vector v \/ moderate3 v) ->
  directed (OTransform (params l)).
Proof.
  intros H M. destruct (params_settings l H) as (_ & Hx & Hy & Hz). cbn [directed]. unfold moderate_axes.
  split; [|split]; (eapply (last_such_holds _ moderate3); [eassumption|first [apply moderate_x|apply moderate_y|apply moderate_z]|]);
    intros u Hu Zu; (destruct (M u) as [Z|Z]; [rewrite !in_app_iff; tauto|contradiction|exact Z]).
Qed.

Lemma params_nan :
  exists l, Forall in_bits (given_x l ++ given_y l ++ given_z l) /\ t_x (params l) = (FNan, FNan, FNan).
Proof.
  exists [SetX (FNan, FNan, FNan)]. split; [|reflexivity]. repeat (apply Forall_cons || apply Forall_nil); exact I.
Qed.

(** The example of P_Params.v. *)
Definition quarter (v : vec3) : vec3 := let '(x, y, z) := v in (fopp y, x, z).
Definition chain1 : list setting :=
  [ SetTranslation v_y; SetRotation quarter; SetX (f_one, f_two, f_zero); SetX v_zero
  ; SetZ (fopp f_zero, f_zero, fopp f_zero); SetTranslation v_zero ].
Lemma chain_meets :
  Forall in_bits (given_x chain1 ++ given_y chain1 ++ given_z chain1) /\
  (forall v, In v (given_x chain1 ++ given_y chain1 ++ given_z chain1) -> zero_vector v \/ moderate3 v).
Proof.
  split.
  - unfold chain1. cbn [given_x given_y given_z flat_map app].
    repeat apply Forall_cons; try apply Forall_nil; (repeat apply Forall_cons; try apply Forall_nil);
      (vm_compute; repeat split; first [discriminate|now left|right; discriminate]).
  - unfold chain1. cbn [given_x given_y given_z flat_map app].
    intros v [<-|[<-|[<-|[<-|[<-|[<-|[]]]]]]].
    + right. moderate.
    + right. moderate.
    + left. now exists false, false, false.
    + right. moderate.
    + right. moderate.
    + left. now exists true, false, true.
Qed.
