(** The relations made at the end of a storey and of the project. *)

From Coq Require Import String Ascii List NArith ZArith Bool Lia Permutation.
From Coq Require Import ZifyBool ZifyNat ZifyN.
From Verif Require Import Base Prims PrimsFacts Float Arith Kind Types Schema Entity EntityFacts DataMap DataSpec DataMapFacts
  Extractor Builder BuilderRun BuilderSpec BuilderBase OrderSpec BuilderOrder BuilderOrder2 BuilderOrder3.
Import ListNotations.
Open Scope N_scope.
Open Scope builder_scope.

(** ** Simulation with a renaming that grows *)

Definition esim {A A'} (f : N -> N) (b : N) (c : B A) (c' : B A') (R : (N -> N) -> N -> A -> A' -> Prop) : Prop :=
  forall p p' a q, rel f p p' -> b <= size (p_map p) -> c p = Done (a, q) ->
    exists a' q' f', c' p' = Done (a', q') /\ rel f' q q' /\ agree f f' (size (p_map p)) /\
      size (p_map p) <= size (p_map q) /\ R f' (size (p_map q)) a a'.

Lemma esim_sim {A} f b (c c' : B A) (R : N -> A -> A -> Prop) (R' : (N -> N) -> N -> A -> A -> Prop) :
  sim f b c c' R -> (forall b' a a', b <= b' -> R b' a a' -> R' f b' a a') -> esim f b c c' R'.
Proof.
  intros H HR p p' a q Hr Hb E. destruct (H _ _ _ _ Hr Hb E) as (a' & q' & E' & Hr' & Hs & Ha).
  exists a', q', f. split; [auto|]. split; [auto|]. split; [apply agree_refl|]. split; [auto|]. apply HR; auto. lia.
Qed.

Lemma esim_bind {A A' C C'} f b (c : B A) (c' : B A') (k : A -> B C) (k' : A' -> B C') R R' :
  esim f b c c' R -> (forall f' b' a a', agree f f' b -> b <= b' -> R f' b' a a' -> esim f' b' (k a) (k' a') R') ->
  esim f b (bbind c k) (bbind c' k') R'.
Proof.
  intros H1 H2 p p' x q Hr Hb E. apply bbind_inv in E as (a & p1 & E1 & E2).
  destruct (H1 _ _ _ _ Hr Hb E1) as (a' & p1' & f1 & E1' & Hr1 & A1 & Hs1 & HR).
  assert (Hb1 : b <= size (p_map p1)) by lia.
  destruct (H2 f1 (size (p_map p1)) a a' (agree_mono _ _ _ _ Hb A1) Hb1 HR _ _ _ _ Hr1 (N.le_refl _) E2)
    as (x' & q' & f2 & E2' & Hr2 & A2 & Hs2 & HR').
  exists x', q', f2. split; [unfold bbind; rewrite E1'; exact E2'|]. split; [auto|]. split; [|split; [lia|auto]].
  eapply agree_trans; eauto.
Qed.

Lemma esim_ret {A A'} f b (a : A) (a' : A') (R : (N -> N) -> N -> A -> A' -> Prop) :
  (forall b', b <= b' -> R f b' a a') -> esim f b (bret a) (bret a') R.
Proof.
  intros H p p' x q Hr Hb E. apply bret_inv in E as [-> ->]. exists a', p', f.
  split; [reflexivity|]. split; [auto|]. split; [apply agree_refl|]. split; [lia|auto].
Qed.

Lemma fxs_up f f' b b' l : agree f f' b -> b <= b' -> Forall (fx f b) l -> Forall (fx f' b') l.
Proof. intros A Hb H. apply (fxs_mono _ _ _ _ Hb). eapply agree_fxs; [exact A|apply N.le_refl|exact H]. Qed.
Lemma fx_up f f' b b' n : agree f f' b -> b <= b' -> fx f b n -> fx f' b' n.
Proof. intros A Hb [H1 H2]. split; [rewrite A; auto|lia]. Qed.

(** ** Numbered names *)

Lemma shed_digits d s : forallb is_digit d = true -> shed (d ++ s) = shed s.
Proof.
  induction d as [|c d IH]; cbn [app forallb shed]; auto. intro H. apply andb_prop in H as [H1 H2].
  unfold is_digit in H1. rewrite H1. auto.
Qed.
Lemma stem_numbered s i : stem (s ++ show_N i) = stem s.
Proof.
  unfold stem. rewrite rev_app_distr, shed_digits; auto. pose proof (show_N_digits i) as H. revert H.
  generalize (show_N i) as d. intros d H. rewrite forallb_forall in *. intros c Hc. apply H. now apply in_rev.
Qed.

(** ** The four kinds of relations *)

Definition type_one (name : text) (o : oracle) (i : N) (x : N * list N) : B N :=
  r <-- owned o (name ++ show_N i) ;;
  l <-- walk o (snd x) ;;
  ins KRelDefinesByType (r ++ [ids l; VId (fst x)]).
Definition void_one (name : text) (o : oracle) (i : N) (x : N * N) : B N :=
  r <-- owned o (name ++ show_N i) ;;
  ins KRelVoidsElement (r ++ [VId (snd x); VId (fst x)]).
Definition fill_one (o : oracle) (i : N) (x : N * N) : B N :=
  r <-- owned o (lit "OpeningElementToWindow" ++ show_N i) ;;
  ins KRelFillsElement (r ++ [VId (fst x); VId (snd x)]).
Definition assoc_one (o : oracle) (i : N) (x : N * list val) : B N := ins KRelAssociatesMaterial (snd x).

Definition q_type (name : text) (w : N) (x : N * list N) (l : list val) : Prop :=
  exists g s k, l = [VGuid g; VId w; VStr s; VOmit; ids k; VId (fst x)] /\ stem s = stem name /\ Permutation k (snd x).
Definition q_void (name : text) (w : N) (x : N * N) (l : list val) : Prop :=
  exists g s, l = [VGuid g; VId w; VStr s; VOmit; VId (snd x); VId (fst x)] /\ stem s = stem name.
Definition q_fill (name : text) (w : N) (x : N * N) (l : list val) : Prop :=
  exists g s, l = [VGuid g; VId w; VStr s; VOmit; VId (fst x); VId (snd x)] /\ stem s = stem name.
Definition q_assoc (w : N) (x : N * list val) (l : list val) : Prop := l = snd x.

Definition n_type (x : N * list N) : list N := fst x :: snd x.
Definition n_pair (x : N * N) : list N := [fst x; snd x].
Definition n_assoc (x : N * list val) : list N := flat_map ids_in (snd x).

Lemma like_list f l k t : Permutation l t -> Permutation k t -> Forall (fun n => f n = n) t ->
  exists a a', ids l = ids a /\ ids k = ids a' /\ Permutation (map f a) a'.
Proof.
  intros P P' H. exists l, k. split; [auto|]. split; [auto|]. rewrite P, P'.
  replace (map f t) with t; auto. clear P P'. induction H as [|n t E H IH]; cbn [map]; congruence.
Qed.

Lemma id_at_most b n : n <= b -> at_most b (VId n).
Proof. intro H. now constructor. Qed.
Ltac ams := repeat lazymatch goal with
  | |- Forall (at_most _) (_ :: _) => apply Forall_cons
  | |- Forall (at_most _) [] => apply Forall_nil
  | |- at_most _ (VId _) => apply id_at_most
  | |- at_most _ (ids _) => fail
  | |- at_most _ _ => constructor
  end.

Lemma type_perm name l l' o o' i i' f p p' cs q : Permutation l l' -> fair o -> fair o' -> rel f p p' ->
  Forall (fx f (size (p_map p))) (flat_map n_type l) -> bmap_index (type_one name o) i l p = Done (cs, q) ->
  exists cs' q' f', bmap_index (type_one name o') i' l' p' = Done (cs', q') /\ rel f' q q' /\ agree f f' (size (p_map p)) /\
    size (p_map p) <= size (p_map q).
Proof.
  apply (single_perm KRelDefinesByType (type_one name) n_type (q_type name)).
  - intros o1 i1 x p1 Ho. do 2 eexists. split; [reflexivity|]. do 3 eexists. split; [reflexivity|].
    split; [apply stem_numbered|apply Ho].
  - intros g w x l1 l2 (a & s & k & -> & S1 & P1) (a' & s' & k' & -> & S2 & P2) Hw Hx. unfold n_type in Hx.
    apply Forall_cons_iff in Hx as [H1 H2]. cbn [likes part_of like_part ren]. rewrite Hw, H1.
    split; [reflexivity|]. split; [reflexivity|]. split; [exists s, s'; split; [auto|]; split; [auto|congruence]|].
    split; [reflexivity|]. split; [eapply like_list; eauto|]. split; [reflexivity|exact I].
  - intros b w x l1 (a & s & k & -> & S1 & P1) Hw Hx. unfold n_type in Hx. apply Forall_cons_iff in Hx as [H1 H2].
    ams; auto. apply ids_at_most. eapply Permutation_Forall; [symmetry; exact P1|exact H2].
  - reflexivity.
Qed.

Lemma void_perm name l l' o o' i i' f p p' cs q : Permutation l l' -> fair o -> fair o' -> rel f p p' ->
  Forall (fx f (size (p_map p))) (flat_map n_pair l) -> bmap_index (void_one name o) i l p = Done (cs, q) ->
  exists cs' q' f', bmap_index (void_one name o') i' l' p' = Done (cs', q') /\ rel f' q q' /\ agree f f' (size (p_map p)) /\
    size (p_map p) <= size (p_map q).
Proof.
  apply (single_perm KRelVoidsElement (void_one name) n_pair (q_void name)).
  - intros o1 i1 x p1 Ho. do 2 eexists. split; [reflexivity|]. do 2 eexists. split; [reflexivity|]. apply stem_numbered.
  - intros g w x l1 l2 (a & s & -> & S1) (a' & s' & -> & S2) Hw Hx. unfold n_pair in Hx.
    apply Forall_cons_iff in Hx as [H1 H2]. apply Forall_cons_iff in H2 as [H2 _]. cbn [likes part_of like_part ren]. rewrite Hw, H1, H2.
    split; [reflexivity|]. split; [reflexivity|]. split; [exists s, s'; split; [auto|]; split; [auto|congruence]|]. tauto.
  - intros b w x l1 (a & s & -> & S1) Hw Hx. unfold n_pair in Hx. apply Forall_cons_iff in Hx as [H1 H2]. apply Forall_cons_iff in H2 as [H2 _].
    ams; auto.
  - reflexivity.
Qed.

Lemma fill_perm l l' o o' i i' f p p' cs q : Permutation l l' -> fair o -> fair o' -> rel f p p' ->
  Forall (fx f (size (p_map p))) (flat_map n_pair l) -> bmap_index (fill_one o) i l p = Done (cs, q) ->
  exists cs' q' f', bmap_index (fill_one o') i' l' p' = Done (cs', q') /\ rel f' q q' /\ agree f f' (size (p_map p)) /\
    size (p_map p) <= size (p_map q).
Proof.
  apply (single_perm KRelFillsElement fill_one n_pair (q_fill (lit "OpeningElementToWindow"))).
  - intros o1 i1 x p1 Ho. do 2 eexists. split; [reflexivity|]. do 2 eexists. split; [reflexivity|]. apply stem_numbered.
  - intros g w x l1 l2 (a & s & -> & S1) (a' & s' & -> & S2) Hw Hx. unfold n_pair in Hx.
    apply Forall_cons_iff in Hx as [H1 H2]. apply Forall_cons_iff in H2 as [H2 _]. cbn [likes part_of like_part ren]. rewrite Hw, H1, H2.
    split; [reflexivity|]. split; [reflexivity|]. split; [exists s, s'; split; [auto|]; split; [auto|congruence]|]. tauto.
  - intros b w x l1 (a & s & -> & S1) Hw Hx. unfold n_pair in Hx. apply Forall_cons_iff in Hx as [H1 H2]. apply Forall_cons_iff in H2 as [H2 _].
    ams; auto.
  - reflexivity.
Qed.

Lemma assoc_ordinary i : part_of KRelAssociatesMaterial i = Same.
Proof. reflexivity. Qed.

Lemma assoc_perm l l' o o' i i' f p p' cs q : Permutation l l' -> fair o -> fair o' -> rel f p p' ->
  Forall (fx f (size (p_map p))) (flat_map n_assoc l) -> bmap_index (assoc_one o) i l p = Done (cs, q) ->
  exists cs' q' f', bmap_index (assoc_one o') i' l' p' = Done (cs', q') /\ rel f' q q' /\ agree f f' (size (p_map p)) /\
    size (p_map p) <= size (p_map q).
Proof.
  apply (single_perm KRelAssociatesMaterial assoc_one n_assoc q_assoc).
  - intros o1 i1 x p1 Ho. exists (snd x), (p_tick p1). split; [destruct p1; reflexivity|reflexivity].
  - intros g w x l1 l2 -> -> _ Hx. unfold n_assoc in Hx. revert Hx. generalize 0%nat. generalize (snd x) as l0.
    induction l0 as [|v l0 IH]; intros j Hx; cbn [likes]; auto. cbn [flat_map] in Hx. apply Forall_app in Hx as [H1 H2].
    split; auto. rewrite assoc_ordinary. cbn [like_part]. apply ren_ext. rewrite Forall_forall in H1. auto.
  - intros b w x l1 -> Hw Hx. unfold n_assoc in Hx. revert Hx. generalize (snd x) as l0.
    induction l0 as [|v l0 IH]; intro Hx; constructor; cbn [flat_map] in Hx; apply Forall_app in Hx as [H1 H2]; auto.
  - reflexivity.
Qed.

Section Drops.
Variables o o' : oracle.
Hypothesis Fo : fair o.
Hypothesis Fo' : fair o'.

Definition any {A A'} : (N -> N) -> N -> A -> A' -> Prop := fun _ _ _ _ => True.

(** ** A storey *)

Lemma pick_ids {V} (n : N * V -> list N) (P : N -> Prop) l : Forall P (flat_map n l) -> Forall P (flat_map n (flat_map (pick l) (map fst l))).
Proof.
  intro H. rewrite Forall_forall in *. intros k Hk. apply in_flat_map in Hk as (x & Hx & Hk). apply in_flat_map in Hx as (a & _ & Hx).
  unfold pick in Hx. destruct (hget N.eqb l a) as [v|] eqn:E; [|destruct Hx]. destruct Hx as [<-|[]].
  apply H. apply in_flat_map. exists (a, v). split; auto. now apply hget_In'.
Qed.

Lemma esim_walked {V} (F : oracle -> N -> N * V -> B N) (n : N * V -> list N) f b l :
  (forall l l' o o' i i' f p p' cs q, Permutation l l' -> fair o -> fair o' -> rel f p p' ->
     Forall (fx f (size (p_map p))) (flat_map n l) -> bmap_index (F o) i l p = Done (cs, q) ->
     exists cs' q' f', bmap_index (F o') i' l' p' = Done (cs', q') /\ rel f' q q' /\ agree f f' (size (p_map p)) /\
       size (p_map p) <= size (p_map q)) ->
  Forall (fx f b) (flat_map n l) ->
  esim f b (ts <-- walk_pairs o l ;; bmap_index (F o) 0 ts) (ts <-- walk_pairs o' l ;; bmap_index (F o') 0 ts) any.
Proof.
  intros HF H. eapply esim_bind.
  - eapply (esim_sim _ _ _ _ _ (fun _ _ x y => Permutation x (flat_map (pick l) (map fst l)) /\ Permutation y (flat_map (pick l) (map fst l)))).
    + apply sim_walk_pairs; assumption.
    + auto.
  - intros f1 b1 x y A Hb [P1 P2] p p' cs q R Hs E.
    destruct (HF x y o o' 0 0 f1 p p' cs q) as (cs' & q' & f' & E' & R' & A' & Hs'); auto.
    + now rewrite P1, P2.
    + apply (fxs_mono _ _ _ _ Hs). apply (fxs_up f f1 b b1 _ A Hb).
      eapply Permutation_Forall; [apply Permutation_flat_map; symmetry; exact P1|]. apply pick_ids, H.
    + exists cs', q', f'. unfold any. auto.
Qed.

Lemma esim_types f b c name st : sx f b st -> esim f b (type_relations o c name st) (type_relations o' c name st) any.
Proof.
  intro H. apply (esim_walked (type_one name) n_type).
  - exact (type_perm name).
  - apply sx_iff in H as (_ & _ & _ & H & _). unfold types_of. rewrite Forall_forall in *. intros k Hk.
    apply in_flat_map in Hk as (x & Hx & Hk). apply in_map_iff in Hx as (y & <- & Hy). apply filter_In in Hy as [Hy _].
    destruct (H _ Hy) as [H1 H2]. unfold n_type in Hk. cbn [fst snd] in Hk. destruct Hk as [<-|Hk]; auto.
    rewrite Forall_forall in H2. auto.
Qed.

Lemma pair_fxs f b l : Forall (fun x => fx f b (fst x) /\ fx f b (snd x)) l -> Forall (fx f b) (flat_map n_pair l).
Proof. induction 1 as [|x l [H1 H2] H IH]; cbn [flat_map n_pair app]; auto. Qed.

Lemma esim_voids f b name l : Forall (fun x => fx f b (fst x) /\ fx f b (snd x)) l ->
  esim f b (void_relations o name l) (void_relations o' name l) any.
Proof.
  intro H. apply (esim_walked (void_one name) n_pair).
  - exact (void_perm name).
  - now apply pair_fxs.
Qed.
Lemma esim_fills f b st : sx f b st -> esim f b (fill_relations o st) (fill_relations o' st) any.
Proof.
  intro H. apply (esim_walked fill_one n_pair).
  - exact fill_perm.
  - apply pair_fxs. apply sx_iff in H. tauto.
Qed.

Lemma esim_walk f b l : esim f b (walk o l) (walk o' l) (fun _ _ x y => Permutation x l /\ Permutation y l).
Proof. eapply esim_sim; [apply sim_walk; assumption|]. auto. Qed.

Lemma sx_up f f' b b' st : agree f f' b -> b <= b' -> sx f b st -> sx f' b' st.
Proof. apply fxs_up. Qed.

Lemma elems_fxs f b c st : sx f b st -> Forall (fx f b) (elems_of c st).
Proof.
  intro H. apply sx_iff in H as (_ & _ & H & _). unfold elems_of. rewrite Forall_forall in *. intros k Hk.
  apply in_map_iff in Hk as (y & <- & Hy). apply filter_In in Hy as [Hy _]. auto.
Qed.

Ltac goes A Hb :=
  repeat match goal with Hs : sx ?f ?b ?st |- _ => lazymatch type of A with agree f _ b => apply (sx_up _ _ _ _ _ A Hb) in Hs end end;
  repeat match goal with Hs : fx ?f ?b ?st |- _ => lazymatch type of A with agree f _ b => apply (fx_up _ _ _ _ _ A Hb) in Hs end end.
Ltac es T := eapply esim_bind; [T|cbn beta; let f := fresh "f" in let b := fresh "b" in let x := fresh "x" in let y := fresh "y" in
  let A := fresh "A" in let Hb := fresh "Hb" in let H := fresh "H" in intros f b x y A Hb H; goes A Hb].

Lemma esim_drop_storey f b st : sx f b st -> esim f b (drop_storey o st) (drop_storey o' st) any.
Proof.
  intro Hst. unfold drop_storey.
  eapply esim_bind; [eapply (esim_sim _ _ _ _ _ (fun f b x y => exists g g' w, x = [VGuid g; VId w; VStr (lit "StoreyToStructureElements"); VOmit] /\
     y = [VGuid g'; VId w; VStr (lit "StoreyToStructureElements"); VOmit] /\ fx f b w)); [apply sim_owned4|intros b' a a' _ Ha; exact Ha]|].
  cbn beta. intros f1 b1 r r' A1 Hb1 (g & g' & w & -> & -> & Hw). goes A1 Hb1.
  es ltac:(apply esim_types; assumption). es ltac:(apply esim_walk).
  es ltac:(apply esim_types; assumption). es ltac:(apply esim_walk).
  es ltac:(apply esim_types; assumption). es ltac:(apply esim_walk).
  es ltac:(apply esim_voids; apply sx_iff in Hst; tauto). es ltac:(apply esim_voids; apply sx_iff in Hst; tauto).
  es ltac:(apply esim_types; assumption). es ltac:(apply esim_fills; assumption). es ltac:(apply esim_walk).
  es ltac:(apply esim_types; assumption). es ltac:(apply esim_walk).
  pose proof (proj1 (sx_iff _ _ _) Hst) as (Hid & Hctx & _).
  match goal with |- esim ?f ?b _ _ _ => assert (W : forall c x, Permutation x (elems_of c st) -> Forall (fx f b) x) by
    (intros c z Pz; eapply perm_fxs; [exact Pz|apply elems_fxs; exact Hst]) end.
  eapply esim_bind; [eapply esim_sim; [apply sim_ins_gen|intros b' a a' Hb' Ha; exact I]|].
  - cbn [app likes part_of like_part ren].
    split; [reflexivity|]. split; [destruct Hw as [-> _]; reflexivity|]. split; [reflexivity|]. split; [reflexivity|].
    split; [|split; [destruct Hid as [-> _]; reflexivity|exact I]].
    match goal with |- exists l l', ids ?a = ids l /\ ids ?b = ids l' /\ _ => exists a, b end. split; [reflexivity|]. split; [reflexivity|].
    repeat match goal with H : Permutation ?a ?c /\ Permutation ?b ?c |- _ => destruct H as [?P ?P'] end.
    erewrite map_fix.
    + repeat apply Permutation_app; etransitivity; try eassumption; symmetry; eassumption.
    + repeat (apply Forall_app; split); eapply W; eassumption.
  - repeat match goal with H : Permutation ?a ?c /\ Permutation ?b ?c |- _ => destruct H as [?P ?P'] end.
    cbn [app]. ams; try apply Hw; try apply Hid. eapply fxs_at_most. repeat (apply Forall_app; split); eapply W; eassumption.
  - repeat match goal with H : Permutation ?a ?c /\ Permutation ?b ?c |- _ => destruct H as [?P ?P'] end.
    cbn [app]. ams; try apply Hw; try apply Hid. eapply fxs_at_most. repeat (apply Forall_app; split); eapply W; eassumption.
  - intros fz bz n n' Az Hbz _. goes Az Hbz.
    eapply esim_bind; [eapply esim_sim; [apply sim_aggregate; auto; apply elems_fxs; exact Hst|intros b' a a' Hb' Ha; exact I]|].
    intros fy b_y m m' _ _ _. apply esim_ret. exact (fun _ _ => I).
Qed.

(** ** The end of the project *)

Lemma ar'_perm f (x l l' y : list (N * list val)) : Permutation x l -> Forall2 (ar' f) l l' -> Permutation y l' ->
  exists z, Forall2 (ar' f) x z /\ Permutation z y.
Proof.
  intros P F P'. destruct (Permutation_Forall2 (Permutation_sym P) F) as (z & Pz & Fz). exists z. split; auto.
  rewrite <- Pz. now symmetry.
Qed.

Lemma bmap_as_index {A C} (g : A -> B C) l : forall i p, bmap g l p = bmap_index (fun _ => g) i l p.
Proof.
  induction l as [|x l IH]; intros i p; cbn [bmap bmap_index]; auto. unfold bbind. destruct (g x p) as [[c p1]| |]; auto.
  now rewrite (IH (i + 1)).
Qed.

Definition all_assocs (p : proj) : list (N * list val) :=
  flat_map (fun t => flat_map (pick (assocs_of (fst t) (snd t) (p_assoc p))) (map fst (assocs_of (fst t) (snd t) (p_assoc p)))) assoc_tables.

Lemma all_assocs_ar f p p' : rel f p p' -> Forall2 (ar' f) (all_assocs p) (all_assocs p').
Proof.
  intro R. unfold all_assocs. generalize assoc_tables as ts. induction ts as [|t ts IH]; cbn [flat_map]; [constructor|].
  apply Forall2_app; auto. pose proof (assocs_ar f (fst t) (snd t) _ _ (r_assoc _ _ _ R)) as A.
  rewrite (ar'_keys _ _ _ A). generalize (map fst (assocs_of (fst t) (snd t) (p_assoc p))) as ks.
  induction ks as [|k ks IHk]; cbn [flat_map]; [constructor|]. apply Forall2_app; auto. unfold pick.
  pose proof (hget_ar' f _ _ k A) as G. destruct (hget N.eqb (assocs_of _ _ (p_assoc p)) k), (hget N.eqb (assocs_of _ _ (p_assoc p')) k); try contradiction.
  - constructor; [|constructor]. split; auto.
  - constructor.
Qed.

Lemma all_assocs_bound p : wf p -> Forall (fun x => Forall (at_most (size (p_map p))) (snd x)) (all_assocs p).
Proof.
  intro W. rewrite Forall_forall. intros x Hx. apply in_flat_map in Hx as (t & _ & Hx). apply in_flat_map in Hx as (k & _ & Hx).
  unfold pick in Hx. destruct (hget N.eqb _ k) as [r|] eqn:E; [|destruct Hx]. destruct Hx as [<-|[]]. cbn [snd].
  apply hget_In', assocs_In in E. pose proof (wf_assoc _ W) as H. rewrite Forall_forall in H. apply (H _ E).
Qed.

Lemma sim_walk_all f b l l' ts : sim f b (bmap (fun t => walk_pairs o (assocs_of (fst t) (snd t) l)) ts)
    (bmap (fun t => walk_pairs o' (assocs_of (fst t) (snd t) l')) ts)
    (fun _ x y =>
       Permutation (concat x) (flat_map (fun t => flat_map (pick (assocs_of (fst t) (snd t) l)) (map fst (assocs_of (fst t) (snd t) l))) ts) /\
       Permutation (concat y) (flat_map (fun t => flat_map (pick (assocs_of (fst t) (snd t) l')) (map fst (assocs_of (fst t) (snd t) l'))) ts)).
Proof.
  revert b. induction ts as [|t ts IH]; intro b; cbn [bmap flat_map].
  - apply sim_ret. auto.
  - eapply sim_bind; [apply sim_walk_pairs; assumption|]. cbn beta. intros b1 x y _ [P1 P2].
    eapply sim_bind; [apply IH|]. cbn beta. intros b2 xs ys _ [P3 P4]. apply sim_ret. intros b3 _. cbn [concat].
    split; apply Permutation_app; assumption.
Qed.

Lemma sim_assocs f b x z : Forall2 (fun a c => lr f b (snd a) (snd c)) x z -> forall i,
  sim f b (bmap_index (assoc_one o) i x) (bmap_index (assoc_one o') i z) (fun _ _ _ => True).
Proof.
  intro H. revert b z H. induction x as [|a x IH]; intros b z H i; inversion H as [|? c ? z1 H1 H2]; subst; cbn [bmap_index].
  - apply sim_ret. auto.
  - eapply sim_bind; [apply sim_ins; [intro; reflexivity|exact H1]|]. cbn beta. intros b1 n n' Hb _.
    eapply sim_bind; [apply IH|].
    + clear - H2 Hb. induction H2; constructor; auto. eapply lr_mono; eauto.
    + intros b2 ns ns' _ _. apply sim_ret. auto.
Qed.

Lemma esim_build f b : esim f b (build o) (build o') any.
Proof.
  unfold build. eapply esim_bind; [eapply (esim_sim _ _ _ _ _ (fun f b p p' => rel f p p' /\ size (p_map p) = b)); [apply sim_get|auto]|].
  cbn beta. intros f1 b1 p p' _ _ [R Hb].
  eapply esim_bind; [eapply (esim_sim _ _ _ _ _ (fun g b ls ls' => g = f1 /\ b1 <= b /\ Permutation (concat ls) (all_assocs p) /\ Permutation (concat ls') (all_assocs p')));
    [apply sim_walk_all|auto]|].
  cbn beta. intros f2 b2 ls ls' _ Hb2 (-> & _ & P1 & P2).
  destruct (ar'_perm f1 _ _ _ _ P1 (all_assocs_ar _ _ _ R) P2) as (z & Fz & Pz).
  pose proof (r_project _ _ _ R) as [Pr1 Pr2]. pose proof (wf_project _ (r_wf _ _ _ R)) as Pr3. rewrite Pr1.
  pose proof (r_sites _ _ _ R) as [Si1 Si2]. pose proof (wf_sites _ (r_wf _ _ _ R)) as Si3. rewrite Si1.
  assert (Bx : Forall (fun x => Forall (at_most b2) (snd x)) (concat ls)).
  { eapply Permutation_Forall; [symmetry; exact P1|]. eapply Forall_impl; [|apply all_assocs_bound; apply R].
    cbn beta. intros a Ha. eapply Forall_impl; [|exact Ha]. intros v Hv. eapply Forall_impl; [|exact Hv]. cbn beta. intros k Hk. lia. }
  assert (Bz : Forall (fun x => Forall (at_most b2) (snd x)) z).
  { eapply Permutation_Forall; [symmetry; etransitivity; [exact Pz|exact P2]|]. eapply Forall_impl; [|apply all_assocs_bound; apply R].
    pose proof (r_size _ _ _ R) as Hz.
    cbn beta. intros a Ha. eapply Forall_impl; [|exact Ha]. intros v Hv. eapply Forall_impl; [|exact Hv]. cbn beta. intros k Hk. lia. }
  assert (Lz : Forall2 (fun a c => lr f1 b2 (snd a) (snd c)) (concat ls) z).
  { clear - Bx Bz Fz. induction Fz as [|a c l l' [_ H] Fz IH]; constructor.
    - inversion Bx; inversion Bz; subst. apply to_lr; auto.
    - inversion Bx; inversion Bz; subst. apply IH; auto. }
  eapply (esim_bind _ _ _ _ _ _ any).
  - intros q q' cs r Rq Hq E. rewrite (bmap_as_index _ _ 0) in E.
    destruct (sim_assocs f1 b2 _ _ Lz 0 _ _ _ _ Rq Hq E) as (cs1 & r1 & E1 & R1 & Hs1 & _).
    pose proof (r_size _ _ _ Rq) as Hz.
    destruct (assoc_perm z (concat ls') o' o' 0 0 idn q' q' cs1 r1) as (cs2 & r2 & g & E2 & R2 & A2 & Hs2); auto.
    + eapply rel_right; eauto.
    + rewrite Hz. clear - Bz Hq. induction Bz as [|a l H Bz IH]; cbn [flat_map]; [constructor|]. apply Forall_app. split; auto.
      unfold n_assoc. apply Forall_flat_map. eapply Forall_impl; [|exact H]. intros v Hv. eapply Forall_impl; [|exact Hv].
      cbn beta. intros k Hk. split; [reflexivity|lia].
    + exists cs2, r2, (fun n => g (f1 n)). rewrite (bmap_as_index _ _ 0). split; [exact E2|]. split; [exact (rel_comp _ _ _ _ _ R1 R2)|].
      split; [|split; [lia|exact I]]. intros n Hn. rewrite A2; [reflexivity|]. rewrite Hz. eapply r_in; eauto.
  - intros f3 b3 u u' A3 Hb3 _. rewrite Hb in *.
    eapply esim_bind; [eapply esim_sim; [apply sim_aggregate; auto|intros b' a a' Hb' Ha; exact I]|].
    + apply (fx_up _ _ b1 _ _ (agree_mono _ _ _ _ Hb2 A3)); [lia|]. split; auto.
    + apply (fxs_up _ _ b1 _ _ (agree_mono _ _ _ _ Hb2 A3)); [lia|]. clear - Si2 Si3. rewrite Forall_forall in *. split; auto.
    + intros fy b_y m m' _ _ _. apply esim_ret. exact (fun _ _ => I).
Qed.
End Drops.
