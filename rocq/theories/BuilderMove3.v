(** Moves in programs. *)

From Coq Require Import String Ascii List NArith ZArith Bool Lia Permutation.
From Coq Require Import ZifyBool ZifyNat ZifyN.
From Verif Require Import Base Prims Float Arith Kind Types Schema Entity EntityFacts DataMap DataSpec DataMapFacts
  Extractor Builder BuilderRun BuilderBase BuilderGrow BuilderAny BuilderSpec BuilderRel BuilderRel2 BuilderInv BuilderStep
  BuilderAll HistorySpec BuilderHist BuilderPlace BuilderKeep MoveSpec BuilderMove BuilderMove2.
Import ListNotations.
Open Scope N_scope.
Open Scope builder_scope.

(** ** Honest programs *)

Fixpoint learn (known : list (kind * N)) (xs : list op) (ls : list (list N)) : list (kind * N) :=
  match xs, ls with
  | x :: xs', a :: ls' => learn (returned x a ++ known) xs' ls'
  | _, _ => known
  end.

Lemma honest_app xs : forall known ys ls l2, length xs = length ls ->
  honest known (xs ++ ys) (ls ++ l2) <-> honest known xs ls /\ honest (learn known xs ls) ys l2.
Proof.
  induction xs as [|x xs IH]; intros known ys [|a ls] l2 E; try discriminate E; cbn [app honest learn].
  - tauto.
  - injection E as E. rewrite (IH _ _ _ _ E). tauto.
Qed.

Definition cover (known : list (kind * N)) (cs : list call) : Prop :=
  forall k n, In (k, n) known -> existsb (kind_eqb k) transformable = true -> In (k, n) (prods cs).

Lemma cover_nil : cover [] [].
Proof. intros k n []. Qed.

Lemma cover_step known cs s x a : cover known cs -> cover (returned x a ++ known) (cs ++ [(s, x, a)]).
Proof.
  intros H k n Hi Hk. rewrite app_prods. apply in_or_app. apply in_app_iff in Hi as [Hi|Hi]; [right|left; auto].
  destruct x as [| | | | | | | | | |c| | | | | | | | | | | | | | | | | |]; destruct a as [|n1 [|w1 [|]]];
    cbn [returned call_products In] in *; try tauto;
    repeat (destruct Hi as [E|Hi]; [injection E as <- <-; try discriminate Hk; auto|]); try tauto.
  destruct c; discriminate Hk.
Qed.

Section Runs.
Variable o : oracle.
Hypothesis Ho : fair o.

Lemma honest_move known cs x xs a ls : honest known (x :: xs) (a :: ls) -> cover known cs ->
  forall w p r, step o w x p = Done r ->
  match x with OStoreyTransform k n _ => In (k, n) (prods cs) | _ => True end.
Proof.
  intros (U & _ & _) C w p [r q] H. destruct x; auto. destruct w; try discriminate H. cbn [step] in H. inv H. destruct a0.
  cbn [storey_step] in H0. destruct (existsb (kind_eqb k) transformable) eqn:E; [|discriminate].
  apply C; auto. apply U. now left.
Qed.

Lemma run_tied xs : forall cs known w p w' ls p',
  run o w xs p = Done ((w', ls), p') -> tied cs w (p_map p) -> honest known xs ls -> cover known cs ->
  tied (cs ++ calls (scope_ids w) xs ls) w' (p_map p') /\ cover (learn known xs ls) (cs ++ calls (scope_ids w) xs ls).
Proof.
  induction xs as [|x xs IH]; intros cs known w p w' ls p' H T HH C; cbn [run] in H.
  - apply bret_inv in H as [E ->]. injection E as -> ->. cbn [calls learn]. rewrite app_nil_r. auto.
  - inv H. destruct a as [w1 a]. inv H. destruct a0 as [w2 l]. apply bret_inv in H as [E ->]. injection E as -> ->.
    pose proof (honest_move _ _ _ _ _ _ HH C _ _ _ H0) as HX.
    pose proof (tied_step o _ _ _ _ _ _ _ Ho H0 T HX) as T1.
    destruct (step_place o _ _ _ _ _ _ H0 (proj1 T) (proj1 (proj2 T))) as (_ & _ & E1).
    destruct HH as (_ & _ & HH).
    destruct (IH _ _ _ _ _ _ _ H1 T1 HH (cover_step _ _ (scope_ids w) _ _ C)) as [T2 C2].
    cbn [calls learn]. rewrite <- E1. rewrite <- app_assoc in T2, C2. auto.
Qed.

Lemma run_calls xs : forall ys l2 w p w' ls p',
  run o w xs p = Done ((w', ls), p') -> dense (p_map p) -> rooted (p_map p) w ->
  length xs = length ls /\ calls (scope_ids w) (xs ++ ys) (ls ++ l2) = calls (scope_ids w) xs ls ++ calls (scope_ids w') ys l2.
Proof.
  induction xs as [|x xs IH]; intros ys l2 w p w' ls p' H D R; cbn [run] in H.
  - apply bret_inv in H as [E ->]. injection E as -> ->. auto.
  - inv H. destruct a as [w1 a]. inv H. destruct a0 as [w2 l]. apply bret_inv in H as [E ->]. injection E as -> ->.
    destruct (step_place o _ _ _ _ _ _ H0 D R) as (R1 & _ & E1).
    assert (G : grow anything p q).
    { eapply (run_grow o w [x] p (w1, [a]) q). cbn [run]. unfold bbind. now rewrite H0. }
    destruct (IH ys l2 _ _ _ _ _ H1 (proj1 (G D)) R1) as [L E]. cbn [length app calls]. rewrite <- E1, E. auto.
Qed.

Lemma tied_start m : dense m -> tied [] AtProject m.
Proof.
  intro D. split; auto. split; [now left|]. split; [constructor|]. split; [constructor|].
  split; [intros ? ? []|]. split; [constructor|]. split; [constructor|]. split; [intros ? ? []|].
  split; [intros ? ? []|reflexivity].
Qed.

(** ** One call *)

Lemma tied_moves_fun cs w x a n mv mv' m : tied cs w m ->
  match x with OStoreyTransform k n _ => In (k, n) (prods cs) | _ => True end ->
  moves cs (scope_ids w, x, a) n mv -> moves cs (scope_ids w, x, a) n mv' -> mv = mv'.
Proof.
  intros (D & R & GC & PR & SI & WV & WF & VP & FP & T) HX H1 H2.
  assert (AP : forall a v, In (a, v) (flat_map call_place cs) -> at_point m a v).
  { intros b v Hi. apply in_flat_map in Hi as (c & Hc & Hi). rewrite Forall_forall in GC. apply GC in Hc as [_ Hc].
    rewrite Forall_forall in Hc. exact (Hc _ Hi). }
  assert (IS : forall k n, In (k, n) (prods cs) -> is_of m (k, n)).
  { intros k b Hi. rewrite Forall_forall in PR. now apply PR. }
  assert (KK : forall k k' n, In (k, n) (prods cs) -> In (k', n) (prods cs) -> k = k').
  { intros k k' b Hi Hj. destruct (IS _ _ Hi) as [l L], (IS _ _ Hj) as [l' L']. cbn [fst snd] in *. congruence. }
  destruct w as [|s|s c|s c st|s c st h|s c st h nm ps|s c st nm ps]; cbn [scope_ids at_scope] in *;
    try (inversion H1; subst; inversion H2; subst; auto; fail).
  - destruct T as (T & TP & K & L & V & F). pose proof T as (_ & _ & _ & _ & _ & _ & N4).
    assert (K2 : forall a, In (KOpeningElement, h_id h) (prods cs) -> a).
    { intros b Hi. pose proof (KK _ _ _ K Hi) as E. unfold host_kind, host_cls in E. destruct (h_slab h); discriminate E. }
    assert (K3 : forall a, In (KWindow, h_id h) (prods cs) -> a).
    { intros b Hi. pose proof (KK _ _ _ K Hi) as E. unfold host_kind, host_cls in E. destruct (h_slab h); discriminate E. }
    assert (K4 : forall n a, In (KOpeningElement, n) (prods cs) -> In (KWindow, n) (prods cs) -> a).
    { intros b q Hi Hj. discriminate (KK _ _ _ Hi Hj). }
    inversion H1; subst; inversion H2; subst; auto;
      try (apply K2; eapply VP; eauto; fail); try (apply K3; eapply FP; eauto; fail);
      try (match goal with A : In (_, ?n) (flat_map call_voids _), B : In (_, ?n) (flat_map call_fills _) |- _ =>
             exact (K4 n _ (VP _ _ A) (FP _ _ B)) end); try congruence.
    + assert (v = v0) as <- by (eapply at_point_fun; eauto). congruence.
    + assert (n0 = n1) as <-. { eapply NoDup_snd; [exact N4| |]; eapply F; eauto. }
      assert (v = v0) as <- by (eapply at_point_fun; eauto). congruence.
  - destruct T as [_ T]. inversion H1; subst; try congruence. inversion H2; subst; auto.
Qed.

Record split_run (i : info) (xs : list op) (ls : list (list N)) (ys : list op) (l2 : list (list N)) (m m' : dmap)
  (w : scope) (p : proj) : Prop := {
  sr_map : m = p_map p;
  sr_tied : tied (calls [] xs ls) w m;
  sr_calls : calls [] (xs ++ ys) (ls ++ l2) = calls [] xs ls ++ calls (scope_ids w) ys l2;
  sr_honest : honest (learn [] xs ls) ys l2;
  sr_cover : cover (learn [] xs ls) (calls [] xs ls);
  sr_run : exists w' p', run o w ys p = Done ((w', l2), p') /\ m' = p_map p'
}.

Lemma reached_split i xs ys ls l2 m m' :
  reached o i xs ls m -> reached o i (xs ++ ys) (ls ++ l2) m' -> honest [] (xs ++ ys) (ls ++ l2) ->
  exists w p, split_run i xs ls ys l2 m m' w p.
Proof.
  intros (p0 & w & p & H1 & H2 & ->) (p1 & w1 & p2 & H3 & H4 & ->) HH.
  assert (E : p0 = p1) by (clear H2 H4; revert H1 H3; generalize (start o i); congruence). subst p1. clear H3.
  destruct (run_app o _ _ _ _ _ _ _ H4) as (w2 & l1 & p3 & l3 & R1 & R2 & E).
  rewrite H2 in R1. injection R1 as <- <- <-. apply app_inv_head in E as <-.
  apply start_inv in H1 as (D & _). clear H4.
  pose proof (tied_start _ D) as T0.
  destruct (run_calls _ ys l2 _ _ _ _ _ H2 D ltac:(now left)) as [L EC]. cbn [scope_ids] in EC.
  apply (honest_app _ _ _ _ _ L) in HH as [HA HB].
  destruct (run_tied _ _ _ _ _ _ _ _ H2 T0 HA cover_nil) as [T1 C1]. cbn [scope_ids app] in T1, C1.
  exists w, p. split; auto. exists w1, p2. auto.
Qed.

(** What one call does. *)
Lemma effects_transforms cs c m m' : effects cs c m m' ->
  (forall n mv, moves cs c n mv -> figure m n) ->
  (forall n mv, moves cs c n mv -> exists rs rs', drawn m n rs /\ drawn m' n rs' /\
     Forall2 (fun r' r => mapped m' mv r' r /\ size m < r' /\ (fst (fst mv) = true -> is_repr m' r)) rs' rs) /\
  (forall k e, lookup m k = Some e -> (forall n mv, moves cs c n mv -> shape_of m n <> Some k) -> lookup m' k = Some e).
Proof.
  intros (E & EE & Hin) HF. pose proof EE as (D' & Hz & S & U & R). split.
  - intros n mv Hm. pose proof (HF _ _ Hm) as F. destruct (figure_sh _ _ F) as (rs & HS & HP).
    destruct F as (k & l & _ & _ & L & K & _).
    destruct (R (sh m n) mv rs) as (rs' & HP' & FA); auto. { apply Hin. eauto. }
    exists rs, rs'. split; [exists (sh m n); auto|]. split; auto. exists (sh m n). split; auto.
    eapply solid_shape; eauto.
  - intros k e L HK. apply U; auto. intro Hi. apply in_map_iff in Hi as ([s mv] & Es & Hi). cbn [fst] in Es. subst s.
    apply Hin in Hi as (n & Hm & ->). pose proof (HF _ _ Hm) as F. destruct (figure_sh _ _ F) as (rs & HS & HP).
    apply (HK _ _ Hm HS).
Qed.

Lemma tied_figures cs w x a m : tied cs w m ->
  match x with OStoreyTransform k n _ => In (k, n) (prods cs) | _ => True end ->
  forall n mv, moves cs (scope_ids w, x, a) n mv -> figure m n.
Proof.
  intros (D & R & GC & PR & SI & WV & WF & VP & FP & T) HX n mv Hm.
  destruct (moves_product _ _ _ _ _ _ _ T VP FP HX Hm) as [k Hk]. rewrite Forall_forall in PR. apply PR in Hk. apply Hk.
Qed.

Lemma one_call i xs ls x a m m' c :
  honest [] (xs ++ [x]) (ls ++ [a]) -> reached o i xs ls m -> reached o i (xs ++ [x]) (ls ++ [a]) m' ->
  calls [] (xs ++ [x]) (ls ++ [a]) = calls [] xs ls ++ [c] ->
  (forall n mv, moves (calls [] xs ls) c n mv ->
     exists rs rs', drawn m n rs /\ drawn m' n rs' /\ Forall2 (mapped m' mv) rs' rs) /\
  (forall k e, lookup m k = Some e -> (forall n mv, moves (calls [] xs ls) c n mv -> shape_of m n <> Some k) ->
     lookup m' k = Some e) /\
  (forall n mv mv', moves (calls [] xs ls) c n mv -> moves (calls [] xs ls) c n mv' -> mv = mv').
Proof.
  intros HH R1 R2 EC. destruct (reached_split _ _ _ _ _ _ _ R1 R2 HH) as (w & p & S).
  destruct S as [-> T EC' HB HC (w' & p' & HR & ->)]. rewrite EC in EC'. apply app_inv_head in EC'. cbn [calls] in EC'.
  injection EC' as ->. cbn [run] in HR. inv HR. destruct a0 as [w1 a1]. inv HR. destruct a0 as [w2 l2].
  apply bret_inv in H0 as [E ->]. injection E as -> ->. apply bret_inv in HR as [E ->]. injection E as -> ->.
  pose proof (honest_move _ _ _ _ _ _ HB HC _ _ _ H) as HX.
  destruct (effects_transforms _ _ _ _ (step_effects o _ _ _ _ _ _ _ Ho H T HX) (tied_figures _ _ _ _ _ T HX)) as [E1 E2].
  split; [|split; auto].
  - intros n mv Hm. destruct (E1 _ _ Hm) as (rs & rs' & D1 & D2 & F). exists rs, rs'. split; auto. split; auto.
    eapply Forall2_impl; [|exact F]. cbn beta. tauto.
  - intros n mv mv'. eapply tied_moves_fun; eauto.
Qed.

Lemma products_drawn i xs ls m : reached o i xs ls m -> honest [] xs ls ->
  (forall k n, In (k, n) (flat_map call_products (calls [] xs ls)) -> exists rs, drawn m n rs) /\
  (forall k k' n n' s, In (k, n) (flat_map call_products (calls [] xs ls)) ->
     In (k', n') (flat_map call_products (calls [] xs ls)) -> shape_of m n = Some s -> shape_of m n' = Some s -> n = n').
Proof.
  intros R HH. assert (R' : reached o i (xs ++ []) (ls ++ []) m) by (now rewrite !app_nil_r).
  destruct (reached_split _ _ _ _ _ _ _ R R') as (w & p & [_ T _ _ _ _]); [now rewrite !app_nil_r|].
  destruct T as (D & _ & GC & PR & SI & _). rewrite Forall_forall in PR. split.
  - intros k n Hi. destruct (PR _ Hi) as [F _]. destruct (figure_sh _ _ F) as (rs & HS & HP). exists rs, (sh m n). auto.
  - intros k k' n n' s Hi Hj H1 H2. apply (SI _ _ Hi Hj). unfold sh. cbn [snd]. now rewrite H1, H2.
Qed.

(** ** Further calls *)

Inductive tracked (m : dmap) : list move -> N -> N -> Prop :=
| tracked_not r : tracked m [] r r
| tracked_by l mv r r1 r' : tracked m l r1 r' -> mapped m mv r r1 -> (fst (fst mv) = true -> is_repr m r1) ->
    tracked m (l ++ [mv]) r r'.

Lemma tracked_moved m l r r' : tracked m l r r' -> moved m l r r'.
Proof. induction 1; [constructor|econstructor; eauto]. Qed.

Lemma tracked_first m l mv r r1 r' : tracked m l r r1 -> mapped m mv r1 r' -> (fst (fst mv) = true -> is_repr m r') ->
  tracked m (mv :: l) r r'.
Proof.
  induction 1 as [r|l mv2 r r2 r1 H IH M K]; intros M1 K1.
  - change [mv] with ([] ++ [mv]). econstructor; eauto. constructor.
  - change (mv :: l ++ [mv2]) with ((mv :: l) ++ [mv2]). econstructor; eauto.
Qed.

Lemma run_journey xs : forall cs known w p w' ls p' n k mvs rs,
  run o w xs p = Done ((w', ls), p') -> tied cs w (p_map p) -> honest known xs ls -> cover known cs ->
  In (k, n) (prods cs) -> drawn (p_map p) n rs -> journey n cs (calls (scope_ids w) xs ls) mvs ->
  exists rs', drawn (p_map p') n rs' /\ Forall2 (tracked (p_map p') mvs) rs' rs.
Proof.
  induction xs as [|x xs IH]; intros cs known w p w' ls p' n k mvs rs H T HH C HP HD J; cbn [run] in H.
  - apply bret_inv in H as [E ->]. injection E as -> ->. inversion J; subst. exists rs. split; auto.
    clear. induction rs; constructor; auto. constructor.
  - inv H. destruct a as [w1 a]. inv H. destruct a0 as [w2 l]. apply bret_inv in H as [E ->]. injection E as -> ->.
    pose proof (honest_move _ _ _ _ _ _ HH C _ _ _ H0) as HX.
    pose proof (tied_step o _ _ _ _ _ _ _ Ho H0 T HX) as T1.
    destruct (step_place o _ _ _ _ _ _ H0 (proj1 T) (proj1 (proj2 T))) as (_ & _ & E1).
    pose proof (step_effects o _ _ _ _ _ _ _ Ho H0 T HX) as EF.
    destruct (effects_transforms _ _ _ _ EF (tied_figures _ _ _ _ _ T HX)) as [M U].
    destruct HH as (_ & _ & HH). pose proof (cover_step _ _ (scope_ids w) x a C) as C1.
    cbn [calls] in J. rewrite <- E1 in J.
    assert (HP1 : In (k, n) (prods (cs ++ [(scope_ids w, x, a)]))) by (rewrite app_prods; apply in_or_app; auto).
    inversion J as [|? ? ? mv ml Hm J1|? ? ? ? Hm J1]; subst.
    + destruct (M _ _ Hm) as (rs0 & rs1 & D0 & D1 & F).
      assert (rs0 = rs) as ->.
      { destruct D0 as (s & Hs & L), HD as (s' & Hs' & L'). rewrite Hs in Hs'. injection Hs' as <-. rewrite L in L'.
        injection L' as E. clear - E. revert rs E. induction rs0 as [|x l IH]; intros [|y l'] E; try discriminate E; auto.
        injection E as -> E. f_equal. auto. }
      destruct (IH _ _ _ _ _ _ _ _ _ _ _ H1 T1 HH C1 HP1 D1 J1) as (rs' & D' & F').
      exists rs'. split; auto.
      assert (S : solid (p_map q) (p_map q0)).
      { apply grow_solid; [eapply run_grow; eauto|apply T1]. }
      clear - F F' S. revert rs F. induction F' as [|r r1 l l1 HT F' IHF]; intros rs F; inversion F as [|? ? ? ? HM]; subst; constructor; auto.
      destruct HM as (Mm & _ & K). eapply tracked_first; [exact HT| |].
      * eapply mapped_solid; eauto.
      * intro E. eapply solid_repr; eauto.
    + destruct HD as (s & Hs & L).
      assert (D1 : drawn (p_map q) n rs).
      { exists s. split.
        - destruct EF as (E & (_ & _ & S & _) & _). destruct T as (_ & _ & _ & PR & _). rewrite Forall_forall in PR.
          destruct (PR _ HP) as [(k' & l' & _ & _ & Lk & Kn & _) _]. eapply solid_shape; eauto.
        - apply U; auto. intros n' mv Hm' Hs'. apply (Hm mv).
          pose proof T as (_ & _ & _ & PR & SI & WV & WF & VP & FP & TS).
          destruct (moves_product _ _ _ _ _ _ _ TS VP FP HX Hm') as [k' Hk'].
          assert (n = n') as ->; [|auto]. apply (SI _ _ HP Hk'). unfold sh. cbn [snd]. now rewrite Hs, Hs'. }
      eapply IH; eauto.
Qed.

Lemma history_tracked i xs ys ls l2 m m' k n mvs :
  reached o i xs ls m -> reached o i (xs ++ ys) (ls ++ l2) m' -> honest [] (xs ++ ys) (ls ++ l2) ->
  In (k, n) (flat_map call_products (calls [] xs ls)) ->
  forall ds, calls [] (xs ++ ys) (ls ++ l2) = calls [] xs ls ++ ds -> journey n (calls [] xs ls) ds mvs ->
  exists rs rs', drawn m n rs /\ drawn m' n rs' /\ Forall2 (tracked m' mvs) rs' rs.
Proof.
  intros R1 R2 HH HP ds EC J. destruct (reached_split _ _ _ _ _ _ _ R1 R2 HH) as (w & p & S).
  destruct S as [-> T EC' HB HC (w' & p' & HR & ->)]. rewrite EC in EC'. apply app_inv_head in EC'. subst ds.
  assert (HD : exists rs, drawn (p_map p) n rs).
  { destruct T as (_ & _ & _ & PR & _). rewrite Forall_forall in PR. destruct (PR _ HP) as [F _].
    destruct (figure_sh _ _ F) as (rs & HS & L). exists rs, (sh (p_map p) n). auto. }
  destruct HD as [rs HD]. destruct (run_journey _ _ _ _ _ _ _ _ _ _ _ _ HR T HB HC HP HD J) as (rs' & D' & F).
  exists rs, rs'. auto.
Qed.

Lemma history_moved i xs ys ls l2 m m' k n mvs :
  reached o i xs ls m -> reached o i (xs ++ ys) (ls ++ l2) m' -> honest [] (xs ++ ys) (ls ++ l2) ->
  In (k, n) (flat_map call_products (calls [] xs ls)) ->
  forall ds, calls [] (xs ++ ys) (ls ++ l2) = calls [] xs ls ++ ds -> journey n (calls [] xs ls) ds mvs ->
  exists rs rs', drawn m n rs /\ drawn m' n rs' /\ Forall2 (moved m' mvs) rs' rs.
Proof.
  intros R1 R2 HH HP ds EC J. destruct (history_tracked _ _ _ _ _ _ _ _ _ _ R1 R2 HH HP ds EC J) as (rs & rs' & D1 & D2 & F).
  exists rs, rs'. split; auto. split; auto. eapply Forall2_impl; [|exact F]. intros. now apply tracked_moved.
Qed.

Lemma tracked_solid m m' l r r' : solid m m' -> tracked m l r r' -> tracked m' l r r'.
Proof.
  intro S. induction 1 as [r|l mv r r1 r' H IH M K]; econstructor; eauto using mapped_solid, solid_repr.
Qed.

Lemma built_moved i xs ys ls l2 m r k n mvs :
  reached o i xs ls m -> program o i (xs ++ ys) = Done (ls ++ l2, r) -> honest [] (xs ++ ys) (ls ++ l2) ->
  In (k, n) (flat_map call_products (calls [] xs ls)) ->
  forall ds, calls [] (xs ++ ys) (ls ++ l2) = calls [] xs ls ++ ds -> journey n (calls [] xs ls) ds mvs ->
  exists rs rs', drawn m n rs /\ drawn (p_map r) n rs' /\ Forall2 (moved (p_map r) mvs) rs' rs.
Proof.
  intros R1 HP HH HI ds EC J. apply program_inv in HP as (p & w & q & H1 & H2 & -> & H3).
  assert (R2 : reached o i (xs ++ ys) (ls ++ l2) (p_map q)) by (exists p, AtProject, q; auto).
  pose proof (reached_dense o _ _ _ _ R2) as D.
  assert (R3 : reached o i ((xs ++ ys) ++ []) ((ls ++ l2) ++ []) (p_map q)) by (rewrite !app_nil_r; exact R2).
  assert (HH3 : honest [] ((xs ++ ys) ++ []) ((ls ++ l2) ++ [])) by (rewrite !app_nil_r; exact HH).
  destruct (reached_split _ _ _ _ _ _ _ R2 R3 HH3) as (w' & p' & [_ T _ _ _ _]).
  assert (HI2 : In (k, n) (prods (calls [] (xs ++ ys) (ls ++ l2)))).
  { rewrite EC. unfold prods. rewrite flat_map_app. apply in_or_app. now left. }
  clear H1 H2 p R3 HH3.
  destruct (history_tracked _ _ _ _ _ _ _ _ _ _ R1 R2 HH HI ds EC J) as (rs & rs' & D1 & D2 & F).
  assert (E : ext q r) by (assert (X : steps ext (build o)) by st; exact (X _ _ _ H3)).
  pose proof (ext_solid _ _ E D) as S. exists rs, rs'. split; auto. split.
  - destruct D2 as (s & Hs & L). exists s. split; [|eapply ext_lookup; eauto].
    destruct T as (_ & _ & _ & PR & _). rewrite Forall_forall in PR. destruct (PR _ HI2) as [(k' & l' & _ & _ & Lk & Kn & _) _].
    eapply solid_shape; eauto.
  - eapply Forall2_impl; [|exact F]. intros. apply tracked_moved. eapply tracked_solid; eauto.
Qed.

End Runs.

(** Journeys exist. *)
Lemma moves_dec cs c n : (exists mv, moves cs c n mv) \/ (forall mv, ~ moves cs c n mv).
Proof.
  assert (VA : forall h a, In (h, a) (flat_map call_voids cs) -> exists v, In (a, v) (flat_map call_place cs)).
  { intros h a Hi. apply in_flat_map in Hi as (c' & Hc & Hi). destruct (voids_place _ _ _ Hi) as [v Hv].
    exists v. apply in_flat_map. eauto. }
  assert (DP : forall x y : N * N, {x = y} + {x <> y}) by (decide equality; apply N.eq_dec).
  destruct c as [[s x] a]. destruct x; try (right; intros mv Hm; inversion Hm; fail).
  - destruct s as [|h [|st [|b [|s [|]]]]]; try (right; intros mv Hm; inversion Hm; fail).
    destruct (pending cs) as [t|] eqn:Ep; [|right; intros mv Hm; inversion Hm; congruence].
    destruct (N.eq_dec n h) as [->|Hh]; [left; eexists; eapply moves_host; eauto|].
    destruct (in_dec DP (h, n) (flat_map call_voids cs)) as [Hv|Hv].
    { destruct (VA _ _ Hv) as [v Hp]. left. eexists. eapply moves_opening; eauto. }
    destruct (Exists_dec (fun z => snd z = n /\ In (h, fst z) (flat_map call_voids cs)) (flat_map call_fills cs)) as [He|He].
    { intros [z y]. cbn [fst snd]. destruct (N.eq_dec y n); [|right; tauto].
      destruct (in_dec DP (h, z) (flat_map call_voids cs)); [left; auto|right; tauto]. }
    + apply Exists_exists in He as ([z y] & Hz & <- & Hi). cbn [fst snd] in *. destruct (VA _ _ Hi) as [v Hp].
      left. eexists. eapply moves_window; eauto.
    + right. intros mv Hm. inversion Hm; subst; try congruence. apply He. apply Exists_exists. exists (n0, n). auto.
  - destruct (N.eq_dec n n0) as [->|Hn]; [left; eexists; constructor|].
    right. intros mv Hm. inversion Hm; subst; congruence.
Qed.

Lemma journey_exists n ds : forall cs, exists mvs, journey n cs ds mvs.
Proof.
  induction ds as [|c ds IH]; intro cs; [exists []; constructor|].
  destruct (IH (cs ++ [c])) as [l Hl]. destruct (moves_dec cs c n) as [[mv Hm]|Hm].
  - exists (mv :: l). now constructor.
  - exists l. now constructor.
Qed.

(** Identifiers of representations that moves keep. *)
Lemma mapped_role m mv r r' : mapped m mv r r' ->
  if fst (fst mv) then forall j, role m r' = Some j -> role m r = Some j else role m r = Some 8%nat.
Proof.
  destruct mv as [[keep t] v]. intros (ctx & i & it & mp & tr & ax & pt & H1 & _ & _ & _ & _ & _ & H7).
  unfold role at 2 3. rewrite H1. cbn [fst nth_error]. destruct keep; [|congruence].
  intros j Hj. f_equal. auto.
Qed.

Lemma moved_roles m mvs r r' j : moved m mvs r r' -> Forall (fun mv => fst (fst mv) = true) mvs ->
  role m r' = Some j -> role m r = Some j.
Proof.
  induction 1 as [r|l mv r r1 r' H IH M]; intros K R; auto. apply Forall_app in K as [K1 K2]. inversion K2 as [|? ? K3]; subst.
  apply mapped_role in M. rewrite K3 in M. auto.
Qed.
