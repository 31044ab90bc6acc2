(** Walking through built models: the project, and which builders are alive at calls. *)

From Coq Require Import String Ascii List NArith ZArith Bool Lia Permutation.
From Verif Require Import Base Prims Kind Types Schema Entity EntityFacts DataMap DataSpec DataMapFacts Extractor
  Float Arith Mapping Walk Builder BuilderRun BuilderBase BuilderGrow BuilderSpec BuilderRel BuilderInv BuilderAll
  BuilderOut BuilderPlace ExtractSpec BuilderRead2 WalkSpec.
Import ListNotations.
Open Scope N_scope.

Ltac inv H :=
  match type of H with
  | bbind _ _ _ = Done _ => let a := fresh "a" in let q := fresh "q" in let H1 := fresh "H" in
      apply bbind_inv in H as (a & q & H1 & H)
  end.

(** ** The project *)

Definition no_project (k : kind) : bool := negb (kind_eqb k KProject).

Lemma simple_no_project k : simple_kind k = true -> no_project k = true.
Proof.
  unfold simple_kind, no_project. destruct k; intro H; first [reflexivity|discriminate H].
Qed.
Lemma rel_no_project k : is_rel k = true -> before_build k = true -> no_project k = true.
Proof.
  intros H _. unfold no_project. destruct (kind_eqb k KProject) eqn:E; auto. apply kind_eqb_eq in E. subst k. discriminate H.
Qed.

Lemma projects_app a b : projects (a ++ b) = projects a ++ projects b.
Proof. unfold projects, find_all_of_type. now rewrite flat_map_app, map_app. Qed.

Lemma projects_grow p p' : grow no_project p p' -> dense (p_map p) -> dense (p_map p') /\ projects (p_map p') = projects (p_map p).
Proof.
  intros G Hd. destruct (G Hd) as (D & _ & _ & m1 & new & E & F & Q). split; auto. rewrite E, projects_app.
  assert (projects new = []) as ->.
  { clear - Q. induction Q as [|[n e] new H _ IH]; auto.
    change ((n, e) :: new) with ([(n, e)] ++ new). rewrite projects_app, IH, app_nil_r.
    destruct e as [k l|]; auto. cbn [kind_of snd] in H. unfold projects, find_all_of_type. cbn [flat_map fst snd].
    unfold no_project in H. now destruct (kind_eqb k KProject). }
  rewrite app_nil_r. clear - F. induction F as [|[n e] [n' e'] m m' H _ IH]; auto.
  change ((n, e) :: m) with ([(n, e)] ++ m). change ((n', e') :: m') with ([(n', e')] ++ m').
  rewrite !projects_app, IH. f_equal. destruct H as [E [H|(l & l' & H1 & H2 & _)]]; cbn [fst snd] in *; subst; auto.
Qed.

Section Program.
Variable o : oracle.

Lemma start_one i p : start o i = Done p -> dense (p_map p) /\ projects (p_map p) = [p_project p].
Proof.
  intro H. apply start_done in H as (oh & pr & q & E & ->). cbn [p_map p_project].
  assert (D0 : dense (p_map empty_proj)) by exact dense_nil.
  assert (P0 : projects (p_map empty_proj) = []) by reflexivity.
  generalize dependent empty_proj. intros p E D0 P0. unfold new_project in E.
  do 16 (inv E). assert (D : dense (p_map q15) /\ projects (p_map q15) = []).
  { rewrite <- P0. apply projects_grow; auto. clear E.
    repeat match goal with
    | H : ins _ _ ?a = Done (_, ?b) |- _ => apply (grow_ins no_project) in H; [|reflexivity]
    | H : now o ?a = Done (_, ?b) |- _ => apply (st_now (A := no_project) (R := grow no_project)) in H
    | H : si_unit _ _ ?a = Done (_, ?b) |- _ =>
        apply (st_si_unit (A := no_project) (R := grow no_project) _ _ eq_refl) in H
    | H : fresh_guid o ?a = Done (_, ?b) |- _ => apply (st_fresh_guid (A := no_project) (R := grow no_project)) in H
    | H : axis3d _ ?a = Done (_, ?b) |- _ =>
        apply (st_axis3d (A := no_project) (R := grow no_project) simple_no_project) in H
    end.
    repeat (eapply grow_trans; [eassumption|]). apply grow_refl. }
  destruct D as [D Z]. clear P0. inv E. apply ins_inv in H15 as (-> & _ & -> & D1); auto. inv E.
  apply bret_inv in E as [E ->]. injection E as -> ->.
  apply (grow_ins no_project) in H15; [|reflexivity]. apply projects_grow in H15 as [D2 ->]; auto. split; auto.
  cbn [set_map p_map]. rewrite projects_app, Z. reflexivity.
Qed.

Lemma run_one w xs : steps (grow no_project) (run o w xs).
Proof.
  revert w. induction xs as [|x xs IH]; intro w; cbn [run]; [apply steps_ret; pre|].
  apply steps_bind; [pre| |].
  - apply (st_step_any (A := no_project) simple_no_project rel_no_project). reflexivity.
  - intros [w' a]. apply steps_bind; [pre|apply IH|]. intros [w'' l]. apply steps_ret. pre.
Qed.

Lemma program_one i xs ls r : program o i xs = Done (ls, r) -> projects (p_map r) = [p_project r].
Proof.
  intro H. apply program_inv in H as (p & w & q & H1 & H2 & -> & H3). apply start_one in H1 as [D E].
  apply run_one in H2. apply (st_build (A := no_project) (R := grow no_project) rel_no_project o eq_refl) in H3.
  pose proof (grow_trans _ _ _ _ H2 H3) as G. destruct (projects_grow _ _ G D) as [_ ->]. rewrite E. f_equal.
  symmetry. apply (G D).
Qed.

(** ** Scopes *)

(** The site, the building that are alive were returned by some of the calls [tr]. *)
Definition inside (tr : list call) (w : scope) : Prop :=
  match w with
  | AtProject => True
  | AtSite s => In (fst s) (flat_map call_site tr)
  | AtBuilding s b | AtStorey s b _ | AtHost s b _ _ | AtWallProps s b _ _ _ _ | AtSet s b _ _ _ =>
      In (fst s) (flat_map call_site tr) /\ In (fst b) (flat_map call_building tr)
  end.

(** Sites are made without builders alive, buildings within a site, storeys within a
    building. *)
Definition nested (tr : list call) (c : call) : Prop :=
  match c with
  | (s, ONewSite _ _, _) => s = []
  | (s, ONewBuilding _ _, _) => exists n, s = [n] /\ In n (flat_map call_site tr)
  | (s, ONewStorey _ _, _) => exists n n', s = [n; n'] /\ In n (flat_map call_building tr)
  | _ => True
  end.

Lemma step_inside tr w x p w' a p' :
  step o w x p = Done (w', a, p') -> inside tr w ->
  inside (tr ++ [(scope_ids w, x, a)]) w' /\ nested tr (scope_ids w, x, a).
Proof.
  intros H HI.
  assert (More : forall n f, In n (flat_map f tr) -> In n (flat_map (f : call -> list N) (tr ++ [(scope_ids w, x, a)]))).
  { intros n f Hn. rewrite flat_map_app. apply in_or_app. now left. }
  destruct w as [|s|s b|s b st|s b st h|s b st h nm ps|s b st nm ps]; destruct x; try discriminate H;
    cbn [step] in H; cbn [inside] in HI;
    repeat match goal with
    | H : bbind _ _ _ = Done _ |- _ => inv H
    | H : bret _ _ = Done _ |- _ => apply bret_inv in H as [H ->]; injection H as -> ->
    | H : err _ = Done _ |- _ => discriminate H
    | H : (if ?b then _ else _) _ = Done _ |- _ => destruct b
    | H : (let '(_, _) := ?q in _) _ = Done _ |- _ => destruct q
    end;
    try (split; [cbn [inside]; intuition auto|exact I]);
    cbn [inside nested scope_ids fst snd].
  - split; [|reflexivity]. rewrite flat_map_app. apply in_or_app. right. now left.
  - split; [split; [auto|]|eauto]. rewrite flat_map_app. apply in_or_app. right. now left.
  - destruct HI. split; [split; auto|eauto].
Qed.

Lemma run_inside xs : forall w p w' ls p' tr cs c ds,
  run o w xs p = Done (w', ls, p') -> dense (p_map p) -> rooted (p_map p) w -> inside tr w ->
  calls (scope_ids w) xs ls = cs ++ c :: ds -> nested (tr ++ cs) c.
Proof.
  induction xs as [|x xs IH]; intros w p w' ls p' tr cs c ds H D R HI EC; cbn [run] in H.
  - destruct cs; discriminate EC.
  - inv H. destruct a as [w1 a]. inv H. destruct a0 as [w2 l]. apply bret_inv in H as [E ->]. injection E as -> ->.
    destruct (step_place o _ _ _ _ _ _ H0 D R) as (R1 & _ & E1).
    destruct (step_inside _ _ _ _ _ _ _ H0 HI) as [HI1 HN].
    cbn [calls] in EC. destruct cs as [|c0 cs]; cbn [app] in EC; injection EC as E2 E3.
    + rewrite app_nil_r. now subst c.
    + subst c0. rewrite <- E1 in E3.
      assert (D1 : dense (p_map q)).
      { apply (st_step_any (A := no_project) (R := grow no_project) simple_no_project rel_no_project o _ _ (fun _ => eq_refl)) in H0. apply (H0 D). }
      specialize (IH _ _ _ _ _ _ _ _ _ H1 D1 R1 HI1 E3). now rewrite <- app_assoc in IH.
Qed.

Lemma program_nested i xs ls r c : program o i xs = Done (ls, r) -> In c (calls [] xs ls) -> nested (calls [] xs ls) c.
Proof.
  intros H Hc. apply program_inv in H as (p & w & q & H1 & H2 & -> & H3). apply start_one in H1 as [D _].
  apply in_split in Hc as (cs & ds & E).
  assert (NS : nested ([] ++ cs) c) by (eapply run_inside; eauto; [now left|exact I]).
  cbn [app] in NS. rewrite E. destruct c as [[s x] a].
  assert (More : forall n f, In n (flat_map f cs) -> In n (flat_map (f : call -> list N) (cs ++ (s, x, a) :: ds))).
  { intros n f Hn. rewrite flat_map_app. apply in_or_app. now left. }
  destruct x; auto; cbn [nested] in *.
  - destruct NS as (n & -> & NS). eauto.
  - destruct NS as (n & n' & -> & NS). eauto.
Qed.

End Program.

(** ** Lists *)

Lemma flat_map_split {A B} (f g : A -> list B) l :
  Permutation (flat_map (fun a => f a ++ g a) l) (flat_map f l ++ flat_map g l).
Proof.
  induction l as [|a l IH]; cbn [flat_map]; auto. rewrite IH, <- !app_assoc. apply Permutation_app_head.
  rewrite !app_assoc. apply Permutation_app_tail. apply Permutation_app_comm.
Qed.

Lemma flat_map_none {A B} (f : A -> list B) l : (forall a, In a l -> f a = []) -> flat_map f l = [].
Proof.
  induction l as [|a l IH]; intro H; auto. cbn [flat_map]. rewrite H by now left. apply IH. intros. apply H. now right.
Qed.

Lemma flat_map_at {B} (f : N -> list B) (x : list B) p ns :
  NoDup ns -> In p ns -> (forall n, f n = if p =? n then x else []) -> flat_map f ns = x.
Proof.
  induction ns as [|n ns IH]; intros D Hp Hf; [destruct Hp|]. inversion D as [|? ? D1 D2]; subst. cbn [flat_map].
  rewrite Hf. destruct (N.eqb_spec p n) as [->|Hn].
  - rewrite flat_map_none; [apply app_nil_r|]. intros a Ha. rewrite Hf. destruct (N.eqb_spec n a); auto. now subst.
  - destruct Hp; [congruence|]. now apply IH.
Qed.

(** Children of all parents together. *)
Lemma gather {A} (f : N -> A -> list N) (g : A -> list N) ns (cs : list A) :
  NoDup ns ->
  (forall c, In c cs -> (g c = [] /\ forall n, f n c = []) \/
     exists p, In p ns /\ forall n, f n c = if p =? n then g c else []) ->
  Permutation (flat_map (fun n => flat_map (f n) cs) ns) (flat_map g cs).
Proof.
  intros D. induction cs as [|c cs IH]; intro H; cbn [flat_map].
  - rewrite flat_map_none; auto.
  - rewrite flat_map_split. apply Permutation_app.
    + destruct (H c) as [[-> H1]|(p & Hp & H1)]; [now left| |].
      * rewrite flat_map_none; auto.
      * now rewrite (flat_map_at _ (g c) p).
    + apply IH. intros c' Hc. apply H. now right.
Qed.
