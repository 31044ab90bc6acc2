(** Facts about editing: C66. *)

From Coq Require Import String Ascii List NArith ZArith Bool Lia ZifyBool ZifyN ZifyNat Sorted.
From Verif Require Import Base Prims Spec Float Kind Types Layout WellTyped Schema Entity EntitySpec DataMap DataSpec
  Header File HeaderSpec FileSpec TypesFacts2 EntityFacts DataMapFacts SectionFacts HeaderFacts FileFacts FileFacts2 FileFacts3
  Mapping Api ApiSpec ApiFacts ApiFacts2 ApiFacts3 ApiFacts4 ApiFacts5 EditSpec.
Import ListNotations.
Open Scope N_scope.

Lemma count_app n a : forall b, count n (a + b) = count n a ++ count (n + N.of_nat a) b.
Proof.
  revert n. induction a as [|a IH]; intros n b; cbn [count plus app].
  - now replace (n + N.of_nat 0) with n by lia.
  - rewrite IH. now replace (n + 1 + N.of_nat a) with (n + N.of_nat (S a)) by lia.
Qed.

Lemma count_in k : forall n i, In i (count n k) <-> n <= i < n + N.of_nat k.
Proof.
  induction k as [|k IH]; intros n i; cbn [count In]; [lia|]. rewrite IH. lia.
Qed.

Lemma numbered_fst l : forall n, map fst (numbered n l) = count n (length l).
Proof. induction l as [|x l IH]; intro n; cbn [numbered map fst length count]; [reflexivity|now rewrite IH]. Qed.

Lemma top_keys m m' : map fst m' = map fst m -> top m' = top m.
Proof. unfold top. now intros ->. Qed.

(** ** Programs *)

(** What a program leaves of a model. *)
Definition grown (xs : list stmt) (m m' : dmap) : Prop :=
  map fst m' = map fst m ++ count (top m + 1) (length (flat_map uses xs)) /\
  (forall n e, lookup m n = Some e -> ~ exchanged xs n -> lookup m' n = Some e) /\
  (forall n e, lookup m n = Some e -> exists e', lookup m' n = Some e' /\ kind_of e' = kind_of e).

Lemma grown_top xs m m' : grown xs m m' -> top m' = top m + N.of_nat (length (flat_map uses xs)).
Proof.
  intros [K _]. unfold top at 1. rewrite K. set (k := length (flat_map uses xs)). unfold top.
  assert (H : forall k n, fold_right N.max 0 (count n (S k)) = n + N.of_nat k).
  { clear. induction k as [|k IH]; intro n; [cbn; lia|]. change (fold_right N.max 0 (count n (S (S k)))) with (N.max n (fold_right N.max 0 (count (n + 1) (S k)))). rewrite IH. lia. }
  rewrite fold_right_app. set (T := fold_right N.max 0 (map fst m)) in *.
  assert (G : forall l a, fold_right N.max a l = N.max (fold_right N.max 0 l) a).
  { clear. induction l as [|x l IH]; intro a; cbn [fold_right]; [lia|rewrite IH; lia]. }
  rewrite G. fold T. destruct k as [|k]; [cbn; lia|]. rewrite H. lia.
Qed.

Lemma stmt_regs strict x w : stmt_ok strict x w -> has_regs (w_regs w) (uses x).
Proof.
  destruct x as [c g args|k l|r s a|r|r n]; cbn [stmt_ok uses]; intro H.
  - destruct H as (_ & H & _). eapply in_order_regs; eauto.
  - intros r [].
  - destruct H as (x & _ & _ & H & _). eapply arg_ok_regs; eauto.
  - intros r' [<-|[]]. exact H.
  - intros r' [].
Qed.

Lemma stmt_grown strict x w w' o : stmt_ok strict x w -> effect x w w' o -> grown [x] (w_map w) (w_map w').
Proof.
  intros Hs E. pose proof (stmt_regs strict x w Hs) as R. unfold grown. cbn [flat_map]. rewrite app_nil_r.
  assert (App : forall l, length l = length (uses x) -> w_map w' = w_map w ++ numbered (top (w_map w) + 1) l ->
     map fst (w_map w') = map fst (w_map w) ++ count (top (w_map w) + 1) (length (uses x)) /\
     (forall n e, lookup (w_map w) n = Some e -> ~ exchanged [x] n -> lookup (w_map w') n = Some e) /\
     (forall n e, lookup (w_map w) n = Some e -> exists e', lookup (w_map w') n = Some e' /\ kind_of e' = kind_of e)).
  { intros l L ->. split; [|split].
    - rewrite map_app, numbered_fst. now rewrite L.
    - intros n e H _. rewrite lookup_app. now rewrite H.
    - intros n e H. exists e. rewrite lookup_app, H. auto. }
  destruct x as [c g args|k l|r s a|r|r n]; cbn [effect] in E.
  - destruct E as (_ & E & _). apply (App _ (objects_length _ _ R) E).
  - destruct E as (_ & E & _). apply (App []); [reflexivity|]. now rewrite E, app_nil_r.
  - destruct E as (_ & E & _). apply (App _ (objects_length _ _ R) E).
  - destruct E as (_ & _ & y & _ & E). apply (App [y]); [reflexivity|]. exact E.
  - destruct E as (_ & K & L & _ & _ & k & l & l' & _ & E1 & _ & E2). cbn [uses length count]. rewrite app_nil_r. split; [exact K|]. split.
    + intros i e H N. rewrite L; auto. intros ->. apply N. exists r. now left.
    + intros i e H. destruct (N.eq_dec i n) as [->|D].
      * rewrite E1 in H. injection H as <-. eauto.
      * exists e. rewrite L; auto.
Qed.

Lemma grown_nil m : grown [] m m.
Proof. split; [cbn; now rewrite app_nil_r|]. split; eauto. Qed.

Lemma grown_cons x xs a b c : grown [x] a b -> grown xs b c -> grown (x :: xs) a c.
Proof.
  intros G1 G2. pose proof (grown_top _ _ _ G1) as T. destruct G1 as (K1 & L1 & O1), G2 as (K2 & L2 & O2).
  cbn [flat_map] in T, K1. rewrite app_nil_r in T, K1. split; [|split].
  - cbn [flat_map]. rewrite K2, K1, T, app_length, count_app, <- app_assoc. do 3 f_equal. lia.
  - intros n e H N. apply L2.
    + apply L1; auto. intros (r & [->|[]]). apply N. exists r. now left.
    + intros (r & H'). apply N. exists r. now right.
  - intros n e H. apply O1 in H as (e1 & H & Q). apply O2 in H as (e2 & H & Q'). exists e2. split; auto. congruence.
Qed.

Lemma execs_grown strict xs : forall w w' os, world_ok strict w -> prog_ok strict xs w ->
  execs xs w = Done (w', os) -> grown xs (w_map w) (w_map w').
Proof.
  induction xs as [|x xs IH]; intros w w' os W P E; cbn [execs prog_ok] in *.
  - injection E as <- _. apply grown_nil.
  - destruct P as [P1 P2]. pose proof (exec_ok strict x w W P1) as X. destruct (exec x w) as [[w1 o]| |] eqn:Ex; try discriminate.
    cbn [obind fst snd] in E. destruct X as (W1 & _ & _ & X).
    destruct (execs xs w1) as [[w2 os']| |] eqn:E2; try discriminate. cbn [obind fst snd] in E. injection E as <- _.
    eapply grown_cons; [eapply stmt_grown; eauto|]. eapply IH; eauto.
Qed.

(** ** Editing what has been loaded *)

Lemma resaves_ok v s x : load v s = Done x -> resaves v x ->
  ifc_ok v x /\ refs_ok (i_data x) /\ load v (save x) = Done (norm_ifc x).
Proof.
  intros H (C & T & D). destruct (loaded_ok v s x H C T D) as [Hx Hr]. repeat split; auto; try apply Hx. now apply load_saved.
Qed.

Lemma norm_keys m : map fst (map norm_def m) = map fst m.
Proof. rewrite map_map. apply map_ext. now intros []. Qed.

Lemma edit_program v s x y0 xs w os : load v s = Done x -> resaves v x -> load v (save x) = Done y0 ->
  prog_ok true xs (mk_world [] (i_data x)) -> execs xs (mk_world [] (i_data x)) = Done (w, os) ->
  exists y, load v (save (mk_ifc (i_header x) (w_map w))) = Done y /\ i_header y = i_header x /\
    map fst (i_data y) = map fst (i_data x) ++ count (top (i_data x) + 1) (length (flat_map uses xs)) /\
    (forall n e, lookup (i_data y0) n = Some e -> ~ exchanged xs n -> lookup (i_data y) n = Some e) /\
    (forall n e, lookup (i_data x) n = Some e -> exists e', lookup (i_data y) n = Some e' /\ kind_of e' = kind_of e).
Proof.
  intros Hl Hs H0 P E. destruct (resaves_ok v s x Hl Hs) as (Hx & Hr & Hy). rewrite Hy in H0. injection H0 as <-.
  destruct x as [h m]. cbn [i_header i_data norm_ifc] in *.
  pose proof (program_loads v h m xs w os Hx Hr P E) as L.
  assert (W : world_ok true (mk_world [] m)) by (eapply strict_start; eauto).
  destruct (execs_grown true xs _ _ _ W P E) as (K & G & O). cbn [w_map] in *.
  exists (norm_ifc (mk_ifc h (w_map w))). split; [exact L|]. cbn [norm_ifc i_header i_data]. split; [reflexivity|].
  split; [now rewrite norm_keys|]. split.
  - intros n e H N. rewrite lookup_norm in *. destruct (lookup m n) as [e0|] eqn:E0; [|discriminate].
    now rewrite (G n e0 E0 N).
  - intros n e H. destruct (O n e H) as (e' & H' & Q). exists (norm_entity e'). rewrite lookup_norm, H'.
    split; [reflexivity|]. now rewrite kind_norm.
Qed.

(** The text. *)
Definition shown (m : dmap) : list (N * text) := map (fun p => (fst p, d_entity (snd p))) m.

Lemma save_shown h m : save (mk_ifc h m) = saved_as (d_header h ++ nl) (shown m).
Proof.
  unfold save, saved_as, d_data, d_footer, shown. cbn [i_header i_data]. rewrite <- !app_assoc. do 4 f_equal.
  change nl with [10]. rewrite map_map, <- flat_map_concat_map.
  assert (F : flat_map d_line m = flat_map (fun p => lit "#" ++ show_N (fst p) ++ lit "= " ++ d_entity (snd p) ++ [10]) m).
  { apply flat_map_ext. intros [n e]. unfold d_line, d_id. cbn [fst snd]. now rewrite <- !app_assoc. }
  rewrite F. reflexivity.
Qed.

Lemma shown_in m n e : In (n, e) m -> In (n, d_entity e) (shown m).
Proof. intro H. apply in_map_iff. now exists (n, e). Qed.

Lemma edit_text v s x xs w os : load v s = Done x -> resaves v x ->
  prog_ok true xs (mk_world [] (i_data x)) -> execs xs (mk_world [] (i_data x)) = Done (w, os) ->
  exists front l l', save x = saved_as front l /\ save (mk_ifc (i_header x) (w_map w)) = saved_as front l' /\
    map fst l = map fst (i_data x) /\
    map fst l' = map fst l ++ count (top (i_data x) + 1) (length (flat_map uses xs)) /\
    forall n t, In (n, t) l -> ~ exchanged xs n -> In (n, t) l'.
Proof.
  intros Hl Hs P E. destruct (resaves_ok v s x Hl Hs) as (Hx & Hr & _). destruct x as [h m]. cbn [i_header i_data] in *.
  assert (W : world_ok true (mk_world [] m)) by (eapply strict_start; eauto).
  destruct (execs_grown true xs _ _ _ W P E) as (K & G & O). cbn [w_map] in *.
  assert (S : forall a, map fst (shown a) = map fst a) by (intro a; unfold shown; rewrite map_map; apply map_ext; now intros []).
  exists (d_header h ++ nl), (shown m), (shown (w_map w)). split; [apply save_shown|]. split; [apply save_shown|].
  rewrite !S. split; [reflexivity|]. split; [exact K|].
  intros n t H N. apply in_map_iff in H as ([n' e] & Q & H). injection Q as <- <-. cbn [fst snd] in *.
  apply shown_in, lookup_In, G; auto. apply In_lookup; auto. apply Hx.
Qed.

(** ** Removing and replacing *)

Lemma remove_ok v h m n : ifc_ok v (mk_ifc h m) -> ifc_ok v (mk_ifc h (del m n)).
Proof.
  intros (H & I & F). cbn [i_data] in *. split; [exact H|]. cbn [i_data]. split; [now apply del_increasing|].
  rewrite Forall_forall in *. intros p Hp. apply F. eapply del_incl; eauto.
Qed.

Lemma del_in m n i e : increasing m -> (In (i, e) (del m n) <-> i <> n /\ In (i, e) m).
Proof.
  intro I. split.
  - intro H. pose proof (In_lookup _ _ _ (del_increasing m n I) H) as L. rewrite lookup_del in L by auto.
    destruct (N.eqb_spec i n); [discriminate|]. split; auto. now apply lookup_In.
  - intros [D H]. apply lookup_In. rewrite lookup_del by auto. destruct (N.eqb_spec i n); [contradiction|]. now apply In_lookup.
Qed.

Lemma saved_parsed v x : ifc_ok v x -> parse_whole (p_ifc v) (save x) = Done (norm_ifc x).
Proof. intro H. apply parse_whole_done. now apply p_ifc_saved. Qed.

Lemma dangling_norm m : dangling (map norm_def m) <-> dangling m.
Proof.
  unfold dangling. split; intros (ks & n & H & L); exists ks, n; rewrite lookup_norm in *;
    (split; [now apply has_ref_norm|]); destruct (lookup m n); auto; discriminate.
Qed.

Lemma remove_loads v s x y0 n : load v s = Done x -> resaves v x -> load v (save x) = Done y0 ->
  (needed (i_data x) n -> load v (save (mk_ifc (i_header x) (fst (remove (i_data x) n)))) = Panic) /\
  (~ needed (i_data x) n -> exists y,
     load v (save (mk_ifc (i_header x) (fst (remove (i_data x) n)))) = Done y /\ i_header y = i_header x /\
     forall k, lookup (i_data y) k = if k =? n then None else lookup (i_data y0) k).
Proof.
  intros Hl Hs H0. destruct (resaves_ok v s x Hl Hs) as (Hx & Hr & Hy). rewrite Hy in H0. injection H0 as <-.
  destruct x as [h m]. cbn [i_header i_data norm_ifc remove fst] in *. pose proof Hx as (_ & I & _). cbn [i_data] in I.
  pose proof (remove_ok v h m n Hx) as Hd.
  assert (Sub : forall ks k, has_ref (del m n) ks k -> has_ref m ks k).
  { intros ks k (i & e & Hi & C). exists i, e. split; auto. now apply del_in in Hi. }
  split.
  - intros (i & e & ks & D & Hi & C).
    assert (Dg : dangling (del m n)).
    { exists ks, n. split; [exists i, e; split; auto; now apply del_in|]. rewrite lookup_del, N.eqb_refl by auto. reflexivity. }
    apply (load_dangling _ _ _ (saved_parsed _ _ Hd)); cbn [norm_ifc i_data].
    + intros M. apply (proj1 (misdirected_norm _)) in M as (ks' & k & o & R & L & Np). apply Np.
      destruct (Hr ks' k (Sub _ _ R)) as (o' & L' & Pm). rewrite lookup_del in L by auto.
      destruct (k =? n); [discriminate|]. congruence.
    + now apply (proj2 (dangling_norm _)).
  - intro N0. assert (R : refs_ok (del m n)).
    { intros ks k Hk. pose proof Hk as (i & e & Hi & C). apply del_in in Hi as [D Hi]; auto.
      destruct (Hr ks k (Sub _ _ Hk)) as (o & L & Pm). exists o. split; auto. rewrite lookup_del by auto.
      destruct (N.eqb_spec k n) as [->|]; auto. exfalso. apply N0. exists i, e, ks. auto. }
    exists (norm_ifc (mk_ifc h (del m n))). split; [now apply load_saved|]. split; [reflexivity|].
    intro k. cbn [norm_ifc i_data]. rewrite !lookup_norm, lookup_del by auto. now destruct (k =? n).
Qed.

Lemma replace_loads v s x y0 n e0 e : load v s = Done x -> resaves v x -> load v (save x) = Done y0 ->
  lookup (i_data x) n = Some e0 -> wf_obj e -> complete (i_data x) n e ->
  (fits (i_data x) n e -> exists y,
     load v (save (mk_ifc (i_header x) (fst (insert (i_data x) n e)))) = Done y /\ i_header y = i_header x /\
     forall k, k <> n -> lookup (i_data y) k = lookup (i_data y0) k) /\
  (~ fits (i_data x) n e -> load v (save (mk_ifc (i_header x) (fst (insert (i_data x) n e)))) = Err).
Proof.
  intros Hl Hs H0 Hn We Hc. destruct (resaves_ok v s x Hl Hs) as (Hx & Hr & Hy). rewrite Hy in H0. injection H0 as <-.
  destruct x as [h m]. cbn [i_header i_data norm_ifc insert fst] in *. pose proof Hx as (_ & I & F). cbn [i_data] in I, F.
  assert (Bn : n <= max_usize).
  { rewrite Forall_forall in F. apply (F (n, e0)). now apply lookup_In. }
  assert (Hp : ifc_ok v (mk_ifc h (put m n e))) by (apply ifc_ok_put; auto).
  assert (In' : forall i o, In (i, o) (put m n e) <-> (i = n /\ o = e) \/ (i <> n /\ In (i, o) m)).
  { intros i o. split.
    - intro H. apply In_lookup in H; [|now apply put_increasing]. rewrite lookup_put in H by auto.
      destruct (N.eqb_spec i n); [injection H as <-; auto|]. right. split; auto. now apply lookup_In.
    - intro H. apply lookup_In. rewrite lookup_put by auto. destruct H as [[-> ->]|[D H]]; [now rewrite N.eqb_refl|].
      destruct (N.eqb_spec i n); [contradiction|]. now apply In_lookup. }
  assert (Ok : fits m n e <-> refs_ok (put m n e)).
  { split.
    - intros [A B] ks k (i & o & Hi & C). rewrite lookup_put by auto. apply In' in Hi as [[-> ->]|[D Hi]].
      + destruct (A ks k C) as (o & [[-> ->]|[D L]] & Pm).
        * rewrite N.eqb_refl. eauto.
        * destruct (N.eqb_spec k n); [contradiction|]. eauto.
      + destruct (N.eqb_spec k n) as [->|D'].
        * exists e. split; auto. eapply B; eauto.
        * apply Hr. exists i, o. auto.
    - intro R. split.
      + intros ks k C. destruct (R ks k) as (o & L & Pm); [exists n, e; split; auto; apply In'; auto|].
        exists o. split; auto. rewrite lookup_put in L by auto. destruct (N.eqb_spec k n) as [->|D]; [left; injection L as <-; auto|right; auto].
      + intros i o ks D Hi C. destruct (R ks n) as (o' & L & Pm); [exists i, o; split; auto; apply In'; auto|].
        rewrite lookup_put, N.eqb_refl in L by auto. now injection L as <-. }
  split.
  - intro Hf. exists (norm_ifc (mk_ifc h (put m n e))). split; [apply load_saved; auto; now apply Ok|]. split; [reflexivity|].
    intros k D. cbn [norm_ifc i_data]. rewrite !lookup_norm, lookup_put by auto. destruct (N.eqb_spec k n); [contradiction|reflexivity].
  - intro Nf.
    assert (Nd : ~ dangling (put m n e)).
    { intros (ks & k & (i & o & Hi & C) & L). rewrite lookup_put in L by auto. destruct (N.eqb_spec k n) as [->|D]; [discriminate|].
      apply In' in Hi as [[-> ->]|[D' Hi]].
      - destruct (Hc ks k C); contradiction.
      - destruct (Hr ks k) as (o' & L' & _); [exists i, o; auto|]. congruence. }
    apply misdirected_refused; auto. cbn [i_data].
    destruct (load_exists _ _ _ (saved_parsed _ _ Hp)) as [Q1 Q2]; [cbn [norm_ifc i_data]; intro H; now apply (proj1 (dangling_norm _)) in H|].
    cbn [norm_ifc i_data] in Q1. destruct (load v (save (mk_ifc h (put m n e)))) as [y| |] eqn:El.
    + exfalso. apply load_done in El as [Ep R]. rewrite (saved_parsed _ _ Hp) in Ep. injection Ep as <-. cbn [norm_ifc i_data] in R.
      apply (proj1 (refs_ok_norm _)), Ok in R. contradiction.
    + apply (proj1 (misdirected_norm _)). now apply Q1.
    + congruence.
Qed.
