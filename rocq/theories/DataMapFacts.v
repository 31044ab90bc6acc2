(** Facts about the data map. *)

From Coq Require Import String Ascii List NArith ZArith Bool Lia Sorted Permutation.
From Verif Require Import Base Prims BaseFacts Spec PrimsFacts Kind Types Schema Entity
  Layout WellTyped EntitySpec DataMap DataSpec TypesFacts EntityFacts.
Import ListNotations.
Open Scope N_scope.

(** ** Sorted association lists *)

Lemma increasing_nil : increasing [].
Proof. constructor. Qed.

Lemma increasing_cons k e m :
  increasing ((k, e) :: m) <-> increasing m /\ Forall (fun p => k < fst p) m.
Proof.
  unfold increasing. cbn [map fst]. split.
  - intro H. inversion H; subst. split; auto. now rewrite Forall_map in H3.
  - intros [H1 H2]. constructor; auto. now rewrite Forall_map.
Qed.

Lemma lookup_None m n : lookup m n = None <-> ~ In n (map fst m).
Proof.
  induction m as [|[k e] m IH]; cbn [lookup map fst In]; [tauto|].
  destruct (N.eqb_spec k n); [split; intros; [discriminate|tauto]|]. rewrite IH. tauto.
Qed.

Lemma lookup_In m n e : lookup m n = Some e -> In (n, e) m.
Proof.
  induction m as [|[k x] m IH]; cbn [lookup]; [discriminate|].
  destruct (N.eqb_spec k n) as [->|]; [intro H; injection H as ->; now left|right; auto].
Qed.

Lemma above_None k m : Forall (fun p => k < fst p) m -> lookup m k = None.
Proof.
  intro H. apply lookup_None. intro Hin. apply in_map_iff in Hin as (p & <- & Hp).
  rewrite Forall_forall in H. specialize (H p Hp). lia.
Qed.

Lemma In_lookup m n e : increasing m -> In (n, e) m -> lookup m n = Some e.
Proof.
  induction m as [|[k x] m IH]; intros Hs Hin; [contradiction|]. cbn [lookup].
  apply increasing_cons in Hs as [Hs Hf]. destruct Hin as [E|Hin].
  - injection E as -> ->. now rewrite N.eqb_refl.
  - rewrite Forall_forall in Hf. specialize (Hf _ Hin). cbn in Hf.
    destruct (N.eqb_spec k n); [lia|auto].
Qed.

Lemma put_keys m n e p : In p (put m n e) -> p = (n, e) \/ In p m.
Proof.
  induction m as [|[k x] m IH]; cbn [put].
  - intros [<-|[]]; auto.
  - destruct (n <? k); [intros [<-|H]; auto|]. destruct (n =? k).
    + intros [<-|H]; auto. right. now right.
    + intros [<-|H]; [right; now left|]. destruct (IH H); auto. right. now right.
Qed.

Lemma put_increasing m n e : increasing m -> increasing (put m n e).
Proof.
  induction m as [|[k x] m IH]; intro Hs; cbn [put].
  - now apply increasing_cons.
  - destruct (N.ltb_spec n k).
    + apply increasing_cons. split; auto. apply increasing_cons in Hs as [Hs Hf]. constructor; auto.
      eapply Forall_impl; [|exact Hf]. cbn. intros. lia.
    + apply increasing_cons in Hs as [Hs Hf]. destruct (N.eqb_spec n k) as [->|].
      * now apply increasing_cons.
      * apply increasing_cons. split; auto. apply Forall_forall. intros p Hp.
        apply put_keys in Hp as [->|Hp]; [cbn; lia|]. rewrite Forall_forall in Hf. auto.
Qed.

Lemma lookup_put m n e k : increasing m -> lookup (put m n e) k = if k =? n then Some e else lookup m k.
Proof.
  induction m as [|[j x] m IH]; intro Hs; cbn [put].
  - cbn [lookup]. now rewrite N.eqb_sym.
  - pose proof Hs as Hs'. apply increasing_cons in Hs' as [Hs' Hf]. destruct (N.ltb_spec n j).
    + cbn [lookup]. rewrite (N.eqb_sym n k). now destruct (k =? n).
    + destruct (N.eqb_spec n j) as [->|Hne].
      * cbn [lookup]. rewrite (N.eqb_sym j k). now destruct (k =? j).
      * cbn [lookup]. rewrite IH by auto. destruct (N.eqb_spec j k) as [->|]; auto.
        destruct (N.eqb_spec k n); [congruence|auto].
Qed.

Lemma del_incl m n p : In p (del m n) -> In p m.
Proof.
  induction m as [|[k x] m IH]; cbn [del]; auto. destruct (k =? n); [now right|].
  intros [<-|H]; [now left|right; auto].
Qed.

Lemma del_increasing m n : increasing m -> increasing (del m n).
Proof.
  induction m as [|[k x] m IH]; intro Hs; cbn [del]; auto.
  apply increasing_cons in Hs as [Hs Hf]. destruct (k =? n); auto.
  apply increasing_cons. split; auto. apply Forall_forall. intros p Hp. apply del_incl in Hp.
  rewrite Forall_forall in Hf. auto.
Qed.

Lemma lookup_del m n k : increasing m -> lookup (del m n) k = if k =? n then None else lookup m k.
Proof.
  induction m as [|[j x] m IH]; intro Hs; cbn [del].
  - cbn. now destruct (k =? n).
  - apply increasing_cons in Hs as [Hs Hf]. destruct (N.eqb_spec j n) as [->|Hne].
    + cbn [lookup]. destruct (N.eqb_spec k n) as [E|E]; [subst k; now apply above_None|].
      destruct (N.eqb_spec n k); [congruence|auto].
    + cbn [lookup]. rewrite IH by auto. destruct (N.eqb_spec j k) as [->|]; auto.
      destruct (N.eqb_spec k n); [congruence|auto].
Qed.

(** Two sorted lists with the same content are equal. *)
Lemma lookup_ext m m' : increasing m -> increasing m' -> (forall n, lookup m n = lookup m' n) -> m = m'.
Proof.
  revert m'. induction m as [|[k e] m IH]; intros [|[k' e'] m'] Hs Hs' H; auto.
  - specialize (H k'). cbn [lookup] in H. rewrite N.eqb_refl in H. discriminate.
  - specialize (H k). cbn [lookup] in H. rewrite N.eqb_refl in H. discriminate.
  - apply increasing_cons in Hs as [Hs Hf], Hs' as [Hs' Hf'].
    assert (Hk : k = k').
    { pose proof (H k) as H1. pose proof (H k') as H2. cbn [lookup] in H1, H2. rewrite N.eqb_refl in H1, H2.
      destruct (N.eqb_spec k' k) as [E|Hne]; [congruence|].
      destruct (N.eqb_spec k k') as [E|_]; [congruence|].
      symmetry in H1. apply lookup_In in H1, H2. rewrite Forall_forall in Hf, Hf'.
      specialize (Hf _ H2). specialize (Hf' _ H1). cbn in *. lia. }
    subst k'. assert (He : e = e').
    { specialize (H k). cbn [lookup] in H. rewrite N.eqb_refl in H. congruence. }
    subst e'. f_equal. apply IH; auto. intro n. specialize (H n). cbn [lookup] in H.
    destruct (N.eqb_spec k n) as [->|]; auto. now rewrite !above_None.
Qed.

(** ** Largest key *)

Lemma max_key_None m : max_key m = None <-> m = [].
Proof. destruct m; cbn; split; congruence. Qed.

Lemma max_key_spec m k : max_key m = Some k ->
  In k (map fst m) /\ forall n, In n (map fst m) -> n <= k.
Proof.
  revert k. induction m as [|[j e] m IH]; intros k H; [discriminate|].
  cbn [max_key fold_right] in H. fold (max_key m) in H. destruct (max_key m) as [b|] eqn:E.
  - injection H as <-. destruct (IH b eq_refl) as [H1 H2]. cbn [map fst In]. split.
    + destruct (N.max_spec j b) as [[? ->]|[? ->]]; auto.
    + intros n [<-|Hn]; [lia|]. specialize (H2 n Hn). lia.
  - injection H as <-. apply max_key_None in E. subst m. cbn. split; auto. intros n [<-|[]]. lia.
Qed.

Lemma lookup_above m k n : max_key m = Some k -> k < n -> lookup m n = None.
Proof.
  intros H Hn. apply lookup_None. intro Hin. apply max_key_spec in H as [_ H].
  specialize (H n Hin). lia.
Qed.

(** ** New objects *)

Lemma insert_new_spec m e m' n :
  increasing m -> insert_new m e = Some (m', n) ->
  1 <= n /\ (forall k, In k (map fst m) -> k < n) /\ lookup m n = None /\
  increasing m' /\ (forall k, lookup m' k = if k =? n then Some e else lookup m k).
Proof.
  intros Hs H. unfold insert_new in H. destruct (max_key m) as [k|] eqn:E.
  - destruct (N.eqb_spec k max_usize); [discriminate|]. injection H as <- <-.
    destruct (max_key_spec m k E) as [H1 H2]. split; [lia|]. split.
    + intros j Hj. specialize (H2 j Hj). lia.
    + split; [apply lookup_above with k; auto; lia|]. split; [now apply put_increasing|].
      intro j. now apply lookup_put.
  - apply max_key_None in E. subst m. injection H as <- <-. split; [lia|]. split; [contradiction|].
    split; auto. split; [now apply (put_increasing [])|]. intro j. cbn. now rewrite N.eqb_sym.
Qed.

Lemma insert_new_some m e :
  (forall k, In k (map fst m) -> k < max_usize) -> exists m' n, insert_new m e = Some (m', n).
Proof.
  intro H. unfold insert_new. destruct (max_key m) as [k|] eqn:E; eauto.
  apply max_key_spec in E as [E _]. specialize (H k E). destruct (N.eqb_spec k max_usize); [lia|eauto].
Qed.

Lemma insert_new_full m e :
  (forall k, In k (map fst m) -> k <= max_usize) ->
  (insert_new m e = None <-> In max_usize (map fst m)).
Proof.
  intro Hle. unfold insert_new. destruct (max_key m) as [k|] eqn:E.
  - destruct (max_key_spec m k E) as [H1 H2]. destruct (N.eqb_spec k max_usize) as [->|Hne].
    + tauto.
    + split; [discriminate|]. intro H. specialize (H2 _ H). specialize (Hle k H1). lia.
  - apply max_key_None in E. subst m. split; [discriminate|contradiction].
Qed.

Lemma insert_new_range m e m' n :
  (forall k, In k (map fst m) -> k <= max_usize) -> insert_new m e = Some (m', n) -> n <= max_usize.
Proof.
  intros Hle H. unfold insert_new in H. destruct (max_key m) as [k|] eqn:E.
  - apply max_key_spec in E as [E _]. specialize (Hle k E).
    destruct (N.eqb_spec k max_usize); [discriminate|]. injection H as _ <-. lia.
  - injection H as _ <-. unfold max_usize. lia.
Qed.

(** ** Collecting definitions *)

Lemma from_list_app l p : from_list (l ++ [p]) = put (from_list l) (fst p) (snd p).
Proof. unfold from_list. now rewrite fold_left_app. Qed.

Lemma from_list_increasing l : increasing (from_list l).
Proof.
  induction l as [|p l IH] using rev_ind; [constructor|]. rewrite from_list_app.
  now apply put_increasing.
Qed.

Lemma from_list_last l n : last_def l n (lookup (from_list l) n).
Proof.
  induction l as [|[k e] l IH] using rev_ind; [cbn; auto|].
  rewrite from_list_app. cbn [fst snd]. rewrite lookup_put by apply from_list_increasing.
  destruct (N.eqb_spec n k) as [->|Hne].
  - exists l, []. cbn. auto.
  - destruct (lookup (from_list l) n) as [x|]; cbn [last_def] in *.
    + destruct IH as (a & b & -> & Hb). exists a, (b ++ [(k, e)]). split; [now rewrite <- app_assoc|].
      rewrite map_app, in_app_iff. cbn. intuition congruence.
    + rewrite map_app, in_app_iff. cbn. intuition congruence.
Qed.

Lemma from_list_In l p : In p (from_list l) -> In p l.
Proof.
  induction l as [|q l IH] using rev_ind; [contradiction|]. rewrite from_list_app.
  intro H. apply put_keys in H as [->|H]; apply in_or_app; [right; left; now destruct q|left; auto].
Qed.

Lemma from_list_sorted m : increasing m -> from_list m = m.
Proof.
  intro Hs. apply lookup_ext; auto using from_list_increasing. intro n.
  pose proof (from_list_last m n) as H. destruct (lookup (from_list m) n) as [e|]; cbn [last_def] in H.
  - destruct H as (a & b & -> & _). symmetry. apply In_lookup; auto. apply in_or_app. right. now left.
  - symmetry. now apply lookup_None.
Qed.

(** ** Typed access *)

Lemma find_all_spec k m n l :
  In (n, l) (find_all_of_type k m) <-> In (n, Ent k l) m.
Proof.
  unfold find_all_of_type. rewrite in_flat_map. split.
  - intros ([n' e] & Hin & H). cbn [fst snd] in H. destruct e as [k' l'|]; [|contradiction].
    destruct (kind_eqb k' k) eqn:E; [|contradiction]. apply kind_eqb_eq in E. subst k'.
    destruct H as [H|[]]. injection H as -> ->. exact Hin.
  - intro H. exists (n, Ent k l). split; auto. cbn [fst snd].
    assert (E : kind_eqb k k = true) by now apply kind_eqb_eq. rewrite E. now left.
Qed.

Lemma flat_sorted (f : N * entity -> list (N * list val)) m :
  (forall p, f p = [] \/ exists l, f p = [(fst p, l)]) ->
  increasing m -> StronglySorted N.lt (map fst (flat_map f m)).
Proof.
  intros Hf. induction m as [|[k e] m IH]; intro Hs; [constructor|].
  apply increasing_cons in Hs as [Hs Hlt]. cbn [flat_map]. rewrite map_app.
  destruct (Hf (k, e)) as [-> | [l ->]]; [exact (IH Hs)|]. cbn [map app fst]. constructor; auto.
  apply Forall_forall. intros x Hx. apply in_map_iff in Hx as (q & <- & Hq).
  apply in_flat_map in Hq as (p & Hp & Hq). rewrite Forall_forall in Hlt. specialize (Hlt p Hp).
  destruct (Hf p) as [E|[l' E]]; rewrite E in Hq; [contradiction|]. destruct Hq as [<-|[]]. exact Hlt.
Qed.

Lemma find_all_sorted k m : increasing m -> StronglySorted N.lt (map fst (find_all_of_type k m)).
Proof.
  apply flat_sorted. intros [n [k' l|s]]; cbn [fst snd]; auto. destruct (kind_eqb k' k); eauto.
Qed.

Lemma id_of_spec k m n : In n (id_of k m) <-> exists e, In (n, e) m /\ kind_of e = k.
Proof.
  unfold id_of. rewrite in_map_iff. split.
  - intros ([n' e] & <- & H). apply filter_In in H as [H1 H2]. cbn [fst snd] in *.
    apply kind_eqb_eq in H2. eauto.
  - intros (e & H1 & H2). exists (n, e). split; auto. apply filter_In. split; auto. cbn.
    now apply kind_eqb_eq.
Qed.

Lemma id_of_sorted k m : increasing m -> StronglySorted N.lt (id_of k m).
Proof.
  unfold id_of. induction m as [|[n e] m IH]; intro Hs; [constructor|].
  apply increasing_cons in Hs as [Hs Hlt]. cbn [filter fst snd].
  destruct (kind_eqb (kind_of e) k); auto. cbn [map fst]. constructor; auto.
  apply Forall_forall. intros x Hx. apply in_map_iff in Hx as (p & <- & Hp).
  apply filter_In in Hp as [Hp _]. rewrite Forall_forall in Hlt. apply (Hlt p Hp).
Qed.

Lemma get_spec k m n l : get k m n = Done l <-> lookup m n = Some (Ent k l).
Proof.
  unfold get. destruct (lookup m n) as [[k' l'|s]|]; try (split; discriminate).
  destruct (kind_eqb k' k) eqn:E.
  - apply kind_eqb_eq in E. subst k'. split; intro H; injection H as ->; reflexivity.
  - split; [discriminate|]. intro H. injection H as -> ->.
    assert (kind_eqb k k = true) by now apply kind_eqb_eq. congruence.
Qed.

Lemma get_panic k m n : (forall l, lookup m n <> Some (Ent k l)) -> get k m n = Panic.
Proof.
  intro H. destruct (get k m n) as [l| |] eqn:E; auto.
  - apply get_spec in E. now apply H in E.
  - unfold get in E. destruct (lookup m n) as [[k' l'|s]|]; try discriminate.
    destruct (kind_eqb k' k); discriminate.
Qed.

(** ** Sequences of operations *)

Lemma step_refines m o m' a :
  increasing m -> (forall k, In k (map fst m) -> k <= max_usize) -> step m o = Some (m', a) ->
  increasing m' /\ fstep (lookup m) o (lookup m') a.
Proof.
  intros Hs Hle H. destruct o as [e|n e|n e|n|k n g]; cbn [step fstep] in *.
  - destruct (insert_new m e) as [[m1 n]|] eqn:E; [|discriminate]. injection H as <- <-.
    pose proof (insert_new_range m e m1 n Hle E) as Hr.
    destruct (insert_new_spec m e m1 n Hs E) as (H1 & H2 & H3 & H4 & H5). split; auto.
    exists n. repeat split; auto.
    + intros k Hk. apply H2. destruct (in_dec N.eq_dec k (map fst m)) as [Hi|Hi]; auto.
      apply lookup_None in Hi. congruence.
    + unfold insert_new in E. destruct (max_key m) as [k|] eqn:Ek.
      * destruct (k =? max_usize); [discriminate|]. injection E as _ <-. right.
        replace (k + 1 - 1) with k by lia. apply max_key_spec in Ek as [Ek _].
        intro Hn. now apply lookup_None in Hn.
      * injection E as _ <-. now left.
  - injection H as <- <-. split; [now apply put_increasing|]. split; auto.
    intro k. now apply lookup_put.
  - injection H as <- <-. unfold insert_if_not_exists, contains. destruct (lookup m n) eqn:E.
    + split; auto.
    + split; [now apply put_increasing|]. split; auto. intro k. now apply lookup_put.
  - injection H as <- <-. split; [now apply del_increasing|]. split; auto.
    intro k. now apply lookup_del.
  - destruct (update k m n g) as [m1| |] eqn:E; try discriminate. injection H as <- <-.
    unfold update in E. destruct (get k m n) as [l| |] eqn:Eg; try discriminate. injection E as <-.
    apply get_spec in Eg. split; [now apply put_increasing|]. split; auto. exists l. split; auto.
    intro j. now apply lookup_put.
Qed.

Lemma put_range m n e : n <= max_usize -> in_range_map m -> in_range_map (put m n e).
Proof.
  intros Hn H k Hk. apply in_map_iff in Hk as (p & <- & Hp). apply put_keys in Hp as [->|Hp]; auto.
  apply H. now apply in_map.
Qed.

Lemma step_range m o m' a : in_range_map m -> op_ok o -> step m o = Some (m', a) -> in_range_map m'.
Proof.
  intros Hle Hok H. destruct o as [e|n e|n e|n|k n g]; cbn [step op_ok] in *.
  - destruct (insert_new m e) as [[m1 n]|] eqn:E; [|discriminate]. injection H as <- <-.
    pose proof (insert_new_range m e m1 n Hle E) as Hr. unfold insert_new in E.
    destruct (max_key m) as [k|]; [destruct (k =? max_usize); [discriminate|]|];
      injection E as <- <-; now apply put_range.
  - injection H as <- <-. now apply put_range.
  - injection H as <- <-. unfold insert_if_not_exists. destruct (contains m n); auto. now apply put_range.
  - injection H as <- <-. intros k Hk. apply in_map_iff in Hk as (p & <- & Hp). apply del_incl in Hp.
    apply Hle. now apply in_map.
  - destruct (update k m n g) as [m1| |] eqn:E; try discriminate. injection H as <- <-.
    unfold update in E. destruct (get k m n) as [l| |] eqn:Eg; try discriminate. injection E as <-.
    apply get_spec, lookup_In in Eg. apply put_range; auto. apply Hle. now apply (in_map fst) in Eg.
Qed.

Lemma run_refines os : forall m m' l,
  increasing m -> in_range_map m -> Forall op_ok os -> run m os = Some (m', l) ->
  increasing m' /\ in_range_map m' /\ frun (lookup m) os (lookup m') l.
Proof.
  induction os as [|o os IH]; intros m m' l Hs Hr Hok H; cbn [run] in H.
  - injection H as <- <-. repeat split; auto. now constructor.
  - inversion Hok; subst. destruct (step m o) as [[m1 a]|] eqn:E; [|discriminate].
    destruct (run m1 os) as [[m2 l']|] eqn:E2; [|discriminate]. injection H as <- <-.
    destruct (step_refines m o m1 a Hs Hr E) as [Hs1 Hf].
    pose proof (step_range m o m1 a Hr H2 E) as Hr1.
    destruct (IH m1 m2 l' Hs1 Hr1 H3 E2) as (A & B & C). repeat split; auto. econstructor; eauto.
Qed.

(** An operation panics exactly on a full map or a typed access to something else. *)
Lemma step_panics m o : in_range_map m ->
  (step m o = None <->
   match o with
   | OpNew _ => lookup m max_usize <> None
   | OpUpdate k n _ => forall l, lookup m n <> Some (Ent k l)
   | _ => False
   end).
Proof.
  intro Hr. destruct o as [e|n e|n e|n|k n g]; cbn [step]; try (split; [discriminate|tauto]).
  - pose proof (insert_new_full m e Hr) as H. destruct (insert_new m e) as [[m' n]|].
    + split; [discriminate|]. intro Hn. exfalso. apply Hn. apply lookup_None. intro Hin.
      apply H in Hin. discriminate.
    + split; auto. intros _ Hl. apply lookup_None in Hl. apply Hl. now apply H.
  - unfold update. destruct (get k m n) as [l| |] eqn:E.
    + apply get_spec in E. split; [discriminate|]. intro H. now apply H in E.
    + split; auto. intros _ l Hl. apply get_spec in Hl. congruence.
    + split; auto. intros _ l Hl. apply get_spec in Hl. congruence.
Qed.

Lemma same_map m m' : increasing m -> increasing m' ->
  (forall n, lookup m n = lookup m' n) -> m = m'.
Proof. exact (lookup_ext m m'). Qed.

Lemma contains_spec m n : contains m n = true <-> exists e, lookup m n = Some e.
Proof.
  unfold contains. destruct (lookup m n); split; eauto; try discriminate. intros [e He]. discriminate.
Qed.

Lemma or_insert_custom m e m' n :
  increasing m -> or_insert m (IsCustom e) = Some (m', n) ->
  lookup m n = None /\ lookup m' n = Some e /\ (forall k, k <> n -> lookup m' k = lookup m k).
Proof.
  intros Hs H. destruct (insert_new_spec m e m' n Hs H) as (_ & _ & H3 & _ & H5).
  split; auto. split.
  - rewrite H5, N.eqb_refl. reflexivity.
  - intros k Hk. rewrite H5. now rewrite (proj2 (N.eqb_neq k n) Hk).
Qed.
