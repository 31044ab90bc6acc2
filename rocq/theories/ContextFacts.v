(** Facts about representation contexts: C45. *)

From Coq Require Import String Ascii List NArith ZArith Bool Lia.
From Verif Require Import Base Prims Spec Float Kind Types Schema Entity EntitySpec DataMap DataSpec Header File HeaderSpec FileSpec
  Context DataMapFacts FileFacts FileFacts3.
Import ListNotations.
Open Scope N_scope.

(** [x] is passed: the map afterwards and the id the object has. *)
Definition passed (x : id_or) (m m' : dmap) (n : N) : Prop :=
  match x with
  | IsId i => n = i /\ m' = m
  | IsCustom e => lookup m n = None /\ forall k, lookup m' k = if k =? n then Some e else lookup m k
  end.

Lemma or_insert_passed x m m' n : increasing m -> or_insert m x = Some (m', n) -> passed x m m' n.
Proof.
  intros I H. destruct x as [i|e]; cbn [or_insert passed] in *.
  - injection H as <- <-. auto.
  - apply insert_new_spec in H as (_ & _ & H & _ & L); auto.
Qed.

Lemma context_contents m m1 dim wcs l : increasing m -> context_new dim wcs m = Some (m1, l) ->
  exists n i, passed wcs m m1 n /\ nth_error enum_RepresentationIdentifier i = Some (lit "'Body'") /\
    l = [VEnum i; VStr (lit "Model"); VEnum dim; VOmit; VId n; VOmit].
Proof.
  intros I H. unfold context_new in H. destruct (or_insert m wcs) as [[m' n]|] eqn:E; [|discriminate]. injection H as <- <-.
  exists n, 8%nat. split; [now apply or_insert_passed|]. split; reflexivity.
Qed.

Lemma precision_contents d l i : length l = 6%nat ->
  nth_error (context_precision d l) i = if Nat.eqb i 3 then Some (VReal d) else nth_error l i.
Proof.
  intro H. do 6 (destruct l as [|? l]; [discriminate|]). destruct l; [|discriminate].
  do 6 (destruct i as [|i]; [reflexivity|]). reflexivity.
Qed.

Lemma north_contents dir m l m' l' : length l = 6%nat -> increasing m -> context_true_north dir m l = Some (m', l') ->
  exists n, passed dir m m' n /\ forall i, nth_error l' i = if Nat.eqb i 5 then Some (VId n) else nth_error l i.
Proof.
  intros H I E. unfold context_true_north in E. destruct (or_insert m dir) as [[m1 n]|] eqn:Eo; [|discriminate]. injection E as <- <-.
  exists n. split; [now apply or_insert_passed|]. intro i.
  do 6 (destruct l as [|? l]; [discriminate|]). destruct l; [|discriminate].
  do 6 (destruct i as [|i]; [reflexivity|]). reflexivity.
Qed.

Lemma precision_loads v h m m1 m2 dim wcs l d c : increasing m -> refs_ok m ->
  match wcs with
  | IsId n => exists e, lookup m n = Some e /\ (kind_of e = KAxis2D \/ kind_of e = KAxis3D)
  | IsCustom e => (kind_of e = KAxis2D \/ kind_of e = KAxis3D) /\ good_refs m e
  end ->
  context_new dim wcs m = Some (m1, l) ->
  insert_new m1 (Ent KGeometricRepresentationContext (context_precision d l)) = Some (m2, c) ->
  ifc_ok v (mk_ifc h m2) -> exists y, load v (save (mk_ifc h m2)) = Done y.
Proof.
  intros Hi Ho Hw H1 H2 Hx. destruct (context_good_refs m m1 dim wcs l) as (Hi1 & Ho1 & Hg); auto.
  eexists. apply load_saved; auto. cbn [i_data]. eapply refs_ok_insert_new; eauto.
  destruct (context_contents m m1 dim wcs l Hi H1) as (n & i & _ & _ & ->).
  intros ks k Hc. apply Hg. apply entity_refs_checked in Hc. apply entity_refs_checked. exact Hc.
Qed.
