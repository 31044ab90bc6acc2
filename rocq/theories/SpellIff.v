(** Integers, ids and identifiers are read exactly if they are spelled. *)

From Coq Require Import String Ascii List NArith ZArith Bool Lia.
From Coq Require Import ZifyBool ZifyNat ZifyN.
From Verif Require Import Base Prims BaseFacts Guid Float PrimsFacts Types SpellSpec SpellFacts GramSpec GramFacts.
Import ListNotations.
Open Scope N_scope.

Lemma int_iff w z : p_int w = ROk z [] <-> int_text z w /\ (-9223372036854775808 <= z <= 9223372036854775807)%Z.
Proof.
  split.
  - intro H. pose proof (dec_int_range _ _ _ _ _ H) as R. apply p_int_text in H as (w' & -> & H & _). rewrite app_nil_r. now split.
  - intros [H R]. rewrite <- (app_nil_r w). apply (dec_int_form _ _ z w []); auto. exact I.
Qed.

Lemma id_iff w n : p_id w = ROk n [] <-> SpellSpec.id_text n w.
Proof.
  split.
  - intro H. apply p_id_text in H as (w' & -> & H). now rewrite app_nil_r.
  - intro H. rewrite <- (app_nil_r w). apply id_form; auto. exact I.
Qed.

Lemma base_app b l x : base b (l ++ [x]) = b * base b l + x.
Proof. unfold base. now rewrite fold_left_app. Qed.

Lemma base_unique b : forall l l', length l = length l' -> Forall (fun x => x < b) l -> Forall (fun x => x < b) l' ->
  base b l = base b l' -> l = l'.
Proof.
  induction l as [|x l IH] using rev_ind; intros l' Hl H H' E.
  - destruct l'; [reflexivity|discriminate].
  - destruct l' as [|y l' _] using rev_ind; [rewrite app_length in Hl; cbn in Hl; lia|].
    rewrite !app_length in Hl. cbn in Hl. apply Forall_app in H as [H Hx]. apply Forall_app in H' as [H' Hy].
    inversion Hx as [|? ? X _]; subst. inversion Hy as [|? ? Y _]; subst. rewrite !base_app in E.
    apply N.div_mod_unique in E as [E ->]; auto. f_equal. apply IH; auto. lia.
Qed.

Lemma position_unique (l : text) (i j : N) c : NoDup l ->
  nth_error l (N.to_nat i) = Some c -> nth_error l (N.to_nat j) = Some c -> i = j.
Proof.
  intros D Hi Hj. apply N2Nat.inj. apply (proj1 (NoDup_nth_error l) D); [|congruence]. apply nth_error_Some. congruence.
Qed.

Lemma digits64 : NoDup (lit "0123456789ABCDEFGHIJKLMNOPQRSTUVWXYZabcdefghijklmnopqrstuvwxyz_$").
Proof.
  assert (H : nodup N.eq_dec (lit "0123456789ABCDEFGHIJKLMNOPQRSTUVWXYZabcdefghijklmnopqrstuvwxyz_$")
              = lit "0123456789ABCDEFGHIJKLMNOPQRSTUVWXYZabcdefghijklmnopqrstuvwxyz_$") by (vm_compute; reflexivity).
  rewrite <- H. apply NoDup_nodup.
Qed.

Lemma guid_text_unique w g g' : guid_text g w -> guid_text g' w -> g = g'.
Proof.
  intros (cs & ds & -> & Hl & Hd & Lg & Bg & E) (cs' & ds' & Ec & _ & Hd' & Lg' & Bg' & E').
  apply app_inv_head in Ec. apply app_inv_tail in Ec. subst cs'.
  assert (ds = ds').
  { clear - Hd Hd'. revert ds' Hd'. induction Hd as [|c i cs ds Hc Hd IH]; intros ds' Hd'; inversion Hd'; subst; auto.
    f_equal; auto. eapply position_unique; eauto. apply digits64. }
  subst ds'. apply (base_unique 256); auto; congruence.
Qed.

Lemma guid_iff w g : p_guid w = ROk g [] <-> guid_text g w.
Proof.
  split.
  - intro H. apply p_guid_text in H as (w' & -> & H). now rewrite app_nil_r.
  - intro H. pose proof H as (cs & ds & -> & Hl & Hd & _). 
    assert (Hc : Forall (fun c => In c (lit "0123456789ABCDEFGHIJKLMNOPQRSTUVWXYZabcdefghijklmnopqrstuvwxyz_$")) cs).
    { clear - Hd. induction Hd; constructor; auto. eapply nth_error_In; eauto. }
    pose proof (guid_form cs [] Hl Hc) as R. rewrite app_nil_r in R. rewrite R. f_equal.
    apply p_guid_text in R as (w' & E & R). rewrite app_nil_r in E. rewrite <- E in R. eapply guid_text_unique; eauto.
Qed.
