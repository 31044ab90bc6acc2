(** Facts about globally unique ids (Guid.v). *)

From Coq Require Import String Ascii List NArith ZArith Bool Lia Arith.
From Coq Require Import ZifyBool ZifyNat ZifyN.
From Verif Require Import Base BaseFacts Guid.
Import ListNotations.
Open Scope N_scope.
Ltac Zify.zify_post_hook ::= Z.div_mod_to_equations.

Lemma lor_shift a b k : b < 2 ^ k -> N.lor (N.shiftl a k) b = a * 2 ^ k + b.
Proof.
  intro Hb. rewrite <- N.shiftl_mul_pow2.
  assert (Hl : N.land (N.shiftl a k) b = 0).
  { apply N.bits_inj. intro i. rewrite N.land_spec, N.bits_0.
    destruct (N.lt_ge_cases i k).
    - now rewrite N.shiftl_spec_low.
    - destruct (N.eq_dec b 0) as [->|Hb0]; [now rewrite N.bits_0, andb_false_r|].
      rewrite (N.bits_above_log2 b), andb_false_r; auto.
      apply N.log2_lt_pow2; try lia.
      apply N.lt_le_trans with (2 ^ k); auto. apply N.pow_le_mono_r; lia. }
  now rewrite N.add_nocarry_lxor, N.lxor_lor by auto.
Qed.

Lemma land_255 n : N.land n 255 = n mod 256.
Proof. change 255 with (N.ones 8). now rewrite N.land_ones. Qed.

Lemma land_63 n : N.land n 63 = n mod 64.
Proof. change 63 with (N.ones 6). now rewrite N.land_ones. Qed.

Lemma get_base16_bytes_eq n k : get_base16_bytes n k = (n / 2 ^ (k * 8)) mod 256.
Proof.
  unfold get_base16_bytes, as_u8. rewrite !land_255, N.shiftr_div_pow2.
  now rewrite N.mod_mod.
Qed.

Lemma get_base64_bit_eq n k : get_base64_bit n k = (n / 2 ^ (k * 6)) mod 64.
Proof.
  unfold get_base64_bit, as_u8. rewrite land_63, land_255, N.shiftr_div_pow2.
  generalize (n / 2 ^ (k * 6)). intro m. lia.
Qed.

Lemma combine_first_eq a b :
  combine_first_base64_bytes a b = (a mod 4) * 64 + b mod 64.
Proof.
  unfold combine_first_base64_bytes, as_u8. rewrite land_255, !land_63, N.shiftl_mul_pow2.
  change (2 ^ 6) with 64.
  replace ((a mod 64 * 64) mod 256) with (N.shiftl (a mod 4) 6).
  - rewrite lor_shift; change (2 ^ 6) with 64; lia.
  - rewrite N.shiftl_mul_pow2. change (2 ^ 6) with 64. lia.
Qed.

Lemma combine64_eq a b c d :
  a < 64 -> b < 64 -> c < 64 -> d < 64 ->
  combine_base64_bytes [a; b; c; d] = ((a * 64 + b) * 64 + c) * 64 + d.
Proof.
  intros. unfold combine_base64_bytes. cbn [fold_left].
  rewrite !lor_shift by (change (2 ^ 6) with 64; lia). change (2 ^ 6) with 64. lia.
Qed.

Lemma combine16_eq a b c :
  a < 256 -> b < 256 -> c < 256 ->
  combine_base16_bytes [a; b; c] = (a * 256 + b) * 256 + c.
Proof.
  intros. unfold combine_base16_bytes. cbn [fold_left].
  rewrite !lor_shift by (change (2 ^ 8) with 256; lia). change (2 ^ 8) with 256. lia.
Qed.

Definition bytes (l : list N) : Prop := Forall (fun b => b < 256) l.
Definition digits64 (l : list N) : Prop := Forall (fun b => b < 64) l.

Lemma list_ind3 (P : list N -> Prop) :
  (forall l, (length l < 3)%nat -> P l) ->
  (forall a b c l, P l -> P (a :: b :: c :: l)) -> forall l, P l.
Proof.
  intros H0 H3 l. remember (length l) as n eqn:Hn. revert l Hn.
  induction n as [n IH] using lt_wf_ind. intros l ->.
  destruct l as [|a [|b [|c l]]]; try (apply H0; cbn; lia).
  apply H3. eapply IH; [|reflexivity]. cbn; lia.
Qed.

Lemma list_ind4 (P : list N -> Prop) :
  (forall l, (length l < 4)%nat -> P l) ->
  (forall a b c d l, P l -> P (a :: b :: c :: d :: l)) -> forall l, P l.
Proof.
  intros H0 H4 l. remember (length l) as n eqn:Hn. revert l Hn.
  induction n as [n IH] using lt_wf_ind. intros l ->.
  destruct l as [|a [|b [|c [|d l]]]]; try (apply H0; cbn; lia).
  apply H4. eapply IH; [|reflexivity]. cbn; lia.
Qed.

Lemma decode_encode_chunks l k :
  length l = (3 * k)%nat -> bytes l -> decode_chunks (encode_chunks l) = l.
Proof.
  revert k. induction l as [l Hl|a b c l IH] using list_ind3; intros k Hk Hb.
  - destruct l; auto. cbn in *. lia.
  - inversion Hb as [|? ? Ha Hb1]; subst. inversion Hb1 as [|? ? Hbb Hb2]; subst.
    inversion Hb2 as [|? ? Hc Hb3]; subst.
    cbn [encode_chunks decode_chunks].
    rewrite combine16_eq by auto.
    rewrite combine64_eq by (rewrite get_base64_bit_eq; lia).
    rewrite !get_base64_bit_eq, !get_base16_bytes_eq.
    change (2 ^ (2 * 8)) with 65536. change (2 ^ (1 * 8)) with 256. change (2 ^ (0 * 8)) with 1.
    change (2 ^ (3 * 6)) with 262144. change (2 ^ (2 * 6)) with 4096.
    change (2 ^ (1 * 6)) with 64. change (2 ^ (0 * 6)) with 1.
    f_equal; [|f_equal; [|f_equal]]; try lia.
    apply (IH (pred k)); auto. cbn [length] in Hk. lia.
Qed.

Lemma encode_decode_chunks l k :
  length l = (4 * k)%nat -> digits64 l -> encode_chunks (decode_chunks l) = l.
Proof.
  revert k. induction l as [l Hl|a b c d l IH] using list_ind4; intros k Hk Hb.
  - destruct l; auto. cbn in *. lia.
  - inversion Hb as [|? ? Ha Hb1]; subst. inversion Hb1 as [|? ? Hbb Hb2]; subst.
    inversion Hb2 as [|? ? Hc Hb3]; subst. inversion Hb3 as [|? ? Hd Hb4]; subst.
    cbn [encode_chunks decode_chunks].
    rewrite combine64_eq by auto.
    rewrite combine16_eq by (rewrite get_base16_bytes_eq; lia).
    rewrite !get_base64_bit_eq, !get_base16_bytes_eq.
    change (2 ^ (2 * 8)) with 65536. change (2 ^ (1 * 8)) with 256. change (2 ^ (0 * 8)) with 1.
    change (2 ^ (3 * 6)) with 262144. change (2 ^ (2 * 6)) with 4096.
    change (2 ^ (1 * 6)) with 64. change (2 ^ (0 * 6)) with 1.
    f_equal; [|f_equal; [|f_equal; [|f_equal]]]; try lia.
    apply (IH (pred k)); auto. cbn [length] in Hk. lia.
Qed.

Lemma encode_chunks_length l k : length l = (3 * k)%nat -> length (encode_chunks l) = (4 * k)%nat.
Proof.
  revert k. induction l as [l Hl|a b c l IH] using list_ind3; intros k Hk.
  - destruct l; cbn in *; lia.
  - cbn [encode_chunks length] in *. rewrite (IH (pred k)); lia.
Qed.

Lemma decode_chunks_length l k : length l = (4 * k)%nat -> length (decode_chunks l) = (3 * k)%nat.
Proof.
  revert k. induction l as [l Hl|a b c d l IH] using list_ind4; intros k Hk.
  - destruct l; cbn in *; lia.
  - cbn [decode_chunks length] in *. rewrite (IH (pred k)); lia.
Qed.

Lemma encode_chunks_digits l : digits64 (encode_chunks l).
Proof.
  induction l as [l Hl|a b c l IH] using list_ind3.
  - destruct l as [|? [|? [|? ?]]]; try solve [constructor]. cbn in Hl. lia.
  - cbn [encode_chunks]. repeat (constructor; [rewrite get_base64_bit_eq; lia|]). exact IH.
Qed.

Lemma decode_chunks_bytes l : bytes (decode_chunks l).
Proof.
  induction l as [l Hl|a b c d l IH] using list_ind4.
  - destruct l as [|? [|? [|? [|? ?]]]]; try solve [constructor]. cbn in Hl. lia.
  - cbn [decode_chunks]. repeat (constructor; [rewrite get_base16_bytes_eq; lia|]). exact IH.
Qed.

Lemma encode_guid_digits l : digits64 (encode_guid l).
Proof.
  destruct l as [|a l]; [constructor|]. cbn [encode_guid].
  repeat (constructor; [rewrite get_base64_bit_eq; lia|]). apply encode_chunks_digits.
Qed.

Lemma encode_guid_length l : length l = 16%nat -> length (encode_guid l) = 22%nat.
Proof.
  destruct l as [|a l]; [discriminate|]. intro H. injection H as H. cbn [encode_guid length].
  rewrite (encode_chunks_length l 5); auto.
Qed.

Lemma decode_encode_guid l :
  length l = 16%nat -> bytes l -> decode_guid (encode_guid l) = l.
Proof.
  destruct l as [|a l]; [discriminate|]. intros H Hb. injection H as H.
  inversion Hb; subst. cbn [encode_guid decode_guid].
  rewrite combine_first_eq, !get_base64_bit_eq, (decode_encode_chunks l 5) by auto.
  change (2 ^ (1 * 6)) with 64. change (2 ^ (0 * 6)) with 1. f_equal. lia.
Qed.

Lemma decode_guid_bytes l : bytes (decode_guid l).
Proof.
  destruct l as [|a [|b l]]; try constructor.
  - rewrite combine_first_eq. lia.
  - apply decode_chunks_bytes.
Qed.

Lemma decode_guid_length l : length l = 22%nat -> length (decode_guid l) = 16%nat.
Proof.
  destruct l as [|a [|b l]]; try discriminate. intro H. injection H as H.
  cbn [decode_guid length]. rewrite (decode_chunks_length l 5); auto.
Qed.

(** Writing what was read: only the first character can change, and it is
    reduced modulo four. *)
Lemma encode_decode_guid a l :
  length (a :: l) = 22%nat -> digits64 (a :: l) ->
  encode_guid (decode_guid (a :: l)) = a mod 4 :: l.
Proof.
  destruct l as [|b l]; [discriminate|]. intros H Hb. injection H as H.
  inversion Hb as [|? ? Ha Hb1]; subst. inversion Hb1 as [|? ? Hbb Hb2]; subst.
  cbn [decode_guid encode_guid].
  rewrite combine_first_eq, !get_base64_bit_eq, (encode_decode_chunks l 5) by auto.
  change (2 ^ (1 * 6)) with 64. change (2 ^ (0 * 6)) with 1.
  f_equal; [|f_equal]; lia.
Qed.

(** ** The alphabet *)

Lemma find_char_nth c i s :
  forall j, find_char c j s = Some i ->
  j <= i /\ nth (N.to_nat (i - j)) s 0 = c /\ i < j + N.of_nat (length s).
Proof.
  induction s as [|d s IH]; intros j H; [discriminate|]. cbn [find_char] in H.
  destruct (N.eqb_spec c d).
  - injection H as <-. rewrite N.sub_diag. cbn. split; [lia|]. split; [auto|lia].
  - apply IH in H as (H1 & H2 & H3). split; [lia|]. split.
    + replace (N.to_nat (i - j)) with (S (N.to_nat (i - (j + 1)))) by lia. exact H2.
    + cbn [length]. lia.
Qed.

Definition alphabet_check : bool :=
  forallb (fun k => match find_char (nth k alphabet 0) 0 alphabet with
                    | Some j => j =? N.of_nat k
                    | None => false
                    end) (seq 0 64).

Lemma alphabet_index i : i < 64 -> find_char (nth (N.to_nat i) alphabet 0) 0 alphabet = Some i.
Proof.
  intro Hi. assert (Hc : alphabet_check = true) by (vm_compute; reflexivity).
  unfold alphabet_check in Hc. rewrite forallb_forall in Hc.
  specialize (Hc (N.to_nat i)). cbv beta in Hc.
  destruct (find_char (nth (N.to_nat i) alphabet 0) 0 alphabet) as [j|].
  - f_equal. assert (j =? N.of_nat (N.to_nat i) = true); [|lia].
    apply Hc. apply in_seq. lia.
  - assert (false = true); [|discriminate]. apply Hc. apply in_seq. lia.
Qed.

Lemma positions_chars l :
  digits64 l -> guid_positions (map (fun i => nth (N.to_nat i) alphabet 0) l) = l.
Proof.
  induction 1 as [|i l Hi _ IH]; auto. cbn [map]. unfold guid_positions in *. cbn [flat_map].
  now rewrite alphabet_index, IH by auto.
Qed.

Lemma chars_in_alphabet l :
  digits64 l -> forallb in_alphabet (map (fun i => nth (N.to_nat i) alphabet 0) l) = true.
Proof.
  induction 1 as [|i l Hi _ IH]; auto. cbn [map forallb]. rewrite IH. unfold in_alphabet.
  now rewrite alphabet_index.
Qed.

Lemma positions_digits s : digits64 (guid_positions s).
Proof.
  induction s as [|c s IH]; [constructor|]. unfold guid_positions in *. cbn [flat_map].
  destruct (find_char c 0 alphabet) as [i|] eqn:E; auto. cbn [app]. constructor; auto.
  apply find_char_nth in E as (_ & _ & E). cbn in E. lia.
Qed.

Lemma chars_positions s :
  forallb in_alphabet s = true ->
  map (fun i => nth (N.to_nat i) alphabet 0) (guid_positions s) = s.
Proof.
  induction s as [|c s IH]; auto. cbn [forallb]. intro H. apply andb_true_iff in H as [Hc Hs].
  unfold guid_positions in *. cbn [flat_map]. unfold in_alphabet in Hc.
  destruct (find_char c 0 alphabet) as [i|] eqn:E; [|discriminate].
  cbn [app map]. rewrite IH by auto. f_equal.
  apply find_char_nth in E as (_ & E & _). now rewrite N.sub_0_r in E.
Qed.

Lemma positions_length s : forallb in_alphabet s = true -> length (guid_positions s) = length s.
Proof.
  intro H. rewrite <- (chars_positions s H) at 2. now rewrite map_length.
Qed.

Lemma take_exactly_app f a r :
  forallb f a = true -> take_exactly (length a) f (a ++ r) = ROk a r.
Proof.
  induction a as [|c a IH]; intro H; auto. cbn [forallb] in H.
  apply andb_true_iff in H as [Hc Ha]. cbn [length take_exactly app]. rewrite Hc.
  unfold pmap. now rewrite IH.
Qed.

Lemma take_exactly_ok n f s a r :
  take_exactly n f s = ROk a r -> s = a ++ r /\ length a = n /\ forallb f a = true.
Proof.
  revert s a r. induction n as [|n IH]; intros s a r; cbn [take_exactly].
  - intro H; inversion H; subst; auto.
  - destruct s as [|c s]; [discriminate|]. destruct (f c) eqn:Hc; [|discriminate].
    unfold pmap. destruct (take_exactly n f s) as [b r'| | |] eqn:E; try discriminate.
    intro H; inversion H; subst. apply IH in E as (-> & <- & Hf).
    cbn [app length forallb]. rewrite Hc. auto.
Qed.

Lemma take_exactly_cases n f s :
  (exists a r, take_exactly n f s = ROk a r) \/ take_exactly n f s = RBack.
Proof.
  revert s. induction n as [|n IH]; intro s; cbn [take_exactly]; [eauto|].
  destruct s as [|c s]; auto. destruct (f c); auto. unfold pmap.
  destruct (IH s) as [(a & r & ->)| ->]; eauto.
Qed.

(** ** Reading and printing *)

Definition wf_guid (g : list N) : Prop := length g = 16%nat /\ bytes g.

Lemma p_guid_show g r : wf_guid g -> p_guid (d_guid g ++ r) = ROk g r.
Proof.
  intros [Hl Hb]. unfold p_guid, d_guid, bind. rewrite <- !app_assoc, tag_app.
  unfold pmap_unwrap.
  assert (Hlen : length (guid_chars g) = 22%nat).
  { unfold guid_chars. rewrite map_length. now apply encode_guid_length. }
  rewrite <- Hlen, take_exactly_app.
  - unfold guid_chars. rewrite positions_chars by apply encode_guid_digits.
    cbv zeta. rewrite decode_encode_guid, Hl by auto. cbn [Nat.eqb].
    now rewrite tag_app.
  - apply chars_in_alphabet, encode_guid_digits.
Qed.

Lemma p_guid_inv s g r :
  p_guid s = ROk g r ->
  exists w, s = lit "'" ++ w ++ lit "'" ++ r /\ length w = 22%nat /\
            forallb in_alphabet w = true /\ g = decode_guid (guid_positions w) /\ wf_guid g.
Proof.
  unfold p_guid, bind. destruct (tag (lit "'") s) as [u r1| | |] eqn:E1; try discriminate.
  apply tag_ok in E1. subst. unfold pmap_unwrap.
  destruct (take_exactly 22 in_alphabet r1) as [w r2| | |] eqn:E2; try discriminate.
  apply take_exactly_ok in E2 as (-> & Hl & Hf). cbv zeta.
  rewrite decode_guid_length by (rewrite positions_length; auto). cbn [Nat.eqb].
  destruct (tag (lit "'") r2) as [u2 r3| | |] eqn:E3; try discriminate.
  apply tag_ok in E3. subst. intro H; inversion H; subst.
  exists w. repeat split; auto.
  - apply decode_guid_length. now rewrite positions_length.
  - apply decode_guid_bytes.
Qed.

(** Reading a guid never panics. *)
Lemma p_guid_no_panic s : p_guid s <> RPanic.
Proof.
  unfold p_guid, bind. destruct (tag_cases (lit "'") s) as [(r & _ & ->)| ->]; [|discriminate].
  unfold pmap_unwrap.
  destruct (take_exactly_cases 22 in_alphabet r) as [(w & r2 & E)|E]; rewrite E; [|discriminate].
  apply take_exactly_ok in E as (-> & Hl & Hf). cbv zeta.
  rewrite decode_guid_length by (rewrite positions_length; auto). cbn [Nat.eqb].
  destruct (tag_cases (lit "'") r2) as [(r3 & _ & ->)| ->]; discriminate.
Qed.

(** Printing what was read: the text itself, with the first character reduced. *)
Lemma d_guid_p_guid c w r :
  length (c :: w) = 22%nat -> forallb in_alphabet (c :: w) = true ->
  exists g, p_guid (lit "'" ++ (c :: w) ++ lit "'" ++ r) = ROk g r /\
    d_guid g = lit "'" ++ (nth (N.to_nat (hd 0 (guid_positions [c]) mod 4)) alphabet 0 :: w) ++ lit "'".
Proof.
  intros Hl Hf. exists (decode_guid (guid_positions (c :: w))). split.
  - unfold p_guid, bind. rewrite tag_app. unfold pmap_unwrap.
    rewrite <- Hl at 1. rewrite take_exactly_app by auto. cbv zeta.
    rewrite decode_guid_length by (rewrite positions_length; auto). cbn [Nat.eqb].
    now rewrite tag_app.
  - unfold d_guid, guid_chars. f_equal. f_equal.
    pose proof (positions_length _ Hf) as Hp. pose proof (positions_digits (c :: w)) as Hd.
    cbn [forallb] in Hf. apply andb_true_iff in Hf as [Hc Hw].
    unfold in_alphabet in Hc.
    unfold guid_positions in *. cbn [flat_map] in *.
    destruct (find_char c 0 alphabet) as [i|] eqn:E; [|discriminate]. cbn [app] in *.
    rewrite encode_decode_guid by (auto; congruence).
    cbn [map hd]. f_equal. now apply chars_positions.
Qed.

(** ** Which literals are printed back unchanged *)

Lemma alphabet_first c :
  In c alphabet ->
  (nth (N.to_nat (hd 0 (guid_positions [c]) mod 4)) alphabet 0 = c <-> In c (lit "0123")).
Proof.
  assert (H : forallb (fun c =>
     Bool.eqb (nth (N.to_nat (hd 0 (guid_positions [c]) mod 4)) alphabet 0 =? c)
              (existsb (N.eqb c) (lit "0123"))) alphabet = true) by (vm_compute; reflexivity).
  rewrite forallb_forall in H. intro Hc. specialize (H c Hc).
  apply eqb_prop in H. rewrite <- N.eqb_eq, H, existsb_exists. split.
  - intros (x & Hx & E). apply N.eqb_eq in E. now subst.
  - intro Hi. exists c. split; auto. apply N.eqb_refl.
Qed.

Lemma guid_literal_same c w r :
  length (c :: w) = 22%nat -> (forall x, In x (c :: w) -> In x alphabet) ->
  exists g, p_guid (lit "'" ++ (c :: w) ++ lit "'" ++ r) = ROk g r /\
            (d_guid g = lit "'" ++ (c :: w) ++ lit "'" <-> In c (lit "0123")).
Proof.
  intros Hl Ha.
  assert (Hf : forallb in_alphabet (c :: w) = true).
  { apply forallb_forall. intros x Hx. specialize (Ha x Hx).
    assert (H : forallb in_alphabet alphabet = true) by (vm_compute; reflexivity).
    rewrite forallb_forall in H. auto. }
  destruct (d_guid_p_guid c w r Hl Hf) as (g & Hp & Hd). exists g. split; auto.
  rewrite <- (alphabet_first c) by (apply Ha; now left). rewrite Hd. split.
  - intro H. apply app_inv_head in H. apply app_inv_tail in H. now injection H.
  - now intros ->.
Qed.

Lemma d_guid_inj g h : wf_guid g -> wf_guid h -> d_guid g = d_guid h -> g = h.
Proof.
  intros Hg Hh E. pose proof (p_guid_show g [] Hg) as H1. pose proof (p_guid_show h [] Hh) as H2.
  rewrite E, H2 in H1. now injection H1.
Qed.

Lemma d_guid_shape g :
  wf_guid g ->
  exists w, d_guid g = lit "'" ++ w ++ lit "'" /\ length w = 22%nat /\
            forall c, In c w -> In c alphabet.
Proof.
  intros (Hl & Hb). exists (guid_chars g). split; [reflexivity|]. split.
  - unfold guid_chars. now rewrite map_length, encode_guid_length.
  - intros c Hc. unfold guid_chars in Hc. apply in_map_iff in Hc as (i & <- & Hi).
    apply nth_In. pose proof (encode_guid_digits g) as Hd.
    unfold digits64 in Hd. rewrite Forall_forall in Hd. specialize (Hd i Hi).
    change (length alphabet) with 64%nat. lia.
Qed.
