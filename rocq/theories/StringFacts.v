(** Facts about the text encoding of Prims.v (string.rs). *)

From Coq Require Import String Ascii List NArith ZArith Bool Lia Arith.
From Verif Require Import Base BaseFacts Spec Prims PrimsFacts.
Import ListNotations.
Open Scope N_scope.

(** ** Replacement *)

Lemma replace_go_skip from to k s :
  replace_go from to k s = replace_go from to 0 (skipn k s).
Proof.
  revert k. induction s as [|c s IH]; intros k.
  - now rewrite skipn_nil.
  - destruct k; auto. cbn [replace_go skipn]. apply IH.
Qed.

Lemma replace_hit from to r :
  from <> [] -> replace from to (from ++ r) = to ++ replace from to r.
Proof.
  intro Hne. destruct from as [|c from]; [congruence|]. unfold replace.
  cbn [app replace_go].
  change (c :: from ++ r) with ((c :: from) ++ r). rewrite strip_prefix_app.
  f_equal. rewrite replace_go_skip. cbn [length pred].
  rewrite skipn_app, skipn_all, Nat.sub_diag. reflexivity.
Qed.

Lemma replace_miss from to c r :
  strip_prefix from (c :: r) = None -> replace from to (c :: r) = c :: replace from to r.
Proof. intro H. unfold replace. cbn [replace_go]. now rewrite H. Qed.

Lemma replace_nil from to : replace from to [] = [].
Proof. reflexivity. Qed.

(** Replacing a part by one with the same image does not change the image under
    a concatenation-preserving function. *)
Lemma replace_hom {B} (h : text -> list B) from to s :
  h [] = [] -> (forall a b, h (a ++ b) = h a ++ h b) -> h from = h to -> from <> [] ->
  h (replace from to s) = h s.
Proof.
  intros Hnil Happ Heq Hne. remember (length s) as n eqn:Hn. revert s Hn.
  induction n as [n IH] using lt_wf_ind. intros s ->.
  destruct s as [|c r]; [now rewrite replace_nil|].
  destruct (strip_prefix from (c :: r)) as [r'|] eqn:E.
  - apply strip_prefix_Some in E. rewrite E, replace_hit, !Happ, Heq by auto. f_equal.
    eapply IH; [|reflexivity]. rewrite E, app_length.
    destruct from; [congruence|]. cbn [length]. lia.
  - rewrite replace_miss by auto. change (c :: replace from to r) with ([c] ++ replace from to r).
    change (c :: r) with ([c] ++ r). rewrite !Happ. f_equal.
    eapply IH; [|reflexivity]. cbn [length]. lia.
Qed.

(** Replacing one character. *)
Definition subst_char (u : N) (e : text) (s : text) : text :=
  flat_map (fun c => if u =? c then e else [c]) s.

Lemma replace_char u e s : replace [u] e s = subst_char u e s.
Proof.
  induction s as [|c s IH]; auto. unfold subst_char in *. cbn [flat_map].
  destruct (N.eqb_spec u c).
  - subst. change (c :: s) with ([c] ++ s). rewrite replace_hit by discriminate.
    now rewrite IH.
  - rewrite replace_miss. now rewrite IH.
    cbn [strip_prefix]. destruct (N.eqb_spec u c); congruence.
Qed.

(** ** Encoding character by character *)

Definition enc_char (m : list (N * text)) (c : N) : text :=
  match find (fun ue => fst ue =? c) m with
  | Some ue => snd ue
  | None => [c]
  end.

Definition enc (m : list (N * text)) (s : text) : text := flat_map (enc_char m) s.

Lemma enc_app m a b : enc m (a ++ b) = enc m a ++ enc m b.
Proof. apply flat_map_app. Qed.

Lemma enc_nil m : enc m [] = [].
Proof. reflexivity. Qed.

Lemma enc_cons m c s : enc m (c :: s) = enc_char m c ++ enc m s.
Proof. reflexivity. Qed.

Lemma translate_encode_app a b :
  translate_encode (a ++ b) = translate_encode a ++ translate_encode b.
Proof.
  unfold translate_encode. generalize umlaut_map. intro m. revert a b.
  induction m as [|[u e] m IH]; intros a b; cbn [fold_left]; auto.
  rewrite !replace_char. unfold subst_char at 1. rewrite flat_map_app. apply IH.
Qed.

Lemma umlaut_cases c :
  c = 196 \/ c = 228 \/ c = 214 \/ c = 246 \/ c = 220 \/ c = 252 \/ c = 223 \/
  (c <> 196 /\ c <> 228 /\ c <> 214 /\ c <> 246 /\ c <> 220 /\ c <> 252 /\ c <> 223).
Proof. lia. Qed.

Lemma translate_encode_char c : translate_encode [c] = enc_char umlaut_map c.
Proof.
  destruct (umlaut_cases c) as [->|[->|[->|[->|[->|[->|[->|H]]]]]]]; try reflexivity.
  unfold translate_encode, umlaut_map, enc_char, replace.
  cbn [fold_left fst snd find].
  Ltac kill c := repeat match goal with
    | |- context [?n =? c] => destruct (N.eqb_spec n c); [lia|]
    end.
  kill c.
  assert (Hm : forall u e, u <> c -> replace_go [u] e 0 [c] = [c]).
  { intros u e Hu. cbn [replace_go strip_prefix].
    destruct (N.eqb_spec u c); [congruence|reflexivity]. }
  rewrite !Hm by lia. reflexivity.
Qed.

Lemma translate_encode_enc s : translate_encode s = enc umlaut_map s.
Proof.
  induction s as [|c s IH]; auto.
  change (c :: s) with ([c] ++ s). rewrite translate_encode_app, IH, enc_app.
  f_equal. rewrite translate_encode_char. unfold enc. cbn [flat_map]. now rewrite app_nil_r.
Qed.

(** The seven letters. *)
Definition special (c : N) : Prop := In c (map fst umlaut_map).

Lemma enc_char_plain m c : ~ In c (map fst m) -> enc_char m c = [c].
Proof.
  intro H. unfold enc_char. destruct (find _ m) as [ue|] eqn:E; auto.
  apply find_some in E as [Hin Heq]. apply N.eqb_eq in Heq. exfalso. apply H.
  apply in_map_iff. eauto.
Qed.

Lemma enc_plain m s : (forall c, In c s -> ~ In c (map fst m)) -> enc m s = s.
Proof.
  induction s as [|c s IH]; intro H; auto. rewrite enc_cons.
  rewrite enc_char_plain by (apply H; now left). cbn [app]. f_equal.
  apply IH. intros d Hd. apply H. now right.
Qed.

Lemma encode_plain s : (forall c, In c s -> ~ special c) -> translate_encode s = s.
Proof. intro H. rewrite translate_encode_enc. apply enc_plain. exact H. Qed.

(** Encoding forgets decoding: every text and its decoded form are written the
    same way. *)
Lemma encode_decode s : translate_encode (translate_decode s) = translate_encode s.
Proof.
  unfold translate_decode. rewrite translate_encode_enc.
  assert (H : forall m v,
    incl m umlaut_map ->
    enc umlaut_map (fold_left (fun v ue => replace (snd ue) [fst ue] v) m v) = enc umlaut_map v).
  { induction m as [|[u e] m IH]; intros v Hm; auto. cbn [fold_left fst snd].
    rewrite IH by (intros x Hx; apply Hm; now right).
    assert (Hin : In (u, e) umlaut_map) by (apply Hm; now left).
    apply replace_hom.
    - reflexivity.
    - apply enc_app.
    - clear -Hin. repeat (destruct Hin as [Hin|Hin]; [injection Hin as <- <-; reflexivity|]).
      destruct Hin.
    - clear -Hin. repeat (destruct Hin as [Hin|Hin]; [injection Hin as <- <-; discriminate|]).
      destruct Hin. }
  rewrite H by apply incl_refl. now rewrite translate_encode_enc.
Qed.

(** No letter remains after encoding. *)
Lemma encode_no_special s c : In c (translate_encode s) -> ~ special c.
Proof.
  rewrite translate_encode_enc. unfold enc. rewrite in_flat_map.
  intros (d & _ & Hc) Hs. unfold enc_char in Hc.
  destruct (find (fun ue => fst ue =? d) umlaut_map) as [ue|] eqn:E.
  - apply find_some in E as [Hin _].
    assert (Hb : forallb (fun p => forallb (fun x => negb (existsb (N.eqb x) (map fst umlaut_map)))
                                     (snd p)) umlaut_map = true) by (vm_compute; reflexivity).
    rewrite forallb_forall in Hb. specialize (Hb _ Hin). rewrite forallb_forall in Hb.
    specialize (Hb _ Hc). apply negb_true_iff in Hb.
    assert (existsb (N.eqb c) (map fst umlaut_map) = true); [|congruence].
    apply existsb_exists. exists c. split; auto. apply N.eqb_refl.
  - destruct Hc as [->|[]]. apply in_map_iff in Hs as (ue & Hf & Hin).
    assert (In ue umlaut_map) by auto.
    pose proof (find_none _ _ E _ H) as Hn. cbv beta in Hn. rewrite Hf, N.eqb_refl in Hn.
    discriminate.
Qed.

Lemma encode_encode s : translate_encode (translate_encode s) = translate_encode s.
Proof. apply encode_plain. intros c. apply encode_no_special. Qed.

(** Printing again after reading what was printed gives the same text. *)
Lemma encode_stable s :
  translate_encode (translate_decode (translate_encode s)) = translate_encode s.
Proof. now rewrite encode_decode, encode_encode. Qed.

(** Encoding neither adds nor removes a character outside the letters and the
    escape sequences; in particular no apostrophe. *)
Lemma encode_apostrophe s : In 39 (translate_encode s) <-> In 39 s.
Proof.
  rewrite translate_encode_enc. unfold enc. rewrite in_flat_map. split.
  - intros (d & Hd & Hc). unfold enc_char in Hc.
    destruct (find (fun ue => fst ue =? d) umlaut_map) as [ue|] eqn:E.
    + apply find_some in E as [Hin _]. exfalso.
      assert (Hb : forallb (fun p => negb (existsb (N.eqb 39) (snd p))) umlaut_map = true)
        by (vm_compute; reflexivity).
      rewrite forallb_forall in Hb. specialize (Hb _ Hin). apply negb_true_iff in Hb.
      assert (Ht : existsb (N.eqb 39) (snd ue) = true)
        by (apply existsb_exists; exists 39; split; auto).
 rewrite Ht in Hb. discriminate.
    + destruct Hc as [->|[]]. auto.
  - intro H. exists 39. split; auto. now left.
Qed.

Lemma decode_apostrophe s : ~ In 39 s -> ~ In 39 (translate_decode s).
Proof.
  intros H Hd. apply H. rewrite <- encode_apostrophe. rewrite <- encode_decode.
  now rewrite encode_apostrophe.
Qed.

(** ** Decoding what was encoded *)

(** The characters of [X2\0], the beginning of an escape after its backslash. *)
Definition escape_lead : text := lit "X2\0".

(** In an encoded text, the lead of an escape can only come from the original. *)
Lemma no_lead m s t :
  incl m umlaut_map ->
  ~ occurs escape_lead s ->
  strip_prefix (escape_lead ++ t) (enc m s) = None.
Proof.
  intros Hm Hs.
  assert (Hc : forall c, (exists e, enc_char m c = 92 :: 88 :: e) \/ enc_char m c = [c]).
  { intro c. unfold enc_char. destruct (find (fun ue => fst ue =? c) m) as [ue|] eqn:E; auto.
    apply find_some in E as [Hin _]. apply Hm in Hin. left.
    repeat (destruct Hin as [Hin|Hin]; [subst; eexists; reflexivity|]). destruct Hin. }
  change (escape_lead ++ t) with (88 :: 50 :: 92 :: 48 :: t).
  destruct s as [|c1 s]; [reflexivity|]. rewrite enc_cons.
  destruct (Hc c1) as [[e ->]| ->]; [reflexivity|]. cbn [app strip_prefix].
  destruct (N.eqb_spec 88 c1); [subst|reflexivity].
  destruct s as [|c2 s]; [reflexivity|]. rewrite enc_cons.
  destruct (Hc c2) as [[e ->]| ->]; [reflexivity|]. cbn [app strip_prefix].
  destruct (N.eqb_spec 50 c2); [subst|reflexivity].
  destruct s as [|c3 s]; [reflexivity|]. rewrite enc_cons.
  destruct (Hc c3) as [[e ->]| ->]; [reflexivity|]. cbn [app strip_prefix].
  destruct (N.eqb_spec 92 c3); [subst|reflexivity].
  destruct s as [|c4 s]; [reflexivity|]. rewrite enc_cons.
  destruct (Hc c4) as [[e ->]| ->]; [reflexivity|]. cbn [app strip_prefix].
  destruct (N.eqb_spec 48 c4); [subst|reflexivity].
  exfalso. apply Hs. exists [], s. reflexivity.
Qed.

Lemma occurs_tail t c s : ~ occurs t (c :: s) -> ~ occurs t s.
Proof.
  intros H (a & b & E). apply H. exists (c :: a), b. cbn [app]. now rewrite E.
Qed.

(** Passing over an escape of another letter. *)
Lemma replace_over (e e' : text) u t :
  In e (map snd umlaut_map) -> In e' (map snd umlaut_map) -> e <> e' ->
  strip_prefix (tl e) t = None ->
  replace e u (e' ++ t) = e' ++ replace e u t.
Proof.
  intros He He' Hne Ht.
  repeat (destruct He as [He|He];
    [ subst e; repeat (destruct He' as [He'|He'];
        [ subst e'; try congruence;
          match goal with |- replace ?e _ (?e' ++ _) = _ =>
            let x := eval vm_compute in e in let y := eval vm_compute in e' in
            change e with x in *; change e' with y in * end;
          cbn [tl] in Ht; cbn [app];
          repeat (rewrite replace_miss;
            [| cbn [strip_prefix];
               repeat match goal with
                      | |- context [?a =? ?b] =>
                          let v := eval vm_compute in (a =? b) in change (a =? b) with v
                      end; cbv iota; try reflexivity; exact Ht ]);
          reflexivity |]);
      destruct He' |]).
  destruct He.
Qed.

Lemma escape_inj p q :
  In p umlaut_map -> In q umlaut_map -> snd p = snd q -> fst p = fst q.
Proof.
  intros Hp Hq E.
  assert (Hb : forallb (fun p => forallb (fun q =>
             if list_eq_dec N.eq_dec (snd p) (snd q) then fst p =? fst q else true)
             umlaut_map) umlaut_map = true) by (vm_compute; reflexivity).
  rewrite forallb_forall in Hb. specialize (Hb _ Hp). rewrite forallb_forall in Hb.
  specialize (Hb _ Hq). cbv beta in Hb.
  destruct (list_eq_dec N.eq_dec (snd p) (snd q)); [|contradiction].
  apply N.eqb_eq. exact Hb.
Qed.

Lemma decode_step u e m s :
  incl ((u, e) :: m) umlaut_map ->
  NoDup (map fst ((u, e) :: m)) ->
  ~ occurs escape_lead s ->
  replace e [u] (enc ((u, e) :: m) s) = enc m s.
Proof.
  intros Hm Hnd Hs. induction s as [|c s IH]; auto.
  assert (Hin : In (u, e) umlaut_map) by (apply Hm; now left).
  assert (He : In e (map snd umlaut_map)) by (apply in_map_iff; exists (u, e); auto).
  assert (Hlead : exists t, e = 92 :: escape_lead ++ t).
  { clear -He. repeat (destruct He as [He|He]; [subst; eexists; reflexivity|]). destruct He. }
  destruct Hlead as [t Ht].
  pose proof (occurs_tail _ _ _ Hs) as Hs'. specialize (IH Hs').
  assert (Hnone : strip_prefix (tl e) (enc ((u, e) :: m) s) = None).
  { rewrite Ht at 1. cbn [tl]. now apply no_lead. }
  rewrite !enc_cons. unfold enc_char at 1. cbn [find fst snd].
  destruct (N.eqb_spec u c).
  - subst c. rewrite replace_hit by (cbn [snd]; rewrite Ht; discriminate). cbn [snd]; rewrite IH. f_equal.
    inversion Hnd; subst. symmetry. now apply enc_char_plain.
  - fold (enc_char m c).
    destruct (in_dec N.eq_dec c (map fst m)) as [Hcm|Hcm].
    + assert (Hc : exists e', enc_char m c = e' /\ In (c, e') m).
      { unfold enc_char. destruct (find (fun ue => fst ue =? c) m) as [[c' e']|] eqn:E.
        - apply find_some in E as [Hin' Heq]. cbn [fst snd] in *. apply N.eqb_eq in Heq. subst. eauto.
        - exfalso. apply in_map_iff in Hcm as (ue & Hf & Hin').
          pose proof (find_none _ _ E _ Hin') as Hx. cbn in Hx. apply N.eqb_neq in Hx. congruence. }
      destruct Hc as (e' & Heq & Hin'). rewrite Heq.
      assert (Hin2 : In (c, e') umlaut_map) by (apply Hm; now right).
      assert (He' : In e' (map snd umlaut_map)) by (apply in_map_iff; exists (c, e'); auto).
      assert (Hne : e <> e').
      { intro Hee. apply n. exact (escape_inj (u, e) (c, e') Hin Hin2 Hee). }
      rewrite replace_over by auto. now rewrite IH.
    + rewrite enc_char_plain by auto. cbn [app]. rewrite replace_miss.
      * now rewrite IH.
      * rewrite Ht at 1. cbn [strip_prefix]. destruct (N.eqb_spec 92 c); auto.
        rewrite Ht in Hnone at 1. exact Hnone.
Qed.

(** Decoding inverts encoding for every text that does not contain [X2\0]. *)
Lemma decode_encode s : ~ occurs escape_lead s -> translate_decode (translate_encode s) = s.
Proof.
  intro Hs. rewrite translate_encode_enc. unfold translate_decode.
  assert (H : forall m, incl m umlaut_map -> NoDup (map fst m) ->
     fold_left (fun v ue => replace (snd ue) [fst ue] v) m (enc m s) = s).
  { induction m as [|[u e] m IH]; intros Hm Hnd; cbn [fold_left fst snd].
    - apply enc_plain. auto.
    - rewrite decode_step by auto. apply IH.
      + intros x Hx. apply Hm. now right.
      + now inversion Hnd. }
  apply H.
  - apply incl_refl.
  - repeat constructor; cbn; intuition discriminate.
Qed.

Lemma no_backslash_no_lead s : ~ In 92 s -> ~ occurs escape_lead s.
Proof.
  intros H (a & b & ->). apply H. apply in_or_app. right. apply in_or_app. left.
  unfold escape_lead. vm_compute. auto.
Qed.

(** Reading a printed text. *)
Lemma p_string_d_string s r :
  ~ In 39 s -> p_string (d_string s ++ r) = ROk (translate_decode (translate_encode s)) r.
Proof.
  intro H. unfold p_string, d_string, pmap. rewrite <- !app_assoc, quote_word_app; auto.
  now rewrite encode_apostrophe.
Qed.

Lemma p_string_no_apostrophe t s r : p_string t = ROk s r -> ~ In 39 s.
Proof.
  unfold p_string, pmap. destruct (p_quote_word t) as [w r'| | |] eqn:E; try discriminate.
  apply quote_word_inv in E as [_ Hw]. intro H; inversion H; subst.
  now apply decode_apostrophe.
Qed.

(** ** Literals *)

Lemma d_string_quoted w s r :
  p_string (lit "'" ++ w ++ lit "'" ++ r) = ROk s r -> ~ In 39 w ->
  (forall c, In c w -> ~ special c) -> d_string s = lit "'" ++ w ++ lit "'".
Proof.
  intros H Hq Hs. unfold p_string, pmap in H. rewrite quote_word_app in H by auto.
  injection H as <-. unfold d_string. rewrite encode_decode, encode_plain by auto. reflexivity.
Qed.

Lemma p_string_quoted w r :
  ~ In 39 w -> p_string (lit "'" ++ w ++ lit "'" ++ r) = ROk (translate_decode w) r.
Proof. intro H. unfold p_string, pmap. now rewrite quote_word_app. Qed.

Lemma apostrophe_lost s r r' : In 39 s -> p_string (d_string s ++ r) <> ROk s r'.
Proof. intros H E. now apply p_string_no_apostrophe in E. Qed.
