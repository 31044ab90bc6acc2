(** The rows of the schema are the declarations of the structs. *)

From Coq Require Import String Ascii List NArith ZArith Bool Lia ZifyBool ZifyNat ZifyN.
From Verif Require Import Base Prims Spec Guid Float FloatFacts Kind Types TypesFacts TypesFacts2 WellTyped Schema Entity EntitySpec
  HeaderSpec EntityFacts BaseFacts DataMap Header File FileSpec SectionFacts FileFacts NameSpec NameFacts DeclSpec.
Import ListNotations.
Open Scope N_scope.

(** ** Attributes *)

Fixpoint flat (fuel : nat) (b : bool) (fs : list field) {struct fuel} : option (list attr) :=
  match fuel with
  | O => None
  | S fuel' =>
      (fix go (fs : list field) : option (list attr) :=
         match fs with
         | [] => Some []
         | f :: fs' =>
             match go fs' with
             | None => None
             | Some l' =>
                 match f_type f with
                 | T s =>
                     match declared s with
                     | Some ds =>
                         match flat fuel' (b && f_inherited f) ds with
                         | Some l => Some (l ++ l')
                         | None => None
                         end
                     | None => Some (mk_attr (f_name f) b (f_targets f) (f_type f) :: l')
                     end
                 | _ => Some (mk_attr (f_name f) b (f_targets f) (f_type f) :: l')
                 end
             end
         end) fs
  end.

Lemma flat_sound fuel b fs a : flat fuel b fs = Some a -> flattened b fs a.
Proof.
  revert b fs a. induction fuel as [|fuel IH]; intros b fs a H; [discriminate|]. revert a H.
  induction fs as [|f fs IHfs]; intros a H; cbn [flat] in H.
  - injection H as <-. constructor.
  - change ((fix go (fs : list field) : option (list attr) :=
         match fs with
         | [] => Some []
         | f :: fs' =>
             match go fs' with
             | None => None
             | Some l' =>
                 match f_type f with
                 | T s =>
                     match declared s with
                     | Some ds =>
                         match flat fuel (b && f_inherited f) ds with
                         | Some l => Some (l ++ l')
                         | None => None
                         end
                     | None => Some (mk_attr (f_name f) b (f_targets f) (f_type f) :: l')
                     end
                 | _ => Some (mk_attr (f_name f) b (f_targets f) (f_type f) :: l')
                 end
             end
         end) fs) with (flat (S fuel) b fs) in H.
    destruct (flat (S fuel) b fs) as [l'|]; [|discriminate]. specialize (IHfs l' eq_refl).
    destruct (f_type f) as [s|c t] eqn:E.
    + destruct (declared s) as [ds|] eqn:D.
      * destruct (flat fuel (b && f_inherited f) ds) as [l|] eqn:F; [|discriminate]. injection H as <-.
        eapply flat_embedded; eauto.
      * injection H as <-. rewrite <- E. constructor; auto. intros s' Hs. rewrite E in Hs. now injection Hs as <-.
    + injection H as <-. rewrite <- E. constructor; auto. intros s' Hs. rewrite E in Hs. discriminate.
Qed.

Lemma flattened_fun b fs a : flattened b fs a -> forall a', flattened b fs a' -> a = a'.
Proof.
  induction 1 as [b|b f fs l Hn H IH|b f s ds fs l l' Ht Hd H1 IH1 H2 IH2]; intros a' H'; inversion H'; subst; auto.
  - f_equal. auto.
  - exfalso. match goal with X : declared ?s = Some _, Y : f_type f = T ?s |- _ => rewrite (Hn s Y) in X; discriminate end.
  - exfalso. match goal with X : forall s, f_type f = T s -> _ |- _ => rewrite (X s Ht) in Hd; discriminate end.
  - match goal with X : f_type f = T ?s0, Y : declared ?s0 = Some ?d |- _ =>
      rewrite Ht in X; injection X as <-; rewrite Hd in Y; injection Y as <- end.
    f_equal; auto.
Qed.

Definition attrs_named (s : string) : option (list attr) :=
  match declared s with Some fs => flat 9 true fs | None => None end.
Lemma attrs_named_sound s a : attrs_named s = Some a -> attributes_of s a.
Proof.
  unfold attrs_named. destruct (declared s) as [fs|] eqn:E; [|discriminate]. intro H. exists fs. split; auto.
  eapply flat_sound; eauto.
Qed.
Lemma attributes_fun s a a' : attributes_of s a -> attributes_of s a' -> a = a'.
Proof. intros (fs & H & F) (fs' & H' & F'). rewrite H in H'. injection H' as <-. eapply flattened_fun; eauto. Qed.

(** ** Types *)

Definition kind_named (s : string) : option kind :=
  option_map fst (find (fun q => String.eqb s (snd q)) structs).

Definition simple : list (string * fty) :=
  [ ("StringPrimitive", TStr); ("RealPrimitive", TReal); ("IntegerPrimitive", TInt); ("ExponentType", TI32)
  ; ("BoolPrimitive", TBool); ("IfcGloballyUniqueId", TGuid); ("IfcTimestamp", TTime); ("DimensionCount", TDim)
  ; ("IfcDVec2", TVec2); ("IfcDVec3", TVec3); ("IfcValue", TValue) ]%string.

Fixpoint all {A B} (f : A -> option B) (l : list A) : option (list B) :=
  match l with
  | [] => Some []
  | x :: l' => match f x, all f l' with Some y, Some ys => Some (y :: ys) | _, _ => None end
  end.

Definition den_name (chk : bool) (tg : list kind) (s : string) : option fty :=
  if String.eqb s "Id" then Some (TRef tg (match tg with [] => false | _ => chk end))
  else match find (fun q => String.eqb s (fst q)) simple with
       | Some q => Some (snd q)
       | None => option_map (fun vs => TEnum (map (fun q => lit (snd q)) vs)) (enum_named s)
       end.

Fixpoint den (fuel : nat) (chk : bool) (tg : list kind) (t : rust) {struct fuel} : option fty :=
  match fuel with
  | O => None
  | S fuel' =>
      match t with
      | T s => den_name chk tg s
      | G c t' =>
          if String.eqb c "OptionalParameter" then option_map TOpt (den fuel' chk tg t')
          else if String.eqb c "IfcList" then option_map TList (den fuel' chk tg t')
          else match t' with
               | T s =>
                   match kind_named s with
                   | None => None
                   | Some k =>
                       if String.eqb c "TypedId" then Some (TRef [k] chk)
                       else if String.eqb c "IdOr" && chk then
                         match row_of k, attrs_named s with
                         | Some r, Some a =>
                             option_map (fun fs => TIdOr k (row_kws r) (row_ws r) fs (row_closer r))
                               (all (fun at_ => match all kind_named (a_targets at_) with
                                                | Some ks => den fuel' (a_checked at_) ks (a_type at_)
                                                | None => None
                                                end) a)
                         | _, _ => None
                         end
                       else None
                   end
               | _ => None
               end
      end
  end.

Definition den_attr (fuel : nat) (at_ : attr) : option fty :=
  match all kind_named (a_targets at_) with
  | Some ks => den fuel (a_checked at_) ks (a_type at_)
  | None => None
  end.

Lemma kind_named_in s k : kind_named s = Some k -> In (k, s) structs.
Proof.
  unfold kind_named. destruct (find _ structs) as [[k' s']|] eqn:E; [|discriminate]. intro H. injection H as <-.
  apply find_some in E as [E1 E2]. cbn [snd fst] in *. apply String.eqb_eq in E2. now subst.
Qed.

Lemma closers_ok : forallb (fun q => match row_of (fst q) with
    | Some r => text_eqb (row_closer r) (closing (snd q))
    | None => false
    end) structs = true.
Proof. vm_compute. reflexivity. Qed.
Lemma closer_inv k n r : In (k, n) structs -> row_of k = Some r -> row_closer r = closing n.
Proof.
  intros H Hr. pose proof (proj1 (forallb_forall _ _) closers_ok _ H) as E. cbn [fst snd] in E. rewrite Hr in E.
  now apply text_eqb_eq in E.
Qed.

(** Every kind: its row is its declaration. *)
Fixpoint kinds_eqb (a b : list kind) : bool :=
  match a, b with
  | [], [] => true
  | x :: a', y :: b' => kind_eqb x y && kinds_eqb a' b'
  | _, _ => false
  end.
Fixpoint fty_eqb (a b : fty) {struct a} : bool :=
  match a, b with
  | TStr, TStr | TReal, TReal | TInt, TInt | TI32, TI32 | TBool, TBool | TGuid, TGuid | TTime, TTime
  | TDim, TDim | TVec2, TVec2 | TVec3, TVec3 | TValue, TValue => true
  | TEnum vs, TEnum vs' => texts_eqb vs vs'
  | TRef ks c, TRef ks' c' => kinds_eqb ks ks' && Bool.eqb c c'
  | TIdOr k kws ws fs cl, TIdOr k' kws' ws' fs' cl' =>
      kind_eqb k k' && texts_eqb kws kws' && Bool.eqb ws ws' && text_eqb cl cl' &&
      (fix go (l l' : list fty) : bool :=
         match l, l' with
         | [], [] => true
         | x :: m, y :: m' => fty_eqb x y && go m m'
         | _, _ => false
         end) fs fs'
  | TOpt t, TOpt t' => fty_eqb t t'
  | TList t, TList t' => fty_eqb t t'
  | _, _ => false
  end.
Fixpoint ftys_eqb (l l' : list fty) : bool :=
  match l, l' with
  | [], [] => true
  | x :: m, y :: m' => fty_eqb x y && ftys_eqb m m'
  | _, _ => false
  end.

Lemma kinds_eqb_eq a b : kinds_eqb a b = true -> a = b.
Proof.
  revert b. induction a as [|x a IH]; intros [|y b] H; try discriminate; auto. cbn [kinds_eqb] in H.
  apply andb_true_iff in H as [H1 H2]. apply kind_eqb_eq in H1. f_equal; auto.
Qed.
Lemma fty_eqb_eq a : forall b, fty_eqb a b = true -> a = b.
Proof.
  induction a as [| | | | | | | | | | |vs|ks c|k kws ws fs cl IH|t IH|t IH] using fty_rect'; intros b H; destruct b; try discriminate H; auto;
    cbn [fty_eqb] in H.
  - apply texts_eqb_eq in H. now subst.
  - apply andb_true_iff in H as [H1 H2]. apply kinds_eqb_eq in H1. apply Bool.eqb_prop in H2. now subst.
  - apply andb_true_iff in H as [H H5]. apply andb_true_iff in H as [H H4]. apply andb_true_iff in H as [H H3].
    apply andb_true_iff in H as [H1 H2]. apply kind_eqb_eq in H1. apply texts_eqb_eq in H2. apply Bool.eqb_prop in H3.
    apply text_eqb_eq in H4. subst. f_equal. revert fs0 H5.
    induction IH as [|x m Hx Hm IHm]; intros [|y m'] H; try discriminate; auto.
    apply andb_true_iff in H as [H1 H2]. f_equal; auto.
  - f_equal. auto.
  - f_equal. auto.
Qed.
Lemma ftys_eqb_eq l : forall l', ftys_eqb l l' = true -> l = l'.
Proof.
  induction l as [|x l IH]; intros [|y l'] H; try discriminate; auto. cbn [ftys_eqb] in H.
  apply andb_true_iff in H as [H1 H2]. apply fty_eqb_eq in H1. f_equal; auto.
Qed.

Lemma rows_declared : forallb (fun q => match row_of (fst q), attrs_named (snd q) with
    | Some r, Some a => match all (den_attr 9) a with Some fs => ftys_eqb fs (row_fields r) | None => false end
    | _, _ => false
    end) structs = true.
Proof. vm_compute. reflexivity. Qed.

(** ** Values *)

Ltac no_enum := match goal with X : enum_named _ = Some _ |- _ => solve [vm_compute in X; discriminate X] end.

Lemma id_bound n : (n <=? max_usize) = true <-> n < 2 ^ 64.
Proof. change (2 ^ 64) with 18446744073709551616. unfold max_usize. lia. Qed.
Lemma i64_bound z : in_range i64_min i64_max z = true <-> (- 2 ^ 63 <= z < 2 ^ 63)%Z.
Proof. change (2 ^ 63)%Z with 9223372036854775808%Z. unfold in_range, i64_min, i64_max. lia. Qed.
Lemma i32_bound z : in_range i32_min i32_max z = true <-> (- 2 ^ 31 <= z < 2 ^ 31)%Z.
Proof. change (2 ^ 31)%Z with 2147483648%Z. unfold in_range, i32_min, i32_max. lia. Qed.

Lemma simple_written s f v w :
  In (s, f) simple -> (wt f v = true /\ w = d_ty f v <-> written (T s) v w).
Proof.
  intro H. unfold simple in H. cbn [In] in H.
  repeat (destruct H as [H|H]; [injection H as <- <-|]); [..|contradiction].
  - split; [intros [W ->]; destruct v; try discriminate W; now constructor|intro W; inversion W; subst; try no_enum; auto].
  - split; [intros [W ->]; destruct v; try discriminate W; now constructor|intro W; inversion W; subst; try no_enum; auto].
  - split; [intros [W ->]; destruct v; try discriminate W; constructor; now apply i64_bound
           |intro W; inversion W; subst; try no_enum; split; auto; now apply i64_bound].
  - split; [intros [W ->]; destruct v; try discriminate W; constructor; now apply i32_bound
           |intro W; inversion W; subst; try no_enum; split; auto; now apply i32_bound].
  - split; [intros [W ->]; destruct v; try discriminate W; now constructor|intro W; inversion W; subst; try no_enum; auto].
  - split; [intros [W ->]; destruct v; try discriminate W; now constructor|intro W; inversion W; subst; try no_enum; auto].
  - split; [intros [W ->]; destruct v; try discriminate W; now constructor|intro W; inversion W; subst; try no_enum; auto].
  - assert (D : forall i, (i < 3)%nat -> d_enum dim_variants i = [49 + N.of_nat i]).
    { intros i Hi. destruct i as [|[|[|i]]]; try reflexivity. lia. }
    split.
    + intros [W ->]. destruct v; try discriminate W. cbn [wt] in W. apply Nat.ltb_lt in W. cbn [d_ty]. rewrite D by auto. now constructor.
    + intro W. inversion W; subst; try no_enum. cbn [wt d_ty]. rewrite D by auto. split; auto. now apply Nat.ltb_lt.
  - split.
    + intros [W ->]. destruct v as [| | | | | | |l| | | | |]; try discriminate W. destruct l as [|x [|y [|]]]; try discriminate W.
      cbn [wt] in W. apply andb_true_iff in W as [W1 W2]. now constructor.
    + intro W. inversion W; subst; try no_enum. cbn [wt]. split; [now apply andb_true_iff|reflexivity].
  - split.
    + intros [W ->]. destruct v as [| | | | | | |l| | | | |]; try discriminate W. destruct l as [|x [|y [|z [|]]]]; try discriminate W.
      cbn [wt] in W. apply andb_true_iff in W as [W W3]. apply andb_true_iff in W as [W1 W2]. now constructor.
    + intro W. inversion W; subst; try no_enum. cbn [wt]. split; [rewrite !andb_true_iff; auto|reflexivity].
  - split; [intros [W ->]; destruct v; try discriminate W; now constructor|intro W; inversion W; subst; try no_enum; auto].
Qed.

Lemma name_written chk tg s f v w :
  den_name chk tg s = Some f -> (wt f v = true /\ w = d_ty f v <-> written (T s) v w).
Proof.
  unfold den_name. destruct (String.eqb_spec s "Id") as [->|Hs].
  - intro H. injection H as <-. split.
    + intros [W ->]. destruct v; try discriminate W. cbn [d_ty]. constructor. now apply id_bound.
    + intro W. inversion W; subst; try no_enum. split; auto. cbn [wt]. now apply id_bound.
  - destruct (find _ simple) as [[s' f']|] eqn:E.
    + intro H. injection H as <-. apply find_some in E as [E1 E2]. cbn [fst] in E2. apply String.eqb_eq in E2. subst s'.
      cbn [snd]. now apply simple_written.
    + destruct (enum_named s) as [vs|] eqn:V; [|discriminate]. intro H. injection H as <-. split.
      * intros [W ->]. destruct v; try discriminate W. cbn [wt] in W. apply Nat.ltb_lt in W. rewrite map_length in W.
        destruct (nth_error vs i) as [[name w]|] eqn:N; [|apply nth_error_None in N; lia].
        cbn [d_ty]. unfold d_enum. rewrite (nth_error_nth _ _ [] (map_nth_error (fun q => lit (snd q)) i vs N)). cbn [snd].
        econstructor; eauto.
      * intro W. inversion W; subst; try (vm_compute in V; discriminate V); try congruence.
        match goal with X : enum_named s = Some ?u |- _ => rewrite V in X; injection X as <- end.
        match goal with X : nth_error vs _ = Some _ |- _ => rename X into N end.
        cbn [wt d_ty]. split.
        -- apply Nat.ltb_lt. rewrite map_length. apply nth_error_Some. congruence.
        -- unfold d_enum. now rewrite (nth_error_nth _ _ [] (map_nth_error (fun q => lit (snd q)) _ vs N)).
Qed.

Definition agree (t : rust) (f : fty) : Prop := forall v w, wt f v = true /\ w = d_ty f v <-> written t v w.

Lemma agree_list ts fs : Forall2 agree ts fs ->
  forall l ws, wts fs l = true /\ ws = d_tys fs l <-> writtens ts l ws.
Proof.
  induction 1 as [|t f ts fs H Hs IH]; intros l ws.
  - split.
    + intros [W ->]. destruct l; [|discriminate]. constructor.
    + intro W. inversion W. auto.
  - split.
    + intros [W ->]. destruct l as [|v l]; [discriminate|]. cbn [wts] in W. apply andb_true_iff in W as [W1 W2].
      cbn [d_tys]. constructor; [now apply H|now apply IH].
    + intro W. inversion W as [|? ? v l' w ws' W1 W2]; subst. apply H in W1 as [W1 ->]. apply IH in W2 as [W2 ->].
      cbn [wts d_tys]. rewrite W1, W2. auto.
Qed.

Lemma all_forall2 {A B} (f : A -> option B) l l' : all f l = Some l' -> Forall2 (fun x y => f x = Some y) l l'.
Proof.
  revert l'. induction l as [|x l IH]; intros l' H; cbn [all] in H; [injection H as <-; constructor|].
  destruct (f x) eqn:E; [|discriminate]. destruct (all f l); [|discriminate]. injection H as <-. constructor; auto.
Qed.

Lemma row_printed k n r ds : In (k, n) structs -> row_of k = Some r ->
  d_row (row_kws r) ds (row_closer r) = keyword n ++ lit "(" ++ join (lit ",") ds ++ closing n.
Proof.
  intros H Hr. unfold d_row, d_attrs. rewrite (keyword_inv k n r H Hr), (closer_inv k n r H Hr). cbn [hd]. now rewrite <- app_assoc.
Qed.

Lemma same_types (t : rust) (f : fty) : agree t f -> forall l ws,
  forallb (wt f) l = true /\ ws = map (d_ty f) l <-> writtens (map (fun _ => t) l) l ws.
Proof.
  intros H l. induction l as [|v l IH]; intro ws.
  - split; [intros [_ ->]; constructor|intro W; inversion W; auto].
  - cbn [map forallb]. split.
    + intros [W ->]. apply andb_true_iff in W as [W1 W2]. constructor; [now apply H|now apply IH].
    + intro W. inversion W as [|? ? ? ? w ws' W1 W2]; subst. apply H in W1 as [W1 ->]. apply IH in W2 as [W2 ->].
      rewrite W1, W2. auto.
Qed.

Lemma den_agree fuel : forall chk tg t f, den fuel chk tg t = Some f -> agree t f.
Proof.
  induction fuel as [|fuel IH]; intros chk tg t f H; [discriminate|]. cbn [den] in H. destruct t as [s|c t].
  - intros v w. eapply name_written; eauto.
  - destruct (String.eqb_spec c "OptionalParameter") as [->|C1].
    { destruct (den fuel chk tg t) as [f'|] eqn:E; [|discriminate]. injection H as <-. apply IH in E. intros v w. split.
      - intros [W ->]. destruct v; try (cbn [wt d_ty] in *; constructor; [discriminate|discriminate|now apply E]); constructor.
      - intro W. inversion W; subst; auto.
        match goal with X : written t _ _ |- _ => apply E in X as [X ->] end. now rewrite wt_opt, d_opt. }
    destruct (String.eqb_spec c "IfcList") as [->|C2].
    { destruct (den fuel chk tg t) as [f'|] eqn:E; [|discriminate]. injection H as <-. apply IH in E. intros v w. split.
      - intros [W ->]. destruct v; try discriminate W. cbn [wt d_ty] in *. unfold d_list. constructor. now apply (same_types _ _ E).
      - intro W. inversion W; subst.
        match goal with X : writtens _ _ _ |- _ => apply (same_types _ _ E) in X as [X ->] end. auto. }
    destruct t as [s|]; [|discriminate]. destruct (kind_named s) as [k|] eqn:K; [|discriminate]. apply kind_named_in in K.
    destruct (String.eqb_spec c "TypedId") as [->|C3].
    { injection H as <-. intros v w. split.
      - intros [W ->]. destruct v; try discriminate W. cbn [d_ty]. constructor. now apply id_bound.
      - intro W. inversion W; subst. split; auto. cbn [wt]. now apply id_bound. }
    destruct (String.eqb_spec c "IdOr") as [->|C4]; [|discriminate]. destruct chk; [|discriminate]. cbn [andb] in H.
    destruct (row_of k) as [r|] eqn:R; [|discriminate]. destruct (attrs_named s) as [a|] eqn:A; [|discriminate].
    apply attrs_named_sound in A.
    match type of H with option_map _ ?x = _ => destruct x as [fs|] eqn:E; [|discriminate] end. injection H as <-.
    assert (L : Forall2 agree (map a_type a) fs).
    { apply all_forall2 in E. clear - E IH. induction E as [|x y l l' H Hl IHl]; cbn [map]; constructor; auto.
      destruct (all kind_named (a_targets x)); [|discriminate]. eapply IH; eauto. }
    intros v w. split.
    + intros [W ->]. destruct v; try discriminate W.
      * cbn [d_ty]. constructor. now apply id_bound.
      * rewrite wt_ent in W. rewrite d_ent, (row_printed k s r) by auto. eapply wr_or_object; eauto. now apply (agree_list _ _ L).
    + intro W. inversion W; subst.
      * split; auto. cbn [wt]. now apply id_bound.
      * match goal with X : attributes_of s _ |- _ => rewrite <- (attributes_fun _ _ _ A X) in * end.
        match goal with X : writtens _ _ _ |- _ => apply (agree_list _ _ L) in X as [X ->] end.
        rewrite wt_ent, d_ent, (row_printed k s r); auto.
Qed.

Lemma struct_inv k n : In (k, n) structs -> exists r a, row_of k = Some r /\ attributes_of n a /\
  Forall2 (fun x f => den_attr 9 x = Some f) a (row_fields r).
Proof.
  intro H. pose proof (proj1 (forallb_forall _ _) rows_declared _ H) as E. cbn [fst snd] in E.
  destruct (row_of k) as [r|]; [|discriminate]. destruct (attrs_named n) as [a|] eqn:A; [|discriminate].
  destruct (all (den_attr 9) a) as [fs|] eqn:D; [|discriminate]. apply ftys_eqb_eq in E. subst fs.
  exists r, a. split; auto. split; [now apply attrs_named_sound|now apply all_forall2].
Qed.

Lemma attrs_agree a fs : Forall2 (fun x f => den_attr 9 x = Some f) a fs -> Forall2 agree (map a_type a) fs.
Proof.
  induction 1 as [|x f a fs H Hl IH]; cbn [map]; constructor; auto. unfold den_attr in H.
  destruct (all kind_named (a_targets x)); [|discriminate]. eapply den_agree; eauto.
Qed.

(** The lines of a kind. *)
Lemma line_written k n a l w : In (k, n) structs -> attributes_of n a ->
  (wf_ent k l /\ w = d_entity (Ent k l) <->
   exists ws, writtens (map a_type a) l ws /\ w = keyword n ++ lit "(" ++ join (lit ",") ws ++ closing n).
Proof.
  intros H Ha. destruct (struct_inv k n H) as (r & a' & Hr & Ha' & F). rewrite <- (attributes_fun _ _ _ Ha Ha') in F.
  apply attrs_agree in F. cbn [d_entity]. rewrite Hr, (row_printed k n r) by auto. split.
  - intros [(r' & Hr' & W) ->]. rewrite Hr in Hr'. injection Hr' as <-. exists (d_tys (row_fields r) l). split; auto.
    now apply (agree_list _ _ F).
  - intros (ws & W & ->). apply (agree_list _ _ F) in W as [W ->]. split; auto. exists r. auto.
Qed.

Lemma kind_declared k n : In (k, n) structs -> exists a, attributes_of n a.
Proof. intro H. destruct (struct_inv k n H) as (r & a & _ & Ha & _). eauto. Qed.

(** ** References *)

Lemma names_unique : forallb (fun q => match kind_named (snd q) with Some k => kind_eqb k (fst q) | None => false end) structs = true.
Proof. vm_compute. reflexivity. Qed.
Lemma kind_named_iff s k : kind_named s = Some k <-> In (k, s) structs.
Proof.
  split; [apply kind_named_in|]. intro H. pose proof (proj1 (forallb_forall _ _) names_unique _ H) as E. cbn [fst snd] in E.
  destruct (kind_named s) as [k'|]; [|discriminate]. apply kind_eqb_eq in E. now subst.
Qed.
Lemma called_iff names ks : all kind_named names = Some ks <-> are_called ks names.
Proof.
  revert ks. induction names as [|s names IH]; intro ks; cbn [all].
  - split; [intro H; injection H as <-; constructor|intro H; inversion H; auto].
  - split.
    + destruct (kind_named s) eqn:E; [|discriminate]. destruct (all kind_named names); [|discriminate].
      intro H. injection H as <-. constructor; [now apply kind_named_iff|now apply IH].
    + intro H. inversion H as [|k ? ks' ? H1 H2]; subst. apply kind_named_iff in H1. rewrite H1. apply IH in H2. now rewrite H2.
Qed.

Lemma name_points chk tg ts s f v ks n :
  den_name chk tg s = Some f -> all kind_named ts = Some tg -> wt f v = true ->
  (points f v ks n <-> held n v /\ chk = true /\ exists names, aims ts (T s) names /\ are_called ks names).
Proof.
  intros H Ht W. unfold den_name in H. destruct (String.eqb_spec s "Id") as [->|Hs].
  - injection H as <-. split.
    + intro P. inversion P; subst.
      assert (Hne : ts <> []) by (intros ->; cbn [all] in Ht; injection Ht as <-; discriminate).
      destruct ks as [|k ks]; [discriminate|]. subst chk. split; [constructor|]. split; auto.
      exists ts. split; [now constructor|now apply called_iff].
    + intros (Hh & -> & names & Ha & Hc). inversion Ha; subst. apply called_iff in Hc. rewrite Ht in Hc. injection Hc as <-.
      destruct v; try discriminate W. inversion Hh; subst.
      destruct tg as [|k tg]; [|constructor]. destruct names; [congruence|]. cbn [all] in Ht.
      destruct (kind_named s); [|discriminate]. destruct (all kind_named names); discriminate.
  - assert (X : ~ points f v ks n).
    { destruct (find _ simple) as [[s' f']|] eqn:E.
      - injection H as <-. apply find_some in E as [E1 _]. unfold simple in E1. cbn [In snd] in *.
        repeat (destruct E1 as [E1|E1]; [injection E1 as <- <-; intro P; inversion P|]). contradiction.
      - destruct (enum_named s); [|discriminate]. injection H as <-. intro P. inversion P. }
    split; [contradiction|]. intros (_ & _ & names & Ha & _). inversion Ha. congruence.
Qed.

Lemma held_not_marker n v : held n v -> v <> VOmit /\ v <> VInh.
Proof. intro H. inversion H; split; discriminate. Qed.

Lemma den_points fuel : forall chk tg ts t f v ks n,
  den fuel chk tg t = Some f -> all kind_named ts = Some tg -> wt f v = true ->
  (points f v ks n <-> held n v /\ chk = true /\ exists names, aims ts t names /\ are_called ks names).
Proof.
  induction fuel as [|fuel IH]; intros chk tg ts t f v ks n H Ht W; [discriminate|]. cbn [den] in H. destruct t as [s|c t].
  - eapply name_points; eauto.
  - destruct (String.eqb_spec c "OptionalParameter") as [->|C1].
    { destruct (den fuel chk tg t) as [f'|] eqn:E; [|discriminate]. injection H as <-. split.
      - intro P. inversion P as [| |t0 v0 ks0 n0 P'|]; subst. assert (V : v <> VOmit /\ v <> VInh) by (inversion P'; subst; split; try discriminate;
          match goal with X : points _ ?v _ _ |- ?v <> _ => clear - X; induction X; try discriminate; auto end).
        rewrite wt_opt in W by tauto. apply (IH _ _ _ _ _ _ _ _ E Ht W) in P' as (Hh & Hc & names & Ha & Hn).
        split; auto. split; auto. exists names. split; auto. now constructor.
      - intros (Hh & Hc & names & Ha & Hn). pose proof (held_not_marker _ _ Hh). rewrite wt_opt in W by tauto.
        inversion Ha; subst. constructor. apply (IH _ _ _ _ _ _ _ _ E Ht W). eauto. }
    destruct (String.eqb_spec c "IfcList") as [->|C2].
    { destruct (den fuel chk tg t) as [f'|] eqn:E; [|discriminate]. injection H as <-. split.
      - intro P. inversion P as [| | |t0 l v0 ks0 n0 Hv P']; subst. cbn [wt] in W. rewrite forallb_forall in W.
        apply (IH _ _ _ _ _ _ _ _ E Ht (W _ Hv)) in P' as (Hh & Hc & names & Ha & Hn).
        split; [econstructor; eauto|]. split; auto. exists names. split; auto. now constructor.
      - intros (Hh & Hc & names & Ha & Hn). destruct v; try discriminate W. cbn [wt] in W. rewrite forallb_forall in W.
        inversion Hh; subst. inversion Ha; subst. econstructor; eauto. eapply (IH _ _ _ _ _ _ _ _ E Ht); eauto. }
    destruct t as [s|]; [|discriminate]. destruct (kind_named s) as [k|] eqn:K; [|discriminate]. apply kind_named_iff in K.
    assert (One : forall names, are_called ks names -> names = [s] -> ks = [k]).
    { intros names Hc ->. apply called_iff in Hc. cbn [all] in Hc. rewrite (proj2 (kind_named_iff s k) K) in Hc. now injection Hc as <-. }
    destruct (String.eqb_spec c "TypedId") as [->|C3].
    { injection H as <-. destruct v; try discriminate W. split.
      - intro P. inversion P; subst. split; [constructor|]. split; auto. exists [s]. split; constructor; auto.
      - intros (Hh & -> & names & Ha & Hc). inversion Ha; subst. rewrite (One _ Hc eq_refl). inversion Hh; subst. constructor. }
    destruct (String.eqb_spec c "IdOr") as [->|C4]; [|discriminate]. destruct chk; [|discriminate]. cbn [andb] in H.
    destruct (row_of k) as [r|] eqn:R; [|discriminate]. destruct (attrs_named s) as [a|] eqn:A; [|discriminate].
    match type of H with option_map _ ?x = _ => destruct x as [fs|] eqn:E; [|discriminate] end. injection H as <-. split.
    + intro P. inversion P; subst. split; [constructor|]. split; auto. exists [s]. split; constructor; auto.
    + intros (Hh & _ & names & Ha & Hc). inversion Ha; subst. rewrite (One _ Hc eq_refl).
      destruct v; try discriminate W; inversion Hh; subst. constructor.
Qed.

Lemma wts_nth fs : forall l i f v, wts fs l = true -> nth_error fs i = Some f -> nth_error l i = Some v -> wt f v = true.
Proof.
  induction fs as [|g fs IH]; intros [|x l] [|i] f v W Hf Hv; try discriminate; cbn [wts] in W; apply andb_true_iff in W as [W1 W2].
  - injection Hf as <-. injection Hv as <-. auto.
  - eapply IH; eauto.
Qed.
Lemma forall2_nth {A B} (R : A -> B -> Prop) l l' : Forall2 R l l' -> forall i,
  (forall y, nth_error l' i = Some y -> exists x, nth_error l i = Some x /\ R x y) /\
  (forall x, nth_error l i = Some x -> exists y, nth_error l' i = Some y /\ R x y).
Proof.
  induction 1 as [|x y l l' H Hl IH]; intros [|i]; cbn [nth_error]; split; intros z Hz; try discriminate.
  - injection Hz as <-. eauto.
  - injection Hz as <-. eauto.
  - apply IH; auto.
  - apply IH; auto.
Qed.

(** The references that are checked. *)
Lemma checked_declared k s a l ks n : In (k, s) structs -> attributes_of s a -> wf_ent k l ->
  (checked_ref (Ent k l) ks n <->
   exists i x v names, nth_error a i = Some x /\ nth_error l i = Some v /\ held n v /\ a_checked x = true /\
     aims (a_targets x) (a_type x) names /\ are_called ks names).
Proof.
  intros H Ha (r & Hr & W). destruct (struct_inv k s H) as (r' & a' & Hr' & Ha' & F). rewrite Hr in Hr'. injection Hr' as <-.
  rewrite <- (attributes_fun _ _ _ Ha Ha') in F. split.
  - intros (k' & l' & r' & i & f & v & He & Hr' & Hf & Hv & P). injection He as <- <-. rewrite Hr in Hr'. injection Hr' as <-.
    destruct (proj1 (forall2_nth _ _ _ F i) f Hf) as (x & Hx & D). unfold den_attr in D.
    destruct (all kind_named (a_targets x)) as [tg|] eqn:Q; [|discriminate].
    destruct (proj1 (den_points _ _ _ _ _ _ _ ks n D Q (wts_nth _ _ _ _ _ W Hf Hv)) P) as (Hh & Hc & names & Hn & Hk).
    exists i, x, v, names. auto 10.
  - intros (i & x & v & names & Hx & Hv & Hh & Hc & Hn & Hk).
    destruct (proj2 (forall2_nth _ _ _ F i) x Hx) as (f & Hf & D). unfold den_attr in D.
    destruct (all kind_named (a_targets x)) as [tg|] eqn:Q; [|discriminate].
    exists k, l, r, i, f, v. do 4 (split; auto).
    apply (den_points _ _ _ _ _ _ _ _ _ D Q (wts_nth _ _ _ _ _ W Hf Hv)). eauto.
Qed.

(** ** Files *)

Lemma parsed_wf v s x i k l : p_ifc v s = ROk x [] -> In (i, Ent k l) (i_data x) -> wf_ent k l.
Proof.
  intros H Hi. unfold p_ifc in H. apply bind_ok in H as (h & r1 & E1 & H).
  apply bind_ok in H as (m & r2 & E2 & H). apply bind_ok in H as (? & r3 & E3 & H). injection H as <- ->.
  apply p_data_ok in E2 as [_ F]. rewrite Forall_forall in F. exact (proj2 (F _ Hi)).
Qed.

Lemma wf_struct k l : wf_ent k l -> exists s, In (k, s) structs.
Proof. intros (r & Hr & _). apply all_structs. congruence. Qed.

Lemma aims_known k s a x names : In (k, s) structs -> attributes_of s a -> In x a -> aims (a_targets x) (a_type x) names ->
  exists ks, are_called ks names.
Proof.
  intros H Ha Hx Hn. destruct (struct_inv k s H) as (r & a' & _ & Ha' & F). rewrite <- (attributes_fun _ _ _ Ha Ha') in F.
  apply In_nth_error in Hx as (i & Hx). destruct (proj2 (forall2_nth _ _ _ F i) x Hx) as (f & _ & D). unfold den_attr in D.
  destruct (all kind_named (a_targets x)) as [tg|] eqn:Q; [|discriminate].
  revert D. generalize 9%nat as fuel. generalize (a_checked x) as chk. revert f. revert Q Hn. generalize (a_targets x) as ts, (a_type x) as t.
  intros ts t Q Hn. induction Hn as [ts Hne|ts s'|ts s'|ts t l Hn IH|ts t l Hn IH]; intros f chk [|fuel] D; try discriminate D; cbn [den] in D.
  - exists tg. now apply called_iff.
  - destruct (kind_named s') as [k'|] eqn:K; [|discriminate D]. exists [k']. constructor; [now apply kind_named_iff|constructor].
  - destruct (kind_named s') as [k'|] eqn:K; [|discriminate D]. exists [k']. constructor; [now apply kind_named_iff|constructor].
  - cbn [String.eqb Ascii.eqb Bool.eqb] in D. destruct (den fuel chk tg t) eqn:E; [|discriminate D]. eapply IH; eauto.
  - cbn [String.eqb Ascii.eqb Bool.eqb] in D. destruct (den fuel chk tg t) eqn:E; [|discriminate D]. eapply IH; eauto.
Qed.

Lemma called_in ks names k : are_called ks names -> (In k ks <-> exists t, In t names /\ In (k, t) structs).
Proof.
  intro H. split.
  - intro I. induction H as [|k0 s ks names H Hl IH]; [destruct I|]. destruct I as [->|I]; [exists s; split; [now left|auto]|].
    destruct (IH I) as (t & Ht & Hk). exists t. split; [now right|auto].
  - intros (t & Ht & Hk). induction H as [|k0 s ks names H Hl IH]; [destruct Ht|]. destruct Ht as [->|Ht]; [|right; auto].
    left. apply kind_named_iff in H, Hk. congruence.
Qed.

Lemma load_declared v s x : p_ifc v s = ROk x [] ->
  (load v s = Done x <->
   forall i k t l names n, In (i, Ent k l) (i_data x) -> In (k, t) structs -> declared_ref t l names n ->
   exists e, lookup (i_data x) n = Some e /\
     (kind_of e = KDummy \/ exists t', In t' names /\ In (kind_of e, t') structs)).
Proof.
  intro H. split.
  - intros Hl i k t l names n Hi Ht (a & j & y & w & Ha & Hy & Hw & Hh & Hc & Hn).
    destruct (aims_known _ _ _ _ _ Ht Ha (nth_error_In _ _ Hy) Hn) as (ks & Hk).
    destruct (proj2 (load_done v s x Hl) ks n) as (e & He & Hp).
    { exists i, (Ent k l). split; auto. apply (checked_declared k t a l ks n Ht Ha (parsed_wf _ _ _ _ _ _ H Hi)).
      exists j, y, w, names. auto 10. }
    exists e. split; auto. destruct Hp as [Hp|Hp]; [right|now left]. now apply (called_in ks names).
  - intro G. apply load_ok; [now apply parse_whole_done|]. intros ks n (i & e & Hi & Hr).
    destruct Hr as (k & l & Hr). pose proof Hr as (r & j0 & f0 & v0 & -> & _).
    pose proof (parsed_wf _ _ _ _ _ _ H Hi) as Hw. destruct (wf_struct k l Hw) as (t & Ht).
    destruct (kind_declared k t Ht) as (a & Ha).
    assert (Hr' : checked_ref (Ent k l) ks n) by (exists k, l; exact Hr).
    apply (checked_declared k t a l ks n Ht Ha Hw) in Hr' as (j & y & w & names & Hy & Hv & Hh & Hc & Hn & Hk).
    destruct (G i k t l names n Hi Ht) as (e & He & Hp); [exists a, j, y, w; auto 10|].
    exists e. split; auto. destruct Hp as [Hp|Hp]; [now right|left]. now apply (called_in ks names).
Qed.

(** ** Reading *)

Lemma line_read k n a l ws : In (k, n) structs -> attributes_of n a -> writtens (map a_type a) l ws ->
  forall g1 g2 rest, gap g1 -> gap g2 -> no_gap rest ->
  p_obj (g1 ++ (keyword n ++ lit "(" ++ join (lit ",") ws ++ closing n) ++ g2 ++ rest) =
    ROk (Ent k (map (norm_val norm_real) l)) rest.
Proof.
  intros H Ha W g1 g2 rest G1 G2 G3.
  destruct (proj2 (line_written k n a l _ H Ha) (ex_intro _ ws (conj W eq_refl))) as [Hw E].
  destruct (keyword_printed k n l H Hw) as (body & Eb & R & _). rewrite E, Eb. now apply R.
Qed.
Lemma line_values k n a s l r : In (k, n) structs -> attributes_of n a -> p_obj s = ROk (Ent k l) r ->
  exists ws, writtens (map a_type a) l ws.
Proof.
  intros H Ha Hp. apply p_obj_wf in Hp. destruct (proj1 (line_written k n a l _ H Ha) (conj Hp eq_refl)) as (ws & W & _). eauto.
Qed.
Lemma line_printed k n a l ws : In (k, n) structs -> attributes_of n a -> writtens (map a_type a) l ws ->
  d_entity (Ent k l) = keyword n ++ lit "(" ++ join (lit ",") ws ++ closing n.
Proof.
  intros H Ha W. destruct (proj2 (line_written k n a l _ H Ha) (ex_intro _ ws (conj W eq_refl))) as [_ E]. now rewrite <- E.
Qed.
Lemma wf_declared k n a l : In (k, n) structs -> attributes_of n a -> (wf_ent k l <-> exists ws, writtens (map a_type a) l ws).
Proof.
  intros H Ha. split.
  - intro W. destruct (proj1 (line_written k n a l _ H Ha) (conj W eq_refl)) as (ws & Hw & _). eauto.
  - intros (ws & W). exact (proj1 (proj2 (line_written k n a l _ H Ha) (ex_intro _ ws (conj W eq_refl)))).
Qed.
Lemma every_kind k : k <> KDummy -> exists s a, In (k, s) structs /\ attributes_of s a.
Proof.
  intro H. destruct (all_structs k) as (s & Hs); [destruct k; try discriminate; congruence|].
  destruct (kind_declared k s Hs) as (a & Ha). eauto.
Qed.
