(** Proofs for C68: the constructors and setters of the model have the signatures of /repo. *)

From Coq Require Import String Ascii List NArith ZArith Bool.
From Verif Require Import Base Prims Kind Types WellTyped Schema Entity EntitySpec DataMap EntityFacts FileFacts NameSpec NameFacts DeclSpec DeclFacts
  Header File HeaderSpec FileSpec Mapping Api ApiSpec ApiFacts5 SigSpec.
Import ListNotations.
Open Scope N_scope.

(** ** Classes of arguments *)

Inductive cls := CValue (f : fty) | CRaw | CTyped | COr (ks : list kind) | CNew (ks : list kind).
Inductive shape := One (c : cls) | Maybe (c : cls) | Many (c : cls).

Definition cls_ok (rs : list reg) (m : dmap) (c : cls) (i : item) : Prop :=
  match c with
  | CValue f => item_plain f i
  | CRaw | CTyped => item_id m i
  | COr ks => item_ref ks rs m i
  | CNew ks => item_new ks rs i
  end.
Definition shape_ok (rs : list reg) (m : dmap) (s : shape) (a : arg) : Prop :=
  match s, a with
  | One c, AOne i => cls_ok rs m c i
  | Maybe c, ANone => True
  | Maybe c, AOne i => cls_ok rs m c i
  | Many c, AMany l => Forall (cls_ok rs m c) l
  | _, _ => False
  end.

Definition shape_of (p : par) : shape :=
  match p with
  | PPlain t => One (CValue t) | POption t => Maybe (CValue t) | PValues t => Many (CValue t)
  | PIdOr ks => One (COr ks) | PIdOrs ks => Many (COr ks)
  | PTyped _ => One CTyped | PTypeds _ => Many CTyped
  | PNew ks => One (CNew ks) | PNews ks => Many (CNew ks)
  | PRaw => One CRaw | POptionRaw => Maybe CRaw | PRaws => Many CRaw
  end.
Lemma arg_shape rs m p a : arg_ok rs m p a <-> shape_ok rs m (shape_of p) a.
Proof. destruct p, a; cbn [arg_ok shape_of shape_ok cls_ok]; try tauto; apply iff_refl. Qed.

(** ** Classes of types *)

Definition standsb (t : rust) (s : string) : bool :=
  match t with
  | T n => String.eqb n s
  | G c (T tr) => String.eqb c "impl" && existsb (fun q => String.eqb tr (fst q) && existsb (String.eqb s) (snd q)) implementations
  | _ => false
  end.
Lemma standsb_iff t s : standsb t s = true <-> stands t s.
Proof.
  split.
  - destruct t as [n|c [tr|]]; cbn [standsb]; intro H; try discriminate.
    + apply String.eqb_eq in H. subst. constructor.
    + apply andb_true_iff in H as [H1 H2]. apply String.eqb_eq in H1. subst c. apply existsb_exists in H2 as ([n l] & I & H2).
      cbn [fst snd] in H2. apply andb_true_iff in H2 as [H2 H3]. apply String.eqb_eq in H2. subst n.
      apply existsb_exists in H3 as (x & H3 & E). apply String.eqb_eq in E. subst x. econstructor; eauto.
  - intros [n|tr l n I J]; cbn [standsb]; [apply String.eqb_refl|]. rewrite String.eqb_refl. apply existsb_exists.
    exists (tr, l). split; auto. cbn [fst snd]. rewrite String.eqb_refl. apply existsb_exists. exists n. split; auto. apply String.eqb_refl.
Qed.

Definition called (t : rust) : list kind := map fst (filter (fun q => standsb t (snd q)) structs).
Lemma called_iff t k : In k (called t) <-> exists s, In (k, s) structs /\ stands t s.
Proof.
  unfold called. rewrite in_map_iff. split.
  - intros ([k' s] & E & H). cbn [fst] in E. subst k'. apply filter_In in H as [H1 H2]. apply standsb_iff in H2. eauto.
  - intros (s & H1 & H2). exists (k, s). split; auto. apply filter_In. split; auto. now apply standsb_iff.
Qed.

Definition value_type (s : string) : option fty :=
  if String.eqb s "Id" then None else den_name false [] (converted s).
Fixpoint item_cls (t : rust) : option cls :=
  match t with
  | T s => if String.eqb s "Id" then Some CRaw
           else match value_type s with Some f => Some (CValue f) | None => Some (CNew (called t)) end
  | G c t' =>
      if String.eqb c "Into" then item_cls t'
      else if String.eqb c "TypedId" then Some CTyped
      else if String.eqb c "IdOr" then Some (COr (called t'))
      else if String.eqb c "impl" then Some (CNew (called t))
      else None
  end.
Definition many : list string := ["Vec"; "Iterator"; "IntoIterator"]%string.
Fixpoint type_shape (t : rust) : option shape :=
  match t with
  | T s => option_map One (item_cls t)
  | G c t' =>
      if String.eqb c "Into" then type_shape t'
      else if String.eqb c "Option" then option_map Maybe (item_cls t')
      else if existsb (String.eqb c) many then option_map Many (item_cls t')
      else option_map One (item_cls t)
  end.

(** A struct is no value. *)
Lemma structs_values : forallb (fun q => negb (String.eqb (snd q) "Id") &&
    match value_type (snd q) with Some _ => false | None => true end) structs = true.
Proof. vm_compute. reflexivity. Qed.
Lemma struct_value k s f : In (k, s) structs -> value_type s = Some f -> False.
Proof.
  intros I H. pose proof (proj1 (forallb_forall _ _) structs_values _ I) as E. cbn [snd] in E. rewrite H in E.
  now rewrite andb_false_r in E.
Qed.
Lemma struct_id k : In (k, "Id"%string) structs -> False.
Proof. intro I. pose proof (proj1 (forallb_forall _ _) structs_values _ I) as E. discriminate E. Qed.

Lemma stands_name n s : stands (T n) s -> s = n.
Proof. inversion 1. auto. Qed.
Lemma stands_app c t s : stands (G c t) s -> c = "impl"%string.
Proof. inversion 1. auto. Qed.

Lemma written_value s v w : written (T s) v w -> s <> "Id"%string -> den_name false [] s <> None.
Proof.
  intros W N D. unfold den_name in D. rewrite (proj2 (String.eqb_neq s "Id") N) in D.
  destruct (find _ simple) as [q|] eqn:F; [discriminate|]. destruct (enum_named s) eqn:E; [discriminate|].
  inversion W; subst; try discriminate F; congruence.
Qed.

Lemma converted_id s : converted s = "Id"%string -> s = "Id"%string.
Proof.
  unfold converted. destruct (find _ _) as [[a b]|] eqn:F; auto. intro H. cbn [snd] in H. subst b.
  apply find_some in F as [F _]. cbn [In] in F. repeat (destruct F as [F|F]; [discriminate F|]). contradiction.
Qed.

Lemma fits_cls rs m t : forall c, item_cls t = Some c -> forall i, fits rs m t i <-> cls_ok rs m c i.
Proof.
  induction t as [s|g t IH]; intros c H i; cbn [item_cls] in H.
  - destruct (String.eqb_spec s "Id") as [->|Ns].
    { injection H as <-. cbn [cls_ok]. split.
      - intro F. inversion F; subst; try congruence; cbn [item_id]; eauto.
        exfalso. match goal with X : stands _ _ |- _ => apply stands_name in X; subst end. eapply struct_id; eauto.
      - destruct i; cbn [item_id]; try contradiction. intros (e & E). econstructor; eauto. }
    destruct (value_type s) as [f|] eqn:V.
    + injection H as <-. cbn [cls_ok]. pose proof V as V'. unfold value_type in V'.
      rewrite (proj2 (String.eqb_neq s "Id") Ns) in V'. split.
      * intro F. inversion F; subst; try congruence; cbn [item_plain].
        -- match goal with X : written _ _ _ |- _ => apply (name_written _ _ _ _ _ _ V') in X; tauto end.
        -- exfalso. match goal with X : stands _ _ |- _ => apply stands_name in X; subst end. eapply struct_value; eauto.
      * destruct i; cbn [item_plain]; try contradiction. intro W. eapply fits_value; auto.
        apply (name_written _ _ _ _ _ _ V'). split; eauto.
    + injection H as <-. cbn [cls_ok]. split.
      * intro F. inversion F; subst; try congruence; cbn [item_new].
        -- exfalso. unfold value_type in V. rewrite (proj2 (String.eqb_neq s "Id") Ns) in V.
           match goal with X : written _ _ _ |- _ => eapply (written_value _ _ _ X); auto end.
           intro E. now apply converted_id in E.
        -- eexists. split; [eassumption|]. cbn [fst]. apply called_iff. eauto.
      * destruct i; cbn [item_new]; try contradiction. intros ([k l] & E & J). cbn [fst] in J. apply called_iff in J as (n & J1 & J2).
        eapply fits_object; eauto.
  - destruct (String.eqb_spec g "Into") as [->|N1].
    { rewrite <- (IH c H i). split; [|now constructor]. intro F. inversion F; subst; auto.
      match goal with X : stands _ _ |- _ => apply stands_app in X; discriminate X end. }
    destruct (String.eqb_spec g "TypedId") as [->|N2].
    { injection H as <-. cbn [cls_ok]. split.
      - intro F. inversion F; subst; cbn [item_id]; eauto.
        match goal with X : stands _ _ |- _ => apply stands_app in X; discriminate X end.
      - destruct i; cbn [item_id]; try contradiction. intros (e & E). econstructor; eauto. }
    destruct (String.eqb_spec g "IdOr") as [->|N3].
    { injection H as <-. cbn [cls_ok]. split.
      - intro F. inversion F; subst; cbn [item_ref]; eauto.
        + eexists. split; [eassumption|]. cbn [fst]. apply called_iff. eauto.
        + match goal with X : stands _ _ |- _ => apply stands_app in X; discriminate X end.
      - destruct i; cbn [item_ref]; try contradiction.
        + intros (e & E). eapply fits_or_id; eauto.
        + intros ([k l] & E & J). cbn [fst] in J. apply called_iff in J as (n & J1 & J2). eapply fits_or_object; eauto. }
    destruct (String.eqb_spec g "impl") as [->|N4]; [|discriminate]. injection H as <-. cbn [cls_ok]. split.
    + intro F. inversion F; subst; cbn [item_new]. eexists. split; [eassumption|]. cbn [fst]. apply called_iff. eauto.
    + destruct i; cbn [item_new]; try contradiction. intros ([k l] & E & J). cbn [fst] in J. apply called_iff in J as (n & J1 & J2).
      eapply fits_object; eauto.
Qed.

Lemma takes_shape rs m t : forall s, type_shape t = Some s -> forall a, takes rs m t a <-> shape_ok rs m s a.
Proof.
  assert (P : forall l c t', item_cls t' = Some c -> Forall (fits rs m t') l <-> Forall (cls_ok rs m c) l).
  { intros l c t' H. split; intro F; eapply Forall_impl; try exact F; intros i; now apply fits_cls. }
  induction t as [n|g t IH]; intros s H a; cbn [type_shape] in H.
  - destruct (item_cls (T n)) as [c|] eqn:C; [|discriminate]. injection H as <-. split.
    + intro F. inversion F; subst. cbn [shape_ok]. now apply (fits_cls _ _ _ _ C).
    + destruct a; cbn [shape_ok]; try contradiction. intro F. constructor. now apply (fits_cls _ _ _ _ C).
  - destruct (String.eqb_spec g "Into") as [->|N1].
    { rewrite <- (IH s H a). split; [|now apply takes_into]. intro F. inversion F as [? ? X| | | |? ? ? I _]; subst; auto.
      - inversion X; subst; [match goal with Y : stands _ _ |- _ => apply stands_app in Y; discriminate Y end|now constructor].
      - cbn [In] in I. intuition discriminate. }
    destruct (String.eqb_spec g "Option") as [->|N2].
    { destruct (item_cls t) as [c|] eqn:C; [|discriminate]. injection H as <-. split.
      - intro F. inversion F as [? ? X| | | |? ? ? I _]; subst; cbn [shape_ok]; auto.
        + inversion X; subst. match goal with Y : stands _ _ |- _ => apply stands_app in Y; discriminate Y end.
        + now apply (fits_cls _ _ _ _ C).
        + cbn [In] in I. intuition discriminate.
      - destruct a; cbn [shape_ok]; try contradiction; intro F; [constructor|]. apply takes_some. now apply (fits_cls _ _ _ _ C). }
    destruct (existsb (String.eqb g) many) eqn:M.
    { destruct (item_cls t) as [c|] eqn:C; [|discriminate]. injection H as <-.
      assert (Hg : In g many).
      { apply existsb_exists in M as (x & M & E). apply String.eqb_eq in E. now subst. }
      split.
      - intro F. inversion F as [? ? X| | | |? ? ? I X]; subst; cbn [shape_ok]; try congruence.
        + exfalso. inversion X; subst; cbn [In many] in Hg; try (intuition discriminate).
          match goal with Y : stands _ _ |- _ => apply stands_app in Y; subst end. intuition discriminate.
        + now apply (P _ _ _ C).
      - destruct a; cbn [shape_ok]; try contradiction. intro F. apply takes_many; auto. now apply (P _ _ _ C). }
    destruct (item_cls (G g t)) as [c|] eqn:C; [|discriminate]. injection H as <-. split.
    + intro F. inversion F as [? ? X| | | |? ? ? I X]; subst; cbn [shape_ok]; try congruence.
      * now apply (fits_cls _ _ _ _ C).
      * exfalso. rewrite <- not_true_iff_false in M. apply M. apply existsb_exists. exists g. split; auto. apply String.eqb_refl.
    + destruct a; cbn [shape_ok]; try contradiction. intro F. constructor. now apply (fits_cls _ _ _ _ C).
Qed.

(** ** Agreement *)

Definition within (a b : list kind) : bool := forallb (fun k => existsb (kind_eqb k) b) a.
Definition cls_same (a b : cls) : bool :=
  match a, b with
  | CValue f, CValue g => fty_eqb f g
  | CRaw, CRaw | CTyped, CTyped => true
  | COr ks, COr ls | CNew ks, CNew ls => within ks ls && within ls ks
  | _, _ => false
  end.
Definition shape_same (a b : shape) : bool :=
  match a, b with
  | One c, One d | Maybe c, Maybe d | Many c, Many d => cls_same c d
  | _, _ => false
  end.

Lemma within_in a b k : within a b = true -> In k a -> In k b.
Proof.
  intros W I. pose proof (proj1 (forallb_forall _ _) W _ I) as E. apply existsb_exists in E as (x & E & Q).
  apply kind_eqb_eq in Q. now subst.
Qed.
Lemma same_ok rs m a b i : cls_same a b = true -> cls_ok rs m a i -> cls_ok rs m b i.
Proof.
  destruct a, b; cbn [cls_same cls_ok]; intro H; try discriminate; auto.
  - apply fty_eqb_eq in H. now subst.
  - apply andb_true_iff in H as [H _]. destruct i; cbn [item_ref]; auto. intros (x & E & J). exists x. split; auto. eapply within_in; eauto.
  - apply andb_true_iff in H as [H _]. destruct i; cbn [item_new]; auto. intros (x & E & J). exists x. split; auto. eapply within_in; eauto.
Qed.
Lemma fty_eqb_sym a b : fty_eqb a b = true -> fty_eqb b a = true.
Proof. intro H. pose proof (fty_eqb_eq _ _ H). now subst. Qed.
Lemma cls_same_sym a b : cls_same a b = true -> cls_same b a = true.
Proof. destruct a, b; cbn [cls_same]; auto; [apply fty_eqb_sym|rewrite !andb_true_iff; tauto|rewrite !andb_true_iff; tauto]. Qed.
Lemma same_shape rs m a b x : shape_same a b = true -> (shape_ok rs m a x <-> shape_ok rs m b x).
Proof.
  assert (P : forall a b, shape_same a b = true -> shape_ok rs m a x -> shape_ok rs m b x).
  { intros [c|c|c] [d|d|d] H; try discriminate H; cbn [shape_same] in H; destruct x; cbn [shape_ok]; auto.
    - now apply same_ok.
    - now apply same_ok.
    - intro F. eapply Forall_impl; [|exact F]. intro i. now apply same_ok. }
  intro H. split; apply P; auto. destruct a, b; try discriminate H; cbn [shape_same] in *; now apply cls_same_sym.
Qed.

Definition par_type (p : par) (t : rust) : bool :=
  match type_shape t with Some s => shape_same (shape_of p) s | None => false end.
Lemma par_takes rs m p t a : par_type p t = true -> (arg_ok rs m p a <-> takes rs m t a).
Proof.
  unfold par_type. destruct (type_shape t) as [s|] eqn:S; [|discriminate]. intro H.
  rewrite arg_shape, (takes_shape _ _ _ _ S). now apply same_shape.
Qed.

Fixpoint pars_types (ps : list par) (ts : list rust) : bool :=
  match ps, ts with
  | [], [] => true
  | p :: ps', t :: ts' => par_type p t && pars_types ps' ts'
  | _, _ => false
  end.
Lemma args_take rs m ps : forall ts args, pars_types ps ts = true -> (args_ok rs m ps args <-> Forall2 (takes rs m) ts args).
Proof.
  induction ps as [|p ps IH]; intros [|t ts] args H; try discriminate H.
  - split.
    + intros [L _]. destruct args; [constructor|discriminate L].
    + intro F. inversion F. split; auto. intros i q a E. destruct i; discriminate E.
  - cbn [pars_types] in H. apply andb_true_iff in H as [H1 H2]. split.
    + intros [L F]. destruct args as [|a args]; [discriminate L|]. constructor.
      * apply (par_takes _ _ _ _ _ H1). now apply (F O).
      * apply (IH _ _ H2). split; [now injection L|]. intros i q b E1 E2. now apply (F (S i)).
    + intro F. inversion F as [|? a ? args' F1 F2]; subst. apply (IH _ _ H2) in F2 as [L F2]. split; [cbn [length]; now f_equal|].
      intros [|i] q b E1 E2; [injection E1 as <-; injection E2 as <-; now apply (par_takes _ _ _ _ _ H1)|now apply (F2 i)].
Qed.

Definition in_structs (k : kind) (s : string) : bool := existsb (fun q => kind_eqb k (fst q) && String.eqb s (snd q)) structs.
Lemma in_structs_in k s : in_structs k s = true -> In (k, s) structs.
Proof.
  intro H. apply existsb_exists in H as ([k' s'] & I & H). cbn [fst snd] in H. apply andb_true_iff in H as [H1 H2].
  apply kind_eqb_eq in H1. apply String.eqb_eq in H2. now subst.
Qed.

Lemma constructors_same : forallb (fun q => let '(c, (s, ts)) := q in
    in_structs (mk_kind (maker_of c)) s && pars_types (mk_pars (maker_of c)) ts) constructors = true.
Proof. vm_compute. reflexivity. Qed.
Lemma setters_same : forallb (fun q => let '(x, (o, t)) := q in
    within (me_kinds (method_of x)) (called o) && within (called o) (me_kinds (method_of x)) &&
    par_type (me_par (method_of x)) t) setters = true.
Proof. vm_compute. reflexivity. Qed.

Lemma constructor_same c s ts : In (c, (s, ts)) constructors ->
  In (mk_kind (maker_of c), s) structs /\ pars_types (mk_pars (maker_of c)) ts = true.
Proof.
  intro I. pose proof (proj1 (forallb_forall _ _) constructors_same _ I) as H. cbn beta iota in H.
  apply andb_true_iff in H as [H1 H2]. split; auto. now apply in_structs_in.
Qed.

(** ** The statements *)

Lemma new_takes c s ts g args w : In (c, (s, ts)) constructors ->
  (stmt_ok false (SNew c g args) w <-> guid_ok g = true /\ Forall2 (takes (w_regs w) (w_map w)) ts args).
Proof.
  intro I. apply constructor_same in I as [_ H]. unfold stmt_ok. rewrite (args_take _ _ _ _ _ H). split.
  - tauto.
  - intros [G F]. split; auto. split; auto. discriminate.
Qed.

Lemma new_made c s ts g args w w' o : In (c, (s, ts)) constructors -> exec (SNew c g args) w = Done (w', o) ->
  exists k l, w_regs w' = w_regs w ++ [(k, l)] /\ In (k, s) structs.
Proof.
  intros I E. apply constructor_same in I as [I _]. unfold exec, construct in E.
  destruct (fills _ _ _ _ _) as [[l m]| |] eqn:F; try discriminate E. cbn [obind fst snd] in E. injection E as <- <-.
  cbn [w_regs]. eauto.
Qed.

Lemma set_takes x o t r a w : In (x, (o, t)) setters ->
  (stmt_ok false (SSet r x a) w <->
   exists k l s, nth_error (w_regs w) r = Some (k, l) /\ In (k, s) structs /\ stands o s /\
     takes (w_regs w) (w_map w) t a).
Proof.
  intro I. pose proof (proj1 (forallb_forall _ _) setters_same _ I) as H. cbn beta iota in H.
  apply andb_true_iff in H as [H H3]. apply andb_true_iff in H as [H1 H2]. unfold stmt_ok. split.
  - intros ([k l] & E & J & A & _). cbn [fst] in J. apply (within_in _ _ _ H1) in J. apply called_iff in J as (s & J1 & J2).
    exists k, l, s. repeat (split; auto). now apply (par_takes _ _ _ _ _ H3).
  - intros (k & l & s & E & J1 & J2 & A). exists (k, l). split; auto. split.
    + cbn [fst]. apply (within_in _ _ _ H2). apply called_iff. eauto.
    + split; [now apply (par_takes _ _ _ _ _ H3)|discriminate].
Qed.

Lemma constructors_all : map fst constructors = all_ctors.
Proof. vm_compute. reflexivity. Qed.
Lemma setters_all : map fst setters = all_setters.
Proof. vm_compute. reflexivity. Qed.

Lemma ctor_in c : In c all_ctors.
Proof. destruct c; unfold all_ctors; repeat (first [left; reflexivity|right]). Qed.
Lemma setter_in x : In x all_setters.
Proof. destruct x; unfold all_setters; repeat (first [left; reflexivity|right]). Qed.
Lemma every_constructor c : exists s ts, In (c, (s, ts)) constructors.
Proof.
  pose proof (ctor_in c) as I. rewrite <- constructors_all in I. apply in_map_iff in I as ([d [s ts]] & E & I).
  cbn [fst] in E. subst d. eauto.
Qed.
Lemma every_setter x : exists o t, In (x, (o, t)) setters.
Proof.
  pose proof (setter_in x) as I. rewrite <- setters_all in I. apply in_map_iff in I as ([d [o t]] & E & I).
  cbn [fst] in E. subst d. eauto.
Qed.

(** ** What is asked for *)

Definition wraps : list string := ["TypedId"; "IdOr"; "Into"; "Option"; "Vec"; "Iterator"; "IntoIterator"]%string.
Fixpoint asksb (t : rust) (s : string) : bool :=
  match t with
  | T n => String.eqb n "Id" || standsb (T n) s
  | G c t' => standsb (G c t') s || (existsb (String.eqb c) wraps && asksb t' s)
  end.
Lemma asksb_iff t s : asksb t s = true <-> asks t s.
Proof.
  induction t as [n|c t IH]; cbn [asksb].
  - rewrite orb_true_iff, String.eqb_eq, standsb_iff. split.
    + intros [->|H]; [constructor|now apply asks_for].
    + intro H. inversion H; auto.
  - rewrite orb_true_iff, andb_true_iff, standsb_iff, IH, existsb_exists. split.
    + intros [H|((x & H1 & H2) & H3)]; [now apply asks_for|]. apply String.eqb_eq in H2. subst x. now apply asks_within.
    + intro H. inversion H; subst; auto. right. split; auto. exists c. split; auto. apply String.eqb_refl.
Qed.

Definition asked (t : rust) : list kind := map fst (filter (fun q => asksb t (snd q)) structs).
Lemma asked_iff t k : In k (asked t) <-> exists s, In (k, s) structs /\ asks t s.
Proof.
  unfold asked. rewrite in_map_iff. split.
  - intros ([k' s] & E & H). cbn [fst] in E. subst k'. apply filter_In in H as [H1 H2]. apply asksb_iff in H2. eauto.
  - intros (s & H1 & H2). exists (k, s). split; auto. apply filter_In. split; auto. now apply asksb_iff.
Qed.

Definition par_asks (p : par) (t : rust) : bool := within (par_kinds p) (asked t) && within (asked t) (par_kinds p).
Fixpoint pars_ask (ps : list par) (ts : list rust) : bool :=
  match ps, ts with
  | [], [] => true
  | p :: ps', t :: ts' => par_asks p t && pars_ask ps' ts'
  | _, _ => false
  end.
Lemma par_asks_iff p t k : par_asks p t = true -> (In k (par_kinds p) <-> exists s, In (k, s) structs /\ asks t s).
Proof.
  intro H. apply andb_true_iff in H as [H1 H2]. rewrite <- asked_iff. split; intro I; eapply within_in; eauto.
Qed.

Lemma constructors_ask : forallb (fun q => let '(c, (s, ts)) := q in pars_ask (mk_pars (maker_of c)) ts) constructors = true.
Proof. vm_compute. reflexivity. Qed.
Lemma setters_ask : forallb (fun q => let '(x, (o, t)) := q in par_asks (me_par (method_of x)) t) setters = true.
Proof. vm_compute. reflexivity. Qed.

Lemma new_asks c s ts i t k : In (c, (s, ts)) constructors -> nth_error ts i = Some t ->
  (declared c i k <-> exists n, In (k, n) structs /\ asks t n).
Proof.
  intros I N. pose proof (proj1 (forallb_forall _ _) constructors_ask _ I) as H. cbn beta iota in H. unfold declared.
  revert i t N H. generalize (mk_pars (maker_of c)). clear I. induction ts as [|t0 ts IH]; intros ps i t N H; [destruct i; discriminate N|].
  destruct ps as [|p ps]; [discriminate H|]. cbn [pars_ask] in H. apply andb_true_iff in H as [H1 H2]. destruct i as [|i].
  - injection N as <-. rewrite <- (par_asks_iff p t0 k H1). split; [intros (q & E & J); now injection E as <-|]. intro J. exists p. auto.
  - exact (IH ps i t N H2).
Qed.
Lemma set_asks x o t k : In (x, (o, t)) setters ->
  (In k (par_kinds (me_par (method_of x))) <-> exists n, In (k, n) structs /\ asks t n).
Proof.
  intro I. pose proof (proj1 (forallb_forall _ _) setters_ask _ I) as H. now apply par_asks_iff.
Qed.

(** ** Programs *)

Lemma stmt_typed x w : stmt_ok false x w <-> typed_stmt x w.
Proof.
  destruct x as [c g args|k l|r x a|r|r n]; try apply iff_refl; cbn [typed_stmt].
  - destruct (every_constructor c) as (s & ts & I). rewrite (new_takes c s ts g args w I). split.
    + intros [G F]. split; auto. eauto.
    + intros (G & s' & ts' & I' & F). apply (new_takes c s ts g args w I), (new_takes c s' ts' g args w I'). auto.
  - destruct (every_setter x) as (o & t & I). rewrite (set_takes x o t r a w I). split.
    + intros (k & l & s & H). exists o, t, k, l, s. auto.
    + intros (o' & t' & k & l & s & I' & H). apply (set_takes x o t r a w I), (set_takes x o' t' r a w I'). eauto.
Qed.
Lemma prog_typed xs : forall w, prog_ok false xs w <-> typed_prog xs w.
Proof.
  induction xs as [|x xs IH]; intro w; cbn [prog_ok typed_prog]; [apply iff_refl|]. rewrite stmt_typed. split.
  - intros [H1 H2]. split; auto. intros w' o E. apply IH. eauto.
  - intros [H1 H2]. split; auto. intros w' o E. apply IH. eauto.
Qed.

Lemma typed_runs v h m xs w os x :
  ifc_ok v (mk_ifc h m) -> ~ dangling m -> typed_prog xs (mk_world [] m) ->
  execs xs (mk_world [] m) = Done (w, os) -> typed_stmt x w ->
  exec x w <> Err /\ (exec x w = Panic <-> ~ room (w_map w) (length (uses x)) \/ starred x w) /\
  (forall w' o, exec x w = Done (w', o) -> effect x w w' o).
Proof. intros I D P E S. apply prog_typed in P. apply stmt_typed in S. exact (program_effect v h m xs w os x I D P E S). Qed.
