(** A check of programs, for examples. *)

From Coq Require Import String Ascii List NArith ZArith Bool Lia ZifyBool ZifyNat ZifyN.
From Verif Require Import Mapping Base Prims Guid Float Kind Types WellTyped Schema Entity EntitySpec DataMap DataSpec DataMapFacts
  Header File HeaderSpec FileSpec EntityFacts Api ApiSpec ApiFacts3 ApiFacts5.
Import ListNotations.
Open Scope N_scope.

Definition there (m : dmap) (n : N) : bool := match lookup m n with Some _ => true | None => false end.

Definition refb (ks : list kind) (rs : list reg) (m : dmap) (i : item) : bool :=
  match i with
  | IPlain _ => false
  | IId n => there m n
  | IReg r => match nth_error rs r with Some x => among (fst x) ks | None => false end
  end.
Definition idb (m : dmap) (i : item) : bool := match i with IId n => there m n | _ => false end.
Definition newb (ks : list kind) (rs : list reg) (i : item) : bool :=
  match i with IReg r => match nth_error rs r with Some x => among (fst x) ks | None => false end | _ => false end.
Definition plainb (t : fty) (i : item) : bool := match i with IPlain v => wt t v | _ => false end.

Definition argb (rs : list reg) (m : dmap) (p : par) (a : arg) : bool :=
  match p, a with
  | PPlain t, AOne i => plainb t i
  | POption t, ANone => true
  | POption t, AOne i => plainb t i
  | PValues t, AMany l => forallb (plainb t) l
  | PIdOr ks, AOne i => refb ks rs m i
  | PIdOrs ks, AMany l => forallb (refb ks rs m) l
  | PTyped _, AOne i => idb m i
  | PTypeds _, AMany l => forallb (idb m) l
  | PNew ks, AOne i => newb ks rs i
  | PNews ks, AMany l => forallb (newb ks rs) l
  | PRaw, AOne i => idb m i
  | POptionRaw, ANone => true
  | POptionRaw, AOne i => idb m i
  | PRaws, AMany l => forallb (idb m) l
  | _, _ => false
  end.

Lemma there_ok m n : there m n = true -> exists e, lookup m n = Some e.
Proof. unfold there. destruct (lookup m n); [eauto|discriminate]. Qed.

Lemma among_In k ks : among k ks = true -> In k ks.
Proof. intro H. apply existsb_exists in H as (k' & H & E). apply kind_eqb_eq in E. now subst. Qed.

Lemma refb_ok ks rs m i : refb ks rs m i = true -> item_ref ks rs m i.
Proof.
  destruct i as [v|n|r]; cbn [refb item_ref]; [discriminate|apply there_ok|].
  destruct (nth_error rs r) as [x|]; [|discriminate]. intro H. exists x. split; auto. now apply among_In.
Qed.

Lemma idb_ok m i : idb m i = true -> item_id m i.
Proof. destruct i; cbn [idb item_id]; try discriminate. apply there_ok. Qed.

Lemma newb_ok ks rs i : newb ks rs i = true -> item_new ks rs i.
Proof.
  destruct i as [v|n|r]; cbn [newb item_new]; try discriminate.
  destruct (nth_error rs r) as [x|]; [|discriminate]. intro H. exists x. split; auto. now apply among_In.
Qed.

Lemma plainb_ok t i : plainb t i = true -> item_plain t i.
Proof. destruct i; cbn [plainb item_plain]; try discriminate. auto. Qed.

Lemma all_ok {A} (b : A -> bool) (P : A -> Prop) l : (forall x, b x = true -> P x) -> forallb b l = true -> Forall P l.
Proof. intros H F. apply Forall_forall. rewrite forallb_forall in F. auto. Qed.

Lemma argb_ok rs m p a : argb rs m p a = true -> arg_ok rs m p a.
Proof.
  destruct p, a; cbn [argb arg_ok]; try discriminate; auto;
    try apply plainb_ok; try apply refb_ok; try apply idb_ok; try apply newb_ok;
    apply all_ok; intro; try apply plainb_ok; try apply refb_ok; try apply idb_ok; try apply newb_ok.
Qed.

(** The kinds an argument refers to. *)
Definition kinds_of (rs : list reg) (m : dmap) (a : arg) : list kind :=
  map fst (objects rs (arg_regs a)) ++
  flat_map (fun n => match lookup m n with Some e => [kind_of e] | None => [] end) (arg_ids a).

Lemma kinds_of_ok rs m a k : refers rs m a k -> In k (kinds_of rs m a).
Proof.
  intros [(r & x & Hr & E & <-)|(n & e & Hn & E & <-)]; apply in_or_app.
  - left. apply in_map. unfold objects. apply in_flat_map. exists r. split; auto. rewrite E. now left.
  - right. apply in_flat_map. exists n. split; auto. rewrite E. now left.
Qed.

Fixpoint argsb (rs : list reg) (m : dmap) (ps : list par) (args : list arg) : bool :=
  match ps, args with
  | [], [] => true
  | p :: ps', a :: args' => argb rs m p a && argsb rs m ps' args'
  | _, _ => false
  end.

Lemma argsb_ok rs m ps : forall args, argsb rs m ps args = true -> args_ok rs m ps args.
Proof.
  induction ps as [|p ps IH]; intros [|a args] H; try discriminate.
  - split; [reflexivity|]. intros [|i]; discriminate.
  - cbn [argsb] in H. apply andb_true_iff in H as [H1 H2]. destruct (IH args H2) as [L N]. split; [cbn [length]; congruence|].
    intros [|i] q b E1 E2; cbn [nth_error] in *; [|eauto]. injection E1 as <-. injection E2 as <-. now apply argb_ok.
Qed.

Fixpoint acceptedb (rs : list reg) (m : dmap) (c : ctor) (i : nat) (args : list arg) : bool :=
  match args with
  | [] => true
  | a :: args' => forallb (accepted c i) (kinds_of rs m a) && acceptedb rs m c (S i) args'
  end.

Lemma acceptedb_ok rs m c args : forall i, acceptedb rs m c i args = true ->
  forall j a k, nth_error args j = Some a -> refers rs m a k -> accepted c (i + j)%nat k = true.
Proof.
  induction args as [|b args IH]; intros i H [|j] a k E R; try discriminate; cbn [acceptedb nth_error] in *;
    apply andb_true_iff in H as [H1 H2].
  - injection E as <-. rewrite forallb_forall in H1. rewrite PeanoNat.Nat.add_0_r. apply H1. now apply kinds_of_ok.
  - replace (i + S j)%nat with (S i + j)%nat by lia. eauto.
Qed.

(** Statements other than literals. *)
Definition stmtb (strict : bool) (x : stmt) (w : world) : bool :=
  let rs := w_regs w in
  let m := w_map w in
  match x with
  | SNew c g args => guid_ok g && argsb rs m (mk_pars (maker_of c)) args && (negb strict || acceptedb rs m c 0 args)
  | SLit _ _ => false
  | SSet r s a => match nth_error rs r with
                  | Some x => among (fst x) (me_kinds (method_of s)) && argb rs m (me_par (method_of s)) a &&
                      (negb strict || forallb (accepted_set s (fst x)) (kinds_of rs m a))
                  | None => false
                  end
  | SInsert r => match nth_error rs r with Some _ => true | None => false end
  | SSwap r n => match nth_error rs r, lookup m n with Some x, Some (Ent k _) => kind_eqb k (fst x) | _, _ => false end
  end.

Lemma stmtb_ok strict x w : stmtb strict x w = true -> stmt_ok strict x w.
Proof.
  destruct x as [c g args|k l|r s a|r|r n]; cbn [stmtb stmt_ok]; intro H; try discriminate.
  - apply andb_true_iff in H as [H H3]. apply andb_true_iff in H as [H1 H2]. split; auto. split; [now apply argsb_ok|].
    intros ->. cbn [negb orb] in H3. intros i a k. apply (acceptedb_ok _ _ _ _ 0%nat H3).
  - destruct (nth_error (w_regs w) r) as [x|]; [|discriminate]. apply andb_true_iff in H as [H H3]. apply andb_true_iff in H as [H1 H2].
    exists x. split; auto. split; [now apply among_In|]. split; [now apply argb_ok|].
    intros ->. cbn [negb orb] in H3. rewrite forallb_forall in H3. intros k R. apply H3. now apply kinds_of_ok.
  - destruct (nth_error (w_regs w) r) as [x|]; [|discriminate]. eauto.
  - destruct (nth_error (w_regs w) r) as [x|]; [|discriminate]. destruct (lookup (w_map w) n) as [[k l|]|] eqn:E; try discriminate.
    apply kind_eqb_eq in H. subst. eauto.
Qed.

Fixpoint progb (strict : bool) (xs : list stmt) (w : world) : bool :=
  match xs with
  | [] => true
  | x :: xs' => stmtb strict x w && match exec x w with Done (w', _) => progb strict xs' w' | _ => true end
  end.

Lemma progb_ok strict xs : forall w, progb strict xs w = true -> prog_ok strict xs w.
Proof.
  induction xs as [|x xs IH]; intros w H; cbn [progb prog_ok] in *; auto. apply andb_true_iff in H as [H1 H2].
  split; [now apply stmtb_ok|]. intros w' o E. rewrite E in H2. auto.
Qed.
