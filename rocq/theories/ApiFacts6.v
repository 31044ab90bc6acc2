(** The kinds listed in ApiSpec.v against the declared parameters: what is listed as
    refused is declared, what is listed as extra is not. *)

From Coq Require Import String List NArith Arith Bool.
From Verif Require Import Base Prims Kind Types Schema Entity EntityFacts Api ApiSpec.
Import ListNotations.

Lemma among_in k ks : among k ks = true <-> In k ks.
Proof.
  unfold among. rewrite existsb_exists. split.
  - intros [x [H E]]. apply kind_eqb_eq in E. now subst.
  - intro H. exists k. split; [exact H|]. now apply kind_eqb_eq.
Qed.

Definition declaredb (c : ctor) (i : nat) (k : kind) : bool :=
  match nth_error (mk_pars (maker_of c)) i with
  | Some p => among k (par_kinds p)
  | None => false
  end.
Lemma declaredb_ok c i k : declaredb c i k = true <-> declared c i k.
Proof.
  unfold declaredb, declared. destruct (nth_error _ i) as [p|].
  - rewrite among_in. split; [intro H; now exists p|]. intros [q [E H]]. injection E as <-. exact H.
  - split; [discriminate|]. intros [q [E _]]. discriminate.
Qed.

Lemma refused_table c i : forallb (declaredb c i) (refused c i) = true.
Proof. destruct c; destruct i as [|[|[|i]]]; vm_compute; reflexivity. Qed.
Lemma extra_table c : forall i, forallb (fun k => negb (declaredb c i k)) (extra c i) = true.
Proof. intro i. destruct c; destruct i; vm_compute; reflexivity. Qed.

Lemma refused_declared c i k : In k (refused c i) -> declared c i k.
Proof.
  intro H. apply declaredb_ok. pose proof (refused_table c i) as T. rewrite forallb_forall in T. exact (T k H).
Qed.
Lemma extra_undeclared c i k : In k (extra c i) -> ~ declared c i k.
Proof.
  intros H D. apply declaredb_ok in D. pose proof (extra_table c i) as T. rewrite forallb_forall in T.
  specialize (T k H). rewrite D in T. discriminate.
Qed.

Lemma setter_tables s :
  forallb (fun k => among k (par_kinds (me_par (method_of s)))) (refused_set s) = true /\
  forallb (fun k => negb (among k (par_kinds (me_par (method_of s))))) (extra_set s) = true.
Proof. destruct s; split; vm_compute; reflexivity. Qed.

Lemma refused_set_declared s k : In k (refused_set s) -> In k (par_kinds (me_par (method_of s))).
Proof.
  intro H. destruct (setter_tables s) as [T _]. rewrite forallb_forall in T. apply among_in. exact (T k H).
Qed.
Lemma extra_set_undeclared s k : In k (extra_set s) -> ~ In k (par_kinds (me_par (method_of s))).
Proof.
  intros H D. destruct (setter_tables s) as [_ T]. rewrite forallb_forall in T. specialize (T k H).
  apply among_in in D. rewrite D in T. discriminate.
Qed.
