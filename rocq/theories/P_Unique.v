(** Properties of the identifiers of built models: C60.

    [rooted k]: the first attribute of the kind is a globally unique identifier;
    [has_guid m n g]: object [n] has the identifier [g]; [no_collision o t]: the first [t]
    answers of [Uuid::new_v4] differ. *)

From Coq Require Import String Ascii List NArith ZArith Bool Lia.
From Verif Require Import Base Prims Float FloatFacts Arith Kind Types Schema Entity DataMap DataSpec Header File HeaderSpec FileSpec FileFacts3 StrictTime
  Builder BuilderRun BuilderSpec BuilderLoadSpec BuilderExample UniqueSpec BuilderUnique P_Builder P_Load.
Import ListNotations.
Open Scope N_scope.

(** ** C60: every identifier is drawn, and no two objects share one *)

Theorem C60_drawn o i xs ls r n k l :
  fair o -> program o i xs = Done (ls, r) -> lookup (p_map r) n = Some (Ent k l) -> rooted k = true ->
  exists t tl, (t < p_tick r)%nat /\ l = VGuid (o_guid o t) :: tl.
Proof. exact (program_drawn o i xs ls r n k l). Qed.
Print Assumptions C60_drawn.

Theorem C60_unique o i xs ls r :
  fair o -> program o i xs = Done (ls, r) -> no_collision o (p_tick r) -> unique_guids (p_map r).
Proof. exact (program_unique o i xs ls r). Qed.
Print Assumptions C60_unique.

(** Also in the model that is read back. *)
Theorem C60_loaded v o t i xs ls r :
  sane o -> info_ok i = true -> forallb op_ok xs = true -> existsb is_shading xs = false ->
  program o i xs = Done (ls, r) -> honest [] xs ls -> civil t -> chrono_reads v t -> no_collision o (p_tick r) ->
  exists y, load v (save (mk_ifc (default_header t) (p_map r))) = Done y /\ unique_guids (i_data y).
Proof. exact (loaded_unique v o t i xs ls r). Qed.
Print Assumptions C60_loaded.

(** The builder does not compare: if the generator repeats itself, so does the model. *)
Theorem C60_collision_refuted :
  exists o i xs ls r, fair o /\ program o i xs = Done (ls, r) /\ ~ unique_guids (p_map r).
Proof.
  exists (mk_oracle (fun _ => guid1 0) (fun _ => 0%Z) (fun _ l => l) true), info1, [ONewSite (lit "A") v_zero; ODrop].
  eexists. eexists. split; [intros t l; apply Permutation.Permutation_refl|]. split; [vm_compute; reflexivity|].
  intro H. assert (E : 14 = 19); [|discriminate E].
  apply (H 14 19 (guid1 0)); eexists; eexists; (split; [vm_compute; reflexivity|reflexivity]).
Qed.
Print Assumptions C60_collision_refuted.

Lemma guid1_apart t : (t <= 256)%nat -> no_collision oracle1 t.
Proof.
  intros Ht a b Ha Hb E. cbn [o_guid oracle1] in E. unfold guid1 in E. injection E as E.
  rewrite !N.mod_small in E by lia. lia.
Qed.

Example C60_meets :
  sane oracle1 /\ info_ok info1 = true /\ forallb op_ok ops1 = true /\ existsb is_shading ops1 = false /\
  honest [] ops1 ls1 /\ civil stamp1 /\ chrono_reads env0 stamp1 /\
  exists r, program oracle1 info1 ops1 = Done (ls1, r) /\ no_collision oracle1 (p_tick r) /\
    length (filter (fun x => rooted (kind_of (snd x))) (p_map r)) = 48%nat /\
    has_guid (p_map r) 19 (guid1 3).
Proof.
  destruct C29_example as (H1 & H2 & H3 & H4 & H5 & H6 & H7 & r & H8 & _).
  refine (conj H1 (conj H2 (conj H3 (conj H4 (conj H5 (conj H6 (conj H7 _))))))).
  assert (E : exists r, program oracle1 info1 ops1 = Done (ls1, r) /\ Nat.leb (p_tick r) 256 = true /\
    length (filter (fun x => rooted (kind_of (snd x))) (p_map r)) = 48%nat /\
    exists l, lookup (p_map r) 19 = Some (Ent KSite (VGuid (guid1 3) :: l))).
  { eexists. split; [vm_compute; reflexivity|]. split; [vm_compute; reflexivity|]. split; [vm_compute; reflexivity|].
    eexists. vm_compute. reflexivity. }
  destruct E as (r' & E1 & E2 & E3 & l & E4). exists r'. split; [exact E1|]. split; [|split; [exact E3|]].
  - apply guid1_apart. now apply Nat.leb_le.
  - exists KSite, l. split; [exact E4|reflexivity].
Qed.
