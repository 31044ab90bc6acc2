(** What a builder program leaves can be loaded again, unless there is a shading device. *)

From Coq Require Import String Ascii List NArith ZArith Bool Lia Permutation.
From Coq Require Import ZifyBool ZifyNat ZifyN.
From Verif Require Import Base Prims PrimsFacts Float Kind Types WellTyped TypesFacts Schema Entity EntitySpec
  EntityFacts DataMap DataSpec DataMapFacts Header File HeaderSpec HeaderFacts FileSpec FileFacts FileFacts2 FileFacts3
  Extractor Arith ArithFacts Builder BuilderRun BuilderBase
  BuilderGrow BuilderAny BuilderSpec BuilderLoadSpec TemplateSpec BuilderGood BuilderGood2 BuilderGood3 BuilderInv BuilderAll BuilderIds
  BuilderOut.
Import ListNotations.
Open Scope N_scope.
Open Scope builder_scope.

Section Start.
Variable K : N -> option kind.
Hypothesis HK : forall n k, K n = Some k -> n <= max_usize.
Variables sh : bool.
Variable o : oracle.
Hypothesis Ho : sane o.

Notation "n 'is' k" := (K n = Some k) (at level 70).
Ltac call := first [ solve [eauto with good] | apply tr_ins; solve [made] ].
Tactic Notation "bind" tactic3(t) :=
  eapply tr_bind; [t|solve [st]|intro; solve [st]|intros; cbv beta in *; facts].
Ltac bindc := eapply tr_bind; [call|solve [st]|intro; solve [st]|intros; cbv beta in *; facts].
Hint Resolve tr_guid tr_now tr_axis3d : good.

Lemma app_nil_inv {A} (l l' : list A) : l ++ l' = [] -> l = [] /\ l' = [].
Proof. now destruct l, l'. Qed.

Lemma tr_new_project up i :
  info_ok i = true ->
  tr K sh up (new_project o i) (fun r => fst r is KOwnerHistory /\ snd r is KProject).
Proof.
  intro Hi. unfold info_ok in Hi. 
  destruct (entity_refs _ ++ entity_refs _) eqn:E; [|rewrite andb_false_r in Hi; discriminate].
  apply app_nil_inv in E as [E1 E2].
  repeat match goal with H : _ && _ = true |- _ => apply andb_true_iff in H as [? ?] end.
  unfold new_project, si_unit.
  bind (apply tr_ins; eapply good_intro; [reflexivity|apply gvs_plain; assumption|place]).
  bindc.
  bind (apply tr_ins; eapply good_intro; [reflexivity|apply gvs_plain; assumption|place]).
  bindc. bindc. bindc. bindc. bindc. bindc. bindc. bindc. bindc. bindc. bindc. bindc. bindc. bindc. bindc.
  apply tr_ret. auto.
Qed.
End Start.

(** ** The whole program *)

Definition kinds (m : dmap) (n : N) : option kind := option_map kind_of (lookup m n).

Lemma kinds_some m n k : kinds m n = Some k <-> exists e, lookup m n = Some e /\ kind_of e = k.
Proof.
  unfold kinds. destruct (lookup m n) as [e|]; cbn [option_map].
  - split; [intro H; injection H as <-; eauto|intros (e' & H & <-); now injection H as ->].
  - split; [discriminate|intros (e & H & _); discriminate H].
Qed.

Lemma dense_max m n k : dense m -> kinds m n = Some k -> n <= max_usize.
Proof.
  intros Hd H. apply kinds_some in H as (e & H & _).
  assert (Hin : In n (map fst m)) by (change n with (fst (n, e)); apply in_map; now apply lookup_In).
  apply dense_In in Hin; auto. destruct Hd as [_ Hd]. lia.
Qed.

Lemma start_good K sh o i p :
  (forall n k, K n = Some k -> n <= max_usize) -> sane o -> info_ok i = true ->
  start o i = Done p -> below K p -> inv K sh true p.
Proof.
  intros HK Ho Hi H Hb. apply start_done in H as (oh & pr & q & E & ->).
  assert (Hb' : below K q) by exact Hb.
  assert (HI : inv K sh false empty_proj).
  { split; [apply dense_nil|]. split; [intros n e X; discriminate X|discriminate]. }
  destruct (tr_new_project K HK sh o Ho false i Hi _ _ _ E Hb' HI) as ((D & G & _) & H1 & H2).
  clear E HI. split; [exact D|]. split; [exact G|]. intros _.
  cbn [p_owner p_project p_assoc p_sites fst snd] in *. auto.
Qed.

Lemma program_good o i xs ls r :
  sane o -> info_ok i = true -> forallb op_ok xs = true ->
  program o i xs = Done (ls, r) -> honest [] xs ls ->
  let sh := existsb is_shading xs in
  inv (kinds (p_map r)) sh true r /\
  Forall (fun kn => kinds (p_map r) (snd kn) = Some (fst kn)) (given xs ls).
Proof.
  intros Ho Hi Hx H Hh sh. apply program_inv in H as (p & w & q & H1 & H2 & -> & H3).
  pose proof H1 as H1'. apply start_inv in H1' as (D0 & _).
  set (K := kinds (p_map r)).
  assert (G2 : grow anything p q).
  { assert (G : steps (grow anything) (run o AtProject xs)) by st. eapply G; eauto. }
  assert (D1 : dense (p_map q)) by (apply (G2 D0)).
  assert (G3 : grow anything q r).
  { assert (G : steps (grow anything) (build o)) by st. eapply G; eauto. }
  assert (D2 : dense (p_map r)) by (apply (G3 D1)).
  assert (HK : forall n k, K n = Some k -> n <= max_usize) by (intros n k; now apply dense_max).
  assert (B2 : below K r).
  { intros n e He. apply kinds_some. eauto. }
  assert (B1 : below K q) by (eapply grow_below; eauto).
  assert (B0 : below K p) by (eapply grow_below; eauto).
  pose proof (start_good K sh o i p HK Ho Hi H1 B0) as I0.
  destruct (tr_run K HK sh true o Ho eq_refl xs AtProject [] I Hx (fun E => E) (Forall_nil _) _ _ _ H2 B1 I0 Hh)
    as (I1 & _ & Hg).
  destruct (tr_build K HK sh true o Ho eq_refl _ _ _ H3 B2 I1) as [I2 _]. auto.
Qed.

Lemma good_wf K sh e : good_ent K sh e -> wf_obj e.
Proof. destruct e as [k l|s]; [|intros []]. intros (r & H1 & H2 & _). exists r. auto. Qed.

Lemma inv_wf K sh r : inv K sh true r -> increasing (p_map r) /\ Forall wf_def (p_map r).
Proof.
  intros (D & G & _). pose proof (dense_increasing _ D) as Hi. split; auto. apply Forall_forall.
  intros [n e] Hin. split; cbn [fst snd].
  - assert (Hn : In n (map fst (p_map r))) by (change n with (fst (n, e)); now apply in_map).
    apply dense_In in Hn; auto. destruct D as [_ D]. clear - Hn D. lia.
  - eapply good_wf. eapply G. apply In_lookup; eauto.
Qed.

Lemma default_ok v t : civil t -> chrono_reads v t -> header_ok v (default_header t).
Proof.
  intros H1 H2. unfold header_ok, default_header, plain.
  cbn [h_views h_name h_time h_authors h_orgs h_pre h_sys h_auth].
  assert (P : forall x : N, ~ In x []) by (intros x []).
  repeat (split; auto); repeat constructor; auto.
Qed.

Lemma built_ok v t K sh r :
  inv K sh true r -> civil t -> chrono_reads v t -> ifc_ok v (mk_ifc (default_header t) (p_map r)).
Proof. intros H H1 H2. split; [now apply default_ok|]. cbn [i_data]. eapply inv_wf; eauto. Qed.

Lemma refs_good K fs : forall l, Forall2 (gv K) fs l -> Forall (fun r => good_ref K (fst r) (snd r)) (refs_list fs l).
Proof.
  intros l H. induction H as [|f v fs l [_ H] _ IH]; cbn [refs_list]; [constructor|]. apply Forall_app. auto.
Qed.

Lemma good_refs_ok m e : good_ent (kinds m) false e -> good_refs m e.
Proof.
  destruct e as [k l|s]; [|intros []]. intros (r & H1 & _ & H & _) ks n Hc.
  apply entity_refs_checked in Hc. cbn [entity_refs] in Hc. rewrite H1 in Hc.
  assert (HF : loose false k = false) by reflexivity. specialize (H HF). apply refs_good in H.
  rewrite Forall_forall in H. destruct (H _ Hc) as (k' & Hk & Hin). cbn [fst snd] in *.
  apply kinds_some in Hk as (e & He & <-). exists e. split; auto. now left.
Qed.

Lemma built_refs m : increasing m -> (forall n e, lookup m n = Some e -> good_ent (kinds m) false e) -> refs_ok m.
Proof.
  intros Hi H ks n (i & e & Hin & Hc). exact (good_refs_ok m e (H i e (In_lookup _ _ _ Hi Hin)) ks n Hc).
Qed.

(** ** Without shading devices *)

Theorem builder_loads v o t i xs ls r :
  sane o -> info_ok i = true -> forallb op_ok xs = true -> existsb is_shading xs = false ->
  program o i xs = Done (ls, r) -> honest [] xs ls ->
  civil t -> chrono_reads v t ->
  load v (save (mk_ifc (default_header t) (p_map r))) = Done (norm_ifc (mk_ifc (default_header t) (p_map r))) /\
  (exact_ifc (mk_ifc (default_header t) (p_map r)) ->
   load v (save (mk_ifc (default_header t) (p_map r))) = Done (mk_ifc (default_header t) (p_map r))).
Proof.
  intros Ho Hi Hx Hs H Hh H1 H2. destruct (program_good _ _ _ _ _ Ho Hi Hx H Hh) as [HI _]. rewrite Hs in HI.
  pose proof (built_ok v t _ _ _ HI H1 H2) as Hok.
  assert (Hr : refs_ok (i_data (mk_ifc (default_header t) (p_map r)))).
  { cbn [i_data]. destruct HI as (D & G & _). apply built_refs; auto. now apply dense_increasing. }
  pose proof (load_saved v _ Hok Hr) as HL. split; [exact HL|]. intro He. rewrite HL. f_equal.
  now apply norm_exact with v.
Qed.

(** The fraction of the second is not printed. *)
Lemma save_whole h m : save (mk_ifc h m) = save (mk_ifc (whole_second h) m).
Proof. reflexivity. Qed.

(** ** With shading devices *)

Lemma step_shading o w x p w' a p' :
  step o w x p = Done ((w', a), p') -> is_shading x = true -> exists s b st n, w = AtStorey s b st /\ a = [n].
Proof.
  intros H Hx. destruct x; try discriminate Hx. destruct w; try discriminate H. cbn [step storey_step] in H.
  apply bbind_inv in H as ([st' l] & q & H & H'). apply bbind_inv in H as ([n st''] & q' & H0 & H).
  cbn [fst snd] in *. injection H as <- <- <-. injection H' as <- <- <-. eauto 6.
Qed.

Lemma calls_shading o pr xs : fair o -> forall kn w tr p w' ls p',
  ri pr kn w tr p -> run o w xs p = Done (w', ls, p') -> honest kn xs ls -> existsb is_shading xs = true ->
  exists s n, In (s, n) (flat_map call_contains (calls (scope_ids w) xs ls)) /\ In (KShadingDevice, n) (given xs ls).
Proof.
  intro Ho. induction xs as [|x xs IH]; intros kn w tr p w' ls p' R H Hh Hs; [discriminate|].
  cbn [run] in H. apply bbind_inv in H as ([w1 a] & q & H1 & H). cbn [fst snd] in H.
  apply bbind_inv in H as ([w2 l] & q' & H2 & H). injection H as <- <- <-.
  cbn [honest] in Hh. destruct Hh as (Hu & Ha & Hh). cbn [existsb] in Hs.
  destruct (step_ri o Ho _ _ _ _ _ _ _ _ _ R H1 Hu) as [R' E].
  cbn [calls flat_map given combine fst snd]. rewrite <- E.
  destruct (is_shading x) eqn:Ex.
  - destruct (step_shading _ _ _ _ _ _ _ H1 Ex) as (s & b & st & n & -> & ->).
    exists (s_id st), n. split; apply in_or_app; left; destruct x; try discriminate Ex; cbn [scope_ids call_contains returned]; now left.
  - destruct (IH _ _ _ _ _ _ _ R' H2 Hh Hs) as (s & n & I1 & I2). exists s, n. split; apply in_or_app; now right.
Qed.

Lemma pairs_In k i j m a b :
  In (a, b) (pairs k i j m) -> exists n l, In (n, Ent k l) m /\ In a (ids_at l i) /\ In b (ids_at l j).
Proof.
  unfold pairs, objects. intro H. apply in_flat_map in H as (l & H1 & H2). apply in_prod_iff in H2 as [H2 H3].
  apply in_flat_map in H1 as ([n e] & H0 & H1). cbn [snd] in H1. destruct e as [k' l'|s]; [|contradiction].
  destruct (kind_eqb k' k) eqn:E; [|contradiction]. destruct H1 as [<-|[]]. apply kind_eqb_eq in E. subst k'.
  eauto 6.
Qed.

Definition contained_kinds : list kind :=
  [KSite; KBuilding; KStorey; KOpeningElement; KSlab; KRoof; KWall; KWindow; KDoor].

Lemma contained_ref l n : wf_ent KRelContainedInSpatialStructure l -> In n (ids_at l 4) ->
  checked_ref (Ent KRelContainedInSpatialStructure l) contained_kinds n.
Proof.
  intros (r & Hr & Hw) Hn. unfold ids_at in Hn. destruct (nth_error l 4) as [v|] eqn:E; [|contradiction].
  exists KRelContainedInSpatialStructure, l, row_RelContainedInSpatialStructure, 4%nat,
    (TList (TRef contained_kinds true)), v.
  split; [reflexivity|]. split; [reflexivity|]. split; [reflexivity|]. split; [exact E|].
  assert (Ht : wt (TList (TRef contained_kinds true)) v = true).
  { injection Hr as <-. clear - Hw E. destruct l as [|? [|? [|? [|? [|v' l]]]]]; try discriminate E.
    cbn [nth_error] in E. injection E as ->. cbn [row_fields row_RelContainedInSpatialStructure] in Hw.
    apply andb_true_iff in Hw as [_ Hw]. apply andb_true_iff in Hw as [_ Hw]. apply andb_true_iff in Hw as [_ Hw].
    apply andb_true_iff in Hw as [_ Hw]. apply andb_true_iff in Hw as [Hw _]. exact Hw. }
  destruct v; try discriminate Ht. 
  apply in_flat_map in Hn as (v & Hv & Hn). destruct v; try contradiction. destruct Hn as [<-|[]].
  eapply points_list; [exact Hv|]. constructor.
Qed.

Theorem shading_misdirected o i xs ls r :
  sane o -> info_ok i = true -> forallb op_ok xs = true -> existsb is_shading xs = true ->
  program o i xs = Done (ls, r) -> honest [] xs ls -> misdirected (p_map r).
Proof.
  intros Ho Hi Hx Hs H Hh. destruct (program_good _ _ _ _ _ Ho Hi Hx H Hh) as [HI HG].
  pose proof (proj1 (out_contains o (proj1 Ho) _ _ _ _ H Hh)) as HP.
  apply program_inv in H as (p & w & q & H1 & H2 & -> & H3). pose proof (start_ri _ _ _ H1) as R0.
  destruct (calls_shading o _ xs (proj1 Ho) _ _ _ _ _ _ _ R0 H2 Hh Hs) as (s & n & I1 & I2).
  cbn [scope_ids] in I1. apply Permutation_sym in HP. apply (Permutation_in _ HP) in I1.
  apply pairs_In in I1 as (j & l & J1 & _ & J2).
  rewrite Forall_forall in HG. specialize (HG _ I2). cbn [fst snd] in HG. apply kinds_some in HG as (e & He & Hk).
  exists contained_kinds, n, e. destruct (inv_wf _ _ _ HI) as [Hinc Hwf]. rewrite Forall_forall in Hwf.
  destruct (Hwf _ J1) as [_ Hwf']. cbn [snd wf_obj] in Hwf'.
  split; [exists j, (Ent KRelContainedInSpatialStructure l); split; auto; now apply contained_ref|].
  split; auto. intros [H|H]; rewrite Hk in H; [|discriminate].
  cbn in H. repeat (destruct H as [H|H]; [discriminate H|]). exact H.
Qed.

Lemma points_ids ks t : forall v n, points t v ks n -> t = TRef ks true \/ t = TList (TRef ks true) ->
  match v with
  | VId x => x = n
  | VList vs => In n (flat_map (fun v => match v with VId n => [n] | _ => [] end) vs)
  | _ => False
  end.
Proof.
  intros v n H [-> | ->]; inversion H; subst; auto.
  match goal with H : points (TRef _ _) _ _ _ |- _ => inversion H; subst end.
  apply in_flat_map. eexists. split; [eassumption|]. now left.
Qed.

(** The references of a containment relation that are checked are those to the elements
    and to the storey. *)
Lemma contained_checked l ks n : checked_ref (Ent KRelContainedInSpatialStructure l) ks n ->
  In n (ids_at l 4) \/ In n (ids_at l 5).
Proof.
  intros (k & l' & r & i & f & v & E & Hr & Hf & Hv & Hp). injection E as <- <-. injection Hr as <-.
  destruct i as [|[|[|[|[|[|i]]]]]];
    try (cbn in Hf; injection Hf as <-; exfalso; inversion Hp; subst;
         match goal with H : points _ _ _ _ |- _ => inversion H; fail end);
    try (cbn in Hf; injection Hf as <-; exfalso; inversion Hp; fail).
  - injection Hf as <-. left. unfold ids_at. rewrite Hv. assert (ks = contained_kinds) as -> .
    { inversion Hp; subst. match goal with H : points (TRef _ _) _ _ _ |- _ => inversion H; subst end. reflexivity. }
    apply points_ids in Hp; [|now right]. destruct v; auto; try contradiction; subst; now left.
  - injection Hf as <-. right. unfold ids_at. rewrite Hv. assert (ks = contained_kinds) as -> by (inversion Hp; subst; reflexivity).
    apply points_ids in Hp; [|now left]. destruct v; auto; try contradiction; subst; now left.
  - destruct i; discriminate Hf.
Qed.

Lemma calls_ids xs : forall s ls c n, In c (calls s xs ls) -> In n (snd c) -> In n (concat ls).
Proof.
  induction xs as [|x xs IH]; intros s [|a ls] c n Hc Hn; cbn [calls] in Hc; try contradiction.
  cbn [concat]. apply in_or_app. destruct Hc as [<-|Hc]; [now left|]. right. eauto.
Qed.
Lemma contains_ids c p : In p (call_contains c) -> In (snd p) (snd c).
Proof.
  destruct c as [[s x] a]. unfold call_contains. intro H.
  repeat match type of H with In _ (match ?u with _ => _ end) => destruct u; try contradiction end;
    destruct H as [<-|[]]; cbn [snd]; auto using in_eq, in_cons.
Qed.
Lemma storey_ids c n : In n (call_storey c) -> In n (snd c).
Proof.
  destruct c as [[s x] a]. unfold call_storey. intro H.
  repeat match type of H with In _ (match ?u with _ => _ end) => destruct u; try contradiction end;
    destruct H as [<-|[]]; cbn [snd]; auto using in_eq.
Qed.

Lemma given_there o i xs ls r n :
  program o i xs = Done (ls, r) -> dense (p_map r) -> In n (concat ls) -> exists e, lookup (p_map r) n = Some e.
Proof.
  intros H D Hn. apply program_ids in H as (Hs & _ & Hle). specialize (Hle _ Hn).
  apply Sorted.StronglySorted_inv in Hs as [_ Hs]. rewrite Forall_forall in Hs. specialize (Hs _ Hn).
  assert (Hin : In n (map fst (p_map r))) by (apply dense_In; auto; lia).
  apply in_map_iff in Hin as ([n' e] & E & Hin). cbn [fst] in E. subst n'. exists e.
  apply In_lookup; auto. now apply dense_increasing.
Qed.

Theorem built_not_dangling o i xs ls r :
  sane o -> info_ok i = true -> forallb op_ok xs = true ->
  program o i xs = Done (ls, r) -> honest [] xs ls -> ~ dangling (p_map r).
Proof.
  intros Ho Hi Hx H Hh (ks & n & (j & e & Hin & Hc) & Hl).
  destruct (program_good _ _ _ _ _ Ho Hi Hx H Hh) as [(D & G & _) _].
  pose proof (G _ _ (In_lookup _ _ _ (dense_increasing _ D) Hin)) as Hg.
  destruct e as [k l|s]; [|destruct Hg].
  destruct (loose (existsb is_shading xs) k) eqn:E.
  - unfold loose in E. apply andb_true_iff in E as [_ E]. apply kind_eqb_eq in E. subst k.
    destruct (out_contains o (proj1 Ho) _ _ _ _ H Hh) as (P1 & _ & P2 & _).
    assert (Hn : In n (concat ls)).
    { assert (H5 : exists s, In s (ids_at l 5)).
      { destruct Hg as (r0 & Hr & Hw & _). injection Hr as <-. clear - Hw.
        destruct l as [|? [|? [|? [|? [|? [|v l]]]]]]; try discriminate Hw;
          try (cbn in Hw; rewrite ?andb_false_r in Hw; discriminate Hw).
        cbn [row_fields row_RelContainedInSpatialStructure] in Hw.
        do 5 (apply andb_true_iff in Hw as [_ Hw]). apply andb_true_iff in Hw as [Hw _].
        destruct v; try discriminate Hw. unfold ids_at. cbn [nth_error]. eexists. now left. }
      destruct (contained_checked _ _ _ Hc) as [H4|H4].
      - destruct H5 as (s & H5).
        assert (HP : In (s, n) (pairs KRelContainedInSpatialStructure 5 4 (p_map r))).
        { unfold pairs. apply in_flat_map. exists l. split; [|now apply in_prod].
          unfold objects. apply in_flat_map. exists (j, Ent KRelContainedInSpatialStructure l). split; auto.
          cbn [snd]. rewrite (proj2 (kind_eqb_eq _ _) eq_refl). now left. }
        apply (Permutation_in _ P1) in HP. apply in_flat_map in HP as (c & HC & HP).
        apply contains_ids in HP. eapply calls_ids; eauto.
      - assert (HP : In n (ones KRelContainedInSpatialStructure 5 (p_map r))).
        { unfold ones. apply in_flat_map. exists l. split; auto.
          unfold objects. apply in_flat_map. exists (j, Ent KRelContainedInSpatialStructure l). split; auto.
          cbn [snd]. rewrite (proj2 (kind_eqb_eq _ _) eq_refl). now left. }
        apply (Permutation_in _ P2) in HP. apply in_flat_map in HP as (c & HC & HP).
        apply storey_ids in HP. eapply calls_ids; eauto. }
    destruct (given_there _ _ _ _ _ _ H D Hn) as (e & He). rewrite He in Hl. discriminate.
  - destruct Hg as (r0 & Hr & _ & HF & _). specialize (HF E). apply refs_good in HF.
    apply entity_refs_checked in Hc. cbn [entity_refs] in Hc. rewrite Hr in Hc. rewrite Forall_forall in HF.
    destruct (HF _ Hc) as (k' & Hk & _). cbn [snd] in Hk. apply kinds_some in Hk as (e & He & _).
    rewrite He in Hl. discriminate.
Qed.

Theorem shading_refused v o t i xs ls r :
  sane o -> info_ok i = true -> forallb op_ok xs = true -> existsb is_shading xs = true ->
  program o i xs = Done (ls, r) -> honest [] xs ls -> civil t -> chrono_reads v t ->
  load v (save (mk_ifc (default_header t) (p_map r))) = Err.
Proof.
  intros Ho Hi Hx Hs H Hh H1 H2. destruct (program_good _ _ _ _ _ Ho Hi Hx H Hh) as [HI _].
  pose proof (built_ok v t _ _ _ HI H1 H2) as Hok.
  apply (misdirected_refused v _ Hok).
  - cbn [i_data]. eapply shading_misdirected; eauto.
  - cbn [i_data]. eapply built_not_dangling; eauto.
Qed.

(** The text [build] returns. *)
Lemma build_text_saved o t i xs ls r :
  program o i xs = Done (ls, r) -> build_text o t i xs = Done (save (mk_ifc (default_header t) (p_map r))).
Proof. unfold build_text, built. generalize (program o i xs). intros x ->. reflexivity. Qed.

Theorem build_text_loads v o t i xs ls r s :
  sane o -> info_ok i = true -> forallb op_ok xs = true -> existsb is_shading xs = false ->
  program o i xs = Done (ls, r) -> honest [] xs ls ->
  let h := whole_second (default_header t) in
  civil (h_time h) -> chrono_reads v (h_time h) -> exact_ifc (mk_ifc h (p_map r)) ->
  build_text o t i xs = Done s -> load v s = Done (mk_ifc h (p_map r)).
Proof.
  intros Ho Hi Hx Hs H Hh h H1 H2 He Ht.
  rewrite (build_text_saved _ t _ _ _ _ H) in Ht. injection Ht as <-. rewrite save_whole. fold h.
  assert (E : h = default_header (h_time h)) by reflexivity.
  clearbody h. rewrite E in He |- *.
  exact (proj2 (builder_loads v o (h_time h) i xs ls r Ho Hi Hx Hs H Hh H1 H2) He).
Qed.
