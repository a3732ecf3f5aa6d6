(** The claims about single operators and about runs, for a printer that prints
    plain nodes. *)
From Coq Require Import String Ascii List NArith ZArith Arith Bool Lia Permutation.
From Verif Require Import Base Json JsonFacts Rng Permissions MutationType Traverse OpCommon SolMutators VyMutators
  Printer SolPrinter VyPrinter
  Comments Language Paths Generator SpecTree SpecMutation SpecOps SpecTotal SpecAccept SpecOrder SpecJson SpecGenerator
  SpecReach SpecRun SpecClaims SpecPrinter SpecPlain OpFacts SolFacts VyFacts OpSafe OpTotal OpTotalVy OpStream OpClaims
  ReachFacts ReachOnly ReachVy RunReach ReachClaims ReachDemo GenStop Samples Witness GenWitness
  PaceFacts PaceSol PaceVy PlainFacts PlainSol PlainVy.
Import ListNotations.
Open Scope list_scope.
Open Scope string_scope.

(** ** The printers of the crate *)

Lemma sol_reads e : prints_sol e -> reads_sol e.
Proof. intros H n Hn. rewrite H. apply sol_plain_prints. exact Hn. Qed.

Lemma vy_reads e fl : prints_vy e fl -> reads_vy e.
Proof. intros H n Hn. rewrite H. apply vy_plain_prints. exact Hn. Qed.

(** ** Single mutations *)

Lemma sol_safe_plain e t m n :
  reads_sol e -> order_total e -> sol_plain n -> sol_schema n -> sol_crash_free t n ->
  sol_mutator_for e t = Some m -> mu_mutable m n = Ok true ->
  forall fuel r, no_crash (mu_mutate m fuel n r).
Proof.
  intros He Ho Hp Hs Hc Hm Hmu fuel r. destruct (sol_agree e He t m Hm) as (m' & Hm' & _ & Ha & Hb).
  rewrite <- (Hb n Hp fuel r). rewrite <- Ha in Hmu.
  exact (OpSafe.sol_safe (complete e) t m' n (complete_total e) Ho Hs Hc Hm' Hmu fuel r).
Qed.

Lemma vy_safe_plain e t m n :
  reads_vy e -> vy_clear n -> wf n -> vy_schema n -> vy_crash_free t n ->
  vy_mutator_for e t = Some m -> mu_mutable m n = Ok true ->
  forall fuel r, no_crash (mu_mutate m fuel n r).
Proof.
  intros He Hp Hw Hs Hc Hm Hmu fuel r. destruct (vy_agree e He t m Hm) as (m' & Hm' & _ & Ha & Hb).
  rewrite <- (Hb n Hp Hmu fuel r). rewrite <- (Ha n Hp) in Hmu.
  exact (OpSafe.vy_safe (complete e) t m' n (complete_total e) Hw Hs Hc Hm' Hmu fuel r).
Qed.

Lemma sol_works_plain e t m n r :
  reads_sol e -> order_total e -> fair r -> sol_plain n -> sol_schema n -> sol_supported t n ->
  sol_mutator_for e t = Some m -> mu_mutable m n = Ok true ->
  exists steps d, forall fuel, steps <= fuel -> mu_mutate m fuel n r = Ok d.
Proof.
  intros He Ho Hf Hp Hs Hc Hm Hmu. destruct (sol_agree e He t m Hm) as (m' & Hm' & _ & Ha & Hb).
  rewrite <- Ha in Hmu.
  destruct (sol_works (complete e) t m' n r (complete_total e) Ho Hf Hs Hc Hm' Hmu) as (k & d & H).
  exists k, d. intros fuel Hk. rewrite <- (Hb n Hp fuel r). exact (H fuel Hk).
Qed.

Lemma vy_works_plain e t m n r :
  reads_vy e -> fair r -> vy_clear n -> wf n -> vy_schema n -> vy_supported t n ->
  vy_mutator_for e t = Some m -> mu_mutable m n = Ok true ->
  exists steps d, forall fuel, steps <= fuel -> mu_mutate m fuel n r = Ok d.
Proof.
  intros He Hf Hp Hw Hs Hc Hm Hmu. destruct (vy_agree e He t m Hm) as (m' & Hm' & _ & Ha & Hb).
  pose proof Hmu as Hmu'. rewrite <- (Ha n Hp) in Hmu'.
  destruct (vy_works (complete e) t m' n r (complete_total e) Hf Hw Hs Hc Hm' Hmu') as (k & d & H).
  exists k, d. intros fuel Hk. rewrite <- (Hb n Hp Hmu fuel r). exact (H fuel Hk).
Qed.

Lemma vy_classifies_plain e t m n :
  reads_vy e -> (forall x, has_field n "body" (JArr [x]) -> vy_plain x) ->
  (forall op ot, has_field n "op" op -> is_vy ot op -> In ot (map fst python_operators)) ->
  vy_mutator_for e t = Some m -> classifies m n.
Proof.
  intros He Hb Ho Hm. destruct t as [[] | ?]; cbn [vy_mutator_for] in Hm; try discriminate Hm; injection Hm as <-;
    try (eexists; reflexivity).
  - unfold classifies. cbn [mu_mutable vy_delete]. unfold vy_delete_mutable. destruct (is_ast_in _ n); [| eauto ].
    destruct (varr_of n "body") as [[| x [| y l]] |] eqn:El; eauto. apply varr_of_spec in El.
    destruct (He x (Hb x El)) as [s ->]. cbn [bind]. eauto.
  - exact (vy_classifies (complete e) (Generic SwapOperatorArguments) _ n (complete_total e) Ho eq_refl).
Qed.

(** ** Witnesses *)

Lemma crash_witnesses_plain :
  (forall e, reads_sol e ->
     (exists m, sol_mutator_for e (Generic Assignment) = Some m /\ crashes m int256_assignment) /\
     (exists m, sol_mutator_for e (Generic Integer) = Some m /\ crashes m scientific)) /\
  (forall e fl, prints_vy e fl ->
     exists m, vy_mutator_for e (Generic DeleteStatement) = Some m /\ crashes m address_function).
Proof.
  split.
  - intros e He. split; (eexists; split; [ reflexivity |]; split; [ vm_compute; reflexivity |]; exists ex_rng; intro fuel).
    + cbn [sol_assign mu_mutate]. unfold sol_assign_mutate.
      replace (sol_assign_type int256_assignment) with (Some "int256") by reflexivity.
      replace (oget int256_assignment "rightHandSide") with (Some (s_ident 3 "y")) by reflexivity.
      destruct (He (s_ident 3 "y")) as [s ->].
      * apply ev_node; [ apply (sol_root_type "Identifier"); [ reflexivity | special ] |].
        intros v Hv. unfold s_ident, s_node in Hv. apply children_mkobj in Hv. cbn [map snd] in Hv.
        repeat (destruct Hv as [<- | Hv]; [ apply sol_plain_scalar; reflexivity |]). destruct Hv.
      * cbn [bind]. eexists. left. vm_compute. reflexivity.
    + eexists. left. cbn [sol_int mu_mutate]. unfold sol_int_mutate. cbn. reflexivity.
  - intros e fl He. eexists. split; [ reflexivity |]. split.
    + cbn [vy_delete mu_mutable]. unfold vy_delete_mutable.
      replace (is_ast_in ["FunctionDef"; "For"; "If"; "Module"] address_function) with true by reflexivity.
      replace (varr_of address_function "body") with (Some [v_return 2 (v_name 3 "x")]) by reflexivity.
      rewrite He. destruct (e_oc e).
      * replace (vy_print true fl (v_return 2 (v_name 3 "x"))) with (Ok "return x"); [ reflexivity | vm_compute; reflexivity ].
      * replace (vy_print false fl (v_return 2 (v_name 3 "x"))) with (Ok "return x"); [ reflexivity | vm_compute; reflexivity ].
    + exists ex_rng. intro fuel. eexists. right. vm_compute. reflexivity.
Qed.

(** A check for plain samples. *)
Definition sol_plain_b (n : json) : bool :=
  forallb (fun x => match oget x "nodeType" with
                    | Some (JStr t) =>
                        if smem t ["FunctionCallOptions"; "Comment"; "StructuredDocumentation"; "InlineAssembly"] then false
                        else if t =?s "FunctionCall" then match oget x "names" with None => true | _ => false end
                        else true
                    | _ => true
                    end) (subtrees n).

Lemma sol_plain_check n : sol_plain_b n = true -> sol_plain n.
Proof.
  unfold sol_plain_b. rewrite forallb_forall. intros H q x Hx. specialize (H x (subtrees_In _ _ _ Hx)).
  unfold sol_regular, is_sol, has_field in *.
  destruct (oget x "nodeType") as [v |] eqn:E;
    [| split; [ split; intro D; discriminate D | intros t next D; destruct D as [? D | ? ? D | ? D];
         unfold is_sol, has_field in D; rewrite E in D; discriminate D ]].
  assert (D : forall s, v = JStr s -> smem s ["FunctionCallOptions"; "Comment"; "StructuredDocumentation"; "InlineAssembly"] = true -> False).
  { intros s -> Hs. rewrite Hs in H. discriminate H. }
  split.
  - split; intro E'; injection E' as ->.
    + cbn in H. destruct (oget x "names"); [ discriminate H |]. intros ? ? E'. discriminate E'.
    + destruct (D _ eq_refl eq_refl).
  - intros t next E'. destruct E' as [? E' | ? ? E' | ? E']; unfold is_sol, has_field in E'; rewrite E in E';
      injection E' as ->; destruct (D _ eq_refl eq_refl).
Qed.

Definition vy_plain_b (n : json) : bool :=
  forallb (fun x => match oget x "ast_type" with
                    | Some (JStr t) =>
                        if smem t ["Bytes"; "Dict"; "Comment"] then false
                        else if smem t ["FunctionDef"; "Module"] then match oget x "doc_string" with None => true | _ => false end
                        else if t =?s "arguments" then match oget x "defaults" with None => true | _ => false end
                        else true
                    | _ => true
                    end) (subtrees n).

Lemma vy_plain_check n : vy_plain_b n = true -> vy_plain n.
Proof.
  unfold vy_plain_b. rewrite forallb_forall. intros H q x Hx. specialize (H x (subtrees_In _ _ _ Hx)).
  unfold vy_regular, vy_commented_out, is_vy, has_field in *.
  destruct (oget x "ast_type") as [v |] eqn:E.
  - split; [ split; [| split ] | split ].
    + intro D. injection D as ->. cbn in H. destruct (oget x "defaults"); [ discriminate H |]. intros ? ? _ D. discriminate D.
    + intro D. injection D as ->. discriminate H.
    + intro D. injection D as ->. discriminate H.
    + intros t next D. destruct D as [? D | ? ? [D | D] D']; unfold is_vy, has_field in *; rewrite E in D; injection D as ->;
        [ discriminate H | |]; cbn in H; rewrite D' in H; discriminate H.
    + intros w [D _]. injection D as ->. discriminate H.
  - split; [ split; [| split ]; intro D; discriminate D |]. split.
    + intros t next D; destruct D as [? D | ? ? [D | D]]; unfold is_vy, has_field in D; rewrite E in D; discriminate D.
    + intros w [D _]. discriminate D.
Qed.

Lemma hang_witnesses_plain : forall e, reads_sol e ->
  (exists m, sol_mutator_for e (Generic FunctionCall) = Some m /\ hangs m literal_call) /\
  (exists m, sol_mutator_for e (Generic SwapLines) = Some m /\ hangs m returns_only) /\
  (exists m, sol_mutator_for e (Solidity UncheckedBlock) = Some m /\ hangs m two_returns).
Proof.
  intros e He. destruct (hang_witnesses (complete e) (complete_total e)) as ((m1 & E1 & H1) & (m2 & E2 & H2) & (m3 & E3 & H3) & _).
  assert (G : forall t m' n, sol_mutator_for (complete e) t = Some m' -> hangs m' n -> sol_plain n ->
            exists m, sol_mutator_for e t = Some m /\ hangs m n).
  { intros t m' n Em [Ha Hb] Hn.
    assert (exists m, sol_mutator_for e t = Some m) as [m Hm]
      by (destruct t as [[] | []]; try discriminate Em; eexists; reflexivity).
    destruct (sol_agree e He t m Hm) as (m'' & Hm'' & _ & Hmu & Hg). rewrite Em in Hm''. injection Hm'' as <-.
    exists m. split; [ exact Hm |]. split; [ rewrite <- Hmu; exact Ha |].
    intros fuel r. rewrite <- (Hg n Hn fuel r). apply Hb. }
  split; [ eapply G; [ exact E1 | exact H1 | apply sol_plain_check; vm_compute; reflexivity ] |].
  split; [ eapply G; [ exact E2 | exact H2 | apply sol_plain_check; vm_compute; reflexivity ] |].
  eapply G; [ exact E3 | exact H3 | apply sol_plain_check; vm_compute; reflexivity ].
Qed.

Lemma vy_hang_witness : forall e, exists m, vy_mutator_for e (Generic SwapLines) = Some m /\ hangs m vy_returns_only.
Proof.
  intro e. destruct (hang_witnesses (complete e) (complete_total e)) as (_ & _ & _ & m & E & H1 & H2).
  injection E as <-. eexists. split; [ reflexivity |]. split; [ exact H1 |].
  intros fuel r. specialize (H2 fuel r). cbn [vy_swaplines mu_mutate] in *. unfold vy_swaplines_mutate in *.
  destruct (take_key vy_returns_only "body") as [[w n0] |]; [| discriminate H2 ]. destruct w; try discriminate H2.
  destruct (pick_until fuel _ (ast_at "Return" l) r) as [[i r1] | | |]; cbn [bind] in *; try discriminate H2; [| reflexivity ].
  destruct (pick_until fuel _ _ r1) as [[j r2] | | |]; cbn [bind] in *; try discriminate H2; [| reflexivity ].
  destruct (vec_swap i j l) as [[[l' x] y] | | |]; cbn [bind] in *; try discriminate H2; [| reflexivity ].
  destruct (complete_total e x) as [sx Hx], (complete_total e y) as [sy Hy].
  rewrite Hx in H2. cbn [bind] in H2. rewrite Hy in H2. cbn [bind] in H2. discriminate H2.
Qed.

Lemma classify_witness : forall e, exists m n msg,
  vy_mutator_for e (Generic SwapOperatorArguments) = Some m /\ mu_mutable m n = Panic msg.
Proof. intro e. eexists. exists vy_shift. eexists. split; [ reflexivity | vm_compute; reflexivity ]. Qed.

(** ** What comes out *)

Lemma can_agree m m' n P : agrees n (mu_mutate m') (mu_mutate m) -> can_give m' n P -> can_give m n P.
Proof.
  intros Ha (l & H). exists l. intros r Hr fuel. destruct (H r Hr fuel) as (d & Hd & HP).
  exists d. rewrite <- (Ha (S fuel) r). auto.
Qed.

Lemma sol_reach_plain e t m n P :
  reads_sol e -> shuffles (e_order e) -> sol_plain n -> sol_schema n ->
  sol_mutator_for e t = Some m -> mu_mutable m n = Ok true -> sol_outcome n t P -> can_give m n P.
Proof.
  intros He Ho Hp Hs Hm Hmu HP. destruct (sol_agree e He t m Hm) as (m' & Hm' & _ & Ha & Hb).
  eapply can_agree; [ exact (Hb n Hp) |]. rewrite <- Ha in Hmu.
  exact (sol_reach (complete e) t m' n P (complete_total e) Ho Hs Hm' Hmu HP).
Qed.

Lemma outcome_complete e n t P : vy_outcome e n t P -> vy_outcome (complete e) n t P.
Proof.
  intro H. destruct H.
  - eapply vo_operator; eassumption.
  - eapply vo_assign_int; eassumption.
  - apply vo_assign_huge.
  - apply vo_assign_bool.
  - exact (vo_assign_decimal (complete e) n d).
  - eapply vo_delete; eassumption.
  - eapply vo_delete_only; eassumption.
  - eapply vo_call; eassumption.
  - eapply vo_swapargs; eassumption.
  - apply vo_if_const.
  - eapply vo_if_not; eassumption.
  - eapply vo_int_more; eassumption.
  - eapply vo_int_less; eassumption.
  - eapply vo_int_any; eassumption.
  - eapply vo_int_same; eassumption.
  - eapply vo_swapop; eassumption.
  - eapply vo_swaplines; eassumption.
  - eapply vo_unary; eassumption.
Qed.

Lemma vy_reach_plain e t m n P :
  reads_vy e -> vy_clear n -> wf n -> vy_schema n -> vy_complete n -> vy_crash_free t n ->
  vy_mutator_for e t = Some m -> mu_mutable m n = Ok true -> vy_outcome e n t P -> can_give m n P.
Proof.
  intros He Hp Hw Hs Hk Hc Hm Hmu HP. destruct (vy_agree e He t m Hm) as (m' & Hm' & _ & Ha & Hb).
  eapply can_agree; [ exact (Hb n Hp Hmu) |]. rewrite <- (Ha n Hp) in Hmu.
  exact (vy_reach (complete e) t m' n P (complete_total e) Hw Hs Hk Hc Hm' Hmu (outcome_complete _ _ _ _ HP)).
Qed.

Lemma sol_catalogue_plain e t m n :
  reads_sol e -> shuffles (e_order e) -> sol_plain n -> sol_schema n -> sol_crash_free t n ->
  sol_mutator_for e t = Some m -> mu_mutable m n = Ok true ->
  (forall P, sol_outcome n t P -> can_give m n P) /\
  (forall r fuel d, mu_mutate m fuel n r = Ok d -> exists P, sol_outcome n t P /\ P (md_node d)).
Proof.
  intros He Ho Hp Hs Hc Hm Hmu. split.
  - intros P HP. eapply sol_reach_plain; eauto.
  - intros r fuel d Hd. eapply sol_only; eauto.
Qed.

Lemma vy_catalogue_plain e t m n :
  reads_vy e -> vy_clear n -> wf n -> vy_schema n -> vy_complete n -> vy_crash_free t n ->
  vy_mutator_for e t = Some m -> mu_mutable m n = Ok true ->
  (forall P, vy_outcome e n t P -> can_give m n P) /\
  (forall r fuel d, mu_mutate m fuel n r = Ok d -> exists P, vy_outcome e n t P /\ P (md_node d)).
Proof.
  intros He Hp Hw Hs Hk Hc Hm Hmu. split.
  - intros P HP. eapply vy_reach_plain; eauto.
  - intros r fuel d Hd. eapply vy_only; eauto.
Qed.

Lemma uint_exactly_plain e m n k z : reads_sol e -> shuffles (e_order e) -> sol_plain n -> sol_schema n ->
  sol_mutator_for e (Generic Assignment) = Some m -> mu_mutable m n = Ok true ->
  (0 < k <= 256)%N -> sol_type_of n ("uint" ++ show_N k) ->
  (can_give m n (gets "rightHandSide" (sol_number_literal z) n) <-> (0 <= z < 2 ^ Z.of_N (N.min k 128) - 1)%Z).
Proof.
  intros He Ho Hp Hs Hm Hmu Hk Ht. split; intros H.
  - assert (D : {(0 <= z < 2 ^ Z.of_N (N.min k 128) - 1)%Z} + {~ (0 <= z < 2 ^ Z.of_N (N.min k 128) - 1)%Z}).
    { destruct (Z_le_dec 0 z); [|right; lia]. destruct (Z_lt_dec z (2 ^ Z.of_N (N.min k 128) - 1)); [left|right]; lia. }
    destruct D as [|D]; [assumption|]. exfalso. eapply can_not_never; [exact H|]. eapply sol_uint_never; eauto.
  - eapply sol_reach_plain; eauto. eapply so_uint; eauto.
Qed.

Lemma bool_exactly_plain e m n b : reads_sol e -> shuffles (e_order e) -> sol_plain n -> sol_schema n ->
  sol_mutator_for e (Generic Assignment) = Some m -> mu_mutable m n = Ok true -> sol_type_of n "bool" ->
  (can_give m n (gets "rightHandSide" (sol_bool_literal b) n) <-> b = false).
Proof.
  intros He Ho Hp Hs Hm Hmu Ht. split; intros H.
  - destruct b; [|reflexivity]. exfalso. eapply can_not_never; [exact H|]. eapply sol_bool_never; eauto.
  - subst b. eapply sol_reach_plain; eauto. now apply so_bool.
Qed.

Lemma swap_exactly_plain e m n l i j : reads_sol e -> shuffles (e_order e) -> sol_plain n -> sol_schema n ->
  sol_mutator_for e (Generic SwapFunctionArguments) = Some m -> mu_mutable m n = Ok true ->
  has_field n "arguments" (JArr l) -> NoDup l -> i < j ->
  (can_give m n (gets_swapped "arguments" l i j n) <-> exists t, first_two t l i j).
Proof.
  intros He Ho Hp Hs Hm Hmu Hl Hnd Hij. split.
  - intros H. destruct (can_some m n _ H) as (r & fuel & d & Hd & HP). eapply sol_swapargs_pair; eauto.
  - intros (t & Ht). eapply sol_reach_plain; eauto. eapply so_swapargs; eauto.
Qed.

(** ** Runs *)

Lemma sol_run_reach_plain e W P ast c t m p n R :
  reads_sol e -> shuffles (e_order e) -> rearranges (w_order W) -> undisturbed W P ->
  run_counts (solidity_files e) W P ast c -> 0 < rp_count P -> In t (rp_types P) -> (N.of_nat (reported t c) <= 2 ^ 64)%N ->
  sol_mutator_for e t = Some m -> subtree p ast = Some n -> sol_plain n -> sol_schema n -> mu_mutable m n = Ok true ->
  open_to_run P ast p ->
  sol_outcome n t R -> can_write (solidity_files e) W P ast t p R.
Proof.
  intros He Ho Hr HW Hc Hk Ht Hb Hm Hn Hp Hs Hmu Hopen HR.
  eapply (run_reach (solidity_files e)); eauto; [exists e; now left|]. eapply sol_reach_plain; eauto.
Qed.

Lemma vy_run_reach_plain e W P ast c t m p n R :
  reads_vy e -> rearranges (w_order W) -> undisturbed W P ->
  run_counts (vyper_files e) W P ast c -> 0 < rp_count P -> In t (rp_types P) -> (N.of_nat (reported t c) <= 2 ^ 64)%N ->
  vy_mutator_for e t = Some m -> subtree p ast = Some n -> vy_clear n -> wf n -> vy_schema n -> vy_complete n ->
  vy_crash_free t n -> mu_mutable m n = Ok true -> open_to_run P ast p ->
  vy_outcome e n t R -> can_write (vyper_files e) W P ast t p R.
Proof.
  intros He Hr HW Hc Hk Ht Hb Hm Hn Hp Hw Hs Hkc Hcf Hmu Hopen HR.
  eapply (run_reach (vyper_files e)); eauto; [exists e; now right|]. eapply vy_reach_plain; eauto.
Qed.

Lemma sol_run_stops_plain e W P ast r :
  reads_sol e -> order_total e -> rearranges (w_order W) -> fair r ->
  (forall p n t m, subtree p ast = Some n -> In t (rp_types P) -> sol_mutator_for e t = Some m ->
     mu_mutable m n = Ok true -> sol_plain n /\ sol_schema n /\ sol_supported t n) ->
  (forall k a, w_print W k a <> Diverge) -> w_config W <> Diverge ->
  exists enough run, snd run <> Diverge /\
    forall fuel, enough <= fuel -> generate (solidity_files e) W P fuel ast r = run.
Proof.
  intros Hp Hord Ho Hf Hn Hw Hwc. apply run_settles; try assumption.
  - exists e. now left.
  - intros t m p n _ Hm _. now apply (sol_mutable_stops e t).
  - intros t m p n r' Ht Hm Hs Hmu Hf'. destruct (Hn p n t m Hs Ht Hm Hmu) as (C & A & B).
    destruct (sol_works_plain e t m n r' Hp Hord Hf' C A B Hm Hmu) as (F & d & HF). exists F, d. split; [|exact HF].
    exact (sol_kept e t m F n r' Hm d (HF F (le_n F))).
Qed.

Lemma vy_run_stops_plain e W P ast r :
  reads_vy e -> rearranges (w_order W) -> fair r ->
  (forall p n x, subtree p ast = Some n -> has_field n "body" (JArr [x]) -> vy_plain x) ->
  (forall p n t m, subtree p ast = Some n -> In t (rp_types P) -> vy_mutator_for e t = Some m ->
     mu_mutable m n = Ok true -> vy_clear n /\ wf n /\ vy_schema n /\ vy_supported t n) ->
  (forall k a, w_print W k a <> Diverge) -> w_config W <> Diverge ->
  exists enough run, snd run <> Diverge /\
    forall fuel, enough <= fuel -> generate (vyper_files e) W P fuel ast r = run.
Proof.
  intros Hp Ho Hf Hbody Hn Hw Hwc. apply run_settles; try assumption.
  - exists e. now right.
  - intros t m p n _ Hm Hs. cbn [vyper_files gl_lang] in Hm.
    destruct t as [[] | ?]; try discriminate Hm; injection Hm as <-; try discriminate.
    + cbn [mu_mutable vy_delete]. unfold vy_delete_mutable. destruct (is_ast_in _ _); [| discriminate ].
      destruct (varr_of n "body") as [[| x [| y l]] |] eqn:El; try discriminate. apply varr_of_spec in El.
      destruct (Hp x (Hbody p n x Hs El)) as [s ->]. discriminate.
    + cbn [mu_mutable vy_swapop]. unfold vy_swapop_mutable. destruct (is_ast_in _ _); [| discriminate ].
      destruct (op_type n); [| discriminate ]. destruct (assoc _ _); discriminate.
  - intros t m p n r' Ht Hm Hs Hmu Hf'. destruct (Hn p n t m Hs Ht Hm Hmu) as (D & A & B & C).
    destruct (vy_works_plain e t m n r' Hp Hf' D A B C Hm Hmu) as (F & d & HF). exists F, d. split; [|exact HF].
    exact (vy_kept e t m F n r' Hm d (HF F (le_n F))).
Qed.

(** ** Examples *)

Lemma ex_reads_sol : reads_sol ex_env.
Proof. intros n _. apply ex_printer_total. Qed.

Lemma ex_reads_vy : reads_vy ex_env.
Proof. intros n _. apply ex_printer_total. Qed.

Lemma safe_example_plain : reads_sol ex_env /\ order_total ex_env /\
  sol_plain dif_ab /\ sol_schema dif_ab /\ sol_crash_free (Generic SwapOperatorArguments) dif_ab /\
  (exists m, sol_mutator_for ex_env (Generic SwapOperatorArguments) = Some m /\ mu_mutable m dif_ab = Ok true) /\
  reads_vy ex_env /\ vy_clear ex_if /\ wf ex_if /\ vy_schema ex_if /\ vy_crash_free (Generic IfStatement) ex_if /\
  (exists m, vy_mutator_for ex_env (Generic IfStatement) = Some m /\ mu_mutable m ex_if = Ok true).
Proof.
  destruct safe_example as (_ & H1 & H2 & H3 & H4 & H5 & H6 & H7 & H8).
  split; [ exact ex_reads_sol |]. split; [ exact H1 |]. split; [ apply sol_plain_check; vm_compute; reflexivity |].
  split; [ exact H2 |]. split; [ exact H3 |]. split; [ exact H4 |]. split; [ exact ex_reads_vy |].
  split; [ left; apply vy_plain_check; vm_compute; reflexivity |].
  split; [ exact H5 |]. split; [ exact H6 |]. split; [ exact H7 | exact H8 ].
Qed.

Lemma finish_example_plain : fair fair_rng /\ sol_plain ex_lines /\ sol_schema ex_lines /\
  sol_supported (Generic SwapLines) ex_lines /\
  (exists m, sol_mutator_for ex_env (Generic SwapLines) = Some m /\ mu_mutable m ex_lines = Ok true).
Proof.
  destruct finish_example as (H1 & H2 & H3 & H4). split; [ exact H1 |].
  split; [ apply sol_plain_check; vm_compute; reflexivity |]. split; [ exact H2 |]. split; [ exact H3 | exact H4 ].
Qed.

Lemma stop_example_plain : reads_sol ex_env /\ order_total ex_env /\ rearranges (w_order ex_world) /\ fair fair_rng /\
  (forall p n t m, subtree p one_op = Some n -> In t (rp_types one_params) -> sol_mutator_for ex_env t = Some m ->
     mu_mutable m n = Ok true -> sol_plain n /\ sol_schema n /\ sol_supported t n) /\
  exists c, run_counts ex_lang ex_world one_params one_op c /\ pairs c = 1.
Proof.
  destruct stop_example as (_ & H1 & H2 & H3 & H4 & H5).
  split; [ exact ex_reads_sol |]. split; [ exact H1 |]. split; [ exact H2 |]. split; [ exact H3 |].
  split; [| exact H5 ]. intros p n t m Hn Ht Hm Hmu. split; [| exact (H4 p n t m Hn Ht Hm Hmu) ].
  assert (G : sol_plain one_op) by (apply sol_plain_check; vm_compute; reflexivity).
  eapply ev_part; [ exact G | exists p; exact Hn ].
Qed.

Definition vy_params : run_params := run_on "src/x.vy" "out" 2 [arith].
Lemma vy_stop_example : reads_vy ex_env /\ rearranges (w_order ex_world) /\ fair fair_rng /\
  (forall p n x, subtree p ex_module = Some n -> has_field n "body" (JArr [x]) -> vy_plain x) /\
  (forall p n t m, subtree p ex_module = Some n -> In t (rp_types vy_params) -> vy_mutator_for ex_env t = Some m ->
     mu_mutable m n = Ok true -> vy_clear n /\ wf n /\ vy_schema n /\ vy_supported t n) /\
  exists c, run_counts (vyper_files ex_env) ex_world vy_params ex_module c /\ pairs c = 2.
Proof.
  assert (G : vy_plain ex_module) by (apply vy_plain_check; vm_compute; reflexivity).
  split; [exact ex_reads_vy|]. split; [exact ex_world_rearranges|]. split; [exact fair_rng_fair|].
  split; [|split; [|eexists; split; vm_compute; reflexivity]].
  - intros p n x Hn Hb. assert (Gn : vy_plain n) by (eapply ev_part; [ exact G | exists p; exact Hn ]).
exact (ev_elem _ _ _ _ x Gn Hb (or_introl eq_refl)).
  - intros p n t m Hs [<-|[]] Hm Hmu.
    split; [left; eapply ev_part; [ exact G | exists p; exact Hs ]|].
    injection Hm as <-.
    assert (Hi : In n (map snd (TraverseFacts2.all_nodes ex_module))).
    { apply in_map_iff. exists (p, n). split; [reflexivity|]. unfold TraverseFacts2.all_nodes. apply in_flat_map. exists p.
      split; [apply TraverseFacts.positions_subtree; eauto|]. rewrite Hs. now left. }
    vm_compute in Hi. repeat destruct Hi as [<-|Hi]; try (vm_compute in Hmu; discriminate); try (destruct Hi);
      (split; [apply wf_check; vm_compute; reflexivity|]; split; [|exact I]);
      (split; [apply short_arrays_check; reflexivity|]; split; [no_field|]; split; [no_field|];
       intros l x t H; vm_compute in H; discriminate H).
Qed.

Lemma catalogue_example_plain :
  reads_sol ex_env /\ shuffles (e_order ex_env) /\ sol_plain uint8_assignment /\ sol_schema uint8_assignment /\
  sol_crash_free (Generic Assignment) uint8_assignment /\
  (exists m, sol_mutator_for ex_env (Generic Assignment) = Some m /\ mu_mutable m uint8_assignment = Ok true) /\
  sol_outcome uint8_assignment (Generic Assignment) (gets "rightHandSide" (sol_number_literal 254) uint8_assignment) /\
  reads_vy ex_env /\ vy_clear ex_if /\ wf ex_if /\ vy_schema ex_if /\ vy_complete ex_if /\
  vy_crash_free (Generic IfStatement) ex_if /\
  (exists m, vy_mutator_for ex_env (Generic IfStatement) = Some m /\ mu_mutable m ex_if = Ok true) /\
  vy_outcome ex_env ex_if (Generic IfStatement) (gets "test" (vy_bool_constant false) ex_if).
Proof.
  destruct catalogue_example as (_ & H1 & H2 & H3 & H4 & H5 & H6).
  split; [ exact ex_reads_sol |]. split; [ exact H1 |]. split; [ apply sol_plain_check; vm_compute; reflexivity |].
  split; [ exact H2 |]. split; [ exact H3 |]. split; [ exact H4 |]. split; [ exact H5 |].
  split; [ exact ex_reads_vy |]. split; [ left; apply vy_plain_check; vm_compute; reflexivity | exact H6 ].
Qed.

Lemma swap_example_plain : reads_sol ex_env /\ shuffles (e_order ex_env) /\ sol_plain three_call /\ sol_schema three_call /\
  (exists m, sol_mutator_for ex_env (Generic SwapFunctionArguments) = Some m /\ mu_mutable m three_call = Ok true) /\
  has_field three_call "arguments" (JArr three_args) /\ NoDup three_args /\ first_two "uint8" three_args 0 1.
Proof.
  destruct swap_example as (_ & H1 & H2). split; [ exact ex_reads_sol |]. split; [ exact H1 |].
  split; [ apply sol_plain_check; vm_compute; reflexivity | exact H2 ].
Qed.

Lemma run_example_plain : sol_plain sum_ab.
Proof. apply sol_plain_check; vm_compute; reflexivity. Qed.

Lemma classify_example_plain :
  reads_vy ex_env /\ forall x, has_field address_function "body" (JArr [x]) -> vy_plain x.
Proof.
  split; [ exact ex_reads_vy |]. intros x H. injection H as <-.
  apply vy_plain_check. vm_compute. reflexivity.
Qed.

(** ** Trees that are not printed *)

Fixpoint long_word (k : nat) : string := match k with O => "" | S k => String "a" (long_word k) end.

(** A function documented with one word of 160 characters. *)
Definition sol_long_doc : json :=
  s_node "FunctionDefinition" 1 [ ("name", JStr "f"); ("kind", JStr "function"); ("body", s_block 3 []);
    ("documentation", s_node "StructuredDocumentation" 2 [ ("text", JStr (long_word 160)) ]) ].

(** A call with one name and no argument. *)
Definition sol_odd_call : json :=
  s_node "FunctionCall" 1 [ ("expression", s_ident 2 "f"); ("names", JArr [ JStr "a" ]); ("arguments", JArr []) ].

(** A function that assigns to a variable with a name of 145 characters. *)
Definition vy_long_name : json :=
  v_def 1 "f" [ v_assign 2 (v_name 3 (long_word 145)) (v_name 4 "b"); v_return 5 (v_name 6 "x") ].

Lemma unprinted : 
  (forall oc, sol_print oc sol_long_doc = Diverge /\ exists msg, sol_print oc sol_odd_call = Panic msg) /\
  vy_plain vy_long_name /\
  (forall e fl, exists m r d, vy_mutator_for e (Generic DeleteStatement) = Some m /\
     mu_mutable m vy_long_name = Ok true /\ (forall fuel, mu_mutate m fuel vy_long_name r = Ok d) /\
     forall oc, vy_print oc fl (md_node d) = Diverge).
Proof.
  split; [ intros [|]; (split; [ vm_compute; reflexivity | eexists; vm_compute; reflexivity ]) |]. split.
  - apply vy_plain_check. vm_compute. reflexivity.
  - intros e fl. exists (vy_delete e), (const_rng 0). eexists. split; [ reflexivity |].
    split; [ vm_compute; reflexivity |]. split; [ intro fuel; vm_compute; reflexivity |].
    intros [|]; vm_compute; reflexivity.
Qed.

(** A block with a comment. *)
Definition sol_with_comment : json :=
  s_block 1 [ s_node "Comment" 2 [ ("text", JStr "swap the two operands") ]; s_stmt 3 (s_call 4 (s_ident 5 "f") []) ].

Definition vy_with_comment : json :=
  v_def 1 "f" [ v_node "Comment" 2 [ ("value", JStr "swap the two operands") ]; v_return 3 (v_name 4 "x") ].

Lemma short_words_check k t : forallb (fun w => (slen w <=? k)%N) (words t) = true -> short_words k t.
Proof. rewrite forallb_forall. intros H w Hw. apply N.leb_le. exact (H w Hw). Qed.

Lemma legible_example :
  sol_legible 8 sol_with_comment /\ (4 * climb 0 (sol_emit sol_default sol_with_comment) + 8 <= 142)%N /\
  (4 * climb 0 (sol_emit sol_default sol_with_comment) < 142)%N /\
  vy_legible 8 vy_with_comment /\ (4 * climb 0 (vy_emit (vy_default true (fun _ => "")) vy_with_comment) + 8 <= 142)%N /\
  (4 * climb 0 (vy_emit (vy_default true (fun _ => "")) vy_with_comment) < 142)%N.
Proof.
  split.
  { intros q x Hx. apply subtrees_In in Hx. vm_compute in Hx.
    repeat (destruct Hx as [<- | Hx]; [
      split; [ split; intros D; try (vm_compute in D; discriminate D); intros ? ? D'; vm_compute in D'; discriminate D' |];
      intros t next D; destruct D as [? D D' | ? ? D D' | ? D D']; vm_compute in D; try discriminate D;
      vm_compute in D'; injection D' as <-; apply short_words_check; reflexivity |]). destruct Hx. }
  split; [ vm_compute; discriminate |]. split; [ vm_compute; reflexivity |]. split.
  { intros q x Hx. apply subtrees_In in Hx. vm_compute in Hx.
    repeat (destruct Hx as [<- | Hx]; [
      split; [ split; [| split ]; intros D; vm_compute in D; discriminate D |];
      split; [ intros t next D; destruct D as [? D D' | ? ? [D | D] D' _]; vm_compute in D; try discriminate D;
               vm_compute in D'; try discriminate D'; injection D' as <-; apply short_words_check; reflexivity
             | intros v (D & D' & D''); vm_compute in D; try discriminate D; vm_compute in D'; injection D' as <-;
               discriminate D'' ] |]). destruct Hx. }
  split; [ vm_compute; discriminate | vm_compute; reflexivity ].
Qed.

Lemma plain_example : sol_plain ex_unit /\ vy_plain ex_module.
Proof. split; [ apply sol_plain_check | apply vy_plain_check ]; vm_compute; reflexivity. Qed.
