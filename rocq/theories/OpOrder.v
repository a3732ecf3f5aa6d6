(** Hash map iteration order and the operators. *)
From Coq Require Import String List NArith Bool Permutation Lia Arith.
From Verif Require Import Base Json Rng Permissions MutationType Traverse SpecTree TraverseFacts
  TraverseFacts2 TraverseFacts3 OpCommon SolMutators VyMutators Comments Language JsonFacts SpecOps SpecTotal SpecOrder
  OpFacts SolFacts OpTotal AcceptFacts Samples.
Import ListNotations.
Open Scope list_scope.
Open Scope string_scope.

(** ** Traversals that agree on every node of the tree *)
Lemma traverse_mut_ext {St} (v v' : visitor_mut St) j :
  (forall n, vm_perm v n = vm_perm v' n) -> (forall n, vm_children v n = vm_children v' n) ->
  (forall s n, vm_start v s n = vm_start v' s n) -> (forall s n, vm_end v s n = vm_end v' s n) ->
  (forall p n s, subtree p j = Some n -> vm_visit v s n = vm_visit v' s n) ->
  forall s, traverse_mut v j s = traverse_mut v' j s.
Proof.
  intros Hp Hc Hs He. induction j as [j IH] using json_children_ind. intros Hv s.
  rewrite !traverse_mut_unfold, <- Hp, <- Hc, (Hv [] j s eq_refl).
  destruct (vm_perm v j); [|reflexivity].
  destruct (vm_visit v' s j) as [[s1 [n'|]]| | |]; cbn [bind]; try reflexivity.
  destruct (vm_children v j); [|reflexivity]. rewrite Hs.
  assert (G : forall s, traverse_mut_list v (children j) s = traverse_mut_list v' (children j) s).
  { assert (Hk : forall i x, nth_error (children j) i = Some x ->
                 forall p n s, subtree p x = Some n -> vm_visit v s n = vm_visit v' s n).
    { intros i x Hi p n s0 Hsub. apply (Hv (i :: p)). simpl. now rewrite Hi. }
    clear Hv. revert Hk. induction IH as [|x l Hx Hl IHl]; intros Hk s0; simpl; [reflexivity|].
    rewrite (Hx (Hk 0 x eq_refl)).
    destruct (traverse_mut v' x s0) as [[[x' s'] [|]]| | |]; cbn [bind]; try reflexivity.
    rewrite (IHl (fun i => Hk (S i))). reflexivity. }
  rewrite G. destruct (traverse_mut_list v' (children j) (vm_start v' s1 j)) as [[[l s3] st]| | |]; cbn [bind];
    try reflexivity. now rewrite He.
Qed.

Lemma make_mutation_ext ps idm m m' fuel i ast r :
  (forall p n, subtree p ast = Some n -> mu_mutable m n = mu_mutable m' n) ->
  (forall p n r, subtree p ast = Some n -> mu_mutable m n = Ok true -> mu_mutate m fuel n r = mu_mutate m' fuel n r) ->
  make_mutation ps idm m fuel i ast r = make_mutation ps idm m' fuel i ast r.
Proof.
  intros Ha Hm. unfold make_mutation.
  rewrite (traverse_mut_ext (maker_visitor ps idm m fuel i) (maker_visitor ps idm m' fuel i) ast); auto.
  intros p n s Hp. simpl. destruct (mk_skip s || may_mutate ps n)%bool; [|reflexivity].
  rewrite <- (Ha _ _ Hp). destruct (mu_mutable m n) as [[|]| | |] eqn:E; cbn [bind]; try reflexivity.
  now rewrite (Hm _ _ (mk_rng s) Hp E).
Qed.

(** ** The operator that walks a hash map *)
Lemma few_groups {A} (order : list string -> list string) (g : list (string * list A)) :
  NoDup (order (map fst g)) ->
  (forall k k' a a', assoc k g = Some a -> assoc k' g = Some a' -> 2 <= length a -> 2 <= length a' -> k = k') ->
  length (big_groups order g) <= 1.
Proof.
  intros Hnd H1. unfold big_groups. revert Hnd. generalize (order (map fst g)). intros ks Hnd.
  assert (G : forall ks, NoDup ks -> (forall k a, In k ks -> assoc k g = Some a -> length a < 2) ->
              length (flat_map (fun k => match assoc k g with
                     | Some l => if Nat.leb 2 (length l) then [l] else [] | None => [] end) ks) = 0).
  { clear. induction ks as [|k ks IH]; intros Hnd H; [reflexivity|]. cbn [flat_map]. rewrite app_length.
    inversion Hnd; subst. rewrite IH; auto.
    - destruct (assoc k g) as [a|] eqn:E; [|reflexivity].
      specialize (H k a (or_introl eq_refl) E). destruct (Nat.leb_spec 2 (length a)); [lia|reflexivity].
    - intros; eapply H; eauto. now right. }
  induction ks as [|k ks IH]; [simpl; lia|]. cbn [flat_map]. rewrite app_length.
  inversion Hnd as [|? ? Hn Hd]; subst. specialize (IH Hd).
  destruct (assoc k g) as [a|] eqn:E; [|simpl in *; lia].
  destruct (Nat.leb_spec 2 (length a)) as [Hl|Hl]; [|simpl in *; lia].
  rewrite G; auto. intros k' a' Hk' Ha'. destruct (Nat.lt_ge_cases (length a') 2); [assumption|].
  exfalso. apply Hn. now rewrite (H1 _ _ _ _ E Ha' Hl).
Qed.

Lemma short_permutation {A} (l l' : list A) : Permutation l l' -> length l <= 1 -> l = l'.
Proof.
  intros H Hl. destruct l as [|x [|y l]]; [|apply Permutation_length_1_inv in H; auto|simpl in Hl; lia].
  apply Permutation_nil in H. auto.
Qed.

Lemma sol_swapargs_order e o fuel n r :
  shuffles (e_order e) -> shuffles o -> one_shared_type n ->
  sol_swapargs_mutate (reorder e o) fuel n r = sol_swapargs_mutate e fuel n r.
Proof.
  intros He Ho H1. unfold sol_swapargs_mutate. destruct (take_key n "arguments") as [[v n0]|] eqn:Et; [|reflexivity].
  destruct v as [| | | |l|]; try reflexivity.
  assert (E : big_groups (e_order (reorder e o)) (arg_groups l) = big_groups (e_order e) (arg_groups l)).
  { symmetry. apply short_permutation.
    - unfold big_groups. apply Permutation_flat_map. cbn [reorder e_order].
      etransitivity; [apply He|symmetry; apply Ho].
    - apply few_groups.
      + eapply Permutation_NoDup; [symmetry; apply He|apply arg_groups_nodup].
      + intros k k' a a' Ha Ha' L L'. 
        assert (Hf : has_field n "arguments" (JArr l)) .
        { rewrite take_key_plain in Et by reflexivity. unfold has_field. destruct n as [| | | | |ob]; try discriminate.
          simpl. destruct (assoc "arguments" ob) as [w|]; [|discriminate]. now injection Et as -> _. }
        apply (H1 l _ _ Hf); eapply (filter_two _ (of_type _)); try apply of_type_spec;
          [pose proof (arg_groups_len l k 0 []) as HL|pose proof (arg_groups_len l k' 0 []) as HL];
          simpl in HL; unfold arg_groups in *; rewrite ?Ha, ?Ha' in HL; lia. }
  rewrite E. reflexivity.
Qed.

(** ** Selecting the operators *)
Lemma sol_mutator_type e t m : sol_mutator_for e t = Some m -> mu_type m = t.
Proof. destruct t as [[]|[]]; simpl; intros H; injection H as <-; reflexivity. Qed.

Lemma vy_mutator_type e t m : vy_mutator_for e t = Some m -> mu_type m = t.
Proof. destruct t as [[]|[]]; simpl; intros H; try discriminate; injection H as <-; reflexivity. Qed.

Lemma mm_get_insert_same t m ms : mm_get t (mm_insert t m ms) = Some m.
Proof.
  induction ms as [|[t' m'] ms IH]; simpl; [now rewrite mt_eqb_refl|].
  destruct (mt_eqb t t') eqn:E; simpl; rewrite E; auto.
Qed.

Lemma mm_get_insert_other t t' m ms : t <> t' -> mm_get t (mm_insert t' m ms) = mm_get t ms.
Proof.
  intros H. induction ms as [|[t'' m'] ms IH]; simpl; [now rewrite mt_eqb_neq|].
  destruct (mt_eqb t' t'') eqn:E; simpl.
  - apply mt_eqb_eq in E; subst. now rewrite mt_eqb_neq.
  - destruct (mt_eqb t t''); auto.
Qed.

(** What the selected map holds under [t]. *)
Lemma select_get L t ts : (forall t m, l_mutator_for L t = Some m -> mu_type m = t) -> forall ms,
  mm_get t (select_mutators L ts ms) =
  if existsb (mt_eqb t) ts
  then match l_mutator_for L t with Some m => Some m | None => mm_get t ms end
  else mm_get t ms.
Proof.
  intros HL. induction ts as [|t0 ts IH]; intros ms; [reflexivity|]. cbn [existsb].
  change (select_mutators L (t0 :: ts) ms) with
    (select_mutators L ts (match l_mutator_for L t0 with
       | Some m => mm_insert (mu_type m) m ms | None => ms end)).
  rewrite IH. destruct (mt_eqb t t0) eqn:E; cbn [orb].
  - apply mt_eqb_eq in E; subst t0. destruct (l_mutator_for L t) as [m|] eqn:Em.
    + rewrite (HL _ _ Em), mm_get_insert_same. destruct (existsb _ ts); reflexivity.
    + destruct (existsb _ ts); reflexivity.
  - destruct (l_mutator_for L t0) as [m0|] eqn:Em; [|reflexivity].
    rewrite (HL _ _ Em), mm_get_insert_other; [reflexivity|]. intros ->. now rewrite mt_eqb_refl in E.
Qed.

Lemma sol_order_same e o t : t <> Generic SwapFunctionArguments ->
  sol_mutator_for (reorder e o) t = sol_mutator_for e t.
Proof. destruct t as [[]|[]]; intros H; try reflexivity. congruence. Qed.

Lemma vy_order_same e o t : vy_mutator_for (reorder e o) t = vy_mutator_for e t.
Proof. destruct t as [[]|[]]; reflexivity. Qed.

Lemma sol_run_order e o ts ps pm fuel ast t i r :
  shuffles (e_order e) -> shuffles o ->
  (t = Generic SwapFunctionArguments -> forall p n, subtree p ast = Some n ->
     is_sol "FunctionCall" n -> one_shared_type n) ->
  mutate_ast (solidity (reorder e o)) ps (select_mutators (solidity (reorder e o)) ts []) pm fuel ast t i r =
  mutate_ast (solidity e) ps (select_mutators (solidity e) ts []) pm fuel ast t i r.
Proof.
  intros He Ho H1. unfold mutate_ast.
  rewrite !select_get; [|apply sol_mutator_type|apply sol_mutator_type].
  destruct (existsb (mt_eqb t) ts); [|reflexivity]. cbn [solidity l_mutator_for l_id l_member l_insert].
  destruct (mutation_type_eq_dec t (Generic SwapFunctionArguments)) as [->|Hne].
  - cbn [sol_mutator_for].
    rewrite (make_mutation_ext ps sol_id (sol_swapargs (reorder e o)) (sol_swapargs e)); [reflexivity|reflexivity|].
    intros p n r' Hp Ha. apply sol_swapargs_order; auto. apply (H1 eq_refl p n Hp).
    apply sol_swapargs_iff in Ha. apply Ha.
  - now rewrite sol_order_same.
Qed.

Lemma vy_run_order e o ts ps pm fuel ast t i r :
  mutate_ast (vyper (reorder e o)) ps (select_mutators (vyper (reorder e o)) ts []) pm fuel ast t i r =
  mutate_ast (vyper e) ps (select_mutators (vyper e) ts []) pm fuel ast t i r.
Proof.
  unfold mutate_ast. rewrite !select_get; [|apply vy_mutator_type|apply vy_mutator_type].
  cbn [vyper l_mutator_for l_id l_member l_insert]. now rewrite vy_order_same.
Qed.

(** The map of operators itself may iterate in any order. *)
Lemma mm_get_permutation t ms ms' : Permutation ms ms' -> NoDup (map fst ms) -> mm_get t ms = mm_get t ms'.
Proof.
  intros H. induction H as [|[k m] l l' Hp IH|[k m] [k' m'] l|l l' l'' Hp IH Hp' IH']; intros Hn; simpl.
  - reflexivity.
  - inversion Hn; subst. rewrite IH by assumption. reflexivity.
  - destruct (mt_eqb t k') eqn:E, (mt_eqb t k) eqn:E'; try reflexivity.
    apply mt_eqb_eq in E, E'. subst. inversion Hn as [|? ? Hi _]; subst. exfalso. apply Hi. now left.
  - rewrite IH by assumption. apply IH'. eapply Permutation_NoDup; [apply Permutation_map, Hp|exact Hn].
Qed.

Lemma count_node_ok ms n c :
  (exists c', count_node ms n c = Ok c') <-> (forall x, In x ms -> exists b, mu_mutable (snd x) n = Ok b).
Proof.
  revert c. induction ms as [|[t m] ms IH]; intros c; simpl.
  - split; [intros _ x []|eauto].
  - destruct (mu_mutable m n) as [b| | |] eqn:E; cbn [bind].
    + rewrite IH. split; [intros H x [<-|Hx]; [eauto|auto]|auto].
    + split; [intros (? & ?); discriminate|]. intros H. destruct (H (t, m)) as (b & Hb); [auto|]. simpl in Hb. congruence.
    + split; [intros (? & ?); discriminate|]. intros H. destruct (H (t, m)) as (b & Hb); [auto|]. simpl in Hb. congruence.
    + split; [intros (? & ?); discriminate|]. intros H. destruct (H (t, m)) as (b & Hb); [auto|]. simpl in Hb. congruence.
Qed.

Lemma count_all_ok ms ns c :
  (exists c', count_all ms ns c = Ok c') <->
  (forall n x, In n ns -> In x ms -> exists b, mu_mutable (snd x) n = Ok b).
Proof.
  revert c. induction ns as [|n ns IH]; intros c; simpl.
  - split; [intros _ n x []|eauto].
  - split.
    + destruct (count_node ms n c) as [c1| | |] eqn:E; cbn [bind]; intros H; try (destruct H; discriminate).
      rewrite IH in H. intros n' x [<-|Hn] Hx; [|auto].
      assert (Hq : exists c', count_node ms n c = Ok c') by eauto. rewrite count_node_ok in Hq. auto.
    + intros H. assert (Hq : exists c', count_node ms n c = Ok c') by (apply count_node_ok; intros x; apply H; now left).
      destruct Hq as (c1 & ->). cbn [bind]. apply IH. intros n' x Hn. apply H. now right.
Qed.

Lemma count_permutation ps ms ms' ast c :
  Permutation ms ms' -> NoDup (map fst ms) -> count_mutable_nodes ps ms ast = Ok c ->
  exists c', count_mutable_nodes ps ms' ast = Ok c' /\ forall t, ct_get t c = ct_get t c'.
Proof.
  intros Hp Hn Hc.
  assert (Hq : exists c', count_mutable_nodes ps ms' ast = Ok c').
  { rewrite count_mutable_nodes_eq in *. apply count_all_ok. intros n x Hin Hx.
    assert (Hs : exists c', count_all ms (map snd (fst (allowed ps false ast))) [] = Ok c') by eauto.
    rewrite count_all_ok in Hs. apply (Hs n x Hin). eapply Permutation_in; [symmetry; exact Hp|exact Hx]. }
  destruct Hq as (c' & Hc'). exists c'. split; [exact Hc'|].
  apply (count_order_lemma _ _ _ _ _ _ Hc Hc' Hn).
  - eapply Permutation_NoDup; [apply Permutation_map, Hp|exact Hn].
  - intros x; split; apply Permutation_in; [exact Hp|symmetry; exact Hp].
Qed.

(** The witness: two types, each shared by two arguments. *)
Definition two_types : json := s_call 1 (s_ident 2 "f")
  [ s_typed "uint8" 3 "a"; s_typed "uint8" 4 "b"; s_typed "bool" 5 "p"; s_typed "bool" 6 "q" ].

Lemma order_matters : exists e o ast ts t ps pm r,
  shuffles (e_order e) /\ shuffles o /\ calculate_node_paths ps sol_id ast = Ok pm /\
  forall fuel, exists a a' mr mr' r' r'',
    mutate_ast (solidity e) ps (select_mutators (solidity e) ts []) pm fuel ast t 0 r = Ok (a, mr, r') /\
    mutate_ast (solidity (reorder e o)) ps (select_mutators (solidity (reorder e o)) ts []) pm fuel ast t 0 r
      = Ok (a', mr', r'') /\ a <> a'.
Proof.
  exists ex_env, (@rev string), (s_unit 9 [two_types]), [Generic SwapFunctionArguments],
    (Generic SwapFunctionArguments), (permissions_for_functions []).
  destruct (calculate_node_paths (permissions_for_functions []) sol_id (s_unit 9 [two_types])) as [pm| | |] eqn:E;
    try (vm_compute in E; discriminate).
  exists pm, ex_rng.
  split; [intros ks; reflexivity|]. split; [intros ks; symmetry; apply Permutation_rev|].
  split; [reflexivity|]. vm_compute in E. injection E as <-.
  intros fuel. do 6 eexists. split; [vm_compute; reflexivity|]. split; [vm_compute; reflexivity|].
  discriminate.
Qed.

Lemma order_example : exists o, shuffles (e_order ex_env) /\ shuffles o /\ o ["a"; "b"] <> e_order ex_env ["a"; "b"] /\
  (forall p n, subtree p ex_recursive = Some n -> is_sol "FunctionCall" n -> one_shared_type n).
Proof.
  exists (@rev string). split; [intros ks; reflexivity|].
  split; [intros ks; symmetry; apply Permutation_rev|]. split; [discriminate|].
  intros p n Hp Hc l ts ts' Hl H _.
  assert (G : forallb (fun p => match subtree p ex_recursive with
     | Some n => match oget n "arguments" with Some (JArr (_ :: _)) => false | _ => true end
     | None => true end) (positions ex_recursive) = true) by (vm_compute; reflexivity).
  rewrite forallb_forall in G. specialize (G p (proj2 (positions_subtree ex_recursive p) (ex_intro _ n Hp))).
  rewrite Hp in G. unfold has_field in Hl. rewrite Hl in G. destruct l as [|x l]; [|discriminate].
  destruct H as (i & j & x & y & _ & Hi & _). destruct i; discriminate.
Qed.
