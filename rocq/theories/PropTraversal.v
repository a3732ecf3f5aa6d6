(** C01-C07: counting and selecting the node to mutate. *)
From Coq Require Import String List NArith ZArith Bool Lia.
From Verif Require Import Base Json Rng Permissions MutationType Traverse SpecTree SpecMutation
  TraverseFacts3 OpCommon SolMutators VyMutators Comments Language Samples Witness.
Import ListNotations.
Open Scope list_scope.

(** C01.  The edited tree is the input with one subtree replaced by what the
    operator made of it (or the input itself, without comment and result, when
    no node was selected). *)
Theorem C01_mutation_is_local :
  forall ps idm m fuel i ast r ast' s,
  make_mutation ps idm m fuel i ast r = Ok (ast', s) ->
  (ast' = ast /\ mk_comment s = None /\ mk_result s = empty_result) \/
  (exists p n d, subtree p ast = Some n /\ mu_mutable m n = Ok true /\
     mu_mutate m fuel n r = Ok d /\ replaced_at p (md_node d) ast ast' /\
     mk_comment s = md_comment d /\ mk_result s = md_result d).
Proof. exact local_lemma. Qed.
Print Assumptions C01_mutation_is_local.

Example C01_example : exists ast' s,
  make_mutation ex_all sol_id ex_arith 10 1 ex_unit ex_rng = Ok (ast', s) /\ ast' <> ex_unit.
Proof. vm_compute. eexists _, _. split; [reflexivity|discriminate]. Qed.

(** The relation [replaced_at] used above determines the edited tree. *)
Theorem C01_replacement_unique :
  forall p x ast a b n, subtree p ast = Some n ->
  replaced_at p x ast a -> replaced_at p x ast b -> a = b.
Proof.
  exact (fun p x ast a b n H Ha Hb =>
           eq_trans (replaced_at_unique p x ast a n H Ha)
                    (eq_sym (replaced_at_unique p x ast b n H Hb))).
Qed.
Print Assumptions C01_replacement_unique.

(** C02.  The counted positions form a list in document order, without
    repetition, as long as the reported number; request [i] acts at the
    [i]-th of them and requests beyond the end change nothing. *)
Theorem C02_index_selects_counted_node :
  forall ps ms ast c t m,
  count_mutable_nodes ps ms ast = Ok c -> NoDup (map fst ms) -> In (t, m) ms ->
  exists counted : list path,
    subseq counted (positions ast) /\ NoDup counted /\
    length counted = reported t c /\
    (forall idm fuel i r p, nth_error counted i = Some p -> acts_at ps idm m fuel i ast r p) /\
    (forall idm fuel i r, length counted <= i ->
       exists s, make_mutation ps idm m fuel i ast r = Ok (ast, s) /\
                 mk_comment s = None /\ mk_result s = empty_result /\ mk_rng s = r).
Proof. exact select_lemma. Qed.
Print Assumptions C02_index_selects_counted_node.

Example C02_example : exists c,
  count_mutable_nodes ex_all ex_map ex_unit = Ok c /\ reported (Generic ArithmeticBinaryOp) c = 3.
Proof. vm_compute. eexists; split; reflexivity. Qed.

(** C03.  At the level of the public call [mutate_ast]. *)
Theorem C03_out_of_range_is_noop :
  forall L ps ms pm ast c t m,
  count_mutable_nodes ps ms ast = Ok c -> NoDup (map fst ms) -> mm_get t ms = Some m ->
  forall fuel i r, reported t c <= i ->
    mutate_ast L ps ms pm fuel ast t i r =
    Ok (ast, {| mr_type := None; mr_index := Some i; mr_node := None; mr_hash := None |}, r).
Proof. exact out_of_range_mutate_ast. Qed.
Print Assumptions C03_out_of_range_is_noop.

Example C03_example : exists c,
  count_mutable_nodes ex_all ex_map ex_unit = Ok c /\
  mm_get (Generic ArithmeticBinaryOp) ex_map = Some ex_arith /\
  reported (Generic ArithmeticBinaryOp) c <= 3.
Proof. eexists. split; [vm_compute; reflexivity|]. split; [reflexivity|]. vm_compute. lia. Qed.

(** C04. *)
Theorem C04_function_restriction_sound :
  forall names idm m fuel i ast r ast' s,
  names <> [] ->
  make_mutation (permissions_for_functions names) idm m fuel i ast r = Ok (ast', s) ->
  ast' = ast \/
  exists p n d, subtree p ast = Some n /\ mu_mutate m fuel n r = Ok d /\
    replaced_at p (md_node d) ast ast' /\ inside_named names ast p.
Proof. exact restriction_sound. Qed.
Print Assumptions C04_function_restriction_sound.

Example C04_example : exists ast' s,
  make_mutation (permissions_for_functions ["g"%string]) sol_id ex_arith 10 0 ex_unit (rng_from 1) = Ok (ast', s) /\
  ast' <> ex_unit.
Proof. vm_compute. eexists _, _. split; [reflexivity|discriminate]. Qed.

(** C05.  The full statement fails: in [function f() { f(); x = a + b; }]
    restricted to [f] the sum is not counted, because leaving the inner node
    named [f] ends the permission. *)
Theorem C05_function_restriction_complete_refuted :
  exists ast p m, inside_named ["f"%string] ast p /\ accepted_at m ast p = true /\
    count_mutable_nodes (permissions_for_functions ["f"%string]) [(mu_type m, m)] ast = Ok [] /\
    (forall idm fuel i r, exists s,
       make_mutation (permissions_for_functions ["f"%string]) idm m fuel i ast r = Ok (ast, s)).
Proof. exact restriction_incomplete. Qed.
Print Assumptions C05_function_restriction_complete_refuted.

(** C05, the part that holds: completeness when no node bearing one of the
    names lies inside another one.  (Missing: nested names, see above.) *)
Theorem C05_function_restriction_complete_partial :
  forall names ms ast c t m,
  names <> [] -> not_nested names ast ->
  count_mutable_nodes (permissions_for_functions names) ms ast = Ok c ->
  NoDup (map fst ms) -> In (t, m) ms ->
  forall p, inside_named names ast p -> accepted_at m ast p = true ->
  exists i, i < reported t c /\
    forall idm fuel r, acts_at (permissions_for_functions names) idm m fuel i ast r p.
Proof. exact restriction_complete. Qed.
Print Assumptions C05_function_restriction_complete_partial.

Example C05_example : exists c,
  not_nested ["f"%string] ex_unit /\ inside_named ["f"%string] ex_unit [2; 0; 3; 0; 0; 2; 0; 0; 4] /\
  accepted_at ex_arith ex_unit [2; 0; 3; 0; 0; 2; 0; 0; 4] = true /\
  count_mutable_nodes (permissions_for_functions ["f"%string]) ex_map ex_unit = Ok c /\
  reported (Generic ArithmeticBinaryOp) c = 2.
Proof. exact complete_example. Qed.

(** C06. *)
Theorem C06_unrestricted_count :
  forall ms ast c,
  count_mutable_nodes (permissions_for_functions []) ms ast = Ok c -> NoDup (map fst ms) ->
  (forall t m, In (t, m) ms ->
     ct_get t c = match length (filter (accepted_at m ast) (positions ast)) with
                  | 0 => None
                  | S k => Some (S k)
                  end) /\
  (forall t, ~ In t (map fst ms) -> ct_get t c = None).
Proof. exact unrestricted_lemma. Qed.
Print Assumptions C06_unrestricted_count.

Theorem C06_count_independent_of_map_order :
  forall ps ms ms' ast c c',
  count_mutable_nodes ps ms ast = Ok c -> count_mutable_nodes ps ms' ast = Ok c' ->
  NoDup (map fst ms) -> NoDup (map fst ms') -> (forall x, In x ms <-> In x ms') ->
  forall t, ct_get t c = ct_get t c'.
Proof. exact count_order_lemma. Qed.
Print Assumptions C06_count_independent_of_map_order.

Example C06_example :
  length (filter (accepted_at ex_arith ex_unit) (positions ex_unit)) = 3 /\
  count_mutable_nodes ex_all ex_map ex_unit = Ok [(Generic ArithmeticBinaryOp, 3)].
Proof. vm_compute. split; reflexivity. Qed.

(** C07. *)
Theorem C07_paths_are_ancestor_chains :
  forall ps idm ast pm id q,
  calculate_node_paths ps idm ast = Ok pm -> pm_get id pm = Some q ->
  exists p n, subtree p ast = Some n /\ idm n = Some id /\ q = id_chain idm p ast.
Proof. exact paths_sound. Qed.
Print Assumptions C07_paths_are_ancestor_chains.

Theorem C07_chain_ends_with_the_node :
  forall idm p ast n i,
  subtree p ast = Some n -> idm n = Some i -> exists up, id_chain idm p ast = up ++ [i].
Proof. exact id_chain_last. Qed.
Print Assumptions C07_chain_ends_with_the_node.

Theorem C07_every_identified_node_is_recorded :
  forall ps idm ast pm p n id,
  (forall n, may_visit ps n = true) ->
  calculate_node_paths ps idm ast = Ok pm -> subtree p ast = Some n -> idm n = Some id ->
  (forall p' n', subtree p' ast = Some n' -> idm n' = Some id -> p' = p) ->
  pm_get id pm = Some (id_chain idm p ast).
Proof. exact paths_complete. Qed.
Print Assumptions C07_every_identified_node_is_recorded.

Example C07_example : exists pm,
  calculate_node_paths ex_all sol_id ex_unit = Ok pm /\
  pm_get 13%N pm = Some [1; 2; 10; 11; 12; 120; 13]%N.
Proof. vm_compute. eexists; split; reflexivity. Qed.
