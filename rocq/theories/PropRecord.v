(** C71-C74: what the record of a mutation says about the mutant, and what
    removing the only statement of a Vyper body leaves. *)
From Coq Require Import String List NArith ZArith Bool Arith.
From Verif Require Import Base Json Rng Permissions MutationType Traverse OpCommon SolMutators VyMutators
  Comments Language Paths Generator SpecTree SpecMutation SpecOps SpecClaims SpecGenerator SpecRecord
  Samples OpClaims GenWitness RecordFacts RecordWays RecordSite RecordClaims.
Import ListNotations.
Open Scope list_scope.
Open Scope string_scope.

(** C71.  A mutation whose record was seen before is dismissed.  Random
    integers all leave the same record, so a new program can be dismissed. *)
Theorem C71_only_repetitions_dismissed_refuted : exists e W P ast a mr pm t i r r' a' x,
  hashes_differ e /\ float_bytes_differ e /\ rearranges (w_order W) /\
  In (a, mr) (mutants (fst (generate (solidity_files e) W P 20 ast r))) /\
  calculate_node_paths (permissions_for_functions (rp_functions P)) (l_id (gl_lang (solidity_files e))) ast = Ok pm /\
  mutate_ast (gl_lang (solidity_files e)) (permissions_for_functions (rp_functions P))
    (w_order W (select_mutators (gl_lang (solidity_files e)) (rp_types P) [])) pm 20 ast t i r' = Ok (a', mr, x) /\
  a' <> a.
Proof. exact dismissed_witness. Qed.
Print Assumptions C71_only_repetitions_dismissed_refuted.

(** For every other type: whatever later mutation of the same input has the
    record of a mutant [a] that the run has written is [a] again, comment
    included, provided SHA-256 does not collide.  (Missing: integers.) *)
Theorem C71_only_repetitions_dismissed_partial : forall e G W P fuel ast r a mr pm t i fuel' r' a' x,
  G = solidity_files e \/ G = vyper_files e -> hashes_differ e -> float_bytes_differ e -> rearranges (w_order W) ->
  In (a, mr) (mutants (fst (generate G W P fuel ast r))) ->
  calculate_node_paths (permissions_for_functions (rp_functions P)) (l_id (gl_lang G)) ast = Ok pm ->
  mutate_ast (gl_lang G) (permissions_for_functions (rp_functions P))
    (w_order W (select_mutators (gl_lang G) (rp_types P) [])) pm fuel' ast t i r' = Ok (a', mr, x) ->
  t <> Generic Integer -> a' = a.
Proof. exact record_identifies. Qed.
Print Assumptions C71_only_repetitions_dismissed_partial.

(** A run writes two mutants; mutating once more with another random stream
    gives the record of the first. *)
Example C71_example : hashes_differ rec_env /\ float_bytes_differ rec_env /\ exists a mr rest pm a' x,
  mutants (fst (generate (solidity_files rec_env) ex_world lines_params 60 lines_unit lines_rng)) = (a, mr) :: rest /\
  calculate_node_paths (permissions_for_functions []) (l_id (solidity rec_env)) lines_unit = Ok pm /\
  mutate_ast (solidity rec_env) (permissions_for_functions [])
    (select_mutators (solidity rec_env) [Generic SwapLines] []) pm 30 lines_unit (Generic SwapLines) 1 (rng_from 4) = Ok (a', mr, x).
Proof.
  split; [apply rec_env_differs|]. split; [apply rec_env_differs|]. eexists _, _, _, _, _, _.
  split; [vm_compute; reflexivity|]. split; [vm_compute; reflexivity|]. vm_compute. reflexivity.
Qed.

(** C72.  Swapping two lines and swapping them back to front leave different
    records but the same program: one run writes it twice. *)
Theorem C72_no_mutant_written_twice_refuted : exists G W P fuel ast r a mr mr',
  supported G /\ rearranges (w_order W) /\ mutants (fst (generate G W P fuel ast r)) = [(a, mr); (a, mr')] /\ mr <> mr'.
Proof. exact written_twice. Qed.
Print Assumptions C72_no_mutant_written_twice_refuted.

(** For most types two mutations of one node with different records are
    different trees.  (Missing: swapped lines, swapped arguments, integers,
    Vyper assignments; two different nodes; the inserted comments.) *)
Theorem C72_solidity_different_records_partial : forall e t m ps idm fuel i ast r a s fuel' r' a' s',
  sol_mutator_for e t = Some m -> (forall p n, subtree p ast = Some n -> sol_one_way t n) ->
  (forall p n, subtree p ast = Some n -> classifies m n) ->
  make_mutation ps idm m fuel i ast r = Ok (a, s) -> make_mutation ps idm m fuel' i ast r' = Ok (a', s') ->
  mk_result s <> mk_result s' -> a <> a'.
Proof. exact sol_ways_lemma. Qed.
Print Assumptions C72_solidity_different_records_partial.

Theorem C72_vyper_different_records_partial : forall e t m ps idm fuel i ast r a s fuel' r' a' s',
  vy_mutator_for e t = Some m -> (forall p n, subtree p ast = Some n -> vy_one_way t n) ->
  (forall p n, subtree p ast = Some n -> classifies m n) ->
  make_mutation ps idm m fuel i ast r = Ok (a, s) -> make_mutation ps idm m fuel' i ast r' = Ok (a', s') ->
  mk_result s <> mk_result s' -> a <> a'.
Proof. exact vy_ways_lemma. Qed.
Print Assumptions C72_vyper_different_records_partial.

Example C72_example : exists m a s a' s', sol_mutator_for rec_env (Generic DeleteStatement) = Some m /\
  (forall p n, subtree p lines_unit = Some n -> sol_one_way (Generic DeleteStatement) n) /\
  (forall p n, subtree p lines_unit = Some n -> classifies m n) /\
  make_mutation (permissions_for_functions []) sol_id m 5 0 lines_unit (const_rng 0) = Ok (a, s) /\
  make_mutation (permissions_for_functions []) sol_id m 5 0 lines_unit (const_rng 1) = Ok (a', s') /\
  mk_result s <> mk_result s'.
Proof.
  eexists _, _, _, _, _. split; [reflexivity|]. split; [repeat split; discriminate|].
  split; [intros p n _; eexists; reflexivity|].
  split; [vm_compute; reflexivity|]. split; [vm_compute; reflexivity|]. vm_compute. discriminate.
Qed.

(** C73.  A function that returns an array loses its only statement without
    getting another. *)
Theorem C73_vyper_body_keeps_a_statement_refuted : exists e m fuel n r d x c,
  vy_mutator_for e (Generic DeleteStatement) = Some m /\ mu_mutable m n = Ok true /\ mu_mutate m fuel n r = Ok d /\
  is_vy "FunctionDef" n /\ has_field n "body" (JArr [x]) /\ has_field (md_node d) "body" (JArr [c]) /\ is_vy "Comment" c.
Proof. exact emptied_witness. Qed.
Print Assumptions C73_vyper_body_keeps_a_statement_refuted.

(** Without a return type, or with one the operator knows, the comment is
    followed by one statement of the right kind.  (Missing: other return
    types.) *)
Theorem C73_vyper_body_keeps_a_statement_partial : forall e m fuel n r d x,
  vy_mutator_for e (Generic DeleteStatement) = Some m -> fillable n ->
  has_field n "body" (JArr [x]) -> mu_mutate m fuel n r = Ok d ->
  exists c s, field_becomes "body" (JArr [c; s]) n (md_node d) /\ vy_commented x c /\ fills n s.
Proof. exact vy_delete_filled. Qed.
Print Assumptions C73_vyper_body_keeps_a_statement_partial.

Definition bool_def : json := v_node "FunctionDef" 1 [("name", JStr "f");
  ("returns", v_name 2 "bool"); ("body", JArr [v_return 3 (v_name 4 "x")])].
Example C73_example : fillable bool_def /\ changes (vy_mutator_for ex_env (Generic DeleteStatement)) bool_def ex_rng.
Proof.
  split.
  - intros x t H1 H2. vm_compute in H1. injection H1 as <-. vm_compute in H2. injection H2 as <-. left. split; [reflexivity|].
    exists "bool". reflexivity.
  - eexists _, _. split; [reflexivity|]. split; [vm_compute; reflexivity|]. split; [vm_compute; reflexivity|].
    vm_compute. discriminate.
Qed.

(** C74.  The record carries the number of the node the mutation is about. *)
Theorem C74_solidity_record_names_the_node : forall e t m fuel n r d,
  sol_mutator_for e t = Some m -> mu_mutable m n = Ok true -> mu_mutate m fuel n r = Ok d ->
  exists x, sol_site t n (md_node d) x /\ names "id" (md_result d) x.
Proof. exact sol_named. Qed.
Print Assumptions C74_solidity_record_names_the_node.

Theorem C74_vyper_record_names_the_node : forall e t m fuel n r d,
  vy_mutator_for e t = Some m -> mu_mutate m fuel n r = Ok d ->
  exists x, vy_site t n (md_node d) x /\ names "node_id" (md_result d) x.
Proof. exact vy_named. Qed.
Print Assumptions C74_vyper_record_names_the_node.

Example C74_example : exists m d, sol_mutator_for ex_env (Generic DeleteStatement) = Some m /\
  mu_mutate m 5 (s_block 1 [s_stmt 2 (s_ident 3 "x"); s_return 4 (s_ident 5 "y")]) ex_rng = Ok d /\
  mr_node (md_result d) = Some 2%N.
Proof. eexists _, _. split; [reflexivity|]. split; vm_compute; reflexivity. Qed.
