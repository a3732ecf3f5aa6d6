(** C12-C28, C55-C58: the mutation operators of both languages. *)
From Coq Require Import String List NArith ZArith Bool Permutation.
From Verif Require Import Base Json Rng Permissions MutationType Traverse SpecTree OpCommon SolMutators VyMutators Language
  SpecOps SpecTotal SpecAccept SpecOrder SpecClaims OpTotal OpTotalVy OpSafe OpProps OpOrder AcceptFacts OpClaims Samples
  SpecPlain PlainClaims.
Import ListNotations.
Open Scope list_scope.
Open Scope string_scope.

Ltac changed := eexists _, _; split; [reflexivity|]; split; [vm_compute; reflexivity|];
  split; [vm_compute; reflexivity|]; vm_compute; discriminate.

(** C12.  Only the operator changes, to another one of the same class; the
    comment names the old and the new operator. *)
Theorem C12_solidity_binary_operator : forall e g class m fuel n r d,
  sol_class g = Some class -> sol_mutator_for e (Generic g) = Some m ->
  mu_mutable m n = Ok true -> mu_mutate m fuel n r = Ok d ->
  exists op op', is_sol "BinaryOperation" n /\ has_field n "operator" (JStr op) /\
    In op class /\ In op' class /\ op' <> op /\
    field_becomes "operator" (JStr op') n (md_node d) /\
    md_comment d = Some (sol_comment (show_mt (Generic g) ++ " Mutator: changed '" ++ op ++ "' to '" ++ op' ++ "'")).
Proof. exact sol_binop_claim. Qed.
Print Assumptions C12_solidity_binary_operator.

Example C12_example :
  changes (sol_mutator_for ex_env (Generic ArithmeticBinaryOp)) sum_ab (rng_from 1) /\
  changes (sol_mutator_for ex_env (Generic ComparisonBinaryOp)) (s_binop 1 "<" (s_ident 2 "a") (s_ident 3 "b")) ex_rng.
Proof. repeat split; changed. Qed.

(** C13. *)
Theorem C13_solidity_unary_operator : forall e m fuel n r d,
  sol_mutator_for e (Generic UnaryOp) = Some m -> mu_mutable m n = Ok true -> mu_mutate m fuel n r = Ok d ->
  exists p op op', is_sol "UnaryOperation" n /\ has_field n "prefix" (JBool p) /\
    has_field n "operator" (JStr op) /\
    In op (if p then prefix_ops else postfix_ops) /\ In op' (if p then prefix_ops else postfix_ops) /\
    op' <> op /\ field_becomes "operator" (JStr op') n (md_node d).
Proof. exact sol_unary_claim. Qed.
Print Assumptions C13_solidity_unary_operator.

Example C13_example :
  changes (sol_mutator_for ex_env (Generic UnaryOp))
    (s_node "UnaryOperation" 1 [("operator", JStr "++"); ("prefix", JBool false); ("subExpression", s_ident 2 "a")]) (rng_from 1).
Proof. repeat split; changed. Qed.

(** C14. *)
Theorem C14_vyper_operator : forall e g class m fuel n r d,
  vy_class g = Some class -> vy_mutator_for e (Generic g) = Some m ->
  mu_mutable m n = Ok true -> mu_mutate m fuel n r = Ok d ->
  exists op op' old new,
    (is_vy "BinOp" n \/ is_vy "BoolOp" n \/ is_vy "Compare" n) /\
    has_field n "op" op /\ is_vy old op /\ In old class /\ In new class /\ new <> old /\
    field_becomes "ast_type" (JStr new) op op' /\ field_becomes "op" op' n (md_node d).
Proof. exact vy_binop_claim. Qed.
Print Assumptions C14_vyper_operator.

Example C14_example :
  changes (vy_mutator_for ex_env (Generic ArithmeticBinaryOp)) (v_binop 1 "Add" (v_name 3 "a") (v_name 4 "b")) ex_rng.
Proof. repeat split; changed. Qed.

(** C15.  The value is replaced and nothing else; the literal is a value of the
    declared type. *)
Theorem C15_solidity_assignment_in_range : forall e m fuel n r d,
  sol_mutator_for e (Generic Assignment) = Some m -> mu_mutable m n = Ok true -> mu_mutate m fuel n r = Ok d ->
  exists v, field_becomes "rightHandSide" v n (md_node d) /\
    ((exists z, sol_number_literal z v) \/ (exists b, sol_bool_literal b v /\ sol_type_of n "bool")) /\
    (forall ts lo hi, sol_type_of n ts -> sol_int_type ts lo hi ->
       exists z, (lo <= z <= hi)%Z /\ sol_number_literal z v).
Proof. exact sol_assign_claim. Qed.
Print Assumptions C15_solidity_assignment_in_range.

(** The Vyper operator also replaces only the value. *)
Theorem C15_vyper_assignment : forall e m fuel n r d,
  vy_mutator_for e (Generic Assignment) = Some m -> mu_mutable m n = Ok true -> mu_mutate m fuel n r = Ok d ->
  exists v, is_vy "Assign" n /\ field_becomes "value" v n (md_node d) /\
    (is_vy "Int" v \/ is_vy "NameConstant" v \/ is_vy "Decimal" v).
Proof. exact vy_assign_claim. Qed.
Print Assumptions C15_vyper_assignment.

Example C15_example :
  changes (sol_mutator_for ex_env (Generic Assignment)) (s_assign 1 "uint8" (s_ident 2 "x") (s_ident 3 "y")) (const_rng 77) /\
  changes (vy_mutator_for ex_env (Generic Assignment)) (v_assign 1 (v_name 2 "x") (v_name 3 "y")) (const_rng 8).
Proof. repeat split; changed. Qed.

(** C16.  Full statement: an operator that accepts a node neither panics nor
    reports an error on it.  The code violates it. *)
Theorem C16_accepted_nodes_crash_refuted :
  (forall e, reads_sol e ->
     (exists m, sol_mutator_for e (Generic Assignment) = Some m /\ crashes m int256_assignment) /\
     (exists m, sol_mutator_for e (Generic Integer) = Some m /\ crashes m scientific)) /\
  (forall e fl, prints_vy e fl ->
     exists m, vy_mutator_for e (Generic DeleteStatement) = Some m /\ crashes m address_function).
Proof. exact crash_witnesses_plain. Qed.
Print Assumptions C16_accepted_nodes_crash_refuted.

(** What holds: for every random stream, provided the node has the fields the
    compiler always emits and, for the three or four operators listed in
    [sol_crash_free] and [vy_crash_free], lies in the range they support. *)
Theorem C16_solidity_no_crash_partial : forall e t m n,
  reads_sol e -> order_total e -> sol_plain n -> sol_schema n -> sol_crash_free t n ->
  sol_mutator_for e t = Some m -> mu_mutable m n = Ok true ->
  forall fuel r, no_crash (mu_mutate m fuel n r).
Proof. exact sol_safe_plain. Qed.
Print Assumptions C16_solidity_no_crash_partial.

Theorem C16_vyper_no_crash_partial : forall e t m n,
  reads_vy e -> vy_clear n -> wf n -> vy_schema n -> vy_crash_free t n ->
  vy_mutator_for e t = Some m -> mu_mutable m n = Ok true ->
  forall fuel r, no_crash (mu_mutate m fuel n r).
Proof. exact vy_safe_plain. Qed.
Print Assumptions C16_vyper_no_crash_partial.

Example C16_example : reads_sol ex_env /\ order_total ex_env /\
  sol_plain dif_ab /\ sol_schema dif_ab /\ sol_crash_free (Generic SwapOperatorArguments) dif_ab /\
  (exists m, sol_mutator_for ex_env (Generic SwapOperatorArguments) = Some m /\ mu_mutable m dif_ab = Ok true) /\
  reads_vy ex_env /\ vy_clear ex_if /\ wf ex_if /\ vy_schema ex_if /\ vy_crash_free (Generic IfStatement) ex_if /\
  (exists m, vy_mutator_for ex_env (Generic IfStatement) = Some m /\ mu_mutable m ex_if = Ok true).
Proof. exact safe_example_plain. Qed.

(** C17.  Full statement: an operator that accepts a node finishes, unless the
    random numbers conspire.  The code violates it: on these nodes no random
    stream lets the operator finish. *)
Theorem C17_accepted_nodes_hang_refuted :
  (forall e, reads_sol e ->
     (exists m, sol_mutator_for e (Generic FunctionCall) = Some m /\ hangs m literal_call) /\
     (exists m, sol_mutator_for e (Generic SwapLines) = Some m /\ hangs m returns_only) /\
     (exists m, sol_mutator_for e (Solidity UncheckedBlock) = Some m /\ hangs m two_returns)) /\
  (forall e, exists m, vy_mutator_for e (Generic SwapLines) = Some m /\ hangs m vy_returns_only).
Proof. exact (conj hang_witnesses_plain vy_hang_witness). Qed.
Print Assumptions C17_accepted_nodes_hang_refuted.

(** What holds: on every fair stream, the nodes of [sol_supported] and
    [vy_supported] are mutated in finitely many steps. *)
Theorem C17_solidity_finishes_partial : forall e t m n r,
  reads_sol e -> order_total e -> fair r -> sol_plain n -> sol_schema n -> sol_supported t n ->
  sol_mutator_for e t = Some m -> mu_mutable m n = Ok true ->
  exists steps d, forall fuel, steps <= fuel -> mu_mutate m fuel n r = Ok d.
Proof. exact sol_works_plain. Qed.
Print Assumptions C17_solidity_finishes_partial.

Theorem C17_vyper_finishes_partial : forall e t m n r,
  reads_vy e -> fair r -> vy_clear n -> wf n -> vy_schema n -> vy_supported t n ->
  vy_mutator_for e t = Some m -> mu_mutable m n = Ok true ->
  exists steps d, forall fuel, steps <= fuel -> mu_mutate m fuel n r = Ok d.
Proof. exact vy_works_plain. Qed.
Print Assumptions C17_vyper_finishes_partial.

Example C17_example : fair fair_rng /\ sol_plain ex_lines /\ sol_schema ex_lines /\ sol_supported (Generic SwapLines) ex_lines /\
  (exists m, sol_mutator_for ex_env (Generic SwapLines) = Some m /\ mu_mutable m ex_lines = Ok true).
Proof. exact finish_example_plain. Qed.

(** C18.  One expression statement becomes a comment holding it; every other
    place of the list is as before. *)
Theorem C18_solidity_delete_statement : forall e m fuel n r d,
  sol_mutator_for e (Generic DeleteStatement) = Some m -> mu_mutable m n = Ok true -> mu_mutate m fuel n r = Ok d ->
  exists l l' i x c, is_sol "Block" n /\ has_field n "statements" (JArr l) /\
    nth_error l i = Some x /\ is_sol "ExpressionStatement" x /\ sol_commented x c /\
    slot_becomes i c l l' /\ field_becomes "statements" (JArr l') n (md_node d).
Proof. exact sol_delete_claim. Qed.
Print Assumptions C18_solidity_delete_statement.

(** In Vyper a body whose only statement was removed gets a filler statement. *)
Theorem C18_vyper_delete_statement : forall e m fuel n r d,
  vy_mutator_for e (Generic DeleteStatement) = Some m -> mu_mutable m n = Ok true -> mu_mutate m fuel n r = Ok d ->
  exists l l1 more i x c,
    (is_vy "FunctionDef" n \/ is_vy "For" n \/ is_vy "If" n \/ is_vy "Module" n) /\
    has_field n "body" (JArr l) /\ nth_error l i = Some x /\ vy_commented x c /\
    slot_becomes i c l l1 /\ field_becomes "body" (JArr (List.app l1 more)) n (md_node d) /\
    (1 < length l -> more = []) /\
    (more = [] \/ exists m, more = [m] /\ (is_vy "Pass" m \/ is_vy "Return" m)).
Proof. exact vy_delete_claim. Qed.
Print Assumptions C18_vyper_delete_statement.

Example C18_example :
  changes (sol_mutator_for ex_env (Generic DeleteStatement)) (s_block 1 [s_stmt 2 (s_ident 3 "x"); s_return 4 (s_ident 5 "y")]) ex_rng /\
  changes (vy_mutator_for ex_env (Generic DeleteStatement)) (v_def 1 "f" [v_return 2 (v_name 3 "x")]) ex_rng.
Proof. repeat split; changed. Qed.

(** C19. *)
Theorem C19_solidity_call_becomes_argument : forall e m fuel n r d,
  sol_mutator_for e (Generic FunctionCall) = Some m -> mu_mutable m n = Ok true -> mu_mutate m fuel n r = Ok d ->
  exists l, is_sol "FunctionCall" n /\ has_field n "arguments" (JArr l) /\
    In (md_node d) l /\ ~ is_sol "Literal" (md_node d).
Proof. exact sol_call_claim. Qed.
Print Assumptions C19_solidity_call_becomes_argument.

(** C19 for Vyper. *)
Theorem C19_vyper_call_becomes_argument : forall e m fuel n r d,
  vy_mutator_for e (Generic FunctionCall) = Some m -> mu_mutable m n = Ok true -> mu_mutate m fuel n r = Ok d ->
  exists l, is_vy "Call" n /\ has_field n "args" (JArr l) /\ In (md_node d) l.
Proof. exact vy_call_claim. Qed.
Print Assumptions C19_vyper_call_becomes_argument.

Example C19_example :
  changes (sol_mutator_for ex_env (Generic FunctionCall)) (s_call 1 (s_ident 2 "f") [s_number 3 "1"; s_ident 4 "y"]) ex_rng /\
  changes (vy_mutator_for ex_env (Generic FunctionCall)) (v_call 1 (v_name 2 "f") [v_int 3 1; v_name 4 "y"]) ex_rng.
Proof. repeat split; changed. Qed.

(** C20. *)
Theorem C20_solidity_swap_arguments : forall e m fuel n r d,
  sol_mutator_for e (Generic SwapFunctionArguments) = Some m -> mu_mutable m n = Ok true ->
  mu_mutate m fuel n r = Ok d ->
  exists l l' i j x y t, is_sol "FunctionCall" n /\ has_field n "arguments" (JArr l) /\
    nth_error l i = Some x /\ nth_error l j = Some y /\ sol_type_of x t /\ sol_type_of y t /\
    exchanged i j l l' /\ Permutation l l' /\ field_becomes "arguments" (JArr l') n (md_node d).
Proof. exact sol_swapargs_claim. Qed.
Print Assumptions C20_solidity_swap_arguments.

(** C20 for Vyper. *)
Theorem C20_vyper_swap_arguments : forall e m fuel n r d,
  vy_mutator_for e (Generic SwapFunctionArguments) = Some m -> mu_mutable m n = Ok true ->
  mu_mutate m fuel n r = Ok d ->
  exists l l' i j, is_vy "Call" n /\ has_field n "args" (JArr l) /\
    exchanged i j l l' /\ Permutation l l' /\ field_becomes "args" (JArr l') n (md_node d).
Proof. exact vy_swapargs_claim. Qed.
Print Assumptions C20_vyper_swap_arguments.

Example C20_example :
  changes (sol_mutator_for ex_env (Generic SwapFunctionArguments)) two_types ex_rng /\
  changes (vy_mutator_for ex_env (Generic SwapFunctionArguments)) (v_call 1 (v_name 2 "f") [v_int 3 1; v_name 4 "y"; v_name 5 "z"]) ex_rng.
Proof. repeat split; changed. Qed.

(** C21.  Full statement: the mutant does not depend on the order in which
    hash maps iterate.  The code violates it for calls with two shared argument
    types: same seed, same input, different mutants. *)
Theorem C21_same_seed_same_mutant_refuted : exists e o ast ts t ps pm r,
  shuffles (e_order e) /\ shuffles o /\ calculate_node_paths ps sol_id ast = Ok pm /\
  forall fuel, exists a a' mr mr' r' r'',
    mutate_ast (solidity e) ps (select_mutators (solidity e) ts []) pm fuel ast t 0 r = Ok (a, mr, r') /\
    mutate_ast (solidity (reorder e o)) ps (select_mutators (solidity (reorder e o)) ts []) pm fuel ast t 0 r
      = Ok (a', mr', r'') /\ a <> a'.
Proof. exact order_matters. Qed.
Print Assumptions C21_same_seed_same_mutant_refuted.

(** What holds: every other Solidity mutation, and this one too on programs
    without such calls; all Vyper mutations. *)
Theorem C21_solidity_same_seed_same_mutant_partial : forall e o ts ps pm fuel ast t i r,
  shuffles (e_order e) -> shuffles o ->
  (t = Generic SwapFunctionArguments -> forall p n, subtree p ast = Some n ->
     is_sol "FunctionCall" n -> one_shared_type n) ->
  mutate_ast (solidity (reorder e o)) ps (select_mutators (solidity (reorder e o)) ts []) pm fuel ast t i r =
  mutate_ast (solidity e) ps (select_mutators (solidity e) ts []) pm fuel ast t i r.
Proof. exact sol_run_order. Qed.
Print Assumptions C21_solidity_same_seed_same_mutant_partial.

Theorem C21_vyper_same_seed_same_mutant : forall e o ts ps pm fuel ast t i r,
  mutate_ast (vyper (reorder e o)) ps (select_mutators (vyper (reorder e o)) ts []) pm fuel ast t i r =
  mutate_ast (vyper e) ps (select_mutators (vyper e) ts []) pm fuel ast t i r.
Proof. exact vy_run_order. Qed.
Print Assumptions C21_vyper_same_seed_same_mutant.

(** The map of selected operators is a hash map too: iterating it in another
    order gives the same counts and the same operator for each type. *)
Theorem C21_operator_map_order : forall ps ms ms' ast c,
  Permutation ms ms' -> NoDup (map fst ms) -> count_mutable_nodes ps ms ast = Ok c ->
  exists c', count_mutable_nodes ps ms' ast = Ok c' /\ forall t, ct_get t c = ct_get t c'.
Proof. exact count_permutation. Qed.
Print Assumptions C21_operator_map_order.

Theorem C21_operator_lookup_order : forall t ms ms',
  Permutation ms ms' -> NoDup (map fst ms) -> mm_get t ms = mm_get t ms'.
Proof. exact mm_get_permutation. Qed.
Print Assumptions C21_operator_lookup_order.

Example C21_example : exists o, shuffles (e_order ex_env) /\ shuffles o /\ o ["a"; "b"] <> e_order ex_env ["a"; "b"] /\
  (forall p n, subtree p ex_recursive = Some n -> is_sol "FunctionCall" n -> one_shared_type n).
Proof. exact order_example. Qed.

(** C22. *)
Theorem C22_solidity_if_condition : forall e m fuel n r d,
  sol_mutator_for e (Generic IfStatement) = Some m -> mu_mutable m n = Ok true -> mu_mutate m fuel n r = Ok d ->
  exists c c', is_sol "IfStatement" n /\ has_field n "condition" c /\
    (sol_bool_literal true c' \/ sol_bool_literal false c' \/ sol_negation c c') /\
    field_becomes "condition" c' n (md_node d).
Proof. exact sol_if_claim. Qed.
Print Assumptions C22_solidity_if_condition.

(** C22 for Vyper. *)
Theorem C22_vyper_if_condition : forall e m fuel n r d,
  vy_mutator_for e (Generic IfStatement) = Some m -> mu_mutable m n = Ok true -> mu_mutate m fuel n r = Ok d ->
  exists c c', is_vy "If" n /\ has_field n "test" c /\
    (vy_bool_constant true c' \/ vy_bool_constant false c' \/ vy_negation c c') /\
    field_becomes "test" c' n (md_node d).
Proof. exact vy_if_claim. Qed.
Print Assumptions C22_vyper_if_condition.

Example C22_example :
  changes (sol_mutator_for ex_env (Generic IfStatement)) (s_if 1 (s_ident 2 "c") (s_block 3 []) JNull) (const_rng 2) /\
  changes (vy_mutator_for ex_env (Generic IfStatement)) ex_if (const_rng 1).
Proof. repeat split; changed. Qed.

(** C23.  Full statement: the new value differs from the old one.  The code
    violates it: the random replacement may hit the old value. *)
Theorem C23_integer_changes_refuted : exists e m m' n n' r,
  sol_mutator_for e (Generic Integer) = Some m /\ vy_mutator_for e (Generic Integer) = Some m' /\
  mu_mutable m n = Ok true /\ mu_mutable m' n' = Ok true /\
  forall fuel, exists d d', mu_mutate m fuel n r = Ok d /\ md_node d = n /\
                            mu_mutate m' fuel n' r = Ok d' /\ md_node d' = n'.
Proof. exact integer_unchanged. Qed.
Print Assumptions C23_integer_changes_refuted.

(** What holds: only the value changes; in two of the three ways of changing it
    the new value differs, in the third it is the next random number. *)
Theorem C23_solidity_integer_partial : forall e m fuel n r d,
  sol_mutator_for e (Generic Integer) = Some m -> mu_mutable m n = Ok true -> mu_mutate m fuel n r = Ok d ->
  exists old new, is_sol "Literal" n /\ has_field n "kind" (JStr "number") /\
    has_field n "value" (JStr old) /\ field_becomes "value" (JStr new) n (md_node d) /\
    (first_draw r 3 <> 2%N -> new <> old) /\
    (first_draw r 3 = 2%N -> new = show_N (second_draw r)).
Proof. exact sol_int_claim. Qed.
Print Assumptions C23_solidity_integer_partial.

(** The same for Vyper, for values of 64 bits. *)
Theorem C23_vyper_integer_partial : forall e m fuel n r d z,
  vy_mutator_for e (Generic Integer) = Some m -> mu_mutable m n = Ok true -> mu_mutate m fuel n r = Ok d ->
  has_field n "value" (jint z) -> (-9223372036854775808 <= z <= 9223372036854775807)%Z ->
  exists z', is_vy "Int" n /\ (-9223372036854775808 <= z' <= 9223372036854775807)%Z /\
    field_becomes "value" (jint z') n (md_node d) /\
    (first_draw r 3 <> 2%N -> z' <> z) /\
    (first_draw r 3 = 2%N -> (z' mod 2 ^ 64 = Z.of_N (second_draw r))%Z).
Proof. exact vy_int_claim. Qed.
Print Assumptions C23_vyper_integer_partial.

Example C23_example :
  changes (sol_mutator_for ex_env (Generic Integer)) (s_number 1 "5") (const_rng 1) /\
  changes (vy_mutator_for ex_env (Generic Integer)) (v_int 1 5) (const_rng 0).
Proof. repeat split; changed. Qed.

(** C24.  The operands change places and nothing else; the operator accepts the
    result again, and then restores the node. *)
Theorem C24_solidity_swap_operands : forall e m fuel n r d,
  sol_mutator_for e (Generic SwapOperatorArguments) = Some m ->
  wf n -> mu_mutable m n = Ok true -> mu_mutate m fuel n r = Ok d ->
  (exists op a b, is_sol "BinaryOperation" n /\ has_field n "operator" (JStr op) /\
    In op non_commutative /\ has_field n "leftExpression" a /\ has_field n "rightExpression" b /\
    two_fields_become "leftExpression" b "rightExpression" a n (md_node d)) /\
  mu_mutable m (md_node d) = Ok true /\
  (forall fuel' r' d', mu_mutate m fuel' (md_node d) r' = Ok d' -> md_node d' = n).
Proof. exact sol_swapop_claim. Qed.
Print Assumptions C24_solidity_swap_operands.

(** For Vyper, on nodes with two operands (boolean operations carry "and" or
    "or"). *)
Theorem C24_vyper_swap_operands : forall e m fuel n r d a b,
  vy_mutator_for e (Generic SwapOperatorArguments) = Some m ->
  wf n -> has_field n "left" a -> has_field n "right" b ->
  (is_vy "BoolOp" n -> exists op, has_field n "op" op /\ (is_vy "And" op \/ is_vy "Or" op)) ->
  mu_mutable m n = Ok true -> mu_mutate m fuel n r = Ok d ->
  (is_vy "BinOp" n \/ is_vy "Compare" n) /\
  (exists op t, has_field n "op" op /\ is_vy t op /\ In t vy_non_commutative) /\
  two_fields_become "left" b "right" a n (md_node d) /\
  mu_mutable m (md_node d) = Ok true /\
  (forall fuel' r' d', mu_mutate m fuel' (md_node d) r' = Ok d' -> md_node d' = n).
Proof. exact vy_swapop_claim. Qed.
Print Assumptions C24_vyper_swap_operands.

Example C24_example :
  changes (sol_mutator_for ex_env (Generic SwapOperatorArguments)) dif_ab ex_rng /\
  changes (vy_mutator_for ex_env (Generic SwapOperatorArguments)) (v_binop 1 "Sub" (v_name 3 "a") (v_name 4 "b")) ex_rng.
Proof. repeat split; changed. Qed.

(** C25. *)
Theorem C25_solidity_swap_lines : forall e m fuel n r d,
  sol_mutator_for e (Generic SwapLines) = Some m -> mu_mutable m n = Ok true -> mu_mutate m fuel n r = Ok d ->
  exists l l' i j, is_sol "Block" n /\ has_field n "statements" (JArr l) /\
    exchanged i j l l' /\ Permutation l l' /\
    (forall k x, is_sol "Return" x -> (nth_error l k = Some x <-> nth_error l' k = Some x)) /\
    field_becomes "statements" (JArr l') n (md_node d).
Proof. exact sol_swaplines_claim. Qed.
Print Assumptions C25_solidity_swap_lines.

(** C25 for Vyper. *)
Theorem C25_vyper_swap_lines : forall e m fuel n r d,
  vy_mutator_for e (Generic SwapLines) = Some m -> mu_mutable m n = Ok true -> mu_mutate m fuel n r = Ok d ->
  exists l l' i j, (is_vy "FunctionDef" n \/ is_vy "For" n \/ is_vy "If" n) /\
    has_field n "body" (JArr l) /\ exchanged i j l l' /\ Permutation l l' /\
    (forall k x, is_vy "Return" x -> (nth_error l k = Some x <-> nth_error l' k = Some x)) /\
    field_becomes "body" (JArr l') n (md_node d).
Proof. exact vy_swaplines_claim. Qed.
Print Assumptions C25_vyper_swap_lines.

Example C25_example :
  changes (sol_mutator_for ex_env (Generic SwapLines)) ex_lines ex_rng /\
  changes (vy_mutator_for ex_env (Generic SwapLines))
    (v_def 1 "f" [v_assign 2 (v_name 3 "x") (v_int 4 1); v_assign 5 (v_name 6 "y") (v_int 7 2); v_return 8 (v_name 9 "x")]) ex_rng.
Proof. repeat split; changed. Qed.

(** C26.  The code always uses the negation. *)
Theorem C26_require_condition : forall e m fuel n r d,
  sol_mutator_for e (Solidity Require) = Some m -> mu_mutable m n = Ok true -> mu_mutate m fuel n r = Ok d ->
  exists arg rest f c', is_sol "FunctionCall" n /\ has_field n "expression" f /\
    has_field f "name" (JStr "require") /\ has_field n "arguments" (JArr (arg :: rest)) /\
    sol_negation arg c' /\ field_becomes "arguments" (JArr (c' :: rest)) n (md_node d).
Proof. exact sol_require_claim. Qed.
Print Assumptions C26_require_condition.

Example C26_example :
  changes (sol_mutator_for ex_env (Solidity Require)) (s_call 1 (s_ident 2 "require") [s_ident 3 "c"; s_ident 4 "msg"]) ex_rng.
Proof. repeat split; changed. Qed.

(** C27. *)
Theorem C27_unchecked_block : forall e m fuel n r d,
  sol_mutator_for e (Solidity UncheckedBlock) = Some m -> mu_mutable m n = Ok true -> mu_mutate m fuel n r = Ok d ->
  exists l l' i x u, is_sol "Block" n /\ has_field n "statements" (JArr l) /\
    nth_error l i = Some x /\ ~ is_sol "Return" x /\ ~ is_sol "UncheckedBlock" x /\
    sol_unchecked_of x u /\ slot_becomes i u l l' /\
    field_becomes "statements" (JArr l') n (md_node d).
Proof. exact sol_unchecked_claim. Qed.
Print Assumptions C27_unchecked_block.

Example C27_example :
  changes (sol_mutator_for ex_env (Solidity UncheckedBlock)) ex_lines ex_rng.
Proof. repeat split; changed. Qed.

(** C28. *)
Theorem C28_delegate_call : forall e m fuel n r d,
  sol_mutator_for e (Solidity ElimDelegateCall) = Some m -> mu_mutable m n = Ok true -> mu_mutate m fuel n r = Ok d ->
  is_sol "MemberAccess" n /\ has_field n "memberName" (JStr "delegatecall") /\
  field_becomes "memberName" (JStr "call") n (md_node d).
Proof. exact sol_delegate_claim. Qed.
Print Assumptions C28_delegate_call.

Example C28_example :
  changes (sol_mutator_for ex_env (Solidity ElimDelegateCall))
    (s_node "MemberAccess" 1 [("memberName", JStr "delegatecall"); ("expression", s_ident 2 "a")]) ex_rng.
Proof. repeat split; changed. Qed.

(** C55.  Each operator accepts exactly the nodes described in
    [SpecAccept.v]. *)
Theorem C55_solidity_accepts : forall e t m n,
  sol_mutator_for e t = Some m -> (mu_mutable m n = Ok true <-> sol_accepts t n).
Proof. exact sol_accepts_iff. Qed.
Print Assumptions C55_solidity_accepts.

Theorem C55_vyper_accepts : forall e t m n,
  vy_mutator_for e t = Some m -> (mu_mutable m n = Ok true <-> vy_accepts e t n).
Proof. exact vy_accepts_iff. Qed.
Print Assumptions C55_vyper_accepts.

Example C55_example : sol_accepts (Generic ArithmeticBinaryOp) sum_ab /\
  ~ sol_accepts (Generic SwapOperatorArguments) sum_ab /\
  vy_accepts ex_env (Generic IfStatement) ex_if /\ ~ vy_accepts ex_env (Generic SwapLines) ex_if.
Proof. exact accept_example. Qed.

(** C56.  Full statement: deciding whether an operator applies to a node never
    crashes.  The code violates it on a Vyper shift. *)
Theorem C56_classification_crash_refuted : forall e, exists m n msg,
  vy_mutator_for e (Generic SwapOperatorArguments) = Some m /\ mu_mutable m n = Panic msg.
Proof. exact classify_witness. Qed.
Print Assumptions C56_classification_crash_refuted.

(** What holds: in Solidity when type names start with three ASCII characters, *)
Theorem C56_solidity_classification_partial : forall e t m n,
  (forall ts a c b, sol_type_of n ts -> ts = a ++ String c b -> String.length a = 3 -> is_cont_byte c = false) ->
  sol_mutator_for e t = Some m -> classifies m n.
Proof. exact sol_classifies. Qed.
Print Assumptions C56_solidity_classification_partial.

(** in Vyper when the operators are known to the operator table, and the only
    statement of a body has no comments and no irregular nodes in it. *)
Theorem C56_vyper_classification_partial : forall e t m n,
  reads_vy e -> (forall x, has_field n "body" (JArr [x]) -> vy_plain x) ->
  (forall op ot, has_field n "op" op -> is_vy ot op -> In ot (map fst python_operators)) ->
  vy_mutator_for e t = Some m -> classifies m n.
Proof. exact vy_classifies_plain. Qed.
Print Assumptions C56_vyper_classification_partial.

Example C56_example :
  (forall ts a c b, sol_type_of int256_assignment ts -> ts = a ++ String c b -> String.length a = 3 ->
     is_cont_byte c = false) /\
  (forall op ot, has_field (v_binop 1 "Sub" (v_name 3 "a") (v_name 4 "b")) "op" op -> is_vy ot op ->
     In ot (map fst python_operators)) /\
  (reads_vy ex_env /\ forall x, has_field address_function "body" (JArr [x]) -> vy_plain x).
Proof.
  exact (conj (proj1 classify_example) (conj (proj2 classify_example) classify_example_plain)).
Qed.

(** C57. *)
Theorem C57_vyper_unary_operator_removed : forall e m fuel n r d,
  vy_mutator_for e (Generic UnaryOp) = Some m -> mu_mutable m n = Ok true -> mu_mutate m fuel n r = Ok d ->
  is_vy "UnaryOp" n /\ has_field n "operand" (md_node d).
Proof. exact vy_unary_claim. Qed.
Print Assumptions C57_vyper_unary_operator_removed.

Example C57_example :
  changes (vy_mutator_for ex_env (Generic UnaryOp)) (v_node "UnaryOp" 1 [("op", v_op 2 "Not"); ("operand", v_name 3 "c")]) ex_rng.
Proof. repeat split; changed. Qed.

(** C58.  Each mutation is recorded under its own type and comes with a text
    comment. *)
Theorem C58_solidity_label : forall e t m fuel n r d,
  sol_mutator_for e t = Some m -> mu_mutable m n = Ok true -> mu_mutate m fuel n r = Ok d ->
  mr_type (md_result d) = Some t /\ exists c, md_comment d = Some c /\ sol_text_comment c.
Proof. exact sol_label. Qed.
Print Assumptions C58_solidity_label.

(** C58 for Vyper. *)
Theorem C58_vyper_label : forall e t m fuel n r d,
  vy_mutator_for e t = Some m -> mu_mutable m n = Ok true -> mu_mutate m fuel n r = Ok d ->
  mr_type (md_result d) = Some t /\ exists c, md_comment d = Some c /\ vy_text_comment c.
Proof. exact vy_label. Qed.
Print Assumptions C58_vyper_label.

Example C58_example : exists m d, sol_mutator_for ex_env (Generic SwapLines) = Some m /\ mu_mutable m ex_lines = Ok true /\
  mu_mutate m 100 ex_lines ex_rng = Ok d.
Proof. eexists _, _. split; [reflexivity|]. split; vm_compute; reflexivity. Qed.
