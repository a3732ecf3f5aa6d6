(** A Solidity mutant is the program with one edit: C93. *)
From Coq Require Import String Ascii List NArith ZArith Bool.
From Verif Require Import Base Json Rng MutationType Traverse OpCommon SolMutators Language Generator Printer SolPrinter
  SpecTree SpecMutation SpecPrinter SpecTotal SpecAccept SpecGenerator SpecComments SpecVyText SpecSolText SpecSolRead SpecSolEdit
  SolTextClaims SolEditClaims SolEditDemo GenWitness Samples.
Import ListNotations.
Open Scope string_scope.
Open Scope list_scope.

(** C93: [l] is the program the run was started on. Every mutant of the run,
    its comments left aside, stands for [l] with exactly one edit, of the kind
    that the record of the mutant names; where the comment had to stand in a
    body without braces, the body has them now. The exception is a block that
    is itself a branch of an "if". *)
Theorem C93_solidity_mutants_are_one_edit :
  forall e W P fuel license ast r l, rearranges (w_order W) ->
  unit_node license l ast -> lean ast = true -> uncommented ast ->
  (forall p n t, subtree p ast = Some n -> In t (rp_types P) -> sol_accepts t n -> sol_crash_free t n) ->
  forall ast' mr i, In (ast', mr) (mutants (fst (generate (solidity_files e) W P fuel ast r))) ->
  mr_node mr = Some i -> ~ mutated_branch i ast ->
  exists t l1 l', mr_type mr = Some t /\ In t (rp_types P) /\ one_edit t l l1 /\ same_but_braces l1 l' /\
    unit_node license l' (without_comments ast').
Proof. exact solidity_mutants_edit. Qed.
Print Assumptions C93_solidity_mutants_are_one_edit.

(** The same for one application of an operator to any node of the tree. *)
Theorem C93_solidity_operators_make_one_edit :
  forall license e t m p n ast fuel r d l, unit_node license l ast -> lean ast = true -> uncommented ast ->
  subtree p ast = Some n -> sol_crash_free t n ->
  sol_mutator_for e t = Some m -> mu_mutable m n = Ok true -> mu_mutate m fuel n r = Ok d ->
  let ast1 := set_subtree p (md_node d) ast in
  exists l', one_edit t l l' /\ unit_node license l' (without_comments ast1) /\ lean (without_comments ast1) = true.
Proof. exact mutation_edit. Qed.
Print Assumptions C93_solidity_operators_make_one_edit.

(** A run with five mutants. The third puts braces around a branch. *)
Example C93_example :
  rearranges (w_order ex_world) /\ unit_node (Some "MIT") small_sol small_sol_node /\ lean small_sol_node = true /\ uncommented small_sol_node /\
  (forall p n t, subtree p small_sol_node = Some n -> In t (rp_types sol_edit_params) -> sol_accepts t n -> sol_crash_free t n) /\
  (forall i, ~ mutated_branch i small_sol_node) /\
  sol_print true small_sol_node = Ok (small_text decl0 branch0 loop0) /\
  Forall2 (fun am (tl : mutation_type * N * string) => sol_shows am (fst (fst tl)) (snd (fst tl)) (snd tl))
    (mutants (fst (generate (solidity_files ex_env) ex_world sol_edit_params 20 small_sol_node ex_rng)))
    [ (Generic ArithmeticBinaryOp, 14%N,
       small_text ["        // ArithmeticBinaryOp Mutator: changed '+' to '**'"; "        uint256 b = a ** 1;"] branch0 loop0);
      (Generic DeleteStatement, 33%N,
       small_text decl0 branch0
         ["            // DeleteStatement Mutator: deleted statement 'code'"; "            // b++;"; "            delete b;"]);
      (Generic FunctionCall, 25%N,
       small_text decl0
         ["        if(a > b) {"; "            // FunctionCall Mutator: replaced 'code' with 'code'"; "            b;"; "        }"] loop0);
      (Generic IfStatement, 17%N,
       small_text decl0
         ["        // IfStatement Mutator: changed condition 'code' to 'code'"; "        if(!(a > b)) "; "            g(a, b);"] loop0);
      (Generic Integer, 16%N,
       small_text ["        // Integer Mutator: changed '1' to '2'"; "        uint256 b = a + 2;"] branch0 loop0) ].
Proof.
  split; [exact ex_world_rearranges|]. split; [exact small_sol_program|]. destruct small_sol_lean as (A & B & C). split; [exact A|]. split; [exact B|].
  split; [exact small_sol_safe|]. split; [exact C|exact small_mutants_shown].
Qed.

(** Edits that are none of their kind. *)
Example C93_not_edits :
  edited (sol_edit (Generic IfStatement)) (if_stmt (XId "b")) (if_stmt (truth true)) /\
  edited (sol_edit (Generic IfStatement)) (if_stmt (XId "b")) (if_stmt (negated (XId "b"))) /\
  ~ edited (sol_edit (Generic IfStatement)) (if_stmt (XId "b")) (if_stmt (XId "b")) /\
  ~ edited (sol_edit (Generic IfStatement)) (if_stmt (XId "b")) (if_stmt (XId "c")) /\
  ~ edited (sol_edit (Generic Integer)) (if_stmt (XId "b")) (if_stmt (truth true)).
Proof. exact sol_if_edits. Qed.

(** The exception: a block that is a branch of an "if" and has its lines swapped
    is lost, and the text is no program. *)
Example C93_branch_lost :
  unit_node None (branch_sol (XId "g") (XId "h")) branch_sol_node /\
  lean branch_sol_node = true /\ uncommented branch_sol_node /\
  (forall p n t, subtree p branch_sol_node = Some n -> In t (rp_types branch_params) -> sol_accepts t n -> sol_crash_free t n) /\
  exists ast' mr, In (ast', mr) (mutants (fst (generate (solidity_files ex_env) ex_world branch_params 20 branch_sol_node ex_rng))) /\
    mr_node mr = Some 9%N /\ mutated_branch 9%N branch_sol_node /\
    sol_print true ast' = Ok (String.concat newline ["contract C {"; "    function f() public {"; "        if(c) "; "    }"; "}"; ""; ""]) /\
    read_unit 600 (String.concat newline ["contract C {"; "    function f() public {"; "        if(c) "; "    }"; "}"; ""; ""]) = None.
Proof. split; [exact branch_program|exact branch_lost]. Qed.
