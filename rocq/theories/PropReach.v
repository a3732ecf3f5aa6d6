(** C82-C84: which mutants can come out.  A draw stands for one call of the
    random number library; "can" means that some finite sequence of draws leads
    there, whatever follows it. *)
From Coq Require Import String List NArith ZArith Bool Arith.
From Verif Require Import Base Json Rng Permissions MutationType Traverse OpCommon SolMutators VyMutators Comments
  Language Paths Generator SpecTree SpecMutation SpecOps SpecTotal SpecAccept SpecOrder SpecJson SpecGenerator
  SpecReach SpecRun OpClaims ReachClaims ReachDemo Samples Witness GenWitness
  SpecPlain PlainClaims.
Import ListNotations.
Open Scope list_scope.
Open Scope string_scope.

(** C82.  The results of an operator on a node are those of the catalogue
    [sol_outcome], all of them and no others. *)
Theorem C82_solidity_results : forall e t m n,
  reads_sol e -> shuffles (e_order e) -> sol_plain n -> sol_schema n -> sol_crash_free t n ->
  sol_mutator_for e t = Some m -> mu_mutable m n = Ok true ->
  (forall P, sol_outcome n t P -> can_give m n P) /\
  (forall r fuel d, mu_mutate m fuel n r = Ok d -> exists P, sol_outcome n t P /\ P (md_node d)).
Proof. exact sol_catalogue_plain. Qed.
Print Assumptions C82_solidity_results.

(** C82 for Vyper. *)
Theorem C82_vyper_results : forall e t m n,
  reads_vy e -> vy_clear n -> wf n -> vy_schema n -> vy_complete n -> vy_crash_free t n ->
  vy_mutator_for e t = Some m -> mu_mutable m n = Ok true ->
  (forall P, vy_outcome e n t P -> can_give m n P) /\
  (forall r fuel d, mu_mutate m fuel n r = Ok d -> exists P, vy_outcome e n t P /\ P (md_node d)).
Proof. exact vy_catalogue_plain. Qed.
Print Assumptions C82_vyper_results.

Example C82_example :
  reads_sol ex_env /\ shuffles (e_order ex_env) /\ sol_plain uint8_assignment /\ sol_schema uint8_assignment /\
  sol_crash_free (Generic Assignment) uint8_assignment /\
  (exists m, sol_mutator_for ex_env (Generic Assignment) = Some m /\ mu_mutable m uint8_assignment = Ok true) /\
  sol_outcome uint8_assignment (Generic Assignment) (gets "rightHandSide" (sol_number_literal 254) uint8_assignment) /\
  reads_vy ex_env /\ vy_clear ex_if /\ wf ex_if /\ vy_schema ex_if /\ vy_complete ex_if /\
  vy_crash_free (Generic IfStatement) ex_if /\
  (exists m, vy_mutator_for ex_env (Generic IfStatement) = Some m /\ mu_mutable m ex_if = Ok true) /\
  vy_outcome ex_env ex_if (Generic IfStatement) (gets "test" (vy_bool_constant false) ex_if).
Proof. exact catalogue_example_plain. Qed.

(** C83.  Full statement: the Solidity assignment operator can assign every
    value of the assigned type, and the argument swapper can exchange every two
    arguments of the same type.  The code violates it: a [bool] never becomes
    [true], a [uint8] never 255, and of three arguments the first and the third
    are never exchanged. *)
Theorem C83_values_refuted :
  (exists m, sol_mutator_for ex_env (Generic Assignment) = Some m /\ mu_mutable m bool_assignment = Ok true /\
     sol_type_of bool_assignment "bool" /\
     never_gives m bool_assignment (gets "rightHandSide" (sol_bool_literal true) bool_assignment)) /\
  (exists m, sol_mutator_for ex_env (Generic Assignment) = Some m /\ mu_mutable m uint8_assignment = Ok true /\
     sol_type_of uint8_assignment "uint8" /\
     never_gives m uint8_assignment (gets "rightHandSide" (sol_number_literal 255) uint8_assignment)) /\
  (exists m, sol_mutator_for ex_env (Generic SwapFunctionArguments) = Some m /\ mu_mutable m three_call = Ok true /\
     has_field three_call "arguments" (JArr three_args) /\ Forall (fun x => sol_type_of x "uint8") three_args /\
     never_gives m three_call (gets_swapped "arguments" three_args 0 2 three_call)).
Proof. exact values_witness. Qed.
Print Assumptions C83_values_refuted.

(** What holds: exactly the following come out.  Of a [bool], [false]. *)
Theorem C83_solidity_bool_partial : forall e m n b,
  reads_sol e -> shuffles (e_order e) -> sol_plain n -> sol_schema n ->
  sol_mutator_for e (Generic Assignment) = Some m -> mu_mutable m n = Ok true -> sol_type_of n "bool" ->
  (can_give m n (gets "rightHandSide" (sol_bool_literal b) n) <-> b = false).
Proof. exact bool_exactly_plain. Qed.
Print Assumptions C83_solidity_bool_partial.

(** Of a [uintK], the values of [min K 128] bits but the largest. *)
Theorem C83_solidity_uint_partial : forall e m n k z,
  reads_sol e -> shuffles (e_order e) -> sol_plain n -> sol_schema n ->
  sol_mutator_for e (Generic Assignment) = Some m -> mu_mutable m n = Ok true ->
  (0 < k <= 256)%N -> sol_type_of n ("uint" ++ show_N k) ->
  (can_give m n (gets "rightHandSide" (sol_number_literal z) n) <-> (0 <= z < 2 ^ Z.of_N (N.min k 128) - 1)%Z).
Proof. exact uint_exactly_plain. Qed.
Print Assumptions C83_solidity_uint_partial.

(** Of the pairs of arguments, the first two of a type. *)
Theorem C83_solidity_swapped_arguments_partial : forall e m n l i j,
  reads_sol e -> shuffles (e_order e) -> sol_plain n -> sol_schema n ->
  sol_mutator_for e (Generic SwapFunctionArguments) = Some m -> mu_mutable m n = Ok true ->
  has_field n "arguments" (JArr l) -> NoDup l -> i < j ->
  (can_give m n (gets_swapped "arguments" l i j n) <-> exists t, first_two t l i j).
Proof. exact swap_exactly_plain. Qed.
Print Assumptions C83_solidity_swapped_arguments_partial.

Example C83_example : reads_sol ex_env /\ shuffles (e_order ex_env) /\ sol_plain three_call /\ sol_schema three_call /\
  (exists m, sol_mutator_for ex_env (Generic SwapFunctionArguments) = Some m /\ mu_mutable m three_call = Ok true) /\
  has_field three_call "arguments" (JArr three_args) /\ NoDup three_args /\ first_two "uint8" three_args 0 1.
Proof. exact swap_example_plain. Qed.

(** C84.  Whatever an operator can do to a node the run may change, a run can
    write as its first mutant. *)
Theorem C84_solidity_run_can_write : forall e W P ast c t m p n R,
  reads_sol e -> shuffles (e_order e) -> rearranges (w_order W) -> undisturbed W P ->
  run_counts (solidity_files e) W P ast c -> 0 < rp_count P -> In t (rp_types P) -> (N.of_nat (reported t c) <= 2 ^ 64)%N ->
  sol_mutator_for e t = Some m -> subtree p ast = Some n -> sol_plain n -> sol_schema n -> mu_mutable m n = Ok true ->
  open_to_run P ast p ->
  sol_outcome n t R -> can_write (solidity_files e) W P ast t p R.
Proof. exact sol_run_reach_plain. Qed.
Print Assumptions C84_solidity_run_can_write.

(** C84 for Vyper. *)
Theorem C84_vyper_run_can_write : forall e W P ast c t m p n R,
  reads_vy e -> rearranges (w_order W) -> undisturbed W P ->
  run_counts (vyper_files e) W P ast c -> 0 < rp_count P -> In t (rp_types P) -> (N.of_nat (reported t c) <= 2 ^ 64)%N ->
  vy_mutator_for e t = Some m -> subtree p ast = Some n -> vy_clear n -> wf n -> vy_schema n -> vy_complete n ->
  vy_crash_free t n -> mu_mutable m n = Ok true -> open_to_run P ast p ->
  vy_outcome e n t R -> can_write (vyper_files e) W P ast t p R.
Proof. exact vy_run_reach_plain. Qed.
Print Assumptions C84_vyper_run_can_write.

(** Two mutants of [x = a + b;] that the same run can write. *)
Example C84_example : reads_sol ex_env /\ sol_plain sum_ab /\ exists c,
  rearranges (w_order ex_world) /\ undisturbed ex_world ex_params /\ run_counts ex_lang ex_world ex_params ex_unit c /\
  0 < rp_count ex_params /\ In arith (rp_types ex_params) /\ (N.of_nat (reported arith c) <= 2 ^ 64)%N /\
  (exists m, sol_mutator_for ex_env arith = Some m /\ mu_mutable m sum_ab = Ok true) /\
  subtree sum_place ex_unit = Some sum_ab /\ sol_schema sum_ab /\ open_to_run ex_params ex_unit sum_place /\
  sol_outcome sum_ab arith (gets "operator" (eq (JStr "**")) sum_ab) /\
  sol_outcome sum_ab arith (gets "operator" (eq (JStr "%")) sum_ab).
Proof. exact (conj ex_reads_sol (conj run_example_plain run_example)). Qed.
