(** C85: printing a tree gives a text. *)
From Coq Require Import String List NArith ZArith Bool Arith.
From Verif Require Import Base Json Rng MutationType Traverse OpCommon SolMutators VyMutators Printer SolPrinter VyPrinter
  SpecTree SpecOps SpecPrinter SpecPlain Samples PaceSol PaceVy PlainClaims.
Import ListNotations.
Open Scope list_scope.
Open Scope string_scope.

(** C85.  Full statement: the printers turn every AST into a text.  The code
    violates it: a word of 160 characters in a documentation comment is laid out
    forever, a call with more names than arguments panics, and a statement that
    is printed as it stands is printed forever once it is commented out. *)
Theorem C85_printing_refuted :
  (forall oc, sol_print oc sol_long_doc = Diverge /\ exists msg, sol_print oc sol_odd_call = Panic msg) /\
  vy_plain vy_long_name /\
  (forall e fl, exists m r d, vy_mutator_for e (Generic DeleteStatement) = Some m /\
     mu_mutable m vy_long_name = Ok true /\ (forall fuel, mu_mutate m fuel vy_long_name r = Ok d) /\
     forall oc, vy_print oc fl (md_node d) = Diverge).
Proof. exact unprinted. Qed.
Print Assumptions C85_printing_refuted.

(** What holds: trees without irregular nodes and without remarks are printed,
    however deep they are and however long their lines, *)
Theorem C85_solidity_plain_partial : forall oc n, sol_plain n -> exists s, sol_print oc n = Ok s.
Proof. exact (fun oc n H => sol_plain_prints oc n H sol_default). Qed.
Print Assumptions C85_solidity_plain_partial.

Theorem C85_vyper_plain_partial : forall oc fl n, vy_plain n -> exists s, vy_print oc fl n = Ok s.
Proof. exact (fun oc fl n H => vy_plain_prints oc n H (vy_default oc fl)). Qed.
Print Assumptions C85_vyper_plain_partial.

(** and with remarks when their words fit beside the deepest indentation. *)
Theorem C85_solidity_legible_partial : forall oc k n, sol_legible k n ->
  (4 * climb 0 (sol_emit sol_default n) + k <= 142)%N -> (4 * climb 0 (sol_emit sol_default n) < 142)%N ->
  exists s, sol_print oc n = Ok s.
Proof. exact (fun oc k n => sol_legible_prints oc k n sol_default). Qed.
Print Assumptions C85_solidity_legible_partial.

Theorem C85_vyper_legible_partial : forall oc fl k n, vy_legible k n ->
  (4 * climb 0 (vy_emit (vy_default oc fl) n) + k <= 142)%N -> (4 * climb 0 (vy_emit (vy_default oc fl) n) < 142)%N ->
  exists s, vy_print oc fl n = Ok s.
Proof. exact (fun oc fl k n => vy_legible_prints oc k n (vy_default oc fl)). Qed.
Print Assumptions C85_vyper_legible_partial.

(** The printers meet the hypothesis that C16, C17, C35, C56 and C82-C84 put on
    the printer the operators use for their comments. *)
Theorem C85_solidity_comment_printer : forall e, prints_sol e -> reads_sol e.
Proof. exact sol_reads. Qed.
Print Assumptions C85_solidity_comment_printer.

Theorem C85_vyper_comment_printer : forall e fl, prints_vy e fl -> reads_vy e.
Proof. exact vy_reads. Qed.
Print Assumptions C85_vyper_comment_printer.

Example C85_plain_example : sol_plain ex_unit /\ vy_plain ex_module.
Proof. exact plain_example. Qed.

Example C85_legible_example :
  sol_legible 8 sol_with_comment /\ (4 * climb 0 (sol_emit sol_default sol_with_comment) + 8 <= 142)%N /\
  (4 * climb 0 (sol_emit sol_default sol_with_comment) < 142)%N /\
  vy_legible 8 vy_with_comment /\ (4 * climb 0 (vy_emit (vy_default true (fun _ => "")) vy_with_comment) + 8 <= 142)%N /\
  (4 * climb 0 (vy_emit (vy_default true (fun _ => "")) vy_with_comment) < 142)%N.
Proof. exact legible_example. Qed.
