(** Inline assembly: C110. *)
From Coq Require Import String Ascii List NArith Bool.
From Verif Require Import Base Json Printer SolPrinter SpecPrinter SpecLiteral SpecVyText SpecSolText SpecYul SolTextClaims YulText YulClaims.
Import ListNotations.
Open Scope string_scope.
Open Scope list_scope.

(** C110.  A block of statements and assembly blocks, in any order, is printed
    as its text, when the assembly has none of the constructs refuted below. *)
Theorem C110_assembly_text_partial :
  forall oc h l n, l <> [] -> mixed_block_node l n -> Forall (mixed_easy h) l -> (N.of_nat (S h) <= 36)%N ->
  narrow 150 (mixed_block 4 0 l) -> sol_print oc n = Ok (mixed_block 4 0 l).
Proof. exact mixed_printed. Qed.
Print Assumptions C110_assembly_text_partial.

Example C110_example :
  yul_demo <> [] /\ mixed_block_node yul_demo (jmixed_block yul_demo) /\ Forall (mixed_easy 5) yul_demo /\
  mixed_block 4 0 yul_demo = yul_demo_text /\ narrow 150 yul_demo_text.
Proof.
  split; [discriminate|]. split; [exact yul_demo_node|]. split; [exact yul_demo_easy|]. split; [exact yul_demo_shown|exact yul_demo_narrow].
Qed.

(** A variable without a value, several results, a literal in hexadecimal, a
    character to be escaped. *)
Theorem C110_assembly_text_refuted :
  misprinted ynode (ytext 4 0 false) "let x" "let x := " /\
  misprinted ynode (ytext 4 0 false) "function f() -> a, b {}" "function f() -> (a, b) {}" /\
  misprinted ynode (ytext 4 0 false) "x := hex""ff""" "x := " /\
  misprinted ynode (ytext 4 0 false) "x := ""\""""" "x := """"""".
Proof. exact wrong_assembly. Qed.
Print Assumptions C110_assembly_text_refuted.
