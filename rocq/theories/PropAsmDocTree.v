(** Blocks with documented assembly: C117. *)
From Coq Require Import String Ascii List NArith Bool.
From Verif Require Import Base Json Printer SolPrinter SpecPrinter SpecLiteral SpecVyText SpecSolText SpecSolRead SpecDoc SpecAsmDoc SpecYul SpecYulRead
  SolTextClaims YulClaims YulReadClaims AsmDocTree.
Import ListNotations.
Open Scope string_scope.
Open Scope list_scope.

(** C117.  A block whose assembly is documented, with any texts, is printed as
    a text that the compiler reads as the block [l].  The conditions on [l] are
    those of C111: names and literals are spelled as in Solidity, and no line of
    the text without documentation is longer than the page. *)
Theorem C117_documented_assembly_block :
  forall oc h l n n' text, l <> [] -> mixed_block_node l n -> assembly_documented n n' ->
  Forall (mixed_easy h) l -> (N.of_nat (S h) <= 36)%N -> narrow 150 (mixed_block 4 0 l) -> forallb mixed_spelled l = true ->
  sol_print oc n' = Ok text -> reads_block text l.
Proof. exact documented_assembly_reads. Qed.
Print Assumptions C117_documented_assembly_block.

(** Two documented assembly blocks; one text has the characters that end other
    comments, the other has two lines. *)
Example C117_example :
  yul_demo <> [] /\ mixed_block_node yul_demo (jmixed_block yul_demo) /\ assembly_documented (jmixed_block yul_demo) noted_demo /\
  Forall (mixed_easy 5) yul_demo /\ narrow 150 (mixed_block 4 0 yul_demo) /\ forallb mixed_spelled yul_demo = true /\
  sol_print true noted_demo = Ok noted_demo_text.
Proof.
  split; [discriminate|]. split; [exact yul_demo_node|]. split; [exact noted_demo_documented|]. split; [exact yul_demo_easy|].
  split; [rewrite yul_demo_shown; exact yul_demo_narrow|]. split; [exact yul_demo_spelled|exact noted_demo_printed].
Qed.
