(** Inline assembly is read back: C111. *)
From Coq Require Import String Ascii List NArith Bool.
From Verif Require Import Base Json Printer SolPrinter SpecPrinter SpecLiteral SpecVyText SpecSolText SpecSolRead SpecYul SpecYulRead
  SolTextClaims YulClaims YulReadClaims.
Import ListNotations.
Open Scope string_scope.
Open Scope list_scope.

(** C111.  A compiler reads the printed text of a block of statements and
    assembly as that very block. *)
Theorem C111_assembly_read_back_partial :
  forall oc h l n, l <> [] -> mixed_block_node l n -> Forall (mixed_easy h) l -> (N.of_nat (S h) <= 36)%N ->
  narrow 150 (mixed_block 4 0 l) -> forallb mixed_spelled l = true -> exists text, sol_print oc n = Ok text /\ reads_block text l.
Proof. exact mixed_read_back. Qed.
Print Assumptions C111_assembly_read_back_partial.

Example C111_example :
  yul_demo <> [] /\ mixed_block_node yul_demo (jmixed_block yul_demo) /\ Forall (mixed_easy 5) yul_demo /\
  narrow 150 (mixed_block 4 0 yul_demo) /\ forallb mixed_spelled yul_demo = true.
Proof.
  split; [discriminate|]. split; [exact yul_demo_node|]. split; [exact yul_demo_easy|].
  split; [rewrite yul_demo_shown; exact yul_demo_narrow|exact yul_demo_spelled].
Qed.

(** The reader is not the printer. *)
Example C111_other_layout : read_block 300 yul_other = Some yul_other_program /\ forallb mixed_spelled yul_other_program = true.
Proof. exact yul_other_read. Qed.
Example C111_refused :
  read_block 300 "{ assembly { let x := } }" = None /\ read_block 300 "{ assembly { x } }" = None /\
  read_block 300 "{ assembly { function f() -> (a, b) {} } }" = None /\ read_block 300 "{ assembly { if x y() } }" = None /\
  read_block 300 "{ assembly { switch x } }" = None /\ read_block 300 "{ assembly { let if := 1 } }" = None.
Proof. exact yul_refused. Qed.

(** [became l1 l2]: the tree of [l1] is printed as a text that is read as
    [l2], another program, and not as [l1]. *)
Theorem C111_assembly_read_back_refuted :
  became [Asm [] [YLet ["x"] None; YExp (YCall "f" [])]] [Asm [] [YLet ["x"] (Some (YCall "f" []))]] /\
  became [Asm [] [YSet ["x"] (YHex (String (ascii_of_nat 255) "")); YExp (YCall "f" [])]] [Asm [] [YSet ["x"] (YCall "f" [])]].
Proof. exact other_assembly. Qed.
Print Assumptions C111_assembly_read_back_refuted.
