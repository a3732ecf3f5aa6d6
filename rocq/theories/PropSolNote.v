(** A Solidity program with comments in it is read as that program: C94. *)
From Coq Require Import String Ascii List NArith ZArith Bool.
From Verif Require Import Base Json Printer SolPrinter SpecPrinter SpecLiteral SpecVyText SpecSolText SpecSolRead SpecSolEdit SpecSolNote
  SolTextClaims SolReadClaims SolEditDemo SolNoteClaims SolNoteDemo.
Import ListNotations.
Open Scope string_scope.
Open Scope list_scope.

(** C94: [n] is the tree of the program [l], and [n'] the same tree with
    comments among its statements and members. Whatever text is printed for
    [n'] is read as [l]. *)
Theorem C94_commented_solidity_reads_back :
  forall oc license l n n' h text, unit_node license l n -> noted h n n' -> oeasy one_line license -> Forall (easy_top_level h) l ->
  (N.of_nat h <= 36)%N -> narrow 150 (unit_text 4 license l) -> forallb top_spelled l = true ->
  sol_print oc n' = Ok text -> reads text l.
Proof. exact printed_sol_notes. Qed.
Print Assumptions C94_commented_solidity_reads_back.

(** Comments before the first and after the last member and statement of every
    list, one with a line end in its text, one that holds a statement. *)
Example C94_example :
  unit_node (Some "MIT") small_sol small_sol_node /\ noted 5 small_sol_node remarked_node /\ oeasy one_line (Some "MIT") /\
  Forall (easy_top_level 5) small_sol /\ narrow 150 (unit_text 4 (Some "MIT") small_sol) /\ forallb top_spelled small_sol = true /\
  sol_print true remarked_node = Ok remarked_text /\ remarked_text <> unit_text 4 (Some "MIT") small_sol.
Proof.
  split; [exact small_sol_program|]. split; [exact small_remarked|]. split; [reflexivity|]. split; [exact small_easy|].
  split; [exact (proj1 small_narrow)|]. split; [exact (proj2 small_narrow)|]. split; [exact remarked_printed|]. vm_compute. discriminate.
Qed.

(** A comment that holds a block is not a [fair_comment]: the rest of the block
    stays in force, and here the text is no program any more. *)
Example C94_block_in_a_comment :
  sol_print true loose_remarked = Ok loose_text /\ read_unit 600 loose_text = None.
Proof. exact loose_lost. Qed.
