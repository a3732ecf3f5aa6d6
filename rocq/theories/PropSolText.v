(** The text of a Solidity program: C78, and the Solidity half of C49. *)
From Coq Require Import String Ascii List NArith ZArith Bool.
From Verif Require Import Base Json Printer SolPrinter SpecPrinter SpecLiteral SpecVyText SpecSolText SolTextClaims.
Import ListNotations.
Open Scope string_scope.
Open Scope list_scope.

(** C78. *)
Theorem C78_solidity_program_text :
  forall oc license l n h, unit_node license l n -> oeasy one_line license -> Forall (easy_top_level h) l -> (N.of_nat h <= 36)%N ->
  narrow 150 (unit_text 4 license l) -> sol_print oc n = Ok (unit_text 4 license l).
Proof. exact sol_program_claim. Qed.
Print Assumptions C78_solidity_program_text.

Example C78_example :
  unit_node (Some "MIT") demo (ju (Some "MIT") demo) /\ oeasy one_line (Some "MIT") /\ Forall (easy_top_level 5) demo /\
  unit_text 4 (Some "MIT") demo = demo_text /\ narrow 150 demo_text.
Proof.
  split; [exact demo_node|]. split; [exact (proj1 demo_easy)|]. split; [exact (proj2 demo_easy)|].
  split; [exact demo_shown|exact demo_narrow].
Qed.

(** C49 for Solidity.  [misprinted node text want got]: some node stands for a
    piece of program whose text is [want], and is printed as [got]. *)
Theorem C49_solidity_expressions_refuted :
  misprinted xnode (xtext 4 0) "[a, b]" "(a, b)" /\
  misprinted xnode (xtext 4 0) "a[b:]" "ab" /\
  misprinted xnode (xtext 4 0) "hex""61""" "a" /\
  misprinted xnode (xtext 4 0) "()" "" /\
  misprinted xnode (xtext 4 0) "- -a" "--a" /\
  misprinted xnode (xtext 4 0) "function(uint256) external view returns (bool)" "function(uint256) external" /\
  misprinted xnode (xtext 4 0) "mapping(address owner => uint256 balance)" "mapping(address => uint256)".
Proof. exact wrong_expressions. Qed.
Print Assumptions C49_solidity_expressions_refuted.

Theorem C49_solidity_statements_refuted :
  misprinted cnode (ctext 4 0) "for(; a;) {}" "for( a;) {}" /\
  misprinted cnode (ctext 4 0) "for(a;;) {}" "for(a;) {}" /\
  misprinted cnode (ctext 4 0) "try a() {} catch {} " "try a() returns {} catch {} ".
Proof. exact wrong_statements. Qed.
Print Assumptions C49_solidity_statements_refuted.

Theorem C49_solidity_members_refuted :
  misprinted mnode (mtext 4 0) "function f() public a b;" "function f() public a, b;" /\
  misprinted var_node (var_text 4 0) "uint256 public override x" "uint256 publicoverride x" /\
  misprinted mnode (mtext 4 0) "modifier m() virtual;" "modifier m() virtual" /\
  misprinted mnode (mtext 4 0) "using L for *;" "using L for ;" /\
  misprinted mnode (mtext 4 0) (String.concat newline ["using {"; "    f"; "} for uint256 global;"])
                               (String.concat newline ["using {"; "    "; "} for uint256 global;"]).
Proof. exact wrong_members. Qed.
Print Assumptions C49_solidity_members_refuted.

Theorem C49_solidity_top_level_refuted :
  misprinted pnode (ptext 4) "pragma abicoder v2;" "pragma abicoderv2;" /\
  misprinted pnode (ptext 4) "pragma solidity 0.8;" "pragma solidity0.8;" /\
  misprinted (unit_node None) (unit_text 4 None) (String.concat newline ["uint256 constant X = 1;"; ""; ""])
                                                 (String.concat newline ["uint256 constant X = 1"; ""; ""]).
Proof. exact wrong_top_level. Qed.
Print Assumptions C49_solidity_top_level_refuted.
