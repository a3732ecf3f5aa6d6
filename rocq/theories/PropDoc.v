(** Documentation comments of Solidity declarations: C112, C113.  [g] is the
    geometry of a printer, [st] its row, column and indentation;
    [exec g (sol_emit c n) st] is the text written for the node [n], with the
    new state. *)
From Coq Require Import String Ascii List NArith Bool.
From Verif Require Import Base Json Printer SolPrinter SpecPrinter SpecSolRead SpecDoc SolTextClaims DocFacts DocClaims.
Import ListNotations.
Open Scope string_scope.
Open Scope list_scope.

(** C112.  The printed documentation is one comment for a reader of Solidity,
    with the words of the documentation, in order.  The full statement is about
    every text; it holds when the text does not have the characters that end a
    comment. *)
Theorem C112_documentation_is_comment_partial :
  forall g c n text st o st', doc_node text n -> ~ closes_comment text ->
  exec g (sol_emit c n) st = Ok (o, st') ->
  skipped o /\ exists ls, doc_comment ls o /\ flat_map words ls = words text.
Proof. exact doc_is_comment. Qed.
Print Assumptions C112_documentation_is_comment_partial.

Example C112_example : doc_node two_notes (jdoc two_notes) /\ ~ closes_comment two_notes /\
  exists o st', exec (std_geo true) (sol_emit sol_default (jdoc two_notes)) fresh = Ok (o, st') /\
  o = fold_right String.append "" ["/**"; nl; " * @notice How many"; nl; " * @dev see * and /x"; nl; " */"].
Proof.
  split; [now split|]. split; [exact two_notes_open|]. do 2 eexists. split; [vm_compute; reflexivity|reflexivity].
Qed.

(** After [///], which the compiler accepts, such a text does no harm; the
    printer writes it between [/**] and [*/], and the reader is back in the
    program too early. *)
Theorem C112_documentation_is_comment_refuted :
  exists oc c n text st o st' rest,
  doc_node text n /\ p_col st = (1 + indent_length (std_geo oc) st)%N /\
  exec (std_geo oc) (sol_emit c n) st = Ok (o, st') /\
  exists left, next (String.append o rest) = Some (None, left) /\ left <> rest.
Proof. exact doc_comment_refuted. Qed.
Print Assumptions C112_documentation_is_comment_refuted.

(** C113.  The text of a declaration with documentation is the comment, a line
    break, the indentation, and the text of the declaration without it, printed
    from there; the two have the same tokens. *)
Theorem C113_documented_declaration_partial :
  forall g c d n0 n text st o st', documented d n0 n -> doc_node text d -> ~ closes_comment text ->
  exec g (sol_emit c n) st = Ok (o, st') ->
  exists comment s o0, exec g (sol_emit c n0) s = Ok (o0, st') /\ p_ind s = p_ind st /\ p_col s = (1 + indent_length g st)%N /\
    o = String.append comment (String.append nl (String.append (indent_string g st) o0)) /\
    (skipped comment /\ exists ls, doc_comment ls comment /\ flat_map words ls = words text) /\
    forall ts, lexes o ts <-> lexes o0 ts.
Proof. exact documented_text. Qed.
Print Assumptions C113_documented_declaration_partial.

Example C113_example : documented (jdoc two_notes) bare_var (doc_var two_notes) /\ doc_node two_notes (jdoc two_notes) /\
  exec (std_geo true) (sol_emit sol_default (doc_var two_notes)) at_member =
  Ok (fold_right String.append "" ["/**"; nl; "     * @notice How many"; nl; "     * @dev see * and /x"; nl; "     */"; nl; "    uint public x"], PState 11 18 1).
Proof. split; [apply doc_var_documented|]. split; [now split|exact doc_var_text]. Qed.

Theorem C113_documented_declaration_refuted :
  exists oc c d n0 n text st o st' s o0 ts ts0,
  documented d n0 n /\ doc_node text d /\ p_col st = (1 + indent_length (std_geo oc) st)%N /\
  exec (std_geo oc) (sol_emit c n) st = Ok (o, st') /\ exec (std_geo oc) (sol_emit c n0) s = Ok (o0, st') /\ p_col s = p_col st /\
  lexes o0 ts0 /\ lexes o ts /\ ts = [KSym "*"; KSym "."; KWord "sol"; KSym "*"; KSym "/"] ++ ts0.
Proof. exact documented_refuted. Qed.
Print Assumptions C113_documented_declaration_refuted.
