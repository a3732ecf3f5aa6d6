(** C79, C80: what a mutation changes of the printed program. *)
From Coq Require Import String Ascii List NArith ZArith Bool.
From Verif Require Import Base Json Rng Permissions MutationType Traverse OpCommon SolMutators VyMutators Language Printer SolPrinter VyPrinter
  SpecTree SpecMutation SpecOps SpecAccept SpecPrinter SpecLocal SpecSolLocal SpecVyLocal LocalClaims Samples Witness LocalDemo SolTextClaims VyTextClaims.
Import ListNotations.
Open Scope string_scope.
Open Scope list_scope.

(** C79.  Replacing a node by one that its parent cannot tell from it changes
    what is printed in one place, where the node is printed.  ([keeper p n] is
    the key under which the node is kept.) *)
Theorem C79_solidity_one_place :
  forall p x x' n n' c, subtree p n = Some x -> replaced_at p x' n n' -> alike_for_parent x x' ->
  (forall k, keeper p n = Some k -> ~ In k sol_inspected) ->
  changed_at sol_emit x x' (sol_emit c n) (sol_emit c n').
Proof. exact sol_requests_claim. Qed.
Print Assumptions C79_solidity_one_place.

Theorem C79_vyper_one_place :
  forall p x x' n n' c, subtree p n = Some x -> replaced_at p x' n n' -> vy_alike_for_parent x x' ->
  (forall k, keeper p n = Some k -> ~ In k vy_inspected) -> (forall y, above p n y -> no_vy_comment y) ->
  changed_at vy_emit x x' (vy_emit c n) (vy_emit c n').
Proof. exact vy_requests_claim. Qed.
Print Assumptions C79_vyper_one_place.

(** Every mutant is such a change. *)
Theorem C79_solidity_mutant :
  forall e t m ps idm fuel i ast r ast' s c,
  sol_mutator_for e t = Some m -> make_mutation ps idm m fuel i ast r = Ok (ast', s) ->
  never_under sol_inspected (sol_accepts t) ast ->
  (t = Generic FunctionCall -> forall p n l a, subtree p ast = Some n -> is_sol "FunctionCall" n ->
     has_field n "arguments" (JArr l) -> In a l -> expression_like a) ->
  ast' = ast \/
  exists p x x', subtree p ast = Some x /\ sol_accepts t x /\ replaced_at p x' ast ast' /\
    changed_at sol_emit x x' (sol_emit c ast) (sol_emit c ast').
Proof. exact sol_mutant_claim. Qed.
Print Assumptions C79_solidity_mutant.

(** In Vyper, provided that no operation comes to stand in the place of a call or
    of a negation (it would get parentheses). *)
Theorem C79_vyper_mutant :
  forall e t m ps idm fuel i ast r ast' s c,
  vy_mutator_for e t = Some m -> make_mutation ps idm m fuel i ast r = Ok (ast', s) ->
  never_under vy_inspected (vy_accepts e t) ast -> only_below no_vy_comment (vy_accepts e t) ast ->
  (t = Generic FunctionCall -> forall p n l a, subtree p ast = Some n -> is_vy "Call" n ->
     has_field n "args" (JArr l) -> In a l -> vy_atomic a) ->
  (t = Generic UnaryOp -> forall p n a, subtree p ast = Some n -> is_vy "UnaryOp" n -> has_field n "operand" a -> vy_atomic a) ->
  ast' = ast \/
  exists p x x', subtree p ast = Some x /\ vy_accepts e t x /\ replaced_at p x' ast ast' /\
    changed_at vy_emit x x' (vy_emit c ast) (vy_emit c ast').
Proof. exact vy_mutant_claim. Qed.
Print Assumptions C79_vyper_mutant.

(** The same for the texts, as far as no line has to be broken and no comment to
    be flowed. *)
Theorem C79_solidity_text :
  forall x x' c n n' t t', changed_at sol_emit x x' (sol_emit c n) (sol_emit c n') ->
  simple_requests (sol_emit c n) -> simple_requests (sol_emit c n') ->
  text_of_requests 0 (sol_emit c n) t -> text_of_requests 0 (sol_emit c n') t' ->
  differ_in_place sol_emit x x' t t'.
Proof. exact sol_text_claim. Qed.
Print Assumptions C79_solidity_text.

Theorem C79_vyper_text :
  forall x x' c n n' t t', changed_at vy_emit x x' (vy_emit c n) (vy_emit c n') ->
  simple_requests (vy_emit c n) -> simple_requests (vy_emit c n') ->
  text_of_requests 0 (vy_emit c n) t -> text_of_requests 0 (vy_emit c n') t' ->
  differ_in_place vy_emit x x' t t'.
Proof. exact vy_text_claim. Qed.
Print Assumptions C79_vyper_text.

(** C80.  The mutant made by replacing a binary operator is printed as the
    program with one token replaced: the operator the comment names by the one it
    names. *)
Theorem C80_solidity_operator_token :
  forall e g class m ps idm fuel i ast r ast' s c,
  sol_class g = Some class -> sol_mutator_for e (Generic g) = Some m ->
  make_mutation ps idm m fuel i ast r = Ok (ast', s) -> never_under sol_inspected (sol_binary class) ast ->
  sol_emit c ast = sol_emit c ast' \/
  exists op op', In op class /\ In op' class /\ op' <> op /\
    (exists cm, mk_comment s = Some cm /\ is_sol "Comment" cm /\
       has_field cm "text" (JStr (String.concat "" [show_mt (Generic g); " Mutator: changed '"; op; "' to '"; op'; "'"]))) /\
    token_changes op op' (sol_emit c ast) (sol_emit c ast').
Proof. exact sol_operator_claim. Qed.
Print Assumptions C80_solidity_operator_token.

Theorem C80_solidity_unary_token :
  forall e m ps idm fuel i ast r ast' s c,
  sol_mutator_for e (Generic UnaryOp) = Some m ->
  make_mutation ps idm m fuel i ast r = Ok (ast', s) -> never_under sol_inspected (is_sol "UnaryOperation") ast ->
  sol_emit c ast = sol_emit c ast' \/
  exists op op', op' <> op /\ (In op prefix_ops /\ In op' prefix_ops \/ In op postfix_ops /\ In op' postfix_ops) /\
    token_changes op op' (sol_emit c ast) (sol_emit c ast').
Proof. exact sol_unary_word_claim. Qed.
Print Assumptions C80_solidity_unary_token.

Theorem C80_solidity_delegatecall_token :
  forall e m ps idm fuel i ast r ast' s c,
  sol_mutator_for e (Solidity ElimDelegateCall) = Some m ->
  make_mutation ps idm m fuel i ast r = Ok (ast', s) -> never_under sol_inspected (is_sol "MemberAccess") ast ->
  sol_emit c ast = sol_emit c ast' \/ token_changes "delegatecall" "call" (sol_emit c ast) (sol_emit c ast').
Proof. exact sol_delegate_word_claim. Qed.
Print Assumptions C80_solidity_delegatecall_token.

Theorem C80_solidity_number_token :
  forall e m ps idm fuel i ast r ast' s c,
  sol_mutator_for e (Generic Integer) = Some m ->
  make_mutation ps idm m fuel i ast r = Ok (ast', s) -> never_under sol_inspected (is_sol "Literal") ast ->
  sol_emit c ast = sol_emit c ast' \/ exists v v', token_changes v v' (sol_emit c ast) (sol_emit c ast').
Proof. exact sol_number_word_claim. Qed.
Print Assumptions C80_solidity_number_token.

Theorem C80_vyper_operator_token :
  forall e g class m ps idm fuel i ast r ast' s c,
  vy_class g = Some class -> vy_mutator_for e (Generic g) = Some m ->
  make_mutation ps idm m fuel i ast r = Ok (ast', s) -> vy_sorted ast ->
  never_under vy_inspected (vy_binary class) ast -> only_below no_vy_comment (vy_binary class) ast ->
  vy_emit c ast = vy_emit c ast' \/
  exists old new w w', In old class /\ In new class /\ new <> old /\ In (old, w) vy_words /\ In (new, w') vy_words /\
    token_changes w w' (vy_emit c ast) (vy_emit c ast').
Proof. exact vy_operator_claim. Qed.
Print Assumptions C80_vyper_operator_token.

(** A token that changes is a word that changes in the text. *)
Theorem C80_token_is_word :
  forall w w' l l' t t', token_changes w w' l l' ->
  simple_requests l -> simple_requests l' -> text_of_requests 0 l t -> text_of_requests 0 l' t' -> word_changes w w' t t'.
Proof. exact token_word. Qed.
Print Assumptions C80_token_is_word.

(** The sample programs of C78 and of C49: [(i + 1) * -k] becomes [(i + 1) + -k],
    [1 + self.t["k"]] becomes [1 - self.t["k"]]. *)
Example C79_C80_solidity_example : (exists m s, sol_mutator_for ex_env (Generic ArithmeticBinaryOp) = Some m /\
    make_mutation ex_all sol_id m 10 2 demo_sol_node ex_rng = Ok (demo_sol_mutant, s)) /\
  demo_sol_mutant <> demo_sol_node /\ never_under sol_inspected (sol_binary arithmetic) demo_sol_node /\
  simple_requests (sol_emit sol_default demo_sol_node) /\ simple_requests (sol_emit sol_default demo_sol_mutant) /\
  text_of_requests 0 (sol_emit sol_default demo_sol_node) demo_text.
Proof. exact (conj demo_sol_made demo_sol_shown). Qed.

Example C79_C80_vyper_example : forall oc fl,
  (exists m s, vy_mutator_for ex_env (Generic ArithmeticBinaryOp) = Some m /\
    make_mutation ex_all vy_id m 10 0 demo_vy_node ex_rng = Ok (demo_vy_mutant, s)) /\
  demo_vy_mutant <> demo_vy_node /\ vy_sorted demo_vy_node /\ never_under vy_inspected (vy_binary vy_arithmetic) demo_vy_node /\
  only_below no_vy_comment (vy_binary vy_arithmetic) demo_vy_node /\
  simple_requests (vy_emit (vy_default oc fl) demo_vy_node) /\ simple_requests (vy_emit (vy_default oc fl) demo_vy_mutant) /\
  text_of_requests 0 (vy_emit (vy_default oc fl) demo_vy_node) demo_vy_text.
Proof. exact (fun oc fl => conj demo_vy_made (demo_vy_mutant_shown oc fl)). Qed.
