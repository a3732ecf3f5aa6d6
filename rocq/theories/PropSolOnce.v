(** Whether a run writes one Solidity program twice: C99. *)
From Coq Require Import String Ascii List NArith ZArith Bool.
From Verif Require Import Base Json Rng MutationType Traverse OpCommon SolMutators Language Generator Printer SolPrinter
  SpecTree SpecMutation SpecOps SpecPrinter SpecTotal SpecAccept SpecGenerator SpecComments SpecLiteral SpecVyText SpecSolText SpecSolRead SpecSolEdit SpecSolNote SpecSolOnce
  SolTextClaims SolEditClaims SolEditDemo SolNoteDemo SolMutantClaims SolMutantDemo SolOnce SolOnceClaims GenWitness Samples.
Import ListNotations.
Open Scope string_scope.
Open Scope list_scope.

(** C99: one run may write the same text twice, for two mutations of two
    different nodes. Here it is "g(g(a))" with the outer call replaced by its
    argument, and then with the inner one replaced. The trees differ, so that
    the check for duplicates lets both through. *)
Theorem C99_solidity_programs_once_refuted :
  exists e W P fuel ast r l l' ast1 mr1 ast2 mr2 text, rearranges (w_order W) /\ unit_node None l ast /\ lean ast = true /\ uncommented ast /\
  mutants (fst (generate (solidity_files e) W P fuel ast r)) = [(ast1, mr1); (ast2, mr2)] /\ mr_node mr1 <> mr_node mr2 /\
  unit_node None l' (without_comments ast1) /\ unit_node None l' (without_comments ast2) /\
  sol_print true ast1 = Ok text /\ sol_print true ast2 = Ok text /\ reads text l'.
Proof.
  destruct (calls_written _ _ eq_refl eq_refl) as (A & B & C & D & ast1 & mr1 & ast2 & mr2 & E & F & G & H).
  exists ex_env, ex_world, calls_params, 20, calls_node, calls_rng, calls_sol, call_sol, ast1, mr1, ast2, mr2, call_text.
  refine (conj A (conj B (conj C (conj D (conj E (conj _ H)))))). rewrite F, G. discriminate.
Qed.
Print Assumptions C99_solidity_programs_once_refuted.

(** The mutations that change one word, an operator or "delegatecall", have
    their programs once in a run: two of them at different places of the list of
    mutants stand for different programs. Missing for the whole claim: the other
    kinds, for which it fails. *)
Theorem C99_solidity_programs_once_partial :
  forall e W P fuel license ast r l, rearranges (w_order W) ->
  unit_node license l ast -> lean ast = true -> uncommented ast ->
  (forall p n t, subtree p ast = Some n -> In t (rp_types P) -> sol_accepts t n -> sol_crash_free t n) ->
  forall j1 j2 ast1 mr1 i1 t1 l1 ast2 mr2 i2 t2 l2,
  let written := mutants (fst (generate (solidity_files e) W P fuel ast r)) in
  nth_error written j1 = Some (ast1, mr1) -> nth_error written j2 = Some (ast2, mr2) -> j1 <> j2 ->
  mr_type mr1 = Some t1 -> In t1 word_kinds -> mr_node mr1 = Some i1 -> ~ mutated_branch i1 ast -> unit_node license l1 (without_comments ast1) ->
  mr_type mr2 = Some t2 -> In t2 word_kinds -> mr_node mr2 = Some i2 -> ~ mutated_branch i2 ast -> unit_node license l2 (without_comments ast2) ->
  l1 <> l2.
Proof. exact words_once. Qed.
Print Assumptions C99_solidity_programs_once_partial.

(** The same for the texts: they are read as two different programs, and so are
    different themselves. Missing as above. *)
Theorem C99_solidity_texts_once_partial :
  forall e W P fuel license ast r l h, rearranges (w_order W) ->
  unit_node license l ast -> forallb top_spelled l = true -> lean ast = true -> uncommented ast ->
  (forall p n t, subtree p ast = Some n -> In t (rp_types P) -> sol_accepts t n -> sol_crash_free t n) ->
  (In (Generic DeleteStatement) (rp_types P) -> forall p v, subtree p ast = Some v -> is_sol "ExpressionStatement" v -> short_statement h v) ->
  forall j1 j2 ast1 mr1 i1 t1 ast2 mr2 i2 t2,
  let written := mutants (fst (generate (solidity_files e) W P fuel ast r)) in
  let fits := fun l' : list stop => Forall (easy_top_level h) l' /\ narrow 150 (unit_text 4 license l') /\ forallb top_spelled l' = true in
  let usual := fun (mr : mutator_result) t i => mr_type mr = Some t /\ In t word_kinds /\ mr_node mr = Some i /\ ~ mutated_branch i ast /\
    (forall p b, subtree p ast = Some b -> is_sol "Block" b -> sol_id b = Some i -> ~ has_field b "statements" (JArr [])) in
  nth_error written j1 = Some (ast1, mr1) -> nth_error written j2 = Some (ast2, mr2) -> j1 <> j2 -> usual mr1 t1 i1 -> usual mr2 t2 i2 ->
  exists l1 l2, l1 <> l2 /\ unit_node license l1 (without_comments ast1) /\ unit_node license l2 (without_comments ast2) /\
  (oeasy one_line license -> (N.of_nat h <= 36)%N -> fits l1 -> fits l2 ->
   forall oc1 oc2 text1 text2, sol_print oc1 ast1 = Ok text1 -> sol_print oc2 ast2 = Ok text2 -> reads text1 l1 /\ reads text2 l2 /\ text1 <> text2).
Proof. exact texts_once. Qed.
Print Assumptions C99_solidity_texts_once_partial.

(** A run with four mutants of these kinds, two of them at one node. *)
Example C99_example :
  rearranges (w_order ex_world) /\ unit_node (Some "MIT") small_sol small_sol_node /\ forallb top_spelled small_sol = true /\
  lean small_sol_node = true /\ uncommented small_sol_node /\ (forall i, ~ mutated_branch i small_sol_node) /\
  (forall i p b, subtree p small_sol_node = Some b -> is_sol "Block" b -> sol_id b = Some i -> ~ has_field b "statements" (JArr [])) /\
  (forall p n t, subtree p small_sol_node = Some n -> In t (rp_types word_params) -> sol_accepts t n -> sol_crash_free t n) /\
  incl (rp_types word_params) word_kinds /\ oeasy one_line (Some "MIT") /\
  Forall2 (fun am tl => sol_shows am (fst (fst tl)) (snd (fst tl)) (snd tl))
    (mutants (fst (generate (solidity_files ex_env) ex_world word_params 20 small_sol_node ex_rng)))
    [ (Generic ArithmeticBinaryOp, 14%N, small_text ["        // ArithmeticBinaryOp Mutator: changed '+' to '-'"; "        uint256 b = a - 1;"] branch0 loop0);
      (Generic ComparisonBinaryOp, 18%N,
       small_text decl0 ["        // ComparisonBinaryOp Mutator: changed '>' to '<'"; "        if(a < b) "; "            g(a, b);"] loop0);
      (Generic UnaryOp, 34%N,
       small_text decl0 branch0 ["            // UnaryOp Mutator: Changed '++' to '--'"; "            b--;"; "            delete b;"]);
      (Generic ComparisonBinaryOp, 18%N,
       small_text decl0 ["        // ComparisonBinaryOp Mutator: changed '>' to '!='"; "        if(a != b) "; "            g(a, b);"] loop0) ] /\
  Forall2 (fun am l' => unit_node (Some "MIT") l' (without_comments (fst am)) /\ Forall (easy_top_level 5) l' /\
                        narrow 150 (unit_text 4 (Some "MIT") l') /\ forallb top_spelled l' = true)
    (mutants (fst (generate (solidity_files ex_env) ex_world word_params 20 small_sol_node ex_rng)))
    [ small_with (sum1 "-" "1") test1 call1 loop1;
      small_with (sum1 "+" "1") (XBin "<" (XId "a") (XId "b")) call1 loop1;
      small_with (sum1 "+" "1") test1 call1 [CExp (XPost "--" (XId "b")); CExp (XPre "delete" (XId "b"))];
      small_with (sum1 "+" "1") (XBin "!=" (XId "a") (XId "b")) call1 loop1 ].
Proof.
  destruct word_run as (A & B & C & D & E & F & G). refine (conj ex_world_rearranges (conj A (conj (proj2 small_narrow) (conj B (conj C (conj D (conj small_full (conj E (conj F (conj eq_refl (conj G word_mutants_read))))))))))).
Qed.
