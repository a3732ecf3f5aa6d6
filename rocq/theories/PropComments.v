(** C08, C09: inserting the explanatory comment. *)
From Coq Require Import String List NArith ZArith Bool Lia.
From Verif Require Import Base Json Rng Permissions MutationType Traverse OpCommon SolMutators VyMutators
  Comments Language SpecTree SpecMutation SpecOps SpecComments CommentFacts CommentLoss Samples Witness.
Import ListNotations.
Open Scope string_scope.
Open Scope list_scope.

(** C08, Vyper.  [path] holds the ids of the ancestors of the mutated node and
    ends with its own id.  Either the comment goes into one statement list,
    immediately before the first element containing the mutated node, that
    list belonging to the innermost ancestor that has one, and nothing else
    changes; or nothing changes and no ancestor has such a list. *)
Theorem C08_vyper_comment_goes_into_one_list :
  forall ast c path,
  let ast' := insert_comment_by_path vy_id vy_member vy_insert ast c path in
  let id := last path 0%N in
  let lacks := homeless vy_id (fun n => exists q l, vy_home id n q l) ast in
  (exists outer up inner p n q l l', removelast path = outer ++ up :: inner /\
     subtree p ast = Some n /\ vy_id n = Some up /\
     vy_home id n q l /\ before_first vy_id id c l l' /\
     replaced_at (p ++ q) (JArr l') ast ast' /\ subtree (p ++ q) ast = Some (JArr l) /\
     forall u, In u inner -> lacks u) \/
  (ast' = ast /\ forall u, In u (removelast path) -> lacks u).
Proof. exact vy_comment_lemma. Qed.
Print Assumptions C08_vyper_comment_goes_into_one_list.

Example C08_vyper_example :
  insert_comment_by_path vy_id vy_member vy_insert ex_module (v_name 77 "note") [0; 10; 17; 18]%N =
  v_module
  [ v_def 10 "f" [ v_assign 11 (v_name 12 "x") (v_binop 13 "Add" (v_name 15 "a") (v_name 16 "b"));
                   v_name 77 "note";
                   v_return 17 (v_binop 18 "Sub" (v_name 20 "a") (v_name 21 "b")) ] ].
Proof. vm_compute. reflexivity. Qed.

(** C08, Solidity.  Missing from the full statement: the case of a mutated
    block that is itself a branch of an [if] or the block of a catch clause
    (there the code is wrong, see C09). *)
Theorem C08_solidity_comment_goes_into_one_place_partial :
  forall ast c path,
  let ast' := insert_comment_by_path sol_id sol_member sol_insert ast c path in
  let id := last path 0%N in
  let lacks := homeless sol_id (fun n => exists q x y, sol_place id c n q x y) ast in
  blocks_have_lists ast -> ~ mutated_branch id ast ->
  (exists outer up inner p n q x y, removelast path = outer ++ up :: inner /\
     subtree p ast = Some n /\ sol_id n = Some up /\
     sol_place id c n q x y /\ subtree (p ++ q) ast = Some x /\
     replaced_at (p ++ q) y ast ast' /\
     forall u, In u inner -> lacks u) \/
  (ast' = ast /\ forall u, In u (removelast path) -> lacks u).
Proof. exact sol_comment_lemma. Qed.
Print Assumptions C08_solidity_comment_goes_into_one_place_partial.

(** The full Solidity statement fails when the mutated node is the block of an
    [if]: in [if (c) { x = a + b; y = a * b; }] the block moves, comment and
    all, to an entry that the [if] did not have, and the branch becomes null. *)
Theorem C08_solidity_comment_goes_into_one_place_refuted :
  exists ast c path,
  let ast' := insert_comment_by_path sol_id sol_member sol_insert ast c path in
  let id := last path 0%N in
  let lacks := homeless sol_id (fun n => exists q x y, sol_place id c n q x y) ast in
  blocks_have_lists ast /\
  (exists p n, subtree p ast = Some n /\ sol_id n = Some id) /\
  ~ ((exists outer up inner p n q x y, removelast path = outer ++ up :: inner /\
        subtree p ast = Some n /\ sol_id n = Some up /\
        sol_place id c n q x y /\ subtree (p ++ q) ast = Some x /\
        replaced_at (p ++ q) y ast ast' /\
        forall u, In u inner -> lacks u) \/
     (ast' = ast /\ forall u, In u (removelast path) -> lacks u)).
Proof. exact comment_beside. Qed.
Print Assumptions C08_solidity_comment_goes_into_one_place_refuted.

Example C08_solidity_example :
  blocks_have_lists ex_unit /\ ~ mutated_branch 17 ex_unit /\
  insert_comment_by_path sol_id sol_member sol_insert ex_unit (s_ident 77 "note") [1; 2; 10; 11; 16; 17]%N =
  s_unit 1 [ s_contract 2 "C"
    [ s_fun 10 "f" (s_block 11
        [ s_stmt 12 (s_assign 120 "uint8" (s_ident 121 "x") sum_ab);
          s_ident 77 "note"; s_return 16 dif_ab ]); fun_g ] ].
Proof.
  split; [apply blocks_have_lists_check; vm_compute; reflexivity|].
  split; [apply mutated_branch_check; vm_compute; reflexivity|]. vm_compute. reflexivity.
Qed.

(** A single statement under an [if] is wrapped in a block with the comment. *)
Example C08_solidity_wrap_example :
  insert_comment_by_path sol_id sol_member sol_insert
    (s_unit 1 [ s_if 40 (s_ident 41 "c") (s_return 16 dif_ab) JNull ]) (s_ident 77 "note") [1; 40; 16; 17]%N =
  s_unit 1 [ s_if 40 (s_ident 41 "c") (wrapping (s_ident 77 "note") (s_return 16 dif_ab)) JNull ].
Proof. vm_compute. reflexivity. Qed.

(** C09, Vyper. *)
Theorem C09_vyper_comment_loses_nothing :
  forall ast c path, nothing_lost ast (insert_comment_by_path vy_id vy_member vy_insert ast c path).
Proof. exact vy_comment_keeps. Qed.
Print Assumptions C09_vyper_comment_loses_nothing.

(** C09, Solidity, outside the case refuted below. *)
Theorem C09_solidity_comment_loses_nothing_partial :
  forall ast c path,
  blocks_have_lists ast -> ~ mutated_branch (last path 0%N) ast ->
  nothing_lost ast (insert_comment_by_path sol_id sol_member sol_insert ast c path).
Proof. exact sol_comment_keeps. Qed.
Print Assumptions C09_solidity_comment_loses_nothing_partial.

(** The full statement fails: swapping the two lines of
    [if (c) { x = a + b; y = a * b; }] leaves, once the comment is inserted, an
    [if] whose branch is null. *)
Theorem C09_solidity_comment_loses_nothing_refuted :
  let L := solidity ex_env in
  exists ast t i r a b, before_comment L t i ast r = Ok a /\ after_comment L t i ast r = Ok b /\
    ~ nothing_lost a b /\
    (exists p n, subtree p a = Some n /\ is_sol "IfStatement" n /\ oget n "trueBody" <> Some JNull) /\
    (forall p n, subtree p b = Some n -> is_sol "IfStatement" n -> oget n "trueBody" = Some JNull).
Proof. exact branch_lost. Qed.
Print Assumptions C09_solidity_comment_loses_nothing_refuted.

(** [nothing_lost] tells apart trees that do and do not keep their code. *)
Example C09_example :
  found ex_unit ["nodes"; "nodes"; "body"; "statements"; "expression"; "operator"] (JStr "-") /\
  ~ nothing_lost ex_unit (s_unit 1 [ s_contract 2 "C" [ fun_g ] ]).
Proof.
  assert (H : found ex_unit ["nodes"; "nodes"; "body"; "statements"; "expression"; "operator"] (JStr "-"))
    by (apply scalars_found; vm_compute; tauto).
  split; [exact H|]. eapply loses_correct; [|exact H]. vm_compute. reflexivity.
Qed.
