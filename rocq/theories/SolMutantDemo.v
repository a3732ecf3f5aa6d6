(** The mutants of the example of C93, read. *)
From Coq Require Import String Ascii List NArith ZArith Bool Lia.
From Verif Require Import Base Json JsonFacts Rng MutationType Traverse OpCommon SolMutators Comments Language Generator SpecTree SpecMutation SpecLiteral SpecOps SpecTotal SpecAccept SpecGenerator
  SpecComments Printer SolPrinter SpecPrinter SpecVyText SpecSolText SpecSolRead SpecSolEdit SpecSolNote SolTextClaims GenWitness Samples SolEditDemo SolNoteClaims SolNoteDemo CommentFacts KeepClaims Witness.
From Verif Require OpFacts.
Import ListNotations.
Open Scope string_scope.
Open Scope list_scope.

(** [small_sol] with other statements in three places. *)
Definition small_with (decl : sexp) (test : sexp) (yes : sstmt) (loop : list sstmt) : list stop :=
  [PContract false "contract" "C" []
    [MFun (SFun "function" "f" [var (ty "uint256") "" "a"] "public" false "" None [] [var (ty "uint256") "" ""]
      (Some (block
        [CVar [Some (var (ty "uint256") "" "b")] (Some decl);
         CIf test yes (Some (CReturn (Some (XId "b"))));
         CWhile (XBin "<" (XId "b") (XId "a")) (block loop);
         CReturn (Some (XId "b"))])))]].
Definition sum1 (op : string) (k : string) : sexp := XBin op (XId "a") (XLit k None).
Definition test1 : sexp := XBin ">" (XId "a") (XId "b").
Definition call1 : sstmt := CExp (XCall (XId "g") [XId "a"; XId "b"]).
Definition loop1 : list sstmt := [CExp (XPost "++" (XId "b")); CExp (XPre "delete" (XId "b"))].

Definition small_programs : list (list stop) :=
  [ small_with (sum1 "**" "1") test1 call1 loop1;
    small_with (sum1 "+" "1") test1 call1 [CExp (XPre "delete" (XId "b"))];
    small_with (sum1 "+" "1") test1 (block [CExp (XId "b")]) loop1;
    small_with (sum1 "+" "1") (negated test1) call1 loop1;
    small_with (sum1 "+" "2") test1 call1 loop1 ].

Definition read_as (am : json * mutator_result) (l : list stop) : Prop :=
  unit_node (Some "MIT") l (without_comments (fst am)) /\ Forall (easy_top_level 5) l /\
  narrow 150 (unit_text 4 (Some "MIT") l) /\ forallb top_spelled l = true.

Lemma small_mutants_read :
  Forall2 read_as (mutants (fst (generate (solidity_files ex_env) ex_world sol_edit_params 20 small_sol_node ex_rng))) small_programs.
Proof.
  remember (mutants (fst (generate (solidity_files ex_env) ex_world sol_edit_params 20 small_sol_node ex_rng))) as l eqn:E. vm_compute in E. subst l.
  unfold small_programs.
  repeat (constructor; [split; [match goal with |- unit_node _ _ ?n => let m := eval vm_compute in n in change n with m end; nodes|];
    split; [constructor; [|constructor]; ez|split; [vm_compute; repeat constructor|vm_compute; reflexivity]]|]). constructor.
Qed.

Lemma small_short : forall p v, subtree p small_sol_node = Some v -> is_sol "ExpressionStatement" v -> short_statement 5 v.
Proof.
  intros p v S A. assert (I : In v (filter (fun x => match get_str x "nodeType" with Some s => s =?s "ExpressionStatement" | None => false end) (subtrees small_sol_node))).
  { apply filter_In. split; [exact (subtrees_In _ _ _ S)|]. apply is_sol_get in A. rewrite A. reflexivity. }
  clear S A p. vm_compute in I.
  repeat (destruct I as [<-|I]; [first
    [exists call1; split; [nodes|]; split; [ez|]; intros ind; vm_compute; split; [reflexivity|discriminate]
    |exists (CExp (XPost "++" (XId "b"))); split; [nodes|]; split; [ez|]; intros ind; vm_compute; split; [reflexivity|discriminate]
    |exists (CExp (XPre "delete" (XId "b"))); split; [nodes|]; split; [ez|]; intros ind; vm_compute; split; [reflexivity|discriminate]]|]).
  destruct I.
Qed.

Definition no_empty_block (x : json) : bool := match oget x "statements" with Some (JArr []) => false | _ => true end.
Lemma small_full : forall i p b, subtree p small_sol_node = Some b -> is_sol "Block" b -> sol_id b = Some i -> ~ has_field b "statements" (JArr []).
Proof.
  assert (H : forallb no_empty_block (subtrees small_sol_node) = true) by (vm_compute; reflexivity). rewrite forallb_forall in H.
  intros i p b S _ _ F. specialize (H b (subtrees_In _ _ _ S)). unfold no_empty_block in H. unfold has_field in F. rewrite F in H. discriminate H.
Qed.

(** A mutant whose tree is the program with one operator changed and whose text
    is another program: there are no parentheses in the tree. *)
Definition sum_sol (e : sexp) : list stop :=
  [PContract false "contract" "C" []
    [MFun (SFun "function" "f" [] "public" false "" None [] [] (Some (block [CReturn (Some e)])))]].
Definition sum_of (op1 op2 : string) : sexp := XBin op1 (XId "a") (XBin op2 (XId "b") (XId "c")).
Definition sum_sol_node : json := Eval vm_compute in fst (numbered (ju None (sum_sol (sum_of "-" "*"))) 1%N).
Definition sum_params : run_params := run_on "src/x.sol" "out" 3 [Generic ArithmeticBinaryOp].
Definition sum_text : string := String.concat newline
  ["contract C {"; "    function f() public {"; "        // ArithmeticBinaryOp Mutator: changed '*' to '+'"; "        return a - b + c;"; "    }"; "}"; ""; ""].

Lemma sum_reread :
  unit_node None (sum_sol (sum_of "-" "*")) sum_sol_node /\ forallb top_spelled (sum_sol (sum_of "-" "*")) = true /\ lean sum_sol_node = true /\ uncommented sum_sol_node /\
  exists ast' mr, In (ast', mr) (mutants (fst (generate (solidity_files ex_env) ex_world sum_params 20 sum_sol_node ex_rng))) /\
    unit_node None (sum_sol (sum_of "-" "+")) (without_comments ast') /\ sol_print true ast' = Ok sum_text /\
    reads sum_text (sum_sol (XBin "+" (XBin "-" (XId "a") (XId "b")) (XId "c"))).
Proof.
  split; [unfold sum_sol_node, sum_sol, sum_of; nodes|]. split; [vm_compute; reflexivity|]. split; [vm_compute; reflexivity|].
  split; [apply sol_uncommented_check; vm_compute; reflexivity|].
  remember (mutants (fst (generate (solidity_files ex_env) ex_world sum_params 20 sum_sol_node ex_rng))) as l eqn:E. vm_compute in E. subst l.
  eexists. eexists. split; [right; left; reflexivity|]. split; [|split; [vm_compute; reflexivity|exists 300; intros fuel Hf; replace fuel with (300 + (fuel - 300)) by lia; generalize (fuel - 300); intros k; vm_compute; reflexivity]].
  match goal with |- unit_node _ _ ?n => let m := eval vm_compute in n in change n with m end. unfold sum_sol, sum_of. nodes.
Qed.
