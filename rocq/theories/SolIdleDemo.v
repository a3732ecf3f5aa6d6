(** Runs of the Solidity mutator, for the examples of C96. *)
From Coq Require Import String Ascii List NArith ZArith Bool Lia.
From Verif Require Import Base Json JsonFacts Rng MutationType Traverse OpCommon SolMutators Language Generator Printer SolPrinter
  SpecTree SpecMutation SpecOps SpecPrinter SpecTotal SpecAccept SpecGenerator SpecComments SpecLiteral SpecVyText SpecSolText SpecSolRead SpecSolEdit SpecSolNote SpecSolIdle
  SolMutantClaims SolEditDemo SolMutantDemo SolIdle SolIdleClaims CommentFacts KeepClaims GenWitness Samples SolTextClaims.
Import ListNotations.
Open Scope string_scope.
Open Scope list_scope.

(** "a - a" with its operands exchanged. *)
Definition same_sol : list stop := sum_sol (XBin "-" (XId "a") (XId "a")).
Definition same_sol_node : json := Eval vm_compute in fst (numbered (ju None same_sol) 1%N).
Definition same_params : run_params := run_on "src/x.sol" "out" 1 [Generic SwapOperatorArguments].
Definition same_text : string := String.concat newline
  ["contract C {"; "    function f() public {"; "        // SwapOperatorArguments Mutator: switched 'code' and 'code'"; "        return a - a;"; "    }"; "}"; ""; ""].

Lemma same_reread :
  rearranges (w_order ex_world) /\ unit_node None same_sol same_sol_node /\ forallb top_spelled same_sol = true /\ lean same_sol_node = true /\ uncommented same_sol_node /\
  exists ast' mr, In (ast', mr) (mutants (fst (generate (solidity_files ex_env) ex_world same_params 20 same_sol_node ex_rng))) /\
    mr_type mr = Some (Generic SwapOperatorArguments) /\
    unit_node None same_sol (without_comments ast') /\ sol_print true ast' = Ok same_text /\ reads same_text same_sol.
Proof.
  split; [exact ex_world_rearranges|]. split; [unfold same_sol_node, same_sol, sum_sol; nodes|]. split; [vm_compute; reflexivity|]. split; [vm_compute; reflexivity|].
  split; [apply sol_uncommented_check; vm_compute; reflexivity|].
  remember (mutants (fst (generate (solidity_files ex_env) ex_world same_params 20 same_sol_node ex_rng))) as l eqn:E. vm_compute in E. subst l.
  eexists. eexists. split; [left; reflexivity|]. split; [reflexivity|]. split; [|split; [vm_compute; reflexivity|]].
  2: { exists 300. intros fuel Hf. replace fuel with (300 + (fuel - 300)) by lia. generalize (fuel - 300). clear. intros fuel. vm_compute. reflexivity. }
  match goal with |- unit_node _ _ ?n => let m := eval vm_compute in n in change n with m end. unfold same_sol, sum_sol. nodes.
Qed.

(** The program of C93's example has no idle parts that these kinds
    of edit could leave as they are. *)
Lemma repeated_twice : forall A (l : list A), repeated l -> ~ NoDup l.
Proof. intros A l (a & x & b & c & ->) N. apply NoDup_remove_2 in N. apply N. apply in_or_app. right. apply in_or_app. right. now left. Qed.
Ltac all_different := repeat (apply NoDup_cons; [cbn; intuition discriminate|]); apply NoDup_nil.
Ltac not_idle := let H := fresh in intros H; inversion H; subst; try discriminate;
  match goal with
  | R : repeated ?l |- _ => apply (repeated_twice _ _ R); cbn; all_different
  | E : _ ++ _ :: _ ++ _ :: _ = ?l |- _ => let R := fresh in assert (R : repeated l) by (do 4 eexists; symmetry; exact E); apply (repeated_twice _ _ R); all_different
  | _ => cbn in *; intuition discriminate
  end.
Lemma small_lively : forall t, In t [Generic ArithmeticBinaryOp; Generic IfStatement; Generic FunctionCall; Generic DeleteStatement;
                                     Generic SwapOperatorArguments; Generic SwapFunctionArguments; Generic SwapLines] -> lively t small_sol.
Proof.
  intros t I. apply (lively_check 20); [vm_compute; reflexivity|].
  match goal with |- Forall _ ?l => let m := eval vm_compute in l in change l with m end.
  cbn in I. repeat (destruct I as [I|I]; [subst t; repeat (constructor; [not_idle|]); constructor|]). destruct I.
Qed.
