(** A run of the Solidity mutator, for the example of C93. *)
From Coq Require Import String Ascii List NArith ZArith Bool Lia.
From Verif Require Import Base Json JsonFacts Rng MutationType Traverse OpCommon SolMutators Comments Language Generator SpecTree SpecMutation SpecLiteral SpecOps SpecTotal SpecAccept SpecGenerator
  SpecComments CommentFacts Printer SolPrinter SpecPrinter SpecVyText SpecSolText SpecSolEdit SpecSolRead SolTextClaims GenWitness Samples Witness KeepClaims SolPlace.
From Verif Require OpFacts.
Import ListNotations.
Open Scope string_scope.
Open Scope list_scope.

(** The nodes of a tree numbered, as the compiler does. *)
Fixpoint numbered (j : json) (i : N) : json * N :=
  match j with
  | JArr l =>
      let r := (fix go (l : list json) (i : N) : list json * N :=
        match l with
        | [] => ([], i)
        | x :: l => let r := numbered x i in let q := go l (snd r) in (fst r :: fst q, snd q)
        end) l i in
      (JArr (fst r), snd r)
  | JObj o =>
      let r := (fix go (o : list (string * json)) (i : N) : list (string * json) * N :=
        match o with
        | [] => ([], i)
        | (k, x) :: o => let r := numbered x i in let q := go o (snd r) in ((k, fst r) :: fst q, snd q)
        end) o (N.succ i) in
      (JObj (("id", juint i) :: fst r), snd r)
  | _ => (j, i)
  end.

Definition small_sol : list stop :=
  [PContract false "contract" "C" []
    [MFun (SFun "function" "f" [var (ty "uint256") "" "a"] "public" false "" None [] [var (ty "uint256") "" ""]
      (Some (block
        [CVar [Some (var (ty "uint256") "" "b")] (Some (XBin "+" (XId "a") (XLit "1" None)));
         CIf (XBin ">" (XId "a") (XId "b")) (CExp (XCall (XId "g") [XId "a"; XId "b"])) (Some (CReturn (Some (XId "b"))));
         CWhile (XBin "<" (XId "b") (XId "a")) (block [CExp (XPost "++" (XId "b")); CExp (XPre "delete" (XId "b"))]);
         CReturn (Some (XId "b"))])))]].
Definition small_sol_node : json := Eval vm_compute in fst (numbered (ju (Some "MIT") small_sol) 1%N).

Definition sol_edit_params : run_params :=
  run_on "src/x.sol" "out" 5 [Generic ArithmeticBinaryOp; Generic IfStatement; Generic FunctionCall; Generic DeleteStatement; Generic Integer].
Ltac nodes := repeat (first [reflexivity|exact Logic.I|match goal with |- In _ _ => cbn; tauto end
    |match goal with |- _ \/ _ => first [left; reflexivity|right; split; reflexivity] end
    |match goal with |- SpecSolText.flag _ _ _ => first [left; reflexivity|right; split; reflexivity] end|constructor|eexists]).
Lemma small_sol_program : unit_node (Some "MIT") small_sol small_sol_node.
Proof. unfold small_sol_node, small_sol. nodes. Qed.

(** A branch that is a block, with its lines swapped. *)
Definition branch_sol (a b : sexp) : list stop :=
  [PContract false "contract" "C" []
    [MFun (SFun "function" "f" [] "public" false "" None [] []
      (Some (block [CIf (XId "c") (block [CExp (XCall a []); CExp (XCall b [])]) None])))]].
Definition branch_sol_node : json := Eval vm_compute in fst (numbered (ju None (branch_sol (XId "g") (XId "h"))) 1%N).
Definition branch_params : run_params := run_on "src/x.sol" "out" 1 [Generic SwapLines].

Lemma sol_uncommented_check : forall n, forallb (fun x => negb (is_comment x)) (subtrees n) = true -> uncommented n.
Proof. intros n H p x S. rewrite forallb_forall in H. specialize (H x (subtrees_In _ _ _ S)). now apply negb_true_iff. Qed.

Definition no_branch_block (x : json) : bool :=
  match x with
  | JObj o => forallb (fun kv => negb (smem (fst kv) ["trueBody"; "falseBody"; "block"] &&
                                       match get_str (snd kv) "nodeType" with Some s => s =?s "Block" | None => false end)) o
  | _ => true
  end.
Lemma no_branch_check : forall n, forallb no_branch_block (subtrees n) = true -> forall i, ~ mutated_branch i n.
Proof.
  intros n H id (p & x & i & k & b & S & Ik & (o & -> & E & _) & B & _). rewrite forallb_forall in H. specialize (H _ (subtrees_In _ _ _ S)). cbn [no_branch_block] in H.
  rewrite forallb_forall in H. specialize (H _ (nth_error_In _ _ E)). cbn [fst snd] in H. apply is_sol_get in B. rewrite B in H.
  apply In_smem in Ik. rewrite Ik in H. discriminate H.
Qed.

Definition crash_free_sol (x : json) : bool :=
  negb (match get_str x "kind" with Some s => s =?s "number" | None => false end) ||
  match get_str x "value" with Some s => s =?s "1" | None => false end.
Lemma small_sol_safe : forall p n t, subtree p small_sol_node = Some n -> In t (rp_types sol_edit_params) -> sol_accepts t n -> sol_crash_free t n.
Proof.
  assert (H : forallb crash_free_sol (subtrees small_sol_node) = true) by (vm_compute; reflexivity). rewrite forallb_forall in H.
  intros p n t S I A. specialize (H n (subtrees_In _ _ _ S)). cbn in I.
  destruct I as [<-|[<-|[<-|[<-|[<-|[]]]]]]; try exact Logic.I. cbn [sol_crash_free sol_supported]. destruct A as (_ & A & v & B & _).
  unfold has_field in A, B. rewrite <- OpFacts.get_str_Some in A by reflexivity. pose proof B as B'. rewrite <- OpFacts.get_str_Some in B' by reflexivity.
  unfold crash_free_sol in H. rewrite A, B' in H. apply String.eqb_eq in H. subst v. exists 1%N. split; [reflexivity|exact B].
Qed.

Lemma small_sol_lean : lean small_sol_node = true /\ uncommented small_sol_node /\ (forall i, ~ mutated_branch i small_sol_node).
Proof.
  split; [vm_compute; reflexivity|]. split; [apply sol_uncommented_check; vm_compute; reflexivity|]. apply no_branch_check. vm_compute. reflexivity.
Qed.

(** The text of [small_sol] with other lines in three places. *)
Definition small_text (decl branch loop : list string) : string := String.concat newline
  (["// SPDX-License-Identifier: MIT"; "contract C {"; "    function f(uint256 a) public returns (uint256) {"] ++ decl ++ branch ++
   ["        else"; "            return b;"; "        while (b < a) {"] ++ loop ++ ["        }"; "        return b;"; "    }"; "}"; ""; ""]).
Definition decl0 := ["        uint256 b = a + 1;"].
Definition branch0 := ["        if(a > b) "; "            g(a, b);"].
Definition loop0 := ["            b++;"; "            delete b;"].

Definition sol_shows (am : json * mutator_result) (t : mutation_type) (i : N) (text : string) : Prop :=
  mr_type (snd am) = Some t /\ mr_node (snd am) = Some i /\ sol_print true (fst am) = Ok text.
Lemma small_mutants_shown :
  sol_print true small_sol_node = Ok (small_text decl0 branch0 loop0) /\
  Forall2 (fun am (tl : mutation_type * N * string) => sol_shows am (fst (fst tl)) (snd (fst tl)) (snd tl))
    (mutants (fst (generate (solidity_files ex_env) ex_world sol_edit_params 20 small_sol_node ex_rng)))
    [ (Generic ArithmeticBinaryOp, 14%N,
       small_text ["        // ArithmeticBinaryOp Mutator: changed '+' to '**'"; "        uint256 b = a ** 1;"] branch0 loop0);
      (Generic DeleteStatement, 33%N,
       small_text decl0 branch0
         ["            // DeleteStatement Mutator: deleted statement 'code'"; "            // b++;"; "            delete b;"]);
      (Generic FunctionCall, 25%N,
       small_text decl0
         ["        if(a > b) {"; "            // FunctionCall Mutator: replaced 'code' with 'code'"; "            b;"; "        }"] loop0);
      (Generic IfStatement, 17%N,
       small_text decl0
         ["        // IfStatement Mutator: changed condition 'code' to 'code'"; "        if(!(a > b)) "; "            g(a, b);"] loop0);
      (Generic Integer, 16%N,
       small_text ["        // Integer Mutator: changed '1' to '2'"; "        uint256 b = a + 2;"] branch0 loop0) ].
Proof.
  split; [vm_compute; reflexivity|].
  remember (mutants (fst (generate (solidity_files ex_env) ex_world sol_edit_params 20 small_sol_node ex_rng))) as l eqn:E. vm_compute in E. subst l.
  repeat (constructor; [split; [reflexivity|split; [reflexivity|vm_compute; reflexivity]]|]). constructor.
Qed.

(** The branch is lost. *)
Lemma branch_program : unit_node None (branch_sol (XId "g") (XId "h")) branch_sol_node.
Proof. unfold branch_sol_node, branch_sol. nodes. Qed.
Lemma branch_lost :
  lean branch_sol_node = true /\ uncommented branch_sol_node /\
  (forall p n t, subtree p branch_sol_node = Some n -> In t (rp_types branch_params) -> sol_accepts t n -> sol_crash_free t n) /\
  exists ast' mr, In (ast', mr) (mutants (fst (generate (solidity_files ex_env) ex_world branch_params 20 branch_sol_node ex_rng))) /\
    mr_node mr = Some 9%N /\ mutated_branch 9%N branch_sol_node /\
    sol_print true ast' = Ok (String.concat newline ["contract C {"; "    function f() public {"; "        if(c) "; "    }"; "}"; ""; ""]) /\
    read_unit 600 (String.concat newline ["contract C {"; "    function f() public {"; "        if(c) "; "    }"; "}"; ""; ""]) = None.
Proof.
  split; [vm_compute; reflexivity|]. split; [apply sol_uncommented_check; vm_compute; reflexivity|].
  split; [intros p n t _ I _; cbn in I; destruct I as [<-|[]]; exact Logic.I|].
  remember (mutants (fst (generate (solidity_files ex_env) ex_world branch_params 20 branch_sol_node ex_rng))) as l eqn:E. vm_compute in E. subst l.
  eexists. eexists. split; [left; reflexivity|]. split; [reflexivity|]. split; [|split; vm_compute; reflexivity].
  exists [2; 0; 6; 0; 11; 2; 0]. eexists. exists 3. eexists. eexists. split; [reflexivity|]. split; [left; reflexivity|].
  split; [eexists; split; [reflexivity|]; split; [reflexivity|]|split; reflexivity].
  intros [|[|[|j]]] w L; try discriminate. exfalso. lia.
Qed.

(** Which statements are one edit away. *)
Definition if_stmt (e : sexp) : thing := TS (CIf e (CWord "break") None).
Lemma sol_if_edits :
  edited (sol_edit (Generic IfStatement)) (if_stmt (XId "b")) (if_stmt (truth true)) /\
  edited (sol_edit (Generic IfStatement)) (if_stmt (XId "b")) (if_stmt (negated (XId "b"))) /\
  ~ edited (sol_edit (Generic IfStatement)) (if_stmt (XId "b")) (if_stmt (XId "b")) /\
  ~ edited (sol_edit (Generic IfStatement)) (if_stmt (XId "b")) (if_stmt (XId "c")) /\
  ~ edited (sol_edit (Generic Integer)) (if_stmt (XId "b")) (if_stmt (truth true)).
Proof.
  split; [apply ed_here; constructor|]. split; [apply ed_here; constructor|].
  repeat split; intros H; unfold if_stmt in H; repeat (match goal with
    | H : sol_edit _ _ _ |- _ => inversion H; clear H; subst
    | H : step _ _ _ _ |- _ => inversion H; clear H; subst
    | H : edited _ _ _ |- _ => inversion H; clear H; subst
    end; try discriminate).
Qed.
