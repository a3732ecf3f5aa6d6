(** Two mutants of a run, their programs and their texts: C99. *)
From Coq Require Import String Ascii List NArith ZArith Bool Lia.
From Verif Require Import Base Json JsonFacts Rng MutationType Traverse OpCommon SolMutators Language Generator Printer SolPrinter
  SpecTree SpecMutation SpecOps SpecPrinter SpecTotal SpecAccept SpecGenerator SpecComments SpecLiteral SpecVyText SpecSolText SpecSolRead SpecSolEdit SpecSolNote SpecSolOnce
  SolMutantClaims SolEditDemo SolMutantDemo SolReadClaims SolOnce CommentFacts KeepClaims GenWitness Samples SolTextClaims.
Import ListNotations.
Open Scope string_scope.
Open Scope list_scope.

Lemma texts_once : forall e W P fuel license ast r l h, rearranges (w_order W) ->
  unit_node license l ast -> forallb top_spelled l = true -> lean ast = true -> uncommented ast ->
  (forall p n t, subtree p ast = Some n -> In t (rp_types P) -> sol_accepts t n -> sol_crash_free t n) ->
  (In (Generic DeleteStatement) (rp_types P) -> forall p v, subtree p ast = Some v -> is_sol "ExpressionStatement" v -> short_statement h v) ->
  forall j1 j2 ast1 mr1 i1 t1 ast2 mr2 i2 t2,
  let written := mutants (fst (generate (solidity_files e) W P fuel ast r)) in
  let fits := fun l' : list stop => Forall (easy_top_level h) l' /\ narrow 150 (unit_text 4 license l') /\ forallb top_spelled l' = true in
  let usual := fun (mr : mutator_result) t i => mr_type mr = Some t /\ In t word_kinds /\ mr_node mr = Some i /\ ~ mutated_branch i ast /\
    (forall p b, subtree p ast = Some b -> is_sol "Block" b -> sol_id b = Some i -> ~ has_field b "statements" (JArr [])) in
  nth_error written j1 = Some (ast1, mr1) -> nth_error written j2 = Some (ast2, mr2) -> j1 <> j2 -> usual mr1 t1 i1 -> usual mr2 t2 i2 ->
  exists l1 l2, l1 <> l2 /\ unit_node license l1 (without_comments ast1) /\ unit_node license l2 (without_comments ast2) /\
  (oeasy one_line license -> (N.of_nat h <= 36)%N -> fits l1 -> fits l2 ->
   forall oc1 oc2 text1 text2, sol_print oc1 ast1 = Ok text1 -> sol_print oc2 ast2 = Ok text2 -> reads text1 l1 /\ reads text2 l2 /\ text1 <> text2).
Proof.
  intros e W P fuel license ast r l h Ho C Sp L U Cf Sh j1 j2 ast1 mr1 i1 t1 ast2 mr2 i2 t2 written fits usual N1 N2 D (T1 & I1 & Hi1 & B1 & E1) (T2 & I2 & Hi2 & B2 & E2).
  destruct (solidity_mutants_read e W P fuel license ast r l h Ho C Sp L U Cf Sh ast1 mr1 i1 (nth_error_In _ _ N1) Hi1 B1 E1) as (u1 & a1 & l1 & _ & _ & _ & _ & U1 & R1).
  destruct (solidity_mutants_read e W P fuel license ast r l h Ho C Sp L U Cf Sh ast2 mr2 i2 (nth_error_In _ _ N2) Hi2 B2 E2) as (u2 & a2 & l2 & _ & _ & _ & _ & U2 & R2).
  pose proof (words_once e W P fuel license ast r l Ho C L U Cf j1 j2 ast1 mr1 i1 t1 l1 ast2 mr2 i2 t2 l2 N1 N2 D T1 I1 Hi1 B1 U1 T2 I2 Hi2 B2 U2) as Dl.
  exists l1, l2. split; [exact Dl|]. split; [exact U1|]. split; [exact U2|].
  intros Li Hh (F1 & G1 & H1) (F2 & G2 & H2) oc1 oc2 text1 text2 P1 P2.
  pose proof (R1 Li F1 Hh G1 H1 oc1 text1 P1) as Q1. pose proof (R2 Li F2 Hh G2 H2 oc2 text2 P2) as Q2.
  split; [exact Q1|]. split; [exact Q2|]. intros <-. exact (Dl (reads_one _ _ _ Q1 Q2)).
Qed.

(** ** One program twice *)

Definition calls_sol : list stop := sum_sol (XCall (XId "g") [XCall (XId "g") [XId "a"]]).
Definition calls_node : json := Eval vm_compute in fst (numbered (ju None calls_sol) 1%N).
Definition calls_params : run_params := run_on "src/x.sol" "out" 2 [Generic FunctionCall].
Definition calls_rng : rng := {| rstream := fun k => if Nat.eqb k 2 then 1%N else 0%N; rpos := 0 |}.
Definition call_sol : list stop := sum_sol (XCall (XId "g") [XId "a"]).
Definition call_text : string := String.concat newline
  ["contract C {"; "    function f() public {"; "        // FunctionCall Mutator: replaced 'code' with 'code'"; "        return g(a);"; "    }"; "}"; ""; ""].

Lemma calls_written : forall i1 i2, i1 = 12%N -> i2 = 10%N ->
  rearranges (w_order ex_world) /\ unit_node None calls_sol calls_node /\ lean calls_node = true /\ uncommented calls_node /\
  exists ast1 mr1 ast2 mr2,
    mutants (fst (generate (solidity_files ex_env) ex_world calls_params 20 calls_node calls_rng)) = [(ast1, mr1); (ast2, mr2)] /\
    mr_node mr1 = Some i1 /\ mr_node mr2 = Some i2 /\
    unit_node None call_sol (without_comments ast1) /\ unit_node None call_sol (without_comments ast2) /\
    sol_print true ast1 = Ok call_text /\ sol_print true ast2 = Ok call_text /\ reads call_text call_sol.
Proof.
  intros i1 i2 -> ->.
  split; [exact ex_world_rearranges|]. split; [unfold calls_node, calls_sol, sum_sol; nodes|]. split; [vm_compute; reflexivity|].
  split; [apply sol_uncommented_check; vm_compute; reflexivity|].
  remember (mutants (fst (generate (solidity_files ex_env) ex_world calls_params 20 calls_node calls_rng))) as l eqn:E. vm_compute in E. subst l.
  do 4 eexists. split; [reflexivity|]. split; [reflexivity|]. split; [reflexivity|].
  split; [match goal with |- unit_node _ _ ?n => let m := eval vm_compute in n in change n with m end; unfold call_sol, sum_sol; nodes|].
  split; [match goal with |- unit_node _ _ ?n => let m := eval vm_compute in n in change n with m end; unfold call_sol, sum_sol; nodes|].
  split; [vm_compute; reflexivity|]. split; [vm_compute; reflexivity|].
  exists 300. intros fuel Hf. replace fuel with (300 + (fuel - 300)) by lia. generalize (fuel - 300). clear. intros fuel. vm_compute. reflexivity.
Qed.

(** ** A run with four mutants of these kinds *)

Definition word_params : run_params := run_on "src/x.sol" "out" 6 [Generic ArithmeticBinaryOp; Generic ComparisonBinaryOp; Generic UnaryOp].

Lemma word_run :
  unit_node (Some "MIT") small_sol small_sol_node /\ lean small_sol_node = true /\ uncommented small_sol_node /\ (forall i, ~ mutated_branch i small_sol_node) /\
  (forall p n t, subtree p small_sol_node = Some n -> In t (rp_types word_params) -> sol_accepts t n -> sol_crash_free t n) /\
  incl (rp_types word_params) word_kinds /\
  Forall2 (fun am (tl : mutation_type * N * string) => sol_shows am (fst (fst tl)) (snd (fst tl)) (snd tl))
    (mutants (fst (generate (solidity_files ex_env) ex_world word_params 20 small_sol_node ex_rng)))
    [ (Generic ArithmeticBinaryOp, 14%N, small_text ["        // ArithmeticBinaryOp Mutator: changed '+' to '-'"; "        uint256 b = a - 1;"] branch0 loop0);
      (Generic ComparisonBinaryOp, 18%N,
       small_text decl0 ["        // ComparisonBinaryOp Mutator: changed '>' to '<'"; "        if(a < b) "; "            g(a, b);"] loop0);
      (Generic UnaryOp, 34%N,
       small_text decl0 branch0 ["            // UnaryOp Mutator: Changed '++' to '--'"; "            b--;"; "            delete b;"]);
      (Generic ComparisonBinaryOp, 18%N,
       small_text decl0 ["        // ComparisonBinaryOp Mutator: changed '>' to '!='"; "        if(a != b) "; "            g(a, b);"] loop0) ].
Proof.
  split; [exact small_sol_program|]. destruct small_sol_lean as (A & B & C). split; [exact A|]. split; [exact B|]. split; [exact C|].
  split; [intros p n t _ I _; cbn in I; destruct I as [<-|[<-|[<-|[]]]]; exact Logic.I|].
  split; [intros t I; cbn in I |- *; tauto|].
  remember (mutants (fst (generate (solidity_files ex_env) ex_world word_params 20 small_sol_node ex_rng))) as l eqn:E. vm_compute in E. subst l.
  repeat (constructor; [split; [reflexivity|split; [reflexivity|vm_compute; reflexivity]]|]). constructor.
Qed.

Definition word_programs : list (list stop) :=
  [ small_with (sum1 "-" "1") test1 call1 loop1;
    small_with (sum1 "+" "1") (XBin "<" (XId "a") (XId "b")) call1 loop1;
    small_with (sum1 "+" "1") test1 call1 [CExp (XPost "--" (XId "b")); CExp (XPre "delete" (XId "b"))];
    small_with (sum1 "+" "1") (XBin "!=" (XId "a") (XId "b")) call1 loop1 ].

Lemma word_mutants_read :
  Forall2 read_as (mutants (fst (generate (solidity_files ex_env) ex_world word_params 20 small_sol_node ex_rng))) word_programs.
Proof.
  remember (mutants (fst (generate (solidity_files ex_env) ex_world word_params 20 small_sol_node ex_rng))) as l eqn:E. vm_compute in E. subst l.
  unfold word_programs.
  repeat (constructor; [split; [match goal with |- unit_node _ _ ?n => let m := eval vm_compute in n in change n with m end; nodes|];
    split; [constructor; [|constructor]; ez|split; [vm_compute; repeat constructor|vm_compute; reflexivity]]|]). constructor.
Qed.
