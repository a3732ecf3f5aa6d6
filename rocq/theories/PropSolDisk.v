(** The files of a Solidity run: C105. *)
From Coq Require Import String Ascii List NArith ZArith Bool.
From Verif Require Import Base Json Rng MutationType Traverse OpCommon SolMutators Language Generator Printer SolPrinter
  SpecTree SpecMutation SpecOps SpecPrinter SpecTotal SpecAccept SpecGenerator SpecComments SpecLiteral SpecVyText SpecSolText SpecSolRead SpecSolEdit SpecSolNote SpecSolOnce SpecDisk
  SolMutantClaims SolEditDemo SolMutantDemo SolOnceClaims DiskFacts DiskClaims DiskDemo SolDisk GenWitness Samples.
Import ListNotations.
Open Scope string_scope.
Open Scope list_scope.

(** C105: when a run has ended, the file of each of its mutants holds a text
    that is read as the program of the run with one edit of the kind that the
    record names. *)
Theorem C105_solidity_files_read_as_one_edit : forall e W P fuel license ast r l h, rearranges (w_order W) ->
  unit_node license l ast -> forallb top_spelled l = true -> lean ast = true -> uncommented ast ->
  (forall p n t, subtree p ast = Some n -> In t (rp_types P) -> sol_accepts t n -> sol_crash_free t n) ->
  (In (Generic DeleteStatement) (rp_types P) -> forall p v, subtree p ast = Some v -> is_sol "ExpressionStatement" v -> short_statement h v) ->
  oeasy one_line license -> (N.of_nat h <= 36)%N ->
  let evs := fst (generate (solidity_files e) W P fuel ast r) in
  forall file ast' mr i, In (WroteMutant file ast' mr) evs ->
  mr_node mr = Some i -> ~ mutated_branch i ast ->
  (forall p b, subtree p ast = Some b -> is_sol "Block" b -> sol_id b = Some i -> ~ has_field b "statements" (JArr [])) ->
  exists t l1 l', mr_type mr = Some t /\ In t (rp_types P) /\ one_edit t l l1 /\ same_but_braces l1 l' /\
  (Forall (easy_top_level h) l' -> narrow 150 (unit_text 4 license l') -> forallb top_spelled l' = true ->
   forall file_of oc text config d, by_name file_of -> (forall a s, sol_print oc a = Ok s -> text a = s) -> (exists s, sol_print oc ast' = Ok s) ->
   exists content, disk_after file_of text config d evs (file_of file) = Some content /\ reads content l').
Proof. exact solidity_files_read. Qed.
Print Assumptions C105_solidity_files_read_as_one_edit.

(** And the files of two mutations that change a word are read as two different
    programs. *)
Theorem C105_solidity_files_differ : forall e W P fuel license ast r l h, rearranges (w_order W) ->
  unit_node license l ast -> forallb top_spelled l = true -> lean ast = true -> uncommented ast ->
  (forall p n t, subtree p ast = Some n -> In t (rp_types P) -> sol_accepts t n -> sol_crash_free t n) ->
  (In (Generic DeleteStatement) (rp_types P) -> forall p v, subtree p ast = Some v -> is_sol "ExpressionStatement" v -> short_statement h v) ->
  oeasy one_line license -> (N.of_nat h <= 36)%N ->
  let evs := fst (generate (solidity_files e) W P fuel ast r) in
  let fits := fun l' : list stop => Forall (easy_top_level h) l' /\ narrow 150 (unit_text 4 license l') /\ forallb top_spelled l' = true in
  let usual := fun (mr : mutator_result) t i => mr_type mr = Some t /\ In t word_kinds /\ mr_node mr = Some i /\ ~ mutated_branch i ast /\
    (forall p b, subtree p ast = Some b -> is_sol "Block" b -> sol_id b = Some i -> ~ has_field b "statements" (JArr [])) in
  forall file1 ast1 mr1 t1 i1 file2 ast2 mr2 t2 i2, In (WroteMutant file1 ast1 mr1) evs -> In (WroteMutant file2 ast2 mr2) evs -> file1 <> file2 ->
  usual mr1 t1 i1 -> usual mr2 t2 i2 ->
  exists l1 l2, l1 <> l2 /\ (fits l1 -> fits l2 ->
   forall file_of oc text config d, by_name file_of -> (forall a s, sol_print oc a = Ok s -> text a = s) ->
   (exists s, sol_print oc ast1 = Ok s) -> (exists s, sol_print oc ast2 = Ok s) ->
   exists content1 content2, disk_after file_of text config d evs (file_of file1) = Some content1 /\ reads content1 l1 /\
     disk_after file_of text config d evs (file_of file2) = Some content2 /\ reads content2 l2 /\ content1 <> content2).
Proof. exact solidity_files_differ. Qed.
Print Assumptions C105_solidity_files_differ.

(** The run of C99's example, which shows that it meets the hypotheses; here are
    two of its files. *)
Example C105_solidity_example :
  let evs := fst (generate (solidity_files ex_env) ex_world word_params 20 small_sol_node ex_rng) in
  mutant_files evs = ["out/x.sol_0.sol"; "out/x.sol_1.sol"; "out/x.sol_2.sol"; "out/x.sol_3.sol"] /\
  (forall a s, sol_print true a = Ok s -> sol_text a = s) /\
  forall config d, disk_after (fun p => p) sol_text config d evs "out/x.sol_0.sol" =
      Some (small_text ["        // ArithmeticBinaryOp Mutator: changed '+' to '-'"; "        uint256 b = a - 1;"] branch0 loop0) /\
    disk_after (fun p => p) sol_text config d evs "out/x.sol_3.sol" =
      Some (small_text decl0 ["        // ComparisonBinaryOp Mutator: changed '>' to '!='"; "        if(a != b) "; "            g(a, b);"] loop0).
Proof.
  split; [vm_compute; reflexivity|]. split; [intros a s H; unfold sol_text; rewrite H; reflexivity|]. intros config d. split; vm_compute; reflexivity.
Qed.
