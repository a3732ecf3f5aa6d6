(** The files of a Solidity run, read. *)
From Coq Require Import String Ascii List NArith ZArith Bool.
From Verif Require Import Base Json Rng MutationType Traverse OpCommon SolMutators Language Generator Printer SolPrinter
  SpecTree SpecMutation SpecOps SpecPrinter SpecTotal SpecAccept SpecGenerator SpecComments SpecLiteral SpecVyText SpecSolText SpecSolRead SpecSolEdit SpecSolNote SpecSolOnce SpecDisk
  SolMutantClaims SolOnceClaims DiskFacts DiskClaims.
Import ListNotations.
Open Scope string_scope.
Open Scope list_scope.

Lemma sol_supported_files e : supported (solidity_files e).
Proof. exists e. left. reflexivity. Qed.

Lemma solidity_files_read : forall e W P fuel license ast r l h, rearranges (w_order W) ->
  unit_node license l ast -> forallb top_spelled l = true -> lean ast = true -> uncommented ast ->
  (forall p n t, subtree p ast = Some n -> In t (rp_types P) -> sol_accepts t n -> sol_crash_free t n) ->
  (In (Generic DeleteStatement) (rp_types P) -> forall p v, subtree p ast = Some v -> is_sol "ExpressionStatement" v -> short_statement h v) ->
  oeasy one_line license -> (N.of_nat h <= 36)%N ->
  let evs := fst (generate (solidity_files e) W P fuel ast r) in
  forall file ast' mr i, In (WroteMutant file ast' mr) evs ->
  mr_node mr = Some i -> ~ mutated_branch i ast ->
  (forall p b, subtree p ast = Some b -> is_sol "Block" b -> sol_id b = Some i -> ~ has_field b "statements" (JArr [])) ->
  exists t l1 l', mr_type mr = Some t /\ In t (rp_types P) /\ one_edit t l l1 /\ same_but_braces l1 l' /\
  (Forall (easy_top_level h) l' -> narrow 150 (unit_text 4 license l') -> forallb top_spelled l' = true ->
   forall file_of oc text config d, by_name file_of -> (forall a s, sol_print oc a = Ok s -> text a = s) -> (exists s, sol_print oc ast' = Ok s) ->
   exists content, disk_after file_of text config d evs (file_of file) = Some content /\ reads content l').
Proof.
  intros e W P fuel license ast r l h Ho U Sp L Un Cf Ds Li Hh evs file ast' mr i I Mi Nb Fb.
  destruct (solidity_mutants_read e W P fuel license ast r l h Ho U Sp L Un Cf Ds ast' mr i (wrote_mutant _ _ _ _ I) Mi Nb Fb) as (t & l1 & l' & A & B & C & D & _ & R).
  exists t, l1, l'. repeat (split; [assumption|]). intros F N S file_of oc text config d Bn Tx (s & Ps). exists (text ast').
  split; [exact (run_keeps file_of text config Bn _ W P fuel ast r d file ast' mr (sol_supported_files e) I)|]. rewrite (Tx _ _ Ps). exact (R Li F Hh N S oc s Ps).
Qed.

Lemma solidity_files_differ : forall e W P fuel license ast r l h, rearranges (w_order W) ->
  unit_node license l ast -> forallb top_spelled l = true -> lean ast = true -> uncommented ast ->
  (forall p n t, subtree p ast = Some n -> In t (rp_types P) -> sol_accepts t n -> sol_crash_free t n) ->
  (In (Generic DeleteStatement) (rp_types P) -> forall p v, subtree p ast = Some v -> is_sol "ExpressionStatement" v -> short_statement h v) ->
  oeasy one_line license -> (N.of_nat h <= 36)%N ->
  let evs := fst (generate (solidity_files e) W P fuel ast r) in
  let fits := fun l' : list stop => Forall (easy_top_level h) l' /\ narrow 150 (unit_text 4 license l') /\ forallb top_spelled l' = true in
  let usual := fun (mr : mutator_result) t i => mr_type mr = Some t /\ In t word_kinds /\ mr_node mr = Some i /\ ~ mutated_branch i ast /\
    (forall p b, subtree p ast = Some b -> is_sol "Block" b -> sol_id b = Some i -> ~ has_field b "statements" (JArr [])) in
  forall file1 ast1 mr1 t1 i1 file2 ast2 mr2 t2 i2, In (WroteMutant file1 ast1 mr1) evs -> In (WroteMutant file2 ast2 mr2) evs -> file1 <> file2 ->
  usual mr1 t1 i1 -> usual mr2 t2 i2 ->
  exists l1 l2, l1 <> l2 /\ (fits l1 -> fits l2 ->
   forall file_of oc text config d, by_name file_of -> (forall a s, sol_print oc a = Ok s -> text a = s) ->
   (exists s, sol_print oc ast1 = Ok s) -> (exists s, sol_print oc ast2 = Ok s) ->
   exists content1 content2, disk_after file_of text config d evs (file_of file1) = Some content1 /\ reads content1 l1 /\
     disk_after file_of text config d evs (file_of file2) = Some content2 /\ reads content2 l2 /\ content1 <> content2).
Proof.
  intros e W P fuel license ast r l h Ho U Sp L Un Cf Ds Li Hh evs fits usual file1 ast1 mr1 t1 i1 file2 ast2 mr2 t2 i2 I1 I2 Ne U1 U2.
  destruct (wrote_two _ _ _ _ _ _ _ I1 I2 Ne) as (j1 & j2 & N1 & N2 & D).
  destruct (texts_once e W P fuel license ast r l h Ho U Sp L Un Cf Ds j1 j2 ast1 mr1 i1 t1 ast2 mr2 i2 t2 N1 N2 D U1 U2) as (l1 & l2 & Dl & _ & _ & R).
  exists l1, l2. split; [exact Dl|]. intros F1 F2 file_of oc text config d Bn Tx (s1 & P1) (s2 & P2). exists (text ast1), (text ast2).
  destruct (R Li Hh F1 F2 oc oc s1 s2 P1 P2) as (R1 & R2 & Dt). rewrite (Tx _ _ P1), (Tx _ _ P2).
  pose proof (run_keeps file_of text config Bn _ W P fuel ast r d file1 ast1 mr1 (sol_supported_files e) I1) as K1. rewrite (Tx _ _ P1) in K1.
  pose proof (run_keeps file_of text config Bn _ W P fuel ast r d file2 ast2 mr2 (sol_supported_files e) I2) as K2. rewrite (Tx _ _ P2) in K2.
  split; [exact K1|]. split; [exact R1|]. split; [exact K2|]. split; [exact R2|exact Dt].
Qed.
