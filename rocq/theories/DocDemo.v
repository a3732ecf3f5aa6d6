(** A Solidity program with comments and documentation. *)
From Coq Require Import String Ascii List NArith ZArith Bool Lia.
From Verif Require Import Base Json Printer SolPrinter SpecPrinter SpecLiteral SpecVyText SpecSolText SpecSolRead SpecSolEdit SpecSolNote SpecDoc
  SolTextClaims SolReadClaims SolEditDemo SolNoteDemo DocFacts DocClaims.
Import ListNotations.
Open Scope string_scope.
Open Scope list_scope.

(** The node with documentation. *)
Definition with_doc (text : string) (n : json) : json :=
  match n with JObj o => JObj (("documentation", jdoc text) :: o) | _ => n end.
Definition node_is (ty : string) (n : json) : bool := match oget n "nodeType" with Some (JStr t) => t =?s ty | _ => false end.
Definition on_nodes (f : json -> json) (n : json) : json :=
  match n with
  | JObj o => JObj (map (fun kv => match kv with ("nodes", JArr l) => ("nodes", JArr (map f l)) | _ => kv end) o)
  | _ => n
  end.
(** Documentation for the contracts and for their functions. *)
Definition described (contract func : string) (n : json) : json :=
  on_nodes (fun c => if node_is "ContractDefinition" c
                     then with_doc contract (on_nodes (fun m => if node_is "FunctionDefinition" m then with_doc func m else m) c) else c) n.

Definition described_node : json := Eval vm_compute in described "The contract." two_notes remarked_node.

Lemma doc_key : forall d o k, k <> "documentation" -> oget (JObj (("documentation", d) :: o)) k = oget (JObj o) k.
Proof. intros d o k N. cbn [oget assoc]. destruct (k =?s "documentation") eqn:E; [apply String.eqb_eq in E; congruence|reflexivity]. Qed.

Lemma described_unit : unit_doc remarked_node described_node.
Proof.
  pose proof doc_key as K.
  assert (M : forall text o t, ~ closes_comment text -> oget (JObj o) "documentation" = None -> In t documented_kinds -> oget (JObj o) "nodeType" = Some (JStr t) ->
              may_doc (JObj o) (JObj (("documentation", jdoc text) :: o))).
  { intros text o t C G T Y. right. exists text, (jdoc text). split; [now split|]. split; [exact C|]. split; [reflexivity|]. split; [exact G|].
    split; [intros k N; now apply K|]. exists t. split; [exact T|]. now rewrite K by discriminate. }
  assert (Q : ~ closes_comment "The contract.").
  { intros (a & b & H). assert (G : forall u v, closes v = true -> closes (String.append u v) = true).
    { induction u as [|c u IH]; intros v V; [exact V|]. cbn [String.append closes]. rewrite (IH v V). apply orb_true_r. }
    pose proof (G a (String.append "*/" b) eq_refl) as E. rewrite <- H in E. vm_compute in E. discriminate E. }
  assert (S : forall o o' k, map fst o = map fst o' -> (forall p, In p (combine o o') -> fst (fst p) = "nodes" \/ fst p = snd p) -> k <> "nodes" ->
              oget (JObj o') k = oget (JObj o) k).
  { induction o as [|(a, v) o IH]; intros [|(a2, v2) o2] k E P N; try discriminate E; [reflexivity|]. cbn [map fst] in E. injection E as -> E.
    cbn [oget assoc]. destruct (k =?s a2) eqn:X.
    - apply String.eqb_eq in X. subst a2. destruct (P _ (or_introl eq_refl)) as [Y|Y]; cbn [fst snd] in Y; [congruence|]. injection Y as ->. reflexivity.
    - apply (IH o2 k E); [|exact N]. intros p I. apply P. right. exact I. }
  unfold remarked_node, described_node.
  split; [reflexivity|]. split; [intros k N; apply S; [reflexivity| |exact N]; cbn [combine In]; intros p I; repeat (destruct I as [<-|I]; [now (left + right)|]); destruct I|].
  do 2 eexists. split; [reflexivity|]. split; [reflexivity|].
  repeat (apply Forall2_cons || apply Forall2_nil).
  eexists. split; [right|eapply M; [exact Q|reflexivity| |reflexivity]; cbn; tauto].
  split; [reflexivity|]. split; [intros k N; apply S; [reflexivity| |exact N]; cbn [combine In]; intros p I; repeat (destruct I as [<-|I]; [now (left + right)|]); destruct I|].
  do 2 eexists. split; [reflexivity|]. split; [reflexivity|].
  repeat (apply Forall2_cons || apply Forall2_nil); first [now left|eapply M; [exact two_notes_open|reflexivity| |reflexivity]; cbn; tauto].
Qed.

Definition described_text : string := String.concat newline
  ["// SPDX-License-Identifier: MIT"; "/**"; " * The contract."; " */"; "contract C {"; "    // b = 2;"; "";
   "    /**"; "     * @notice How many"; "     * @dev see * and /x"; "     */";
   "    function f(uint256 a) public returns (uint256) {"; "        // b = 2;"; "        uint256 b = a + 1;";
   "        if(a > b) "; "            g(a, b);"; "        else"; "            return b;";
   "        while (b < a) {"; "            // b = 2;"; "            b++;"; "            delete b;"; "            // two lines b = 1;"; "        }";
   "        return b;"; "        // two lines b = 1;"; "    }"; ""; "    // two lines b = 1;"; "}"; ""; ""].
Lemma described_printed : sol_print true described_node = Ok described_text.
Proof. vm_compute. reflexivity. Qed.

(** Texts that end the comment: the first spoils the program, the second adds to
    it.  Both are documentation that the compiler accepts after [///]. *)
Definition plain_sol : list stop := [PContract false "contract" "C" [] []].
Definition smuggling : string := "*/ contract D {} /* more".
Definition noted_sol (text : string) : json := described text "" (ju None plain_sol).

Lemma noted_sol_documented : forall text, exists c c', fld (ju None plain_sol) "nodes" (JArr [c]) /\ fld (noted_sol text) "nodes" (JArr [c']) /\
  documented (jdoc text) c c' /\ doc_node text (jdoc text).
Proof.
  intros text. do 2 eexists. split; [reflexivity|]. split; [reflexivity|]. split; [|now split].
  split; [reflexivity|]. split; [reflexivity|]. split; [|exists "ContractDefinition"; split; [cbn; tauto|reflexivity]].
  intros k N. exact (doc_key (jdoc text) _ k N).
Qed.

Lemma always_reads s l : (forall fuel, read_unit (300 + fuel) s = Some l) -> reads s l.
Proof. intros H. exists 300. intros fuel Hf. replace fuel with (300 + (fuel - 300)) by lia. apply H. Qed.
Lemma never_reads s : (forall fuel, read_unit (300 + fuel) s = None) -> forall l, ~ reads s l.
Proof. intros H l (N & R). specialize (R (300 + N) ltac:(lia)). rewrite H in R. discriminate R. Qed.

Lemma documentation_escapes :
  unit_node None plain_sol (ju None plain_sol) /\ Forall (easy_top_level 5) plain_sol /\ forallb top_spelled plain_sol = true /\
  (exists t, sol_print true (noted_sol glob_note) = Ok t /\ forall l, ~ reads t l) /\
  (exists t, sol_print true (noted_sol smuggling) = Ok t /\ reads t [PContract false "contract" "D" [] []; PContract false "contract" "C" [] []] /\ ~ reads t plain_sol).
Proof.
  split; [unfold plain_sol; nodes|]. split; [unfold plain_sol; constructor; [ez|constructor]|]. split; [vm_compute; reflexivity|]. split.
  - eexists. split; [vm_compute; reflexivity|]. apply never_reads. intros fuel. vm_compute. reflexivity.
  - eexists. split; [vm_compute; reflexivity|].
    match goal with |- ?R /\ _ => assert (Q : R) end; [apply always_reads; intros fuel; vm_compute; reflexivity|].
    split; [exact Q|]. intros P. pose proof (reads_one _ _ _ P Q) as E. discriminate E.
Qed.
