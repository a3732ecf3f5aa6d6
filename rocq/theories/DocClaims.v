(** Documentation comments: concrete cases. *)
From Coq Require Import String Ascii List NArith Bool.
From Verif Require Import Base Json Printer SolPrinter SpecPrinter SpecSolRead SpecDoc SolTextClaims DocFacts.
Import ListNotations.
Open Scope string_scope.
Open Scope list_scope.

Definition jdoc (text : string) : json := nd "StructuredDocumentation" [("text", JStr text)].

(** uint x = 1, and the same with documentation. *)
Definition doc_fields : list (string * json) :=
  [("typeName", nd "ElementaryTypeName" [("name", JStr "uint")]); ("visibility", JStr "public"); ("name", JStr "x")].
Definition bare_var : json := nd "VariableDeclaration" doc_fields.
Definition doc_var (text : string) : json := nd "VariableDeclaration" (("documentation", jdoc text) :: doc_fields).

Definition two_notes : string := String.append "@notice How many" (String.append nl "@dev see * and /x").
Definition glob_note : string := "see contracts/**/*.sol".

Lemma doc_var_documented : forall text, documented (jdoc text) bare_var (doc_var text).
Proof.
  intros text. split; [reflexivity|]. split; [reflexivity|]. split.
  - intros k K. unfold doc_var, bare_var, nd, oget. cbn [assoc]. destruct (k =?s "nodeType"); [reflexivity|].
    destruct (k =?s "documentation") eqn:E; [|reflexivity]. apply String.eqb_eq in E. congruence.
  - exists "VariableDeclaration". split; [cbn; tauto|reflexivity].
Qed.

Lemma two_notes_open : ~ closes_comment two_notes.
Proof.
  intros (a & b & H). assert (G : forall u v, closes v = true -> closes (String.append u v) = true).
  { induction u as [|c u IH]; intros v V; [exact V|]. cbn [String.append closes]. rewrite (IH v V). apply orb_true_r. }
  pose proof (G a (String.append "*/" b) eq_refl) as E. rewrite <- H in E. vm_compute in E. discriminate E.
Qed.

Lemma glob_closes : closes_comment glob_note.
Proof. now exists "see contracts/*", "*.sol". Qed.

Definition at_member : pstate := PState 7 5 1.

Lemma doc_var_text : exec (std_geo true) (sol_emit sol_default (doc_var two_notes)) at_member =
  Ok (fold_right String.append "" ["/**"; nl; "     * @notice How many"; nl; "     * @dev see * and /x"; nl; "     */"; nl; "    uint public x"], PState 11 18 1).
Proof. vm_compute. reflexivity. Qed.

Lemma documented_refuted : exists oc c d n0 n text st o st' s o0 ts ts0,
  documented d n0 n /\ doc_node text d /\ p_col st = (1 + indent_length (std_geo oc) st)%N /\
  exec (std_geo oc) (sol_emit c n) st = Ok (o, st') /\ exec (std_geo oc) (sol_emit c n0) s = Ok (o0, st') /\ p_col s = p_col st /\
  lexes o0 ts0 /\ lexes o ts /\ ts = [KSym "*"; KSym "."; KWord "sol"; KSym "*"; KSym "/"] ++ ts0.
Proof.
  exists true, sol_default, (jdoc glob_note), bare_var, (doc_var glob_note), glob_note, at_member.
  do 2 eexists. exists (PState 10 5 1). do 3 eexists.
  split; [apply doc_var_documented|]. split; [now split|]. split; [reflexivity|].
  split; [vm_compute; reflexivity|]. split; [vm_compute; reflexivity|]. split; [reflexivity|].
  split; [exists 40; vm_compute; reflexivity|]. split; [exists 90; vm_compute; reflexivity|]. reflexivity.
Qed.

Lemma doc_comment_refuted : exists oc c n text st o st' rest,
  doc_node text n /\ p_col st = (1 + indent_length (std_geo oc) st)%N /\
  exec (std_geo oc) (sol_emit c n) st = Ok (o, st') /\
  exists left, next (String.append o rest) = Some (None, left) /\ left <> rest.
Proof.
  exists true, sol_default, (jdoc glob_note), glob_note, fresh. do 2 eexists. exists " uint x;".
  split; [now split|]. split; [reflexivity|]. split; [vm_compute; reflexivity|].
  eexists. split; [vm_compute; reflexivity|discriminate].
Qed.
