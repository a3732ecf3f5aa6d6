(** A Solidity program with comments at every level. *)
From Coq Require Import String Ascii List NArith ZArith Bool Lia.
From Verif Require Import Base Json Printer SolPrinter SpecPrinter SpecLiteral SpecVyText SpecSolText SpecSolRead SpecSolEdit SpecSolNote
  SolTextClaims SolReadClaims SolEditDemo SolNoteClaims Samples.
Import ListNotations.
Open Scope string_scope.
Open Scope list_scope.

Definition said (s : string) : json := nd "Comment" [("text", JStr s)].
Definition held (n : json) : json := nd "Comment" [("text", JStr ""); ("value", n)].

(** Comments before the first and after the last element of every list that may
    have some. *)
Fixpoint remarked (first last : json) (n : json) : json :=
  match n with
  | JObj o =>
      JObj ((fix go (r : list (string * json)) :=
               match r with
               | [] => []
               | (k, v) :: r =>
                   (k, match remarked first last v with
                       | JArr l => if existsb (fun p => (fst (fst p) =?s node_type o) && (snd (fst p) =?s k) && snd p) list_fields
                                   then JArr (first :: l ++ [last]) else JArr l
                       | v => v
                       end) :: go r
               end) o)
  | JArr l => JArr ((fix go (l : list json) := match l with [] => [] | x :: l => remarked first last x :: go l end) l)
  | _ => n
  end.

Definition last_word : json := said (String.append "two lines" (String "010" "b = 1;")).
Definition gone_line : json := held (jc (CExp (XAssign "=" (XId "b") (XLit "2" None)))).
Definition remarked_node : json := Eval vm_compute in remarked gone_line last_word small_sol_node.

Lemma last_word_fair : forall h, fair_comment h last_word.
Proof. intros h. split; [reflexivity|]. left. reflexivity. Qed.
Lemma gone_line_fair : fair_comment 5 gone_line.
Proof.
  split; [reflexivity|]. right. split; [right; reflexivity|]. exists (jc (CExp (XAssign "=" (XId "b") (XLit "2" None)))), (CExp (XAssign "=" (XId "b") (XLit "2" None))).
  split; [reflexivity|]. split; [nodes|]. split; [ez|]. intros ind. vm_compute. split; [reflexivity|discriminate].
Qed.

Ltac notes := repeat (first
  [ apply nt_same | apply nt_node; cbn [node_type assoc String.eqb Ascii.eqb Bool.eqb]
  | apply nf_nil | apply nf_keep
  | eapply nf_body; [cbn; tauto| |] | eapply nf_list; [cbn; tauto|discriminate| |]
  | apply nl_nil | apply nl_comment; [first [exact (last_word_fair _)|exact gone_line_fair]|] | apply nl_cons ]).
Lemma small_remarked : noted 5 small_sol_node remarked_node.
Proof. unfold small_sol_node, remarked_node. notes. Qed.
Lemma small_easy : Forall (easy_top_level 5) small_sol.
Proof. unfold small_sol. constructor; [|constructor]. ez. Qed.
Lemma small_narrow : narrow 150 (unit_text 4 (Some "MIT") small_sol) /\ forallb top_spelled small_sol = true.
Proof. split; [vm_compute; repeat constructor|vm_compute; reflexivity]. Qed.

Definition remarked_text : string := String.concat newline
  ["// SPDX-License-Identifier: MIT"; "contract C {"; "    // b = 2;"; "";
   "    function f(uint256 a) public returns (uint256) {"; "        // b = 2;"; "        uint256 b = a + 1;";
   "        if(a > b) "; "            g(a, b);"; "        else"; "            return b;";
   "        while (b < a) {"; "            // b = 2;"; "            b++;"; "            delete b;"; "            // two lines b = 1;"; "        }";
   "        return b;"; "        // two lines b = 1;"; "    }"; ""; "    // two lines b = 1;"; "}"; ""; ""].
Lemma remarked_printed : sol_print true remarked_node = Ok remarked_text.
Proof. vm_compute. reflexivity. Qed.

(** A comment that holds a block: only its first line is a comment. *)
Definition loose_comment : json := held (jc (block [CExp (XAssign "=" (XId "b") (XLit "2" None)); CReturn None])).
Definition loose_node : json := Eval vm_compute in
  ju None [PMember (MFun (SFun "function" "f" [] "" false "" None [] [] (Some (block [CReturn None]))))].
Definition loose_remarked : json := Eval vm_compute in remarked loose_comment last_word loose_node.
Definition loose_text : string := String.concat newline
  ["function f() {"; "    // {"; "        b = 2;"; "        return;"; "    }"; "    return;"; "    // two lines b = 1;"; "}"; ""; ""].
Lemma loose_lost : sol_print true loose_remarked = Ok loose_text /\ read_unit 600 loose_text = None.
Proof. split; vm_compute; reflexivity. Qed.
