(** The printed text of inline assembly is read as that assembly: the claims. *)
From Coq Require Import String Ascii List NArith ZArith Bool Lia.
From Verif Require Import Base Json Printer SolPrinter SpecPrinter SpecLiteral SpecVyText SpecSolText SpecSolRead SpecYul SpecYulRead
  SolTextClaims YulText YulClaims YulRead.
Import ListNotations.
Open Scope string_scope.
Open Scope list_scope.

Lemma mixed_read_back : forall oc h l n, l <> [] -> mixed_block_node l n -> Forall (mixed_easy h) l -> (N.of_nat (S h) <= 36)%N ->
  narrow 150 (mixed_block 4 0 l) -> forallb mixed_spelled l = true -> exists text, sol_print oc n = Ok text /\ reads_block text l.
Proof.
  intros oc h l n Ne N Z L Nw Sp. exists (mixed_block 4 0 l). split; [exact (mixed_printed oc h l n Ne N Z L Nw)|]. apply mixed_reads; [exact Ne|exact Sp|].
  apply Forall_forall. rewrite Forall_forall in Z. intros m I. specialize (Z m I). destruct m; [exact Logic.I|exact (proj1 Z)].
Qed.

Lemma yul_demo_spelled : forallb mixed_spelled yul_demo = true.
Proof. vm_compute. reflexivity. Qed.

(** Other layouts, names with dots and comments are read, and what is no
    assembly is refused. *)
Definition yul_other : string := String.concat newline
  ["{ assembly{ // a comment";
   "let a,b:=f(x.slot,hex""00ff"",""text"") function g(y)->z,w{leave}";
   "let c for{}lt(c,0x10){c:=add(c,1)}{break}switch c case 1{}default{return(0,0)} } }"].
Definition yul_other_program : list mixed :=
  [Asm [] [YLet ["a"; "b"] (Some (yc "f" [yv "x.slot"; YHex (String (ascii_of_nat 0) (String (ascii_of_nat 255) "")); YStr "text"]));
           YFun "g" ["y"] ["z"; "w"] [YWord "leave"];
           YLet ["c"] None;
           YFor [] (yc "lt" [yv "c"; yn "0x10"]) [YSet ["c"] (yc "add" [yv "c"; yn "1"])] [YWord "break"];
           YSwitch (yv "c") [(Some (yn "1"), []); (None, [YExp (yc "return" [yn "0"; yn "0"])])]]].
Lemma yul_other_read : read_block 300 yul_other = Some yul_other_program /\ forallb mixed_spelled yul_other_program = true.
Proof. split; vm_compute; reflexivity. Qed.

Lemma yul_refused :
  read_block 300 "{ assembly { let x := } }" = None /\ read_block 300 "{ assembly { x } }" = None /\
  read_block 300 "{ assembly { function f() -> (a, b) {} } }" = None /\ read_block 300 "{ assembly { if x y() } }" = None /\
  read_block 300 "{ assembly { switch x } }" = None /\ read_block 300 "{ assembly { let if := 1 } }" = None.
Proof. vm_compute. repeat split. Qed.

(** ** Assembly whose printed text is other assembly *)

Definition became (l1 l2 : list mixed) : Prop :=
  mixed_block_node l1 (jmixed_block l1) /\ forallb mixed_spelled l1 = true /\ l1 <> l2 /\
  forall oc, exists text, sol_print oc (jmixed_block l1) = Ok text /\ reads_block text l2 /\ ~ reads_block text l1.

Lemma became_by : forall flags a1 a2 text, y_ok (YBlock a1) = true -> forallb yul_spelled a1 = true -> forallb yul_spelled a2 = true -> a1 <> a2 ->
  sol_print true (jmixed_block [Asm flags a1]) = Ok text -> sol_print false (jmixed_block [Asm flags a1]) = Ok text ->
  lex 600 text = Some (KSym "{" :: flat_map mtoks [Asm flags a2] ++ [KSym "}"]) ->
  became [Asm flags a1] [Asm flags a2].
Proof.
  intros flags a1 a2 text O S1 S2 Ne P1 P2 X.
  assert (D : [Asm flags a1] <> [Asm flags a2]) by (intros Q; injection Q as Q; auto).
  split.
  { split; [reflexivity|]. eexists. split; [reflexivity|]. constructor; [apply jasm_node; exact O|constructor]. }
  split; [cbn; now rewrite S1|]. split; [exact D|].
  assert (R : reads_block text [Asm flags a2]).
  { apply mixed_tokens_read; [cbn; now rewrite S2|]. exists 600. intros f F. exact (lex_more _ _ _ X f F). }
  intros oc. exists text. split; [destruct oc; assumption|]. split; [exact R|]. intros R1. apply D. exact (block_one _ _ _ R1 R).
Qed.

(** A variable without a value takes the next call as its value; a value that
    is no text in UTF-8 gives way to the next call. *)
Lemma other_assembly :
  became [Asm [] [YLet ["x"] None; YExp (yc "f" [])]] [Asm [] [YLet ["x"] (Some (yc "f" []))]] /\
  became [Asm [] [YSet ["x"] (YHex (String (ascii_of_nat 255) "")); YExp (yc "f" [])]] [Asm [] [YSet ["x"] (yc "f" [])]].
Proof.
  split; (eapply became_by; [reflexivity|reflexivity|reflexivity|discriminate|vm_compute; reflexivity|vm_compute; reflexivity|vm_compute; reflexivity]).
Qed.
