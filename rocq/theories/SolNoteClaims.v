(** The text of a Solidity program with comments in it: the claims. *)
From Coq Require Import String Ascii List NArith ZArith Bool Lia.
From Verif Require Import Base Json Printer SolPrinter SpecPrinter SpecLiteral SpecVyText SpecSolText SpecSolRead SpecSolEdit SpecSolNote
  TextFacts LayoutFacts EmitFacts SolEmit PrintFacts IdealFacts VyText VyTextStmt SolText SolTextStmt SolTextTop SolTextClaims
  SolReadLex SolReadToks3 SolReadTop SolReadClaims SolNoteLex SolNoteExec SolNoteText.
Import ListNotations.
Open Scope string_scope.
Open Scope list_scope.

(** What adds lines to the text of a program is read as that program. *)
Lemma adds_reads : forall tab license l s, oeasy one_line license -> forallb top_spelled l = true ->
  adds (String "010" (unit_text tab license l)) (String "010" s) -> reads s l.
Proof.
  intros tab license l s Zl Sp A.
  assert (L : lxs any (unit_text tab license l) (flat_map ptoks l)).
  { apply unit_lexed; [|exact Sp]. intros x ->. exact Zl. }
  assert (L0 : lx (unit_text tab license l) (flat_map ptoks l) "").
  { specialize (L "" ltac:(exact Logic.I || (left; reflexivity) || reflexivity)). rewrite append_nil_s in L. exact L. }
  destruct (lx_lex s (flat_map ptoks l) (adds_tokens _ _ _ A L0)) as (N1 & X).
  destruct (tops_ok l Sp) as (N2 & T). exists (N1 + N2). intros f F. unfold read_unit. rewrite X by lia. apply T. lia.
Qed.

Lemma printed_sol_notes : forall oc license l n n' h text, unit_node license l n -> noted h n n' -> oeasy one_line license -> Forall (easy_top_level h) l ->
  (N.of_nat h <= 36)%N -> narrow 150 (unit_text 4 license l) -> forallb top_spelled l = true ->
  sol_print oc n' = Ok text -> reads text l.
Proof.
  intros oc license l n n' h text H K Zl Z L Nw Sp E. unfold sol_print, print_text in E.
  destruct (exec (std_geo oc) (sol_emit D n') fresh) as [[o st]| | |] eqn:X; cbn [bind] in E; try discriminate E. injection E as <-.
  destruct (unit_says h license l n H Zl Z) as (P & B & O & C & I).
  destruct (exec_commented oc h true false _ _ (commented_any h true _ _ _ (noted_commented h n n' K)) eq_refl L fresh "" o st P O) as (G & _).
  - cbn [fresh p_ind]. specialize (C 0%N). lia.
  - reflexivity.
  - cbn [String.append fresh p_ind]. rewrite I. exact Nw.
  - exact X.
  - specialize (G (fun _ => eq_refl) eq_refl). cbn [String.append fresh p_ind] in G. rewrite I in G. exact (adds_reads 4 license l o Zl Sp G).
Qed.
