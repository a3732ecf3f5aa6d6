(** Whole programs with documentation: what the printers request. *)
From Coq Require Import String Ascii List NArith ZArith Bool Lia.
From Verif Require Import Base Json JsonFacts Printer SolPrinter SpecPrinter SpecLiteral SpecVyText SpecSolText SpecSolRead SpecSolEdit SpecSolNote SpecDoc
  TextFacts LayoutFacts FlowFacts EmitFacts SolEmit PrintFacts IdealFacts VyText VyTextStmt VyNoteExec SolText SolTextStmt SolTextTop SolTextClaims
  SolReadLex SolReadToks3 SolReadTop SolReadClaims SolNoteLex SolNoteExec SolNoteText DocFacts DocWhole.
Import ListNotations.
Open Scope string_scope.
Open Scope list_scope.

(** After its indentation a definition may get documentation. *)
Definition fits_in (c : sctx) (x x' : json) : Prop :=
  forall k k', docced false k k' -> docced true (Indent :: sol_emit c x ++ k) (Indent :: sol_emit c x' ++ k').

Lemma may_more : forall c x y x', fits_in c x y -> may_doc y x' -> fits_in c x x'.
Proof.
  intros c x y x' F [->|(text & d & N & C & Y)] k k' K; [now apply F|].
  rewrite (documented_emit c d y x' Y), <- !app_assoc. cbn [app]. apply (dc_doc c d text); [exact N|exact C|now apply F].
Qed.

Lemma may_fits : forall c x x', may_doc x x' -> fits_in c x x'.
Proof. intros c x x' M. refine (may_more c x x x' _ M). intros k k' K. constructor. now apply docced_pre. Qed.

Lemma each_docced : forall (f : json -> list cmd) ns ns',
  Forall2 (fun x x' => forall k k', docced false k k' -> docced true (f x ++ k) (f x' ++ k')) ns ns' ->
  forall k k', docced false k k' ->
  docced true (each f (fun _ => [Newline; Newline]) ns ++ k) (each f (fun _ => [Newline; Newline]) ns' ++ k').
Proof.
  intros f ns ns' H. induction H as [|x x' ns ns' F H IH]; intros k k' K; [now apply docced_any|].
  cbn [each]. destruct H as [|y y' ns ns' G H].
  - cbn [each app]. rewrite !app_nil_r. now apply F.
  - rewrite <- !app_assoc. apply F. cbn [app]. constructor. constructor. cbn [is_newline]. exact (IH k k' K).
Qed.

Lemma nodes_kget : forall n n' k, (forall k, k <> "nodes" -> oget n' k = oget n k) -> plain_key k = true -> k <> "nodes" -> kget n' k = kget n k.
Proof. intros n n' k S P K. rewrite !kget_plain by exact P. now apply S. Qed.

Lemma may_type : forall x x', may_doc x x' -> get_str x' "nodeType" = get_str x "nodeType".
Proof.
  intros x x' [->|(text & d & _ & _ & _ & _ & S & _)]; [reflexivity|]. unfold get_str. rewrite !kget_plain by reflexivity. now rewrite S by discriminate.
Qed.

Lemma contract_docced : forall c n n' b, nodes_doc may_doc "ContractDefinition" n n' -> docced b (sol_emit c n) (sol_emit c n').
Proof.
  intros c n n' b (T & S & ns & ns' & A & A' & F).
  assert (T' : is_n n' "ContractDefinition") by (unfold is_n, fld; rewrite S by discriminate; exact T).
  rewrite (sol_at c n _ _ T eq_refl), (sol_at c n' _ _ T' eq_refl).
  unfold s_ContractDefinition, s_documentation, s_name, tok_of, sflag, arr_of.
  assert (G : get_array n "nodes" = Some ns) by (unfold get_array; rewrite kget_plain, A by reflexivity; reflexivity).
  assert (G' : get_array n' "nodes" = Some ns') by (unfold get_array; rewrite kget_plain, A' by reflexivity; reflexivity).
  rewrite G, G'. unfold get_str at 1 2 4 5. unfold get_bool.
  repeat match goal with |- context [kget n' ?k] => rewrite (nodes_kget n n' k S) by (reflexivity || discriminate) end.
  repeat match goal with |- context [oget n' ?k] => rewrite (S k) by discriminate end.
  repeat (apply docced_pre; fold (@app cmd)).
  unfold opt. destruct F as [|x x' ns ns' M F]; [apply docced_refl|]. cbn [not_empty when]. rewrite <- !app_assoc.
  cbn [app]. constructor. constructor. cbn [is_newline].
  apply (each_docced _ (x :: ns) (x' :: ns')); [|apply docced_refl].
  assert (E : Forall2 may_doc (x :: ns) (x' :: ns')) by now constructor. clear M F A A' G G'.
  induction E as [|y y' l l' M E IH]; constructor; [|exact IH]. intros k k' K. cbn [app]. rewrite <- !app_assoc.
  rewrite (may_type _ _ M). apply (may_fits c y y' M). now apply docced_pre.
Qed.

Lemma top_fits : forall c x x', top_doc x x' -> fits_in c x x'.
Proof.
  intros c x x' (y & [->|M] & D); [now apply may_fits|]. refine (may_more c x y x' _ D). intros k k' K. constructor.
  cbn [is_newline]. apply docced_app; [|exact K]. now apply contract_docced.
Qed.

Lemma unit_docced : forall c n n', unit_doc n n' -> docced true (sol_emit c n) (sol_emit c n').
Proof.
  intros c n n' (T & S & ns & ns' & A & A' & F).
  assert (T' : is_n n' "SourceUnit") by (unfold is_n, fld; rewrite S by discriminate; exact T).
  rewrite (sol_at c n _ _ T eq_refl), (sol_at c n' _ _ T' eq_refl).
  unfold s_SourceUnit, arr_of, get_str.
  rewrite A, A'. rewrite (nodes_kget n n' "license" S) by (reflexivity || discriminate).
  assert (E : docced true (each (fun x => Indent :: sol_emit c x) (fun _ => [Newline; Newline]) ns ++ [Newline; Newline])
                (each (fun x => Indent :: sol_emit c x) (fun _ => [Newline; Newline]) ns' ++ [Newline; Newline])).
  { apply each_docced; [|apply docced_refl]. clear A A'. induction F as [|x x' l l' M F IH]; constructor; [|exact IH]. exact (top_fits c x x' M). }
  cbn [opt as_array]. rewrite <- !app_assoc. cbn [app].
  destruct (match kget n "license" with Some v => as_str v | None => None end) as [s|]; [|exact E].
  cbn [opt app]. repeat (constructor; cbn [is_newline]). exact E.
Qed.

(** ** Reading *)

Lemma lexes_reads : forall s l, forallb top_spelled l = true -> lexes s (flat_map ptoks l) -> reads s l.
Proof.
  intros s l Sp (N1 & X). destruct (tops_ok l Sp) as (N2 & T). exists (N1 + N2). intros f F. unfold read_unit.
  assert (M : forall a s ts, lex a s = Some ts -> forall b, a <= b -> lex b s = Some ts).
  { induction a as [|a IH]; intros u ts H [|b] Q; [discriminate H|discriminate H|lia|]. cbn [lex] in *. destruct u as [|x u]; [exact H|].
    destruct (next (String x u)) as [(t, r)|]; [|discriminate H]. destruct (lex a r) as [w|] eqn:E; [|discriminate H]. rewrite (IH r w E b) by lia. exact H. }
  rewrite (M _ _ _ X f) by lia. apply T. lia.
Qed.

(** Comments among the statements and members, and documentation. *)
Theorem documented_reads : forall oc license l n n1 n2 h text,
  unit_node license l n -> noted h n n1 -> unit_doc n1 n2 -> oeasy one_line license -> Forall (easy_top_level h) l ->
  (N.of_nat h <= 36)%N -> narrow 150 (unit_text 4 license l) -> forallb top_spelled l = true ->
  sol_print oc n2 = Ok text -> reads text l.
Proof.
  intros oc license l n n1 n2 h text H K U Zl Z L Nw Sp E. unfold sol_print, print_text in E.
  destruct (exec (std_geo oc) (sol_emit D n2) fresh) as [[o2 st2]| | |] eqn:X2; cbn [bind] in E; try discriminate E. injection E as <-.
  destruct (exec_docced _ _ _ _ (unit_docced D n1 n2 U) fresh fresh o2 st2 ltac:(now split) (fun _ => eq_refl) X2) as (o & st & X & _ & W).
  destruct (unit_says h license l n H Zl Z) as (P & B & O & C & I).
  destruct (exec_commented oc h true false _ _ (commented_any h true _ _ _ (noted_commented h n n1 K)) eq_refl L fresh "" o st P O) as (G & _).
  - cbn [fresh p_ind]. specialize (C 0%N). lia.
  - reflexivity.
  - cbn [String.append fresh p_ind]. rewrite I. exact Nw.
  - exact X.
  - specialize (G (fun _ => eq_refl) eq_refl). cbn [String.append fresh p_ind] in G. rewrite I in G.
    apply lexes_reads; [exact Sp|]. apply (wv_lexes true _ _ W "" _ (fun _ => eq_refl)). cbn [String.append].
    apply (adds_tokens _ _ _ G).
    assert (Q : lxs any (unit_text 4 license l) (flat_map ptoks l)) by (apply unit_lexed; [intros x ->; exact Zl|exact Sp]).
    specialize (Q "" ltac:(exact Logic.I || (left; reflexivity) || reflexivity)). rewrite append_nil_s in Q. exact Q.
Qed.
