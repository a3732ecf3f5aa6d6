(** The text of a Solidity mutant and the parentheses it needs. *)
From Coq Require Import String Ascii List NArith ZArith Bool Lia.
From Verif Require Import Base Json JsonFacts Rng MutationType Traverse OpCommon SolMutators Language Generator Printer SolPrinter
  SpecTree SpecMutation SpecOps SpecPrinter SpecTotal SpecAccept SpecGenerator SpecComments SpecLiteral SpecVyText SpecSolText SpecSolRead SpecSolEdit SpecSolNote SpecSolIdle SpecSolTight
  SolMutantClaims SolEditDemo SolNoteDemo SolMutantDemo SolIdleClaims SolTightLevel SolTight CommentFacts KeepClaims GenWitness Samples SolTextClaims Witness.
Import ListNotations.
Open Scope string_scope.
Open Scope list_scope.

Lemma tight_sol_mutants_read : forall e W P fuel license ast r l h, rearranges (w_order W) ->
  unit_node license l ast -> forallb top_spelled l = true -> lean ast = true -> uncommented ast ->
  (forall p n t, subtree p ast = Some n -> In t (rp_types P) -> sol_accepts t n -> sol_crash_free t n) ->
  oeasy one_line license -> Forall (easy_top_level h) l -> (N.of_nat h + 2 <= 36)%N ->
  (In (Generic DeleteStatement) (rp_types P) -> forall p v, subtree p ast = Some v -> is_sol "ExpressionStatement" v -> short_statement (h + 2) v) ->
  forall ast' mr t i, In (ast', mr) (mutants (fst (generate (solidity_files e) W P fuel ast r))) ->
  mr_type mr = Some t -> tight t l -> mr_node mr = Some i -> ~ mutated_branch i ast ->
  (forall p b, subtree p ast = Some b -> is_sol "Block" b -> sol_id b = Some i -> ~ has_field b "statements" (JArr [])) ->
  exists l1 l', one_edit t l l1 /\ same_but_braces l1 l' /\ unit_node license l' (without_comments ast') /\
  forall oc text, (t = Generic Assignment \/ t = Generic Integer -> forallb top_spelled l1 = true) -> narrow 150 (unit_text 4 license l') ->
    sol_print oc ast' = Ok text -> reads text l'.
Proof.
  intros e W P fuel license ast r l h Ho C Sp L U Cf Li Ez Hh Sh ast' mr t i H Ht T Hi Nb Em.
  destruct (solidity_mutants_read e W P fuel license ast r l (h + 2) Ho C Sp L U Cf Sh ast' mr i H Hi Nb Em) as (t1 & l1 & l' & Ht1 & _ & Ed & Sb & U' & R).
  rewrite Ht in Ht1. injection Ht1 as <-. exists l1, l'. split; [exact Ed|]. split; [exact Sb|]. split; [exact U'|]. intros oc text M Na Pr.
  pose proof (one_edit_easy t l l1 h Ed T Ez) as E1. pose proof (one_edit_spelled t l l1 h Ed T Ez Sp M) as S1.
  assert (E2 : Forall (easy_top_level (h + 2)) l') by (replace (h + 2) with (S (S h)) by lia; exact (braces_easy l1 l' _ Sb S1 E1)).
  exact (R Li E2 ltac:(lia) Na (braces_spelled l1 l' _ Sb S1 E1) oc text Pr).
Qed.

(** ** Runs that leave out parentheses *)

(** "return e". *)
Definition sum_node (e : sexp) : json := fst (numbered (ju None (sum_sol e)) 1%N).
Definition one_run (t : mutation_type) : run_params := run_on "src/x.sol" "out" 1 [t].

Lemma in_sum : forall t e e', edited (sol_edit t) (TE e) (TE e') -> one_edit t (sum_sol e) (sum_sol e').
Proof.
  intros t e e' D. unfold one_edit, sum_sol.
  apply (ed_inside _ _ _ _ _ (st_unit [] _ _ [])).
  apply (ed_inside _ _ _ _ _ (st_contract _ _ _ _ [] _ _ [])).
  set (f := SFun "function" "f" [] "public" false "" None [] [] (Some (block [CReturn (Some e)]))).
  apply (ed_inside _ _ _ _ _ (st_fun_body f (block [CReturn (Some e)]) (block [CReturn (Some e')]) eq_refl)).
  apply (ed_inside _ _ _ _ _ (st_block false [] _ _ [])).
  exact (ed_inside _ _ _ _ _ (st_return _ _) D).
Qed.

(** A run on [return e] with a mutant that stands for [return e'] and that is
    read as [return e2]. *)
Definition sol_misread (t : mutation_type) (e e' e2 : sexp) : Prop :=
  exists W P fuel ast r ast' mr i text,
    rearranges (w_order W) /\ unit_node None (sum_sol e) ast /\ forallb top_spelled (sum_sol e) = true /\ lean ast = true /\ uncommented ast /\
    Forall (easy_top_level 2) (sum_sol e) /\
    In (ast', mr) (mutants (fst (generate (solidity_files ex_env) W P fuel ast r))) /\ mr_type mr = Some t /\ mr_node mr = Some i /\ ~ mutated_branch i ast /\
    one_edit t (sum_sol e) (sum_sol e') /\ unit_node None (sum_sol e') (without_comments ast') /\
    narrow 150 (unit_text 4 None (sum_sol e')) /\ sol_print true ast' = Ok text /\ reads text (sum_sol e2).

Lemma sol_misread_by : forall t e e' e2 r ast' mr i text, unit_node None (sum_sol e) (sum_node e) -> forallb top_spelled (sum_sol e) = true -> lean (sum_node e) = true ->
  forallb (fun x => negb (is_comment x)) (subtrees (sum_node e)) = true -> Forall (easy_top_level 2) (sum_sol e) ->
  In (ast', mr) (mutants (fst (generate (solidity_files ex_env) ex_world (one_run t) 20 (sum_node e) r))) -> mr_type mr = Some t -> mr_node mr = Some i ->
  forallb no_branch_block (subtrees (sum_node e)) = true -> edited (sol_edit t) (TE e) (TE e') -> unit_node None (sum_sol e') (without_comments ast') ->
  narrow 150 (unit_text 4 None (sum_sol e')) -> sol_print true ast' = Ok text -> (forall fuel, read_unit (300 + fuel) text = Some (sum_sol e2)) -> sol_misread t e e' e2.
Proof.
  intros t e e' e2 r ast' mr i text U Sp L C E I Ty Nd B D U' Nw Pr Rd. exists ex_world, (one_run t), 20, (sum_node e), r, ast', mr, i, text.
  split; [exact ex_world_rearranges|]. split; [exact U|]. split; [exact Sp|]. split; [exact L|]. split; [exact (sol_uncommented_check _ C)|]. split; [exact E|]. split; [exact I|]. split; [exact Ty|].
  split; [exact Nd|]. split; [exact (no_branch_check _ B i)|]. split; [exact (in_sum t e e' D)|]. split; [exact U'|]. split; [exact Nw|]. split; [exact Pr|].
  exists 300. intros fuel Hf. replace fuel with (300 + (fuel - 300)) by lia. apply Rd.
Qed.

Definition sol_misread_runs : list (mutation_type * sexp * sexp * sexp) :=
  let x := XId "x" in let y := XId "y" in let z := XId "z" in
  [ (Generic ArithmeticBinaryOp, XBin "-" x (XBin "*" y z), XBin "-" x (XBin "+" y z), XBin "+" (XBin "-" x y) z);
    (Generic BitwiseBinaryOp, XBin "|" x (XBin "&" y z), XBin "|" x (XBin "|" y z), XBin "|" (XBin "|" x y) z);
    (Generic ComparisonBinaryOp, XBin "==" x (XBin "<" y z), XBin "==" x (XBin "==" y z), XBin "==" (XBin "==" x y) z);
    (Generic LogicalBinaryOp, XBin "||" x (XBin "&&" y z), XBin "||" x (XBin "||" y z), XBin "||" (XBin "||" x y) z);
    (Generic SwapOperatorArguments, XBin "-" (XBin "-" x y) z, XBin "-" z (XBin "-" x y), XBin "-" (XBin "-" z x) y);
    (Generic FunctionCall, XBin "*" (XCall (XId "g") [XBin "+" x y]) z, XBin "*" (XBin "+" x y) z, XBin "+" x (XBin "*" y z));
    (Generic UnaryOp, XPre "-" (XPre "++" x), XPre "-" (XPre "--" x), XPre "--" (XPre "-" x)) ].

Ltac found := match goal with |- In _ ?l => remember l as m eqn:E; vm_compute in E; subst m; left; reflexivity end.
Ltac shown_nodes := match goal with |- unit_node _ _ ?n => let m := eval vm_compute in n in change n with m end; unfold sum_sol; nodes.
Ltac sol_misread_with r ed :=
  refine (sol_misread_by _ _ _ _ (rng_from r) _ _ _ _ _ _ _ _ _ _ _ _ _ _ _ _ _ _); [| | | | |found|reflexivity|reflexivity| | | | | |];
  [ shown_nodes | vm_compute; reflexivity | vm_compute; reflexivity | vm_compute; reflexivity | constructor; [|constructor]; ez | vm_compute; reflexivity | ed
  | shown_nodes | vm_compute; repeat constructor | vm_compute; reflexivity | intros fuel; vm_compute; reflexivity ].
Ltac here := apply ed_here; constructor; cbn; intuition discriminate.
Lemma sol_misread_all : Forall (fun q => match q with (t, e, e', e2) => sol_misread t e e' e2 end) sol_misread_runs.
Proof.
  unfold sol_misread_runs. repeat apply Forall_cons; [..|apply Forall_nil].
  - sol_misread_with 4 ltac:(eapply ed_inside; [apply st_bin_r|here]).
  - sol_misread_with 2 ltac:(eapply ed_inside; [apply st_bin_r|here]).
  - sol_misread_with 4 ltac:(eapply ed_inside; [apply st_bin_r|here]).
  - sol_misread_with 0 ltac:(eapply ed_inside; [apply st_bin_r|here]).
  - sol_misread_with 1 ltac:(here).
  - sol_misread_with 0 ltac:(eapply ed_inside; [apply st_bin_l|apply ed_here; constructor; cbn; auto]).
  - sol_misread_with 0 ltac:(eapply ed_inside; [apply st_pre|here]).
Qed.

(** The runs, each on a program of its own. *)
Lemma sol_misread_found : forall t, In t [Generic ArithmeticBinaryOp; Generic BitwiseBinaryOp; Generic ComparisonBinaryOp; Generic LogicalBinaryOp;
                                          Generic SwapOperatorArguments; Generic FunctionCall; Generic UnaryOp] ->
  exists W P fuel ast r l ast' mr i text l' l2,
    rearranges (w_order W) /\ unit_node None l ast /\ forallb top_spelled l = true /\ lean ast = true /\ uncommented ast /\ Forall (easy_top_level 2) l /\
    In (ast', mr) (mutants (fst (generate (solidity_files ex_env) W P fuel ast r))) /\ mr_type mr = Some t /\ mr_node mr = Some i /\ ~ mutated_branch i ast /\
    one_edit t l l' /\ unit_node None l' (without_comments ast') /\ narrow 150 (unit_text 4 None l') /\
    sol_print true ast' = Ok text /\ reads text l2 /\ l2 <> l'.
Proof.
  intros t I. assert (H : exists e e' e2, sol_misread t e e' e2 /\ e2 <> e').
  { pose proof sol_misread_all as M. unfold sol_misread_runs in M. cbn in I.
    repeat (destruct I as [I|I]; [subst t; inversion M; subst; do 3 eexists; split; [eassumption|discriminate]|apply Forall_inv_tail in M]). destruct I. }
  destruct H as (e & e' & e2 & (W & P & fuel & ast & r & ast' & mr & i & text & A & B & C & D & E & F & G & H & J & K & L & M & N & O & Q) & Ne).
  exists W, P, fuel, ast, r, (sum_sol e), ast', mr, i, text, (sum_sol e'), (sum_sol e2).
  do 15 (split; [assumption|]). intros Q2. injection Q2 as Q2. exact (Ne Q2).
Qed.

(** ** The program of C93's example *)

Ltac not_loose := let H := fresh in intros H; inversion H; subst; clear H; try discriminate;
  repeat match goal with
  | B : begins _ _ |- _ => inversion B; clear B; subst
  | B : asks _ _ (TE (_ ?op _ _)) |- _ => is_var op; fail 1
  | B : asks _ _ (TE (_ ?op _)) |- _ => is_var op; fail 1
  | B : asks _ _ _ |- _ => inversion B; clear B; subst
  | B : sol_edit _ _ _ |- _ => inversion B; clear B; subst
  | B : _ = false |- _ => unfold binds in B; cbn in B; discriminate B
  | I : In _ (operators _) |- _ => progress cbn in I
  | I : In _ (_ :: _) |- _ => progress cbn in I
  | I : _ = _ \/ _ |- _ => destruct I as [I|I]; [try discriminate I; try subst|]
  | I : False |- _ => destruct I
  end; try discriminate.
Lemma small_tight : forall t, In t [Generic ArithmeticBinaryOp; Generic IfStatement; Generic FunctionCall; Generic DeleteStatement; Generic Integer;
                                    Generic SwapOperatorArguments; Generic UnaryOp; Solidity UncheckedBlock] -> tight t small_sol.
Proof.
  intros t I x Ix. revert x Ix.
  assert (F : Forall (fun x => ~ loose t x) (reach 20 (TU small_sol))); [|intros x Ix; rewrite Forall_forall in F; exact (F x (inside_reach x _ Ix 20 ltac:(vm_compute; reflexivity)))].
  match goal with |- Forall _ ?l => let m := eval vm_compute in l in change l with m end.
  cbn in I. repeat (destruct I as [I|I]; [subst t; repeat (constructor; [solve [not_loose]|]); try apply Forall_nil|]).
  destruct I.
Qed.
Lemma small_easy_3 : Forall (easy_top_level 3) small_sol.
Proof. constructor; [|constructor]. unfold small_sol. ez. Qed.
