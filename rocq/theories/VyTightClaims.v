(** The text of a Vyper mutant and the parentheses it needs. *)
From Coq Require Import String Ascii List NArith ZArith Bool Lia.
From Verif Require Import Base Json JsonFacts Rng MutationType Traverse OpCommon VyMutators Comments Language Generator SpecTree SpecMutation SpecLiteral SpecOps SpecTotal SpecAccept SpecGenerator
  CommentFacts Printer VyPrinter SpecPrinter SpecVyText SpecVyRead SpecVyEdit SpecVyIdle SpecVyTight VyTextClaims VyReadClaims GenWitness Samples Witness KeepClaims VyEditFacts VyEditClaims VyEditDemo VyIdle VyNoteClaims VyIdleClaims VyTight.
Import ListNotations.
Open Scope string_scope.
Open Scope list_scope.

Lemma tight_mutants_read : forall e W P fuel ast r l h, rearranges (w_order W) ->
  cprogram_node l ast -> Forall no_interface l -> lean ast = true -> uncommented ast -> wf ast -> 2 <= length l ->
  (forall p n t, subtree p ast = Some n -> In t (rp_types P) -> vy_accepts e t n -> vy_crash_free t n) ->
  Forall (easy_def h) l -> (N.of_nat h <= 36)%N -> forallb spelled_def l = true ->
  forall ast' mr t, In (ast', mr) (mutants (fst (generate (vyper_files e) W P fuel ast r))) -> small_ints ast' ->
  mr_type mr = Some t -> tight t l ->
  exists l', one_edit t l l' /\ cprogram_node l' ast' /\
    forall oc fl text, (t = Generic Assignment \/ t = Generic DeleteStatement -> forallb spelled_def l' = true) -> narrow 150 (program_text 4 l') ->
      vy_print oc fl ast' = Ok text -> reads text l'.
Proof.
  intros e W P fuel ast r l h Ho C Ni L U Wf Len Cf Ez Hh Sp ast' mr t H Si Ht T.
  destruct (mutants_edit e W P fuel ast r l Ho C Ni L U Wf Len Cf ast' mr H Si) as (t' & l' & Ht' & _ & Ed & C').
  rewrite Ht in Ht'. injection Ht' as <-. exists l'. split; [exact Ed|]. split; [exact C'|]. intros oc fl text Sp' Nw Pr.
  exact (printed_notes oc fl l' ast' h text C' (one_edit_easy t l l' h Ed T Ez Sp') Hh Nw (one_edit_spelled t l l' h Ed T Ez Sp Sp') Pr).
Qed.

(** ** Runs that leave out parentheses *)

(** A function that returns an expression. *)
Definition returning (e : vexp) : list vdef :=
  [VdVar (VName "a") true false false (One (VName "int128")) None; VdFun [] "f" [] None [VsReturn (Some (One e))]].
Definition returning_node (n : json) : json :=
  let nm := v_name 1 in
  v_module
    [ v_node "VariableDecl" 1 [("target", nm "a"); ("is_public", JBool true); ("is_constant", JBool false); ("is_immutable", JBool false);
                               ("annotation", nm "int128"); ("value", JNull)];
      v_node "FunctionDef" 1
        [ ("decorator_list", JArr []); ("name", JStr "f"); ("args", v_node "arguments" 1 [("args", JArr []); ("defaults", JArr [])]);
          ("returns", JNull); ("doc_string", JNull); ("body", JArr [v_return 1 n]) ] ].
Lemma returning_program : forall e n, vnode e n -> program_node (returning e) (returning_node n).
Proof.
  intros e n V. split; [reflexivity|]. split; [left; reflexivity|]. eexists. split; [reflexivity|].
  constructor; [|constructor; [|constructor]].
  - node.
  - split; [split; [reflexivity|split; [|split; [reflexivity|split; [|split; [|right; reflexivity]]]]]|].
    + eexists. split; [reflexivity|]. constructor.
    + eexists. split; [reflexivity|]. split; [reflexivity|]. split; [|split].
      * eexists. split; [reflexivity|]. apply Forall2_nil.
      * eexists. split; [reflexivity|]. apply Forall2_nil.
      * exists [], []. repeat constructor.
    + right. reflexivity.
    + eexists. split; [reflexivity|]. constructor; [|constructor]. split; [reflexivity|]. eexists. split; [reflexivity|exact V].
Qed.

Definition bin_node (ty : string) (a b : json) : json := v_node "BinOp" 1 [("op", v_op 2 ty); ("left", a); ("right", b)].
Definition un_node (ty : string) (a : json) : json := v_node "UnaryOp" 1 [("op", v_op 2 ty); ("operand", a)].
Definition call_node (f : json) (l : list json) : json := v_node "Call" 1 [("func", f); ("args", JArr l); ("keywords", JArr [])].


(** The tree of such a program with a comment before it. *)
Definition noted_node (c n : json) : json :=
  match returning_node n with
  | JObj o => JObj (map (fun kv => match kv with (k, JArr l) => (k, JArr (c :: l)) | _ => kv end) o)
  | j => j
  end.
Lemma noted_program : forall e n c, vnode e n -> a_comment c -> cprogram_node (returning e) (noted_node c n).
Proof.
  intros e n c V A. destruct (program_cprogram _ _ (returning_program e n V)) as (_ & _ & ns & F & W).
  split; [reflexivity|]. split; [left; reflexivity|]. exists (c :: ns). split.
  - unfold fld in *. cbn in F |- *. injection F as <-. reflexivity.
  - destruct W as (cs & x & more & -> & Fc & R & G). exists (c :: cs), x, more. split; [reflexivity|]. split; [now constructor|]. split; [exact R|exact G].
Qed.

Definition one_run (t : mutation_type) : run_params := run_on "src/x.vy" "out" 1 [t].
Definition first_mutant (n : json) (t : mutation_type) (r : rng) : json * mutator_result :=
  nth 0 (mutants (fst (generate (vyper_files ex_env) ex_world (one_run t) 20 (returning_node n) r))) (JNull, empty_result).
Definition returning_text (note e : string) : string := String.concat newline
  [ String.append "# " note; ""; "a: public(int128)"; ""; "def f():"; String.append "    return " e; ""; "" ].

(** A run on [return e] with a mutant that stands for [return e'] and that is
    read as [return e2]. *)
Definition misread (t : mutation_type) (e e' e2 : vexp) : Prop :=
  exists W P fuel ast r ast' mr text,
    rearranges (w_order W) /\ cprogram_node (returning e) ast /\ lean ast = true /\ uncommented ast /\ wf ast /\
    Forall (easy_def 1) (returning e) /\ forallb spelled_def (returning e) = true /\
    In (ast', mr) (mutants (fst (generate (vyper_files ex_env) W P fuel ast r))) /\ mr_type mr = Some t /\ small_ints ast' /\
    one_edit t (returning e) (returning e') /\ cprogram_node (returning e') ast' /\
    narrow 150 (program_text 4 (returning e')) /\ forallb spelled_def (returning e') = true /\
    vy_print true (fun _ => "") ast' = Ok text /\ reads text (returning e2).

Lemma in_return : forall t e e', edited (vy_edit t) (TE e) (TE e') -> one_edit t (returning e) (returning e').
Proof.
  intros t e e' E. apply (ed_inside _ (TD (VdFun [] "f" [] None [VsReturn (Some (One e))])) (TD (VdFun [] "f" [] None [VsReturn (Some (One e'))]))).
  - exact (st_program [_] _ _ []).
  - apply (ed_inside _ (TS (VsReturn (Some (One e)))) (TS (VsReturn (Some (One e'))))); [exact (st_fun_body _ _ _ _ [] _ _ [])|].
    apply (ed_inside _ (TE e) (TE e')); [|exact E]. constructor. constructor.
Qed.

Lemma misread_by : forall t e e' e2 n n' c r mr k text, vnode e n -> vnode e' n' -> a_comment c ->
  lean (returning_node n) = true -> uncommented (returning_node n) -> wf (returning_node n) ->
  easy 0 e -> spelled e = true -> In (noted_node c n', mr) (mutants (fst (generate (vyper_files ex_env) ex_world (one_run t) 20 (returning_node n) r))) ->
  mr_type mr = Some t -> small_ints (noted_node c n') -> edited (vy_edit t) (TE e) (TE e') -> narrow 150 (program_text 4 (returning e')) -> spelled e' = true ->
  vy_print true (fun _ => "") (noted_node c n') = Ok text -> (forall fuel, read_program (k + fuel) text = Some (returning e2)) -> misread t e e' e2.
Proof.
  intros t e e' e2 n n' c r mr k text V V' A L U Wf Ez Sp I Ty Si Ed Nw Sp' Pr Rd. exists ex_world, (one_run t), 20, (returning_node n), r, (noted_node c n'), mr, text.
  split; [exact ex_world_rearranges|]. split; [apply program_cprogram; exact (returning_program e n V)|]. do 3 (split; [assumption|]).
  split; [repeat constructor; exact Ez|]. split; [cbn; rewrite Sp; reflexivity|]. split; [exact I|]. split; [exact Ty|]. split; [exact Si|]. split; [exact (in_return t e e' Ed)|].
  split; [exact (noted_program e' n' c V' A)|]. split; [exact Nw|]. split; [cbn; rewrite Sp'; reflexivity|]. split; [exact Pr|].
  exists k. intros fuel Hf. replace fuel with (k + (fuel - k)) by lia. apply Rd.
Qed.

Ltac found := match goal with |- In _ ?l => remember l as m eqn:E; vm_compute in E; subst m; left; reflexivity end.

Ltac narrow_by := repeat (constructor; [vm_compute; reflexivity|]); constructor.

Definition misread_runs : list (mutation_type * vexp * vexp * vexp) :=
  let x := VName "x" in let y := VName "y" in
  [ (* "~x + y" becomes "~x ** y", which is "~(x ** y)" *)
    (Generic ArithmeticBinaryOp, VBin "+" (VInvert x) y, VBin "**" (VInvert x) y, VInvert (VBin "**" x y));
    (* "x ** ~y" becomes "~y ** x", which is "~(y ** x)" *)
    (Generic SwapOperatorArguments, VBin "**" x (VInvert y), VBin "**" (VInvert y) x, VInvert (VBin "**" y x));
    (* "0 ** y" becomes "-1 ** y", which is "-(1 ** y)" *)
    (Generic Integer, VBin "**" (VInt 0) y, VBin "**" (VInt (-1)) y, VNeg (VBin "**" (VInt 1) y));
    (* "g(not x) + y" becomes "not x + y", which is "not (x + y)" *)
    (Generic FunctionCall, VBin "+" (VCall (VName "g") [VNot x] []) y, VBin "+" (VNot x) y, VNot (VBin "+" x y)) ].

Ltac nodes := node; try (eexists; split; reflexivity).
Ltac misread_with n r ed :=
  refine (misread_by _ _ _ _ n _ _ (rng_from r) _ 200 _ _ _ _ _ _ _ _ _ _ _ _ _ _ _ _ _); [| | | | | | | |found|reflexivity| | | | | |];
  [ nodes | nodes | reflexivity | vm_compute; reflexivity | apply uncommented_check; vm_compute; reflexivity | apply wf_check; vm_compute; reflexivity
  | cbn; unfold shown, sits; cbn; intuition (discriminate || reflexivity || auto) | reflexivity | apply small_check; vm_compute; reflexivity | ed
  | unfold narrow; match goal with |- Forall _ ?l => let m := eval vm_compute in l in change l with m end; narrow_by
  | reflexivity | vm_compute; reflexivity | intros fuel; vm_compute; reflexivity ].
Lemma misread_all : Forall (fun q => match q with (t, e, e', e2) => misread t e e' e2 end) misread_runs.
Proof.
  constructor; [|constructor; [|constructor; [|constructor; [|constructor]]]].
  - misread_with (bin_node "Add" (un_node "Invert" (v_name 1 "x")) (v_name 1 "y")) 4 ltac:(apply ed_here; constructor; cbn; intuition discriminate).
  - misread_with (bin_node "Pow" (v_name 1 "x") (un_node "Invert" (v_name 1 "y"))) 0 ltac:(apply ed_here; constructor; cbn; intuition discriminate).
  - misread_with (bin_node "Pow" (v_int 1 0) (v_name 1 "y")) 0 ltac:(eapply ed_inside; [apply st_bin_l|apply ed_here; constructor]).
  - misread_with (bin_node "Add" (call_node (v_name 1 "g") [un_node "Not" (v_name 1 "x")]) (v_name 1 "y")) 0
      ltac:(eapply ed_inside; [apply st_bin_l|apply ed_here; constructor; cbn; auto]).
Qed.

(** The runs, each on a program of its own. *)
Lemma misread_found : forall t, In t [Generic ArithmeticBinaryOp; Generic SwapOperatorArguments; Generic Integer; Generic FunctionCall] ->
  exists W P fuel ast r l ast' mr text l' l2,
    rearranges (w_order W) /\ cprogram_node l ast /\ Forall no_interface l /\ lean ast = true /\ uncommented ast /\ wf ast /\ 2 <= length l /\
    Forall (easy_def 1) l /\ forallb spelled_def l = true /\
    In (ast', mr) (mutants (fst (generate (vyper_files ex_env) W P fuel ast r))) /\ mr_type mr = Some t /\ small_ints ast' /\
    one_edit t l l' /\ cprogram_node l' ast' /\ narrow 150 (program_text 4 l') /\ forallb spelled_def l' = true /\
    vy_print true (fun _ => "") ast' = Ok text /\ reads text l2 /\ l2 <> l'.
Proof.
  intros t I. assert (H : exists e e' e2, misread t e e' e2 /\ e2 <> e').
  { pose proof misread_all as M. unfold misread_runs in M. rewrite Forall_forall in M. cbn in I.
    destruct I as [<-|[<-|[<-|[<-|[]]]]]; do 3 eexists; (split; [|shelve]).
    - exact (M _ (or_introl eq_refl)).
    - exact (M _ (or_intror (or_introl eq_refl))).
    - exact (M _ (or_intror (or_intror (or_introl eq_refl)))).
    - exact (M _ (or_intror (or_intror (or_intror (or_introl eq_refl))))).
    Unshelve. all: discriminate. }
  destruct H as (e & e' & e2 & (W & P & fuel & ast & r & ast' & mr & text & A & B & C & D & E & F & G & H & J & K & L & M & N & O & Q & R) & Ne).
  exists W, P, fuel, ast, r, (returning e), ast', mr, text, (returning e'), (returning e2).
  split; [exact A|]. split; [exact B|]. split; [repeat constructor|]. split; [exact C|]. split; [exact D|]. split; [exact E|]. split; [cbn; auto|].
  split; [exact F|]. split; [exact G|]. split; [exact H|]. split; [exact J|]. split; [exact K|]. split; [exact L|]. split; [exact M|]. split; [exact N|]. split; [exact O|].
  split; [exact Q|]. split; [exact R|]. intros Q2. injection Q2 as Q2. exact (Ne Q2).
Qed.

(** ** The program of C91's example *)

Ltac not_loose := let H := fresh in intros H; inversion H; subst; try discriminate;
  repeat match goal with
  | B : asks _ _ _ _ \/ asks _ _ _ _ |- _ => destruct B as [B|B]
  | B : asks _ _ _ _ |- _ => inversion B; clear B; subst; try discriminate
  | I : In _ _ |- _ => progress cbn in I
  | I : _ \/ _ |- _ => destruct I as [I|I]; [subst|]
  | I : False |- _ => destruct I
  | N : ~ fits _ _ _ |- _ => apply N; unfold fits; cbn; auto; fail
  end; try discriminate.
Lemma demo_vy_tight : forall t, In t [Generic ArithmeticBinaryOp; Generic IfStatement; Generic Integer; Generic SwapOperatorArguments; Generic FunctionCall] -> tight t demo_vy.
Proof.
  intros t I x Ix. revert x Ix.
  assert (F : Forall (fun x => ~ loose t x) (reach 20 (TP demo_vy))); [|intros x Ix; rewrite Forall_forall in F; exact (F x (inside_reach x _ Ix 20 ltac:(vm_compute; reflexivity)))].
  match goal with |- Forall _ ?l => let m := eval vm_compute in l in change l with m end.
  cbn in I. repeat (destruct I as [I|I]; [subst t; repeat (constructor; [solve [not_loose]|]); try apply Forall_nil|]). destruct I.
Qed.
