(** Solidity mutants are not the original program. *)
From Coq Require Import String Ascii List NArith ZArith Bool Lia.
From Verif Require Import Base Json JsonFacts Rng MutationType Traverse OpCommon SolMutators Language Generator Printer SolPrinter
  SpecTree SpecMutation SpecOps SpecPrinter SpecTotal SpecAccept SpecGenerator SpecComments SpecLiteral SpecVyText SpecSolText SpecSolRead SpecSolEdit SpecSolNote SpecSolIdle
  SolMutantClaims SolEditDemo SolMutantDemo SolIdle CommentFacts KeepClaims GenWitness Samples SolTextClaims.
Import ListNotations.
Open Scope string_scope.
Open Scope list_scope.

Lemma sol_reads_one : forall text l l', reads text l -> reads text l' -> l' = l.
Proof. intros text l l' (k & H) (k' & H'). specialize (H (k + k') ltac:(lia)). specialize (H' (k + k') ltac:(lia)). congruence. Qed.

Lemma solidity_mutants_differ : forall e W P fuel license ast r l h, rearranges (w_order W) ->
  unit_node license l ast -> forallb top_spelled l = true -> lean ast = true -> uncommented ast ->
  (forall p n t, subtree p ast = Some n -> In t (rp_types P) -> sol_accepts t n -> sol_crash_free t n) ->
  (In (Generic DeleteStatement) (rp_types P) -> forall p v, subtree p ast = Some v -> is_sol "ExpressionStatement" v -> short_statement h v) ->
  forall ast' mr i t, In (ast', mr) (mutants (fst (generate (solidity_files e) W P fuel ast r))) ->
  mr_node mr = Some i -> ~ mutated_branch i ast ->
  (forall p b, subtree p ast = Some b -> is_sol "Block" b -> sol_id b = Some i -> ~ has_field b "statements" (JArr [])) ->
  mr_type mr = Some t -> lively t l ->
  exists l', l' <> l /\ unit_node license l' (without_comments ast') /\
  (oeasy one_line license -> Forall (easy_top_level h) l' -> (N.of_nat h <= 36)%N -> narrow 150 (unit_text 4 license l') -> forallb top_spelled l' = true ->
   forall oc text, sol_print oc ast' = Ok text -> reads text l' /\ ~ reads text l).
Proof.
  intros e W P fuel license ast r l h Ho C Sp L U Cf Sh ast' mr i t H Hi Nb Em Ht Lv.
  destruct (solidity_mutants_read e W P fuel license ast r l h Ho C Sp L U Cf Sh ast' mr i H Hi Nb Em) as (t' & l1 & l' & Ht' & _ & Ed & Sb & U' & Rd).
  rewrite Ht in Ht'. injection Ht' as <-. pose proof (edit_and_braces t l l1 l' Ed Sb Lv) as Ne. exists l'. split; [exact Ne|]. split; [exact U'|].
  intros Li Ez Hh Na Sp' oc text Pr. pose proof (Rd Li Ez Hh Na Sp' oc text Pr) as R. split; [exact R|]. intros R'. exact (Ne (sol_reads_one _ _ _ R' R)).
Qed.

(** ** Checking that a program is lively *)

Definition option_exp (o : option sexp) : list thing := match o with Some e => [TE e] | None => [] end.
Definition option_stmt (o : option sstmt) : list thing := match o with Some s => [TS s] | None => [] end.
Definition invocation (m : sexp * option (list sexp)) : list thing := match snd m with Some l => map TE l | None => [] end.
Definition direct (t : thing) : list thing :=
  match t with
  | TE e =>
      match e with
      | XBin _ a b | XAssign _ a b => [TE a; TE b]
      | XPre _ a | XPost _ a | XMember a _ | XNew a => [TE a]
      | XCond c a b => [TE c; TE a; TE b]
      | XCall f l => TE f :: map TE l
      | XNamed f l | XOpts f l => TE f :: map (fun p => TE (snd p)) l
      | XIndex a i => TE a :: option_exp i
      | XSlice a i j => TE a :: option_exp i ++ option_exp j
      | XTuple l => flat_map option_exp l
      | XArray l => map TE l
      | TMap k _ v _ => [TE k; TE v]
      | TArr t len => TE t :: option_exp len
      | _ => []
      end
  | TV v => TE (sv_type v) :: option_exp (sv_value v)
  | TS s =>
      match s with
      | CExp e | CEmit e | CRevert e => [TE e]
      | CVar l e => flat_map (fun o => match o with Some v => [TV v] | None => [] end) l ++ option_exp e
      | CBlock _ l => map TS l
      | CIf e a b => TE e :: TS a :: option_stmt b
      | CWhile e s | CDo s e => [TE e; TS s]
      | CFor i e l s => option_stmt i ++ option_exp e ++ option_exp l ++ [TS s]
      | CReturn e => option_exp e
      | _ => []
      end
  | TM m =>
      match m with
      | MVar v => [TV v]
      | MFun f => map TV (sf_params f) ++ flat_map invocation (sf_modifiers f) ++ map TV (sf_returns f) ++ option_stmt (sf_body f)
      | MModifier _ ps _ _ b => map TV ps ++ option_stmt b
      | MEvent _ ps _ | MError _ ps | MStruct _ ps => map TV ps
      | MUsing _ t _ | MUsingFuns _ t _ => option_exp t
      | _ => []
      end
  | TP p => match p with PContract _ _ _ bases l => flat_map invocation bases ++ map TM l | PMember m => [TM m] | _ => [] end
  | TU l => map TP l
  end.

Lemma mid_in : forall A B (f : A -> B) u x v, In (f x) (map f (u ++ x :: v)).
Proof. intros A B f u x v. apply in_map, in_or_app. right. now left. Qed.
Lemma mid_flat : forall A B (f : A -> list B) u x v y, In y (f x) -> In y (flat_map f (u ++ x :: v)).
Proof. intros A B f u x v y I. apply in_flat_map. exists x. split; [apply in_or_app; right; now left|exact I]. Qed.
Lemma direct_in : forall c c' t t', step c c' t t' -> In c (direct t).
Proof.
  intros c c' t t' S. destruct S; cbn [direct option_exp option_stmt]; try (cbn; tauto); try (apply in_cons); try (apply (mid_in _ _ (fun p => TE (snd p)) u (k, e)));
    try apply (mid_in sexp thing TE); try apply (mid_in sstmt thing TS); try apply (mid_in svar thing TV); try apply (mid_in stop thing TP);
    try (apply (mid_flat _ _ option_exp); now left); rewrite ?H, ?H0; cbn [option_exp option_stmt]; try (cbn; tauto);
    rewrite ?in_app_iff; try (cbn; tauto).
  - left. apply (mid_flat _ _ (fun o => match o with Some v => [TV v] | None => [] end)). now left.
  - left. apply (mid_in svar thing TV).
  - right. left. apply (mid_flat _ _ invocation). apply (mid_in sexp thing TE).
  - right. right. left. apply (mid_in svar thing TV).
  - left. apply (mid_in svar thing TV).
  - left. apply (mid_flat _ _ invocation). apply (mid_in sexp thing TE).
  - right. apply (mid_in smember thing TM).
Qed.

Fixpoint reach (k : nat) (t : thing) : list thing :=
  t :: match k with O => [] | Datatypes.S k => flat_map (reach k) (direct t) end.
Fixpoint reached (k : nat) (t : thing) : bool :=
  match k with O => false | Datatypes.S k => forallb (reached k) (direct t) end.
Lemma inside_reach : forall x t, inside x t -> forall k, reached k t = true -> In x (reach k t).
Proof.
  intros x t I. induction I as [|c t S I IH]; intros k R; destruct k as [|k]; try discriminate R; [now left|].
  right. cbn [reached] in R. rewrite forallb_forall in R. pose proof (direct_in _ _ _ _ S) as D. apply in_flat_map. exists c. split; [exact D|exact (IH k (R c D))].
Qed.
Lemma lively_check : forall k t l, reached k (TU l) = true -> Forall (fun x => ~ idle t x) (reach k (TU l)) -> lively t l.
Proof. intros k t l R F x I. rewrite Forall_forall in F. exact (F x (inside_reach x _ I k R)). Qed.
