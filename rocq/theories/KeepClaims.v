(** Mutants keep what the printers rely on, and what they add. *)
From Coq Require Import String Ascii List NArith ZArith Arith Bool Lia Permutation.
From Verif Require Import Base Json JsonFacts Rng Permissions MutationType Traverse OpCommon SolMutators VyMutators
  Printer SolPrinter VyPrinter Comments Language Paths Generator
  SpecTree SpecOps SpecOrder SpecGenerator SpecPrinter SpecPlain
  GenMore GenWitness Witness CommentFacts OpOrder Samples PaceFacts PaceSol PaceVy PlainFacts PlainClaims KeepFacts KeepSol KeepVy.
Import ListNotations.
Open Scope list_scope.
Open Scope string_scope.

Lemma sol_mutant_keeps e W P fuel ast r (R : string -> string -> Prop) ast' mr :
  rearranges (w_order W) -> everywhere (sroot R) ast -> everywhere sol_filled ast ->
  In (ast', mr) (mutants (fst (generate (solidity_files e) W P fuel ast r))) ->
  exists text, everywhere (sroot (fun t next => R t next \/ (t = text /\ next = "// "))) ast'.
Proof.
  intros Ho Ha Hf H.
  destruct (one_mutation_set (solidity_files e) W P fuel ast r (ex_intro _ e (or_introl eq_refl)) Ho ast' mr H)
    as (t & m & p & n & r0 & d & ast1 & _ & _ & Hm & Hp & Hu & Hd & E & _ & Hc).
  cbn [solidity_files gl_lang solidity l_mutator_for l_id l_member l_insert] in Hm, Hc.
  pose proof (Hf p n Hp) as Hn.
  assert (H1 : everywhere (sroot R) ast1).
  { rewrite E. eapply skeep_place; [ exact Ha | exact Hp | eapply sol_mutable_object; eassumption
                                   | exact (sol_mutated_object e t m fuel n r0 d Hm Hu Hn Hd) |].
    eapply (sol_keep R e t m fuel n r0 d Hm); [| exact Hd ]. eapply ev_part; [ exact Ha | exists p; exact Hp ]. }
  destruct Hc as [-> | (comment & path & Hc & ->)].
  - exists "". eapply sroot_wider; [| exact H1 ]. intros t0 next X. left. exact X.
  - destruct (sol_note e t m fuel n r0 d comment Hm Hd Hc) as [text ->]. exists text.
    apply sol_insert_keep.
    + eapply sroot_wider; [| exact H1 ]. intros t0 next X. left. exact X.
    + apply skeep_comment. right. split; reflexivity.
Qed.

Lemma vy_mutant_keeps e W P fuel ast r (R : string -> string -> Prop) ast' mr :
  rearranges (w_order W) -> everywhere (vroot R) ast -> everywhere vy_filled ast ->
  In (ast', mr) (mutants (fst (generate (vyper_files e) W P fuel ast r))) ->
  exists text, everywhere (vroot (fun t next => R t next \/ (t = text /\ next = "# "))) ast'.
Proof.
  intros Ho Ha Hf H.
  destruct (one_mutation_set (vyper_files e) W P fuel ast r (ex_intro _ e (or_intror eq_refl)) Ho ast' mr H)
    as (t & m & p & n & r0 & d & ast1 & _ & _ & Hm & Hp & Hu & Hd & E & _ & Hc).
  cbn [vyper_files gl_lang vyper l_mutator_for l_id l_member l_insert] in Hm, Hc.
  pose proof (Hf p n Hp) as Hn. destruct (vy_mutable_object e t m n Hm Hu) as [Hob Hds].
  assert (H1 : everywhere (vroot R) ast1).
  { rewrite E. eapply vkeep_place; [ exact Ha | exact Hp | exact Hob
                                   | exact (vy_mutated_object e t m fuel n r0 d Hm Hu Hn Hd) | exact Hds |].
    eapply (vy_keep R e t m fuel n r0 d Hm Hu Hn); [| exact Hd ]. eapply ev_part; [ exact Ha | exists p; exact Hp ]. }
  destruct Hc as [-> | (comment & path & Hc & ->)].
  - exists "". eapply vroot_wider; [| exact H1 ]. intros t0 next X. left. exact X.
  - destruct (vy_note e t m fuel n r0 d comment Hm Hd Hc) as [text ->]. exists text.
    apply vy_insert_keep.
    + eapply vroot_wider; [| exact H1 ]. intros t0 next X. left. exact X.
    + apply vkeep_comment. right. split; reflexivity.
Qed.

Lemma sol_remarks_lemma e W P fuel ast r ast' mr :
  everywhere sol_regular ast -> everywhere sol_filled ast -> rearranges (w_order W) ->
  In (ast', mr) (mutants (fst (generate (solidity_files e) W P fuel ast r))) ->
  everywhere sol_regular ast' /\
  exists text, forall t next, sol_says ast' t next -> sol_says ast t next \/ (t = text /\ next = "// ").
Proof.
  intros Ha Hf Ho H.
  assert (Hr : everywhere (sroot (sol_says ast)) ast).
  { intros q x Hx. split; [ exact (Ha q x Hx) |]. intros t next Hn. exists q, x. split; assumption. }
  destruct (sol_mutant_keeps e W P fuel ast r _ ast' mr Ho Hr Hf H) as (text & G).
  split; [ intros q x Hx; apply (G q x Hx) |]. exists text. intros t next (q & x & Hx & Hn). exact (proj2 (G q x Hx) t next Hn).
Qed.

Lemma vy_remarks_lemma e W P fuel ast r ast' mr :
  everywhere vy_regular ast -> everywhere vy_filled ast -> rearranges (w_order W) ->
  In (ast', mr) (mutants (fst (generate (vyper_files e) W P fuel ast r))) ->
  everywhere vy_regular ast' /\
  exists text, forall t next, vy_says ast' t next -> vy_says ast t next \/ (t = text /\ next = "# ").
Proof.
  intros Ha Hf Ho H.
  assert (Hr : everywhere (vroot (vy_says ast)) ast).
  { intros q x Hx. split; [ exact (Ha q x Hx) |]. split; [| exact (proj2 (proj2 (proj2 (Hf q x Hx)))) ].
    intros t next Hn. exists q, x. split; assumption. }
  destruct (vy_mutant_keeps e W P fuel ast r _ ast' mr Ho Hr Hf H) as (text & G).
  split; [ intros q x Hx; apply (G q x Hx) |]. exists text. intros t next (q & x & Hx & Hn).
  exact (proj1 (proj2 (G q x Hx)) t next Hn).
Qed.

Lemma sol_mutant_prints e W P fuel ast r ast' mr oc k :
  sol_legible k ast -> everywhere sol_filled ast -> rearranges (w_order W) ->
  In (ast', mr) (mutants (fst (generate (solidity_files e) W P fuel ast r))) ->
  (forall t next, sol_says ast' t next -> sol_says ast t next \/ short_words k t) ->
  (4 * climb 0 (sol_emit sol_default ast') + k <= 142)%N -> (4 * climb 0 (sol_emit sol_default ast') < 142)%N ->
  exists s, sol_print oc ast' = Ok s.
Proof.
  intros Ha Hf Ho H Hnew H1 H2. apply (sol_legible_prints oc k); [| exact H1 | exact H2 ].
  assert (Hs : everywhere sol_regular ast) by (intros q x Hx; apply (Ha q x Hx)).
  destruct (sol_remarks_lemma e W P fuel ast r ast' mr Hs Hf Ho H) as (Hr & _).
  intros q x Hx. split; [ exact (Hr q x Hx) |]. intros t next Hn.
  destruct (Hnew t next (ex_intro _ q (ex_intro _ x (conj Hx Hn)))) as [(q0 & x0 & Hx0 & Hn0) | X]; [| exact X ].
  exact (proj2 (Ha q0 x0 Hx0) t next Hn0).
Qed.

Lemma vy_mutant_prints e W P fuel ast r ast' mr oc fl k :
  vy_legible k ast -> everywhere vy_filled ast -> rearranges (w_order W) ->
  In (ast', mr) (mutants (fst (generate (vyper_files e) W P fuel ast r))) ->
  (forall t next, vy_says ast' t next -> vy_says ast t next \/ short_words k t) ->
  everywhere (fun x => forall v, vy_commented_out x v -> forall oc c,
    exists t, print_text oc (vy_emit c v) = Ok t /\ short_words k t) ast' ->
  (4 * climb 0 (vy_emit (vy_default oc fl) ast') + k <= 142)%N -> (4 * climb 0 (vy_emit (vy_default oc fl) ast') < 142)%N ->
  exists s, vy_print oc fl ast' = Ok s.
Proof.
  intros Ha Hf Ho H Hnew Hout H1 H2. apply (vy_legible_prints oc k); [| exact H1 | exact H2 ].
  assert (Hs : everywhere vy_regular ast) by (intros q x Hx; apply (Ha q x Hx)).
  destruct (vy_remarks_lemma e W P fuel ast r ast' mr Hs Hf Ho H) as (Hr & _).
  intros q x Hx. split; [ exact (Hr q x Hx) |]. split; [| exact (Hout q x Hx) ]. intros t next Hn.
  destruct (Hnew t next (ex_intro _ q (ex_intro _ x (conj Hx Hn)))) as [(q0 & x0 & Hx0 & Hn0) | X]; [| exact X ].
  exact (proj1 (proj2 (Ha q0 x0 Hx0)) t next Hn0).
Qed.

(** ** A run that never ends *)

(** contract C { function f() { return <150 characters> - b; } } *)
Definition sol_long_name : json := s_unit 1 [ s_contract 2 "C" [ s_fun 10 "f" (s_block 11
   [ s_return 16 (s_binop 17 "-" (s_ident 18 (long_word 150)) (s_ident 19 "b")) ]) ] ].

Definition swap_params : run_params := {|
  rp_file := "C.sol"; rp_count := 1; rp_outdir := "out"; rp_stdout := false;
  rp_types := [ Generic SwapOperatorArguments ]; rp_verify := false; rp_original := true; rp_save := false;
  rp_functions := [] |}.

Definition sol_filled_b (n : json) : bool :=
  forallb (fun x => match oget x "arguments" with Some (JArr l) => forallb is_object l | _ => true end) (subtrees n).

Lemma sol_filled_check n : sol_filled_b n = true -> everywhere sol_filled n.
Proof.
  unfold sol_filled_b. rewrite forallb_forall. intros H q x Hx. specialize (H x (subtrees_In _ _ _ Hx)).
  intros _ l y Hl Hy. unfold has_field in Hl. rewrite Hl in H. rewrite forallb_forall in H. exact (H y Hy).
Qed.

Definition vy_filled_b (n : json) : bool :=
  forallb (fun x =>
    match oget x "args" with Some (JArr l) => forallb is_object l | _ => true end &&
    (negb (is_ast "UnaryOp" x) || match oget x "operand" with Some v => is_object v | _ => true end) &&
    match oget x "body" with Some (JArr l) => forallb is_object l | _ => true end &&
    match oget x "doc_string" with Some v => negb (is_object v) || is_ast "DocStr" v | _ => true end)%bool (subtrees n).

Lemma vy_filled_check n : vy_filled_b n = true -> everywhere vy_filled n.
Proof.
  unfold vy_filled_b. rewrite forallb_forall. intros H q x Hx. specialize (H x (subtrees_In _ _ _ Hx)).
  apply andb_true_iff in H. destruct H as [H H4]. apply andb_true_iff in H. destruct H as [H H3].
  apply andb_true_iff in H. destruct H as [H1 H2]. unfold vy_filled, has_field. split; [| split; [| split ]].
  - intros _ l y Hl Hy. rewrite Hl in H1. rewrite forallb_forall in H1. exact (H1 y Hy).
  - intros T v Hv. rewrite Hv in H2. apply is_vy_get in T. unfold is_ast in H2. rewrite T in H2. exact H2.
  - intros l y Hl Hy. rewrite Hl in H3. rewrite forallb_forall in H3. exact (H3 y Hy).
  - intros v Hv Ho. rewrite Hv, Ho in H4. apply is_ast_vy in H4. exact H4.
Qed.

Lemma one_alone o (x : mutation_type * mutator) : rearranges o -> o [ x ] = [ x ].
Proof. intro H. apply Permutation_length_1_inv, Permutation_sym, H. Qed.

Definition sol_long_mutant : json := Eval vm_compute in
  insert_comment_by_path sol_id sol_member sol_insert (s_unit 1 [ s_contract 2 "C" [ s_fun 10 "f" (s_block 11
     [ s_return 16 (s_binop 17 "-" (s_ident 19 "b") (s_ident 18 (long_word 150))) ]) ] ])
    (sol_comment ("SwapOperatorArguments Mutator: switched '" ++ String "010" (long_word 150) ++ "' and 'b'")) [1%N; 2%N; 10%N; 11%N; 16%N; 17%N].

Definition swap_path_map : path_map := Eval vm_compute in
  match calculate_node_paths (permissions_for_functions []) sol_id sol_long_name with Ok m => m | _ => [] end.

(** The same environment with the crate's printer in place. *)
Definition printing (e : env) (oc : bool) : env := {|
  e_sha := e_sha e; e_pp := sol_print oc; e_order := e_order e; e_oc := oc;
  e_rand_float := e_rand_float e; e_show_float := e_show_float e; e_float_bytes := e_float_bytes e |}.

Lemma long_swapped e fuel r : prints_sol e -> exists mr,
  mutate_ast (solidity e) (permissions_for_functions []) [ (Generic SwapOperatorArguments, sol_swapop e) ] swap_path_map fuel
    sol_long_name (Generic SwapOperatorArguments) 0 r = Ok (sol_long_mutant, mr, r).
Proof.
  intro He.
  assert (E : forall ps i ast, make_mutation ps sol_id (sol_swapop e) fuel i ast r =
     make_mutation ps sol_id (sol_swapop (printing e (e_oc e))) fuel i ast r).
  { intros ps i ast. apply make_mutation_ext; [ reflexivity |]. intros p n r0 _ _.
    cbn [mu_mutate sol_swapop]. unfold sol_swapop_mutate, hash. rewrite !He || idtac.
    destruct (take_key n "leftExpression") as [[a n0] |]; [| reflexivity ].
    destruct (take_key n0 "rightExpression") as [[b n1] |]; [| reflexivity ]. rewrite !He. reflexivity. }
  unfold mutate_ast. cbn [solidity l_id l_member l_insert mm_get mt_eqb].
  cbn [fst snd]. 
  match goal with |- context [match ?a with Some _ => _ | None => Panic _ end] => change a with (Some (sol_swapop e)) end.
  cbv beta iota. rewrite E. destruct (e_oc e); eexists; vm_compute; reflexivity.
Qed.

Lemma long_run e W fuel r :
  prints_sol e -> writes_sol (e_oc e) W -> rearranges (w_order W) ->
  snd (generate (solidity_files e) W swap_params (S fuel) sol_long_name r) = Diverge.
Proof.
  intros He Hw Ho. unfold generate. cbn [swap_params rp_functions rp_types rp_count solidity_files gl_lang].
  change (select_mutators (solidity e) [ Generic SwapOperatorArguments ] []) with [ (Generic SwapOperatorArguments, sol_swapop e) ].
  rewrite (one_alone _ _ Ho). cbv zeta.
  assert (Hc : count_mutable_nodes (permissions_for_functions []) [ (Generic SwapOperatorArguments, sol_swapop e) ] sol_long_name
               = Ok [ (Generic SwapOperatorArguments, 1) ]) by (vm_compute; reflexivity).
  rewrite Hc. cbn [and_then].
  assert (Hp : calculate_node_paths (permissions_for_functions []) (l_id (solidity e)) sol_long_name = Ok swap_path_map)
    by (vm_compute; reflexivity).
  rewrite Hp. cbn [and_then].
  assert (H0 : print_original (solidity_files e) W swap_params sol_long_name = ([ WroteOriginal "out/C.sol" sol_long_name ], Ok 1)).
  { unfold print_original. cbn [swap_params rp_original rp_stdout rp_file rp_outdir].
    change (printed_name (gl_ext (solidity_files e)) "C.sol" "out") with (Ok "out/C.sol"). rewrite Hw.
    destruct (e_oc e); vm_compute; reflexivity. }
  rewrite H0. cbn [and_then]. change (save_config W swap_params) with (@nil event, Ok tt). cbn [and_then].
  assert (H1 : exists r1, select_kinds (S fuel) [ (Generic SwapOperatorArguments, 1) ] (usable_types [ (Generic SwapOperatorArguments, 1) ]) [] 0 1 r
                = Ok ([ Generic SwapOperatorArguments ], r1)).
  { change (usable_types [ (Generic SwapOperatorArguments, 1) ]) with [ Generic SwapOperatorArguments ].
    cbn [select_kinds choose length]. destruct (draw r) as [d r1]. rewrite N.mod_1_r. exists r1. destruct fuel; reflexivity. }
  destruct H1 as [r1 H1]. rewrite H1. cbn [and_then fst snd make_mutants].
  change attempts_limit with (S 49). generalize 49. intro more. cbn [attempt ct_get mt_eqb].
  destruct (long_swapped e (S fuel) r1 He) as [mr Hs].
  match goal with |- context [match ?a with Some _ => _ | None => _ end] => change a with (Some 1) end.
  change (gl_lang (solidity_files e)) with (solidity e).
  unfold pick_index. cbn [Nat.ltb Nat.leb g_rng]. rewrite Hs.
  cbn [seen_before g_seen in_dec]. unfold validate. cbn [swap_params rp_verify]. unfold emit. cbn [swap_params rp_stdout rp_file rp_outdir g_written].
  change (mutant_name (gl_ext (solidity_files e)) "C.sol" "out" 0) with (Ok "out/C.sol_0.sol"). rewrite Hw.
  assert (Hd : sol_print (e_oc e) sol_long_mutant = Diverge) by (destruct (e_oc e); vm_compute; reflexivity).
  rewrite Hd. reflexivity.
Qed.

Lemma endless_run : exists ast P,
  sol_plain ast /\ everywhere sol_filled ast /\
  (forall oc, exists s, sol_print oc ast = Ok s) /\
  forall e W fuel r, prints_sol e -> writes_sol (e_oc e) W -> rearranges (w_order W) ->
    snd (generate (solidity_files e) W P (S fuel) ast r) = Diverge.
Proof.
  exists sol_long_name, swap_params.
  assert (H : sol_plain sol_long_name) by (apply sol_plain_check; vm_compute; reflexivity).
  split; [ exact H |]. split; [ apply sol_filled_check; vm_compute; reflexivity |].
  split; [ intro oc; apply sol_plain_prints; exact H | exact long_run ].
Qed.

(** ** Examples *)

Definition short_b (k : N) (t : string) : bool := forallb (fun w => (slen w <=? k)%N) (words t).

Definition sol_short_b (k : N) (n : json) : bool :=
  forallb (fun x => match oget x "text" with
                    | Some (JStr t) => short_b k t && forallb (short_b k) (lines t)
                    | _ => true
                    end &&
                    match oget x "documentation" with Some (JStr t) => short_b k t | _ => true end)%bool (subtrees n).

Lemma sol_short_check k n : sol_short_b k n = true -> forall t next, sol_says n t next -> short_words k t.
Proof.
  unfold sol_short_b. rewrite forallb_forall. intros H t next (q & x & Hx & Hr). specialize (H x (subtrees_In _ _ _ Hx)).
  apply andb_true_iff in H. destruct H as [H1 H2]. destruct Hr as [t _ Ht | s t _ Ht Hl | t _ Ht]; unfold has_field in Ht.
  - rewrite Ht in H1. apply andb_true_iff in H1. apply short_words_check. apply H1.
  - rewrite Ht in H1. apply andb_true_iff in H1. destruct H1 as [_ H1]. rewrite forallb_forall in H1.
    apply short_words_check. exact (H1 t Hl).
  - rewrite Ht in H2. apply short_words_check. exact H2.
Qed.

Definition vy_short_b (k : N) (n : json) : bool :=
  forallb (fun x => match oget x "value" with
                    | Some (JStr t) => short_b k t
                    | _ => true
                    end &&
                    negb (is_ast "Comment" x && match oget x "value" with Some v => is_object v | _ => false end))%bool (subtrees n).

Lemma vy_short_check k n : vy_short_b k n = true ->
  (forall t next, vy_says n t next -> short_words k t) /\ everywhere (fun x => forall v, ~ vy_commented_out x v) n.
Proof.
  unfold vy_short_b. rewrite forallb_forall. intro H. split.
  - intros t next (q & x & Hx & Hr). destruct Hr as [t _ Ht | v t _ Hv Ht]; unfold has_field in Ht.
    + specialize (H x (subtrees_In _ _ _ Hx)). rewrite Ht in H. apply andb_true_iff in H. apply short_words_check, H.
    + assert (Q : everywhere (fun y => forall u, oget y "value" = Some (JStr u) -> short_words k u) n).
      { intros q' y Hy u Hu. specialize (H y (subtrees_In _ _ _ Hy)). rewrite Hu in H. apply andb_true_iff in H.
        apply short_words_check, H. }
      exact (ev_root _ _ (ev_field _ _ _ _ (ev_part _ _ _ Q (ex_intro _ q Hx)) Hv) t Ht).
  - intros q x Hx v (T & Hv & Ho). specialize (H x (subtrees_In _ _ _ Hx)). apply andb_true_iff in H. destruct H as [_ H].
    unfold has_field in Hv. rewrite Hv, Ho in H. unfold is_ast in H. apply is_vy_get in T. rewrite T in H. discriminate H.
Qed.

Definition vy_params : run_params := run_on "src/x.vy" "out" 2 [arith].

Lemma keep_example :
  (exists ast' mr, In (ast', mr) (mutants (fst (generate (solidity_files ex_env) ex_world ex_params 20 ex_unit ex_rng))) /\
     sol_legible 40 ex_unit /\ everywhere sol_filled ex_unit /\ rearranges (w_order ex_world) /\
     (exists t, sol_says ast' t "// ") /\
     (forall t next, sol_says ast' t next -> sol_says ex_unit t next \/ short_words 40 t) /\
     (4 * climb 0 (sol_emit sol_default ast') + 40 <= 142)%N /\ (4 * climb 0 (sol_emit sol_default ast') < 142)%N) /\
  (exists ast' mr, In (ast', mr) (mutants (fst (generate (vyper_files ex_env) ex_world vy_params 20 ex_module ex_rng))) /\
     vy_legible 40 ex_module /\ everywhere vy_filled ex_module /\
     (exists t, vy_says ast' t "# ") /\
     (forall t next, vy_says ast' t next -> vy_says ex_module t next \/ short_words 40 t) /\
     everywhere (fun x => forall v, vy_commented_out x v -> forall oc c,
       exists t, print_text oc (vy_emit c v) = Ok t /\ short_words 40 t) ast' /\
     (4 * climb 0 (vy_emit (vy_default true (fun _ => "")) ast') + 40 <= 142)%N /\
     (4 * climb 0 (vy_emit (vy_default true (fun _ => "")) ast') < 142)%N).
Proof.
  destruct plain_example as [P1 P2]. split.
  - destruct (mutants (fst (generate (solidity_files ex_env) ex_world ex_params 20 ex_unit ex_rng))) as [| [a mr] l] eqn:E;
      [ exfalso; vm_compute in E; discriminate E |].
    exists a, mr. split; [ now left |].
    split; [ intros q x Hx; split; [ apply (P1 q x Hx) | intros t next Hr; destruct (proj2 (P1 q x Hx) t next Hr) ] |].
    split; [ apply sol_filled_check; vm_compute; reflexivity |]. split; [ exact ex_world_rearranges |].
    vm_compute in E. injection E as <- _ _.
    split. { eexists. first [ exists [2; 0; 3; 0; 0; 2; 0]; eexists; split; [ vm_compute; reflexivity |]; apply Sol_comment; vm_compute; reflexivity
                        | exists [2; 0; 3; 1; 0; 2; 0]; eexists; split; [ vm_compute; reflexivity |]; apply Sol_comment; vm_compute; reflexivity
                        | exists [2; 0; 3; 0; 0; 2; 1]; eexists; split; [ vm_compute; reflexivity |]; apply Sol_comment; vm_compute; reflexivity ]. }
    split; [ intros t next Hs; right; revert Hs; apply sol_short_check; vm_compute; reflexivity |].
    split; [ vm_compute; discriminate | vm_compute; reflexivity ].
  - destruct (mutants (fst (generate (vyper_files ex_env) ex_world vy_params 20 ex_module ex_rng))) as [| [a mr] l] eqn:E;
      [ exfalso; vm_compute in E; discriminate E |].
    exists a, mr. split; [ now left |].
    split. { intros q x Hx. destruct (P2 q x Hx) as (A & B & C). split; [ exact A |]. split; [ intros t next Hr; destruct (B t next Hr) |].
      intros v Hv. destruct (C v Hv). }
    split; [ apply vy_filled_check; vm_compute; reflexivity |].
    vm_compute in E. injection E as <- _ _.
    split. { eexists. first [ exists [1; 0; 1; 0]; eexists; split; [ vm_compute; reflexivity |]; apply Vy_comment; vm_compute; reflexivity
                        | exists [1; 0; 1; 1]; eexists; split; [ vm_compute; reflexivity |]; apply Vy_comment; vm_compute; reflexivity ]. }
    match goal with |- (forall t next, vy_says ?a t next -> _) /\ _ => destruct (vy_short_check 40 a ltac:(vm_compute; reflexivity)) as [X Y] end.
    split; [ intros t next Hs; right; exact (X t next Hs) |].
    split; [ intros q x Hx v Hv; destruct (Y q x Hx v Hv) |].
    split; [ vm_compute; discriminate | vm_compute; reflexivity ].
Qed.

(** The environment and the world of the endless run exist. *)
Definition sol_world (oc : bool) : world := {|
  w_accepts := fun _ _ => true;
  w_print := fun _ n => match sol_print oc n with Ok _ => Ok tt | Err e => Err e | Panic m => Panic m | Diverge => Diverge end;
  w_config := Ok tt; w_tmp := "/tmp"; w_order := fun ms => ms |}.

Lemma printing_example : forall oc,
  prints_sol (printing ex_env oc) /\ writes_sol (e_oc (printing ex_env oc)) (sol_world oc) /\ rearranges (w_order (sol_world oc)).
Proof. intro oc. split; [ intro n; reflexivity |]. split; [ intros k n; reflexivity | intro ms; apply Permutation_refl ]. Qed.
