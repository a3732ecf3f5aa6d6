(** C31-C36, C38, C39, C53, C54, C59, C60: the mutant generator.  In every
    theorem [W] is an arbitrary outside world (compiler verdicts, outcomes of
    printing, order of hash maps), [r] an arbitrary random stream and [fuel] an
    arbitrary bound on the loops of the code that have none. *)
From Coq Require Import String List Bool NArith Arith Permutation.
From Verif Require Import Base Json Rng Permissions MutationType Traverse OpCommon SolMutators VyMutators Comments
  Language Paths Generator SpecTree SpecMutation SpecOps SpecTotal SpecJson SpecGenerator Samples
  GenLaws GenStop GenMore OpClaims GenWitness
  SpecPlain PlainClaims.
Import ListNotations.
Open Scope string_scope.
Open Scope list_scope.

(** C31. *)
Theorem C31_count_never_exceeds_request :
  forall G W P fuel ast r c,
  supported G -> rearranges (w_order W) -> run_counts G W P ast c ->
  let evs := fst (generate G W P fuel ast r) in
  length (mutants evs) <= rp_count P /\ length (mutants evs) <= pairs c /\
  forall t, length (filter (of_type t) (mutants evs)) <= reported t c.
Proof. exact count_bound. Qed.
Print Assumptions C31_count_never_exceeds_request.

Example C31_example : exists c, run_counts ex_lang ex_world ex_params ex_unit c /\ pairs c = 5 /\
  length (mutants ex_run) = 2 /\ length (filter (of_type arith) (mutants ex_run)) = 1.
Proof. eexists. split; [vm_compute; reflexivity|]. vm_compute. repeat split. Qed.

(** C32. *)
Theorem C32_no_duplicates :
  forall G W P fuel ast r, NoDup (map snd (mutants (fst (generate G W P fuel ast r)))).
Proof. exact no_duplicates. Qed.
Print Assumptions C32_no_duplicates.

Example C32_example : exists a b, map snd (mutants ex_run) = [a; b] /\ a <> b.
Proof. eexists _, _. split; [vm_compute; reflexivity|discriminate]. Qed.

(** C33. *)
Theorem C33_file_names :
  forall G W P fuel ast r,
  supported G ->
  let evs := fst (generate G W P fuel ast r) in
  (rp_stdout P = true -> mutant_files evs = []) /\
  (rp_stdout P = false -> mutants evs <> [] -> exists base, file_name (rp_file P) = Some base /\
     mutant_files evs = map (fun k => path_join (rp_outdir P) (numbered base (gl_ext G) k)) (seq 0 (length (mutants evs)))) /\
  NoDup (mutant_files evs).
Proof. exact file_names. Qed.
Print Assumptions C33_file_names.

Example C33_example : mutant_files ex_run = ["out/x.sol_0.sol"; "out/x.sol_1.sol"].
Proof. vm_compute. reflexivity. Qed.

(** C34. *)
Theorem C34_validated_mutants_compile :
  forall G W P fuel ast r,
  rp_verify P = true ->
  let evs := fst (generate G W P fuel ast r) in
  forall before e after ast' mr, evs = before ++ e :: after -> mutant_of e = [(ast', mr)] ->
  (exists before' tmp, before = before' ++ [Validated tmp ast' true]) /\ exists k, w_accepts W k ast' = true.
Proof. exact validated_lemma. Qed.
Print Assumptions C34_validated_mutants_compile.

Example C34_example : rp_verify ex_params = true /\
  exists before a mr after, ex_run = before ++ [Validated "/tmp/x.sol" a true] ++ WroteMutant "out/x.sol_0.sol" a mr :: after.
Proof.
  split; [reflexivity|]. exists (firstn 3 ex_run), (fst (nth 0 (mutants ex_run) (JNull, empty_result))),
    (snd (nth 0 (mutants ex_run) (JNull, empty_result))), (skipn 5 ex_run). vm_compute. reflexivity.
Qed.

(** C35.  At most 50 attempts per selected mutant, whatever the stream. *)
Theorem C35_attempts_bounded :
  forall G W P fuel ast r c,
  run_counts G W P ast c ->
  let evs := fst (generate G W P fuel ast r) in
  tries evs <= 50 * Nat.min (rp_count P) (pairs c).
Proof. exact tries_lemma. Qed.
Print Assumptions C35_attempts_bounded.

(** On a fair stream the whole run stops: from some fuel on its events and its
    outcome no longer change and the outcome is not divergence, provided the
    nodes the operators accept are of the shape for which each single mutation
    stops (C17). *)
Theorem C35_solidity_run_stops :
  forall e W P ast r,
  reads_sol e -> order_total e -> rearranges (w_order W) -> fair r ->
  (forall p n t m, subtree p ast = Some n -> In t (rp_types P) -> sol_mutator_for e t = Some m ->
     mu_mutable m n = Ok true -> sol_plain n /\ sol_schema n /\ sol_supported t n) ->
  (forall k a, w_print W k a <> Diverge) -> w_config W <> Diverge ->
  exists enough run, snd run <> Diverge /\
    forall fuel, enough <= fuel -> generate (solidity_files e) W P fuel ast r = run.
Proof. exact sol_run_stops_plain. Qed.
Print Assumptions C35_solidity_run_stops.

Theorem C35_vyper_run_stops :
  forall e W P ast r,
  reads_vy e -> rearranges (w_order W) -> fair r ->
  (forall p n x, subtree p ast = Some n -> has_field n "body" (JArr [x]) -> vy_plain x) ->
  (forall p n t m, subtree p ast = Some n -> In t (rp_types P) -> vy_mutator_for e t = Some m ->
     mu_mutable m n = Ok true -> vy_clear n /\ wf n /\ vy_schema n /\ vy_supported t n) ->
  (forall k a, w_print W k a <> Diverge) -> w_config W <> Diverge ->
  exists enough run, snd run <> Diverge /\
    forall fuel, enough <= fuel -> generate (vyper_files e) W P fuel ast r = run.
Proof. exact vy_run_stops_plain. Qed.
Print Assumptions C35_vyper_run_stops.

Example C35_example : reads_sol ex_env /\ order_total ex_env /\ rearranges (w_order ex_world) /\ fair fair_rng /\
  (forall p n t m, subtree p one_op = Some n -> In t (rp_types one_params) -> sol_mutator_for ex_env t = Some m ->
     mu_mutable m n = Ok true -> sol_plain n /\ sol_schema n /\ sol_supported t n) /\
  exists c, run_counts ex_lang ex_world one_params one_op c /\ pairs c = 1.
Proof. exact stop_example_plain. Qed.

Example C35_vyper_example : reads_vy ex_env /\ rearranges (w_order ex_world) /\ fair fair_rng /\
  (forall p n x, subtree p ex_module = Some n -> has_field n "body" (JArr [x]) -> vy_plain x) /\
  (forall p n t m, subtree p ex_module = Some n -> In t (rp_types vy_params) -> vy_mutator_for ex_env t = Some m ->
     mu_mutable m n = Ok true -> vy_clear n /\ wf n /\ vy_schema n /\ vy_supported t n) /\
  exists c, run_counts (vyper_files ex_env) ex_world vy_params ex_module c /\ pairs c = 2.
Proof. exact vy_stop_example. Qed.

(** Fairness is needed: the selection loop has no bound of its own. *)
Theorem C35_stops_on_every_stream_refuted : exists G W P ast r,
  supported G /\ rearranges (w_order W) /\ (forall k a, w_print W k a = Ok tt) /\ w_config W = Ok tt /\
  forall fuel, snd (generate G W P fuel ast r) = Diverge.
Proof. exact stuck_lemma. Qed.
Print Assumptions C35_stops_on_every_stream_refuted.

(** C36.  Two distinct mutants exist and two are requested, yet no run makes
    more than one: a type is selected at most once per node. *)
Theorem C36_as_many_as_requested_refuted : exists G W P ast x1 x2,
  supported G /\ rearranges (w_order W) /\ rp_count P = 2 /\
  (exists fuel r, In x1 (mutants (fst (generate G W P fuel ast r)))) /\
  (exists fuel r, In x2 (mutants (fst (generate G W P fuel ast r)))) /\
  fst x1 <> fst x2 /\ snd x1 <> snd x2 /\
  forall fuel r, length (mutants (fst (generate G W P fuel ast r))) <= 1.
Proof. exact shortfall_witness. Qed.
Print Assumptions C36_as_many_as_requested_refuted.

(** What holds: a run that ends normally misses the smaller of the requested
    number and the number of (type, node) pairs only at the price of 50 tries
    for each missing mutant. *)
Theorem C36_missing_mutants_cost_fifty_tries_partial :
  forall G W P fuel ast r c s,
  run_counts G W P ast c ->
  let evs := fst (generate G W P fuel ast r) in
  snd (generate G W P fuel ast r) = Ok s ->
  let wanted := Nat.min (rp_count P) (pairs c) in
  length (mutants evs) <= wanted /\
  50 * (wanted - length (mutants evs)) + length (mutants evs) <= tries evs.
Proof. exact shortfall_lemma. Qed.
Print Assumptions C36_missing_mutants_cost_fifty_tries_partial.

Example C36_example : exists c s, run_counts ex_lang ex_world ex_params ex_unit c /\
  snd (generate ex_lang ex_world ex_params 20 ex_unit ex_rng) = Ok s /\
  Nat.min (rp_count ex_params) (pairs c) = 2 /\ tries ex_run = 2.
Proof. eexists _, _. split; [vm_compute; reflexivity|]. split; [vm_compute; reflexivity|]. vm_compute. split; reflexivity. Qed.

(** C38.  Two inputs with the same base name share their output files. *)
Theorem C38_inputs_never_collide_refuted : exists f P P',
  rp_file P = "a/x.sol" /\ rp_file P' = "b/x.sol" /\ rp_outdir P = rp_outdir P' /\
  In f (mutant_files (fst (generate ex_lang ex_world P 20 ex_unit ex_rng))) /\
  In f (mutant_files (fst (generate ex_lang ex_world P' 20 one_op ex_rng))).
Proof. exact same_base_overwrites. Qed.
Print Assumptions C38_inputs_never_collide_refuted.

(** Inputs with different base names never do, whatever the languages. *)
Theorem C38_different_base_names_never_collide_partial :
  forall G G' W W' P P' fuel fuel' ast ast' r r', supported G -> supported G' ->
  rp_outdir P = rp_outdir P' -> file_name (rp_file P) <> file_name (rp_file P') ->
  forall f, In f (mutant_files (fst (generate G W P fuel ast r))) ->
           ~ In f (mutant_files (fst (generate G' W' P' fuel' ast' r'))).
Proof. exact other_files_lemma. Qed.
Print Assumptions C38_different_base_names_never_collide_partial.

Example C38_example : file_name "a/x.sol" = Some "x.sol" /\ file_name "b//y.z/./x.sol_0" = Some "x.sol_0" /\
  file_name "a/.." = None.
Proof. repeat split. Qed.

(** C39.  Printing the original can overwrite the input, and validating can
    remove it. *)
Theorem C39_input_never_overwritten_refuted :
  (exists P, rp_file P = "a/x.sol" /\ rp_outdir P = "a" /\ rp_original P = true /\
     In (WroteOriginal (rp_file P) ex_unit) (fst (generate ex_lang ex_world P 20 ex_unit ex_rng))) /\
  (exists P a, rp_file P = "/tmp/x.sol" /\ rp_outdir P = "out" /\
     In (Validated (rp_file P) a true) (fst (generate ex_lang ex_world P 20 ex_unit ex_rng))).
Proof. exact (conj original_overwrites validation_removes). Qed.
Print Assumptions C39_input_never_overwritten_refuted.

(** The mutants themselves never go to a file with the input's name. *)
Theorem C39_mutants_never_overwrite_input_partial :
  forall G W P fuel ast r, supported G ->
  forall f, In f (mutant_files (fst (generate G W P fuel ast r))) -> file_name f <> file_name (rp_file P).
Proof. exact not_input_lemma. Qed.
Print Assumptions C39_mutants_never_overwrite_input_partial.

Example C39_example : In "out/x.sol_1.sol" (mutant_files ex_run) /\ rp_file ex_params = "src/x.sol".
Proof. vm_compute. split; [right; left|]; reflexivity. Qed.

(** C53.  Requesting unsupported types is the same as not requesting them. *)
Theorem C53_unsupported_types_do_nothing :
  forall G W P fuel ast r,
  generate G W (with_types (filter (fun t => match l_mutator_for (gl_lang G) t with Some _ => true | None => false end)
                                   (rp_types P)) P) fuel ast r =
  generate G W P fuel ast r.
Proof. exact unsupported_lemma. Qed.
Print Assumptions C53_unsupported_types_do_nothing.

Theorem C53_no_unsupported_mutant :
  forall G W P fuel ast r, supported G -> rearranges (w_order W) ->
  forall ast' mr, In (ast', mr) (mutants (fst (generate G W P fuel ast r))) ->
  exists t m, mr_type mr = Some t /\ In t (rp_types P) /\ l_mutator_for (gl_lang G) t = Some m.
Proof. exact labelled_lemma. Qed.
Print Assumptions C53_no_unsupported_mutant.

Example C53_example :
  l_mutator_for (gl_lang (vyper_files ex_env)) (Solidity Require) = None /\
  length (mutants (fst (generate (vyper_files ex_env) ex_world
     (run_on "x.vy" "out" 1 [Solidity Require; arith]) 20 ex_module ex_rng))) = 1.
Proof. vm_compute. split; reflexivity. Qed.

(** C54.  Two runs over inputs with the same base name share their temporary
    file, so a verdict can concern the other run's mutant. *)
Theorem C54_concurrent_runs_refuted : exists l,
  interleaved (flat_map fs_steps run_a) (flat_map fs_steps run_b) l /\ ~ own_verdicts l.
Proof. exact shared_temp. Qed.
Print Assumptions C54_concurrent_runs_refuted.

(** What holds: runs that leave each other's temporary files alone always get
    their own verdicts.  (Missing: the tool does nothing to ensure this.) *)
Theorem C54_separate_temporary_files_partial :
  forall G G' W W' P P' fuel fuel' ast ast' r r',
  let evs1 := fst (generate G W P fuel ast r) in
  let evs2 := fst (generate G' W' P' fuel' ast' r') in
  (forall f, In f (validated_files evs1) -> ~ In f (touched evs2)) ->
  (forall f, In f (validated_files evs2) -> ~ In f (touched evs1)) ->
  forall l, interleaved (flat_map fs_steps evs1) (flat_map fs_steps evs2) l -> own_verdicts l.
Proof. exact (fun G G' W W' P P' fuel fuel' ast ast' r r' A B l => own_lemma _ _ l A B). Qed.
Print Assumptions C54_separate_temporary_files_partial.

Definition other_run : list event :=
  fst (generate ex_lang ex_world (run_on "b/y.sol" "outb" 1 [arith]) 20 one_op ex_rng).
Example C54_example :
  validated_files run_a = ["/tmp/x.sol"] /\ validated_files other_run = ["/tmp/y.sol"] /\
  ~ In "/tmp/x.sol" (touched other_run) /\ ~ In "/tmp/y.sol" (touched run_a).
Proof. vm_compute. repeat split; intros H; repeat destruct H as [H|H]; try discriminate; destruct H. Qed.

(** C59.  Every mutant of a run is the input with one accepted node replaced
    by what the operator made of it, and possibly the operator's comment; under
    a restriction to functions the node lies in one of them. *)
Theorem C59_mutants_are_single_mutations :
  forall G W P fuel ast r, supported G -> rearranges (w_order W) ->
  forall ast' mr, In (ast', mr) (mutants (fst (generate G W P fuel ast r))) ->
  exists t m p n r0 d ast1,
    mr_type mr = Some t /\ In t (rp_types P) /\ l_mutator_for (gl_lang G) t = Some m /\
    subtree p ast = Some n /\ mu_mutable m n = Ok true /\ mu_mutate m fuel n r0 = Ok d /\
    replaced_at p (md_node d) ast ast1 /\ (rp_functions P <> [] -> inside_named (rp_functions P) ast p) /\
    (ast' = ast1 \/ exists comment path, md_comment d = Some comment /\
       ast' = insert_comment_by_path (l_id (gl_lang G)) (l_member (gl_lang G)) (l_insert (gl_lang G)) ast1 comment path).
Proof. exact one_mutation_lemma. Qed.
Print Assumptions C59_mutants_are_single_mutations.

Example C59_example : exists a mr rest, mutants ex_run = (a, mr) :: rest /\ mr_type mr = Some arith.
Proof. eexists _, _, _. vm_compute. split; reflexivity. Qed.

(** C60.  The run does not depend on the order of the hash map of operators. *)
Theorem C60_independent_of_hash_order :
  forall G W P o fuel ast r c,
  rearranges (w_order W) -> rearranges o -> run_counts G W P ast c ->
  generate G (with_order o W) P fuel ast r = generate G W P fuel ast r.
Proof. exact order_lemma. Qed.
Print Assumptions C60_independent_of_hash_order.

Example C60_example : rearranges (@rev (mutation_type * mutator)) /\
  (let ms := select_mutators (solidity ex_env) (rp_types ex_params) [] in
   map fst (rev ms) = [Generic Assignment; arith] /\ map fst ms = [arith; Generic Assignment]).
Proof. split; [intros ms; apply Permutation_sym, Permutation_rev|vm_compute; split; reflexivity]. Qed.
