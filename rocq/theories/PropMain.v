(** The standard output and the end of the commands: C107-C109. *)
From Coq Require Import String Ascii List NArith ZArith Bool Lia.
From Verif Require Import Base Json Rng Permissions MutationType Traverse OpCommon Language Paths Generator SpecGenerator SpecMutation
  Prefs Config Compiler Cli SpecCli CliClaims Main SpecMain MainFacts MainClaims SpecSolRead GenWitness Samples.
Import ListNotations.
Open Scope string_scope.
Open Scope list_scope.

(** C107: what goes to the standard output with --stdout is not the program: of
    a Solidity program that can be read, the output of each command cannot. *)
Theorem C107_program_on_the_output_refuted :
  exists m f text l, (forall oc fl, text_of m oc fl (to_prefs default_settings) f text) /\ reads text l /\
  (exists a, pa_stdout a = true /\ pa_files a = [f] /\ pa_settings a = default_settings /\
     forall oc fl complaint, exists out, main_print oc fl complaint "0.5" m a = (out, Exits 0) /\ forall l', ~ reads out l') /\
  (exists a e pcg W fuel now, ma_stdout a = true /\ ma_files a = [f] /\ ma_original a = false /\ ma_save a = false /\
     forall oc fl cfg se, exists out, main_mutate oc fl cfg se "0.5" e m pcg W fuel now a = (out, Exits 0) /\ forall l', ~ reads out l').
Proof.
  exists diff_machine, "a/x.ast", (diff_text [] "-"), diff_sol. split; [|split; [exact diff_reads|split]].
  - intros oc fl. exists LSolidity, FAst, diff_node. split; [vm_compute; reflexivity|]. split; vm_compute; reflexivity.
  - exists show_one. do 3 (split; [reflexivity|]). intros oc fl complaint. exists out_print. split; [vm_compute; reflexivity|exact out_print_spoilt].
  - exists mutate_one, ex_env, (fun _ => ex_rng), (fun _ => ex_world), 20, 0%N. do 4 (split; [reflexivity|]). intros oc fl cfg se. exists out_mutate.
    split; [vm_compute; reflexivity|exact out_mutate_spoilt].
Qed.
Print Assumptions C107_program_on_the_output_refuted.

(** What the output of pretty-print is: complaints about the files that cannot
    be printed, the text of the first one that can, and a line with the time.
    Missing for the whole claim: the last line should not be there. *)
Theorem C107_pretty_print_output_partial :
  forall oc fl complaint secs m a f text before after,
  pa_stdout a = true -> pa_files a = before ++ f :: after ->
  Forall (fun g => exists e, print_to_stream m oc fl (to_prefs (pa_settings a)) g = Err e) before ->
  text_of m oc fl (to_prefs (pa_settings a)) f text ->
  exists complaints last, List.length complaints = List.length before /\ Forall (line_of "Unable to pretty-print ") complaints /\ line_of "Elapsed time: " last /\
  main_print oc fl complaint secs m a = (joined [joined complaints; text; last], Exits 0).
Proof. exact shown_first. Qed.
Print Assumptions C107_pretty_print_output_partial.

(** What the output of a run over one file is: the text of the program when it
    was asked for, the remarks, the texts of the mutants in their order with
    nothing between them, and a line with the time.  Missing as above: the
    remarks and the last line should not be there. *)
Theorem C107_mutate_output_partial :
  forall oc fl cfg se secs e m pcg W fuel now a g la t ast evs s l, assemble m now a = Ok [g] ->
  recognize m (gp_prefs g) (rp_file (gp_run g)) = Ok (la, t) -> load_ast m la t (gp_prefs g) (rp_file (gp_run g)) = Ok ast ->
  run_one e m pcg W fuel g = (evs, Ok s) -> rp_stdout (gp_run g) = true -> rp_save (gp_run g) = false ->
  texts_of (tree_text oc fl la) ((if rp_original (gp_run g) then [ast] else []) ++ map fst (mutants evs)) l ->
  exists l0 notes l1 last, l = l0 ++ l1 /\ List.length l0 = (if rp_original (gp_run g) then 1 else 0) /\ remarks notes /\ line_of "Elapsed time: " last /\
  main_mutate oc fl cfg se secs e m pcg W fuel now a = (joined [joined l0; notes; joined l1; last], Exits 0).
Proof. exact one_shown. Qed.
Print Assumptions C107_mutate_output_partial.

Definition line_feed : string := String (ascii_of_nat 10) "".
Definition remarks_one : string := String.concat line_feed
  ["Of the requested mutation algorithms, the AST contains nodes for [""ArithmeticBinaryOp""]";
   "AST supports at most 1 different mutations using the requested mutation algorithms"; ""].
Definition time_line : string := joined ["Elapsed time: 0.5s"; line_feed].

(** The outputs for the program [a - b] and its mutant [a * b]. *)
Example C107_example :
  let fl := plain_fl in
  main_print true fl (fun f => joined [f; ": cannot be read"]) "0.5" diff_machine {| pa_outdir := "out"; pa_files := ["a/y.ast"; "a/x.ast"; "a/x.ast"]; pa_stdout := true; pa_settings := default_settings |}
    = (joined ["Unable to pretty-print a/y.ast: cannot be read"; line_feed; diff_text [] "-"; time_line], Exits 0) /\
  main_mutate true fl "" (fun x => x) "0.5" ex_env diff_machine (fun _ => ex_rng) (fun _ => ex_world) 20 0 mutate_one
    = (joined [remarks_one; diff_text ["        // ArithmeticBinaryOp Mutator: changed '-' to '*'"] "*"; time_line], Exits 0) /\
  exists g ast evs s mr, assemble diff_machine 0 mutate_one = Ok [g] /\ recognize diff_machine (gp_prefs g) (rp_file (gp_run g)) = Ok (LSolidity, FAst) /\
    load_ast diff_machine LSolidity FAst (gp_prefs g) (rp_file (gp_run g)) = Ok diff_node /\
    run_one ex_env diff_machine (fun _ => ex_rng) (fun _ => ex_world) 20 g = (evs, Ok s) /\ rp_stdout (gp_run g) = true /\ rp_save (gp_run g) = false /\
    mutants evs = [(ast, mr)] /\ tree_text true fl LSolidity ast = Ok (diff_text ["        // ArithmeticBinaryOp Mutator: changed '-' to '*'"] "*").
Proof.
  split; [vm_compute; reflexivity|]. split; [vm_compute; reflexivity|].
  pose (g := match assemble diff_machine 0 mutate_one with Ok (g :: _) => Some g | _ => None end).
  assert (Eg : exists g0, assemble diff_machine 0 mutate_one = Ok [g0] /\ g = Some g0).
  { subst g. destruct (assemble diff_machine 0 mutate_one) as [[|g0 [|g1 gs]]| | |] eqn:E; try (vm_compute in E; discriminate E). exists g0. split; reflexivity. }
  destruct Eg as (g0 & Eg & E0). exists g0. assert (Q : Some g0 = g) by (symmetry; exact E0). subst g. clear E0. vm_compute in Q. injection Q as ->.
  destruct (run_one ex_env diff_machine (fun _ => ex_rng) (fun _ => ex_world) 20 _) as (evs, o) eqn:Er. vm_compute in Er. injection Er as <- <-.
  do 4 eexists. split; [exact Eg|]. split; [vm_compute; reflexivity|]. split; [vm_compute; reflexivity|]. split; [reflexivity|]. split; [reflexivity|]. split; [reflexivity|].
  split; [cbn [mutants flat_map mutant_of app]; reflexivity|]. vm_compute. reflexivity.
Qed.

(** C108: every mutant that a command writes to a file is announced on the
    standard output by its kind and its file, in the order of the writing. *)
Theorem C108_written_mutants_announced :
  forall oc fl cfg se secs e m pcg W fuel now a gs evs, (forall g, rearranges (w_order (W g))) ->
  assemble m now a = Ok gs -> Forall (fun g => rp_stdout (gp_run g) = false) gs -> generate_mutants e m pcg W fuel now a = (evs, Ok tt) ->
  exists l, announced evs l /\ holds (fst (main_mutate oc fl cfg se secs e m pcg W fuel now a)) l.
Proof. exact command_announced. Qed.
Print Assumptions C108_written_mutants_announced.

(** A run over one file says nothing else but its remarks and whether it wrote
    the original and the configuration. *)
Theorem C108_nothing_else_announced :
  forall text cfg G W P fuel ast r evs s, supported G -> rearranges (w_order W) -> generate G W P fuel ast r = (evs, Ok s) ->
  rp_stdout P = false ->
  exists head notes l, remarks notes /\ announced evs l /\ generate_said text cfg G W P fuel ast r = joined [head; notes; joined l] /\
  (rp_original P = false -> rp_save P = false -> head = "").
Proof. exact files_announced. Qed.
Print Assumptions C108_nothing_else_announced.

Definition mutate_file : mutate_args := {|
  ma_outdir := "out"; ma_files := ["a/x.ast"; "a/x.ast"]; ma_seed := 1%Z; ma_count := 1; ma_mutation := ["ArithmeticBinaryOp"];
  ma_all := false; ma_original := false; ma_save := false; ma_stdout := false; ma_function := []; ma_verify := false; ma_settings := default_settings |}.

Example C108_example :
  let line := joined ["ArithmeticBinaryOp used to create mutant written to out/x.ast_0.sol"; line_feed] in
  fst (main_mutate true plain_fl "" (fun x => x) "0.5" ex_env diff_machine (fun _ => ex_rng) (fun _ => ex_world) 20 0 mutate_file)
    = joined [remarks_one; line; remarks_one; line; time_line] /\
  (forall g : gparams, rearranges (w_order ex_world)) /\
  (exists gs, assemble diff_machine 0 mutate_file = Ok gs /\ List.length gs = 2 /\ Forall (fun g => rp_stdout (gp_run g) = false) gs) /\
  exists evs, generate_mutants ex_env diff_machine (fun _ => ex_rng) (fun _ => ex_world) 20 0 mutate_file = (evs, Ok tt) /\
  announced evs [line; line].
Proof.
  split; [vm_compute; reflexivity|]. split; [intros _; exact ex_world_rearranges|]. split.
  - destruct (assemble diff_machine 0 mutate_file) as [gs| | |] eqn:E; vm_compute in E; try discriminate E. exists gs. split; [reflexivity|].
    injection E as <-. split; [reflexivity|]. repeat constructor.
  - destruct (generate_mutants ex_env diff_machine (fun _ => ex_rng) (fun _ => ex_world) 20 0 mutate_file) as (evs, o) eqn:E. vm_compute in E. injection E as <- <-.
    eexists. split; [reflexivity|].
    do 2 (repeat (apply Other_event; [intros; discriminate|]); apply (A_mutant "out/x.ast_0.sol" _ _ (Generic ArithmeticBinaryOp)); [reflexivity|]).
    repeat (apply Other_event; [intros; discriminate|]). constructor.
Qed.

(** C109: a command that fails ends with the status of one that succeeds: the
    only file is not there, nothing is written, and the status is 0. *)
Theorem C109_status_tells_refuted :
  exists m f, m_json m f = None /\
  (exists a, pa_files a = [f] /\ forall oc fl complaint secs, exists out, main_print oc fl complaint secs m a = (out, Exits 0) /\
     fst (pretty_print_command m oc fl a) = [Complained f]) /\
  (exists a, ma_files a = [f] /\ forall oc fl cfg se secs e pcg W fuel now, exists out x, main_mutate oc fl cfg se secs e m pcg W fuel now a = (out, Exits 0) /\
     generate_mutants e m pcg W fuel now a = ([], Err x)).
Proof.
  exists (sources []), "a/x.ast". split; [reflexivity|]. split.
  - exists show_one. split; [reflexivity|]. intros. eexists. split; reflexivity.
  - exists mutate_one. split; [reflexivity|]. intros. 
    assert (E : exists x, generate_mutants e (sources []) pcg W fuel now mutate_one = ([], Err x)) by (eexists; reflexivity).
    destruct E as (x & E). unfold main_mutate. rewrite E. cbn [snd]. eexists. exists x. split; reflexivity.
Qed.
Print Assumptions C109_status_tells_refuted.

(** A command that prints every file, or whose runs all reach their end, ends
    with status 0, and another status means a panic.  Missing for the whole
    claim: that a command that fails ends with another status. *)
Theorem C109_pretty_print_status_partial :
  forall oc fl complaint secs m a,
  pa_stdout a = false -> Forall (fun f => (exists text, text_of m oc fl (to_prefs (pa_settings a)) f text) /\ exists b, file_name f = Some b) (pa_files a) ->
  (forall f, m_create m f = true) -> exists out, main_print oc fl complaint secs m a = (out, Exits 0).
Proof. exact all_printed_status. Qed.
Print Assumptions C109_pretty_print_status_partial.

Theorem C109_mutate_status_partial :
  forall oc fl cfg se secs e m pcg W fuel now a gs,
  assemble m now a = Ok gs -> Forall (fun g => exists evs s, run_one e m pcg W fuel g = (evs, Ok s)) gs ->
  exists out, main_mutate oc fl cfg se secs e m pcg W fuel now a = (out, Exits 0) /\ exists before last, line_of "Elapsed time: " last /\ out = joined [before; last].
Proof. exact all_run_status. Qed.
Print Assumptions C109_mutate_status_partial.

(** Both are met by the program above; a file without a name is the panic that
    gives another status. *)
Example C109_example :
  main_print true plain_fl (fun f => f) "0.5" diff_machine {| pa_outdir := "out"; pa_files := ["a/x.ast"]; pa_stdout := false; pa_settings := default_settings |} = (time_line, Exits 0) /\
  text_of diff_machine true plain_fl (to_prefs default_settings) "a/x.ast" (diff_text [] "-") /\ file_name "a/x.ast" = Some "x.ast" /\
  snd (main_mutate true plain_fl "" (fun x => x) "0.5" ex_env diff_machine (fun _ => ex_rng) (fun _ => ex_world) 20 0 mutate_file) = Exits 0 /\
  main_print true plain_fl (fun f => f) "0.5" (sources [("a/..", diff_node)]) {| pa_outdir := "out"; pa_files := ["a/.."]; pa_stdout := false; pa_settings := default_settings |} = ("", Exits 101).
Proof.
  split; [vm_compute; reflexivity|]. split; [|split; [reflexivity|split; vm_compute; reflexivity]].
  exists LSolidity, FAst, diff_node. split; [vm_compute; reflexivity|]. split; vm_compute; reflexivity.
Qed.
