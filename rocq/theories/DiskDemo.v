(** Runs and commands of which not everything is left. *)
From Coq Require Import String Ascii List Bool NArith ZArith Arith.
From Verif Require Import Base Json Rng MutationType OpCommon Language Paths Generator Prefs Config Compiler Cli Printer SolPrinter
  SpecGenerator SpecDisk DiskClaims CliClaims Samples GenWitness.
Import ListNotations.
Open Scope string_scope.
Open Scope list_scope.

(** Every path is a file of its own. *)
Lemma paths_by_name : by_name (fun p => p).
Proof. intros p q H E. apply H. rewrite E. reflexivity. Qed.

Definition sol_text (a : json) : string := match sol_print true a with Ok t => t | _ => "" end.

(** [mutate --file-names src/x.sol ... --output-directory /tmp --print-original --validate-mutants]. *)
Definition tmp_params : run_params := run_on "src/x.sol" "/tmp" 1 [arith].
Lemma original_removed : exists G W P fuel ast r f text,
  supported G /\ rearranges (w_order W) /\ (forall a, text a = sol_text a) /\
  In (WroteOriginal f ast) (fst (generate G W P fuel ast r)) /\ rp_outdir P = w_tmp W /\
  forall config d, disk_after (fun p => p) text config d (fst (generate G W P fuel ast r)) f = None.
Proof.
  exists ex_lang, ex_world, tmp_params, 20, one_op, ex_rng, "/tmp/x.sol", sol_text.
  split; [exact ex_lang_supported|]. split; [exact ex_world_rearranges|]. split; [reflexivity|].
  split; [vm_compute; left; reflexivity|]. split; [reflexivity|]. intros config d. vm_compute. reflexivity.
Qed.

(** [mutate --file-names src/x.ast src/x.ast_0.sol ... --print-original]. *)
Definition two_inputs : machine := sources [("src/x.ast", one_op); ("src/x.ast_0.sol", ex_unit)].
Definition print_both (files : list string) : mutate_args := {|
  ma_outdir := "out"; ma_files := files; ma_seed := 1; ma_count := 1; ma_mutation := ["ArithmeticBinaryOp"];
  ma_all := false; ma_original := true; ma_save := false; ma_stdout := false; ma_function := [];
  ma_verify := false; ma_settings := default_settings |}.
Definition run_both (m : machine) (files : list string) : list event :=
  fst (generate_mutants ex_env m (fun _ => ex_rng) (fun _ => ex_world) 20 0 (print_both files)).
Lemma mutant_overwritten : exists a mr,
  In (WroteMutant "out/x.ast_0.sol" a mr) (run_both two_inputs ["src/x.ast"; "src/x.ast_0.sol"]) /\ sol_text a <> sol_text ex_unit /\
  forall config d, disk_after (fun p => p) sol_text config d (run_both two_inputs ["src/x.ast"; "src/x.ast_0.sol"]) "out/x.ast_0.sol" = Some (sol_text ex_unit).
Proof.
  remember (run_both two_inputs ["src/x.ast"; "src/x.ast_0.sol"]) as evs eqn:E. vm_compute in E. subst evs.
  do 2 eexists. split; [right; right; left; reflexivity|]. split; [vm_compute; discriminate|]. intros config d. vm_compute. reflexivity.
Qed.

(** Two inputs that leave each other alone. *)
Definition apart_inputs : machine := sources [("src/x.ast", one_op); ("lib/y_x.ast", ex_unit)].
Lemma apart_run : exists gs, assemble apart_inputs 0 (print_both ["src/x.ast"; "lib/y_x.ast"]) = Ok gs /\ ForallOrdPairs clear_of gs /\
  flat_map touched_by (run_both apart_inputs ["src/x.ast"; "lib/y_x.ast"]) = ["out/x.ast.sol"; "out/x.ast_0.sol"; "out/y_x.ast.sol"; "out/y_x.ast_0.sol"].
Proof.
  eexists. split; [vm_compute; reflexivity|]. split; [|vm_compute; reflexivity].
  repeat constructor; cbn in H, H0; injection H as <-; injection H0 as <-; [discriminate|]. intros (s & E). discriminate.
Qed.

(** [mutate --file-names src/x.sol src/x.vy ... --save-config-file]. *)
Definition two_kinds : machine := sources [("src/x.sol", one_op); ("src/x.vy", JObj [("ast", ex_module); ("contract_name", JStr "x")])].
Definition save_both : mutate_args := {|
  ma_outdir := "out"; ma_files := ["src/x.sol"; "src/x.vy"]; ma_seed := 1; ma_count := 1; ma_mutation := ["ArithmeticBinaryOp"; "UnaryOp"];
  ma_all := false; ma_original := false; ma_save := true; ma_stdout := false; ma_function := [];
  ma_verify := false; ma_settings := default_settings |}.
Lemma configs_shared : exists g1 g2, assemble two_kinds 0 save_both = Ok [g1; g2] /\
  file_name (rp_file (gp_run g1)) <> file_name (rp_file (gp_run g2)) /\ saved_details LSolidity g1 <> saved_details LVyper g2 /\
  map touched_by (filter (fun ev => match ev with WroteConfig _ => true | _ => false end)
    (fst (generate_mutants ex_env two_kinds (fun _ => ex_rng) (fun _ => ex_world) 20 0 save_both))) = [["out/x.mgnx"]; ["out/x.mgnx"]].
Proof. do 2 eexists. split; [vm_compute; reflexivity|]. split; [vm_compute; discriminate|]. split; [discriminate|]. vm_compute. reflexivity. Qed.
