(** What is on the disk when a run or a command has ended: C101-C104.  In every
    theorem [file_of] says which file a path leads to, [text] what is printed for
    a tree, [config] what the saved configuration is and [d] what was on the disk
    before. *)
From Coq Require Import String Ascii List Bool NArith ZArith Arith.
From Verif Require Import Base Json Rng MutationType OpCommon Language Paths Generator Prefs Config Compiler Cli Printer SolPrinter
  SpecGenerator SpecDisk DiskFacts DiskClaims DiskDemo Samples GenWitness.
Import ListNotations.
Open Scope string_scope.
Open Scope list_scope.

(** C101: a mutant that a run wrote is in its file when the run has ended, in
    whatever way it ended. *)
Theorem C101_mutants_stay :
  forall file_of text config, by_name file_of ->
  forall G W P fuel ast r d f a mr, supported G ->
  let evs := fst (generate G W P fuel ast r) in
  In (WroteMutant f a mr) evs -> disk_after file_of text config d evs (file_of f) = Some (text a).
Proof. exact run_keeps. Qed.
Print Assumptions C101_mutants_stay.

(** And no files change but those named for the mutants, and those of the
    options that were given: the original, the configuration, the temporary
    file. *)
Theorem C101_other_files_stay :
  forall file_of text config G W P fuel ast r d f,
  (forall k g, mutant_name (gl_ext G) (rp_file P) (rp_outdir P) k = Ok g -> file_of g <> f) ->
  (forall g, rp_original P = true -> printed_name (gl_ext G) (rp_file P) (rp_outdir P) = Ok g -> file_of g <> f) ->
  (forall g, rp_save P = true -> config_name (rp_file P) (rp_outdir P) = Ok g -> file_of g <> f) ->
  (forall g, rp_verify P = true -> temp_name (w_tmp W) (rp_file P) = Ok g -> file_of g <> f) ->
  disk_after file_of text config d (fst (generate G W P fuel ast r)) f = d f.
Proof. exact run_leaves. Qed.
Print Assumptions C101_other_files_stay.

(** The files of a run that prints the original, saves its configuration and
    validates its mutants. *)
Example C101_example : by_name (fun p => p) /\ touched ex_run =
  ["out/x.sol"; "out/x.mgnx"; "/tmp/x.sol"; "out/x.sol_0.sol"; "/tmp/x.sol"; "out/x.sol_1.sol"].
Proof. split; [exact paths_by_name|vm_compute; reflexivity]. Qed.

(** C102: the printed original is lost when the output directory is the
    directory for temporary files: validating removes it. *)
Theorem C102_original_stays_refuted :
  exists G W P fuel ast r f text,
  supported G /\ rearranges (w_order W) /\ (forall a, text a = sol_text a) /\
  In (WroteOriginal f ast) (fst (generate G W P fuel ast r)) /\ rp_outdir P = w_tmp W /\
  forall config d, disk_after (fun p => p) text config d (fst (generate G W P fuel ast r)) f = None.
Proof. exact original_removed. Qed.
Print Assumptions C102_original_stays_refuted.

(** Missing: runs that validate in the output directory. *)
Theorem C102_original_stays_partial :
  forall file_of text config d G W P fuel ast r f a, by_name file_of -> supported G ->
  let evs := fst (generate G W P fuel ast r) in
  In (WroteOriginal f a) evs -> (forall g, rp_verify P = true -> temp_name (w_tmp W) (rp_file P) = Ok g -> file_of g <> file_of f) ->
  disk_after file_of text config d evs (file_of f) = Some (text ast).
Proof. exact original_stays. Qed.
Print Assumptions C102_original_stays_partial.

Example C102_example : In (WroteOriginal "out/x.sol" ex_unit) ex_run /\ temp_name (w_tmp ex_world) (rp_file ex_params) = Ok "/tmp/x.sol".
Proof. split; [vm_compute; left; reflexivity|reflexivity]. Qed.

(** C103: with two inputs, the printed original of the second may take the place
    of a mutant of the first. *)
Theorem C103_mutants_of_every_input_stay_refuted : exists a mr,
  In (WroteMutant "out/x.ast_0.sol" a mr) (run_both two_inputs ["src/x.ast"; "src/x.ast_0.sol"]) /\ sol_text a <> sol_text ex_unit /\
  forall config d, disk_after (fun p => p) sol_text config d (run_both two_inputs ["src/x.ast"; "src/x.ast_0.sol"]) "out/x.ast_0.sol" = Some (sol_text ex_unit).
Proof. exact mutant_overwritten. Qed.
Print Assumptions C103_mutants_of_every_input_stay_refuted.

(** Missing: inputs with the name of an earlier one, or with such a name, an
    underscore and something more. *)
Theorem C103_mutants_of_every_input_stay_partial :
  forall file_of text config d e m pcg W fuel now args gs f a mr, by_name file_of ->
  assemble m now args = Ok gs -> ForallOrdPairs clear_of gs ->
  let evs := fst (generate_mutants e m pcg W fuel now args) in
  In (WroteMutant f a mr) evs -> disk_after file_of text config d evs (file_of f) = Some (text a).
Proof. exact command_stays. Qed.
Print Assumptions C103_mutants_of_every_input_stay_partial.

Example C103_example : exists gs, assemble apart_inputs 0 (print_both ["src/x.ast"; "lib/y_x.ast"]) = Ok gs /\ ForallOrdPairs clear_of gs /\
  flat_map touched_by (run_both apart_inputs ["src/x.ast"; "lib/y_x.ast"]) = ["out/x.ast.sol"; "out/x.ast_0.sol"; "out/y_x.ast.sol"; "out/y_x.ast_0.sol"].
Proof. exact apart_run. Qed.

(** C104: the inputs "x.sol" and "x.vy" of one command save their configurations
    in one file. *)
Theorem C104_configurations_apart_refuted : exists g1 g2, assemble two_kinds 0 save_both = Ok [g1; g2] /\
  file_name (rp_file (gp_run g1)) <> file_name (rp_file (gp_run g2)) /\ saved_details LSolidity g1 <> saved_details LVyper g2 /\
  map touched_by (filter (fun ev => match ev with WroteConfig _ => true | _ => false end)
    (fst (generate_mutants ex_env two_kinds (fun _ => ex_rng) (fun _ => ex_world) 20 0 save_both))) = [["out/x.mgnx"]; ["out/x.mgnx"]].
Proof. exact configs_shared. Qed.
Print Assumptions C104_configurations_apart_refuted.

(** [P'] is a run that saves its configuration in [f], [P] any run, that one or
    another. Missing: another input with the same name up to the extension, or an
    input that is called like a configuration. *)
Theorem C104_configurations_apart_partial :
  forall file_of G W P P' fuel ast r f b b', by_name file_of -> supported G ->
  file_name (rp_file P') = Some b' -> config_name (rp_file P') (rp_outdir P') = Ok f ->
  file_name (rp_file P) = Some b -> b <> String.append (file_stem b') ".mgnx" -> (file_stem b <> file_stem b' \/ rp_save P = false) ->
  forall ev g, In ev (fst (generate G W P fuel ast r)) -> In g (touched_by ev) -> file_of g <> file_of f.
Proof. exact config_apart. Qed.
Print Assumptions C104_configurations_apart_partial.

Example C104_example : config_name "src/y.x.sol" "out" = Ok "out/y.x.mgnx" /\ file_stem "x.sol" <> file_stem "y.x.sol" /\
  "x.sol" <> String.append (file_stem "y.x.sol") ".mgnx".
Proof. repeat split; discriminate. Qed.
