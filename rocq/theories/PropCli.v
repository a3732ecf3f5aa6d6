(** C37, C51, C52, C66-C70: preferences, configuration files, the command line
    and the compilers.  A [machine] is what the commands can see of the
    computer: which commands succeed, which files hold which JSON, which files
    can be created; it is arbitrary in every theorem. *)
From Coq Require Import String Ascii List NArith ZArith Bool.
From Verif Require Import Base Json SpecTree SpecJson Rng MutationType OpCommon Language Paths Generator
  SpecGenerator Prefs SpecPrefs PrefFacts PrefClaims Config Compiler Cli SpecCli CliRun Samples GenWitness CliClaims JsonFacts OpWf.
Import ListNotations.
Open Scope string_scope.
Open Scope list_scope.

(** ** C51: preferences *)

(** After any history of updates a key holds what was last stored under it. *)
Theorem C51_lookup_returns_last_update :
  forall h k v, get_value (after_updates h) k = Some v <-> last_update h k v.
Proof. exact get_some. Qed.
Print Assumptions C51_lookup_returns_last_update.

Theorem C51_lookup_of_absent_key :
  forall h k, get_value (after_updates h) k = None <-> ~ In k (map fst h).
Proof. exact get_none. Qed.
Print Assumptions C51_lookup_of_absent_key.

Theorem C51_length_counts_keys :
  forall h, prefs_len (after_updates h) = length (nodup string_dec (map fst h)).
Proof. exact len_law. Qed.
Print Assumptions C51_length_counts_keys.

Example C51_history_example :
  let h := [("a", PInt 1); ("b", PStr "x"); ("a", PBool true)] in
  last_update h "a" (PBool true) /\ ~ In "c" (map fst h) /\ prefs_len (after_updates h) = 2.
Proof.
  cbv zeta. split; [exists [("a", PInt 1); ("b", PStr "x")], []; split; [reflexivity|intros []]|].
  split; [cbn; intuition discriminate|reflexivity].
Qed.

(** Each typed pair of functions. *)
Theorem C51_typed_lookup :
  forall p k,
  (forall i, get_pint (set_int p k i) k = Some i) /\
  (forall f, get_pfloat (set_float p k f) k = Some f) /\
  (forall s, get_pstring (set_string p k s) k = Some s) /\
  (forall b, get_pbool (set_bool p k b) k = Some b) /\
  (forall m, get_pmap (set_map p k m) k = Some m) /\
  (forall a, get_parray (set_array p k a) k = Some a) /\
  (forall q, get_prefs (set_prefs p k q) k = Some q).
Proof. exact typed_same. Qed.
Print Assumptions C51_typed_lookup.

Theorem C51_other_keys_unaffected :
  forall p k k' v, k' <> k ->
  let q := set_value p k v in
  get_value q k' = get_value p k' /\ has_key q k' = has_key p k' /\ get_pint q k' = get_pint p k' /\
  get_pfloat q k' = get_pfloat p k' /\ get_pstring q k' = get_pstring p k' /\ get_pbool q k' = get_pbool p k' /\
  get_pmap q k' = get_pmap p k' /\ get_parray q k' = get_parray p k' /\ get_prefs q k' = get_prefs p k'.
Proof. exact typed_other. Qed.
Print Assumptions C51_other_keys_unaffected.

Example C51_typed_example : let p := set_string (set_int new_prefs "n" 3) "s" "x" in
  get_pint p "n" = Some 3%Z /\ get_pint p "s" = None /\ get_pstring p "s" = Some "x".
Proof. repeat split. Qed.

(** To JSON and back.  The full statement (the same settings for every store)
    does not hold of the code: a key with a slash is taken for a path, and a
    number that is not finite becomes [null]. *)
Theorem C51_json_round_trip_refuted :
  (exists p q, rust_value (PMap p) /\ prefs_of_json (json_of_prefs p) = Ok q /\ ~ same_prefs p q) /\
  (exists p q, rust_value (PMap p) /\ prefs_of_json (json_of_prefs p) = Ok q /\
     get_value p "x" = Some (PFloat None) /\ get_value q "x" = Some PNull).
Proof. exact (conj slash_lost nan_lost). Qed.
Print Assumptions C51_json_round_trip_refuted.

(** Missing from the full statement: keys with ["/"] or ["~"], numbers that
    are not finite. *)
Theorem C51_json_round_trip_partial :
  forall p, rust_value (PMap p) -> storable (PMap p) ->
  exists q, prefs_of_json (json_of_prefs p) = Ok q /\ same_prefs p q /\ NoDup (map fst q).
Proof. exact prefs_back. Qed.
Print Assumptions C51_json_round_trip_partial.

(** The JSON written does not depend on the order of the hash maps. *)
Theorem C51_json_independent_of_order :
  forall v w, rust_value v -> rust_value w -> storable v -> storable w -> same_value v w ->
  json_of_pval v = json_of_pval w.
Proof. exact same_json. Qed.
Print Assumptions C51_json_independent_of_order.

(** From JSON and back: not so for integers beyond [i64]. *)
Theorem C51_from_json_and_back_refuted : exists j, canonical j /\ json_of_pval (pval_of_json j) <> j.
Proof. exact big_lost. Qed.
Print Assumptions C51_from_json_and_back_refuted.

Theorem C51_from_json_and_back_partial :
  forall j, canonical j -> plain_json j -> json_of_pval (pval_of_json j) = j.
Proof. exact json_back. Qed.
Print Assumptions C51_from_json_and_back_partial.

Definition ex_prefs : prefs :=
  [("z", PArr [PStr "x"; PInt (-3)]); ("a", PMap [("k", PBool true); ("j", PFloat (Some (3, -1)%Z))]); ("m", PNull)].
Example C51_json_example :
  rust_value (PMap ex_prefs) /\ storable (PMap ex_prefs) /\
  same_value (PMap ex_prefs) (PMap (rev ex_prefs)) /\ rust_value (PMap (rev ex_prefs)) /\ storable (PMap (rev ex_prefs)) /\
  plain_json (json_of_prefs ex_prefs).
Proof.
  assert (R : forall l, l = ex_prefs \/ l = rev ex_prefs -> rust_value (PMap l) /\ storable (PMap l)).
  { intros l [-> | ->]; split;
      repeat first [constructor | split | reflexivity | discriminate]; cbn; intuition discriminate. }
  split; [apply R; now left|]. split; [apply R; now left|]. split; [|split; [apply R; now right|split; [apply R; now right|]]].
  - constructor. intro k. cbn [ex_prefs rev app assoc].
    destruct (string_dec k "z") as [->|N1]; [cbn; constructor; apply same_value_refl|].
    destruct (string_dec k "a") as [->|N2]; [cbn; constructor; apply same_value_refl|].
    destruct (string_dec k "m") as [->|N3]; [cbn; constructor; apply same_value_refl|].
    apply String.eqb_neq in N1, N2, N3. rewrite N1, N2, N3. constructor.
  - vm_compute. repeat first [constructor | split | reflexivity].
Qed.

(** ** C37: saved configurations *)

(** The full statement is [forall m now a gs g l, assemble m now a = Ok gs ->
    In g gs -> reproduced l g].  The code violates it in five ways.
    1: a seed in an earlier configuration file is saved for a later file,
    though that file's run did not use it. *)
Theorem C37_saved_seed_refuted :
  exists m a gs g, assemble m 0 a = Ok gs /\ In g gs /\
    rp_file (gp_run g) = "b.sol" /\ gp_rng g = 1%N /\ gp_seed g = 7%N /\ ~ reproduced LSolidity g.
Proof. exact saved_seed_wrong. Qed.
Print Assumptions C37_saved_seed_refuted.

(** 2: a negative seed in a configuration file is saved as a number that is
    not read back. *)
Theorem C37_negative_seed_refuted :
  exists m a gs g, assemble m 0 a = Ok gs /\ In g gs /\ gp_rng g = gp_seed g /\ ~ reproduced LSolidity g.
Proof. exact negative_seed_wrong. Qed.
Print Assumptions C37_negative_seed_refuted.

(** 3: an output directory called [stdout].  4: a file whose name is only an
    extension. *)
Theorem C37_names_refuted :
  (exists m a gs g, no_configs m a /\ ma_outdir a = "stdout" /\ assemble m 0 a = Ok gs /\ In g gs /\
     ~ reproduced LSolidity g) /\
  (exists m a gs g, no_configs m a /\ ma_files a = ["src/.sol"] /\ assemble m 0 a = Ok gs /\ In g gs /\
     ~ reproduced LSolidity g).
Proof. exact names_wrong. Qed.
Print Assumptions C37_names_refuted.

(** 5: compiler details with a slash in a key, for some order of a hash map. *)
Theorem C37_slash_key_refuted :
  exists m a gs g g2, assemble m 0 a = Ok gs /\ In g gs /\ gp_rng g = gp_seed g /\ same_run LSolidity g g2 /\
    gp_seed g2 = gp_seed g /\ ~ reproduced LSolidity g2.
Proof. exact slash_wrong. Qed.
Print Assumptions C37_slash_key_refuted.

(** Outside those five cases, every run of every command line is reproduced
    by its saved configuration, at any time and on any computer. *)
Theorem C37_saved_configuration_reproduces_partial :
  forall m now a gs g l base,
  assemble m now a = Ok gs -> In g gs -> canonical_files m -> ordinary_configs m a ->
  gp_rng g = gp_seed g -> (gp_seed g < 2 ^ 63)%N -> (N.of_nat (rp_count (gp_run g)) < 2 ^ 64)%N ->
  rp_outdir (gp_run g) <> "stdout" ->
  file_name (rp_file (gp_run g)) = Some base -> file_stem base <> "" ->
  reproduced l g.
Proof. exact run_reproduced. Qed.
Print Assumptions C37_saved_configuration_reproduces_partial.

(** In terms of the command line only, when no configuration file is given
    ([rng_seed] is an [i64], [num_mutants] a [usize]; the clock is in
    milliseconds since 1970). *)
Theorem C37_command_line_reproduced_partial :
  forall m now a gs g l base,
  no_configs m a -> assemble m now a = Ok gs -> In g gs ->
  (ma_seed a < 2 ^ 63)%Z -> (now < 2 ^ 63)%N -> (N.of_nat (ma_count a) < 2 ^ 64)%N -> ma_outdir a <> "stdout" ->
  file_name (rp_file (gp_run g)) = Some base -> file_stem base <> "" ->
  reproduced l g.
Proof. exact command_line_reproduced. Qed.
Print Assumptions C37_command_line_reproduced_partial.

(** Running the tool on the saved configuration repeats everything the run
    did: the same mutations tried, the same programs compiled, the same
    mutants in the same files.  [W] is what the outside world does during a
    run; it must not depend on anything but the settings.  A Vyper program, or
    an AST, must be recognized as such with the other language's default
    compiler too. *)
Theorem C37_rerun_repeats_the_run_partial :
  forall m0 now0 a gs g l t base,
  no_configs m0 a -> assemble m0 now0 a = Ok gs -> In g gs ->
  (ma_seed a < 2 ^ 63)%Z -> (now0 < 2 ^ 63)%N -> (N.of_nat (ma_count a) < 2 ^ 64)%N ->
  ma_outdir a <> "stdout" -> ma_stdout a = false ->
  file_name (rp_file (gp_run g)) = Some base -> file_stem base <> "" ->
  forall e m pcg W fuel now cfg,
  config_name (rp_file (gp_run g)) (rp_outdir (gp_run g)) = Ok cfg ->
  m_json m cfg = Some (json_of_details (saved_details l g)) ->
  (l = LSolidity /\ t = FSource /\ recognize m (gp_prefs g) (rp_file (gp_run g)) = Ok (l, t) \/
   forall q, same_compiler l (gp_prefs g) q -> recognize m q (rp_file (gp_run g)) = Ok (l, t)) ->
  (forall g', same_run l g g' -> W g' = W g) -> w_config (W g) = Ok tt ->
  effects (fst (generate_mutants e m pcg W fuel now (mutate_files [cfg]))) =
  effects (fst (run_one e m pcg W fuel g)).
Proof. exact rerun. Qed.
Print Assumptions C37_rerun_repeats_the_run_partial.

(** A configuration file. *)
Definition full_config : json := config_json
  [("num-mutants", juint 9); ("seed", juint 7); ("mutations", JArr [JStr "SwapLines"]);
   ("functions", JArr [JStr "g"]); ("validate-mutants", JBool false); ("print-original", JBool false);
   ("output-directory", JStr "elsewhere"); ("compiler-details", mkobj [("path", JStr "solc-8")])].
Example C37_configuration_example : let m := pc "a.mgnx" full_config in let a := cl "out" 1 ["a.mgnx"] in
  let g := asked m a 0 in
  assemble m 0 a = Ok [g] /\ canonical_files m /\ ordinary_configs m a /\ gp_rng g = gp_seed g /\ gp_seed g = 7%N /\
  rp_count (gp_run g) = 9 /\ rp_outdir (gp_run g) = "elsewhere" /\ file_name (rp_file (gp_run g)) = Some "c.sol" /\
  file_stem "c.sol" = "c".
Proof.
  cbv zeta. split; [vm_compute; reflexivity|]. split; [|split; [|vm_compute; repeat split]].
  - intros f j. cbn [m_json pc]. destruct (f =?s "a.mgnx"); [|discriminate]. intro E. injection E as <-.
    apply canonical_wf, wf_check. vm_compute. reflexivity.
  - intros f j c _. cbn [m_json pc]. destruct (f =?s "a.mgnx"); [|discriminate]. intro E. injection E as <-.
    vm_compute. intro E. injection E as <-. intros [|[|i] p] o k S; cbn in S.
    + injection S as <-. intros [<-|[]]. split; reflexivity.
    + destruct p as [|[] p]; discriminate.
    + destruct i; discriminate.
Qed.

(** A source file, the tree its compiler leaves behind, and the configuration
    saved for it. *)
Definition plain_machine : machine := {|
  m_exec := fun _ _ => Some true; m_dash_o := fun _ => Some true;
  m_json := fun f => if f =?s "/tmp/x.sol_json.ast" then Some ex_unit else None;
  m_create := fun _ => true; m_tmp := "/tmp" |}.
Definition plain_run : gparams := asked plain_machine (cl "out" 1 ["src/x.sol"]) 0.
Definition saved_machine : machine := {|
  m_exec := fun _ _ => Some true; m_dash_o := fun _ => Some true;
  m_json := fun f => if f =?s "/tmp/x.sol_json.ast" then Some ex_unit
                     else if f =?s "out/x.mgnx" then Some (json_of_details (saved_details LSolidity plain_run)) else None;
  m_create := fun _ => true; m_tmp := "/tmp" |}.
Example C37_example :
  let a := cl "out" 1 ["src/x.sol"] in
  no_configs plain_machine a /\ assemble plain_machine 0 a = Ok [plain_run] /\
  config_name (rp_file (gp_run plain_run)) (rp_outdir (gp_run plain_run)) = Ok "out/x.mgnx" /\
  recognize saved_machine (gp_prefs plain_run) "src/x.sol" = Ok (LSolidity, FSource) /\
  length (mutants (fst (run_one ex_env saved_machine (fun _ => ex_rng) (fun _ => ex_world) 20 plain_run))) = 1 /\
  length (mutants (fst (generate_mutants ex_env saved_machine (fun _ => ex_rng) (fun _ => ex_world) 20 99
                          (mutate_files ["out/x.mgnx"])))) = 1.
Proof.
  cbv zeta. split; [intros f [<-|[]]; reflexivity|]. repeat split; vm_compute; reflexivity.
Qed.

(** ** C68, C69: configuration files against the command line *)

(** C68.  Whatever a configuration file says is what is done. *)
Theorem C68_configuration_overrides_command_line :
  forall m now a cfg l j gs g,
  recognize_config m cfg = Some l -> m_json m cfg = Some j -> assemble m now (with_files a [cfg]) = Ok gs -> In g gs ->
  (forall fs, oget j "filenames" = Some (JArr (map JStr fs)) -> In (rp_file (gp_run g)) fs) /\
  (forall n, oget j "num-mutants" = Some (juint n) -> (n < 2 ^ 63)%N -> rp_count (gp_run g) = N.to_nat n) /\
  (forall n, oget j "seed" = Some (juint n) -> (n < 2 ^ 63)%N -> gp_rng g = n /\ gp_seed g = n) /\
  (oget j "all-mutations" = Some (JBool true) -> rp_types (gp_run g) = all_mutation_types) /\
  (forall ts, oget j "mutations" = Some (JArr (map (fun t => JStr (show_mt t)) ts)) -> ts <> [] ->
     oget j "all-mutations" <> Some (JBool true) -> rp_types (gp_run g) = ts) /\
  (forall fs, oget j "functions" = Some (JArr (map JStr fs)) -> fs <> [] -> rp_functions (gp_run g) = fs) /\
  (forall b, oget j "validate-mutants" = Some (JBool b) -> rp_verify (gp_run g) = b) /\
  (forall b, oget j "print-original" = Some (JBool b) -> rp_original (gp_run g) = b) /\
  (forall d, oget j "output-directory" = Some (JStr d) -> d <> "stdout" -> rp_outdir (gp_run g) = d) /\
  (oget j "output-directory" = Some (JStr "stdout") -> rp_stdout (gp_run g) = true) /\
  (forall node, oget j "compiler-details" = Some node ->
     exists p, prefs_of_json node = Ok p /\ compiler_prefs (gp_prefs g) l = Some p).
Proof. exact overrides. Qed.
Print Assumptions C68_configuration_overrides_command_line.

Example C68_example : let g := asked (pc "a.mgnx" full_config) (with_files (cl "out" 1 []) ["a.mgnx"]) 0 in
  recognize_config (pc "a.mgnx" full_config) "a.mgnx" = Some LSolidity /\
  assemble (pc "a.mgnx" full_config) 0 (with_files (cl "out" 1 []) ["a.mgnx"]) = Ok [g] /\
  rp_count (gp_run g) = 9 /\ gp_rng g = 7%N /\ rp_types (gp_run g) = [Generic SwapLines] /\
  rp_functions (gp_run g) = ["g"] /\ rp_outdir (gp_run g) = "elsewhere" /\ solc (gp_prefs g) = "solc-8".
Proof. vm_compute. repeat split. Qed.

(** C69.  What a configuration file leaves out is not always taken from the
    command line. *)
Theorem C69_left_out_settings_refuted :
  exists m a cfg j g, m_json m cfg = Some j /\ assemble m 0 (with_files a [cfg]) = Ok [g] /\
  oget j "num-mutants" = None /\ oget j "validate-mutants" = None /\ oget j "print-original" = None /\
  ma_count a = 4 /\ rp_count (gp_run g) = 5 /\
  ma_verify a = true /\ rp_verify (gp_run g) = false /\
  ma_original a = true /\ rp_original (gp_run g) = false.
Proof. exact left_out_wrong. Qed.
Print Assumptions C69_left_out_settings_refuted.

(** Missing: the number of mutants, validation and printing the original. *)
Theorem C69_left_out_settings_partial :
  forall m now a cfg l j gs g,
  recognize_config m cfg = Some l -> m_json m cfg = Some j -> assemble m now (with_files a [cfg]) = Ok gs -> In g gs ->
  (oget j "seed" = None -> gp_rng g = initial_seed a now /\ gp_seed g = initial_seed a now) /\
  (oget j "mutations" = None -> oget j "all-mutations" = None -> rp_types (gp_run g) = requested_types a) /\
  (oget j "functions" = None -> rp_functions (gp_run g) = ma_function a) /\
  (oget j "output-directory" = None -> rp_outdir (gp_run g) = ma_outdir a /\ rp_stdout (gp_run g) = ma_stdout a) /\
  (oget j "compiler-details" = None -> gp_prefs g = to_prefs (ma_settings a)).
Proof. exact left_out. Qed.
Print Assumptions C69_left_out_settings_partial.

Example C69_example : recognize_config bare_machine "a.mgnx" = Some LSolidity /\
  oget (config_json []) "seed" = None /\ oget (config_json []) "mutations" = None /\
  oget (config_json []) "all-mutations" = None /\ oget (config_json []) "functions" = None /\
  rp_types (gp_run (asked bare_machine (with_files (cl "out" 1 []) ["a.mgnx"]) 0)) = [Generic Assignment].
Proof. vm_compute. repeat split. Qed.

(** ** C70: one input file does not affect another *)

Theorem C70_files_are_independent_refuted :
  exists m a g1 g2 g2', assemble m 0 (with_files a ["a.mgnx"; "b.mgnx"]) = Ok [g1; g2] /\
    assemble m 0 (with_files a ["b.mgnx"]) = Ok [g2'] /\ gp_rng g2 = 7%N /\ gp_rng g2' = 1%N.
Proof. exact independent_wrong. Qed.
Print Assumptions C70_files_are_independent_refuted.

(** Missing: files after a configuration file that sets the seed. *)
Theorem C70_files_are_independent_partial :
  forall m now a fs f gs,
  Forall (sets_no_seed m) fs -> assemble m now (with_files a (fs ++ [f])) = Ok gs ->
  exists gss last, Forall2 (fun f gs => assemble m now (with_files a [f]) = Ok gs) fs gss /\
    assemble m now (with_files a [f]) = Ok last /\ gs = concat gss ++ last.
Proof. exact one_at_a_time. Qed.
Print Assumptions C70_files_are_independent_partial.

Example C70_example :
  Forall (sets_no_seed pair_machine) ["b.mgnx"; "x.sol"] /\
  exists gs, assemble pair_machine 0 (with_files (cl "out" 1 []) (["b.mgnx"; "x.sol"] ++ ["a.mgnx"])) = Ok gs /\ length gs = 3.
Proof.
  split; [|eexists; split; [vm_compute; reflexivity|reflexivity]].
  constructor; [right; eexists; split; [vm_compute; reflexivity|reflexivity]|]. constructor; [left; reflexivity|constructor].
Qed.

(** ** C52: the pretty-print command *)

(** With [--stdout] only the first file that can be printed is printed. *)
Theorem C52_prints_every_file_to_stdout_refuted :
  exists m oc fl p text1 text2,
  text_of m oc fl p "a/x.ast" text1 /\ text_of m oc fl p "b/x.ast" text2 /\ text1 <> text2 /\
  pretty_print_files m oc fl p "out" true ["a/x.ast"; "b/x.ast"] = ([Shown text1], Ok tt).
Proof. exact stdout_wrong. Qed.
Print Assumptions C52_prints_every_file_to_stdout_refuted.

(** What [--stdout] does. *)
Theorem C52_first_file_to_stdout_partial :
  forall m oc fl p outdir f text before after,
  Forall (fun g => exists e, print_to_stream m oc fl p g = Err e) before ->
  text_of m oc fl p f text ->
  pretty_print_files m oc fl p outdir true (before ++ f :: after) = (map Complained before ++ [Shown text], Ok tt).
Proof. exact first_shown. Qed.
Print Assumptions C52_first_file_to_stdout_partial.

(** To files: two inputs with the same name overwrite each other, and a path
    without a file name ends the command. *)
Theorem C52_prints_every_file_refuted :
  (exists m oc fl p text1 text2 sh,
    text_of m oc fl p "a/x.ast" text1 /\ text_of m oc fl p "b/x.ast" text2 /\
    pretty_print_files m oc fl p "out" false ["a/x.ast"; "b/x.ast"] = (sh, Ok tt) /\
    forall file, last_saved file sh <> Some text1) /\
  (exists m oc fl p text,
    text_of m oc fl p "a/x.ast" text /\
    exists msg, pretty_print_files m oc fl p "out" false ["src/.."; "a/x.ast"] = ([], Panic msg)).
Proof. exact (conj same_name_wrong nameless_wrong). Qed.
Print Assumptions C52_prints_every_file_refuted.

(** Otherwise every file is printed. *)
Theorem C52_prints_every_file_partial :
  forall m oc fl p outdir files,
  Forall (fun f => (exists text, text_of m oc fl p f text) /\ exists b, file_name f = Some b) files ->
  (forall f, m_create m f = true) -> NoDup files ->
  (forall f f' out, In f files -> In f' files -> destination m p outdir f out -> destination m p outdir f' out -> f = f') ->
  exists sh, pretty_print_files m oc fl p outdir false files = (sh, Ok tt) /\
    forall f, In f files -> exists out text,
      destination m p outdir f out /\ text_of m oc fl p f text /\ last_saved out sh = Some text.
Proof. exact each_holds_its_text. Qed.
Print Assumptions C52_prints_every_file_partial.

(** And a file that cannot be printed does not keep the others from being
    dealt with. *)
Theorem C52_every_file_is_dealt_with_partial :
  forall m oc fl p outdir files sh,
  pretty_print_files m oc fl p outdir false files = (sh, Ok tt) ->
  Forall2 (dealt_with m oc fl p outdir) files sh.
Proof. exact all_dealt. Qed.
Print Assumptions C52_every_file_is_dealt_with_partial.

Definition three_files : machine := sources [("a/x.ast", pragma "8"); ("b/y.ast", pragma "9")].
Example C52_example : let p := to_prefs default_settings in
  let files := ["a/x.ast"; "b/y.ast"; "none"] in
  text_of three_files false no_float p "a/x.ast" (pragma_text "8") /\
  (exists e, print_to_stream three_files false no_float p "none" = Err e) /\
  (destination three_files p "out" "a/x.ast" "out/x.ast.sol" /\ destination three_files p "out" "b/y.ast" "out/y.ast.sol") /\
  pretty_print_files three_files false no_float p "out" false files =
    ([Saved "out/x.ast.sol" (pragma_text "8"); Saved "out/y.ast.sol" (pragma_text "9"); Complained "none"], Ok tt).
Proof.
  cbv zeta. split; [exists LSolidity, FAst, (pragma "8"); repeat split; vm_compute; reflexivity|].
  split; [eexists; vm_compute; reflexivity|].
  split; [split; exists LSolidity, FAst; split; vm_compute; reflexivity|]. vm_compute. reflexivity.
Qed.

(** ** C66: only mutants that compile are kept *)

(** [checked_by at_ l p tmp W]: the validator of the run is the compiler of
    language [l] with preferences [p] run on the file [tmp]; [at_ k ast] is
    the computer when that file holds the [k]-th program checked, [ast].
    For Solidity, a compiler that rejects every program and whose parser
    accepts them all lets every mutant pass. *)
Theorem C66_kept_mutants_compile_refuted :
  exists at_ p W P fuel ast r,
  checked_by at_ LSolidity p "/tmp/x.sol" W /\ rp_verify P = true /\ temp_name (w_tmp W) (rp_file P) = Ok "/tmp/x.sol" /\
  length (mutants (fst (generate (solidity_files ex_env) W P fuel ast r))) = 2 /\
  forall k ast', ~ compiled (at_ k ast') LSolidity p "/tmp/x.sol".
Proof. exact parses_only. Qed.
Print Assumptions C66_kept_mutants_compile_refuted.

(** Vyper: every mutant kept was accepted by the compiler, or by the compiler
    in the docker image. *)
Theorem C66_kept_vyper_mutants_compile :
  forall e at_ p tmp W P fuel ast r,
  checked_by at_ LVyper p tmp W -> rp_verify P = true ->
  forall ast' mr, In (ast', mr) (mutants (fst (generate (vyper_files e) W P fuel ast r))) ->
  exists k, compiled (at_ k ast') LVyper p tmp.
Proof. exact vyper_validated. Qed.
Print Assumptions C66_kept_vyper_mutants_compile.

(** Solidity: every mutant kept was accepted by the compiler, or at least by
    its parser. *)
Theorem C66_kept_solidity_mutants_partial :
  forall e at_ p tmp W P fuel ast r,
  checked_by at_ LSolidity p tmp W -> rp_verify P = true ->
  forall ast' mr, In (ast', mr) (mutants (fst (generate (solidity_files e) W P fuel ast r))) ->
  exists k, let m := at_ k ast' in let args := sol_flags p ++ ["--overwrite"; "-o"; m_tmp m; tmp] in
    m_exec m (solc p) args = Some true \/ m_exec m (solc p) (args ++ ["--stop-after"; "parsing"]) = Some true.
Proof. exact sol_validated. Qed.
Print Assumptions C66_kept_solidity_mutants_partial.

Example C66_example : exists W, checked_by (fun _ _ => strict_machine) LSolidity (to_prefs default_settings) "/tmp/x.sol" W /\
  rp_verify ex_params = true /\
  length (mutants (fst (generate (solidity_files ex_env) W ex_params 20 ex_unit ex_rng))) = 2.
Proof. exists (strict_world (to_prefs default_settings)). split; [intros k a; reflexivity|]. split; vm_compute; reflexivity. Qed.

(** ** C67: the compiler is given the user's options *)

Theorem C67_options_reach_the_compiler_refuted :
  exists s,
  wanted (st_solidity s) <> solc_reads (sol_flags (to_prefs s)) /\
  ss_allow (st_solidity s) = ["lib"; "vendor"] /\
  so_allow (solc_reads (sol_flags (to_prefs s))) = ["lib"; ""] /\
  so_inputs (solc_reads (sol_flags (to_prefs s))) = ["vendor"].
Proof. exact allow_wrong. Qed.
Print Assumptions C67_options_reach_the_compiler_refuted.

(** Missing: two or more allowed paths. *)
Theorem C67_options_reach_the_compiler_partial :
  forall s, let o := st_solidity s in
  (ss_allow o = [] \/ exists a, ss_allow o = [a] /\ str_contains ","%char a = false) ->
  Forall (fun r => ~ is_option r) (ss_remap o) ->
  solc_reads (sol_flags (to_prefs s)) = wanted o.
Proof. exact options_reach. Qed.
Print Assumptions C67_options_reach_the_compiler_partial.

Theorem C67_compiler_and_root_path :
  forall s, solc (to_prefs s) = ss_compiler (st_solidity s) /\ vyperc (to_prefs s) = vs_compiler (st_vyper s) /\
  vy_flags (to_prefs s) = match vs_root (st_vyper s) with Some r => ["-p"; r] | None => [] end.
Proof. exact compiler_path. Qed.
Print Assumptions C67_compiler_and_root_path.

Definition ex_settings : settings := {|
  st_solidity := {| ss_compiler := "solc-8"; ss_base := Some "src"; ss_include := ["i1"; "i2"]; ss_allow := ["lib"];
                    ss_remap := ["@a=b"; "@c=d"]; ss_stop := Some "parsing" |};
  st_vyper := {| vs_compiler := "vyper"; vs_root := Some "contracts" |} |}.
Example C67_example :
  sol_flags (to_prefs ex_settings) =
    ["--base-path"; "src"; "--include-path"; "i1"; "--include-path"; "i2"; "--allow-paths"; "lib"; "@a=b"; "@c=d";
     "--stop-after"; "parsing"] /\
  Forall (fun r => ~ is_option r) (ss_remap (st_solidity ex_settings)) /\ str_contains ","%char "lib" = false.
Proof.
  split; [reflexivity|]. split; [|reflexivity].
  repeat constructor; unfold is_option; cbn; intuition discriminate.
Qed.
