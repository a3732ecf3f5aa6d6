(** C87, C88: the options of the command line reach every run; files are
    recognized and loaded as what they are.  The machine is arbitrary. *)
From Coq Require Import String Ascii List NArith ZArith Bool.
From Verif Require Import Base Json Rng MutationType OpCommon Language Generator Paths Prefs Config
  Compiler Cli SpecTree SpecOps SpecCli SpecInput InputFacts InputClaims.
Import ListNotations.
Open Scope string_scope.
Open Scope list_scope.

(** ** C87: the command line *)

(** One run for each file, in order, with the options given; the operators are
    those named, or all of them; a seed that is given is used. *)
Theorem C87_options_reach_every_run :
  forall m now a gs, no_configs m a -> assemble m now a = Ok gs ->
  map (fun g => rp_file (gp_run g)) gs = ma_files a /\
  forall g, In g gs ->
    rp_count (gp_run g) = ma_count a /\ rp_outdir (gp_run g) = ma_outdir a /\
    rp_stdout (gp_run g) = ma_stdout a /\ rp_verify (gp_run g) = ma_verify a /\
    rp_original (gp_run g) = ma_original a /\ rp_save (gp_run g) = ma_save a /\
    rp_functions (gp_run g) = ma_function a /\
    (forall t, In t (rp_types (gp_run g)) <->
       ma_all a = true \/ exists n, In (n, t) operator_names /\ In n (ma_mutation a)) /\
    ((0 <= ma_seed a)%Z -> Z.of_N (gp_rng g) = ma_seed a /\ Z.of_N (gp_seed g) = ma_seed a).
Proof. exact options_reach. Qed.
Print Assumptions C87_options_reach_every_run.

Example C87_example :
  no_configs kinds_machine option_args /\
  exists g g', assemble kinds_machine 5 option_args = Ok [g; g'] /\
  rp_types (gp_run g) = [Solidity Require; Generic Assignment] /\ gp_rng g' = 42%N.
Proof. exact option_example. Qed.

Example C87_all_example :
  exists g, assemble kinds_machine 5 all_args = Ok [g] /\ length (rp_types (gp_run g)) = 17.
Proof. exact all_example. Qed.

(** ** C88: input files *)

(** A file is taken for the first of the things it is: a configuration, a
    source its compiler accepts, a tree; Solidity before Vyper. *)
Theorem C88_recognized_as_what_it_is :
  forall m p f x, file_name f <> None -> (recognize m p f = Ok x <-> first_of m p f x).
Proof. exact recognize_iff. Qed.
Print Assumptions C88_recognized_as_what_it_is.

(** It is refused when it is none of them. *)
Theorem C88_refused_when_nothing :
  forall m p f, file_name f <> None -> ((exists e, recognize m p f = Err e) <-> forall x, ~ file_is m p f x).
Proof. exact unrecognized_iff. Qed.
Print Assumptions C88_refused_when_nothing.

(** A path without a file name is not refused: the program aborts. *)
Theorem C88_nameless_refuted :
  exists f, forall m p, m_json m f = None -> (forall x, ~ file_is m p f x) /\ exists s, recognize m p f = Panic s.
Proof. exact nameless_aborts. Qed.
Print Assumptions C88_nameless_refuted.

(** A tree is loaded exactly from a file that holds a tree of the language;
    a source gives the tree its compiler wrote. *)
Theorem C88_tree_files_load :
  forall m l p f j, load_ast m l FAst p f = Ok j <-> m_json m f = Some j /\ tree_of l j.
Proof. exact tree_files_load. Qed.
Print Assumptions C88_tree_files_load.

Theorem C88_source_files_load :
  forall m l p f j, load_ast m l FSource p f = Ok j ->
  exists out, translated m p f l out /\ m_json m out = Some j /\ tree_of l j.
Proof. exact load_source_ok. Qed.
Print Assumptions C88_source_files_load.

(** Whatever a run does, it does with a tree of the language of its file. *)
Theorem C88_runs_mutate_trees :
  forall e m pcg W fuel g evs out, run_one e m pcg W fuel g = (evs, out) -> evs <> [] ->
  exists l t ast,
    (file_name (rp_file (gp_run g)) <> None -> file_is m (gp_prefs g) (rp_file (gp_run g)) (l, t)) /\
    load_ast m l t (gp_prefs g) (rp_file (gp_run g)) = Ok ast /\ tree_of l ast /\
    generate (lang_files e l) (W g) (gp_run g) fuel ast (pcg (gp_rng g)) = (evs, out).
Proof. exact runs_mutate_trees. Qed.
Print Assumptions C88_runs_mutate_trees.

(** A computer with a file of each kind. *)
Example C88_kinds_example :
  let p := to_prefs default_settings in
  recognize kinds_machine p "a.sol" = Ok (LSolidity, FSource) /\
  recognize kinds_machine p "b.vy" = Ok (LVyper, FSource) /\
  recognize kinds_machine p "c.json" = Ok (LSolidity, FAst) /\
  recognize kinds_machine p "d.json" = Ok (LVyper, FAst) /\
  recognize kinds_machine p "e.mgnx" = Ok (LVyper, FConfig) /\
  (exists e, recognize kinds_machine p "f.json" = Err e) /\
  load_ast kinds_machine LSolidity FSource p "a.sol" = Ok unit_json /\
  load_ast kinds_machine LVyper FAst p "d.json" = Ok vyper_json.
Proof. exact kinds. Qed.
