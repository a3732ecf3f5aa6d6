(** The commands: [generate_mutants] (mutagenyx/src/mutation_generator.rs:80-242)
    with the loading and saving parts of [generate_mutations] (252-362), and
    [pretty_print_files] (mutagenyx/src/pretty_printing.rs:23-145). *)
From Coq Require Import String Ascii List NArith ZArith Bool.
From Verif Require Import Base Json Rng MutationType OpCommon Language Paths Generator Prefs Config
  Compiler VyPrinter SolPrinter.
Import ListNotations.
Open Scope string_scope.
Open Scope list_scope.

(** [MutateCLArgs] (main.rs:54-131). *)
Record mutate_args : Type := {
  ma_outdir : string;
  ma_files : list string;
  ma_seed : Z;
  ma_count : nat;
  ma_mutation : list string;
  ma_all : bool;
  ma_original : bool;
  ma_save : bool;
  ma_stdout : bool;
  ma_function : list string;
  ma_verify : bool;
  ma_settings : settings
}.

(** The defaults declared in main.rs:54-131, for the command line
    [mutagenyx mutate --file f1 --file f2 ...]. *)
Definition default_settings : settings := {|
  st_solidity := {| ss_compiler := "solc"; ss_base := None; ss_include := []; ss_allow := [];
                    ss_remap := []; ss_stop := None |};
  st_vyper := {| vs_compiler := "vyper"; vs_root := None |}
|}.
Definition mutate_files (files : list string) : mutate_args := {|
  ma_outdir := "out"; ma_files := files; ma_seed := (-1)%Z; ma_count := 1; ma_mutation := [];
  ma_all := false; ma_original := false; ma_save := false; ma_stdout := false; ma_function := [];
  ma_verify := false; ma_settings := default_settings
|}.

(** [GeneratorParameters] (generator_parameters.rs:9-48).  [gp_rng] is the
    number its generator was seeded with. *)
Record gparams : Type := {
  gp_run : run_params;
  gp_seed : N;
  gp_rng : N;
  gp_prefs : prefs
}.

(** Replacing the compiler preferences of a language (151-160). *)
Definition with_compiler (p : prefs) (l : language) (c : option prefs) : prefs :=
  match c with
  | None => p
  | Some cd =>
      match get_prefs p (show_language l) with
      | Some lp => set_prefs p (show_language l) (set_prefs lp "compiler" cd)
      | None => p
      end
  end.

(** The parameters for one file named in a configuration file (146-214):
    [seed] is the seed after line 168. *)
Definition config_params (a : mutate_args) (types : list mutation_type) (p : prefs) (l : language)
  (d : details) (seed : N) (file : string) : gparams := {|
  gp_run := {|
    rp_file := file;
    rp_count := N.to_nat (z_as_u64 (d_count d));
    rp_outdir :=
      match d_outdir d with
      | Some o => if o =?s "stdout" then ma_outdir a else o
      | None => ma_outdir a
      end;
    rp_stdout :=
      match d_outdir d with
      | Some o => if o =?s "stdout" then true else ma_stdout a
      | None => ma_stdout a
      end;
    rp_types :=
      if d_all d then all_mutation_types
      else if is_nil (d_mutations d) then types else d_mutations d;
    rp_verify := d_verify d;
    rp_original := d_original d;
    rp_save := ma_save a;
    rp_functions := if is_nil (d_functions d) then ma_function a else d_functions d
  |};
  gp_seed := seed;
  gp_rng := seed;
  gp_prefs := with_compiler p l (d_compiler d)
|}.

(** The parameters for a source or AST file (217-230). *)
Definition plain_params (a : mutate_args) (types : list mutation_type) (p : prefs) (seed rng : N)
  (file : string) : gparams := {|
  gp_run := {|
    rp_file := file; rp_count := ma_count a; rp_outdir := ma_outdir a; rp_stdout := ma_stdout a;
    rp_types := types; rp_verify := ma_verify a; rp_original := ma_original a; rp_save := ma_save a;
    rp_functions := ma_function a
  |};
  gp_seed := seed; gp_rng := rng; gp_prefs := p
|}.

(** The loop over the files (130-234).  [seed] is the variable of line 116,
    which a configuration file overwrites (167) for the files after it too;
    [rng0] is what [pcg] (128) was seeded with. *)
Fixpoint assemble_from (m : machine) (a : mutate_args) (types : list mutation_type) (p : prefs)
  (rng0 seed : N) (files : list string) : res (list gparams) :=
  match files with
  | [] => Ok []
  | f :: rest =>
      let? rec := recognize m p f in
      match snd rec with
      | FConfig =>
          let? d := read_config (m_json m) f in
          let seed := or_else (d_seed d) seed in
          let? more := assemble_from m a types p rng0 seed rest in
          Ok (map (config_params a types p (fst rec) d seed) (d_filenames d) ++ more)
      | _ =>
          let? more := assemble_from m a types p rng0 seed rest in
          Ok (plain_params a types p seed rng0 f :: more)
      end
  end.

(** The requested types (83-88) and the seed (116-126); [now] is the clock in
    milliseconds. *)
Definition requested_types (a : mutate_args) : list mutation_type :=
  if ma_all a then all_mutation_types else read_mts (ma_mutation a).
Definition initial_seed (a : mutate_args) (now : N) : N :=
  if (ma_seed a <? 0)%Z then (now mod 18446744073709551616)%N else Z.to_N (ma_seed a).

(** [generate_mutants] up to the parameters (80-234). *)
Definition assemble (m : machine) (now : N) (a : mutate_args) : res (list gparams) :=
  let seed := initial_seed a now in
  assemble_from m a (requested_types a) (to_prefs (ma_settings a)) seed seed (ma_files a).

(** The configuration saved for a run (307-337). *)
Definition default_compiler (l : language) : prefs :=
  set_string new_prefs "path" (match l with LSolidity => "solc" | LVyper => "vyper" end).
Definition saved_details (l : language) (g : gparams) : details := {|
  d_language := Some l;
  d_filenames := [rp_file (gp_run g)];
  d_count := n_as_i64 (N.of_nat (rp_count (gp_run g)));
  d_seed := Some (gp_seed g);
  d_mutations := rp_types (gp_run g);
  d_all := false;
  d_compiler :=
    match get_prefs (gp_prefs g) "compiler-details" with
    | Some c => Some c
    | None =>
        match get_prefs (gp_prefs g) (show_language l) with
        | Some lp => get_prefs lp "compiler"
        | None => Some (default_compiler l)
        end
    end;
  d_functions := rp_functions (gp_run g);
  d_verify := rp_verify (gp_run g);
  d_outdir := Some (rp_outdir (gp_run g));
  d_original := rp_original (gp_run g)
|}.

(** [generate_mutations] (252-543): recognize, load, generate.  [pcg] is
    [Pcg64::seed_from_u64]; [W] is what the outside world does during the run
    with these parameters. *)
Definition lang_files (e : env) (l : language) : glang :=
  match l with LSolidity => solidity_files e | LVyper => vyper_files e end.
Definition run_one (e : env) (m : machine) (pcg : N -> rng) (W : gparams -> world) (fuel : nat)
  (g : gparams) : list event * res gst :=
  match recognize m (gp_prefs g) (rp_file (gp_run g)) with
  | Ok (l, t) =>
      match load_ast m l t (gp_prefs g) (rp_file (gp_run g)) with
      | Ok ast => generate (lang_files e l) (W g) (gp_run g) fuel ast (pcg (gp_rng g))
      | Err x => ([], Err x)
      | Panic x => ([], Panic x)
      | Diverge => ([], Diverge)
      end
  | Err x => ([], Err x)
  | Panic x => ([], Panic x)
  | Diverge => ([], Diverge)
  end.

(** The second loop of [generate_mutants] (237-239): a failure ends the
    command. *)
Fixpoint run_each (e : env) (m : machine) (pcg : N -> rng) (W : gparams -> world) (fuel : nat)
  (gs : list gparams) : list event * res unit :=
  match gs with
  | [] => ([], Ok tt)
  | g :: gs =>
      and_then (run_one e m pcg W fuel g) (fun _ => run_each e m pcg W fuel gs)
  end.

Definition generate_mutants (e : env) (m : machine) (pcg : N -> rng) (W : gparams -> world)
  (fuel : nat) (now : N) (a : mutate_args) : list event * res unit :=
  match assemble m now a with
  | Ok gs => run_each e m pcg W fuel gs
  | Err x => ([], Err x)
  | Panic x => ([], Panic x)
  | Diverge => ([], Diverge)
  end.

(** ** The pretty-print command *)

(** [PrettyPrintCLArgs] (main.rs:135-179). *)
Record print_args : Type := {
  pa_outdir : string;
  pa_files : list string;
  pa_stdout : bool;
  pa_settings : settings
}.

(** The text of a tree ([PrettyPrinter::new(4, 150)]); [oc] and [fl] are those
    of the printers. *)
Definition tree_text (oc : bool) (fl : Z * Z -> string) (l : language) (ast : json) : res string :=
  match l with LSolidity => sol_print oc ast | LVyper => vy_print oc fl ast end.

Definition extension_of (l : language) : string :=
  match l with LSolidity => "sol" | LVyper => "vy" end.

(** What the command leaves behind: texts on the standard output, or files
    with their contents, and complaints. *)
Inductive shown : Type :=
| Shown (text : string)
| Saved (file text : string)
| Complained (file : string).

(** [pretty_print_file_to_stream] (125-145). *)
Definition print_to_stream (m : machine) (oc : bool) (fl : Z * Z -> string) (p : prefs) (file : string)
  : res string :=
  let? rec := recognize m p file in
  let? ast := load_ast m (fst rec) (snd rec) p file in
  tree_text oc fl (fst rec) ast.

(** [pretty_print_file] (73-116): the file written and its text. *)
Definition print_to_file (m : machine) (oc : bool) (fl : Z * Z -> string) (p : prefs) (outdir file : string)
  : res (string * string) :=
  let? rec := recognize m p file in
  let? ast := load_ast m (fst rec) (snd rec) p file in
  let? out := printed_name (extension_of (fst rec)) file outdir in
  if m_create m out then
    let? text := tree_text oc fl (fst rec) ast in Ok (out, text)
  else Err "IO".

(** [pretty_print_files] (44-63).  The result records how the command ended. *)
Fixpoint pretty_print_files (m : machine) (oc : bool) (fl : Z * Z -> string) (p : prefs)
  (outdir : string) (stdout : bool) (files : list string) : list shown * res unit :=
  match files with
  | [] => ([], Ok tt)
  | f :: rest =>
      if stdout then
        match print_to_stream m oc fl p f with
        | Ok text => ([Shown text], Ok tt)
        | Err _ =>
            let (sh, out) := pretty_print_files m oc fl p outdir stdout rest in
            (Complained f :: sh, out)
        | Panic x => ([], Panic x)
        | Diverge => ([], Diverge)
        end
      else
        match file_name f with
        | None => ([], no_name)
        | Some _ =>
            match print_to_file m oc fl p outdir f with
            | Ok (out, text) =>
                let (sh, r) := pretty_print_files m oc fl p outdir stdout rest in
                (Saved out text :: sh, r)
            | Err _ =>
                let (sh, r) := pretty_print_files m oc fl p outdir stdout rest in
                (Complained f :: sh, r)
            | Panic x => ([], Panic x)
            | Diverge => ([], Diverge)
            end
        end
  end.

Definition pretty_print_command (m : machine) (oc : bool) (fl : Z * Z -> string) (a : print_args)
  : list shown * res unit :=
  pretty_print_files m oc fl (to_prefs (pa_settings a)) (pa_outdir a) (pa_stdout a) (pa_files a).
