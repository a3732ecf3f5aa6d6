(** What the command line promises. *)
From Coq Require Import String Ascii List NArith ZArith Bool.
From Verif Require Import Base Json SpecTree SpecJson Rng MutationType OpCommon Language Paths Generator Prefs SpecPrefs
  Config Compiler Cli.
Import ListNotations.
Open Scope string_scope.
Open Scope list_scope.

(** ** Saved configurations *)

(** Two configurations say the same. *)
Record same_details (d d' : details) : Prop := {
  sd_language : d_language d = d_language d';
  sd_filenames : d_filenames d = d_filenames d';
  sd_count : d_count d = d_count d';
  sd_seed : d_seed d = d_seed d';
  sd_mutations : d_mutations d = d_mutations d';
  sd_all : d_all d = d_all d';
  sd_functions : d_functions d = d_functions d';
  sd_verify : d_verify d = d_verify d';
  sd_outdir : d_outdir d = d_outdir d';
  sd_original : d_original d = d_original d';
  sd_compiler : both same_prefs (d_compiler d) (d_compiler d')
}.

(** Two sets of parameters ask for the same run: same file, same number of
    mutants, same random stream, same output directory, same types, same
    options, same functions, same compiler settings. *)
Record same_run (l : language) (g g' : gparams) : Prop := {
  sr_file : rp_file (gp_run g) = rp_file (gp_run g');
  sr_count : rp_count (gp_run g) = rp_count (gp_run g');
  sr_rng : gp_rng g = gp_rng g';
  sr_outdir : rp_outdir (gp_run g) = rp_outdir (gp_run g');
  sr_types : rp_types (gp_run g) = rp_types (gp_run g');
  sr_verify : rp_verify (gp_run g) = rp_verify (gp_run g');
  sr_original : rp_original (gp_run g) = rp_original (gp_run g');
  sr_functions : rp_functions (gp_run g) = rp_functions (gp_run g');
  sr_compiler : both same_prefs (compiler_prefs (gp_prefs g) l) (compiler_prefs (gp_prefs g') l)
}.

(** Starting the tool on the configuration saved for [g], whatever the time
    and whatever else is on the computer, asks for the run [g] again. *)
Definition reproduced (l : language) (g : gparams) : Prop :=
  forall cfg m now,
    config_name (rp_file (gp_run g)) (rp_outdir (gp_run g)) = Ok cfg ->
    m_json m cfg = Some (json_of_details (saved_details l g)) ->
    exists g', assemble m now (mutate_files [cfg]) = Ok [g'] /\ same_run l g g'.

(** A command line none of whose files is a configuration. *)
Definition no_configs (m : machine) (a : mutate_args) : Prop :=
  forall f, In f (ma_files a) -> recognize_config m f = None.

(** Every key, at any depth, is ordinary. *)
Definition ordinary_keys (j : json) : Prop :=
  forall path o k, subtree path j = Some (JObj o) -> In k (map fst o) -> ordinary k.

(** The compiler details of every configuration on the command line have
    ordinary keys. *)
Definition ordinary_configs (m : machine) (a : mutate_args) : Prop :=
  forall f j c, In f (ma_files a) -> m_json m f = Some j ->
    oget j "compiler-details" = Some c -> ordinary_keys c.
Definition canonical_files (m : machine) : Prop := forall f j, m_json m f = Some j -> canonical j.

(** The same command line with other files. *)
Definition with_files (a : mutate_args) (files : list string) : mutate_args := {|
  ma_outdir := ma_outdir a; ma_files := files; ma_seed := ma_seed a; ma_count := ma_count a;
  ma_mutation := ma_mutation a; ma_all := ma_all a; ma_original := ma_original a; ma_save := ma_save a;
  ma_stdout := ma_stdout a; ma_function := ma_function a; ma_verify := ma_verify a;
  ma_settings := ma_settings a
|}.

(** A file that is not a configuration with a seed. *)
Definition sets_no_seed (m : machine) (f : string) : Prop :=
  recognize_config m f = None \/
  exists d, read_config (m_json m) f = Ok d /\ d_seed d = None.

(** ** The Solidity compiler's command line, as it reads it *)

Record solc_options : Type := {
  so_base : list string;
  so_include : list string;
  so_allow : list string;
  so_stop : list string;
  so_inputs : list string
}.
Definition no_options : solc_options :=
  {| so_base := []; so_include := []; so_allow := []; so_stop := []; so_inputs := [] |}.

(** Each option takes the argument after it; the value of [--allow-paths] is a
    comma separated list; anything else is an input (a file or a remapping). *)
Fixpoint solc_reads (args : list string) : solc_options :=
  match args with
  | [] => no_options
  | a :: rest =>
      let other :=
        let o := solc_reads rest in
        {| so_base := so_base o; so_include := so_include o; so_allow := so_allow o;
           so_stop := so_stop o; so_inputs := a :: so_inputs o |} in
      match rest with
      | [] => other
      | v :: rest' =>
          let o := solc_reads rest' in
          if a =?s "--base-path" then
            {| so_base := v :: so_base o; so_include := so_include o; so_allow := so_allow o;
               so_stop := so_stop o; so_inputs := so_inputs o |}
          else if a =?s "--include-path" then
            {| so_base := so_base o; so_include := v :: so_include o; so_allow := so_allow o;
               so_stop := so_stop o; so_inputs := so_inputs o |}
          else if a =?s "--allow-paths" then
            {| so_base := so_base o; so_include := so_include o; so_allow := split_on "," v ++ so_allow o;
               so_stop := so_stop o; so_inputs := so_inputs o |}
          else if a =?s "--stop-after" then
            {| so_base := so_base o; so_include := so_include o; so_allow := so_allow o;
               so_stop := v :: so_stop o; so_inputs := so_inputs o |}
          else other
      end
  end.

(** What the user asked for. *)
Definition list_of {A} (o : option A) : list A := match o with Some a => [a] | None => [] end.
Definition wanted (s : sol_settings) : solc_options := {|
  so_base := list_of (ss_base s); so_include := ss_include s; so_allow := ss_allow s;
  so_stop := list_of (ss_stop s); so_inputs := ss_remap s
|}.
Definition is_option (s : string) : Prop :=
  In s ["--base-path"; "--include-path"; "--allow-paths"; "--stop-after"].

(** The compiler is told to look at the syntax only. *)
Definition parse_only (args : list string) : Prop :=
  exists a b, args = a ++ "--stop-after" :: "parsing" :: b.

(** A validator built from a compiler: the [k]-th program checked is [ast],
    printed to [tmp], on the computer [at_ k ast]. *)
Definition checked_by (at_ : nat -> json -> machine) (l : language) (p : prefs) (tmp : string)
  (W : world) : Prop :=
  forall k ast, w_accepts W k ast = compiles (at_ k ast) l p tmp.

(** ** Pretty-printing *)

(** The last text saved to a file. *)
Fixpoint last_saved (file : string) (sh : list shown) : option string :=
  match sh with
  | [] => None
  | Saved f text :: sh =>
      match last_saved file sh with
      | Some t => Some t
      | None => if f =?s file then Some text else None
      end
  | _ :: sh => last_saved file sh
  end.

(** Each of the files is dealt with: its tree is printed under its own name,
    or a complaint says that it could not be. *)
Definition dealt_with (m : machine) (oc : bool) (fl : Z * Z -> string) (p : prefs) (outdir f : string)
  (s : shown) : Prop :=
  (exists l t ast out text,
     recognize m p f = Ok (l, t) /\ load_ast m l t p f = Ok ast /\ tree_text oc fl l ast = Ok text /\
     printed_name (extension_of l) f outdir = Ok out /\ s = Saved out text) \/
  (s = Complained f /\
   ((exists e, recognize m p f = Err e) \/
    (exists l t e, recognize m p f = Ok (l, t) /\ load_ast m l t p f = Err e) \/
    (exists l t ast e, recognize m p f = Ok (l, t) /\ load_ast m l t p f = Ok ast /\ tree_text oc fl l ast = Err e) \/
    (exists l t out, recognize m p f = Ok (l, t) /\ printed_name (extension_of l) f outdir = Ok out /\
       m_create m out = false))).

(** The text of one file, as the command should print it. *)
Definition text_of (m : machine) (oc : bool) (fl : Z * Z -> string) (p : prefs) (f text : string) : Prop :=
  exists l t ast, recognize m p f = Ok (l, t) /\ load_ast m l t p f = Ok ast /\ tree_text oc fl l ast = Ok text.

(** ** What a run does, leaving aside the saved configuration *)
Definition is_config (ev : event) : bool :=
  match ev with WroteConfig _ | ShowedConfig => true | _ => false end.
Definition effects (evs : list event) : list event := filter (fun ev => negb (is_config ev)) evs.

(** The compiler accepted the whole program in [file], not only its syntax. *)
Definition compiled (m : machine) (l : language) (p : prefs) (file : string) : Prop :=
  match l with
  | LSolidity => exists args, In file args /\ ~ parse_only args /\ m_exec m (solc p) args = Some true
  | LVyper =>
      (exists args, In file args /\ m_exec m (vyperc p) args = Some true) \/
      (exists args, In file args /\ In "vyperlang/vyper" args /\ m_exec m "docker" args = Some true)
  end.

(** Where the text of a file goes. *)
Definition destination (m : machine) (p : prefs) (outdir f out : string) : Prop :=
  exists l t, recognize m p f = Ok (l, t) /\ printed_name (extension_of l) f outdir = Ok out.
