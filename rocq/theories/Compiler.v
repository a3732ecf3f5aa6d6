(** Running the compilers: mutagenyx/src/compiler_settings.rs and the parts of
    solidity/language_interface.rs and vyper/language_interface.rs (both under
    mutagenyx_lib/src) that build command lines; mutagenyx_lib/src/recognizer.rs;
    [load_ast_from_file] of json_ast_language_interface.rs. *)
From Coq Require Import String Ascii List NArith ZArith Bool.
From Verif Require Import Base Json MutationType Paths Prefs Config.
Import ListNotations.
Open Scope string_scope.
Open Scope list_scope.

(** The computer.
    [m_exec c args]  [shell_execute] (utility.rs:13-31): [None] when the
                     command cannot be started, otherwise whether it exited
                     successfully;
    [m_dash_o c]     [get_vyper_compiler_version] (215-259) compared with
                     3.0.0 (286, 300); [None] when it fails;
    [m_json f]       the JSON in a file, if it can be read;
    [m_create f]     whether the file can be created;
    [m_tmp]          the directory for temporary files.
    The files do not change while the command reads its inputs. *)
Record machine : Type := {
  m_exec : string -> list string -> option bool;
  m_dash_o : string -> option bool;
  m_json : string -> option json;
  m_create : string -> bool;
  m_tmp : string
}.

Definition succeeds (m : machine) (c : string) (args : list string) : bool :=
  match m_exec m c args with Some b => b | None => false end.

(** ** compiler_settings.rs *)

(** [SolidityCompilerSettings] (10-28) and [VyperCompilerSettings] (71-77). *)
Record sol_settings : Type := {
  ss_compiler : string;
  ss_base : option string;
  ss_include : list string;
  ss_allow : list string;
  ss_remap : list string;
  ss_stop : option string
}.
Record vy_settings : Type := { vs_compiler : string; vs_root : option string }.
Record settings : Type := { st_solidity : sol_settings; st_vyper : vy_settings }.

Definition set_string_opt (p : prefs) (k : string) (o : option string) : prefs :=
  match o with Some s => set_string p k s | None => p end.
Definition set_strings (p : prefs) (k : string) (l : list string) : prefs :=
  if is_nil l then p else set_array p k (map PStr l).

(** [SolidityCompilerSettings::to_preferences] (31-68). *)
Definition sol_to_prefs (s : sol_settings) : prefs :=
  let p := set_string new_prefs "path" (ss_compiler s) in
  let p := set_string_opt p "base-path" (ss_base s) in
  let p := set_strings p "include-paths" (ss_include s) in
  let p := set_strings p "allow-paths" (ss_allow s) in
  let p := set_strings p "remappings" (ss_remap s) in
  set_string_opt p "stop-after" (ss_stop s).

(** [VyperCompilerSettings::to_preferences] (80-89). *)
Definition vy_to_prefs (s : vy_settings) : prefs :=
  set_string_opt (set_string new_prefs "path" (vs_compiler s)) "root-path" (vs_root s).

(** [CompilerSettings::to_preferences] (119-137). *)
Definition to_prefs (s : settings) : prefs :=
  let sol := set_prefs new_prefs "compiler" (sol_to_prefs (st_solidity s)) in
  let vy := set_prefs new_prefs "compiler" (vy_to_prefs (st_vyper s)) in
  set_prefs (set_prefs new_prefs (show_language LSolidity) sol) (show_language LVyper) vy.

(** ** Command lines *)

(** The compiler preferences of a language, as every reader looks them up. *)
Definition compiler_prefs (p : prefs) (l : language) : option prefs :=
  match get_prefs p (show_language l) with
  | Some lp => get_prefs lp "compiler"
  | None => None
  end.

Definition path_of (p : prefs) (l : language) (default : string) : string :=
  match compiler_prefs p l with
  | Some c => match get_pstring c "path" with Some s => s | None => default end
  | None => default
  end.

(** [get_solidity_compiler_from_preferences] (227-240) and
    [get_vyper_compiler_from_preferences] (195-208). *)
Definition solc (p : prefs) : string := path_of p LSolidity "solc".
Definition vyperc (p : prefs) : string := path_of p LVyper "vyper".

(** The allow-paths loop (192-202): a comma is appended to every path but the
    one in the last position; each becomes an argument of its own. *)
Fixpoint allow_args (a : list pval) : list string :=
  match a with
  | [] => []
  | v :: rest =>
      match v with
      | PStr s => [if is_nil rest then s else String.append s ","]
      | _ => []
      end ++ allow_args rest
  end.

(** [get_solidity_compiler_flags_from_preferences] (170-220). *)
Definition sol_flags (p : prefs) : list string :=
  match compiler_prefs p LSolidity with
  | None => []
  | Some c =>
      match get_pstring c "base-path" with Some s => ["--base-path"; s] | None => [] end ++
      match get_parray c "include-paths" with
      | Some a => flat_map (fun v => match v with PStr s => ["--include-path"; s] | _ => [] end) a
      | None => []
      end ++
      match get_parray c "allow-paths" with
      | Some [] | None => []
      | Some a => "--allow-paths" :: allow_args a
      end ++
      match get_parray c "remappings" with
      | Some a => flat_map (fun v => match v with PStr s => [s] | _ => [] end) a
      | None => []
      end ++
      match get_pstring c "stop-after" with Some s => ["--stop-after"; s] | None => [] end
  end.

(** [get_vyper_compiler_flags_from_preferences] (174-188). *)
Definition vy_flags (p : prefs) : list string :=
  match compiler_prefs p LVyper with
  | None => []
  | Some c => match get_pstring c "root-path" with Some s => ["-p"; s] | None => [] end
  end.

(** [PathBuf::pop]: the path without its last component.  Simplified:
    repeated separators are collapsed. *)
Definition path_parent (s : string) : string :=
  String.append (if starts_with_slash s then "/" else "")
    (String.concat "/" (rev (tl (rev (components s))))).

Definition no_name {A} : res A := Panic "called `Option::unwrap()` on a `None` value".
Definition does_not_compile {A} : res A := Err "SourceDoesNotCompile".

(** Solidity [file_is_source_file] (248-297): where the compiler left the tree. *)
Definition sol_is_source (m : machine) (p : prefs) (file : string) : res string :=
  match file_name file with
  | None => no_name
  | Some base =>
      if succeeds m (solc p)
           (sol_flags p ++ ["--ast-compact-json"; "--overwrite"; "-o"; m_tmp m; file])
      then Ok (String.append (m_tmp m) (String.append "/" (String.append base "_json.ast")))
      else does_not_compile
  end.

(** Solidity [file_compiles] (305-326). *)
Definition sol_compiles (m : machine) (p : prefs) (file : string) : bool :=
  let args := sol_flags p ++ ["--overwrite"; "-o"; m_tmp m; file] in
  if succeeds m (solc p) args then true
  else succeeds m (solc p) (args ++ ["--stop-after"; "parsing"]).

(** Vyper [file_is_source_file_with_vyper_from_pip] (269-344). *)
Definition vy_is_source_pip (m : machine) (p : prefs) (file : string) : res string :=
  match file_name file with
  | None => no_name
  | Some base =>
      let out := path_join (m_tmp m) (String.append base ".json") in
      match m_dash_o m (vyperc p) with
      | None => Err "CompilerNoVersion"
      | Some true =>
          if succeeds m (vyperc p) (vy_flags p ++ ["-f"; "ast"; "-o"; out; file])
          then Ok out else does_not_compile
      | Some false =>
          if succeeds m (vyperc p) (vy_flags p ++ ["-f"; "ast"; file])
          then if m_create m out then Ok out else Err "IO" else does_not_compile
      end
  end.

Definition docker_args (p : prefs) (file : string) (options more : list string) : list string :=
  ["run"; "-v"; String.append (path_parent file) ":/code"; "vyperlang/vyper"] ++
  options ++ vy_flags p ++ [file] ++ more.

(** Vyper [file_is_source_file_with_docker] (352-409). *)
Definition vy_is_source_docker (m : machine) (p : prefs) (file : string) : res string :=
  match file_name file with
  | None => no_name
  | Some base =>
      let out := String.append (m_tmp m) (String.append "/" (String.append base ".json")) in
      if succeeds m "docker" (docker_args p file ["-f"; "ast"] ["-o"; out])
      then Ok out else does_not_compile
  end.

(** Vyper [file_compiles] (411-494). *)
Definition vy_compiles (m : machine) (p : prefs) (file : string) : bool :=
  if succeeds m (vyperc p) (vy_flags p ++ [file]) then true
  else succeeds m "docker" (docker_args p file [] []).

(** [mutant_compiles] of the delegates (solidity 139-141, vyper 143-145). *)
Definition compiles (m : machine) (l : language) (p : prefs) (file : string) : bool :=
  match l with LSolidity => sol_compiles m p file | LVyper => vy_compiles m p file end.

(** ** Recognizing and loading the input *)

(** [json_is_language_ast_json] (solidity 88-95, vyper 86-91). *)
Definition is_ast (l : language) (j : json) : bool :=
  match l with
  | LSolidity => match get_str j "nodeType" with Some t => t =?s "SourceUnit" | None => false end
  | LVyper =>
      match kget j "contract_name", kget j "ast" with Some _, Some _ => true | _, _ => false end
  end.

(** [file_is_language_source_file] (solidity 114-116, vyper 117-120); the
    second attempt is only made when the first fails. *)
Definition is_ok {A} (r : res A) : res bool :=
  match r with
  | Ok _ => Ok true
  | Err _ => Ok false
  | Panic s => Panic s
  | Diverge => Diverge
  end.
Definition is_source (m : machine) (l : language) (p : prefs) (file : string) : res bool :=
  match l with
  | LSolidity => is_ok (sol_is_source m p file)
  | LVyper =>
      let? b := is_ok (vy_is_source_pip m p file) in
      if b then Ok true else is_ok (vy_is_source_docker m p file)
  end.

(** [FileType] (recognizer.rs:17-21). *)
Inductive file_type : Type := FSource | FAst | FConfig.

(** [recognize_config_file] (112-125). *)
Definition recognize_config (m : machine) (file : string) : option language :=
  match path_extension file with
  | Some x =>
      if x =?s "mgnx" then
        match m_json m file with
        | Some j => match get_str j "language" with Some s => read_language s | None => None end
        | None => None
        end
      else None
  | None => None
  end.

(** [file_is_language_ast_file] (json_ast_language_interface.rs:238-243). *)
Definition is_ast_file (m : machine) (l : language) (file : string) : bool :=
  match m_json m file with Some j => is_ast l j | None => false end.

(** [recognize_file] (133-148), with [recognize_source_file] (66-82) and
    [recognize_ast_file] (89-105): Solidity before Vyper
    (language_interface.rs:245-252). *)
Definition recognize (m : machine) (p : prefs) (file : string) : res (language * file_type) :=
  match recognize_config m file with
  | Some l => Ok (l, FConfig)
  | None =>
      let? s := is_source m LSolidity p file in
      if s then Ok (LSolidity, FSource)
      else
        let? v := is_source m LVyper p file in
        if v then Ok (LVyper, FSource)
        else if is_ast_file m LSolidity file then Ok (LSolidity, FAst)
        else if is_ast_file m LVyper file then Ok (LVyper, FAst)
        else Err "LanguageNotRecognized"
  end.

(** [load_json_from_file_with_name] then [get_value_as_super_ast]
    (solidity 63-70, vyper 62-68). *)
Definition load_tree (m : machine) (l : language) (file : string) : res json :=
  match m_json m file with
  | None => Err "IO"
  | Some j => if is_ast l j then Ok j else Err "LanguageNotRecognized"
  end.

(** [convert_source_file_to_ast] (solidity 97-112, vyper 93-115). *)
Definition load_source (m : machine) (l : language) (p : prefs) (file : string) : res json :=
  match l with
  | LSolidity =>
      match sol_is_source m p file with
      | Ok out => load_tree m l out
      | Err _ => does_not_compile
      | Panic s => Panic s
      | Diverge => Diverge
      end
  | LVyper =>
      match vy_is_source_pip m p file with
      | Ok out => load_tree m l out
      | Err _ =>
          match vy_is_source_docker m p file with
          | Ok out => load_tree m l out
          | Err _ => does_not_compile
          | Panic s => Panic s
          | Diverge => Diverge
          end
      | Panic s => Panic s
      | Diverge => Diverge
      end
  end.

(** [load_ast_from_file] (json_ast_language_interface.rs:63-81). *)
Definition load_ast (m : machine) (l : language) (t : file_type) (p : prefs) (file : string) : res json :=
  match t with
  | FSource => load_source m l p file
  | FAst => load_tree m l file
  | FConfig => Err "ConfigFileNotSupported"
  end.
