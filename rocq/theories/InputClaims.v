(** The claims about the command line and the input files. *)
From Coq Require Import String Ascii List NArith ZArith Bool Lia.
From Verif Require Import Base Json JsonFacts Rng MutationType OpCommon Language Generator Paths Prefs Config
  Compiler Cli SpecTree SpecOps SpecCli CliClaims SpecInput InputFacts.
Import ListNotations.
Open Scope string_scope.
Open Scope list_scope.

Lemma options_reach m now a gs : no_configs m a -> assemble m now a = Ok gs ->
  map (fun g => rp_file (gp_run g)) gs = ma_files a /\
  forall g, In g gs ->
    rp_count (gp_run g) = ma_count a /\ rp_outdir (gp_run g) = ma_outdir a /\
    rp_stdout (gp_run g) = ma_stdout a /\ rp_verify (gp_run g) = ma_verify a /\
    rp_original (gp_run g) = ma_original a /\ rp_save (gp_run g) = ma_save a /\
    rp_functions (gp_run g) = ma_function a /\
    (forall t, In t (rp_types (gp_run g)) <->
       ma_all a = true \/ exists n, In (n, t) operator_names /\ In n (ma_mutation a)) /\
    ((0 <= ma_seed a)%Z -> Z.of_N (gp_rng g) = ma_seed a /\ Z.of_N (gp_seed g) = ma_seed a).
Proof.
  intros N A. rewrite (plain_files m now a gs N A). split.
  - rewrite map_map. cbn. apply map_id.
  - intros g I. apply in_map_iff in I. destruct I as (f & <- & _). cbn. repeat (split; [reflexivity|]).
    split; [apply requested_iff|]. intros S. unfold initial_seed. replace (ma_seed a <? 0)%Z with false by (symmetry; apply Z.ltb_ge; lia).
    rewrite Z2N.id by lia. auto.
Qed.

Lemma tree_files_load m l p f j : load_ast m l FAst p f = Ok j <-> m_json m f = Some j /\ tree_of l j.
Proof. apply load_tree_iff. Qed.

Lemma nameless_aborts : exists f, forall m p, m_json m f = None -> (forall x, ~ file_is m p f x) /\ exists s, recognize m p f = Panic s.
Proof.
  exists "..". intros m p J. split; [|now apply nameless]. intros [l []].
  - intros (out & T). inversion T; discriminate.
  - cbn. intros (j & E & _). congruence.
  - intros ((st & _ & F) & _). discriminate.
Qed.

Lemma runs_mutate_trees e m pcg W fuel g evs out : run_one e m pcg W fuel g = (evs, out) -> evs <> [] ->
  exists l t ast,
    (file_name (rp_file (gp_run g)) <> None -> file_is m (gp_prefs g) (rp_file (gp_run g)) (l, t)) /\
    load_ast m l t (gp_prefs g) (rp_file (gp_run g)) = Ok ast /\ tree_of l ast /\
    generate (lang_files e l) (W g) (gp_run g) fuel ast (pcg (gp_rng g)) = (evs, out).
Proof.
  unfold run_one. intros H N.
  destruct (recognize m (gp_prefs g) (rp_file (gp_run g))) as [[l t]| | |] eqn:R; try (injection H as <- <-; contradiction).
  destruct (load_ast m l t (gp_prefs g) (rp_file (gp_run g))) as [ast| | |] eqn:L; try (injection H as <- <-; contradiction).
  exists l, t, ast. split; [|split; [exact L|split; [exact (load_ok _ _ _ _ _ _ L)|exact H]]].
  intros F. apply (recognize_iff m (gp_prefs g) _ _ F) in R. now destruct R as (a & b & _ & I & _).
Qed.

(** ** A computer with a file of each kind *)

Definition unit_json : json := JObj [("nodeType", JStr "SourceUnit"); ("nodes", JArr [])].
Definition vyper_json : json := JObj [("ast", JObj [("body", JArr [])]); ("contract_name", JStr "d")].
Definition kinds_machine : machine := {|
  m_exec := fun c args => Some ((c =?s "solc") && existsb (String.eqb "a.sol") args || (c =?s "vyper") && existsb (String.eqb "b.vy") args);
  m_dash_o := fun _ => Some true;
  m_json := fun f =>
    if f =?s "/tmp/a.sol_json.ast" then Some unit_json
    else if f =?s "c.json" then Some unit_json
    else if f =?s "d.json" then Some vyper_json
    else if f =?s "e.mgnx" then Some (JObj [("language", JStr "Vyper")])
    else if f =?s "f.json" then Some (JObj [("nodeType", JStr "Block")])
    else None;
  m_create := fun _ => true;
  m_tmp := "/tmp"
|}.

Definition option_args : mutate_args := {|
  ma_outdir := "results"; ma_files := ["a.sol"; "b.vy"]; ma_seed := 42; ma_count := 7;
  ma_mutation := ["Require"; "NoSuchThing"; "Assignment"]; ma_all := false; ma_original := true; ma_save := true;
  ma_stdout := false; ma_function := ["f"]; ma_verify := true; ma_settings := default_settings
|}.
Definition all_args : mutate_args := {|
  ma_outdir := "results"; ma_files := ["c.json"]; ma_seed := (-1); ma_count := 7;
  ma_mutation := []; ma_all := true; ma_original := true; ma_save := true;
  ma_stdout := false; ma_function := []; ma_verify := true; ma_settings := default_settings
|}.

Lemma option_example : no_configs kinds_machine option_args /\
  exists g g', assemble kinds_machine 5 option_args = Ok [g; g'] /\
  rp_types (gp_run g) = [Solidity Require; Generic Assignment] /\ gp_rng g' = 42%N.
Proof.
  split; [intros f [<-|[<-|[]]]; reflexivity|]. eexists. eexists. split; [reflexivity|]. split; reflexivity.
Qed.
Lemma all_example : exists g, assemble kinds_machine 5 all_args = Ok [g] /\ length (rp_types (gp_run g)) = 17.
Proof. eexists. split; reflexivity. Qed.

Lemma kinds : let p := to_prefs default_settings in
  recognize kinds_machine p "a.sol" = Ok (LSolidity, FSource) /\
  recognize kinds_machine p "b.vy" = Ok (LVyper, FSource) /\
  recognize kinds_machine p "c.json" = Ok (LSolidity, FAst) /\
  recognize kinds_machine p "d.json" = Ok (LVyper, FAst) /\
  recognize kinds_machine p "e.mgnx" = Ok (LVyper, FConfig) /\
  (exists e, recognize kinds_machine p "f.json" = Err e) /\
  load_ast kinds_machine LSolidity FSource p "a.sol" = Ok unit_json /\
  load_ast kinds_machine LVyper FAst p "d.json" = Ok vyper_json.
Proof. cbv zeta. repeat split; try reflexivity. eexists. reflexivity. Qed.
