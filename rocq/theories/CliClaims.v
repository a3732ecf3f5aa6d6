(** The claims about the commands. *)
From Coq Require Import String Ascii List NArith ZArith Bool Lia.
From Verif Require Import Base Json JsonFacts SpecTree SpecJson Rng Permissions MutationType Traverse OpCommon Language
  Paths PathFacts Generator SpecGenerator GenFacts GenLaws Prefs SpecPrefs PrefFacts Config Compiler Cli SpecCli
  CliFacts CliRun Samples GenWitness.
Import ListNotations.
Open Scope string_scope.
Open Scope list_scope.

(** ** C37 *)

Lemma run_reproduced m now a gs g l base :
  assemble m now a = Ok gs -> In g gs -> canonical_files m -> ordinary_configs m a ->
  gp_rng g = gp_seed g -> (gp_seed g < 2 ^ 63)%N -> (N.of_nat (rp_count (gp_run g)) < 2 ^ 64)%N ->
  rp_outdir (gp_run g) <> "stdout" ->
  file_name (rp_file (gp_run g)) = Some base -> file_stem base <> "" ->
  reproduced l g.
Proof.
  intros A I Cf Oc Hr Hs Hc Ho F S cfg m' now' C M. unfold assemble in A.
  destruct (member _ _ _ _ _ _ _ A I) as (f & s & If & H).
  destruct (member_compiler _ _ _ _ _ _ l Cf Oc If H) as (Hd & c & Hp & Hg).
  destruct (reproduces l g base c F S Hs Hr Hc Ho Hd Hp Hg cfg m' now' C M) as (g' & A' & S' & _). eauto.
Qed.

Lemma plain_member m now a gs g : no_configs m a -> assemble m now a = Ok gs -> In g gs ->
  exists f, In f (ma_files a) /\
    g = plain_params a (requested_types a) (to_prefs (ma_settings a)) (initial_seed a now) (initial_seed a now) f.
Proof.
  unfold assemble. generalize (initial_seed a now) as s. intros s N. unfold no_configs in N. revert gs.
  induction (ma_files a) as [|f rest IH]; intros gs A I; [injection A as <-; destruct I|].
  cbn [assemble_from] in A. destruct (recognize m _ f) as [[l t]| | |] eqn:R; try discriminate. cbn [bind snd fst] in A.
  assert (T : t <> FConfig).
  { intros ->. apply recognize_conf in R. rewrite (N f) in R by (now left). discriminate. }
  destruct t; [| |contradiction];
    (destruct (assemble_from m a _ _ s s rest) as [more| | |] eqn:E; try discriminate; cbn [bind] in A; injection A as <-;
     destruct I as [<-|I]; [exists f; split; [now left|reflexivity]|];
     destruct (IH (fun f H => N f (or_intror H)) more eq_refl I) as (f' & I' & G); exists f'; split; [now right|exact G]).
Qed.

Lemma initial_seed_small a now : (ma_seed a < 2 ^ 63)%Z -> (now < 2 ^ 63)%N -> (initial_seed a now < 2 ^ 63)%N.
Proof.
  intros A B. unfold initial_seed. destruct (ma_seed a <? 0)%Z eqn:E; [rewrite N.mod_small by lia; exact B|].
  apply Z.ltb_ge in E. lia.
Qed.

Lemma command_line_full m now a gs g l base :
  no_configs m a -> assemble m now a = Ok gs -> In g gs ->
  (ma_seed a < 2 ^ 63)%Z -> (now < 2 ^ 63)%N -> (N.of_nat (ma_count a) < 2 ^ 64)%N -> ma_outdir a <> "stdout" ->
  file_name (rp_file (gp_run g)) = Some base -> file_stem base <> "" ->
  forall cfg m' now',
    config_name (rp_file (gp_run g)) (rp_outdir (gp_run g)) = Ok cfg ->
    m_json m' cfg = Some (json_of_details (saved_details l g)) ->
    exists g', assemble m' now' (mutate_files [cfg]) = Ok [g'] /\ same_run l g g' /\ rp_stdout (gp_run g') = false.
Proof.
  intros N A I Hs Hn Hc Ho F S. destruct (plain_member _ _ _ _ _ N A I) as (f & If & ->).
  apply (reproduces l _ base (compiler_settings (ma_settings a) l)); try assumption.
  - now apply initial_seed_small.
  - reflexivity.
  - reflexivity.
  - apply to_prefs_compiler.
  - destruct l; [apply good_sol|apply good_vy].
Qed.

Lemma command_line_reproduced m now a gs g l base :
  no_configs m a -> assemble m now a = Ok gs -> In g gs ->
  (ma_seed a < 2 ^ 63)%Z -> (now < 2 ^ 63)%N -> (N.of_nat (ma_count a) < 2 ^ 64)%N -> ma_outdir a <> "stdout" ->
  file_name (rp_file (gp_run g)) = Some base -> file_stem base <> "" ->
  reproduced l g.
Proof.
  intros N A I Hs Hn Hc Ho F S cfg m' now' C M.
  destruct (command_line_full m now a gs g l base N A I Hs Hn Hc Ho F S cfg m' now' C M) as (g' & A' & S' & _). eauto.
Qed.

Lemma solidity_source_first m p q f : same_compiler LSolidity p q ->
  recognize m p f = Ok (LSolidity, FSource) -> recognize m q f = Ok (LSolidity, FSource).
Proof.
  intros S R. unfold recognize in *. destruct (recognize_config m f); [exact R|].
  rewrite <- (same_source m LSolidity p q f S).
  destruct (is_source m LSolidity p f) as [[]| | |]; try discriminate; [reflexivity|].
  cbn [bind] in R. destruct (is_source m LVyper p f) as [[]| | |]; try discriminate. cbn [bind] in R.
  destruct (is_ast_file m LSolidity f); [discriminate|]. destruct (is_ast_file m LVyper f); discriminate.
Qed.

Lemma rerun m0 now0 a gs g l t base :
  no_configs m0 a -> assemble m0 now0 a = Ok gs -> In g gs ->
  (ma_seed a < 2 ^ 63)%Z -> (now0 < 2 ^ 63)%N -> (N.of_nat (ma_count a) < 2 ^ 64)%N ->
  ma_outdir a <> "stdout" -> ma_stdout a = false ->
  file_name (rp_file (gp_run g)) = Some base -> file_stem base <> "" ->
  forall e m pcg W fuel now cfg,
  config_name (rp_file (gp_run g)) (rp_outdir (gp_run g)) = Ok cfg ->
  m_json m cfg = Some (json_of_details (saved_details l g)) ->
  (l = LSolidity /\ t = FSource /\ recognize m (gp_prefs g) (rp_file (gp_run g)) = Ok (l, t) \/
   forall q, same_compiler l (gp_prefs g) q -> recognize m q (rp_file (gp_run g)) = Ok (l, t)) ->
  (forall g', same_run l g g' -> W g' = W g) -> w_config (W g) = Ok tt ->
  effects (fst (generate_mutants e m pcg W fuel now (mutate_files [cfg]))) =
  effects (fst (run_one e m pcg W fuel g)).
Proof.
  intros N A I Hs Hn Hc Ho Hd F S e m pcg W fuel now cfg C M R Hw Wc.
  destruct (command_line_full m0 now0 a gs g l base N A I Hs Hn Hc Ho F S cfg m now C M) as (g' & A' & S' & D').
  destruct (plain_member _ _ _ _ _ N A I) as (f & If & Eg).
  assert (Dg : rp_stdout (gp_run g) = false) by (subst g; exact Hd).
  assert (Rg : recognize m (gp_prefs g) (rp_file (gp_run g)) = Ok (l, t)).
  { destruct R as [(_ & _ & R)|R]; [exact R|]. apply R. unfold same_compiler.
    destruct (compiler_prefs (gp_prefs g) l); constructor. apply same_prefs_refl. }
  assert (Rg' : recognize m (gp_prefs g') (rp_file (gp_run g)) = Ok (l, t)).
  { destruct R as [(-> & -> & R)|R].
    - apply (solidity_source_first m (gp_prefs g)); [apply (sr_compiler _ _ _ S')|exact R].
    - apply R. apply (sr_compiler _ _ _ S'). }
  unfold generate_mutants. rewrite A'. cbn [run_each].
  rewrite and_then_events by reflexivity. symmetry.
  apply (run_one_same e m pcg W fuel l t g g' cfg S'); try assumption; [congruence|symmetry; now apply Hw].
Qed.

(** Counterexamples. *)
Definition config_json (more : list (string * json)) : json :=
  mkobj (("language", JStr "Solidity") :: ("filenames", JArr [JStr "src/c.sol"]) :: more).
Definition pc (f : string) (j : json) : machine := {|
  m_exec := fun _ _ => Some true; m_dash_o := fun _ => Some true;
  m_json := fun f' => if f' =?s f then Some j else None; m_create := fun _ => true; m_tmp := "/tmp" |}.
Definition cl (outdir : string) (seed : Z) (files : list string) : mutate_args := {|
  ma_outdir := outdir; ma_files := files; ma_seed := seed; ma_count := 4; ma_mutation := ["Assignment"];
  ma_all := false; ma_original := true; ma_save := true; ma_stdout := false; ma_function := ["f"];
  ma_verify := true; ma_settings := default_settings |}.
Definition no_gparams : gparams := plain_params (mutate_files []) [] [] 0 0 "".
Definition asked (m : machine) (a : mutate_args) (k : nat) : gparams :=
  match assemble m 0 a with Ok gs => nth k gs no_gparams | _ => no_gparams end.

Lemma not_reproduced l g cfg (prop : gparams -> Prop) :
  config_name (rp_file (gp_run g)) (rp_outdir (gp_run g)) = Ok cfg ->
  (forall g', same_run l g g' -> prop g') ->
  (match assemble (pc cfg (json_of_details (saved_details l g))) 0 (mutate_files [cfg]) with
   | Ok [g'] => ~ prop g'
   | _ => True
   end) -> ~ reproduced l g.
Proof.
  intros C Pr H R. destruct (R cfg (pc cfg (json_of_details (saved_details l g))) 0%N C) as (g' & A & S).
  - cbn. now rewrite String.eqb_refl.
  - rewrite A in H. now apply H, Pr.
Qed.

(** The configuration saved for [b.sol] records the seed of [a.mgnx]. *)
Definition leak_machine : machine := pc "a.mgnx" (config_json [("seed", juint 7)]).
Definition leak_args : mutate_args := cl "out" 1 ["a.mgnx"; "b.sol"].
Lemma seed_leak : let g := asked leak_machine leak_args 1 in
  (exists gs, assemble leak_machine 0 leak_args = Ok gs /\ In g gs) /\
  rp_file (gp_run g) = "b.sol" /\ gp_rng g = 1%N /\ gp_seed g = 7%N /\ ~ reproduced LSolidity g.
Proof.
  cbv zeta. split; [eexists; split; [vm_compute; reflexivity|right; now left]|]. split; [reflexivity|].
  split; [reflexivity|]. split; [reflexivity|].
  apply (not_reproduced _ _ "out/b.mgnx" (fun g' => gp_rng g' = 1%N)).
  - reflexivity.
  - intros g' S. symmetry. exact (sr_rng _ _ _ S).
  - vm_compute. discriminate.
Qed.

(** A negative seed in a configuration. *)
Definition negative_machine : machine := pc "a.mgnx" (config_json [("seed", jint (-5))]).
Definition negative_args : mutate_args := cl "out" 1 ["a.mgnx"].
Lemma negative_seed : let g := asked negative_machine negative_args 0 in
  (exists gs, assemble negative_machine 0 negative_args = Ok gs /\ In g gs) /\
  gp_rng g = gp_seed g /\ ~ reproduced LSolidity g.
Proof.
  cbv zeta. split; [eexists; split; [vm_compute; reflexivity|now left]|]. split; [reflexivity|].
  apply (not_reproduced _ _ "out/c.mgnx" (fun g' => gp_rng g' = 18446744073709551611%N)).
  - reflexivity.
  - intros g' S. rewrite <- (sr_rng _ _ _ S). reflexivity.
  - vm_compute. discriminate.
Qed.

(** An output directory called [stdout]. *)
Definition stdout_args : mutate_args := cl "stdout" 1 ["src/b.sol"].
Lemma stdout_directory : let g := asked (pc "" JNull) stdout_args 0 in
  no_configs (pc "" JNull) stdout_args /\
  (exists gs, assemble (pc "" JNull) 0 stdout_args = Ok gs /\ In g gs) /\
  ~ reproduced LSolidity g.
Proof.
  cbv zeta. split; [intros f [<-|[]]; reflexivity|].
  split; [eexists; split; [vm_compute; reflexivity|now left]|].
  apply (not_reproduced _ _ "stdout/b.mgnx" (fun g' => rp_outdir (gp_run g') = "stdout")).
  - reflexivity.
  - intros g' S. rewrite <- (sr_outdir _ _ _ S). reflexivity.
  - vm_compute. discriminate.
Qed.

(** A file whose name is only an extension: what is saved is not recognized
    as a configuration. *)
Definition nameless_args : mutate_args := cl "out" 1 ["src/.sol"].
Lemma nameless_file : let g := asked (pc "" JNull) nameless_args 0 in
  no_configs (pc "" JNull) nameless_args /\
  (exists gs, assemble (pc "" JNull) 0 nameless_args = Ok gs /\ In g gs) /\
  ~ reproduced LSolidity g.
Proof.
  cbv zeta. split; [intros f [<-|[]]; reflexivity|].
  split; [eexists; split; [vm_compute; reflexivity|now left]|].
  apply (not_reproduced _ _ "out/.mgnx" (fun g' => rp_file (gp_run g') = "src/.sol")).
  - reflexivity.
  - intros g' S. rewrite <- (sr_file _ _ _ S). reflexivity.
  - vm_compute. discriminate.
Qed.

Lemma both_some_inv {A} (R : A -> A -> Prop) o o' a : both R o o' -> o = Some a -> exists b, o' = Some b /\ R a b.
Proof. intros [|x y H] E; [discriminate|]. injection E as ->. eauto. Qed.
Lemma same_map_inv x w : same_value (PMap x) w ->
  exists y, w = PMap y /\ forall k, both same_value (assoc k x) (assoc k y).
Proof. inversion 1; eauto. Qed.

(** Compiler details with a slash in a key: what they say is lost. *)
Definition slash_machine : machine := pc "a.mgnx" (config_json
  [("seed", juint 7);
   ("compiler-details", mkobj [("a", mkobj [("b", juint 1)]); ("a/b", juint 2); ("path", JStr "solc")])]).
Definition slash_args : mutate_args := cl "out" 1 ["a.mgnx"].
Definition slash_value (g : gparams) : option pval :=
  match compiler_prefs (gp_prefs g) LSolidity with
  | Some c => match get_value c "a" with Some (PMap x) => get_value x "b" | _ => None end
  | None => None
  end.
(** The same parameters with the entries of a hash map in another order. *)
Definition slash_params : gparams :=
  let g := asked slash_machine slash_args 0 in
  {| gp_run := gp_run g; gp_seed := gp_seed g; gp_rng := gp_rng g;
     gp_prefs := with_compiler (to_prefs default_settings) LSolidity
       (Some [("a", PMap [("b", PInt 1)]); ("a/b", PInt 2); ("path", PStr "solc")]) |}.
Lemma slash_key : let g := asked slash_machine slash_args 0 in
  (exists gs, assemble slash_machine 0 slash_args = Ok gs /\ In g gs) /\
  gp_rng g = gp_seed g /\ same_run LSolidity g slash_params /\ gp_seed slash_params = gp_seed g /\
  ~ reproduced LSolidity slash_params.
Proof.
  cbv zeta. split; [eexists; split; [vm_compute; reflexivity|now left]|]. split; [reflexivity|].
  split; [|split; [reflexivity|]].
  { constructor; try reflexivity.
    replace (compiler_prefs _ LSolidity) with
      (Some [("path", PStr "solc"); ("a/b", PInt 2); ("a", PMap [("b", PInt 1)])]) by (vm_compute; reflexivity).
    constructor. intro k. unfold get_value. cbn [assoc].
    destruct (string_dec k "path") as [->|N1]; [cbn; constructor; constructor|].
    destruct (string_dec k "a/b") as [->|N2]; [cbn; constructor; constructor|].
    destruct (string_dec k "a") as [->|N3]; [cbn; constructor; apply same_value_refl|].
    apply String.eqb_neq in N1, N2, N3. rewrite N1, N2, N3. constructor. }
  apply (not_reproduced _ _ "out/c.mgnx" (fun g' => slash_value g' = Some (PInt 1))).
  - reflexivity.
  - intros g' S. assert (C := sr_compiler _ _ _ S). unfold slash_value.
    eapply both_some_inv in C as (c' & -> & Q); [|vm_compute; reflexivity].
    specialize (Q "a"). eapply both_some_inv in Q as (w & -> & V); [|vm_compute; reflexivity].
    apply same_map_inv in V as (y & -> & Z). specialize (Z "b").
    eapply both_some_inv in Z as (w & E & V); [|vm_compute; reflexivity]. unfold get_value. rewrite E. now inversion V.
  - vm_compute. discriminate.
Qed.

(** ** C52 *)

Lemma to_file_dealt m oc fl p outdir f :
  match print_to_file m oc fl p outdir f with
  | Ok (out, text) => dealt_with m oc fl p outdir f (Saved out text)
  | Err _ => dealt_with m oc fl p outdir f (Complained f)
  | _ => True
  end.
Proof.
  unfold print_to_file, dealt_with. destruct (recognize m p f) as [[l t]|x| |] eqn:R; cbn [bind fst snd]; try exact I.
  2:{ right. split; [reflexivity|]. left. eauto. }
  destruct (load_ast m l t p f) as [ast|x| |] eqn:L; cbn [bind]; try exact I.
  2:{ right. split; [reflexivity|]. right. left. eauto. }
  destruct (printed_name (extension_of l) f outdir) as [out|x| |] eqn:N; cbn [bind]; try exact I.
  2:{ unfold printed_name in N. destruct (file_name f); discriminate. }
  destruct (m_create m out) eqn:C.
  - destruct (tree_text oc fl l ast) as [text|x| |] eqn:T; cbn [bind]; try exact I.
    + left. exists l, t, ast, out, text. auto.
    + right. split; [reflexivity|]. right. right. left. exists l, t, ast, x. auto.
  - right. split; [reflexivity|]. right. right. right. exists l, t, out. auto.
Qed.

Lemma all_dealt m oc fl p outdir files : forall sh,
  pretty_print_files m oc fl p outdir false files = (sh, Ok tt) ->
  Forall2 (dealt_with m oc fl p outdir) files sh.
Proof.
  induction files as [|f rest IH]; intros sh H; cbn [pretty_print_files] in H; [injection H as <-; constructor|].
  destruct (file_name f); [|discriminate]. assert (D := to_file_dealt m oc fl p outdir f).
  destruct (print_to_file m oc fl p outdir f) as [[out text]|x| |]; try discriminate;
    (destruct (pretty_print_files m oc fl p outdir false rest) as [sh' r]; injection H as <- ->; constructor; auto).
Qed.

(** When every file can be printed, every file is. *)
Lemma all_printed m oc fl p outdir files :
  Forall (fun f => (exists text, text_of m oc fl p f text) /\ exists b, file_name f = Some b) files ->
  (forall f, m_create m f = true) ->
  exists sh, pretty_print_files m oc fl p outdir false files = (sh, Ok tt) /\
    Forall2 (fun f s => exists out text, s = Saved out text /\ text_of m oc fl p f text) files sh.
Proof.
  intros F C. induction F as [|f rest [(text & l & t & ast & R & L & T) (b & B)] F (sh & IH & G)];
    cbn [pretty_print_files]; [eexists; split; [reflexivity|constructor]|].
  rewrite B. unfold print_to_file. rewrite R. cbn [bind fst snd]. rewrite L. cbn [bind].
  assert (N : exists out, printed_name (extension_of l) f outdir = Ok out)
    by (unfold printed_name; rewrite B; eauto).
  destruct N as (out & ->). cbn [bind]. rewrite C, T. cbn [bind]. rewrite IH. eexists. split; [reflexivity|].
  constructor; [|exact G]. exists out, text. split; [reflexivity|]. exists l, t, ast. auto.
Qed.

(** With distinct names each text is what its file finally holds. *)
Definition saved_name (s : shown) : list string := match s with Saved f _ => [f] | _ => [] end.

Lemma last_saved_none file sh : ~ In file (flat_map saved_name sh) -> last_saved file sh = None.
Proof.
  induction sh as [|s sh IH]; intro H; [reflexivity|]. cbn in H. destruct s as [x|f x|x]; cbn [last_saved]; [apply IH, H| |apply IH, H].
  cbn in H. rewrite IH by tauto. assert (N : f <> file) by tauto. apply String.eqb_neq in N. now rewrite N.
Qed.

Lemma last_saved_in sh : NoDup (flat_map saved_name sh) -> forall out text, In (Saved out text) sh ->
  last_saved out sh = Some text.
Proof.
  induction sh as [|s sh IH]; intros N out text I; [destruct I|]. cbn [flat_map] in N.
  destruct I as [->|I].
  - cbn [saved_name app] in N. inversion N as [|x l N1 N2]. cbn [last_saved].
    rewrite last_saved_none by exact N1. now rewrite String.eqb_refl.
  - destruct s as [x|f x|x]; cbn [last_saved]; cbn in N; [now apply IH| |now apply IH].
    inversion N as [|y l N1 N2]. now rewrite (IH N2 out text I).
Qed.

(** To the standard output: the first file that can be printed, and no other. *)
Lemma first_shown m oc fl p outdir f text before after :
  Forall (fun g => exists e, print_to_stream m oc fl p g = Err e) before ->
  text_of m oc fl p f text ->
  pretty_print_files m oc fl p outdir true (before ++ f :: after) = (map Complained before ++ [Shown text], Ok tt).
Proof.
  intros F (l & t & ast & R & L & T). induction F as [|g before (e & E) F IH]; cbn [app pretty_print_files map].
  - unfold print_to_stream. rewrite R. cbn [bind fst snd]. rewrite L. cbn [bind]. now rewrite T.
  - now rewrite E, IH.
Qed.

(** Counterexamples. *)
Definition empty_unit : json := mkobj [("nodeType", JStr "SourceUnit"); ("nodes", JArr []); ("src", JStr "0:0:0")].
Definition sources (files : list (string * json)) : machine := {|
  m_exec := fun _ _ => Some false; m_dash_o := fun _ => None;
  m_json := fun f => assoc f files; m_create := fun _ => true; m_tmp := "/tmp" |}.
Definition pragma (v : string) : json :=
  mkobj [("nodeType", JStr "SourceUnit");
         ("nodes", JArr [mkobj [("nodeType", JStr "PragmaDirective");
                                ("literals", JArr [JStr "solidity"; JStr "^"; JStr v])]])].
Definition pragma_text (v : string) : string :=
  String.append "pragma solidity ^" (String.append v (String ";" (String "010" (String "010" "")))).
Definition two_files : machine := sources [("a/x.ast", pragma "8"); ("b/x.ast", pragma "9")].
Definition no_float (_ : Z * Z) : string := "".

Lemma stdout_second : let p := to_prefs default_settings in
  text_of two_files false no_float p "a/x.ast" (pragma_text "8") /\
  text_of two_files false no_float p "b/x.ast" (pragma_text "9") /\
  pretty_print_files two_files false no_float p "out" true ["a/x.ast"; "b/x.ast"] =
    ([Shown (pragma_text "8")], Ok tt).
Proof.
  cbv zeta. split; [|split].
  - exists LSolidity, FAst, (pragma "8"). repeat split; vm_compute; reflexivity.
  - exists LSolidity, FAst, (pragma "9"). repeat split; vm_compute; reflexivity.
  - vm_compute. reflexivity.
Qed.

Lemma same_name_lost : let p := to_prefs default_settings in
  text_of two_files false no_float p "a/x.ast" (pragma_text "8") /\
  text_of two_files false no_float p "b/x.ast" (pragma_text "9") /\
  exists sh, pretty_print_files two_files false no_float p "out" false ["a/x.ast"; "b/x.ast"] = (sh, Ok tt) /\
    forall file, last_saved file sh <> Some (pragma_text "8").
Proof.
  cbv zeta. split; [apply stdout_second|]. split; [apply stdout_second|]. eexists. split; [vm_compute; reflexivity|].
  intro file. cbn [last_saved]. destruct (_ =?s file)%string; [discriminate|]. cbn [last_saved].
  try destruct (_ =?s file)%string; discriminate.
Qed.

(** A path without a file name ends the command; the files after it are not
    printed. *)
Lemma nameless_ends : let p := to_prefs default_settings in
  text_of two_files false no_float p "a/x.ast" (pragma_text "8") /\
  pretty_print_files two_files false no_float p "out" false ["src/.."; "a/x.ast"] =
    ([], Panic "called `Option::unwrap()` on a `None` value").
Proof. cbv zeta. split; [apply stdout_second|]. vm_compute. reflexivity. Qed.

(** ** C66 *)

Lemma vy_compiled m p file : vy_compiles m p file = true -> compiled m LVyper p file.
Proof.
  unfold vy_compiles, succeeds. destruct (m_exec m (vyperc p) (vy_flags p ++ [file])) as [[]|] eqn:E; intro H.
  - left. exists (vy_flags p ++ [file]). split; [apply in_or_app; right; now left|exact E].
  - right. destruct (m_exec m "docker" _) as [[]|] eqn:D; try discriminate. eexists. split; [|split; [|exact D]].
    + unfold docker_args. apply in_or_app. right. apply in_or_app. right. apply in_or_app. right. now left.
    + unfold docker_args. apply in_or_app. left. cbn. tauto.
  - right. destruct (m_exec m "docker" _) as [[]|] eqn:D; try discriminate. eexists. split; [|split; [|exact D]].
    + unfold docker_args. apply in_or_app. right. apply in_or_app. right. apply in_or_app. right. now left.
    + unfold docker_args. apply in_or_app. left. cbn. tauto.
Qed.

Lemma vyper_validated e at_ p tmp W P fuel ast r :
  checked_by at_ LVyper p tmp W -> rp_verify P = true ->
  forall ast' mr, In (ast', mr) (mutants (fst (generate (vyper_files e) W P fuel ast r))) ->
  exists k, compiled (at_ k ast') LVyper p tmp.
Proof.
  intros C V ast' mr I. unfold mutants in I. apply in_flat_map in I as (ev & I & M).
  apply in_split in I as (b & a & E).
  assert (M' : mutant_of ev = [(ast', mr)]) by (destruct ev; cbn in M; try tauto; destruct M as [M|[]]; cbn; now rewrite M).
  destruct (validated_lemma _ _ _ _ _ _ V _ _ _ _ _ E M') as (_ & k & A). exists k. apply vy_compiled.
  rewrite <- A. symmetry. apply C.
Qed.

Lemma sol_validated e at_ p tmp W P fuel ast r :
  checked_by at_ LSolidity p tmp W -> rp_verify P = true ->
  forall ast' mr, In (ast', mr) (mutants (fst (generate (solidity_files e) W P fuel ast r))) ->
  exists k, let m := at_ k ast' in let args := sol_flags p ++ ["--overwrite"; "-o"; m_tmp m; tmp] in
    m_exec m (solc p) args = Some true \/ m_exec m (solc p) (args ++ ["--stop-after"; "parsing"]) = Some true.
Proof.
  intros C V ast' mr I. unfold mutants in I. apply in_flat_map in I as (ev & I & M).
  apply in_split in I as (b & a & E).
  assert (M' : mutant_of ev = [(ast', mr)]) by (destruct ev; cbn in M; try tauto; destruct M as [M|[]]; cbn; now rewrite M).
  destruct (validated_lemma _ _ _ _ _ _ V _ _ _ _ _ E M') as (_ & k & A). exists k. cbv zeta.
  rewrite C in A. cbn [compiles] in A. unfold sol_compiles, succeeds in A.
  destruct (m_exec (at_ k ast') (solc p) (sol_flags p ++ _)) as [[]|]; [now left| |]; right;
    (destruct (m_exec _ _ _) as [[]|]; [reflexivity|discriminate|discriminate]).
Qed.

(** A compiler that finds nothing wrong with the syntax, and something wrong
    with every program. *)
Fixpoint only_parses (args : list string) : bool :=
  match args with
  | a :: rest =>
      match rest with
      | b :: _ => ((a =?s "--stop-after") && (b =?s "parsing"))%bool || only_parses rest
      | [] => false
      end
  | [] => false
  end.
Lemma only_parses_parse args : only_parses args = true -> parse_only args.
Proof.
  induction args as [|a rest IH]; [discriminate|]. cbn [only_parses]. destruct rest as [|b rest]; [discriminate|].
  intro H. apply orb_true_iff in H as [H|H].
  - apply andb_true_iff in H as [A B]. apply String.eqb_eq in A, B. subst. exists [], rest. reflexivity.
  - destruct (IH H) as (x & y & E). exists (a :: x), y. now rewrite E.
Qed.
Definition strict_machine : machine := {|
  m_exec := fun _ args => Some (only_parses args); m_dash_o := fun _ => None; m_json := fun _ => None;
  m_create := fun _ => true; m_tmp := "/tmp" |}.
Definition strict_world (p : prefs) : world := {|
  w_accepts := fun _ _ => compiles strict_machine LSolidity p "/tmp/x.sol"; w_print := fun _ _ => Ok tt;
  w_config := Ok tt; w_tmp := "/tmp"; w_order := fun ms => ms |}.

Lemma strict_compiled p : ~ compiled strict_machine LSolidity p "/tmp/x.sol".
Proof. intros (args & _ & N & E). cbn in E. injection E as E. apply N. now apply only_parses_parse. Qed.

Lemma parses_only : exists at_ p W P fuel ast r,
  checked_by at_ LSolidity p "/tmp/x.sol" W /\ rp_verify P = true /\ temp_name (w_tmp W) (rp_file P) = Ok "/tmp/x.sol" /\
  length (mutants (fst (generate (solidity_files ex_env) W P fuel ast r))) = 2 /\
  forall k ast', ~ compiled (at_ k ast') LSolidity p "/tmp/x.sol".
Proof.
  exists (fun _ _ => strict_machine), (to_prefs default_settings), (strict_world (to_prefs default_settings)),
    ex_params, 20, ex_unit, ex_rng.
  split; [intros k a; reflexivity|]. split; [reflexivity|]. split; [vm_compute; reflexivity|].
  split; [vm_compute; reflexivity|]. intros _ _. apply strict_compiled.
Qed.

(** ** C67 *)

Lemma reads_includes l rest : solc_reads (flat_map (fun s => ["--include-path"; s]) l ++ rest) =
  let o := solc_reads rest in
  {| so_base := so_base o; so_include := l ++ so_include o; so_allow := so_allow o; so_stop := so_stop o;
     so_inputs := so_inputs o |}.
Proof.
  induction l as [|s l IH]; cbv zeta; [cbn [flat_map app]; now destruct (solc_reads rest)|].
  cbn [flat_map app]. cbn [solc_reads].
  cbn [String.eqb Ascii.eqb Bool.eqb]. cbv zeta. rewrite IH. reflexivity.
Qed.

Lemma reads_inputs l rest : Forall (fun s => ~ is_option s) l -> (rest = [] \/ exists v, rest = ["--stop-after"; v]) ->
  solc_reads (l ++ rest) =
  let o := solc_reads rest in
  {| so_base := so_base o; so_include := so_include o; so_allow := so_allow o; so_stop := so_stop o;
     so_inputs := l ++ so_inputs o |}.
Proof.
  intros F R. induction F as [|s l N F IH]; cbv zeta; [cbn [app]; now destruct (solc_reads rest)|].
  cbn [app]. cbn [solc_reads].
  assert (O : (s =?s "--base-path") = false /\ (s =?s "--include-path") = false /\ (s =?s "--allow-paths") = false /\
    (s =?s "--stop-after") = false).
  { repeat split; apply String.eqb_neq; intros ->; apply N; cbn; tauto. }
  destruct O as (-> & -> & -> & ->).
  destruct (l ++ rest) as [|v r] eqn:E.
  - apply app_eq_nil in E as [-> ->]. reflexivity.
  - rewrite IH. reflexivity.
Qed.

Lemma flat_strings (l : list string) (f : string -> list string) :
  flat_map (fun v => match v with PStr s => f s | _ => [] end) (map PStr l) = flat_map f l.
Proof. induction l as [|s l IH]; [reflexivity|]. cbn. now rewrite IH. Qed.
Lemma flat_single (l : list string) : flat_map (fun s => [s]) l = l.
Proof. induction l as [|s l IH]; [reflexivity|]. cbn. now rewrite IH. Qed.

Lemma compiler_get_strings c k l : get_parray (set_strings c k l) k =
  if is_nil l then get_parray c k else Some (map PStr l).
Proof. unfold set_strings. destruct (is_nil l) eqn:E; [reflexivity|]. unfold get_parray, set_array. now rewrite hm_insert_same. Qed.

Lemma sol_prefs_options s :
  let c := sol_to_prefs s in
  get_pstring c "path" = Some (ss_compiler s) /\
  get_pstring c "base-path" = ss_base s /\
  get_parray c "include-paths" = (if is_nil (ss_include s) then None else Some (map PStr (ss_include s))) /\
  get_parray c "allow-paths" = (if is_nil (ss_allow s) then None else Some (map PStr (ss_allow s))) /\
  get_parray c "remappings" = (if is_nil (ss_remap s) then None else Some (map PStr (ss_remap s))) /\
  get_pstring c "stop-after" = ss_stop s.
Proof.
  destruct s as [path [b|] [|i il] [|a al] [|r rl] [t|]]; cbv zeta; repeat split; reflexivity.
Qed.

Definition allow_opts (l : list string) : list string :=
  if is_nil l then [] else "--allow-paths" :: allow_args (map PStr l).
Lemma sol_flags_shape s : sol_flags (to_prefs s) =
  let o := st_solidity s in
  match ss_base o with Some b => ["--base-path"; b] | None => [] end ++
  flat_map (fun s => ["--include-path"; s]) (ss_include o) ++
  allow_opts (ss_allow o) ++
  ss_remap o ++
  match ss_stop o with Some b => ["--stop-after"; b] | None => [] end.
Proof.
  unfold sol_flags. rewrite to_prefs_compiler. cbn [compiler_settings].
  destruct (sol_prefs_options (st_solidity s)) as (_ & E1 & E2 & E3 & E4 & E5). cbv zeta in *.
  rewrite E1, E2, E3, E4, E5. f_equal. f_equal; [|f_equal; [|f_equal]].
  - destruct (ss_include (st_solidity s)) as [|x l]; [reflexivity|]. cbn [is_nil].
    apply (flat_strings (x :: l) (fun s => ["--include-path"; s])).
  - destruct (ss_allow (st_solidity s)) as [|x l]; reflexivity.
  - destruct (ss_remap (st_solidity s)) as [|x l]; [reflexivity|]. cbn [is_nil].
    rewrite (flat_strings (x :: l) (fun s => [s])). apply flat_single.
Qed.

Lemma options_reach s : let o := st_solidity s in
  (ss_allow o = [] \/ exists a, ss_allow o = [a] /\ str_contains ","%char a = false) ->
  Forall (fun r => ~ is_option r) (ss_remap o) ->
  solc_reads (sol_flags (to_prefs s)) = wanted o.
Proof.
  cbv zeta. intros A R. rewrite sol_flags_shape. cbv zeta. destruct (st_solidity s) as [path b incl allow remap stop].
  cbn [ss_base ss_include ss_allow ss_remap ss_stop wanted] in *.
  set (tail := match stop with Some x => ["--stop-after"; x] | None => [] end).
  assert (T : tail = [] \/ exists v, tail = ["--stop-after"; v]) by (unfold tail; destruct stop; eauto).
  assert (Al : solc_reads (allow_opts allow ++ remap ++ tail) =
    {| so_base := []; so_include := []; so_allow := allow; so_stop := list_of stop; so_inputs := remap |}).
  { assert (Ri : solc_reads (remap ++ tail) = {| so_base := []; so_include := []; so_allow := []; so_stop := list_of stop;
      so_inputs := remap |}).
    { rewrite reads_inputs by assumption. unfold tail. destruct stop; cbn; now rewrite app_nil_r. }
    destruct A as [->|(a & -> & C)]; [exact Ri|].
    unfold allow_opts. cbn [map allow_args is_nil app]. cbn [solc_reads]. cbn [String.eqb Ascii.eqb Bool.eqb]. cbv zeta. rewrite Ri.
    cbn. now rewrite split_on_none by exact C. }
  destruct b as [b|]; cbn [app].
  - cbn [solc_reads]. cbn [String.eqb Ascii.eqb Bool.eqb]. cbv zeta. rewrite reads_includes, Al. cbn. now rewrite app_nil_r.
  - rewrite reads_includes, Al. cbn. now rewrite app_nil_r.
Qed.

Definition two_allowed : settings := {|
  st_solidity := {| ss_compiler := "solc"; ss_base := None; ss_include := []; ss_allow := ["lib"; "vendor"];
                    ss_remap := []; ss_stop := None |};
  st_vyper := {| vs_compiler := "vyper"; vs_root := None |} |}.
Lemma allow_split : sol_flags (to_prefs two_allowed) = ["--allow-paths"; "lib,"; "vendor"] /\
  so_allow (solc_reads (sol_flags (to_prefs two_allowed))) = ["lib"; ""] /\
  so_inputs (solc_reads (sol_flags (to_prefs two_allowed))) = ["vendor"].
Proof. repeat split. Qed.

Lemma compiler_path s : solc (to_prefs s) = ss_compiler (st_solidity s) /\ vyperc (to_prefs s) = vs_compiler (st_vyper s) /\
  vy_flags (to_prefs s) = match vs_root (st_vyper s) with Some r => ["-p"; r] | None => [] end.
Proof.
  unfold solc, vyperc, path_of, vy_flags. rewrite !to_prefs_compiler. cbn [compiler_settings].
  destruct (sol_prefs_options (st_solidity s)) as (E & _). cbv zeta in E. rewrite E.
  destruct (st_vyper s) as [v [r|]]; repeat split.
Qed.

(** ** C68, C69: configuration files and the command line *)

Lemma config_alone m now a cfg l gs g : recognize_config m cfg = Some l -> assemble m now (with_files a [cfg]) = Ok gs ->
  In g gs -> exists d file, read_config (m_json m) cfg = Ok d /\ In file (d_filenames d) /\
  g = config_params a (requested_types a) (to_prefs (ma_settings a)) l d (or_else (d_seed d) (initial_seed a now)) file.
Proof.
  intros R A I. unfold assemble in A. cbn [ma_files with_files assemble_from] in A. unfold recognize in A. rewrite R in A.
  cbn [bind snd fst] in A. destruct (read_config (m_json m) cfg) as [d| | |] eqn:D; try discriminate.
  cbn [bind] in A. injection A as <-. rewrite app_nil_r in I. apply in_map_iff in I as (file & <- & I).
  exists d, file. split; [reflexivity|]. split; [exact I|reflexivity].
Qed.

Lemma config_details m cfg l d : recognize_config m cfg = Some l -> read_config (m_json m) cfg = Ok d ->
  exists j, m_json m cfg = Some j /\ details_of_json j = Ok d /\ d_language d = Some l.
Proof.
  intros R D. unfold recognize_config in R. unfold read_config in D. destruct (path_extension cfg) as [x|]; [|discriminate].
  destruct (x =?s "mgnx"); [|discriminate]. cbn [negb] in D. destruct (m_json m cfg) as [j|]; [|discriminate].
  exists j. split; [reflexivity|]. split; [exact D|]. unfold details_of_json in D.
  destruct (negb _ || negb _)%bool; [discriminate|]. destruct (get_str j "language") as [s|]; [|discriminate].
  destruct (read_language s); [|discriminate]. injection R as ->.
  destruct (match oget j "compiler-details" with Some _ => _ | None => _ end); try discriminate.
  cbn [bind] in D. injection D as <-. reflexivity.
Qed.

Lemma details_fields j d : details_of_json j = Ok d ->
  d_filenames d = or_else (option_map strings_of (get_array j "filenames")) [] /\
  d_count d = or_else (get_int j "num-mutants") 5%Z /\
  d_seed d = option_map z_as_u64 (get_int j "seed") /\
  d_mutations d = or_else (option_map (fun l => read_mts (strings_of l)) (get_array j "mutations")) [] /\
  d_all d = or_else (get_bool j "all-mutations") false /\
  d_functions d = or_else (option_map strings_of (get_array j "functions")) [] /\
  d_verify d = or_else (get_bool j "validate-mutants") false /\
  d_outdir d = get_str j "output-directory" /\
  d_original d = or_else (get_bool j "print-original") false /\
  match oget j "compiler-details" with
  | Some node => exists p, prefs_of_json node = Ok p /\ d_compiler d = Some p
  | None => d_compiler d = None
  end.
Proof.
  intro D. unfold details_of_json in D. destruct (negb _ || negb _)%bool; [discriminate|].
  destruct (get_str j "language") as [s|]; [|discriminate]. destruct (read_language s); [|discriminate].
  destruct (oget j "compiler-details") as [node|].
  - destruct (prefs_of_json node) as [p| | |]; try discriminate. cbn [bind] in D. injection D as <-. cbn.
    repeat split. eauto.
  - cbn [bind] in D. injection D as <-. cbn. repeat split.
Qed.

Ltac config_start R A I J D :=
  let Dd := fresh "Dd" in let j' := fresh "j" in let J' := fresh "J" in let E := fresh "E" in
  destruct (config_alone _ _ _ _ _ _ _ R A I) as (d & file & Dd & If & ->);
  destruct (config_details _ _ _ _ R Dd) as (j' & J' & D & _); rewrite J in J'; injection J' as <-;
  destruct (details_fields _ _ D) as (F1 & F2 & F3 & F4 & F5 & F6 & F7 & F8 & F9 & F10);
  cbn [config_params gp_run gp_rng gp_seed gp_prefs rp_file rp_count rp_outdir rp_stdout rp_types rp_verify rp_original
       rp_functions].

Lemma z_u64_small n : (n < 2 ^ 63)%N -> z_as_u64 (Z.of_N n) = n.
Proof. intro L. unfold z_as_u64. rewrite Z.mod_small by lia. lia. Qed.

Lemma overrides m now a cfg l j gs g :
  recognize_config m cfg = Some l -> m_json m cfg = Some j -> assemble m now (with_files a [cfg]) = Ok gs -> In g gs ->
  (forall fs, oget j "filenames" = Some (JArr (map JStr fs)) -> In (rp_file (gp_run g)) fs) /\
  (forall n, oget j "num-mutants" = Some (juint n) -> (n < 2 ^ 63)%N -> rp_count (gp_run g) = N.to_nat n) /\
  (forall n, oget j "seed" = Some (juint n) -> (n < 2 ^ 63)%N -> gp_rng g = n /\ gp_seed g = n) /\
  (oget j "all-mutations" = Some (JBool true) -> rp_types (gp_run g) = all_mutation_types) /\
  (forall ts, oget j "mutations" = Some (JArr (map (fun t => JStr (show_mt t)) ts)) -> ts <> [] ->
     oget j "all-mutations" <> Some (JBool true) -> rp_types (gp_run g) = ts) /\
  (forall fs, oget j "functions" = Some (JArr (map JStr fs)) -> fs <> [] -> rp_functions (gp_run g) = fs) /\
  (forall b, oget j "validate-mutants" = Some (JBool b) -> rp_verify (gp_run g) = b) /\
  (forall b, oget j "print-original" = Some (JBool b) -> rp_original (gp_run g) = b) /\
  (forall d, oget j "output-directory" = Some (JStr d) -> d <> "stdout" -> rp_outdir (gp_run g) = d) /\
  (oget j "output-directory" = Some (JStr "stdout") -> rp_stdout (gp_run g) = true) /\
  (forall node, oget j "compiler-details" = Some node ->
     exists p, prefs_of_json node = Ok p /\ compiler_prefs (gp_prefs g) l = Some p).
Proof.
  intros R J A I. config_start R A I J D. unfold get_array, get_int, get_bool, get_str in *.
  rewrite kget_plain in F1, F2, F3, F4, F5, F6, F7, F8, F9 by reflexivity.
  repeat split; intros.
  - rewrite H in F1. cbn in F1. rewrite strings_back in F1. now rewrite <- F1.
  - rewrite H in F2. cbn in F2. assert (L : (n <? 9223372036854775808)%N = true) by (now apply N.ltb_lt).
    rewrite L in F2. cbn in F2. rewrite F2. now rewrite z_u64_small.
  - rewrite H in F3. cbn in F3. assert (L : (n <? 9223372036854775808)%N = true) by (now apply N.ltb_lt).
    rewrite L in F3. cbn in F3. rewrite z_u64_small in F3 by assumption. now rewrite F3.
  - rewrite H in F3. cbn in F3. assert (L : (n <? 9223372036854775808)%N = true) by (now apply N.ltb_lt).
    rewrite L in F3. cbn in F3. rewrite z_u64_small in F3 by assumption. now rewrite F3.
  - rewrite H in F5. cbn in F5. now rewrite F5.
  - rewrite H in F4. cbn in F4. rewrite mutations_back in F4. rewrite F4.
    assert (Al : d_all d = false).
    { rewrite F5. destruct (oget j "all-mutations") as [[|[]| | | |]|]; try reflexivity. now contradiction H1. }
    rewrite Al. destruct ts; [contradiction|reflexivity].
  - rewrite H in F6. cbn in F6. rewrite strings_back in F6. rewrite F6. destruct fs; [contradiction|reflexivity].
  - rewrite H in F7. exact F7.
  - rewrite H in F9. exact F9.
  - rewrite H in F8. cbn in F8. rewrite F8. apply String.eqb_neq in H0. now rewrite H0.
  - rewrite H in F8. cbn in F8. rewrite F8. reflexivity.
  - rewrite H in F10. destruct F10 as (p & P & C). exists p. split; [exact P|]. rewrite C. apply with_compiler_get.
Qed.

Lemma left_out m now a cfg l j gs g :
  recognize_config m cfg = Some l -> m_json m cfg = Some j -> assemble m now (with_files a [cfg]) = Ok gs -> In g gs ->
  (oget j "seed" = None -> gp_rng g = initial_seed a now /\ gp_seed g = initial_seed a now) /\
  (oget j "mutations" = None -> oget j "all-mutations" = None -> rp_types (gp_run g) = requested_types a) /\
  (oget j "functions" = None -> rp_functions (gp_run g) = ma_function a) /\
  (oget j "output-directory" = None -> rp_outdir (gp_run g) = ma_outdir a /\ rp_stdout (gp_run g) = ma_stdout a) /\
  (oget j "compiler-details" = None -> gp_prefs g = to_prefs (ma_settings a)).
Proof.
  intros R J A I. config_start R A I J D. unfold get_array, get_int, get_bool, get_str in *.
  rewrite kget_plain in F1, F2, F3, F4, F5, F6, F7, F8, F9 by reflexivity.
  repeat split; intros.
  - rewrite H in F3. cbn in F3. now rewrite F3.
  - rewrite H in F3. cbn in F3. now rewrite F3.
  - rewrite H in F4. rewrite H0 in F5. cbn in F4, F5. now rewrite F4, F5.
  - rewrite H in F6. cbn in F6. now rewrite F6.
  - rewrite H in F8. cbn in F8. now rewrite F8.
  - rewrite H in F8. cbn in F8. now rewrite F8.
  - rewrite H in F10. now rewrite F10.
Qed.

Definition bare_machine : machine := pc "a.mgnx" (config_json []).
Lemma left_out_lost : let a := cl "out" 1 [] in let g := asked bare_machine (with_files a ["a.mgnx"]) 0 in
  assemble bare_machine 0 (with_files a ["a.mgnx"]) = Ok [g] /\
  oget (config_json []) "num-mutants" = None /\ oget (config_json []) "validate-mutants" = None /\
  oget (config_json []) "print-original" = None /\
  ma_count a = 4 /\ rp_count (gp_run g) = 5 /\
  ma_verify a = true /\ rp_verify (gp_run g) = false /\
  ma_original a = true /\ rp_original (gp_run g) = false.
Proof. vm_compute. repeat split. Qed.

(** ** C70: one file at a time *)

Lemma seedless m p f l s : sets_no_seed m f -> recognize m p f = Ok (l, FConfig) ->
  forall d, read_config (m_json m) f = Ok d -> or_else (d_seed d) s = s.
Proof.
  intros [N|(d0 & D0 & N)] R d D.
  - apply recognize_conf in R. congruence.
  - rewrite D0 in D. injection D as <-. now rewrite N.
Qed.

Lemma assemble_app m a types p rng0 seed fs rest : Forall (sets_no_seed m) fs ->
  assemble_from m a types p rng0 seed (fs ++ rest) =
  let? x := assemble_from m a types p rng0 seed fs in
  let? y := assemble_from m a types p rng0 seed rest in Ok (x ++ y).
Proof.
  induction 1 as [|f fs N F IH]; [cbn; now destruct (assemble_from m a types p rng0 seed rest)|].
  cbn [app assemble_from]. destruct (recognize m p f) as [[l t]| | |] eqn:R; try reflexivity. cbn [bind snd fst].
  destruct t.
  - rewrite IH. destruct (assemble_from m a types p rng0 seed fs); try reflexivity. cbn [bind].
    now destruct (assemble_from m a types p rng0 seed rest).
  - rewrite IH. destruct (assemble_from m a types p rng0 seed fs); try reflexivity. cbn [bind].
    now destruct (assemble_from m a types p rng0 seed rest).
  - destruct (read_config (m_json m) f) as [d| | |] eqn:D; try reflexivity. cbn [bind].
    rewrite (seedless m p f l seed N R d D). rewrite IH. destruct (assemble_from m a types p rng0 seed fs); try reflexivity.
    cbn [bind]. destruct (assemble_from m a types p rng0 seed rest); try reflexivity. cbn [bind]. now rewrite app_assoc.
Qed.

Lemma with_files_from m a fs types p rng0 fs' : forall seed,
  assemble_from m (with_files a fs') types p rng0 seed fs = assemble_from m a types p rng0 seed fs.
Proof.
  induction fs as [|f fs IH]; intro seed; [reflexivity|]. cbn [assemble_from].
  destruct (recognize m p f) as [[l []]| | |]; try reflexivity; cbn [bind snd fst].
  - now rewrite IH.
  - now rewrite IH.
  - destruct (read_config (m_json m) f); try reflexivity. cbn [bind]. now rewrite IH.
Qed.

Lemma assemble_files m now a fs : assemble m now (with_files a fs) =
  assemble_from m a (requested_types a) (to_prefs (ma_settings a)) (initial_seed a now) (initial_seed a now) fs.
Proof. unfold assemble. cbn [ma_files with_files]. exact (with_files_from m a fs _ _ _ fs _). Qed.

Lemma one_at_a_time m now a fs f gs :
  Forall (sets_no_seed m) fs -> assemble m now (with_files a (fs ++ [f])) = Ok gs ->
  exists gss last, Forall2 (fun f gs => assemble m now (with_files a [f]) = Ok gs) fs gss /\
    assemble m now (with_files a [f]) = Ok last /\ gs = concat gss ++ last.
Proof.
  intros F. revert gs. induction F as [|x fs N F IH]; intros gs A.
  - exists [], gs. split; [constructor|]. split; [exact A|reflexivity].
  - rewrite assemble_files in A. cbn [app] in A. change (x :: fs ++ [f]) with ([x] ++ (fs ++ [f])) in A.
    rewrite assemble_app in A by (constructor; [exact N|constructor]). rewrite <- !assemble_files in A.
    destruct (assemble m now (with_files a [x])) as [g1| | |] eqn:E1; try discriminate. cbn [bind] in A.
    destruct (assemble m now (with_files a (fs ++ [f]))) as [g2| | |] eqn:E2; try discriminate. cbn [bind] in A.
    injection A as <-. destruct (IH g2 eq_refl) as (gss & last & G & L & ->).
    exists (g1 :: gss), last. split; [now constructor|]. split; [exact L|]. cbn. now rewrite app_assoc.
Qed.

(** The seed of one configuration is used for the next. *)
Definition pair_machine : machine := {|
  m_exec := fun _ _ => Some true; m_dash_o := fun _ => Some true;
  m_json := fun f => if f =?s "a.mgnx" then Some (config_json [("seed", juint 7)])
                     else if f =?s "b.mgnx" then Some (config_json []) else None;
  m_create := fun _ => true; m_tmp := "/tmp" |}.
Lemma seed_carried : let a := cl "out" 1 [] in
  exists g1 g2 g2', assemble pair_machine 0 (with_files a ["a.mgnx"; "b.mgnx"]) = Ok [g1; g2] /\
    assemble pair_machine 0 (with_files a ["b.mgnx"]) = Ok [g2'] /\
    gp_rng g2 = 7%N /\ gp_rng g2' = 1%N.
Proof. cbv zeta. eexists _, _, _. split; [vm_compute; reflexivity|]. split; [vm_compute; reflexivity|]. split; reflexivity. Qed.

(** ** In the form stated *)

Lemma saved_seed_wrong : exists m a gs g, assemble m 0 a = Ok gs /\ In g gs /\
    rp_file (gp_run g) = "b.sol" /\ gp_rng g = 1%N /\ gp_seed g = 7%N /\ ~ reproduced LSolidity g.
Proof.
  destruct seed_leak as ((gs & A & I) & H). exists leak_machine, leak_args, gs, (asked leak_machine leak_args 1). auto.
Qed.
Lemma negative_seed_wrong :
  exists m a gs g, assemble m 0 a = Ok gs /\ In g gs /\ gp_rng g = gp_seed g /\ ~ reproduced LSolidity g.
Proof.
  destruct negative_seed as ((gs & A & I) & H).
  exists negative_machine, negative_args, gs, (asked negative_machine negative_args 0). auto.
Qed.
Lemma names_wrong :
  (exists m a gs g, no_configs m a /\ ma_outdir a = "stdout" /\ assemble m 0 a = Ok gs /\ In g gs /\
     ~ reproduced LSolidity g) /\
  (exists m a gs g, no_configs m a /\ ma_files a = ["src/.sol"] /\ assemble m 0 a = Ok gs /\ In g gs /\
     ~ reproduced LSolidity g).
Proof.
  split.
  - destruct stdout_directory as (N & (gs & A & I) & H). exists (pc "" JNull), stdout_args, gs, (asked (pc "" JNull) stdout_args 0). auto.
  - destruct nameless_file as (N & (gs & A & I) & H). exists (pc "" JNull), nameless_args, gs, (asked (pc "" JNull) nameless_args 0). auto.
Qed.
Lemma slash_wrong :
  exists m a gs g g2, assemble m 0 a = Ok gs /\ In g gs /\ gp_rng g = gp_seed g /\ same_run LSolidity g g2 /\
    gp_seed g2 = gp_seed g /\ ~ reproduced LSolidity g2.
Proof.
  destruct slash_key as ((gs & A & I) & H).
  exists slash_machine, slash_args, gs, (asked slash_machine slash_args 0), slash_params. auto.
Qed.
Lemma left_out_wrong :
  exists m a cfg j g, m_json m cfg = Some j /\ assemble m 0 (with_files a [cfg]) = Ok [g] /\
  oget j "num-mutants" = None /\ oget j "validate-mutants" = None /\ oget j "print-original" = None /\
  ma_count a = 4 /\ rp_count (gp_run g) = 5 /\
  ma_verify a = true /\ rp_verify (gp_run g) = false /\
  ma_original a = true /\ rp_original (gp_run g) = false.
Proof.
  exists bare_machine, (cl "out" 1 []), "a.mgnx", (config_json []), (asked bare_machine (with_files (cl "out" 1 []) ["a.mgnx"]) 0).
  split; [reflexivity|]. exact left_out_lost.
Qed.
Lemma independent_wrong :
  exists m a g1 g2 g2', assemble m 0 (with_files a ["a.mgnx"; "b.mgnx"]) = Ok [g1; g2] /\
    assemble m 0 (with_files a ["b.mgnx"]) = Ok [g2'] /\ gp_rng g2 = 7%N /\ gp_rng g2' = 1%N.
Proof. exists pair_machine, (cl "out" 1 []). exact seed_carried. Qed.
Lemma stdout_wrong : exists m oc fl p text1 text2,
  text_of m oc fl p "a/x.ast" text1 /\ text_of m oc fl p "b/x.ast" text2 /\ text1 <> text2 /\
  pretty_print_files m oc fl p "out" true ["a/x.ast"; "b/x.ast"] = ([Shown text1], Ok tt).
Proof.
  destruct stdout_second as (A & B & C).
  exists two_files, false, no_float, (to_prefs default_settings), (pragma_text "8"), (pragma_text "9").
  split; [exact A|]. split; [exact B|]. split; [discriminate|exact C].
Qed.
Lemma same_name_wrong : exists m oc fl p text1 text2 sh,
  text_of m oc fl p "a/x.ast" text1 /\ text_of m oc fl p "b/x.ast" text2 /\
  pretty_print_files m oc fl p "out" false ["a/x.ast"; "b/x.ast"] = (sh, Ok tt) /\
  forall file, last_saved file sh <> Some text1.
Proof.
  destruct same_name_lost as (A & B & sh & C & D).
  exists two_files, false, no_float, (to_prefs default_settings), (pragma_text "8"), (pragma_text "9"), sh. auto.
Qed.
Lemma nameless_wrong : exists m oc fl p text,
  text_of m oc fl p "a/x.ast" text /\
  exists msg, pretty_print_files m oc fl p "out" false ["src/.."; "a/x.ast"] = ([], Panic msg).
Proof.
  destruct nameless_ends as (A & B). exists two_files, false, no_float, (to_prefs default_settings), (pragma_text "8").
  split; [exact A|]. eexists. exact B.
Qed.

Lemma saved_in m oc fl p outdir files sh : Forall2 (dealt_with m oc fl p outdir) files sh ->
  forall f, In f files -> exists s, In s sh /\ dealt_with m oc fl p outdir f s.
Proof.
  induction 1 as [|x s files sh D F IH]; intros f I; [destruct I|]. destruct I as [->|I].
  - exists s. split; [now left|exact D].
  - destruct (IH f I) as (s' & I' & D'). exists s'. split; [now right|exact D'].
Qed.

Lemma saved_names_from m oc fl p outdir files sh : Forall2 (dealt_with m oc fl p outdir) files sh ->
  forall out, In out (flat_map saved_name sh) -> exists f, In f files /\ destination m p outdir f out.
Proof.
  induction 1 as [|x s files sh D F IH]; intros out I; [destruct I|]. cbn [flat_map] in I. apply in_app_or in I as [I|I].
  - destruct D as [(l & t & ast & o & text & R & L & T & N & ->)|(-> & _)]; [|destruct I].
    destruct I as [<-|[]]. exists x. split; [now left|]. exists l, t. auto.
  - destruct (IH out I) as (f & I' & D'). exists f. split; [now right|exact D'].
Qed.

Lemma saved_nodup m oc fl p outdir files sh : Forall2 (dealt_with m oc fl p outdir) files sh -> NoDup files ->
  (forall f f' out, In f files -> In f' files -> destination m p outdir f out -> destination m p outdir f' out -> f = f') ->
  NoDup (flat_map saved_name sh).
Proof.
  induction 1 as [|x s files sh D F IH]; intros N Inj; [constructor|]. inversion N as [|y ys N1 N2]. subst.
  assert (Hs : NoDup (flat_map saved_name sh)).
  { apply IH; [exact N2|]. intros f f' out I I'. apply Inj; now right. }
  cbn [flat_map]. destruct D as [(l & t & ast & o & text & R & L & T & Nm & ->)|(-> & _)]; [|exact Hs].
  cbn [saved_name app]. constructor; [|exact Hs]. intro I.
  destruct (saved_names_from _ _ _ _ _ _ _ F o I) as (f & If & Df). apply N1.
  rewrite (Inj x f o); [exact If|now left|now right|exists l, t; auto|exact Df].
Qed.

Lemma each_holds_its_text m oc fl p outdir files :
  Forall (fun f => (exists text, text_of m oc fl p f text) /\ exists b, file_name f = Some b) files ->
  (forall f, m_create m f = true) -> NoDup files ->
  (forall f f' out, In f files -> In f' files -> destination m p outdir f out -> destination m p outdir f' out -> f = f') ->
  exists sh, pretty_print_files m oc fl p outdir false files = (sh, Ok tt) /\
    forall f, In f files -> exists out text,
      destination m p outdir f out /\ text_of m oc fl p f text /\ last_saved out sh = Some text.
Proof.
  intros F C N Inj. destruct (all_printed m oc fl p outdir files F C) as (sh & E & G). exists sh. split; [exact E|].
  intros f I. apply all_dealt in E. assert (Nd := saved_nodup _ _ _ _ _ _ _ E N Inj).
  rewrite Forall_forall in F. destruct (F f I) as ((text & l & t & ast & R & L & T) & _).
  destruct (saved_in _ _ _ _ _ _ _ E f I) as (s & Is & [(l' & t' & ast' & o & text' & R' & L' & T' & Nm & ->)|(_ & X)]).
  - exists o, text'. split; [exists l', t'; auto|]. split; [exists l', t', ast'; auto|]. now apply last_saved_in.
  - exfalso. destruct X as [(x & X)|[(l' & t' & x & R' & X)|[(l' & t' & a' & x & R' & L' & X)|(l' & t' & o & _ & _ & X)]]].
    + congruence.
    + rewrite R in R'. injection R' as <- <-. congruence.
    + rewrite R in R'. injection R' as <- <-. rewrite L in L'. injection L' as <-. congruence.
    + rewrite C in X. discriminate.
Qed.

Lemma allow_wrong : exists s,
  wanted (st_solidity s) <> solc_reads (sol_flags (to_prefs s)) /\
  ss_allow (st_solidity s) = ["lib"; "vendor"] /\
  so_allow (solc_reads (sol_flags (to_prefs s))) = ["lib"; ""] /\
  so_inputs (solc_reads (sol_flags (to_prefs s))) = ["vendor"].
Proof. exists two_allowed. split; [discriminate|]. repeat split. Qed.
