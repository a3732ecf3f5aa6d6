(** The standard output and the end of the commands: C107-C109. *)
From Coq Require Import String Ascii List NArith ZArith Bool Lia.
From Verif Require Import Base Json JsonFacts TextFacts Rng Permissions MutationType Traverse OpCommon Language Paths Generator SpecGenerator SpecMutation GenFacts SelFacts GenLaws
  Prefs Config Compiler Cli SpecCli CliClaims Main SpecMain MainFacts Printer SolPrinter SpecPrinter SpecLiteral SpecVyText SpecSolText SpecSolRead SolTextClaims SolEditDemo SolMutantDemo SolOnce DiskClaims GenWitness Samples.
Import ListNotations.
Open Scope string_scope.
Open Scope list_scope.

(** ** Runs that write files *)

Lemma announced_app a b l : (forall ev f x mr, In ev a -> ev <> WroteMutant f x mr) -> announced b l -> announced (a ++ b) l.
Proof.
  induction a as [|ev a IH]; intros H A; [exact A|]. cbn [app]. apply Other_event; [intros f x mr; apply H; now left|].
  apply IH; [|exact A]. intros ev' f x mr I. apply H. now right.
Qed.

Lemma files_announced text cfg G W P fuel ast r evs s : supported G -> rearranges (w_order W) -> generate G W P fuel ast r = (evs, Ok s) ->
  rp_stdout P = false ->
  exists head notes l, remarks notes /\ announced evs l /\ generate_said text cfg G W P fuel ast r = joined [head; notes; joined l] /\
  (rp_original P = false -> rp_save P = false -> head = "").
Proof.
  intros Hg Ho H So. destruct (run_said text cfg G W P fuel ast r evs s H) as (e1 & e2 & notes & body & Ee & R & E & E1 & E2 & _ & B). specialize (B So).
  destruct (written_lines text cfg P body B) as (l & A & Eb).
  { intros a mr I. destruct (mutation_place G W P fuel ast r Hg Ho a mr) as (t & m & p & n & r0 & d & i & Et & _); [|eauto].
    rewrite H. cbn [fst]. rewrite Ee, !mutants_app. apply in_or_app. right. apply in_or_app. now right. }
  exists (String.append (said_all text cfg P e1) (said_all text cfg P e2)), notes, l. split; [exact R|]. split; [|split].
  - rewrite Ee, app_assoc. apply announced_app; [|exact A]. intros ev f x mr I. apply in_app_or in I.
    subst e1 e2. unfold print_original, save_config in I. rewrite So in I.
    destruct I as [I|I]; [destruct (rp_original P); [destruct (printed_name _ _ _)|]|destruct (rp_save P); [destruct (config_name _ _)|]];
      cbn [fst In] in I; try (exact (False_ind _ I)); destruct I as [<-|[]]; discriminate.
  - rewrite E, Eb, !joined_all. cbn [all_text fold_right]. now rewrite !app_assoc_s.
  - intros Hp Hs. subst e1 e2. unfold print_original, save_config. now rewrite Hp, Hs.
Qed.

Lemma holds_after pre s l : holds s l -> holds (String.append pre s) l.
Proof.
  intros H. destruct H as [s|before x after l H]; [constructor|].
  replace (String.append pre (joined [before; x; after])) with (joined [String.append pre before; x; after]) by (rewrite !joined_all; cbn [all_text fold_right]; now rewrite !app_assoc_s).
  now constructor.
Qed.
Lemma holds_joined l post l2 : holds post l2 -> holds (String.append (joined l) post) (l ++ l2).
Proof.
  intros H. induction l as [|x l IH]; [exact H|]. rewrite joined_all in *. change (all_text (x :: l)) with (String.append x (all_text l)). cbn [app].
  replace (String.append (String.append x (all_text l)) post) with (joined [""; x; String.append (all_text l) post]) by (rewrite !joined_all; cbn [all_text fold_right]; rewrite ?app_assoc_s, ?app_nil_r_s; reflexivity).
  now constructor.
Qed.
Lemma announced_both a b l1 l2 : announced a l1 -> announced b l2 -> announced (a ++ b) (l1 ++ l2).
Proof. intros A B. induction A; cbn [app]; [exact B|constructor; assumption..]. Qed.

Lemma each_announced oc fl cfg e m pcg W fuel : (forall g, rearranges (w_order (W g))) -> forall gs evs post l2, 
  run_each e m pcg W fuel gs = (evs, Ok tt) -> Forall (fun g => rp_stdout (gp_run g) = false) gs -> holds post l2 ->
  exists l, announced evs l /\ holds (String.append (each_said oc fl cfg e m pcg W fuel gs) post) (l ++ l2).
Proof.
  intros Ho. induction gs as [|g gs IH]; intros evs post l2 H F Hp; cbn [run_each each_said] in *.
  { injection H as <-. exists []. split; [constructor|exact Hp]. }
  inversion F as [|? ? So F']; subst. unfold run_one, one_said in *.
  destruct (recognize m (gp_prefs g) (rp_file (gp_run g))) as [[la t]| | |]; try discriminate H.
  destruct (load_ast m la t (gp_prefs g) (rp_file (gp_run g))) as [ast| | |]; try discriminate H.
  destruct (generate (lang_files e la) (W g) (gp_run g) fuel ast (pcg (gp_rng g))) as (evs1, [s| | |]) eqn:E; try discriminate H.
  cbn [and_then snd] in *. destruct (run_each e m pcg W fuel gs) as (evs2, o2) eqn:E2. injection H as <- ->.
  destruct (files_announced (tree_text oc fl la) cfg _ _ _ _ _ _ _ _ (lang_supported e la) (Ho g) E So) as (head & notes & l1 & _ & A1 & S1 & _).
  destruct (IH evs2 post l2 eq_refl F' Hp) as (l & A & Hl). exists (l1 ++ l). split; [now apply announced_both|].
  rewrite S1, !joined_all. cbn [all_text fold_right]. rewrite !app_assoc_s; cbn [String.append]; rewrite <- ?joined_all. rewrite <- app_assoc. apply holds_after, holds_after, holds_joined. exact Hl.
Qed.

Lemma command_announced oc fl cfg se secs e m pcg W fuel now a gs evs : (forall g, rearranges (w_order (W g))) ->
  assemble m now a = Ok gs -> Forall (fun g => rp_stdout (gp_run g) = false) gs -> generate_mutants e m pcg W fuel now a = (evs, Ok tt) ->
  exists l, announced evs l /\ holds (fst (main_mutate oc fl cfg se secs e m pcg W fuel now a)) l.
Proof.
  intros Ho A F H. unfold main_mutate. rewrite H. unfold generate_mutants in H. rewrite A in *.
  destruct (each_announced oc fl cfg e m pcg W fuel Ho gs evs (elapsed secs) [] H F (No_text _)) as (l & An & Hl).
  exists l. split; [exact An|]. rewrite app_nil_r in Hl. exact Hl.
Qed.

(** ** Runs that write to the standard output *)

Lemma one_shown oc fl cfg se secs e m pcg W fuel now a g la t ast evs s l : assemble m now a = Ok [g] ->
  recognize m (gp_prefs g) (rp_file (gp_run g)) = Ok (la, t) -> load_ast m la t (gp_prefs g) (rp_file (gp_run g)) = Ok ast ->
  run_one e m pcg W fuel g = (evs, Ok s) -> rp_stdout (gp_run g) = true -> rp_save (gp_run g) = false ->
  texts_of (tree_text oc fl la) ((if rp_original (gp_run g) then [ast] else []) ++ map fst (mutants evs)) l ->
  exists l0 notes l1 last, l = l0 ++ l1 /\ List.length l0 = (if rp_original (gp_run g) then 1 else 0) /\ remarks notes /\ line_of "Elapsed time: " last /\
  main_mutate oc fl cfg se secs e m pcg W fuel now a = (joined [joined l0; notes; joined l1; last], Exits 0).
Proof.
  intros A R L H So Sv T. unfold main_mutate, generate_mutants. rewrite A. cbn [run_each each_said]. rewrite H. cbn [and_then snd].
  unfold one_said. rewrite R, L. unfold run_one in H. rewrite R, L in H.
  destruct (stdout_of_run (tree_text oc fl la) cfg _ _ _ _ _ _ _ _ l H So Sv T) as (notes & l0 & l1 & Rm & -> & Ln & E).
  exists l0, notes, l1, (elapsed secs). split; [reflexivity|]. split; [exact Ln|]. split; [exact Rm|]. split; [exact (line_made "Elapsed time: " "" _)|].
  f_equal. rewrite E, !joined_all. cbn [all_text fold_right]. now rewrite ?app_nil_r_s, ?app_assoc_s.
Qed.

(** ** The pretty-print command *)

Lemma shown_first oc fl complaint secs m a f text before after :
  pa_stdout a = true -> pa_files a = before ++ f :: after ->
  Forall (fun g => exists e, print_to_stream m oc fl (to_prefs (pa_settings a)) g = Err e) before ->
  text_of m oc fl (to_prefs (pa_settings a)) f text ->
  exists complaints last, List.length complaints = List.length before /\ Forall (line_of "Unable to pretty-print ") complaints /\ line_of "Elapsed time: " last /\
  main_print oc fl complaint secs m a = (joined [joined complaints; text; last], Exits 0).
Proof.
  intros So Fs B T. unfold main_print, pretty_print_command. rewrite So, Fs, (first_shown m oc fl _ _ f text before after B T).
  exists (map (fun g => line (all_text ["Unable to pretty-print "; complaint g])) before), (elapsed secs).
  split; [apply map_length|]. split; [|split].
  - apply Forall_forall. intros x I. apply in_map_iff in I. destruct I as (g & <- & _). exact (line_made "Unable to pretty-print " "" _).
  - exact (line_made "Elapsed time: " "" _).
  - f_equal. rewrite map_app, map_map, all_text_app, !joined_all. cbn [map printed all_text fold_right]. rewrite !app_assoc_s, !app_nil_r_s. reflexivity.
Qed.

Lemma all_printed_status oc fl complaint secs m a :
  pa_stdout a = false -> Forall (fun f => (exists text, text_of m oc fl (to_prefs (pa_settings a)) f text) /\ exists b, file_name f = Some b) (pa_files a) ->
  (forall f, m_create m f = true) -> exists out, main_print oc fl complaint secs m a = (out, Exits 0).
Proof.
  intros So F C. unfold main_print, pretty_print_command. rewrite So. destruct (all_printed m oc fl _ (pa_outdir a) (pa_files a) F C) as (sh & -> & _). eauto.
Qed.

Lemma all_run_status oc fl cfg se secs e m pcg W fuel now a gs :
  assemble m now a = Ok gs -> Forall (fun g => exists evs s, run_one e m pcg W fuel g = (evs, Ok s)) gs ->
  exists out, main_mutate oc fl cfg se secs e m pcg W fuel now a = (out, Exits 0) /\ exists before last, line_of "Elapsed time: " last /\ out = joined [before; last].
Proof.
  intros A F. unfold main_mutate, generate_mutants. rewrite A. assert (H : snd (run_each e m pcg W fuel gs) = Ok tt).
  { clear A. induction F as [|g gs (evs & s & E) F IH]; [reflexivity|]. cbn [run_each]. rewrite E. unfold and_then.
    destruct (run_each e m pcg W fuel gs) as (evs', out). cbn [snd] in *. exact IH. }
  rewrite H. eexists. split; [reflexivity|]. eexists. exists (elapsed secs). split; [exact (line_made "Elapsed time: " "" _)|].
  rewrite joined_all. cbn [all_text fold_right]. now rewrite app_nil_r_s.
Qed.

(** ** Witnesses *)

Definition diff_sol : list stop := sum_sol (XBin "-" (XId "a") (XId "b")).
Definition diff_node : json := Eval vm_compute in fst (numbered (ju None diff_sol) 1%N).
Definition diff_machine : machine := sources [("a/x.ast", diff_node)].
Definition show_one : print_args := {| pa_outdir := "out"; pa_files := ["a/x.ast"]; pa_stdout := true; pa_settings := default_settings |}.
Definition mutate_one : mutate_args := {|
  ma_outdir := "out"; ma_files := ["a/x.ast"]; ma_seed := 1%Z; ma_count := 1; ma_mutation := ["ArithmeticBinaryOp"];
  ma_all := false; ma_original := false; ma_save := false; ma_stdout := true; ma_function := []; ma_verify := false; ma_settings := default_settings |}.
Definition plain_fl : Z * Z -> string := fun _ => "".
Definition out_print : string := fst (main_print true plain_fl (fun _ => "") "0.5" diff_machine show_one).
Definition out_mutate : string := fst (main_mutate true plain_fl "" (fun x => x) "0.5" ex_env diff_machine (fun _ => ex_rng) (fun _ => ex_world) 20 0 mutate_one).
Definition diff_text (comment : list string) (op : string) : string := String.concat newline
  (["contract C {"; "    function f() public {"] ++ comment ++ [String.concat "" ["        return a "; op; " b;"]; "    }"; "}"; ""; ""]).

Lemma never_reads s : (forall fuel, read_unit (300 + fuel) s = None) -> forall l, ~ reads s l.
Proof.
  intros H l (enough & R). specialize (R (300 + enough) ltac:(lia)). rewrite H in R. discriminate.
Qed.
Lemma always_reads s l : (forall fuel, read_unit (300 + fuel) s = Some l) -> reads s l.
Proof. intros H. exists 300. intros fuel Hf. replace fuel with (300 + (fuel - 300)) by lia. apply H. Qed.

Lemma diff_reads : reads (diff_text [] "-") diff_sol.
Proof. apply always_reads. intros fuel. vm_compute. reflexivity. Qed.
Lemma out_print_spoilt : forall l, ~ reads out_print l.
Proof. apply never_reads. intros fuel. vm_compute. reflexivity. Qed.
Lemma out_mutate_spoilt : forall l, ~ reads out_mutate l.
Proof. apply never_reads. intros fuel. vm_compute. reflexivity. Qed.
