(** Concrete runs of the generator. *)
From Coq Require Import String Ascii List Bool NArith Arith Lia Permutation.
From Verif Require Import Base Json Rng Permissions MutationType Traverse OpCommon SolMutators VyMutators
  Comments Language Paths Generator SpecTree SpecMutation SpecOps SpecTotal SpecGenerator
  Samples TraverseFacts TraverseFacts2 TraverseFacts3 GenFacts SelFacts GenLaws OpClaims GenStop.
Import ListNotations.
Open Scope string_scope.
Open Scope list_scope.

(** A world in which everything succeeds; mutants are compiled in [/tmp]. *)
Definition ex_world : world := {|
  w_accepts := fun _ _ => true; w_print := fun _ _ => Ok tt; w_config := Ok tt; w_tmp := "/tmp"; w_order := fun ms => ms |}.
Lemma ex_world_rearranges : rearranges (w_order ex_world).
Proof. intros ms. apply Permutation_refl. Qed.

Definition ex_lang : glang := solidity_files ex_env.
Lemma ex_lang_supported : supported ex_lang.
Proof. exists ex_env. now left. Qed.

Definition arith : mutation_type := Generic ArithmeticBinaryOp.

(** [mutagenyx mutate --file-names FILE --num-mutants N ... --output-directory DIR]. *)
Definition run_on (file outdir : string) (n : nat) (ts : list mutation_type) : run_params := {|
  rp_file := file; rp_count := n; rp_outdir := outdir; rp_stdout := false; rp_types := ts;
  rp_verify := true; rp_original := true; rp_save := true; rp_functions := [] |}.
Definition ex_params : run_params := run_on "src/x.sol" "out" 2 [arith; Generic Assignment].

(** One arithmetic operation only. *)
Definition one_op : json := s_unit 1 [ s_contract 2 "C" [ fun_g ] ].
Definition one_params : run_params := run_on "src/x.sol" "out" 2 [arith].

Definition ex_run : list event := fst (generate ex_lang ex_world ex_params 20 ex_unit ex_rng).

Lemma shortfall_witness : exists G W P ast x1 x2,
  supported G /\ rearranges (w_order W) /\ rp_count P = 2 /\
  (exists fuel r, In x1 (mutants (fst (generate G W P fuel ast r)))) /\
  (exists fuel r, In x2 (mutants (fst (generate G W P fuel ast r)))) /\
  fst x1 <> fst x2 /\ snd x1 <> snd x2 /\
  forall fuel r, length (mutants (fst (generate G W P fuel ast r))) <= 1.
Proof.
  pose (at_ := fun k => nth 0 (mutants (fst (generate ex_lang ex_world one_params 20 one_op (rng_from k)))) (JNull, empty_result)).
  exists ex_lang, ex_world, one_params, one_op, (at_ 0), (at_ 2).
  split; [exact ex_lang_supported|]. split; [exact ex_world_rearranges|]. split; [reflexivity|].
  split; [exists 20, (rng_from 0); vm_compute; now left|]. split; [exists 20, (rng_from 2); vm_compute; now left|].
  split.
  { intros E. apply (f_equal (fun j => option_map (fun n => get_str n "operator") (subtree [2; 0; 3; 0; 0; 2; 1; 0; 4] j))) in E.
    revert E. vm_compute. discriminate. }
  split; [intros E; apply (f_equal mr_hash) in E; revert E; vm_compute; discriminate|].
  intros fuel r.
  assert (Hc : run_counts ex_lang ex_world one_params one_op [(arith, 1)]) by (vm_compute; reflexivity).
  exact (proj1 (proj2 (count_bound ex_lang ex_world one_params fuel one_op r _ ex_lang_supported ex_world_rearranges Hc))).
Qed.

(** The selection loop on a constant stream. *)
Lemma select_stuck c t types used chosen remaining : times t c <= times t used -> chosen < available c ->
  forall fuel pos, select_kinds fuel c (t :: types) used chosen (S remaining) {| rstream := fun _ => 0%N; rpos := pos |} = Diverge.
Proof.
  intros Ht Hch. induction fuel as [|fuel IH]; intros pos; [reflexivity|]. cbn [select_kinds].
  unfold choose, draw. cbn [rstream rpos]. rewrite N.mod_0_l by (cbn [length]; lia). cbn [N.to_nat nth_error].
  destruct (Nat.ltb_spec (times t used) (times t c)); [lia|]. destruct (Nat.leb_spec (available c) chosen); [lia|]. apply IH.
Qed.

Definition stuck_params : run_params := run_on "src/x.sol" "out" 5 [arith; Generic Assignment].
Lemma stuck_lemma : exists G W P ast r,
  supported G /\ rearranges (w_order W) /\ (forall k a, w_print W k a = Ok tt) /\ w_config W = Ok tt /\
  forall fuel, snd (generate G W P fuel ast r) = Diverge.
Proof.
  exists ex_lang, ex_world, stuck_params, ex_unit, (const_rng 0).
  split; [exact ex_lang_supported|]. split; [exact ex_world_rearranges|]. split; [reflexivity|]. split; [reflexivity|].
  intros fuel. unfold generate.
  replace (count_mutable_nodes _ _ ex_unit) with (Ok [(Generic Assignment, 2); (arith, 3)]) by (vm_compute; reflexivity).
  destruct (paths_total (permissions_for_functions (rp_functions stuck_params)) (l_id (gl_lang ex_lang)) ex_unit) as (pm & ->).
  cbn [and_then]. replace (print_original ex_lang ex_world stuck_params ex_unit)
    with ([WroteOriginal "out/x.sol" ex_unit], Ok 1) by (vm_compute; reflexivity). cbn [and_then].
  replace (save_config ex_world stuck_params) with ([WroteConfig "out/x.mgnx"], Ok tt) by (vm_compute; reflexivity). cbn [and_then].
  replace (usable_types _) with [arith; Generic Assignment] by (vm_compute; reflexivity).
  cbn [stuck_params run_on rp_count].
  set (c := [(Generic Assignment, 2); (arith, 3)]).
  assert (H : forall fuel, select_kinds fuel c [arith; Generic Assignment] [] 0 5 (const_rng 0) = Diverge).
  { clear fuel. intros fuel.
    do 3 (destruct fuel as [|fuel]; [reflexivity|]).
    assert (S3 : select_kinds fuel c [arith; Generic Assignment] [(arith, 3)] 3 2 {| rstream := fun _ => 0%N; rpos := 3 |} = Diverge).
    { apply select_stuck; vm_compute; lia. }
    pose (next := fun x : res (list mutation_type * rng) => let? (ts, r) := x in Ok (arith :: ts, r)).
    exact (f_equal next (f_equal next (f_equal next S3))). }
  rewrite H. reflexivity.
Qed.

(** Writing the original over the input, and compiling in its place. *)
Lemma original_overwrites : exists P, rp_file P = "a/x.sol" /\ rp_outdir P = "a" /\ rp_original P = true /\
  In (WroteOriginal (rp_file P) ex_unit) (fst (generate ex_lang ex_world P 20 ex_unit ex_rng)).
Proof. exists (run_on "a/x.sol" "a" 1 [arith]). vm_compute. repeat split. now left. Qed.

Lemma validation_removes : exists P a, rp_file P = "/tmp/x.sol" /\ rp_outdir P = "out" /\
  In (Validated (rp_file P) a true) (fst (generate ex_lang ex_world P 20 ex_unit ex_rng)).
Proof. exists (run_on "/tmp/x.sol" "out" 1 [arith]). eexists. split; [reflexivity|]. split; [reflexivity|]. vm_compute. right. right. right. left. reflexivity. Qed.

Lemma same_base_overwrites : exists f P P', rp_file P = "a/x.sol" /\ rp_file P' = "b/x.sol" /\ rp_outdir P = rp_outdir P' /\
  In f (mutant_files (fst (generate ex_lang ex_world P 20 ex_unit ex_rng))) /\
  In f (mutant_files (fst (generate ex_lang ex_world P' 20 one_op ex_rng))).
Proof. exists "out/x.sol_0.sol", (run_on "a/x.sol" "out" 1 [arith]), (run_on "b/x.sol" "out" 1 [arith]). vm_compute. repeat split; now left. Qed.

(** Two runs validating at once. *)
Definition run_a : list event := fst (generate ex_lang ex_world (run_on "a/x.sol" "outa" 1 [arith]) 20 ex_unit ex_rng).
Definition run_b : list event := fst (generate ex_lang ex_world (run_on "b/x.sol" "outb" 1 [arith]) 20 one_op ex_rng).

Lemma interleaved_left {A} (a b : list A) : interleaved a b (a ++ b).
Proof. induction a; cbn; [induction b; constructor; assumption|]. now constructor. Qed.
Lemma interleaved_right {A} (a b : list A) : interleaved a b (b ++ a).
Proof. induction b; cbn; [rewrite <- (app_nil_r a) at 2; apply interleaved_left|]. now constructor. Qed.
Lemma interleaved_app {A} (a b a' b' l l' : list A) : interleaved a b l -> interleaved a' b' l' ->
  interleaved (a ++ a') (b ++ b') (l ++ l').
Proof. intros H H'. induction H; cbn; [exact H'|constructor; assumption|constructor; assumption]. Qed.

Lemma shared_temp : exists l, interleaved (flat_map fs_steps run_a) (flat_map fs_steps run_b) l /\ ~ own_verdicts l.
Proof.
  set (a := flat_map fs_steps run_a). set (b := flat_map fs_steps run_b).
  exists ((firstn 3 a ++ firstn 3 b) ++ (skipn 3 a ++ skipn 3 b)). split.
  - rewrite <- (firstn_skipn 3 a) at 1. rewrite <- (firstn_skipn 3 b) at 1.
    apply interleaved_app; apply interleaved_left.
  - assert (E : exists before m1 m2 after, m1 <> m2 /\
      (firstn 3 a ++ firstn 3 b) ++ (skipn 3 a ++ skipn 3 b) = before ++ Compile "/tmp/x.sol" m1 :: after /\
      holds before "/tmp/x.sol" = Some m2).
    { exists (firstn 3 a ++ firstn 3 b). subst a b. vm_compute firstn. vm_compute skipn. eexists _, _, _.
      split; [|split; [reflexivity|vm_compute; reflexivity]]. vm_compute. discriminate. }
    destruct E as (before & m1 & m2 & after & Hne & E & Hh). intros H. rewrite (H _ _ _ _ E) in Hh. congruence.
Qed.

(** ** Examples *)
Lemma one_op_nodes p n m : subtree p one_op = Some n -> sol_mutator_for ex_env arith = Some m -> mu_mutable m n = Ok true -> n = mul_ab.
Proof.
  intros Hs Hm Hmu. injection Hm as <-.
  assert (Hi : In n (map snd (all_nodes one_op))).
  { apply in_map_iff. exists (p, n). split; [reflexivity|]. unfold all_nodes. apply in_flat_map. exists p.
    split; [apply positions_subtree; eauto|]. rewrite Hs. now left. }
  vm_compute in Hi. repeat destruct Hi as [<-|Hi]; try (vm_compute in Hmu; discriminate); try reflexivity. destruct Hi.
Qed.

Lemma stop_example : printer_total ex_env /\ order_total ex_env /\ rearranges (w_order ex_world) /\ fair fair_rng /\
  (forall p n t m, subtree p one_op = Some n -> In t (rp_types one_params) -> sol_mutator_for ex_env t = Some m ->
     mu_mutable m n = Ok true -> sol_schema n /\ sol_supported t n) /\
  exists c, run_counts ex_lang ex_world one_params one_op c /\ pairs c = 1.
Proof.
  split; [exact ex_printer_total|]. split; [exact ex_order_total|]. split; [exact ex_world_rearranges|].
  split; [exact fair_rng_fair|]. split; [|eexists; split; vm_compute; reflexivity].
  intros p n t m Hs [<-|[]] Hm Hmu. rewrite (one_op_nodes p n m Hs Hm Hmu). split; [|exact I].
  split; [apply short_arrays_check; reflexivity|].
  split; [intros _; split; eexists; reflexivity|]. split; no_field.
Qed.
