(** Two runs with the same settings do the same. *)
From Coq Require Import String Ascii List NArith ZArith Bool Lia.
From Verif Require Import Base Json JsonFacts Rng Permissions MutationType Traverse OpCommon Language Paths
  Generator SpecGenerator GenFacts Prefs SpecPrefs PrefFacts Config Compiler Cli SpecCli CliFacts.
Import ListNotations.
Open Scope string_scope.
Open Scope list_scope.

(** ** Leaving out the saved configuration changes nothing else *)

Lemma effects_app a b : effects (a ++ b) = effects a ++ effects b.
Proof. apply filter_app. Qed.

Definition same_but_save (P P' : run_params) : Prop :=
  rp_file P = rp_file P' /\ rp_count P = rp_count P' /\ rp_outdir P = rp_outdir P' /\ rp_stdout P = rp_stdout P' /\
  rp_types P = rp_types P' /\ rp_verify P = rp_verify P' /\ rp_original P = rp_original P' /\
  rp_functions P = rp_functions P'.

Lemma attempt_save G W P P' ps ms pm fuel c ast k t : same_but_save P P' -> forall s,
  attempt G W P ps ms pm fuel c ast k t s = attempt G W P' ps ms pm fuel c ast k t s.
Proof.
  intros (E1 & _ & E3 & E4 & _ & E6 & _ & _). induction k as [|k IH]; intros s; [reflexivity|]. cbn [attempt].
  destruct (ct_get t c); [|reflexivity]. destruct (pick_index n (g_rng s)).
  destruct (mutate_ast _ _ _ _ _ _ _ _ _) as [[[a mr] r2]| | |]; try reflexivity.
  unfold validate, emit. rewrite E1, E3, E4, E6. destruct (seen_before mr (g_seen s)); [now rewrite IH|].
  destruct (rp_verify P'); [destruct (temp_name _ _); try reflexivity; destruct (w_accepts _ _ _)|];
    try reflexivity; now rewrite IH.
Qed.

Lemma make_save G W P P' ps ms pm fuel c ast todo : same_but_save P P' -> forall s,
  make_mutants G W P ps ms pm fuel c ast todo s = make_mutants G W P' ps ms pm fuel c ast todo s.
Proof.
  intros E. induction todo as [|t todo IH]; intros s; [reflexivity|]. cbn [make_mutants].
  rewrite (attempt_save _ _ _ _ _ _ _ _ _ _ _ _ E).
  generalize (attempt G W P' ps ms pm fuel c ast attempts_limit t s). intros (ev, [s'| | |]); [|reflexivity ..].
  now rewrite IH.
Qed.

Lemma save_quiet W P name : config_name (rp_file P) (rp_outdir P) = Ok name -> w_config W = Ok tt ->
  exists ev, save_config W P = (ev, Ok tt) /\ effects ev = [].
Proof.
  intros E Ec. unfold save_config. rewrite E, Ec.
  destruct (rp_save P); [destruct (rp_stdout P)|]; eexists; split; reflexivity.
Qed.

Lemma generate_save G W P P' fuel ast r name : same_but_save P P' ->
  config_name (rp_file P) (rp_outdir P) = Ok name -> w_config W = Ok tt ->
  effects (fst (generate G W P fuel ast r)) = effects (fst (generate G W P' fuel ast r)) /\
  snd (generate G W P fuel ast r) = snd (generate G W P' fuel ast r).
Proof.
  intros E Hn Hc. pose proof E as (E1 & E2 & E3 & E4 & E5 & E6 & E7 & E8).
  destruct (save_quiet W P name Hn Hc) as (ev1 & S1 & Q1).
  assert (Hn' := Hn). rewrite E1, E3 in Hn'. destruct (save_quiet W P' name Hn' Hc) as (ev2 & S2 & Q2).
  unfold generate. rewrite E2, E5, E8, S1, S2.
  set (ps := permissions_for_functions _). set (ms := w_order W _).
  destruct (count_mutable_nodes ps ms ast) as [c| | |]; cbn [and_then]; [|split; reflexivity ..].
  destruct (calculate_node_paths ps (l_id (gl_lang G)) ast) as [pm| | |]; cbn [and_then]; [|split; reflexivity ..].
  destruct c as [|kv c]; [split; reflexivity|].
  replace (print_original G W P ast) with (print_original G W P' ast)
    by (unfold print_original; now rewrite E1, E3, E4, E7).
  destruct (print_original G W P' ast) as (ev3, [n1| | |]); cbn [and_then]; [|split; reflexivity ..].
  match goal with |- context [select_kinds ?a ?b ?d ?e ?f ?g ?h] => destruct (select_kinds a b d e f g h) as [x| | |] end; cbn [and_then];
    [|cbn [fst snd]; rewrite !effects_app, Q1, Q2; split; reflexivity ..].
  rewrite (make_save _ _ _ _ _ _ _ _ _ _ _ E).
  match goal with |- context [make_mutants ?a ?b ?d ?e ?f ?g ?h ?i ?j ?k ?l] => destruct (make_mutants a b d e f g h i j k l) as [ev o] end.
  cbn [fst snd app]. rewrite !effects_app, Q1, Q2. split; reflexivity.
Qed.

Lemma mutants_effects evs : mutants (effects evs) = mutants evs.
Proof.
  unfold effects. induction evs as [|ev evs IH]; [reflexivity|]. cbn [filter].
  destruct ev; cbn [is_config negb]; unfold mutants in *; cbn [flat_map mutant_of app]; rewrite ?IH; reflexivity.
Qed.

(** ** The same compiler settings give the same command lines *)

Definition same_compiler (l : language) (p q : prefs) : Prop :=
  both same_prefs (compiler_prefs p l) (compiler_prefs q l).

Lemma same_string c c' k : same_prefs c c' -> get_pstring c k = get_pstring c' k.
Proof.
  intro S. specialize (S k). unfold get_pstring. unfold get_value in S. inversion S as [E1 E2|a b H E1 E2]; [reflexivity|].
  now inversion H.
Qed.

Lemma same_array c c' k : same_prefs c c' -> both (Forall2 same_value) (get_parray c k) (get_parray c' k).
Proof.
  intro S. specialize (S k). unfold get_parray. unfold get_value in S. inversion S as [E1 E2|a b H E1 E2]; [constructor|].
  inversion H; now constructor.
Qed.

Lemma same_flat {A} (f : pval -> list A) a b : (forall v w, same_value v w -> f v = f w) -> Forall2 same_value a b ->
  flat_map f a = flat_map f b.
Proof. intros F. induction 1 as [|v w a b V L IH]; [reflexivity|]. cbn. now rewrite IH, (F v w V). Qed.

Lemma same_allow a b : Forall2 same_value a b -> allow_args a = allow_args b.
Proof.
  induction 1 as [|v w a b V L IH]; [reflexivity|]. cbn [allow_args]. rewrite IH.
  assert (N : is_nil a = is_nil b) by (now destruct L). rewrite N. now destruct V.
Qed.

Lemma same_sol_flags p q : same_compiler LSolidity p q -> sol_flags p = sol_flags q.
Proof.
  intro S. unfold sol_flags. inversion S as [E1 E2|c c' H E1 E2]; [reflexivity|].
  rewrite (same_string c c' "base-path" H), (same_string c c' "stop-after" H). f_equal.
  assert (I := same_array c c' "include-paths" H). assert (A := same_array c c' "allow-paths" H).
  assert (R := same_array c c' "remappings" H). f_equal; [|f_equal; [|f_equal]].
  - inversion I as [|x y L]; [reflexivity|]. apply same_flat; [|exact L]. now destruct 1.
  - inversion A as [|x y L]; [reflexivity|]. rewrite (same_allow _ _ L). now destruct L.
  - inversion R as [|x y L]; [reflexivity|]. apply same_flat; [|exact L]. now destruct 1.
Qed.

Lemma same_solc p q : same_compiler LSolidity p q -> solc p = solc q.
Proof.
  intro S. unfold solc, path_of. inversion S as [E1 E2|c c' H E1 E2]; [reflexivity|].
  now rewrite (same_string c c' "path" H).
Qed.
Lemma same_vyperc p q : same_compiler LVyper p q -> vyperc p = vyperc q.
Proof.
  intro S. unfold vyperc, path_of. inversion S as [E1 E2|c c' H E1 E2]; [reflexivity|].
  now rewrite (same_string c c' "path" H).
Qed.
Lemma same_vy_flags p q : same_compiler LVyper p q -> vy_flags p = vy_flags q.
Proof.
  intro S. unfold vy_flags. inversion S as [E1 E2|c c' H E1 E2]; [reflexivity|].
  now rewrite (same_string c c' "root-path" H).
Qed.

Lemma same_source m l p q f : same_compiler l p q -> is_source m l p f = is_source m l q f.
Proof.
  intro S. destruct l; cbn [is_source].
  - unfold sol_is_source. now rewrite (same_solc _ _ S), (same_sol_flags _ _ S).
  - unfold vy_is_source_pip, vy_is_source_docker, docker_args. now rewrite (same_vyperc _ _ S), (same_vy_flags _ _ S).
Qed.

Lemma same_load m l t p q f : same_compiler l p q -> load_ast m l t p f = load_ast m l t q f.
Proof.
  intro S. destruct t, l; cbn [load_ast load_source]; try reflexivity.
  - unfold sol_is_source. now rewrite (same_solc _ _ S), (same_sol_flags _ _ S).
  - unfold vy_is_source_pip, vy_is_source_docker, docker_args. now rewrite (same_vyperc _ _ S), (same_vy_flags _ _ S).
Qed.

(** ** The whole command on the saved configuration *)

Lemma run_one_same e m pcg W fuel l t g g' name :
  same_run l g g' -> rp_stdout (gp_run g) = rp_stdout (gp_run g') -> W g = W g' -> w_config (W g) = Ok tt ->
  config_name (rp_file (gp_run g)) (rp_outdir (gp_run g)) = Ok name ->
  recognize m (gp_prefs g) (rp_file (gp_run g)) = Ok (l, t) ->
  recognize m (gp_prefs g') (rp_file (gp_run g)) = Ok (l, t) ->
  effects (fst (run_one e m pcg W fuel g)) = effects (fst (run_one e m pcg W fuel g')) /\
  snd (run_one e m pcg W fuel g) = snd (run_one e m pcg W fuel g').
Proof.
  intros [S1 S2 S3 S4 S5 S6 S7 S8 S9] So Hw Hc Hn R R'. unfold run_one. rewrite R.
  rewrite S1 in R'. rewrite R'. rewrite (same_load m l t _ _ (rp_file (gp_run g)) S9), S1.
  destruct (load_ast _ _ _ _ _) as [ast| | |]; [|split; reflexivity ..].
  rewrite <- Hw, <- S3. apply (generate_save _ _ _ _ _ _ _ name); [|exact Hn|exact Hc].
  unfold same_but_save. rewrite S1, S2, S4, S5, S6, S7, S8, So. repeat split.
Qed.

Lemma and_then_events {A B} (x : list event * res A) (k : A -> list event * res B) :
  (forall a, fst (k a) = []) -> fst (and_then x k) = fst x.
Proof.
  intro H. destruct x as [ev [a| | |]]; cbn [and_then fst]; try reflexivity.
  specialize (H a). destruct (k a) as [ev' o]. cbn in *. subst. apply app_nil_r.
Qed.
