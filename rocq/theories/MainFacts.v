(** The standard output of the commands: C107-C109. *)
From Coq Require Import String Ascii List NArith ZArith Bool Lia.
From Verif Require Import Base Json JsonFacts TextFacts Rng Permissions MutationType Traverse OpCommon Language Paths Generator SpecGenerator SpecMutation GenFacts SelFacts GenLaws
  Prefs Config Compiler Cli SpecCli CliClaims Main SpecMain.
Import ListNotations.
Open Scope string_scope.
Open Scope list_scope.

Lemma all_text_app a b : all_text (a ++ b) = String.append (all_text a) (all_text b).
Proof. induction a as [|x a IH]; [reflexivity|]. cbn [app all_text fold_right]. fold (all_text (a ++ b)). fold (all_text a). rewrite IH. now rewrite app_assoc_s. Qed.

Lemma joined_all l : joined l = all_text l.
Proof.
  unfold joined. induction l as [|x l IH]; [reflexivity|]. cbn [all_text fold_right]. fold (all_text l). rewrite <- IH.
  destruct l as [|y l]; [cbn; now rewrite app_nil_r_s|reflexivity].
Qed.

Lemma said_all_app text cfg P a b : said_all text cfg P (a ++ b) = String.append (said_all text cfg P a) (said_all text cfg P b).
Proof. unfold said_all. now rewrite map_app, all_text_app. Qed.

(** ** The events of the loops *)

Definition shows (ev : event) : Prop :=
  match ev with Tried _ _ | Validated _ _ _ | ShowedMutant _ _ => True | _ => False end.
Definition writes (ev : event) : Prop :=
  match ev with Tried _ _ | Validated _ _ _ => True | WroteMutant _ _ _ => True | _ => False end.

Section Loops.
  Variables (G : glang) (W : world) (P : run_params) (ps : permissions) (ms : mutator_map) (pm : path_map) (fuel : nat) (c : count_table) (ast : json).

  Lemma validate_shows ast' s (Q : event -> Prop) : (forall t a b, Q (Validated t a b)) -> Forall Q (fst (validate W P ast' s)).
  Proof. intros H. unfold validate. destruct (rp_verify P); [|constructor]. destruct (temp_name _ _); repeat constructor. apply H. Qed.

  Lemma attempt_events (Q : event -> Prop) (E : forall ast' mr s t i r r2, mutate_ast (gl_lang G) ps ms pm fuel ast t i r = Ok (ast', mr, r2) -> Forall Q (fst (emit G W P ast' mr s))) :
    (forall t i, Q (Tried t i)) -> (forall t a b, Q (Validated t a b)) ->
    forall n t s, Forall Q (fst (attempt G W P ps ms pm fuel c ast n t s)).
  Proof.
    intros T V. induction n as [|n IH]; intros t s; cbn [attempt]; [constructor|].
    destruct (ct_get t c) as [k|]; [|constructor]. destruct (pick_index k (g_rng s)) as (i, r1).
    destruct (mutate_ast (gl_lang G) ps ms pm fuel ast t i r1) as [[[ast' mr] r2]| | |] eqn:Em; try (repeat constructor; apply T).
    destruct (seen_before mr (g_seen s)).
    - match goal with |- context [attempt _ _ _ _ _ _ _ _ _ n t ?s1] => specialize (IH t s1); destruct (attempt G W P ps ms pm fuel c ast n t s1) as (ev, out) end.
      constructor; [apply T|exact IH].
    - match goal with |- context [validate W P ast' ?s1] => pose proof (validate_shows ast' s1 Q V) as Hv; pose proof (E ast' mr s1 _ _ _ _ Em) as He;
        destruct (validate W P ast' s1) as (ev1, [[]| | |]) eqn:Ev; cbn [fst] in Hv; [destruct (emit G W P ast' mr s1) as (ev2, written)|..] end.
      + constructor; [apply T|]. apply Forall_app. split; assumption.
      + match goal with |- context [attempt _ _ _ _ _ _ _ _ _ n t ?s1] => specialize (IH t s1); destruct (attempt G W P ps ms pm fuel c ast n t s1) as (ev, out) end.
        constructor; [apply T|]. apply Forall_app. split; assumption.
      + constructor; [apply T|assumption].
      + constructor; [apply T|assumption].
      + constructor; [apply T|assumption].
  Qed.

  Lemma make_events (Q : event -> Prop) (E : forall ast' mr s t i r r2, mutate_ast (gl_lang G) ps ms pm fuel ast t i r = Ok (ast', mr, r2) -> Forall Q (fst (emit G W P ast' mr s))) :
    (forall t i, Q (Tried t i)) -> (forall t a b, Q (Validated t a b)) ->
    forall todo s, Forall Q (fst (make_mutants G W P ps ms pm fuel c ast todo s)).
  Proof.
    intros T V. induction todo as [|t todo IH]; intros s; cbn [make_mutants]; [constructor|].
    pose proof (attempt_events Q E T V attempts_limit t s) as Ha. destruct (attempt G W P ps ms pm fuel c ast attempts_limit t s) as (ev, [s'| | |]); try exact Ha.
    specialize (IH s'). destruct (make_mutants G W P ps ms pm fuel c ast todo s') as (ev', out'). cbn [fst] in *. apply Forall_app. now split.
  Qed.
End Loops.

Lemma shown_texts text cfg P evs l : Forall shows evs -> texts_of text (map fst (mutants evs)) l -> said_all text cfg P evs = joined l.
Proof.
  intros H. rewrite joined_all. revert l. induction H as [|ev evs He H IH]; intros l T; cbn [mutants flat_map] in T.
  - inversion T. reflexivity.
  - change (mutants (ev :: evs)) with (mutant_of ev ++ mutants evs) in T. destruct ev; try (exact (False_ind _ He)); cbn [mutant_of app map fst] in T.
    1-2: unfold said_all in *; cbn [map all_text fold_right said]; exact (IH l T).
    inversion T as [|? t ? l' E T']; subst. unfold said_all in *. cbn [map all_text fold_right said]. rewrite E. fold (all_text (map (said text cfg P) evs)). now rewrite (IH l' T').
Qed.

Lemma written_lines text cfg P evs : Forall writes evs -> (forall a mr, In (a, mr) (mutants evs) -> exists t, mr_type mr = Some t) ->
  exists l, announced evs l /\ said_all text cfg P evs = joined l.
Proof.
  induction 1 as [|ev evs He H IH]; intros T; [exists []; split; [constructor|reflexivity]|].
  destruct IH as (l & A & E); [intros a mr I; apply (T a mr); change (mutants (ev :: evs)) with (mutant_of ev ++ mutants evs); apply in_or_app; now right|].
  rewrite joined_all in E. destruct ev; try (exact (False_ind _ He)).
  - exists l. split; [constructor; [discriminate|exact A]|]. rewrite joined_all. exact E.
  - exists l. split; [constructor; [discriminate|exact A]|]. rewrite joined_all. exact E.
  - destruct (T ast mr (or_introl eq_refl)) as (t & Et). eexists. split; [eapply A_mutant; [exact Et|exact A]|]. rewrite joined_all.
    unfold said_all in *. cbn [map all_text fold_right said]. rewrite Et. fold (all_text (map (said text cfg P) evs)). rewrite E.
    unfold all_text at 1. cbn [fold_right]. f_equal. rewrite joined_all. unfold line. cbn [all_text fold_right]. rewrite ?app_nil_r_s, !app_assoc_s. reflexivity.
Qed.

(** ** A whole run *)

Lemma line_made w x l : line_of w (line (all_text (String.append w x :: l))).
Proof.
  exists (String.append x (all_text l)). rewrite joined_all. unfold line. cbn [all_text fold_right]. fold (all_text l).
  generalize (all_text l). intros y. cbn [String.append]. rewrite !app_assoc_s. reflexivity.
Qed.

Lemma remarks_made c count chosen : remarks (String.append (nodes_line c) (String.append (total_line c) (limit_line count chosen))).
Proof.
  exists (nodes_line c), (total_line c), (limit_line count chosen). split; [rewrite joined_all; cbn [all_text fold_right]; now rewrite app_nil_r_s|].
  split; [|split].
  - exact (line_made "Of the requested mutation algorithms, the AST contains nodes for " "[" _).
  - exact (line_made "AST supports at most " "" _).
  - unfold limit_line. destruct (Nat.ltb chosen count); [right|now left].
    exact (line_made "Reached the limit of mutable nodes in the AST, " "lowering requested mutants by " _).
Qed.

Lemma emit_shows G W P ast mr s : rp_stdout P = true -> Forall shows (fst (emit G W P ast mr s)).
Proof. intros H. unfold emit. rewrite H. repeat constructor. Qed.
Lemma emit_writes G W P ast mr s : rp_stdout P = false -> Forall writes (fst (emit G W P ast mr s)).
Proof. intros H. unfold emit. rewrite H. destruct (mutant_name _ _ _ _); repeat constructor. Qed.

Lemma run_said text cfg G W P fuel ast r evs s : generate G W P fuel ast r = (evs, Ok s) ->
  exists e1 e2 notes body, evs = e1 ++ e2 ++ body /\ remarks notes /\
  generate_said text cfg G W P fuel ast r = joined [said_all text cfg P e1; said_all text cfg P e2; notes; said_all text cfg P body] /\
  e1 = fst (print_original G W P ast) /\ e2 = fst (save_config W P) /\
  (rp_stdout P = true -> Forall shows body) /\ (rp_stdout P = false -> Forall writes body).
Proof.
  unfold generate, generate_said. set (ps := permissions_for_functions _). set (ms := w_order W _).
  destruct (count_mutable_nodes ps ms ast) as [c| | |]; cbn [and_then]; try discriminate.
  destruct (calculate_node_paths ps (l_id (gl_lang G)) ast) as [pm| | |]; cbn [and_then]; try discriminate.
  destruct c as [|x c]; [discriminate|]. set (c1 := x :: c).
  destruct (print_original G W P ast) as (e1, [prints| | |]); cbn [and_then]; try discriminate.
  destruct (save_config W P) as (e2, [u| | |]); cbn [and_then]; try discriminate.
  destruct (select_kinds fuel c1 (usable_types c1) [] 0 (rp_count P) r) as [tr| | |]; cbn [and_then]; try discriminate.
  pose proof (make_events G W P ps ms pm fuel c1 ast shows) as Hs. pose proof (make_events G W P ps ms pm fuel c1 ast writes) as Hw.
  set (st := {| g_rng := _; g_seen := _; g_written := _; g_prints := _; g_checks := _ |}).
  destruct (make_mutants G W P ps ms pm fuel c1 ast (fst tr) st) as (body, out) eqn:Em. intros H. cbn [app] in H. injection H as <- ->.
  exists e1, e2, (String.append (nodes_line c1) (String.append (total_line c1) (limit_line (rp_count P) (List.length (fst tr))))), body.
  split; [reflexivity|]. split; [apply remarks_made|]. split; [rewrite joined_all; cbn [all_text fold_right fst]; now rewrite app_nil_r_s, !app_assoc_s|].
  split; [reflexivity|]. split; [reflexivity|]. split; intros Ho.
  - specialize (Hs (fun ast' mr s0 t i r0 r2 _ => emit_shows G W P ast' mr s0 Ho) (fun _ _ => I) (fun _ _ _ => I) (fst tr) st). now rewrite Em in Hs.
  - specialize (Hw (fun ast' mr s0 t i r0 r2 _ => emit_writes G W P ast' mr s0 Ho) (fun _ _ => I) (fun _ _ _ => I) (fst tr) st). now rewrite Em in Hw.
Qed.

Lemma stdout_of_run text cfg G W P fuel ast r evs s l : generate G W P fuel ast r = (evs, Ok s) ->
  rp_stdout P = true -> rp_save P = false -> texts_of text ((if rp_original P then [ast] else []) ++ map fst (mutants evs)) l ->
  exists notes l0 l1, remarks notes /\ l = l0 ++ l1 /\ List.length l0 = (if rp_original P then 1 else 0) /\
  generate_said text cfg G W P fuel ast r = joined [joined l0; notes; joined l1].
Proof.
  intros H So Sv T. destruct (run_said text cfg G W P fuel ast r evs s H) as (e1 & e2 & notes & body & -> & R & E & E1 & E2 & B & _). specialize (B So).
  unfold save_config in E2. rewrite Sv in E2. cbn [fst] in E2. subst e2. apply Forall2_app_inv_l in T. destruct T as (l0 & l1 & T0 & T1 & ->).
  exists notes, l0, l1. split; [exact R|]. split; [reflexivity|]. split; [destruct (rp_original P); inversion T0 as [|? ? ? ? ? T']; [inversion T'|]; reflexivity|].
  rewrite E. rewrite !mutants_app in T1. assert (M1 : mutants e1 = [] /\ said_all text cfg P e1 = joined l0).
  { subst e1. unfold print_original. rewrite So. destruct (rp_original P); cbn [fst]; [|inversion T0; split; reflexivity].
    inversion T0 as [|? t ? l' Et T']; subst. inversion T'; subst. split; [reflexivity|]. unfold said_all. cbn [map said all_text fold_right joined String.concat].
    rewrite Et. now rewrite app_nil_r_s. }
  destruct M1 as (M1 & S1). rewrite M1 in T1. cbn [app mutants flat_map] in T1. rewrite (shown_texts text cfg P body l1 B T1), S1. rewrite !joined_all. cbn [all_text fold_right]. reflexivity.
Qed.
