(** Records and mutants of whole trees and runs. *)
From Coq Require Import String Ascii List NArith ZArith Bool Lia Arith Permutation.
From Verif Require Import Base Json Rng Permissions MutationType Traverse OpCommon SolMutators VyMutators
  Comments Language Paths Generator SpecTree SpecMutation SpecOps SpecClaims SpecGenerator SpecRecord
  TraverseFacts TraverseFacts2 TraverseFacts3 OpOrder GenFacts SelFacts GenLaws Samples GenWitness OpClaims
  JsonFacts OpFacts SolFacts RecordFacts RecordWays RecordSite.
Import ListNotations.
Open Scope list_scope.
Open Scope string_scope.

(** Two mutations of one tree at one index act on one node. *)
Lemma same_index ps idm m fuel i ast r a s fuel' r' a' s' :
  (forall p n, In (p, n) (fst (allowed ps false ast)) -> exists b, mu_mutable m n = Ok b) ->
  make_mutation ps idm m fuel i ast r = Ok (a, s) -> make_mutation ps idm m fuel' i ast r' = Ok (a', s') ->
  (mk_result s = empty_result /\ mk_result s' = empty_result /\ a = ast /\ a' = ast /\
     mk_comment s = None /\ mk_comment s' = None) \/
  exists p n d d', subtree p ast = Some n /\ mu_mutable m n = Ok true /\
    mu_mutate m fuel n r = Ok d /\ mu_mutate m fuel' n r' = Ok d' /\
    a = set_subtree p (md_node d) ast /\ a' = set_subtree p (md_node d') ast /\
    mk_comment s = md_comment d /\ mk_comment s' = md_comment d' /\
    mk_result s = md_result d /\ mk_result s' = md_result d' /\
    mk_node_id s = match mr_node (md_result d) with
                   | Some i => i | None => match idm (md_node d) with Some i => i | None => 0%N end end /\
    mk_node_id s' = match mr_node (md_result d') with
                   | Some i => i | None => match idm (md_node d') with Some i => i | None => 0%N end end.
Proof.
  intros Ht H H'. pose proof (make_mutation_select ps idm m fuel i ast r Ht) as S1.
  pose proof (make_mutation_select ps idm m fuel' i ast r' Ht) as S2.
  destruct (nth_error (sel m (fst (allowed ps false ast))) i) as [[p n]|] eqn:E.
  - right. apply nth_error_In in E. unfold sel in E. apply filter_In in E. destruct E as (Ei & Ea). cbn [snd] in Ea.
    destruct (mu_mutate m fuel n r) as [d| | |] eqn:Ed; try congruence.
    destruct (mu_mutate m fuel' n r') as [d'| | |] eqn:Ed'; try congruence.
    destruct S1 as (s1 & S1 & Q1). destruct S2 as (s2 & S2 & Q2). rewrite H in S1. injection S1 as -> <-.
    rewrite H' in S2. injection S2 as -> <-. exists p, n, d, d'.
    split; [eapply allowed_subtree; exact Ei|]. split.
    { unfold accepts in Ea. destruct (mu_mutable m n) as [[]| | |]; congruence. }
    destruct Q1 as (A & B & C & D & F). destruct Q2 as (A' & B' & C' & D' & F').
    unfold after_mutation in *. simpl in *. repeat (split; [congruence|]). congruence.
  - left. destruct S1 as (s1 & S1 & Q1). destruct S2 as (s2 & S2 & Q2). rewrite H in S1. injection S1 as -> <-.
    rewrite H' in S2. injection S2 as -> <-.
    destruct Q1 as (A & B & C & D & F). destruct Q2 as (A' & B' & C' & D' & F'). simpl in *.
    repeat (split; [congruence|]). congruence.
Qed.

Lemma same_record L ps ms pm ast t m fuel i r a mr x fuel' i' r' a' x' :
  mm_get t ms = Some m ->
  (forall p n, In (p, n) (fst (allowed ps false ast)) -> exists b, mu_mutable m n = Ok b) ->
  (forall n d d', mu_mutable m n = Ok true -> mu_mutate m fuel n r = Ok d -> mu_mutate m fuel' n r' = Ok d' ->
     mr_hash (md_result d) = mr_hash (md_result d') -> same_outcome d d') ->
  mutate_ast L ps ms pm fuel ast t i r = Ok (a, mr, x) -> mutate_ast L ps ms pm fuel' ast t i' r' = Ok (a', mr, x') ->
  a = a'.
Proof.
  unfold mutate_ast. intros Hm Ht Hr H H'. rewrite Hm in *.
  destruct (make_mutation ps (l_id L) m fuel i ast r) as [[a1 s]| | |] eqn:E; cbn [bind] in H; try discriminate.
  destruct (make_mutation ps (l_id L) m fuel' i' ast r') as [[a1' s']| | |] eqn:E'; cbn [bind] in H'; try discriminate.
  apply ok_inj in H, H'. injection H as <- R <-. injection H' as <- R' <-.
  assert (i = i') as <- by (apply (f_equal mr_index) in R, R'; cbn in R, R'; congruence).
  destruct (same_index _ _ _ _ _ _ _ _ _ _ _ _ _ Ht E E') as [(_ & _ & -> & -> & -> & ->)|Q]; [reflexivity|].
  destruct Q as (p & n & d & d' & Hp & Ha & Hd & Hd' & -> & -> & C & C' & Q & Q' & N & N').
  rewrite Q in R. rewrite Q' in R'.
  assert (Zh : mr_hash (md_result d) = mr_hash (md_result d')) by (apply (f_equal mr_hash) in R, R'; cbn in R, R'; congruence).
  assert (Zn : mr_node (md_result d) = mr_node (md_result d')) by (apply (f_equal mr_node) in R, R'; cbn in R, R'; congruence).
  destruct (Hr _ _ _ Ha Hd Hd' Zh) as (Z1 & Z2). rewrite C, C', N, N', Zn, Z1, Z2. reflexivity.
Qed.

Lemma counted_classified ps ms ast c t m : count_mutable_nodes ps ms ast = Ok c -> NoDup (map fst ms) -> mm_get t ms = Some m ->
  forall p n, In (p, n) (fst (allowed ps false ast)) -> exists b, mu_mutable m n = Ok b.
Proof.
  intros Hc Hn Hg. rewrite count_mutable_nodes_eq in Hc.
  destruct (count_all_in _ _ _ _ _ _ Hc Hn (mm_get_In _ _ _ Hg)) as (Htot & _).
  intros p n Hp. apply Htot. apply in_map_iff. exists (p, n); auto.
Qed.

Lemma record_identifies e G W P fuel ast r a mr pm t i fuel' r' a' x :
  G = solidity_files e \/ G = vyper_files e -> hashes_differ e -> float_bytes_differ e -> rearranges (w_order W) ->
  In (a, mr) (mutants (fst (generate G W P fuel ast r))) ->
  calculate_node_paths (permissions_for_functions (rp_functions P)) (l_id (gl_lang G)) ast = Ok pm ->
  mutate_ast (gl_lang G) (permissions_for_functions (rp_functions P))
    (w_order W (select_mutators (gl_lang G) (rp_types P) [])) pm fuel' ast t i r' = Ok (a', mr, x) ->
  t <> Generic Integer -> a' = a.
Proof.
  intros HG D F Ho Hi Hp Hm Ht. assert (Hs : supported G) by (exists e; exact HG).
  destruct (supported_ok G Hs) as ((HL1 & HL2) & _).
  destruct (generate G W P fuel ast r) as (evs, out) eqn:E. cbn [fst] in Hi.
  apply generate_split in E as [((Q & _) & _)|(c & pm0 & head & prints & ts & r1 & body & done & Hc & _ & Hp0 & -> & (Hh & _) & _ & Hb)].
  { rewrite Q in Hi. destruct Hi. }
  rewrite Hp in Hp0. injection Hp0 as <-.
  rewrite mutants_app, Hh, (batch_mutants _ _ _ _ _ _ _ _ _ _ _ _ _ _ Hb) in Hi. cbn [app] in Hi.
  apply in_map_iff in Hi as ((t1 & y) & Ex & Hi). cbn [snd] in Ex. subst y.
  pose proof (batch_made _ _ _ _ _ _ _ _ _ _ _ _ _ _ Hb) as Hmd. rewrite Forall_forall in Hmd. specialize (Hmd _ Hi).
  cbn [fst snd] in Hmd. destruct (made_label _ _ _ _ _ _ _ _ _ Hs Ho Hc Hmd) as (El & _). cbn [snd] in El.
  destruct Hmd as (i1 & n1 & r2 & r3 & _ & _ & Hmd). cbn [fst snd] in Hmd.
  set (ms := w_order W _) in *. assert (Hnd : NoDup (map fst ms)) by now apply reordered_nodup.
  assert (Hget : forall u m, mm_get u ms = Some m -> l_mutator_for (gl_lang G) u = Some m).
  { intros u m Eg. subst ms. rewrite reordered_get, select_get in Eg by assumption.
    destruct (existsb (mt_eqb u) (rp_types P)); [|discriminate].
    cbn [mm_get] in Eg. destruct (l_mutator_for (gl_lang G) u); congruence. }
  destruct (mm_get t ms) as [m|] eqn:Eg.
  2:{ unfold mutate_ast in Hm. rewrite Eg in Hm. discriminate. }
  assert (t = t1) as <-.
  { unfold mutate_ast in Hm. rewrite Eg in Hm.
    destruct (make_mutation _ _ m fuel' i ast r') as [[b s]| | |] eqn:Em; cbn [bind] in Hm; try discriminate.
    apply ok_inj in Hm. injection Hm as _ Hmr _. apply make_mutation_local in Em.
    destruct Em as [(_ & _ & R & _)|(p & n & d & _ & _ & A & B & _ & _ & R & _)]; rewrite R in Hmr; subst mr; cbn in El.
    - discriminate.
    - rewrite (HL2 _ _ _ _ _ _ (Hget _ _ Eg) A B) in El. congruence. }
  eapply (same_record (gl_lang G) _ ms pm ast t m fuel' i r' a' mr x fuel i1 r2 a r3 Eg); try eassumption.
  - exact (counted_classified _ _ _ _ _ _ Hc Hnd Eg).
  - intros n d d' A B B' X. apply Hget in Eg. destruct HG as [->| ->]; cbn in Eg.
    + exact (sol_record e t m fuel' n r' d fuel r2 d' D Ht Eg A B B' X).
    + exact (vy_record e t m fuel' n r' d fuel r2 d' D F Ht Eg B B' X).
Qed.

(** ** Different records, different trees *)
Lemma ways_lemma ps idm m fuel i ast r a s fuel' r' a' s' :
  (forall p n, In (p, n) (fst (allowed ps false ast)) -> exists b, mu_mutable m n = Ok b) ->
  (forall p n d d', subtree p ast = Some n -> mu_mutable m n = Ok true -> mu_mutate m fuel n r = Ok d ->
     mu_mutate m fuel' n r' = Ok d' -> md_node d = md_node d' -> md_result d = md_result d') ->
  make_mutation ps idm m fuel i ast r = Ok (a, s) -> make_mutation ps idm m fuel' i ast r' = Ok (a', s') ->
  mk_result s <> mk_result s' -> a <> a'.
Proof.
  intros Ht Hw H H' N X.
  destruct (same_index _ _ _ _ _ _ _ _ _ _ _ _ _ Ht H H') as [(R & R' & _)|Q]; [congruence|].
  destruct Q as (p & n & d & d' & Hp & Ha & Hd & Hd' & -> & -> & C & C' & Q & Q' & _).
  apply N. rewrite Q, Q'. eapply Hw; try eassumption.
  assert (U : forall y, subtree p (set_subtree p y ast) = Some y) by (intros y; eapply subtree_set_subtree_same; eauto).
  pose proof (U (md_node d)) as U1. rewrite X, U in U1. congruence.
Qed.

(** ** Concrete cases *)
Definition rec_env : env := {|
  e_sha := fun s => s; e_pp := fun n => Ok (match sol_id n with Some k => show_N k | None => "" end);
  e_order := fun l => l; e_oc := true;
  e_rand_float := fun d => (Z.of_N d, 0%Z); e_show_float := fun f => show_Z (fst f);
  e_float_bytes := fun f => show_Z (fst f)
|}.
Lemma rec_env_differs : hashes_differ rec_env /\ float_bytes_differ rec_env.
Proof. split; intros a b H; exact H. Qed.

(** function f() { x = 7; } *)
Definition number_unit : json := s_unit 1 [ s_contract 2 "C"
  [ s_fun 10 "f" (s_block 11 [ s_stmt 12 (s_assign 13 "uint8" (s_ident 14 "x") (s_number 15 "7")) ]) ] ].
Definition number_params : run_params := run_on "a/x.sol" "out" 1 [Generic Integer].

Definition number_run (d : N) : list (json * mutator_result) :=
  mutants (fst (generate (solidity_files rec_env) ex_world number_params 20 number_unit (const_rng d))).

Lemma dismissed_witness : exists e W P ast a mr pm t i r r' a' x,
  hashes_differ e /\ float_bytes_differ e /\ rearranges (w_order W) /\
  In (a, mr) (mutants (fst (generate (solidity_files e) W P 20 ast r))) /\
  calculate_node_paths (permissions_for_functions (rp_functions P)) (l_id (gl_lang (solidity_files e))) ast = Ok pm /\
  mutate_ast (gl_lang (solidity_files e)) (permissions_for_functions (rp_functions P))
    (w_order W (select_mutators (gl_lang (solidity_files e)) (rp_types P) [])) pm 20 ast t i r' = Ok (a', mr, x) /\
  a' <> a.
Proof.
  exists rec_env, ex_world, number_params, number_unit, (fst (nth 0 (number_run 5) (JNull, empty_result))),
    (snd (nth 0 (number_run 5) (JNull, empty_result))).
  eexists _, (Generic Integer), 0, (const_rng 5), (const_rng 8), _, _.
  split; [apply rec_env_differs|]. split; [apply rec_env_differs|]. split; [exact ex_world_rearranges|].
  split; [vm_compute; now left|]. split; [vm_compute; reflexivity|]. split; [vm_compute; reflexivity|].
  intros E. apply (f_equal (fun j => match subtree [2; 0; 3; 0; 0; 2; 1; 0; 4] j with
    | Some n => get_str n "value" | None => None end)) in E. revert E. vm_compute. discriminate.
Qed.

(** Two functions of two lines each. *)
Definition two_lines (id : N) (f : string) : json := s_fun id f (s_block (id + 1)
  [ s_stmt (id + 2) (s_call (id + 3) (s_ident (id + 4) "g") []);
    s_stmt (id + 5) (s_call (id + 6) (s_ident (id + 7) "h") []) ]).
Definition lines_unit : json := s_unit 1 [ s_contract 2 "C" [ two_lines 10 "f"; two_lines 30 "k" ] ].
Definition lines_params : run_params := run_on "a/x.sol" "out" 2 [Generic SwapLines].
Definition lines_rng : rng := {| rstream := fun i => N.of_nat (i / 2 + i / 3); rpos := 0 |}.

Lemma written_twice : exists G W P fuel ast r a mr mr',
  supported G /\ rearranges (w_order W) /\ mutants (fst (generate G W P fuel ast r)) = [(a, mr); (a, mr')] /\ mr <> mr'.
Proof.
  exists (solidity_files rec_env), ex_world, lines_params, 60, lines_unit, lines_rng. eexists _, _, _.
  split; [exists rec_env; now left|]. split; [exact ex_world_rearranges|]. split; [vm_compute; reflexivity|].
  discriminate.
Qed.

(** A function that returns an array: its only line is removed without
    replacement. *)
Definition array_def : json := v_node "FunctionDef" 1 [("name", JStr "f");
  ("returns", v_node "Subscript" 2 [("value", v_name 3 "uint256")]); ("body", JArr [v_return 4 (v_name 5 "x")])].

Lemma emptied_witness : exists e m fuel n r d x c,
  vy_mutator_for e (Generic DeleteStatement) = Some m /\ mu_mutable m n = Ok true /\ mu_mutate m fuel n r = Ok d /\
  is_vy "FunctionDef" n /\ has_field n "body" (JArr [x]) /\ has_field (md_node d) "body" (JArr [c]) /\ is_vy "Comment" c.
Proof.
  exists ex_env. eexists _, 5, array_def, ex_rng, _, _, _. split; [reflexivity|]. split; [vm_compute; reflexivity|].
  split; [vm_compute; reflexivity|]. repeat split; vm_compute; reflexivity.
Qed.

Lemma sol_ways_lemma e t m ps idm fuel i ast r a s fuel' r' a' s' :
  sol_mutator_for e t = Some m -> (forall p n, subtree p ast = Some n -> sol_one_way t n) ->
  (forall p n, subtree p ast = Some n -> classifies m n) ->
  make_mutation ps idm m fuel i ast r = Ok (a, s) -> make_mutation ps idm m fuel' i ast r' = Ok (a', s') ->
  mk_result s <> mk_result s' -> a <> a'.
Proof.
  intros Hm Hw Hc. apply ways_lemma.
  - intros p n Hp. apply (Hc p). eapply allowed_subtree; exact Hp.
  - intros p n d d' Hp Ha H H'. exact (sol_ways e t m fuel n r d fuel' r' d' (Hw _ _ Hp) Hm Ha H H').
Qed.

Lemma vy_ways_lemma e t m ps idm fuel i ast r a s fuel' r' a' s' :
  vy_mutator_for e t = Some m -> (forall p n, subtree p ast = Some n -> vy_one_way t n) ->
  (forall p n, subtree p ast = Some n -> classifies m n) ->
  make_mutation ps idm m fuel i ast r = Ok (a, s) -> make_mutation ps idm m fuel' i ast r' = Ok (a', s') ->
  mk_result s <> mk_result s' -> a <> a'.
Proof.
  intros Hm Hw Hc. apply ways_lemma.
  - intros p n Hp. apply (Hc p). eapply allowed_subtree; exact Hp.
  - intros p n d d' Hp Ha H H'. exact (vy_ways e t m fuel n r d fuel' r' d' (Hw _ _ Hp) Hm H H').
Qed.
