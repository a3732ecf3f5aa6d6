(** More about whole runs: what the mutants are (C59), independence of the
    order of hash maps (C60), and which files are written (C38, C39, C54). *)
From Coq Require Import String Ascii List Bool NArith Arith Lia Permutation Sorted.
From Verif Require Import Base Json Rng Permissions MutationType Traverse OpCommon SolMutators VyMutators
  Comments Language Paths Generator SpecTree SpecMutation SpecTotal SpecGenerator
  TraverseFacts TraverseFacts2 TraverseFacts3 OpOrder OpClaims GenFacts SelFacts PathFacts GenLaws Samples.
Import ListNotations.
Open Scope list_scope.

(** ** C59 *)
Lemma one_mutation_set G W P fuel ast r : supported G -> rearranges (w_order W) ->
  forall ast' mr, In (ast', mr) (mutants (fst (generate G W P fuel ast r))) ->
  exists t m p n r0 d ast1,
    mr_type mr = Some t /\ In t (rp_types P) /\ l_mutator_for (gl_lang G) t = Some m /\
    subtree p ast = Some n /\ mu_mutable m n = Ok true /\ mu_mutate m fuel n r0 = Ok d /\
    ast1 = set_subtree p (md_node d) ast /\ (rp_functions P <> [] -> inside_named (rp_functions P) ast p) /\
    (ast' = ast1 \/ exists comment path, md_comment d = Some comment /\
       ast' = insert_comment_by_path (l_id (gl_lang G)) (l_member (gl_lang G)) (l_insert (gl_lang G)) ast1 comment path).
Proof.
  intros HG Ho ast' mr. destruct (generate G W P fuel ast r) as (evs, out) eqn:E. cbn [fst].
  apply generate_split in E as [((-> & _) & _)|(c & pm & head & prints & ts & r1 & body & done & Hc & _ & _ & -> & (Hh & _) & Hs & Hb)].
  { intros []. }
  rewrite mutants_app, Hh, (batch_mutants _ _ _ _ _ _ _ _ _ _ _ _ _ _ Hb). cbn [app]. intros Hi.
  apply in_map_iff in Hi as ((t & x) & Ex & Hi). cbn [snd] in Ex. subst x.
  pose proof (batch_made _ _ _ _ _ _ _ _ _ _ _ _ _ _ Hb) as Hm. rewrite Forall_forall in Hm. specialize (Hm _ Hi).
  cbn [fst snd] in Hm. destruct (made_label _ _ _ _ _ _ _ _ _ HG Ho Hc Hm) as (El & _). cbn [snd] in El.
  destruct Hm as (i & n & r0 & r' & _ & _ & Hm). cbn [fst snd] in Hm. unfold mutate_ast in Hm.
  destruct (mm_get t _) as [m|] eqn:Eg; [|discriminate].
  rewrite reordered_get, select_get in Eg by first [assumption|apply (supported_ok G HG)].
  destruct (existsb (mt_eqb t) (rp_types P)) eqn:Ex; [|discriminate].
  apply existsb_exists in Ex as (t' & Ht' & Et). apply mt_eqb_eq in Et. subst t'.
  cbn [mm_get] in Eg. destruct (l_mutator_for (gl_lang G) t) as [m'|] eqn:El'; [|discriminate]. injection Eg as ->.
  destruct (make_mutation _ _ m fuel i ast r0) as [[ast1 s]| | |] eqn:Em; try discriminate. cbn [bind] in Hm.
  assert (Hloc := Em). apply make_mutation_local in Hloc.
  destruct Hloc as [(-> & Hcm & Hr & _)|(p & nd & d & A & Hin & B & C & -> & D & _ & _ & _)].
  { injection Hm as _ Hmr _. rewrite Hr in Hmr. subst mr. discriminate. }
  exists t, m, p, nd, r0, d, (set_subtree p (md_node d) ast).
  split; [exact El|]. split; [exact Ht'|]. split; [exact El'|]. split; [exact A|]. split; [exact B|]. split; [exact C|].
  split; [reflexivity|]. split.
  - intros Hne. destruct (allowed_sound _ _ _ _ _ Hin) as [Habs|(x & Hx & Hmm)]; [discriminate|].
    exists x. rewrite functions_may_mutate, functions_may_mutate_children in Hmm by exact Hne.
    assert (Hm' : named_in (rp_functions P) x = true) by tauto. apply named_in_spec in Hm'.
    destruct Hm' as (f & Hf & Hi'). eauto.
  - injection Hm as Ha _ _. rewrite D in Ha. destruct (md_comment d) as [cm|]; [|left; congruence].
    destruct (pm_get _ _) as [q|]; [right; exists cm, q; split; [reflexivity|congruence]|left; congruence].
Qed.

Lemma one_mutation_lemma G W P fuel ast r : supported G -> rearranges (w_order W) ->
  forall ast' mr, In (ast', mr) (mutants (fst (generate G W P fuel ast r))) ->
  exists t m p n r0 d ast1,
    mr_type mr = Some t /\ In t (rp_types P) /\ l_mutator_for (gl_lang G) t = Some m /\
    subtree p ast = Some n /\ mu_mutable m n = Ok true /\ mu_mutate m fuel n r0 = Ok d /\
    replaced_at p (md_node d) ast ast1 /\ (rp_functions P <> [] -> inside_named (rp_functions P) ast p) /\
    (ast' = ast1 \/ exists comment path, md_comment d = Some comment /\
       ast' = insert_comment_by_path (l_id (gl_lang G)) (l_member (gl_lang G)) (l_insert (gl_lang G)) ast1 comment path).
Proof.
  intros HG Ho ast' mr H.
  destruct (one_mutation_set G W P fuel ast r HG Ho ast' mr H) as (t & m & p & n & r0 & d & ast1 & A & B & C & D & E & F & -> & I).
  exists t, m, p, n, r0, d, (set_subtree p (md_node d) ast).
  split; [exact A|]. split; [exact B|]. split; [exact C|]. split; [exact D|]. split; [exact E|]. split; [exact F|].
  split; [eapply set_subtree_replaced; eauto|exact I].
Qed.

(** ** C60 *)
Lemma select_ext c c' : (forall t, ct_get t c = ct_get t c') -> available c = available c' ->
  forall fuel types used chosen remaining r,
  select_kinds fuel c types used chosen remaining r = select_kinds fuel c' types used chosen remaining r.
Proof.
  intros Hg Ha. assert (Ht : forall t, times t c = times t c') by (intros t; unfold times; now rewrite Hg).
  induction fuel as [|fuel IH]; intros types used chosen remaining r; [reflexivity|]. cbn [select_kinds].
  destruct remaining as [|rest]; [reflexivity|]. destruct (choose types r) as ([t|], r1); [|apply IH].
  rewrite Ht, Ha. destruct (Nat.ltb _ _); [now rewrite IH|]. destruct (Nat.leb _ _); [reflexivity|apply IH].
Qed.

Lemma mutate_ext L ps ms ms' pm fuel ast t i r : (forall t, mm_get t ms = mm_get t ms') ->
  mutate_ast L ps ms pm fuel ast t i r = mutate_ast L ps ms' pm fuel ast t i r.
Proof. intros H. unfold mutate_ast. now rewrite H. Qed.

Lemma attempt_ext G W P o ps ms ms' pm fuel c c' ast k t : (forall t, mm_get t ms = mm_get t ms') ->
  (forall t, ct_get t c = ct_get t c') -> forall s,
  attempt G (with_order o W) P ps ms pm fuel c ast k t s = attempt G W P ps ms' pm fuel c' ast k t s.
Proof.
  intros Hm Hc. induction k as [|k IH]; intros s; [reflexivity|]. cbn [attempt]. rewrite Hc.
  destruct (ct_get t c') as [n|]; [|reflexivity]. destruct (pick_index n (g_rng s)) as (i, r1).
  rewrite (mutate_ext _ _ ms ms') by exact Hm.
  destruct (mutate_ast (gl_lang G) ps ms' pm fuel ast t i r1) as [[[a mr] r2]| | |]; [|reflexivity ..].
  destruct (seen_before mr (g_seen s)); [now rewrite IH|].
  set (s1 := {| g_rng := r2; g_seen := g_seen s; g_written := g_written s; g_prints := g_prints s; g_checks := g_checks s |}).
  change (validate (with_order o W) P a s1) with (validate W P a s1).
  destruct (validate W P a s1) as (ev, [[|]| | |]); [|now rewrite IH|reflexivity ..].
  change (emit G (with_order o W) P a mr s1) with (emit G W P a mr s1). reflexivity.
Qed.

Lemma make_ext G W P o ps ms ms' pm fuel c c' ast todo : (forall t, mm_get t ms = mm_get t ms') ->
  (forall t, ct_get t c = ct_get t c') -> forall s,
  make_mutants G (with_order o W) P ps ms pm fuel c ast todo s = make_mutants G W P ps ms' pm fuel c' ast todo s.
Proof.
  intros Hm Hc. induction todo as [|t todo IH]; intros s; [reflexivity|]. cbn [make_mutants].
  rewrite (attempt_ext G W P o ps ms ms' pm fuel c c' ast attempts_limit t Hm Hc s).
  generalize (attempt G W P ps ms' pm fuel c' ast attempts_limit t s). intros (ev, [s'| | |]); [|reflexivity ..].
  now rewrite IH.
Qed.

Lemma count_all_ok_iff ms ns : NoDup (map fst ms) -> forall c,
  (exists c', count_all ms ns c = Ok c') <-> (forall t m n, In (t, m) ms -> In n ns -> exists b, mu_mutable m n = Ok b).
Proof.
  intros Hn c. split.
  - intros (c' & H) t m n Hi Hin. destruct (count_all_in _ _ _ _ _ _ H Hn Hi) as (A & _). auto.
  - intros H. clear Hn.
    assert (Hnode : forall n ms', (forall x, In x ms' -> In x ms) -> In n ns -> forall c, exists c', count_node ms' n c = Ok c').
    { intros n. induction ms' as [|[t m] ms' IH]; intros Hs Hin c0; [eexists; reflexivity|]. cbn [count_node].
      destruct (H t m n (Hs _ (or_introl eq_refl)) Hin) as (b & ->). cbn [bind]. apply IH; [|exact Hin]. intros x Hx. apply Hs. now right. }
    clear H. revert c. induction ns as [|n ns IH]; intros c; [eexists; reflexivity|]. cbn [count_all].
    destruct (Hnode n ms (fun x Hx => Hx) (or_introl eq_refl) c) as (c1 & ->). cbn [bind]. apply IH.
    intros n' ms' Hs Hi. apply Hnode; [exact Hs|now right].
Qed.

Lemma order_lemma G W P o fuel ast r c :
  rearranges (w_order W) -> rearranges o -> run_counts G W P ast c ->
  generate G (with_order o W) P fuel ast r = generate G W P fuel ast r.
Proof.
  intros Ho Ho' Hc. unfold run_counts in Hc. unfold generate. cbn [with_order w_order].
  set (ps := permissions_for_functions (rp_functions P)) in *.
  set (ms0 := select_mutators (gl_lang G) (rp_types P) []) in *.
  set (ms := w_order W ms0) in *. set (ms' := o ms0).
  assert (Hn : NoDup (map fst ms)) by now apply reordered_nodup.
  assert (Hn' : NoDup (map fst ms')) by now apply reordered_nodup.
  assert (Hin : forall x, In x ms' <-> In x ms).
  { intros x. split; intros H.
    - apply (Permutation_in x (Permutation_sym (Ho ms0))). now apply (Permutation_in x (Ho' ms0)).
    - apply (Permutation_in x (Permutation_sym (Ho' ms0))). now apply (Permutation_in x (Ho ms0)). }
  assert (Hmm : forall t, mm_get t ms' = mm_get t ms).
  { intros t. unfold ms, ms', ms0. now rewrite !reordered_get. }
  assert (Hc' : exists c', count_mutable_nodes ps ms' ast = Ok c').
  { rewrite count_mutable_nodes_eq. rewrite count_mutable_nodes_eq in Hc.
    apply (count_all_ok_iff _ _ Hn'). intros t m n Hi. apply Hin in Hi. revert Hi. revert t m n.
    intros t m n Hi Hx. exact (proj1 (count_all_ok_iff _ _ Hn _) (ex_intro _ c Hc) t m n Hi Hx). }
  destruct Hc' as (c' & Hc'). rewrite Hc, Hc'. cbn [and_then].
  assert (Hg : forall t, ct_get t c' = ct_get t c) by (now apply (count_order_lemma ps ms' ms ast c' c)).
  destruct (count_table_ok _ _ _ _ Hc) as (Hd & Hpos & _). destruct (count_table_ok _ _ _ _ Hc') as (Hd' & Hpos' & _).
  assert (Ha : available c' = available c).
  { rewrite !available_total by assumption. apply total_ext. intros t. unfold times. now rewrite Hg. }
  assert (Hu : usable_types c' = usable_types c).
  { apply sorted_unique; try apply sort_sorted.
    - unfold usable_types.
      eapply Permutation_trans; [apply sort_perm|]. eapply Permutation_trans; [|apply Permutation_sym, sort_perm].
      assert (Hnd : forall c0, NoDup (map fst c0) -> NoDup (map fst (filter (fun kv : mutation_type * nat => Nat.ltb 0 (snd kv)) c0))).
      { clear. induction c0 as [|[t n] c0 IH]; intros H; [constructor|]. cbn [map filter fst snd] in *.
        inversion H as [|? ? Hn Hd]; subst. destruct (Nat.ltb 0 n); [|now apply IH]. cbn [map fst]. constructor; [|now apply IH].
        intros Hi. apply Hn. apply in_map_iff in Hi as (kv & E & Hi). apply filter_In in Hi as (Hi & _). rewrite <- E. now apply in_map. }
      apply NoDup_Permutation; [now apply Hnd|now apply Hnd|].
      intros t. transitivity (In t (usable_types c')); [symmetry; apply sorted_in|].
      transitivity (In t (usable_types c)); [|apply sorted_in]. rewrite !usable_in by assumption.
      unfold times. now rewrite Hg. }
  destruct (calculate_node_paths ps (l_id (gl_lang G)) ast) as [pm| | |]; cbn [and_then]; [|reflexivity ..].
  assert (He : c = [] <-> c' = []).
  { destruct c as [|[t n] c1], c' as [|[t' n'] c1']; try (split; congruence); exfalso.
    - specialize (Hg t'). cbn [ct_get] in Hg. rewrite mt_eqb_refl in Hg. discriminate.
    - specialize (Hg t). cbn [ct_get] in Hg. rewrite mt_eqb_refl in Hg. discriminate. }
  destruct c as [|kv c1] eqn:E1.
  { rewrite (proj1 He eq_refl). reflexivity. }
  destruct c' as [|kv' c1'] eqn:E2; [discriminate (proj2 He eq_refl)|]. rewrite <- E1 in *. rewrite <- E2 in *.
  change (print_original G (with_order o W) P ast) with (print_original G W P ast).
  change (save_config (with_order o W) P) with (save_config W P).
  destruct (print_original G W P ast) as (ev1, [n1| | |]); cbn [and_then]; [|reflexivity ..].
  destruct (save_config W P) as (ev2, [[]| | |]); cbn [and_then]; [|reflexivity ..].
  rewrite Hu, (select_ext c' c Hg Ha).
  destruct (select_kinds fuel c (usable_types c) [] 0 (rp_count P) r) as [x| | |]; cbn [and_then]; [|reflexivity ..].
  rewrite (make_ext G W P o ps ms' ms pm fuel c' c ast (fst x) Hmm Hg). reflexivity.
Qed.

(** ** Files *)
Lemma mutant_file_base G W P fuel ast r f : supported G ->
  In f (mutant_files (fst (generate G W P fuel ast r))) ->
  exists base k, file_name (rp_file P) = Some base /\ f = path_join (rp_outdir P) (numbered base (gl_ext G) k).
Proof.
  intros HG Hi. destruct (file_names G W P fuel ast r HG) as (A & B & _). cbv zeta in A, B.
  destruct (rp_stdout P) eqn:Eo; [rewrite A in Hi by reflexivity; destruct Hi|].
  destruct (mutants (fst (generate G W P fuel ast r))) as [|x l] eqn:Em.
  - exfalso. clear A B. revert Hi Em. unfold mutants, mutant_files.
    generalize (fst (generate G W P fuel ast r)). intros evs. induction evs as [|e evs IH]; [intros []|].
    cbn [flat_map]. intros Hi Em. apply app_eq_nil in Em as (E1 & E2). destruct e; cbn in *; try discriminate; auto.
  - destruct (B eq_refl ltac:(discriminate)) as (base & Hb & Hf). rewrite Hf in Hi.
    apply in_map_iff in Hi as (k & <- & _). eauto.
Qed.

Lemma other_files_lemma G G' W W' P P' fuel fuel' ast ast' r r' : supported G -> supported G' ->
  rp_outdir P = rp_outdir P' -> file_name (rp_file P) <> file_name (rp_file P') ->
  forall f, In f (mutant_files (fst (generate G W P fuel ast r))) ->
           ~ In f (mutant_files (fst (generate G' W' P' fuel' ast' r'))).
Proof.
  intros HG HG' Ho Hne f H H'. apply mutant_file_base in H as (b & k & Hb & ->); [|exact HG].
  apply mutant_file_base in H' as (b' & k' & Hb' & E); [|exact HG'].
  destruct (supported_ok G HG) as (_ & He). destruct (supported_ok G' HG') as (_ & He'). rewrite Ho in E.
  apply join_inj in E; [|eapply numbered_proper; eauto using file_name_proper|eapply numbered_proper; eauto using file_name_proper].
  apply numbered_inj in E as (E & _); [|assumption|assumption]. congruence.
Qed.

Lemma not_input_lemma G W P fuel ast r : supported G ->
  forall f, In f (mutant_files (fst (generate G W P fuel ast r))) -> file_name f <> file_name (rp_file P).
Proof.
  intros HG f H. apply mutant_file_base in H as (b & k & Hb & ->); [|exact HG].
  destruct (supported_ok G HG) as (_ & He). rewrite file_name_join, Hb by (eapply numbered_proper; eauto using file_name_proper).
  intros E. injection E as E. apply (f_equal String.length) in E. unfold numbered in E. rewrite string_length_app in E.
  cbn [String.length] in E. lia.
Qed.

(** ** C54 *)
Lemma interleaved_split {A} (a b l : list A) : interleaved a b l -> forall before x after, l = before ++ x :: after ->
  exists a1 b1, interleaved a1 b1 before /\
    ((exists a2 b2, a = a1 ++ x :: a2 /\ b = b1 ++ b2) \/ (exists a2 b2, a = a1 ++ a2 /\ b = b1 ++ x :: b2)).
Proof.
  induction 1 as [|y a b l H IH|y a b l H IH]; intros before x after E.
  - destruct before; discriminate.
  - destruct before as [|z before]; injection E as -> E.
    + exists [], []. split; [constructor|]. left. exists a, b. auto.
    + destruct (IH _ _ _ E) as (a1 & b1 & Hi & [(a2 & b2 & -> & ->)|(a2 & b2 & -> & ->)]);
        exists (z :: a1), b1; (split; [now constructor|]); [left|right]; exists a2, b2; auto.
  - destruct before as [|z before]; injection E as -> E.
    + exists [], []. split; [constructor|]. right. exists a, b. auto.
    + destruct (IH _ _ _ E) as (a1 & b1 & Hi & [(a2 & b2 & -> & ->)|(a2 & b2 & -> & ->)]);
        exists a1, (z :: b1); (split; [now constructor|]); [left|right]; exists a2, b2; auto.
Qed.

Lemma interleaved_sym {A} (a b l : list A) : interleaved a b l -> interleaved b a l.
Proof. induction 1; constructor; assumption. Qed.

Definition leaves_alone (f : string) (s : fs_step) : Prop := forall c, fs_after f c s = c.

Lemma interleaved_holds f a b l : interleaved a b l -> Forall (leaves_alone f) b ->
  forall c, fold_left (fs_after f) l c = fold_left (fs_after f) a c.
Proof.
  induction 1 as [|y a b l H IH|y a b l H IH]; intros Hb c; [reflexivity| |]; cbn [fold_left].
  - now apply IH.
  - inversion Hb as [|? ? Hy Hb']; subst. rewrite Hy. now apply IH.
Qed.

Lemma steps_alone f evs : ~ In f (touched evs) -> Forall (leaves_alone f) (flat_map fs_steps evs).
Proof.
  unfold touched. induction evs as [|e evs IH]; intros H; [constructor|]. cbn [flat_map] in *.
  rewrite in_app_iff in H. apply Forall_app. split; [|apply IH; tauto].
  assert (He : ~ In f (touched_by e)) by tauto. clear - He.
  assert (Hne : forall g, ~ (g = f \/ False) -> (g =?s f)%string = false).
  { intros g Hg. destruct (String.eqb_spec g f); [tauto|reflexivity]. }
  destruct e; cbn in *; repeat (apply Forall_cons; [intros c; cbn; rewrite ?Hne by exact He; reflexivity|]); apply Forall_nil.
Qed.

Lemma steps_compile evs a1 f ast a2 : flat_map fs_steps evs = a1 ++ Compile f ast :: a2 ->
  In f (validated_files evs) /\ exists x, a1 = x ++ [Put f (Some ast)].
Proof.
  revert a1. induction evs as [|e evs IH]; intros a1 H; [destruct a1; discriminate|]. cbn [flat_map validated_files] in *.
  assert (Hskip : forall pre, (forall y, In y pre -> exists g, y = Put g None) -> pre ++ flat_map fs_steps evs = a1 ++ Compile f ast :: a2 ->
            exists a1', a1 = pre ++ a1' /\ flat_map fs_steps evs = a1' ++ Compile f ast :: a2).
  { intros pre. revert a1 H. clear. intros a1 _. revert a1. induction pre as [|y pre IHp]; intros a1 Hy E; [exists a1; auto|].
    destruct a1 as [|z a1]; cbn [app] in E; injection E as E1 E2.
    - destruct (Hy y (or_introl eq_refl)) as (g & ->). discriminate.
    - subst z. destruct (IHp a1 (fun w Hw => Hy w (or_intror Hw)) E2) as (a1' & -> & E'). exists a1'. auto. }
  assert (Hrest : forall pre, (forall y, In y pre -> exists g, y = Put g None) -> pre ++ flat_map fs_steps evs = a1 ++ Compile f ast :: a2 ->
            In f (validated_files evs) /\ exists x, a1 = x ++ [Put f (Some ast)]).
  { intros pre Hp E. destruct (Hskip pre Hp E) as (a1' & -> & E'). destruct (IH a1' E') as (A & x & ->).
    split; [exact A|]. exists (pre ++ x). now rewrite app_assoc. }
  destruct e as [t i|tmp a b|fl a mr|a mr|fl a|a|fl|]; cbn [fs_steps touched_by map app validated_file] in *;
    try (now apply (Hrest [] ltac:(intros y []))); try (apply (Hrest [Put fl None]); [intros y [<-|[]]; eauto|exact H]).
  destruct a1 as [|y1 a1]; [discriminate|]. injection H as <- H. destruct a1 as [|y2 a1]; cbn [app] in H.
  - injection H as -> -> _. split; [now left|]. exists []. reflexivity.
  - injection H as <- H. destruct a1 as [|y3 a1]; [discriminate|]. injection H as <- H.
    destruct (IH a1 H) as (A & x & ->). split; [now right|]. eexists (_ :: _ :: _ :: x). reflexivity.
Qed.

Lemma own_lemma evs1 evs2 l :
  (forall f, In f (validated_files evs1) -> ~ In f (touched evs2)) ->
  (forall f, In f (validated_files evs2) -> ~ In f (touched evs1)) ->
  interleaved (flat_map fs_steps evs1) (flat_map fs_steps evs2) l -> own_verdicts l.
Proof.
  intros H1 H2 Hi before f ast after E.
  assert (Hlast : forall x c, fold_left (fs_after f) (x ++ [Put f (Some ast)]) c = Some ast).
  { intros x c. rewrite fold_left_app. cbn. now rewrite String.eqb_refl. }
  destruct (interleaved_split _ _ _ Hi _ _ _ E) as (a1 & b1 & Hb & [(a2 & b2 & Ea & Eb)|(a2 & b2 & Ea & Eb)]).
  - destruct (steps_compile _ _ _ _ _ Ea) as (Hv & x & ->). unfold holds.
    pose proof (steps_alone f evs2 (H1 f Hv)) as Ha. rewrite Eb in Ha. apply Forall_app in Ha as (Ha & _).
    rewrite (interleaved_holds f _ _ _ Hb Ha). apply Hlast.
  - destruct (steps_compile _ _ _ _ _ Eb) as (Hv & x & ->). unfold holds.
    pose proof (steps_alone f evs1 (H2 f Hv)) as Ha. rewrite Ea in Ha. apply Forall_app in Ha as (Ha & _).
    rewrite (interleaved_holds f _ _ _ (interleaved_sym _ _ _ Hb) Ha). apply Hlast.
Qed.
