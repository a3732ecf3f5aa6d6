(** Whole runs of the generator (C31-C36, C53, C59, C60). *)
From Coq Require Import String Ascii List Bool NArith Arith Lia Permutation Sorted.
From Verif Require Import Base Json Rng Permissions MutationType Traverse OpCommon SolMutators VyMutators
  Comments Language Paths Generator SpecTree SpecMutation SpecTotal SpecGenerator TraverseFacts TraverseFacts3 OpOrder OpClaims
  GenFacts SelFacts PathFacts.
Import ListNotations.
Open Scope list_scope.

(** ** Count tables *)
Lemma ct_bump_keys t c x : In x (map fst (ct_bump t c)) <-> x = t \/ In x (map fst c).
Proof.
  induction c as [|[t' n] c IH]; simpl; [intuition|]. destruct (mt_eqb t t') eqn:E; simpl.
  - apply mt_eqb_eq in E. subst. intuition.
  - rewrite IH. intuition.
Qed.

Lemma ct_bump_nodup t c : NoDup (map fst c) -> NoDup (map fst (ct_bump t c)).
Proof.
  induction c as [|[t' n] c IH]; simpl; intros H; [repeat constructor; intros []|].
  inversion H as [|? ? Hn Hd]; subst. destruct (mt_eqb t t') eqn:E; simpl; [now constructor|].
  constructor; [|now apply IH]. rewrite ct_bump_keys. intros [->|Hi]; [|contradiction]. rewrite mt_eqb_refl in E. discriminate.
Qed.

Lemma ct_bump_pos t c : Forall (fun kv => 0 < snd kv) c -> Forall (fun kv : mutation_type * nat => 0 < snd kv) (ct_bump t c).
Proof.
  induction 1 as [|[t' n] c Hn Hc IH]; simpl; [repeat constructor; simpl; lia|].
  destruct (mt_eqb t t'); constructor; auto; simpl in *; lia.
Qed.

Definition table_ok (ms : mutator_map) (c : count_table) : Prop :=
  NoDup (map fst c) /\ Forall (fun kv : mutation_type * nat => 0 < snd kv) c /\
  (forall t, In t (map fst c) -> In t (map fst ms)).

Lemma count_node_ok ms' n : forall ms c c', (forall t, In t (map fst ms) -> In t (map fst ms')) ->
  count_node ms n c = Ok c' -> table_ok ms' c -> table_ok ms' c'.
Proof.
  induction ms as [|[t m] ms IH]; simpl; intros c c' Hs H Hc; [now injection H as <-|].
  destruct (mu_mutable m n) as [b| | |]; try discriminate. cbn [bind] in H.
  apply (IH _ _ (fun t0 H0 => Hs t0 (or_intror H0)) H). destruct b; [|exact Hc].
  destruct Hc as (A & B & C). split; [now apply ct_bump_nodup|]. split; [now apply ct_bump_pos|].
  intros x Hx. apply ct_bump_keys in Hx as [->|Hx]; [apply Hs; now left|now apply C].
Qed.

Lemma count_all_ok ms ns : forall c c', count_all ms ns c = Ok c' -> table_ok ms c -> table_ok ms c'.
Proof.
  induction ns as [|n ns IH]; simpl; intros c c' H Hc; [now injection H as <-|].
  destruct (count_node ms n c) as [c1| | |] eqn:E; try discriminate. cbn [bind] in H.
  apply (IH _ _ H). eapply count_node_ok; [|exact E|exact Hc]. auto.
Qed.

Lemma count_table_ok ps ms ast c : count_mutable_nodes ps ms ast = Ok c -> table_ok ms c.
Proof.
  rewrite count_mutable_nodes_eq. intros H. eapply count_all_ok; [exact H|].
  split; [constructor|]. split; [constructor|]. intros t [].
Qed.

(** ** The selected operators *)
Lemma mm_insert_keys t m ms x : In x (map fst (mm_insert t m ms)) <-> x = t \/ In x (map fst ms).
Proof.
  induction ms as [|[t' n] ms IH]; simpl; [intuition|]. destruct (mt_eqb t t') eqn:E; simpl.
  - apply mt_eqb_eq in E. subst. intuition.
  - rewrite IH. intuition.
Qed.

Lemma mm_insert_nodup t m ms : NoDup (map fst ms) -> NoDup (map fst (mm_insert t m ms)).
Proof.
  induction ms as [|[t' n] ms IH]; simpl; intros H; [repeat constructor; intros []|].
  inversion H as [|? ? Hn Hd]; subst. destruct (mt_eqb t t') eqn:E; simpl; [now constructor|].
  constructor; [|now apply IH]. rewrite mm_insert_keys. intros [->|Hi]; [|contradiction]. rewrite mt_eqb_refl in E. discriminate.
Qed.

Lemma select_nodup L ts : forall ms, NoDup (map fst ms) -> NoDup (map fst (select_mutators L ts ms)).
Proof.
  induction ts as [|t ts IH]; intros ms H; [exact H|].
  change (select_mutators L (t :: ts) ms) with
    (select_mutators L ts (match l_mutator_for L t with Some m => mm_insert (mu_type m) m ms | None => ms end)).
  apply IH. destruct (l_mutator_for L t); [now apply mm_insert_nodup|exact H].
Qed.

Lemma mm_get_iff t m ms : NoDup (map fst ms) -> (mm_get t ms = Some m <-> In (t, m) ms).
Proof.
  induction ms as [|[t' m'] ms IH]; intros H; simpl; [split; [discriminate|tauto]|].
  inversion H as [|? ? Hn Hd]; subst. destruct (mt_eqb t t') eqn:E.
  - apply mt_eqb_eq in E. subst t'. split.
    + intros E. injection E as ->. now left.
    + intros [E|Hi]; [now injection E as ->|]. exfalso. apply Hn. apply (in_map fst) in Hi. exact Hi.
  - rewrite (IH Hd). split; [now right|]. intros [Ei|Hi]; [|exact Hi]. injection Ei as -> ->.
    rewrite mt_eqb_refl in E. discriminate.
Qed.

Lemma reordered_nodup o L ts : rearranges o -> NoDup (map fst (o (select_mutators L ts []))).
Proof.
  intros Ho. eapply Permutation_NoDup; [apply Permutation_sym, Permutation_map, Ho|]. apply select_nodup. constructor.
Qed.

Lemma reordered_get o L ts t : rearranges o ->
  mm_get t (o (select_mutators L ts [])) = mm_get t (select_mutators L ts []).
Proof.
  intros Ho. pose proof (reordered_nodup o L ts Ho) as H1.
  assert (H2 : NoDup (map fst (select_mutators L ts []))) by (apply select_nodup; constructor).
  destruct (mm_get t (select_mutators L ts [])) as [m|] eqn:E.
  - apply mm_get_iff; [exact H1|]. eapply Permutation_in; [apply Permutation_sym, Ho|]. now apply mm_get_iff in E.
  - destruct (mm_get t (o (select_mutators L ts []))) as [m|] eqn:E'; [|reflexivity].
    apply mm_get_iff in E'; [|exact H1]. eapply Permutation_in in E'; [|apply Ho]. apply (proj2 (mm_get_iff t m _ H2)) in E'. congruence.
Qed.

(** ** The two languages *)
Definition lang_ok (L : lang) : Prop :=
  (forall t m, l_mutator_for L t = Some m -> mu_type m = t) /\
  (forall t m fuel n r d, l_mutator_for L t = Some m -> mu_mutable m n = Ok true -> mu_mutate m fuel n r = Ok d ->
     mr_type (md_result d) = Some t).

Lemma supported_ok G : supported G -> lang_ok (gl_lang G) /\ known_ext (gl_ext G).
Proof.
  intros (e & [->| ->]); split; try (now left); try (now right); split; cbn [gl_lang solidity_files vyper_files solidity vyper l_mutator_for].
  - apply sol_mutator_type.
  - intros t m fuel n r d H1 H2 H3. exact (proj1 (sol_label e t m fuel n r d H1 H2 H3)).
  - apply vy_mutator_type.
  - intros t m fuel n r d H1 H2 H3. exact (proj1 (vy_label e t m fuel n r d H1 H2 H3)).
Qed.

(** The mutant of one run: type [t], counted node [i]. *)
Lemma made_label G W P ast pm fuel c t x :
  supported G -> rearranges (w_order W) -> run_counts G W P ast c ->
  made G (permissions_for_functions (rp_functions P)) (w_order W (select_mutators (gl_lang G) (rp_types P) [])) pm fuel c ast t x ->
  mr_type (snd x) = Some t /\ exists i, mr_index (snd x) = Some i /\ i < reported t c.
Proof.
  intros HG Ho Hc (i & n & r & r' & Hn & Hi & Hm). destruct (supported_ok G HG) as ((HL1 & HL2) & _).
  unfold run_counts in Hc. set (ms := w_order W _) in *.
  assert (Hnd : NoDup (map fst ms)) by now apply reordered_nodup.
  assert (Hpos : 0 < n).
  { destruct (count_table_ok _ _ _ _ Hc) as (A & B & _). apply (ct_get_in _ _ _ A) in Hn.
    rewrite Forall_forall in B. exact (B _ Hn). }
  assert (Hrep : reported t c = n) by (unfold reported; now rewrite Hn).
  assert (Hlt : i < reported t c) by (rewrite Hrep; destruct Hi; lia).
  unfold mutate_ast in Hm. destruct (mm_get t ms) as [m|] eqn:Eg; [|discriminate].
  destruct (select_lemma _ _ _ _ _ _ Hc Hnd (mm_get_In _ _ _ Eg)) as (l & _ & _ & Hl & Hact & _).
  destruct (nth_error l i) as [p|] eqn:Ep; [|apply nth_error_None in Ep; lia].
  destruct (Hact (l_id (gl_lang G)) fuel i r p Ep) as (nd & Hs & Hmu & Hout).
  assert (Em : l_mutator_for (gl_lang G) t = Some m).
  { subst ms. rewrite reordered_get, select_get in Eg by assumption. destruct (existsb (mt_eqb t) (rp_types P)); [|discriminate].
    cbn [mm_get] in Eg. destruct (l_mutator_for (gl_lang G) t); congruence. }
  destruct (mu_mutate m fuel nd r) as [d| | |] eqn:Ed; try (rewrite Hout in Hm; discriminate).
  destruct Hout as (a1 & s & Hmk & _ & _ & Hr & _). rewrite Hmk in Hm. cbn [bind] in Hm.
  injection Hm as _ Hmr _. rewrite <- Hmr. cbn [mr_type mr_index].
  rewrite Hr. split; [exact (HL2 _ _ _ _ _ _ Em Hmu Ed)|]. eauto.
Qed.

(** ** A run is a prefix without mutants followed by the slots *)
Definition quiet (evs : list event) : Prop := mutants evs = [] /\ mutant_files evs = [] /\ tries evs = 0.

Lemma quiet_app a b : quiet a -> quiet b -> quiet (a ++ b).
Proof.
  intros (A & B & C) (A' & B' & C'). unfold quiet.
  rewrite mutants_app, files_app, tries_app, A, B, C, A', B', C'. auto.
Qed.

Lemma quiet_nil : quiet [].
Proof. repeat split. Qed.

Lemma quiet_original G W P ast : quiet (fst (print_original G W P ast)).
Proof.
  unfold print_original. destruct (rp_original P); [|apply quiet_nil]. destruct (rp_stdout P); [repeat split|].
  destruct (printed_name _ _ _); repeat split.
Qed.
Lemma quiet_config W P : quiet (fst (save_config W P)).
Proof.
  unfold save_config. destruct (rp_save P); [|apply quiet_nil].
  destruct (config_name _ _); [destruct (rp_stdout P)| | |]; repeat split.
Qed.

Definition start (r : rng) (prints : nat) : gst :=
  {| g_rng := r; g_seen := []; g_written := 0; g_prints := prints; g_checks := 0 |}.

Lemma generate_split G W P fuel ast r evs out :
  generate G W P fuel ast r = (evs, out) ->
  (quiet evs /\ (forall s, out <> Ok s) /\
   (out = Diverge -> (exists k a, w_print W k a = Diverge) \/ w_config W = Diverge \/
      (exists c, run_counts G W P ast c /\ c <> [] /\
         select_kinds fuel c (usable_types c) [] 0 (rp_count P) r = Diverge) \/
      count_mutable_nodes (permissions_for_functions (rp_functions P))
        (w_order W (select_mutators (gl_lang G) (rp_types P) [])) ast = Diverge)) \/
  exists c pm head prints ts r1 body done,
    run_counts G W P ast c /\ c <> [] /\
    calculate_node_paths (permissions_for_functions (rp_functions P)) (l_id (gl_lang G)) ast = Ok pm /\
    evs = head ++ body /\ quiet head /\ select_kinds fuel c (usable_types c) [] 0 (rp_count P) r = Ok (ts, r1) /\
    batch G W P (permissions_for_functions (rp_functions P))
      (w_order W (select_mutators (gl_lang G) (rp_types P) [])) pm fuel c ast ts (start r1 prints) body done out.
Proof.
  unfold generate. set (ps := permissions_for_functions _). set (ms := w_order W _). unfold run_counts. fold ps. fold ms.
  destruct (count_mutable_nodes ps ms ast) as [c| | |] eqn:Ec; cbn [and_then];
    try (intros H; injection H as <- <-; left; split; [apply quiet_nil|]; split; [discriminate|]; auto; discriminate).
  destruct (paths_total ps (l_id (gl_lang G)) ast) as (pm & Ep). rewrite Ep. cbn [and_then].
  destruct c as [|kv c0] eqn:Ecc; [intros H; injection H as <- <-; left; split; [apply quiet_nil|]; split; discriminate|].
  rewrite <- Ecc in *. assert (Hne : c <> []) by (subst c; discriminate).
  pose proof (quiet_original G W P ast) as Hq1. pose proof (quiet_config W P) as Hq2.
  assert (Hd1 : snd (print_original G W P ast) = Diverge -> exists k a, w_print W k a = Diverge).
  { unfold print_original. destruct (rp_original P); [|discriminate].
    destruct (rp_stdout P); [|unfold printed_name; destruct (file_name (rp_file P)); [|discriminate]];
      cbn [snd]; destruct (w_print W 0 ast) eqn:E; try discriminate; eauto. }
  destruct (print_original G W P ast) as (ev1, o1). cbn [fst snd] in *.
  destruct o1 as [prints| | |]; cbn [and_then];
    try (intros H; injection H as <- <-; left; split; [exact Hq1|]; split; [discriminate|]; auto; discriminate).
  assert (Hd2 : snd (save_config W P) = Diverge -> w_config W = Diverge).
  { unfold save_config. destruct (rp_save P); [|discriminate]. unfold config_name. destruct (file_name (rp_file P)); [|discriminate].
    destruct (rp_stdout P); auto. }
  destruct (save_config W P) as (ev2, o2). cbn [fst snd] in *.
  destruct o2 as [[]| | |]; cbn [and_then];
    try (intros H; injection H as <- <-; left; split; [now apply quiet_app|]; split; [discriminate|]; auto; discriminate).
  destruct (select_kinds fuel c (usable_types c) [] 0 (rp_count P) r) as [[ts r1]| | |] eqn:Es; cbn [and_then];
    try (intros H; injection H as <- <-; left; split; [apply quiet_app; [assumption|now apply quiet_app; [|apply quiet_nil]]|];
         split; [discriminate|]; try discriminate; intros _; right; right; left; exists c; auto).
  cbn [fst snd app]. fold (start r1 prints).
  destruct (make_mutants G W P ps ms pm fuel c ast ts (start r1 prints)) as (body, o) eqn:Em.
  apply make_batch in Em as (done & Hb). intros H. injection H as <- <-.
  right. exists c, pm, (ev1 ++ ev2), prints, ts, r1, body, done. rewrite <- app_assoc.
  split; [reflexivity|]. split; [exact Hne|]. split; [reflexivity|]. split; [reflexivity|]. split; [now apply quiet_app|]. split; [first [exact Es|reflexivity]|exact Hb].
Qed.

(** The selected types, in terms of the counts. *)
Lemma selected G W P ast c fuel r ts r1 : run_counts G W P ast c ->
  select_kinds fuel c (usable_types c) [] 0 (rp_count P) r = Ok (ts, r1) ->
  length ts = Nat.min (rp_count P) (pairs c) /\ forall t, length (filter (mt_eqb t) ts) <= reported t c.
Proof.
  intros Hc Hs. destruct (count_table_ok _ _ _ _ Hc) as (Hnd & _ & _).
  assert (Hz : forall t, times t [] = 0) by reflexivity.
  destruct (select_spec _ _ _ Hnd _ _ _ _ _ _ Hs) as (A & _ & C).
  - intros t. rewrite Hz. lia.
  - reflexivity.
  - split.
    + rewrite A, (available_total c Hnd), pairs_total. f_equal. lia.
    + intros t. specialize (C t). rewrite Hz in C. exact C.
Qed.

Lemma count_bound G W P fuel ast r c :
  supported G -> rearranges (w_order W) -> run_counts G W P ast c ->
  let evs := fst (generate G W P fuel ast r) in
  length (mutants evs) <= rp_count P /\ length (mutants evs) <= pairs c /\
  forall t, length (filter (of_type t) (mutants evs)) <= reported t c.
Proof.
  intros HG Ho Hc. destruct (generate G W P fuel ast r) as (evs, out) eqn:E. cbn [fst].
  apply generate_split in E as [((-> & _) & _)|(c' & pm & head & prints & ts & r1 & body & done & Hc' & _ & _ & -> & (Hh & _) & Hs & Hb)].
  { cbn. repeat split; intros; apply Nat.le_0_l. }
  assert (c' = c) by (unfold run_counts in *; congruence). subst c'.
  destruct (selected _ _ _ _ _ _ _ _ _ Hc Hs) as (Hl & Ht).
  rewrite mutants_app, Hh, (batch_mutants _ _ _ _ _ _ _ _ _ _ _ _ _ _ Hb). cbn [app]. rewrite map_length.
  pose proof (batch_length _ _ _ _ _ _ _ _ _ _ _ _ _ _ Hb) as Hlen.
  split; [lia|]. split; [lia|]. intros t. specialize (Ht t).
  pose proof (batch_types _ _ _ _ _ _ _ _ _ _ _ _ _ _ Hb (mt_eqb t)) as Hty.
  assert (Heq : length (filter (of_type t) (map snd done)) = length (filter (mt_eqb t) (map fst done))).
  { pose proof (batch_made _ _ _ _ _ _ _ _ _ _ _ _ _ _ Hb) as Hm. clear - Hm HG Ho Hc.
    induction Hm as [|[t' x] done Hx Hm IH]; [reflexivity|]. cbn [map filter fst snd].
    cbn [fst snd] in Hx. destruct (made_label _ _ _ _ _ _ _ _ _ HG Ho Hc Hx) as (El & _).
    unfold of_type at 1. rewrite El. destruct (mt_eqb t t'); cbn [length]; rewrite IH; reflexivity. }
  lia.
Qed.

Lemma no_duplicates G W P fuel ast r : NoDup (map snd (mutants (fst (generate G W P fuel ast r)))).
Proof.
  destruct (generate G W P fuel ast r) as (evs, out) eqn:E. cbn [fst].
  apply generate_split in E as [((-> & _) & _)|(c' & pm & head & prints & ts & r1 & body & done & _ & _ & _ & -> & (Hh & _) & _ & Hb)].
  { constructor. }
  rewrite mutants_app, Hh, (batch_mutants _ _ _ _ _ _ _ _ _ _ _ _ _ _ Hb). cbn [app]. rewrite map_map.
  apply (batch_nodup _ _ _ _ _ _ _ _ _ _ _ _ _ _ Hb). constructor.
Qed.

(** File names. *)
Lemma Forall2_names ext file outdir base : known_ext ext -> file_name file = Some base -> forall ks fs,
  Forall2 (fun k f => mutant_name ext file outdir k = Ok f) ks fs ->
  fs = map (fun k => path_join outdir (numbered base ext k)) ks.
Proof.
  intros He Hf ks fs H. induction H as [|k f ks fs Hk _ IH]; [reflexivity|].
  rewrite (mutant_name_eq _ _ _ _ _ He Hf) in Hk. injection Hk as <-. simpl. now rewrite <- IH.
Qed.

Lemma file_names G W P fuel ast r :
  supported G ->
  let evs := fst (generate G W P fuel ast r) in
  (rp_stdout P = true -> mutant_files evs = []) /\
  (rp_stdout P = false -> mutants evs <> [] -> exists base, file_name (rp_file P) = Some base /\
     mutant_files evs = map (fun k => path_join (rp_outdir P) (numbered base (gl_ext G) k)) (seq 0 (length (mutants evs)))) /\
  NoDup (mutant_files evs).
Proof.
  intros HG. destruct (supported_ok G HG) as (_ & He).
  destruct (generate G W P fuel ast r) as (evs, out) eqn:E. cbn [fst].
  apply generate_split in E as [((Hm & Hf & _) & _)|(c' & pm & head & prints & ts & r1 & body & done & _ & _ & _ & -> & (Hh & Hhf & _) & _ & Hb)].
  { rewrite Hm, Hf. split; [auto|]. split; [congruence|constructor]. }
  rewrite mutants_app, files_app, Hh, Hhf, (batch_mutants _ _ _ _ _ _ _ _ _ _ _ _ _ _ Hb). cbn [app]. rewrite map_length.
  pose proof (batch_files _ _ _ _ _ _ _ _ _ _ _ _ _ _ Hb) as Hn.
  destruct (rp_stdout P) eqn:Eo.
  - rewrite Hn. split; [auto|]. split; [discriminate|constructor].
  - split; [discriminate|].
    destruct (file_name (rp_file P)) as [base|] eqn:Eb.
    + apply (Forall2_names _ _ _ base He Eb) in Hn. cbn [start g_written] in Hn. split.
      * intros _ _. exists base. auto.
      * rewrite Hn. pose proof (file_name_proper _ _ Eb) as Hp. clear - Hp He.
        assert (Hi : forall k k', path_join (rp_outdir P) (numbered base (gl_ext G) k) =
                                  path_join (rp_outdir P) (numbered base (gl_ext G) k') -> k = k').
        { intros k k' E. apply join_inj in E; [|now apply numbered_proper|now apply numbered_proper].
          now apply numbered_inj in E as (_ & _ & E). }
        pose proof (seq_NoDup (length done) 0) as Hs. induction Hs as [|k l Hk _ IH]; cbn [map]; constructor; [|exact IH].
        intros Hx. apply in_map_iff in Hx as (k' & E & Hk'). apply Hi in E. congruence.
    + assert (Hd : done = []).
      { destruct done as [|d done]; [reflexivity|]. inversion Hn as [|k f ? ? Hk]; subst.
        unfold mutant_name in Hk. rewrite Eb in Hk. discriminate. }
      subst done. inversion Hn. split; [intros _ Hx; now destruct Hx|constructor].
Qed.

Lemma validated_lemma G W P fuel ast r :
  rp_verify P = true ->
  let evs := fst (generate G W P fuel ast r) in
  forall before e after ast' mr, evs = before ++ e :: after -> mutant_of e = [(ast', mr)] ->
  (exists before' tmp, before = before' ++ [Validated tmp ast' true]) /\ exists k, w_accepts W k ast' = true.
Proof.
  intros Hv. destruct (generate G W P fuel ast r) as (evs, out) eqn:E. cbn [fst]. intros before e after ast' mr Heq He.
  apply generate_split in E as [((Hm & _) & _)|(c' & pm & head & prints & ts & r1 & body & done & _ & _ & _ & Hev & (Hh & _ & _) & _ & Hb)].
  { rewrite Heq, mutants_app in Hm. apply app_eq_nil in Hm as (_ & Hm). cbn in Hm. rewrite He in Hm. discriminate. }
  destruct (batch_checked _ _ _ _ _ _ _ _ _ _ _ _ _ _ Hb Hv) as (Hok & Hacc).
  assert (Hall : ok_seq None evs).
  { rewrite Hev. apply ok_seq_app; [now apply plain_ok_seq|exact Hok]. }
  split.
  - destruct (ok_seq_use _ _ Hall _ _ _ (ast', mr) Heq) as [(_ & tmp & H)|(b & tmp & H)]; [rewrite He; now left|discriminate|].
    exists b, tmp. exact H.
  - assert (Hin : In (ast', mr) (mutants evs)).
    { rewrite Heq, mutants_app. apply in_or_app. right. cbn. rewrite He. now left. }
    rewrite Hev, mutants_app, Hh, (batch_mutants _ _ _ _ _ _ _ _ _ _ _ _ _ _ Hb) in Hin. cbn [app] in Hin.
    apply in_map_iff in Hin as (d & Ed & Hd). rewrite Forall_forall in Hacc. specialize (Hacc d Hd).
    rewrite Ed in Hacc. exact Hacc.
Qed.

Lemma tries_lemma G W P fuel ast r c :
  run_counts G W P ast c ->
  let evs := fst (generate G W P fuel ast r) in
  tries evs <= attempts_limit * Nat.min (rp_count P) (pairs c).
Proof.
  intros Hc. destruct (generate G W P fuel ast r) as (evs, out) eqn:E. cbn [fst].
  apply generate_split in E as [((_ & _ & ->) & _)|(c' & pm & head & prints & ts & r1 & body & done & Hc' & _ & _ & -> & (_ & _ & Hh) & Hs & Hb)].
  { apply Nat.le_0_l. }
  assert (c' = c) by (unfold run_counts in *; congruence). subst c'.
  destruct (selected _ _ _ _ _ _ _ _ _ Hc Hs) as (Hl & _).
  rewrite tries_app, Hh, <- Hl. apply (batch_tries _ _ _ _ _ _ _ _ _ _ _ _ _ _ Hb).
Qed.

Lemma shortfall_lemma G W P fuel ast r c s :
  run_counts G W P ast c ->
  let evs := fst (generate G W P fuel ast r) in
  snd (generate G W P fuel ast r) = Ok s ->
  let wanted := Nat.min (rp_count P) (pairs c) in
  length (mutants evs) <= wanted /\
  attempts_limit * (wanted - length (mutants evs)) + length (mutants evs) <= tries evs.
Proof.
  intros Hc. destruct (generate G W P fuel ast r) as (evs, out) eqn:E. cbn [fst snd]. intros ->.
  apply generate_split in E as [(_ & Hn & _)|(c' & pm & head & prints & ts & r1 & body & done & Hc' & _ & _ & -> & (Hh & _ & Hht) & Hs & Hb)].
  { now destruct (Hn s). }
  assert (c' = c) by (unfold run_counts in *; congruence). subst c'.
  destruct (selected _ _ _ _ _ _ _ _ _ Hc Hs) as (Hl & _).
  rewrite mutants_app, tries_app, Hh, Hht, (batch_mutants _ _ _ _ _ _ _ _ _ _ _ _ _ _ Hb). cbn [app]. rewrite map_length, <- Hl.
  split; [apply (batch_length _ _ _ _ _ _ _ _ _ _ _ _ _ _ Hb)|].
  destruct (batch_tries _ _ _ _ _ _ _ _ _ _ _ _ _ _ Hb) as (_ & H). destruct (H s eq_refl) as (A & _). exact A.
Qed.

(** Stopping: with enough fuel a run with a fair stream only fails to stop
    where a single mutation or the outside world does. *)
Lemma stops_lemma G W P ast r :
  fair r -> rearranges (w_order W) ->
  count_mutable_nodes (permissions_for_functions (rp_functions P))
    (w_order W (select_mutators (gl_lang G) (rp_types P) [])) ast <> Diverge ->
  (forall k a, w_print W k a <> Diverge) -> w_config W <> Diverge ->
  exists enough, forall fuel, enough <= fuel ->
    snd (generate G W P fuel ast r) = Diverge ->
    exists pm t i r', calculate_node_paths (permissions_for_functions (rp_functions P)) (l_id (gl_lang G)) ast = Ok pm /\
      mutate_ast (gl_lang G) (permissions_for_functions (rp_functions P))
        (w_order W (select_mutators (gl_lang G) (rp_types P) [])) pm fuel ast t i r' = Diverge.
Proof.
  intros Hf Ho Hcd Hw Hwc.
  assert (Hsel : exists enough, forall fuel, enough <= fuel -> forall c, run_counts G W P ast c -> c <> [] ->
             select_kinds fuel c (usable_types c) [] 0 (rp_count P) r <> Diverge).
  { destruct (count_mutable_nodes (permissions_for_functions (rp_functions P))
                (w_order W (select_mutators (gl_lang G) (rp_types P) [])) ast) as [c| | |] eqn:Ec;
      try (exists 0; intros fuel _ c Hc; unfold run_counts in Hc; congruence).
    destruct c as [|kv c0] eqn:Ecc; [exists 0; intros fuel _ c1 Hc; unfold run_counts in Hc; congruence|].
    rewrite <- Ecc in *. destruct (count_table_ok _ _ _ _ Ec) as (Hnd & Hpos & _).
    destruct (select_stops c (usable_types c) Hnd (fun t => usable_in c t Hnd) (usable_short c Hnd) (rp_count P) [] 0 r Hf) as (n & x & Hx).
    - intros Hu. destruct kv as (t, k). assert (Hi : In t (usable_types c)); [|rewrite Hu in Hi; destruct Hi].
      apply usable_in; [exact Hnd|]. unfold times. subst c. cbn [ct_get]. rewrite mt_eqb_refl.
      inversion Hpos as [|? ? Hk _]. exact Hk.
    - intros t. apply Nat.le_0_l.
    - reflexivity.
    - exists n. intros fuel Hle c' Hc' _. unfold run_counts in Hc'. rewrite Ec in Hc'. injection Hc' as <-.
      rewrite (select_more _ _ _ _ _ _ _ _ Hx fuel Hle). discriminate. }
  destruct Hsel as (enough & Hsel). exists enough. intros fuel Hle.
  destruct (generate G W P fuel ast r) as (evs, out) eqn:E. cbn [snd]. intros ->.
  apply generate_split in E as [(_ & _ & Hd)|(c' & pm & head & prints & ts & r1 & body & done & Hc' & _ & Hp & -> & _ & Hs & Hb)].
  - destruct (Hd eq_refl) as [(k & a & H)|[H|[(c & Hc & Hne & H)|H]]].
    + now destruct (Hw k a).
    + contradiction.
    + now destruct (Hsel fuel Hle c Hc Hne).
    + contradiction.
  - destruct (batch_stops _ _ _ _ _ _ _ _ _ _ _ _ _ _ Hb eq_refl) as [(t & i & r' & H)|(k & a & H)].
    + exists pm, t, i, r'. auto.
    + now destruct (Hw k a).
Qed.

(** ** Unsupported types *)
Lemma select_filter L ts : forall ms,
  select_mutators L (filter (fun t => match l_mutator_for L t with Some _ => true | None => false end) ts) ms =
  select_mutators L ts ms.
Proof.
  unfold select_mutators. induction ts as [|t ts IH]; intros ms; [reflexivity|].
  cbn [filter fold_left]. destruct (l_mutator_for L t) eqn:E; [cbn [fold_left]; rewrite E|]; apply IH.
Qed.

Lemma attempt_types G W P ts ps ms pm fuel c ast k t : forall s,
  attempt G W (with_types ts P) ps ms pm fuel c ast k t s = attempt G W P ps ms pm fuel c ast k t s.
Proof.
  induction k as [|k IH]; intros s; [reflexivity|]. cbn [attempt].
  destruct (ct_get t c); [|reflexivity]. destruct (pick_index n (g_rng s)).
  destruct (mutate_ast _ _ _ _ _ _ _ _ _) as [[[a mr] r2]| | |]; try reflexivity.
Qed.

Lemma make_types G W P ts ps ms pm fuel c ast todo : forall s,
  make_mutants G W (with_types ts P) ps ms pm fuel c ast todo s = make_mutants G W P ps ms pm fuel c ast todo s.
Proof.
  induction todo as [|t todo IH]; intros s; [reflexivity|]. cbn [make_mutants]. rewrite attempt_types.
  generalize (attempt G W P ps ms pm fuel c ast attempts_limit t s). intros (ev, [s'| | |]); [|reflexivity ..].
  now rewrite IH.
Qed.

Lemma generate_types G W P ts fuel ast r :
  select_mutators (gl_lang G) ts [] = select_mutators (gl_lang G) (rp_types P) [] ->
  generate G W (with_types ts P) fuel ast r = generate G W P fuel ast r.
Proof.
  intros H. unfold generate. cbn [with_types rp_types rp_functions rp_count]. rewrite H.
  set (ps := permissions_for_functions _). set (ms := w_order W _).
  destruct (count_mutable_nodes ps ms ast) as [c| | |]; cbn [and_then]; [|reflexivity ..].
  destruct (calculate_node_paths ps (l_id (gl_lang G)) ast) as [pm| | |]; cbn [and_then]; [|reflexivity ..].
  destruct c as [|kv c]; [reflexivity|].
  change (print_original G W (with_types ts P) ast) with (print_original G W P ast).
  change (save_config W (with_types ts P)) with (save_config W P).
  destruct (print_original G W P ast) as (ev1, [n1| | |]); cbn [and_then]; [|reflexivity ..].
  destruct (save_config W P) as (ev2, [[]| | |]); cbn [and_then]; [|reflexivity ..].
  match goal with |- context [select_kinds ?a ?b ?d ?e ?f ?g ?h] => destruct (select_kinds a b d e f g h) as [x| | |] end; cbn [and_then]; [|reflexivity ..]. rewrite make_types. reflexivity.
Qed.

Lemma unsupported_lemma G W P fuel ast r :
  generate G W (with_types (filter (fun t => match l_mutator_for (gl_lang G) t with Some _ => true | None => false end)
                                   (rp_types P)) P) fuel ast r =
  generate G W P fuel ast r.
Proof. apply generate_types, select_filter. Qed.

Lemma labelled_lemma G W P fuel ast r : supported G -> rearranges (w_order W) ->
  forall ast' mr, In (ast', mr) (mutants (fst (generate G W P fuel ast r))) ->
  exists t m, mr_type mr = Some t /\ In t (rp_types P) /\ l_mutator_for (gl_lang G) t = Some m.
Proof.
  intros HG Ho ast' mr. destruct (generate G W P fuel ast r) as (evs, out) eqn:E. cbn [fst].
  apply generate_split in E as [((-> & _) & _)|(c & pm & head & prints & ts & r1 & body & done & Hc & _ & _ & -> & (Hh & _) & Hs & Hb)].
  { intros []. }
  rewrite mutants_app, Hh, (batch_mutants _ _ _ _ _ _ _ _ _ _ _ _ _ _ Hb). cbn [app]. intros Hi.
  apply in_map_iff in Hi as ((t & x) & Ex & Hi). cbn [snd] in Ex. subst x.
  pose proof (batch_made _ _ _ _ _ _ _ _ _ _ _ _ _ _ Hb) as Hm. rewrite Forall_forall in Hm. specialize (Hm _ Hi).
  cbn [fst snd] in Hm. destruct (made_label _ _ _ _ _ _ _ _ _ HG Ho Hc Hm) as (El & _).
  destruct Hm as (i & n & r0 & r' & _ & _ & Hm). unfold mutate_ast in Hm.
  destruct (mm_get t _) as [m|] eqn:Eg; [|discriminate]. exists t, m. split; [exact El|].
  rewrite reordered_get, select_get in Eg by first [assumption|apply (supported_ok G HG)].
  destruct (existsb (mt_eqb t) (rp_types P)) eqn:Ex; [|discriminate].
  apply existsb_exists in Ex as (t' & Ht' & Et). apply mt_eqb_eq in Et. subst t'. split; [exact Ht'|].
  cbn [mm_get] in Eg. destruct (l_mutator_for (gl_lang G) t); [exact Eg|discriminate].
Qed.
