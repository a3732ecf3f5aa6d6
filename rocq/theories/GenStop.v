(** Whole runs stop on fair streams (C35). *)
From Coq Require Import String Ascii List Bool NArith Arith Lia Permutation.
From Verif Require Import Base Json Rng Permissions MutationType Traverse OpCommon SolMutators VyMutators
  Comments Language Paths Generator SpecTree SpecMutation SpecOps SpecTotal SpecJson SpecGenerator
  TraverseFacts TraverseFacts2 TraverseFacts3 OpTotal OpTotalVy OpOrder OpClaims OpStream
  GenFacts SelFacts PathFacts GenLaws.
Import ListNotations.
Open Scope list_scope.

(** From some fuel on, the outcome no longer changes. *)
Definition settles {A} (f : nat -> A) (P : A -> Prop) : Prop :=
  exists enough a, P a /\ forall fuel, enough <= fuel -> f fuel = a.

Lemma settles_const {A} (a : A) (P : A -> Prop) : P a -> settles (fun _ => a) P.
Proof. intros H. exists 0, a. auto. Qed.

Definition not_stuck {A B} (x : A * res B) : Prop := snd x <> Diverge.

Section Stop.
  Variables (G : glang) (W : world) (P : run_params).
  Variable ast : json.
  Let ps := permissions_for_functions (rp_functions P).
  Let ms := w_order W (select_mutators (gl_lang G) (rp_types P) []).
  Variable pm : path_map.
  Variable c : count_table.
  Hypothesis HG : supported G.
  Hypothesis Ho : rearranges (w_order W).
  Hypothesis Hc : run_counts G W P ast c.
  Variable st : nat -> N.
  Hypothesis Hready : forall t m p n r, In t (rp_types P) -> l_mutator_for (gl_lang G) t = Some m ->
    subtree p ast = Some n -> mu_mutable m n = Ok true -> rstream r = st ->
    exists F d, rstream (md_rng d) = st /\ forall fuel, F <= fuel -> mu_mutate m fuel n r = Ok d.
  Hypothesis Hprint : forall k a, w_print W k a <> Diverge.

  Lemma map_mutator t m : mm_get t ms = Some m -> In t (rp_types P) /\ l_mutator_for (gl_lang G) t = Some m.
  Proof.
    intros Eg. unfold ms in Eg. rewrite reordered_get, select_get in Eg by first [assumption|apply (supported_ok G HG)].
    destruct (existsb (mt_eqb t) (rp_types P)) eqn:Ex; [|discriminate].
    apply existsb_exists in Ex as (t' & Ht' & Et). apply mt_eqb_eq in Et. subst t'. split; [exact Ht'|].
    cbn [mm_get] in Eg. destruct (l_mutator_for (gl_lang G) t); [exact Eg|discriminate].
  Qed.

  Lemma table_mutator t n : ct_get t c = Some n -> 0 < n /\ exists m, mm_get t ms = Some m.
  Proof.
    intros H. destruct (count_table_ok _ _ _ _ Hc) as (A & B & D).
    apply (ct_get_in _ _ _ A) in H. rewrite Forall_forall in B. split; [exact (B _ H)|].
    assert (Hi : In t (map fst ms)). { apply D. apply (in_map fst) in H. exact H. }
    apply in_map_iff in Hi as ((t' & m) & E & Hi). cbn in E. subst t'. exists m.
    apply mm_get_iff; [now apply reordered_nodup|exact Hi].
  Qed.

  Lemma mutate_settles t n i r : ct_get t c = Some n -> i < n -> rstream r = st ->
    settles (fun fuel => mutate_ast (gl_lang G) ps ms pm fuel ast t i r)
            (fun x => exists a mr r', x = Ok (a, mr, r') /\ rstream r' = st).
  Proof.
    intros Ht Hi Hr. destruct (table_mutator t n Ht) as (Hn & m & Hm). destruct (map_mutator t m Hm) as (Hin & Hl).
    assert (Hc' := Hc). unfold run_counts in Hc'. fold ps ms in Hc'. rewrite count_mutable_nodes_eq in Hc'.
    assert (Hnd : NoDup (map fst ms)) by now apply reordered_nodup.
    destruct (count_all_in _ _ _ _ _ _ Hc' Hnd (mm_get_In _ _ _ Hm)) as (Htot & Hnum & _).
    set (al := fst (allowed ps false ast)) in *.
    assert (Hok : forall p n, In (p, n) al -> exists b, mu_mutable m n = Ok b).
    { intros p n' Hp. apply Htot. apply in_map_iff. exists (p, n'); auto. }
    assert (Hlen : length (sel m al) = n).
    { unfold ct_num in Hnum. rewrite Ht in Hnum. cbn in Hnum. rewrite Hnum. unfold sel. clear.
      induction al as [|[p x] al IH]; simpl; [reflexivity|]. destruct (accepts m x); simpl; auto. }
    destruct (nth_error (sel m al) i) as [[p x]|] eqn:En; [|apply nth_error_None in En; lia].
    assert (Hsel : In (p, x) (sel m al)) by (eapply nth_error_In; eauto).
    unfold sel in Hsel. apply filter_In in Hsel as (Hal & Hacc). cbn [snd] in Hacc.
    assert (Hmut : mu_mutable m x = Ok true).
    { destruct (Hok _ _ Hal) as (b & Hb). unfold accepts in Hacc. rewrite Hb in Hacc. congruence. }
    pose proof (allowed_subtree _ _ _ _ _ Hal) as Hsub.
    destruct (Hready t m p x r Hin Hl Hsub Hmut Hr) as (F & d & Hd & HF).
    exists F. eexists. split.
    2:{ intros fuel Hf. unfold mutate_ast. rewrite Hm.
        pose proof (make_mutation_select ps (l_id (gl_lang G)) m fuel i ast r Hok) as H. fold al in H. rewrite En, (HF fuel Hf) in H.
        destruct H as (s & Hs & (S1 & S2 & S3 & _ & S5)). rewrite Hs. cbn [bind]. rewrite S1, S2, S3, S5. reflexivity. }
    cbn [after_mutation mk_rng]. eauto.
  Qed.

  Lemma attempt_settles k t n : ct_get t c = Some n -> forall s, rstream (g_rng s) = st ->
    settles (fun fuel => attempt G W P ps ms pm fuel c ast k t s)
            (fun x => snd x <> Diverge /\ forall s', snd x = Ok s' -> rstream (g_rng s') = st).
  Proof.
    intros Ht. destruct (table_mutator t n Ht) as (Hn & _).
    assert (Hpick : forall r i r1, pick_index n r = (i, r1) -> i < n /\ rstream r1 = rstream r).
    { intros r i r1 E. split; [destruct (pick_index_bound n r i r1 E); lia|].
      unfold pick_index in E. destruct (Nat.ltb 1 n); injection E as <- <-; reflexivity. }
    induction k as [|k IH]; intros s Hs.
    { exists 0, ([], Ok s). split; [|reflexivity]. cbn. split; [discriminate|]. intros s' E. now injection E as <-. }
    destruct (pick_index n (g_rng s)) as (i, r1) eqn:Ep. destruct (Hpick _ _ _ Ep) as (Hi & Hr1).
    destruct (mutate_settles t n i r1 Ht Hi ltac:(congruence)) as (F & x & (a & mr & r2 & -> & Hr2) & HF).
    set (s1 := {| g_rng := r2; g_seen := g_seen s; g_written := g_written s; g_prints := g_prints s; g_checks := g_checks s |}).
    set (s2 := {| g_rng := r2; g_seen := g_seen s; g_written := g_written s; g_prints := g_prints s; g_checks := S (g_checks s) |}).
    destruct (IH s1 Hr2) as (F1 & (ev1, o1) & H1 & HF1). destruct (IH s2 Hr2) as (F2 & (ev2, o2) & H2 & HF2).
    destruct (seen_before mr (g_seen s)) eqn:Es.
    { exists (Nat.max F F1), (Tried t i :: ev1, o1). split; [exact H1|]. intros fuel Hf. cbn [attempt].
      rewrite Ht, Ep, HF by lia. fold s1. rewrite Es, HF1 by lia. reflexivity. }
    destruct (validate W P a s1) as (evv, [[|]|e|msg|]) eqn:Ev.
    - (* accepted *)
      destruct (emit G W P a mr s1) as (eve, written) eqn:Ee.
      eexists F, _. split.
      2:{ intros fuel Hf. cbn [attempt]. rewrite Ht, Ep, HF by lia. fold s1. rewrite Es, Ev, Ee. reflexivity. }
      cbn [snd]. unfold emit in Ee. destruct (mutant_name_not_err G P (g_written s)) as (_ & Hnd).
      assert (Hw : written <> Diverge).
      { destruct (rp_stdout P); [injection Ee as _ <-; apply Hprint|].
        cbn [s1 g_written] in Ee. destruct (mutant_name _ _ _ _); injection Ee as _ <-; try discriminate; [apply Hprint|congruence]. }
      destruct written; split; try discriminate; try congruence. intros s' E. injection E as <-. exact Hr2.
    - (* rejected *)
      exists (Nat.max F F2), (Tried t i :: evv ++ ev2, o2). split; [exact H2|]. intros fuel Hf. cbn [attempt].
      rewrite Ht, Ep, HF by lia. fold s1. rewrite Es, Ev. cbn [s1 g_seen g_written g_prints g_checks g_rng].
      fold s2. rewrite HF2 by lia. reflexivity.
    - exists F, (Tried t i :: evv, Err e). split; [split; discriminate|]. intros fuel Hf. cbn [attempt].
      rewrite Ht, Ep, HF by lia. fold s1. rewrite Es, Ev. reflexivity.
    - exists F, (Tried t i :: evv, Panic msg). split; [split; discriminate|]. intros fuel Hf. cbn [attempt].
      rewrite Ht, Ep, HF by lia. fold s1. rewrite Es, Ev. reflexivity.
    - exfalso. unfold validate in Ev. destruct (rp_verify P); [|discriminate].
      destruct (temp_name_not_err (w_tmp W) (rp_file P)) as (_ & Hnd). destruct (temp_name _ _); congruence.
  Qed.

  Lemma make_settles todo : Forall (fun t => exists n, ct_get t c = Some n) todo -> forall s, rstream (g_rng s) = st ->
    settles (fun fuel => make_mutants G W P ps ms pm fuel c ast todo s) not_stuck.
  Proof.
    induction 1 as [|t todo (n & Ht) _ IH]; intros s Hs; [exists 0, ([], Ok s); split; [discriminate|reflexivity]|].
    destruct (attempt_settles attempts_limit t n Ht s Hs) as (F & (ev, o) & (Hd & Hst) & HF). cbn [snd] in *.
    destruct o as [s'| | |]; try (eexists F, _; split;
      [|intros fuel Hf; cbn [make_mutants]; rewrite HF by exact Hf; reflexivity]; discriminate).
    - destruct (IH s' (Hst s' eq_refl)) as (F' & (ev', o') & Hd' & HF').
      exists (Nat.max F F'), (ev ++ ev', o'). split; [exact Hd'|]. intros fuel Hf.
      cbn [make_mutants]. rewrite HF, HF' by lia. reflexivity.
    - congruence.
  Qed.
End Stop.

Lemma select_stream fuel c types : forall used chosen remaining r ts r',
  select_kinds fuel c types used chosen remaining r = Ok (ts, r') -> rstream r' = rstream r.
Proof.
  assert (Hch : forall r x r1, choose types r = (x, r1) -> rstream r1 = rstream r).
  { intros r x r1 E. unfold choose in E. destruct types; injection E as _ <-; reflexivity. }
  induction fuel as [|fuel IH]; intros used chosen remaining r ts r' H.
  - destruct remaining; [|discriminate]. injection H as _ <-. reflexivity.
  - destruct remaining as [|rest]; [injection H as _ <-; reflexivity|]. cbn [select_kinds] in H.
    destruct (choose types r) as ([t|], r1) eqn:Ec; [|rewrite (IH _ _ _ _ _ _ H); now apply (Hch r None)].
    pose proof (Hch r _ r1 Ec) as H1. destruct (Nat.ltb _ _).
    + destruct (select_kinds fuel c types (ct_bump t used) (S chosen) rest r1) as [[ts1 r2]| | |] eqn:E; try discriminate.
      cbn [bind] in H. injection H as _ <-. rewrite (IH _ _ _ _ _ _ E). exact H1.
    + destruct (Nat.leb _ _); [injection H as _ <-; exact H1|]. rewrite (IH _ _ _ _ _ _ H). exact H1.
Qed.

Lemma count_not_diverge ms ns : (forall t m n, In (t, m) ms -> In n ns -> mu_mutable m n <> Diverge) ->
  forall c, count_all ms ns c <> Diverge.
Proof.
  intros H. assert (Hn : forall n ms', In n ns -> (forall x, In x ms' -> In x ms) -> forall c, count_node ms' n c <> Diverge).
  { intros n. induction ms' as [|[t m] ms' IH]; intros Hi Hs c; [discriminate|]. cbn [count_node].
    pose proof (H t m n (Hs _ (or_introl eq_refl)) Hi). destruct (mu_mutable m n); cbn [bind]; try discriminate; [|congruence].
    apply IH; [exact Hi|]. intros x Hx. apply Hs. now right. }
  clear H. revert Hn. induction ns as [|n ns' IH]; intros Hn c; [discriminate|]. cbn [count_all].
  pose proof (Hn n ms (or_introl eq_refl) (fun x Hx => Hx) c).
  destruct (count_node ms n c); cbn [bind]; try discriminate; [|congruence].
  apply IH. intros n0 ms0 H0. apply Hn. now right.
Qed.

Lemma run_settles G W P ast r :
  supported G -> rearranges (w_order W) -> fair r ->
  (forall t m p n, In t (rp_types P) -> l_mutator_for (gl_lang G) t = Some m ->
     subtree p ast = Some n -> mu_mutable m n <> Diverge) ->
  (forall t m p n r', In t (rp_types P) -> l_mutator_for (gl_lang G) t = Some m ->
     subtree p ast = Some n -> mu_mutable m n = Ok true -> fair r' ->
     exists F d, rstream (md_rng d) = rstream r' /\ forall fuel, F <= fuel -> mu_mutate m fuel n r' = Ok d) ->
  (forall k a, w_print W k a <> Diverge) -> w_config W <> Diverge ->
  settles (fun fuel => generate G W P fuel ast r) not_stuck.
Proof.
  intros HG Ho Hf Hmu Hready Hw Hwc. unfold generate.
  set (ps := permissions_for_functions (rp_functions P)).
  set (ms := w_order W (select_mutators (gl_lang G) (rp_types P) [])).
  assert (Hcd : count_mutable_nodes ps ms ast <> Diverge).
  { rewrite count_mutable_nodes_eq. apply count_not_diverge. intros t m n Hi Hn.
    apply in_map_iff in Hn. destruct Hn as ([p x] & <- & Hn). apply allowed_subtree in Hn.
    apply mm_get_iff in Hi; [|now apply reordered_nodup]. destruct (map_mutator G W P HG Ho t m Hi) as (A & B). eauto. }
  destruct (count_mutable_nodes ps ms ast) as [c| | |] eqn:Ec; cbn [and_then];
    try (apply settles_const; unfold not_stuck; cbn [snd]; congruence).
  destruct (paths_total ps (l_id (gl_lang G)) ast) as (pm & Ep). rewrite Ep. cbn [and_then].
  destruct c as [|kv c0] eqn:Ecc; [apply settles_const; discriminate|]. rewrite <- Ecc in *.
  assert (Hd1 : snd (print_original G W P ast) <> Diverge).
  { unfold print_original. destruct (rp_original P); [|discriminate].
    destruct (rp_stdout P); [|unfold printed_name; destruct (file_name (rp_file P)); [|discriminate]];
      cbn [snd]; destruct (w_print W 0 ast) eqn:E; try discriminate; now destruct (Hw 0 ast). }
  assert (Hd2 : snd (save_config W P) <> Diverge).
  { unfold save_config. destruct (rp_save P); [|discriminate]. unfold config_name. destruct (file_name (rp_file P)); [|discriminate].
    destruct (rp_stdout P); auto. }
  destruct (print_original G W P ast) as (ev1, o1). cbn [snd] in Hd1.
  destruct o1 as [prints| | |]; cbn [and_then]; try (apply settles_const; unfold not_stuck; cbn [snd]; congruence).
  destruct (save_config W P) as (ev2, o2). cbn [snd] in Hd2.
  destruct o2 as [[]| | |]; cbn [and_then]; try (apply settles_const; unfold not_stuck; cbn [snd]; congruence).
  destruct (count_table_ok _ _ _ _ Ec) as (Hnd & Hpos & _).
  destruct (select_stops c (usable_types c) Hnd (fun t => usable_in c t Hnd) (usable_short c Hnd) (rp_count P) [] 0 r Hf)
    as (n & (ts, r1) & Hx).
  - intros Hu. destruct kv as (t, k). assert (Hi : In t (usable_types c)); [|rewrite Hu in Hi; destruct Hi].
    apply usable_in; [exact Hnd|]. unfold times. subst c. cbn [ct_get]. rewrite mt_eqb_refl.
    inversion Hpos as [|? ? Hk _]. exact Hk.
  - intros t. apply Nat.le_0_l.
  - reflexivity.
  - assert (Hts : Forall (fun t => exists n, ct_get t c = Some n) ts).
    { destruct (select_spec _ _ _ Hnd _ _ _ _ _ _ Hx) as (_ & B & _); [intros t; apply Nat.le_0_l|reflexivity|].
      apply Forall_forall. intros t Ht. apply B in Ht. apply (usable_in c t Hnd) in Ht. unfold times in Ht.
      destruct (ct_get t c); [eauto|lia]. }
    pose proof (select_stream _ _ _ _ _ _ _ _ _ Hx) as Hs1.
    destruct (make_settles G W P ast pm c HG Ho Ec (rstream r)) with (todo := ts) (s := start r1 prints)
      as (F & (evm, om) & Hd & HF); try assumption.
    + intros t m p n' r' A B C D E. destruct (Hready t m p n' r' A B C D) as (F & d & Hs & H); [now apply (fair_from r)|].
      exists F, d. split; [congruence|exact H].
    + exists (Nat.max n F), (ev1 ++ ev2 ++ evm, om). split; [exact Hd|]. intros fuel Hle.
      rewrite (select_more _ _ _ _ _ _ _ _ Hx fuel) by lia. cbn [and_then fst snd app]. fold (start r1 prints).
      fold ps ms in HF. rewrite HF by lia. reflexivity.
Qed.

(** The two languages. *)
Lemma sol_mutable_stops e t m n : sol_mutator_for e t = Some m -> mu_mutable m n <> Diverge.
Proof.
  destruct t as [[]|[]]; intros H; injection H as <-; try discriminate.
  cbn [mu_mutable sol_assign]. unfold sol_assign_mutable. destruct (is_type _ _); [|discriminate].
  destruct (sol_assign_type n); [|discriminate]. destruct (N.ltb _ _); [discriminate|].
  unfold slice_to. repeat match goal with |- context [if ?b then _ else _] => destruct b end; discriminate.
Qed.
