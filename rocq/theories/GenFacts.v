(** Proofs about the mutant generator. *)
From Coq Require Import String Ascii List Bool NArith Arith Lia.
From Verif Require Import Base Json Rng Permissions MutationType Traverse OpCommon SolMutators VyMutators
  Comments Language Paths Generator SpecTree SpecMutation SpecGenerator TraverseFacts3 OpOrder OpClaims.
Import ListNotations.
Open Scope list_scope.

Lemma mutants_app a b : mutants (a ++ b) = mutants a ++ mutants b.
Proof. apply flat_map_app. Qed.
Lemma files_app a b : mutant_files (a ++ b) = mutant_files a ++ mutant_files b.
Proof. apply flat_map_app. Qed.
Lemma tries_app a b : tries (a ++ b) = tries a + tries b.
Proof. unfold tries. now rewrite filter_app, app_length. Qed.
Lemma tries_cons e a : tries (e :: a) = (if is_try e then 1 else 0) + tries a.
Proof. unfold tries. simpl. destruct (is_try e); reflexivity. Qed.

(** ** One slot *)
Section Run.
  Variable G : glang.
  Variable W : world.
  Variable P : run_params.
  Variable ps : permissions.
  Variable ms : mutator_map.
  Variable pm : path_map.
  Variable fuel : nat.
  Variable c : count_table.
  Variable ast : json.

  Notation attempt := (attempt G W P ps ms pm fuel c ast).
  Notation make_mutants := (make_mutants G W P ps ms pm fuel c ast).

  (** The mutant [x] of type [t] comes from mutating the counted node [i]. *)
  Definition made (t : mutation_type) (x : json * mutator_result) : Prop :=
    exists i n r r', ct_get t c = Some n /\ (i < n \/ i = 0) /\
      mutate_ast (gl_lang G) ps ms pm fuel ast t i r = Ok (fst x, snd x, r').

  (** The event a mutant leaves, for the [k]-th file. *)
  Definition leaves (k : nat) (x : json * mutator_result) (e : event) : Prop :=
    (rp_stdout P = true /\ e = ShowedMutant (fst x) (snd x)) \/
    (rp_stdout P = false /\ exists f, mutant_name (gl_ext G) (rp_file P) (rp_outdir P) k = Ok f /\
       e = WroteMutant f (fst x) (snd x)).

  Definition checked (x : json * mutator_result) (evs : list event) : Prop :=
    if rp_verify P then exists tmp k, temp_name (w_tmp W) (rp_file P) = Ok tmp /\
                                      evs = [Validated tmp (fst x) true] /\ w_accepts W k (fst x) = true
    else evs = [].

  Definition failed_check (e : event) : Prop :=
    match e with
    | Tried _ _ => True
    | Validated tmp _ b => b = false /\ rp_verify P = true /\ temp_name (w_tmp W) (rp_file P) = Ok tmp
    | _ => False
    end.

  Lemma failed_mutants evs : Forall failed_check evs -> mutants evs = [].
  Proof. induction 1 as [|e evs He _ IH]; [reflexivity|]. destruct e; simpl in *; try contradiction; exact IH. Qed.
  Lemma failed_files evs : Forall failed_check evs -> mutant_files evs = [].
  Proof. induction 1 as [|e evs He _ IH]; [reflexivity|]. destruct e; simpl in *; try contradiction; exact IH. Qed.

  Inductive slot (k : nat) (t : mutation_type) (s : gst) : list event -> res gst -> Prop :=
  | SlotGiveUp evs s' : Forall failed_check evs -> tries evs = k ->
      g_seen s' = g_seen s -> g_written s' = g_written s -> slot k t s evs (Ok s')
  | SlotMutant fails i chk e x out : Forall failed_check fails -> tries fails < k ->
      made t x -> ~ In (snd x) (g_seen s) -> checked x chk -> leaves (g_written s) x e ->
      (forall s', out = Ok s' -> g_seen s' = g_seen s ++ [snd x] /\ g_written s' = S (g_written s)) ->
      (out = Diverge -> exists j, w_print W j (fst x) = Diverge) ->
      slot k t s (fails ++ Tried t i :: chk ++ [e]) out
  | SlotStop evs out : Forall failed_check evs \/
        (exists fails i chk, evs = fails ++ Tried t i :: chk /\ Forall failed_check fails /\
           mutants chk = [] /\ mutant_files chk = [] /\ tries chk = 0 /\
           Forall (fun e => match e with
                            | Validated tmp _ _ => rp_verify P = true /\ temp_name (w_tmp W) (rp_file P) = Ok tmp
                            | _ => False end) chk) ->
      tries evs <= k -> (forall s', out <> Ok s') ->
      (out = Diverge -> exists i r, mutate_ast (gl_lang G) ps ms pm fuel ast t i r = Diverge) ->
      slot k t s evs out.

  Lemma slot_retry k t s s1 pre evs out :
    g_seen s1 = g_seen s -> g_written s1 = g_written s -> Forall failed_check pre -> tries pre = 1 ->
    slot k t s1 evs out -> slot (S k) t s (pre ++ evs) out.
  Proof.
    intros Hs Hw Hp Hone [evs' s' Hf Ht Hs' Hw'|fails i chk e x out' Hf Ht Hm Hn Hc Hl Ho Hd|evs' out' Hf Ht Ho Hd].
    - apply SlotGiveUp; [apply Forall_app; auto|rewrite tries_app; lia|congruence|congruence].
    - rewrite app_assoc. apply SlotMutant with (x := x); try assumption.
      + apply Forall_app; auto.
      + rewrite tries_app; lia.
      + congruence.
      + congruence.
      + intros s' E. rewrite <- Hs, <- Hw. now apply Ho.
    - apply SlotStop; [|rewrite tries_app; lia|exact Ho|exact Hd].
      destruct Hf as [Hf|(fails & i & chk & -> & Hf & Hr)].
      + left. apply Forall_app; auto.
      + right. exists (pre ++ fails), i, chk. rewrite app_assoc. split; [reflexivity|].
        split; [apply Forall_app; auto|exact Hr].
  Qed.

  Lemma pick_index_bound n r i r' : pick_index n r = (i, r') -> i < n \/ i = 0.
  Proof.
    unfold pick_index. destruct (Nat.ltb 1 n) eqn:E.
    - destruct (next_u64 r) as (d, r0). intros H. injection H as <- <-.
      apply Nat.ltb_lt in E. left. assert (0 < N.of_nat n)%N by lia.
      pose proof (N.mod_upper_bound d (N.of_nat n)). lia.
    - intros H. injection H as <- <-. now right.
  Qed.

  Lemma mutant_name_not_err k : (forall e, mutant_name (gl_ext G) (rp_file P) (rp_outdir P) k <> Err e) /\
    mutant_name (gl_ext G) (rp_file P) (rp_outdir P) k <> Diverge.
  Proof.
    unfold mutant_name, printed_name.
    destruct (file_name (rp_file P)); [destruct (file_name _)|]; split; intros; discriminate.
  Qed.
  Lemma temp_name_not_err tmp f : (forall e, temp_name tmp f <> Err e) /\ temp_name tmp f <> Diverge.
  Proof. unfold temp_name. destruct (file_name f); split; intros; discriminate. Qed.

  Lemma attempt_slot k t : forall s evs out, attempt k t s = (evs, out) -> slot k t s evs out.
  Proof.
    induction k as [|k IH]; intros s evs out; cbn [Generator.attempt].
    { intros H. injection H as <- <-. apply SlotGiveUp; [constructor|reflexivity|reflexivity|reflexivity]. }
    destruct (ct_get t c) as [n|] eqn:Ec.
    2:{ intros H. injection H as <- <-. apply SlotStop; [left; constructor|apply Nat.le_0_l|discriminate|discriminate]. }
    destruct (pick_index n (g_rng s)) as (i, r1) eqn:Ei. apply pick_index_bound in Ei.
    destruct (mutate_ast (gl_lang G) ps ms pm fuel ast t i r1) as [[[ast' mr] r2]|e|m|] eqn:Em.
    - set (s1 := {| g_rng := r2; g_seen := g_seen s; g_written := g_written s;
                    g_prints := g_prints s; g_checks := g_checks s |}).
      destruct (seen_before mr (g_seen s)) eqn:Es.
      + destruct (attempt k t s1) as (ev, o) eqn:Ea. intros H. injection H as <- <-.
        apply (slot_retry k t s s1 [Tried t i] ev o); [reflexivity|reflexivity| |reflexivity|now apply IH].
        constructor; [exact I|constructor].
      + assert (Hfresh : ~ In mr (g_seen s)).
        { unfold seen_before in Es. destruct (in_dec mr_eq_dec mr (g_seen s)); [discriminate|assumption]. }
        assert (Hmade : made t (ast', mr)).
        { exists i, n, r1, r2. split; [exact Ec|]. split; [exact Ei|exact Em]. }
        assert (Hemit : forall chk ev2 w, checked (ast', mr) chk -> tries chk = 0 -> mutants chk = [] ->
                  mutant_files chk = [] ->
                  Forall (fun e => match e with
                            | Validated tmp _ _ => rp_verify P = true /\ temp_name (w_tmp W) (rp_file P) = Ok tmp
                            | _ => False end) chk ->
                  emit G W P ast' mr s1 = (ev2, w) ->
                  slot (S k) t s (Tried t i :: chk ++ ev2)
                    (match w with
                     | Ok _ => Ok {| g_rng := r2; g_seen := g_seen s ++ [mr];
                                     g_written := S (g_written s); g_prints := S (g_prints s);
                                     g_checks := S (g_checks s) |}
                     | Err e => Err e | Panic m => Panic m | Diverge => Diverge
                     end)).
        { intros chk ev2 w Hc Hct Hcm Hcf Hcv. unfold emit.
          assert (Hm : forall e, leaves (g_written s) (ast', mr) e ->
                    slot (S k) t s ([] ++ Tried t i :: chk ++ [e])
                    (match w_print W (g_prints s1) ast' with
                     | Ok _ => Ok {| g_rng := r2; g_seen := g_seen s ++ [mr];
                                     g_written := S (g_written s); g_prints := S (g_prints s);
                                     g_checks := S (g_checks s) |}
                     | Err e => Err e | Panic m => Panic m | Diverge => Diverge
                     end)).
          { intros e He. apply SlotMutant with (x := (ast', mr)); try assumption.
            - constructor.
            - cbn; lia.
            - intros s' Hs'. destruct (w_print W (g_prints s1) ast'); try discriminate. injection Hs' as <-.
              split; reflexivity.
            - intros Hd. exists (g_prints s1). cbn [fst]. destruct (w_print W (g_prints s1) ast'); try discriminate.
              reflexivity. }
          destruct (rp_stdout P) eqn:Eo.
          - intros H. injection H as <- <-. apply Hm. left. split; [exact Eo|reflexivity].
          - pose proof (mutant_name_not_err (g_written s1)) as (Hne & Hnd).
            destruct (mutant_name _ _ _ (g_written s1)) as [f|e|m|] eqn:En; intros H; injection H as <- <-.
            + apply Hm. right. split; [exact Eo|]. exists f. split; [exact En|reflexivity].
            + now destruct (Hne e).
            + rewrite app_nil_r. apply SlotStop; [|rewrite tries_cons; cbn; lia|discriminate|discriminate].
              right. exists [], i, chk. split; [reflexivity|]. split; [constructor|]. tauto.
            + contradiction. }
        unfold validate. destruct (rp_verify P) eqn:Ev.
        * pose proof (temp_name_not_err (w_tmp W) (rp_file P)) as (Hne & Hnd).
          destruct (temp_name (w_tmp W) (rp_file P)) as [tmp|e|m|] eqn:Et.
          -- destruct (w_accepts W (g_checks s1) ast') eqn:Ea.
             ++ destruct (emit G W P ast' mr s1) as (ev2, w) eqn:Ee. intros H. injection H as <- <-.
                refine (Hemit [Validated tmp ast' true] ev2 w _ eq_refl eq_refl eq_refl _ eq_refl).
                ** unfold checked. rewrite Ev. exists tmp, (g_checks s1). auto.
                ** constructor; [auto|constructor].
             ++ destruct (attempt k t _) as (ev, o) eqn:Er. intros H. injection H as <- <-.
                refine (slot_retry k t s _ [Tried t i; Validated tmp ast' false] ev o _ _ _ _ (IH _ _ _ Er)); try reflexivity.
                constructor; [exact I|]. constructor; [|constructor]. cbn. auto.
          -- now destruct (Hne e).
          -- intros H. injection H as <- <-. apply SlotStop; [|cbn; lia|discriminate|discriminate].
             left. constructor; [exact I|constructor].
          -- contradiction.
        * destruct (emit G W P ast' mr s1) as (ev2, w) eqn:Ee. intros H. injection H as <- <-.
          refine (Hemit [] ev2 w _ eq_refl eq_refl eq_refl _ eq_refl); [|constructor].
          unfold checked. rewrite Ev. reflexivity.
    - intros H. injection H as <- <-. apply SlotStop; [|cbn; lia|discriminate|discriminate].
      left. constructor; [exact I|constructor].
    - intros H. injection H as <- <-. apply SlotStop; [|cbn; lia|discriminate|discriminate].
      left. constructor; [exact I|constructor].
    - intros H. injection H as <- <-. apply SlotStop; [|cbn; lia|discriminate|].
      + left. constructor; [exact I|constructor].
      + intros _. exists i, r1. exact Em.
  Qed.

  (** ** All slots *)
  Fixpoint ok_seq (prev : option event) (evs : list event) : Prop :=
    match evs with
    | [] => True
    | e :: evs =>
        (forall x, In x (mutant_of e) -> exists tmp, prev = Some (Validated tmp (fst x) true)) /\
        ok_seq (Some e) evs
    end.

  Lemma ok_seq_weaken p evs : ok_seq None evs -> ok_seq p evs.
  Proof.
    destruct evs as [|e evs]; [trivial|]. intros (H1 & H2). split; [|exact H2].
    intros x Hx. destruct (H1 x Hx) as (tmp & H). discriminate.
  Qed.

  Lemma ok_seq_app a b : forall p, ok_seq p a -> ok_seq None b -> ok_seq p (a ++ b).
  Proof.
    induction a as [|e a IH]; intros p Ha Hb; simpl; [now apply ok_seq_weaken|].
    destruct Ha as (H1 & H2). split; [exact H1|]. now apply IH.
  Qed.

  Lemma ok_seq_use evs : forall p, ok_seq p evs -> forall a e b x, evs = a ++ e :: b -> In x (mutant_of e) ->
    (a = [] /\ exists tmp, p = Some (Validated tmp (fst x) true)) \/
    exists a' tmp, a = a' ++ [Validated tmp (fst x) true].
  Proof.
    induction evs as [|e0 evs IH]; intros p (H1 & H2) || intros p H; intros a e b x Ha Hx; [destruct a; discriminate|].
    destruct a as [|e1 a].
    - injection Ha as -> ->. left. split; [reflexivity|]. now apply H1.
    - injection Ha as <- ->. right. destruct (IH _ H2 a e b x eq_refl Hx) as [(-> & tmp & E)|(a' & tmp & ->)].
      + injection E as ->. now exists [], tmp.
      + now exists (e0 :: a'), tmp.
  Qed.

  Lemma failed_ok_seq evs : Forall failed_check evs -> forall p, ok_seq p evs.
  Proof.
    induction 1 as [|e evs He _ IH]; intros p; simpl; [exact I|].
    split; [|apply IH]. destruct e; simpl in *; contradiction.
  Qed.

  Lemma plain_ok_seq evs : mutants evs = [] -> forall p, ok_seq p evs.
  Proof.
    induction evs as [|e evs IH]; intros H p; simpl; [exact I|]. apply app_eq_nil in H as (H1 & H2).
    split; [rewrite H1; intros x []|now apply IH].
  Qed.

  Lemma checked_facts x chk : checked x chk -> mutants chk = [] /\ mutant_files chk = [] /\ tries chk = 0.
  Proof.
    unfold checked. destruct (rp_verify P); [intros (tmp & k & _ & -> & _)|intros ->]; repeat split.
  Qed.

  Lemma leaves_facts k x e : leaves k x e ->
    mutant_of e = [x] /\ is_try e = false /\
    mutant_file e = (if rp_stdout P then [] else
                     match mutant_name (gl_ext G) (rp_file P) (rp_outdir P) k with Ok f => [f] | _ => [] end).
  Proof.
    destruct x as (a, mr). intros [(E & ->)|(E & f & Hf & ->)]; rewrite E; [|rewrite Hf]; repeat split.
  Qed.

  Inductive batch : list mutation_type -> gst -> list event -> list (mutation_type * (json * mutator_result)) ->
                    res gst -> Prop :=
  | BatchDone s : batch [] s [] [] (Ok s)
  | BatchGiveUp t todo s s' evs evs' done out :
      slot attempts_limit t s evs (Ok s') -> mutants evs = [] -> tries evs = attempts_limit ->
      g_seen s' = g_seen s -> g_written s' = g_written s ->
      mutant_files evs = [] -> ok_seq None evs ->
      batch todo s' evs' done out -> batch (t :: todo) s (evs ++ evs') done out
  | BatchMutant t todo s s' evs evs' x done out :
      mutants evs = [x] -> made t x -> ~ In (snd x) (g_seen s) ->
      1 <= tries evs <= attempts_limit ->
      g_seen s' = g_seen s ++ [snd x] -> g_written s' = S (g_written s) ->
      (mutant_files evs = if rp_stdout P then [] else
         match mutant_name (gl_ext G) (rp_file P) (rp_outdir P) (g_written s) with Ok f => [f] | _ => [] end) ->
      (rp_stdout P = false -> exists f, mutant_name (gl_ext G) (rp_file P) (rp_outdir P) (g_written s) = Ok f) ->
      (rp_verify P = true -> ok_seq None evs /\ exists k, w_accepts W k (fst x) = true) ->
      batch todo s' evs' done out -> batch (t :: todo) s (evs ++ evs') ((t, x) :: done) out
  | BatchLast t todo s evs x out :
      mutants evs = [x] -> made t x -> ~ In (snd x) (g_seen s) ->
      1 <= tries evs <= attempts_limit ->
      (mutant_files evs = if rp_stdout P then [] else
         match mutant_name (gl_ext G) (rp_file P) (rp_outdir P) (g_written s) with Ok f => [f] | _ => [] end) ->
      (rp_stdout P = false -> exists f, mutant_name (gl_ext G) (rp_file P) (rp_outdir P) (g_written s) = Ok f) ->
      (rp_verify P = true -> ok_seq None evs /\ exists k, w_accepts W k (fst x) = true) ->
      (forall s', out <> Ok s') ->
      (out = Diverge -> exists j, w_print W j (fst x) = Diverge) ->
      batch (t :: todo) s evs [(t, x)] out
  | BatchStop t todo s evs out :
      mutants evs = [] -> mutant_files evs = [] -> tries evs <= attempts_limit -> (forall s', out <> Ok s') ->
      (out = Diverge -> exists i r, mutate_ast (gl_lang G) ps ms pm fuel ast t i r = Diverge) ->
      batch (t :: todo) s evs [] out.

  Lemma make_batch : forall todo s evs out, make_mutants todo s = (evs, out) -> exists done, batch todo s evs done out.
  Proof.
    induction todo as [|t todo IH]; intros s evs out; cbn [Generator.make_mutants].
    { intros H. injection H as <- <-. exists []. constructor. }
    destruct (attempt attempts_limit t s) as (ev, o) eqn:Ea. apply attempt_slot in Ea.
    inversion Ea as [ev1 s' Hf Ht Hs Hw E1 E2|fails i chk e x o' Hf Ht Hm Hn Hc Hl Ho Hd E1 E2|ev1 o' Hf Ht Ho Hd E1 E2]; subst.
    - destruct (make_mutants todo s') as (ev', o') eqn:Er. intros H. injection H as <- <-.
      destruct (IH _ _ _ Er) as (done & Hb). exists done.
      apply BatchGiveUp with (s' := s'); auto using failed_mutants, failed_files, failed_ok_seq.
    - destruct (checked_facts _ _ Hc) as (Hc1 & Hc2 & Hc3). destruct (leaves_facts _ _ _ Hl) as (Hl1 & Hl2 & Hl3).
      assert (Em : mutants (fails ++ Tried t i :: chk ++ [e]) = [x]).
      { rewrite mutants_app, failed_mutants by exact Hf. cbn [app mutants flat_map mutant_of].
        change (mutants (chk ++ [e]) = [x]). rewrite mutants_app, Hc1. cbn. now rewrite Hl1. }
      assert (Et : 1 <= tries (fails ++ Tried t i :: chk ++ [e]) <= attempts_limit).
      { rewrite tries_app, tries_cons, tries_app, Hc3, tries_cons, Hl2. cbn [is_try]. change (tries []) with 0. lia. }
      assert (Ef : mutant_files (fails ++ Tried t i :: chk ++ [e]) = mutant_file e).
      { rewrite files_app, failed_files by exact Hf. cbn [app mutant_files flat_map mutant_file].
        change (mutant_files (chk ++ [e]) = mutant_file e). rewrite files_app, Hc2. cbn. apply app_nil_r. }
      rewrite Hl3 in Ef.
      assert (Ename : rp_stdout P = false -> exists f, mutant_name (gl_ext G) (rp_file P) (rp_outdir P) (g_written s) = Ok f).
      { intros E. destruct Hl as [(E' & _)|(_ & f & Hf' & _)]; [congruence|now exists f]. }
      assert (Ev : rp_verify P = true -> ok_seq None (fails ++ Tried t i :: chk ++ [e]) /\
                                         exists k, w_accepts W k (fst x) = true).
      { intros Ev. unfold checked in Hc. rewrite Ev in Hc. destruct Hc as (tmp & k & _ & -> & Hk).
        split; [|now exists k]. apply ok_seq_app; [now apply failed_ok_seq|]. cbn [app ok_seq mutant_of].
        repeat split; try (intros y []). intros y Hy. rewrite Hl1 in Hy. destruct Hy as [<-|[]]. now exists tmp. }
      destruct o as [s'| | |].
      + destruct (Ho s' eq_refl) as (Hs & Hw).
        destruct (make_mutants todo s') as (ev', o') eqn:Er. intros H. injection H as <- <-.
        destruct (IH _ _ _ Er) as (done & Hb). exists ((t, x) :: done).
        apply BatchMutant with (s' := s'); assumption.
      + intros H. injection H as <- <-. exists [(t, x)]. apply BatchLast; auto; discriminate.
      + intros H. injection H as <- <-. exists [(t, x)]. apply BatchLast; auto; discriminate.
      + intros H. injection H as <- <-. exists [(t, x)]. apply BatchLast; auto; discriminate.
    - assert (Hev : mutants ev = [] /\ mutant_files ev = []).
      { destruct Hf as [Hf|(fails & i & chk & -> & Hf & Hm & Hfl & _ & _)]; [auto using failed_mutants, failed_files|].
        rewrite mutants_app, files_app, failed_mutants, failed_files by exact Hf. split; assumption. }
      destruct Hev as (H1 & H2).
      destruct o as [s'| | |]; [now destruct (Ho s')| | |];
        intros H; injection H as <- <-; exists []; apply BatchStop; auto; discriminate.
  Qed.

  (** ** Consequences *)
  Lemma batch_mutants todo s evs done out : batch todo s evs done out -> mutants evs = map snd done.
  Proof.
    induction 1; rewrite ?mutants_app;
      repeat match goal with E : mutants _ = _ |- _ => rewrite E; clear E end; reflexivity.
  Qed.

  Lemma batch_made todo s evs done out : batch todo s evs done out -> Forall (fun d => made (fst d) (snd d)) done.
  Proof. induction 1; auto. Qed.

  Lemma batch_types todo s evs done out : batch todo s evs done out ->
    forall p : mutation_type -> bool, length (filter p (map fst done)) <= length (filter p todo).
  Proof.
    induction 1; intros p; simpl; auto with arith.
    - specialize (IHbatch p). destruct (p t); simpl; lia.
    - specialize (IHbatch p). destruct (p t); simpl; lia.
    - destruct (p t); simpl; lia.
  Qed.

  Lemma batch_length todo s evs done out : batch todo s evs done out -> length done <= length todo.
  Proof. induction 1; simpl; lia. Qed.

  Lemma batch_nodup todo s evs done out : batch todo s evs done out ->
    NoDup (g_seen s) -> NoDup (g_seen s ++ map (fun d => snd (snd d)) done).
  Proof.
    assert (Hsnoc : forall (l : list mutator_result) y, NoDup l -> ~ In y l -> NoDup (l ++ [y])).
    { induction l as [|a l IH]; intros y Hl Hy; simpl; [constructor; [intros []|constructor]|].
      inversion Hl; subst. constructor.
      - intros Hi. apply in_app_or in Hi as [Hi|[->|[]]]; [contradiction|]. apply Hy. now left.
      - apply IH; [assumption|]. intros Hi. apply Hy. now right. }
    induction 1; intros Hn; simpl; rewrite ?app_nil_r; auto.
    - rewrite <- H2. apply IHbatch. congruence.
    - rewrite H3 in IHbatch. rewrite <- app_assoc in IHbatch. apply IHbatch. auto.
  Qed.

  Lemma batch_files todo s evs done out : batch todo s evs done out ->
    if rp_stdout P then mutant_files evs = []
    else Forall2 (fun k f => mutant_name (gl_ext G) (rp_file P) (rp_outdir P) k = Ok f)
                 (seq (g_written s) (length done)) (mutant_files evs).
  Proof.
    destruct (rp_stdout P) eqn:Eo.
    - induction 1; rewrite ?files_app; simpl; try congruence.
      + rewrite H4. assumption.
      + rewrite H5, Eo. assumption.
      + rewrite H3, Eo. reflexivity.
    - induction 1; rewrite ?files_app; simpl; try (rewrite ?H0; constructor; fail).
      + rewrite H4, <- H3. assumption.
      + rewrite H5, Eo. destruct (H6 Eo) as (f & Hf). rewrite Hf. simpl. constructor; [exact Hf|].
        rewrite <- H4. assumption.
      + rewrite H3, Eo. destruct (H4 Eo) as (f & Hf). rewrite Hf. constructor; [exact Hf|constructor].
  Qed.

  Lemma batch_tries todo s evs done out : batch todo s evs done out ->
    tries evs <= attempts_limit * length todo /\
    (forall s', out = Ok s' ->
       attempts_limit * (length todo - length done) + length done <= tries evs /\
       g_written s' = g_written s + length done).
  Proof.
    intros Hb. assert (Hl := batch_length _ _ _ _ _ Hb). revert Hl.
    induction Hb; intros Hlen; rewrite ?tries_app.
    - split; [apply Nat.le_0_l|]. intros s' E. injection E as <-. simpl. lia.
    - pose proof (batch_length _ _ _ _ _ Hb) as Hl. destruct (IHHb Hl) as (IH1 & IH2). split.
      + cbn [length]. lia.
      + intros s0 E. destruct (IH2 s0 E) as (A & B). cbn [length] in *.
        replace (S (length todo) - length done) with (S (length todo - length done)) by lia. lia.
    - pose proof (batch_length _ _ _ _ _ Hb) as Hl. destruct (IHHb Hl) as (IH1 & IH2). split.
      + cbn [length]. lia.
      + intros s0 E. destruct (IH2 s0 E) as (A & B). cbn [length] in *.
        replace (S (length todo) - S (length done)) with (length todo - length done) by lia. lia.
    - split; [cbn [length]; lia|]. intros s' E. now destruct (H6 s').
    - split; [cbn [length]; lia|]. intros s' E. now destruct (H2 s').
  Qed.

  Lemma batch_checked todo s evs done out : batch todo s evs done out -> rp_verify P = true ->
    ok_seq None evs /\ Forall (fun d => exists k, w_accepts W k (fst (snd d)) = true) done.
  Proof.
    induction 1; intros Ev; simpl; auto using plain_ok_seq.
    - destruct (IHbatch Ev) as (A & B). split; [now apply ok_seq_app|exact B].
    - destruct (IHbatch Ev) as (A & B). destruct (H7 Ev) as (C & D). split; [now apply ok_seq_app|auto].
    - destruct (H5 Ev) as (C & D). auto.
  Qed.

  Lemma batch_stops todo s evs done out : batch todo s evs done out -> out = Diverge ->
    (exists t i r, mutate_ast (gl_lang G) ps ms pm fuel ast t i r = Diverge) \/ (exists k a, w_print W k a = Diverge).
  Proof.
    induction 1; intros E; auto; try discriminate.
    - destruct (H7 E) as (j & Hj). right. eauto.
    - destruct (H3 E) as (i & r & Hr). left. eauto.
  Qed.
End Run.
