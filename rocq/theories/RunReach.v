(** Driving a whole run with chosen draws. *)
From Coq Require Import String Ascii List NArith Bool Lia Arith Permutation.
From Verif Require Import Base Json Rng Permissions MutationType Traverse OpCommon SolMutators VyMutators Comments
  Language Paths Generator SpecTree SpecMutation SpecOps SpecTotal SpecGenerator SpecReach SpecRun
  TraverseFacts TraverseFacts2 TraverseFacts3 OpTotal OpOrder GenFacts SelFacts PathFacts GenLaws ReachFacts.
Import ListNotations.
Open Scope list_scope.

Lemma begins_app l l' s p : begins (l ++ l') (at_pos s p) <-> begins l (at_pos s p) /\ begins l' (at_pos s (p + length l)).
Proof.
  unfold begins. cbn [at_pos rstream rpos]. split.
  - intros H. split; intros k d Hk.
    + apply H. rewrite nth_error_app1; [exact Hk|]. apply nth_error_Some. congruence.
    + rewrite <- Nat.add_assoc. apply H. rewrite nth_error_app2 by lia. now replace (length l + k - length l) with k by lia.
  - intros (H & H') k d Hk. destruct (Nat.lt_ge_cases k (length l)) as [Hl|Hl].
    + apply H. now rewrite nth_error_app1 in Hk.
    + rewrite nth_error_app2 in Hk by exact Hl. apply H' in Hk. now replace (p + length l + (k - length l)) with (p + k) in Hk by lia.
Qed.

Lemma choose_index {A} (l : list A) s p i x : s p = N.of_nat i -> nth_error l i = Some x ->
  choose l (at_pos s p) = (Some x, at_pos s (S p)).
Proof.
  intros E Hi. assert (Hl : i < length l) by (apply nth_error_Some; congruence).
  unfold choose. destruct l as [|y l]; [destruct i; discriminate|]. unfold draw. cbn [at_pos rstream rpos].
  rewrite E, N.mod_small by lia. now rewrite Nat2N.id, Hi.
Qed.

(** ** Selecting the types *)
Lemma room_somewhere c used : NoDup (map fst c) -> total (fun t => times t used) < available c ->
  exists t, times t used < times t c.
Proof.
  intros Hc H. rewrite (available_total c Hc) in H. unfold total in H.
  induction all_mutation_types as [|a l IHl]; simpl in H; [lia|].
  destruct (le_lt_dec (times a c) (times a used)) as [Hle|Hlt]; [apply IHl; lia|now exists a].
Qed.

Lemma bump_le t used c : times t used < times t c -> (forall u, times u used <= times u c) ->
  forall u, times u (ct_bump t used) <= times u c.
Proof.
  intros Hlt Hu u. rewrite times_bump. destruct (mt_eqb u t) eqn:E; [apply mt_eqb_eq in E; subst; lia|apply Hu].
Qed.

Lemma full_everywhere c used t : NoDup (map fst c) -> (forall u, times u used <= times u c) ->
  available c <= total (fun u => times u used) -> times t used = times t c.
Proof.
  intros Hc Hu Hfull. apply Nat.le_antisymm; [apply Hu|]. apply Nat.nlt_ge. intros Hlt.
  pose proof (total_le _ _ (bump_le t used c Hlt Hu)) as H. rewrite total_bump, <- (available_total c Hc) in H. lia.
Qed.

(** Selecting any type that has room. *)
Lemma select_pick c types t i fuel used chosen rest s p ts r' :
  nth_error types i = Some t -> s p = N.of_nat i -> times t used < times t c ->
  select_kinds fuel c types (ct_bump t used) (S chosen) rest (at_pos s (S p)) = Ok (ts, r') ->
  select_kinds (S fuel) c types used chosen (S rest) (at_pos s p) = Ok (t :: ts, r').
Proof.
  intros Hi E Hlt H. cbn [select_kinds]. rewrite (choose_index types s p i t E Hi).
  apply Nat.ltb_lt in Hlt. rewrite Hlt, H. reflexivity.
Qed.

Lemma select_drive c types : NoDup (map fst c) -> (forall t, In t types <-> 0 < times t c) -> types <> [] ->
  forall remaining used chosen, (forall t, times t used <= times t c) -> chosen = total (fun t => times t used) ->
  exists l bound, forall s p, begins l (at_pos s p) ->
    exists ts, select_kinds bound c types used chosen remaining (at_pos s p) = Ok (ts, at_pos s (p + length l)).
Proof.
  intros Hc Ht Hne. induction remaining as [|rest IH]; intros used chosen Hu Hch.
  { exists [], 0. intros s p _. exists []. cbn [length]. now rewrite Nat.add_0_r. }
  destruct (le_lt_dec (available c) chosen) as [Hfull|Hroom].
  - destruct types as [|t0 types]; [congruence|]. exists [0%N], 1. intros s p Hb. apply begins_one in Hb. exists [].
    cbn [select_kinds length]. rewrite (choose_index (t0 :: types) s p 0 t0 Hb eq_refl).
    rewrite (full_everywhere c used t0 Hc Hu) by lia. rewrite Nat.ltb_irrefl. apply Nat.leb_le in Hfull. rewrite Hfull.
    now rewrite Nat.add_1_r.
  - destruct (room_somewhere c used Hc ltac:(lia)) as (t & Hlt). assert (Hin : In t types) by (apply Ht; lia).
    destruct (nth_index types t Hin) as (i & _ & Hn).
    destruct (IH (ct_bump t used) (S chosen) (bump_le t used c Hlt Hu) ltac:(rewrite total_bump; congruence)) as (l & bound & H).
    exists (N.of_nat i :: l), (S bound). intros s p Hb. change (N.of_nat i :: l) with ([N.of_nat i] ++ l) in Hb.
    apply begins_app in Hb as (Hb & Hl). apply begins_one in Hb. cbn [length] in Hl. rewrite Nat.add_1_r in Hl.
    destruct (H s (S p) Hl) as (ts & Hts). exists (t :: ts).
    cbn [length]. rewrite <- plus_n_Sm. exact (select_pick c types t i bound used chosen rest s p ts _ Hn Hb Hlt Hts).
Qed.

(** The first selected type can be any counted one. *)
Lemma select_first c t rest : NoDup (map fst c) -> 0 < times t c ->
  exists l bound, forall s p, begins l (at_pos s p) ->
    exists ts, select_kinds bound c (usable_types c) [] 0 (S rest) (at_pos s p) = Ok (t :: ts, at_pos s (p + length l)).
Proof.
  intros Hc Hlt. assert (Ht : forall u, In u (usable_types c) <-> 0 < times u c) by (intros u; now apply usable_in).
  assert (Hin : In t (usable_types c)) by now apply Ht. destruct (nth_index _ t Hin) as (i & _ & Hn).
  assert (Hu : forall u, times u (@nil (mutation_type * nat)) <= times u c) by (intros; apply Nat.le_0_l).
  destruct (select_drive c (usable_types c) Hc Ht ltac:(intros E; rewrite E in Hin; destruct Hin) rest (ct_bump t []) 1
              (bump_le t [] c Hlt Hu) ltac:(rewrite total_bump; reflexivity)) as (l & bound & H).
  exists (N.of_nat i :: l), (S bound). intros s p Hb. change (N.of_nat i :: l) with ([N.of_nat i] ++ l) in Hb.
  apply begins_app in Hb as (Hb & Hl). apply begins_one in Hb. cbn [length] in Hl. rewrite Nat.add_1_r in Hl.
  destruct (H s (S p) Hl) as (ts & Hts). exists ts.
  cbn [length]. rewrite <- plus_n_Sm. exact (select_pick c _ t i bound [] 0 rest s p ts _ Hn Hb Hlt Hts).
Qed.

(** ** Picking the node *)
Lemma pick_drive n i : i < n -> (N.of_nat n <= 2 ^ 64)%N ->
  exists l, forall s p, begins l (at_pos s p) -> pick_index n (at_pos s p) = (i, at_pos s (p + length l)).
Proof.
  intros Hi Hn. destruct (Nat.ltb 1 n) eqn:E.
  - exists [N.of_nat i]. intros s p Hb. apply begins_one in Hb. unfold pick_index. rewrite E.
    unfold next_u64, draw. cbn [at_pos rstream rpos]. rewrite Hb.
    change 18446744073709551616%N with (2 ^ 64)%N. rewrite small_mod by lia. rewrite Nat2N.id. cbn [length]. now rewrite Nat.add_1_r.
  - exists []. intros s p _. unfold pick_index. rewrite E. apply Nat.ltb_ge in E. cbn [length].
    replace i with 0 by lia. now rewrite Nat.add_0_r.
Qed.

(** ** The request that reaches a node *)
Lemma request_for P ms ast c t m p : count_mutable_nodes (permissions_for_functions (rp_functions P)) ms ast = Ok c ->
  NoDup (map fst ms) -> In (t, m) ms -> open_to_run P ast p -> accepted_at m ast p = true ->
  exists i, i < reported t c /\
    forall idm fuel r, acts_at (permissions_for_functions (rp_functions P)) idm m fuel i ast r p.
Proof.
  intros Hc Hnd Hi [Hno|(Hne & Hnest & Hin)] Hacc; [|eapply restriction_complete; eauto].
  rewrite Hno in *. unfold accepted_at in Hacc. destruct (subtree p ast) as [n|] eqn:Hp; [|discriminate].
  rewrite count_mutable_nodes_eq in Hc. destruct (count_all_in _ _ _ _ _ _ Hc Hnd Hi) as (Htot & Hnum & _).
  assert (Hx : In (p, n) (sel m (fst (allowed (permissions_for_functions []) false ast)))).
  { unfold sel. apply filter_In. cbn [fst snd]. split.
    - rewrite (allowed_everything _ false ast);
        [|intros; apply functions_may_visit|intros; apply unrestricted_may_mutate]. now apply all_nodes_In.
    - unfold accepts. destruct (mu_mutable m n) as [b| | |]; try discriminate. now rewrite Hacc. }
  apply In_nth_error in Hx as (i & Hx). exists i. split.
  - assert (H : i < length (sel m (fst (allowed (permissions_for_functions []) false ast)))) by (apply nth_error_Some; congruence).
    change (reported t c) with (ct_num t c). rewrite Hnum. cbn [ct_num ct_get]. revert H. unfold sel.
    generalize (fst (allowed (permissions_for_functions []) false ast)). clear. intros a H. eapply Nat.lt_le_trans; [exact H|].
    clear. cbn. induction a as [|[q x] a IH]; simpl; [lia|]. destruct (accepts m x); simpl; lia.
  - intros idm fuel r. eapply acts_at_select; [|exact Hx].
    intros p0 n0 H. apply Htot. apply (in_map snd) in H. exact H.
Qed.

(** ** The run *)
Lemma original_ok G W P ast : undisturbed W P -> exists ev k, print_original G W P ast = (ev, Ok k) /\ mutants ev = [].
Proof.
  intros (Hp & _ & (base & Hb) & _). unfold print_original. destruct (rp_original P); [|now exists [], 0].
  rewrite Hp. cbn [bind]. destruct (rp_stdout P); [eexists _, 1; split; reflexivity|].
  unfold printed_name. rewrite Hb. eexists _, 1; split; reflexivity.
Qed.

Lemma config_ok W P : undisturbed W P -> exists ev, save_config W P = (ev, Ok tt) /\ mutants ev = [].
Proof.
  intros (_ & Hc & (base & Hb) & _). unfold save_config. destruct (rp_save P); [|now exists []].
  unfold config_name. rewrite Hb, Hc. destruct (rp_stdout P); eexists; split; reflexivity.
Qed.

Lemma accepted_ok W P a s : undisturbed W P -> exists ev, validate W P a s = (ev, Ok true) /\ mutants ev = [].
Proof.
  intros (_ & _ & (base & Hb) & Hv). unfold validate. destruct (rp_verify P) eqn:E; [|now exists []].
  unfold temp_name. rewrite Hb, (Hv eq_refl). eexists; split; reflexivity.
Qed.

Lemma emitted_ok G W P a mr s : supported G -> undisturbed W P ->
  exists ev, emit G W P a mr s = (ev, Ok tt) /\ mutants ev = [(a, mr)].
Proof.
  intros HG (Hp & _ & (base & Hb) & _). unfold emit. destruct (rp_stdout P).
  - rewrite Hp. eexists; split; reflexivity.
  - rewrite (mutant_name_eq _ _ _ _ _ (proj2 (supported_ok G HG)) Hb), Hp. eexists; split; reflexivity.
Qed.

Lemma fst_and_then {A B} ev (a : A) (k : A -> list event * res B) : fst (and_then (ev, Ok a) k) = ev ++ fst (k a).
Proof. unfold and_then. destruct (k a). reflexivity. Qed.

(** The first attempt of a run that has written nothing yet succeeds. *)
Lemma first_attempt G W P ps ms pm fuel c ast t n i s r1 ast' mr r2 more : supported G -> undisturbed W P ->
  ct_get t c = Some n -> pick_index n (g_rng s) = (i, r1) ->
  mutate_ast (gl_lang G) ps ms pm fuel ast t i r1 = Ok (ast', mr, r2) -> g_seen s = [] ->
  exists ev s', attempt G W P ps ms pm fuel c ast (S more) t s = (ev, Ok s') /\ mutants ev = [(ast', mr)].
Proof.
  intros HG HW Hc Hp Hm Hs. cbn [attempt]. rewrite Hc, Hp, Hm, Hs. change (seen_before mr []) with false. cbv iota.
  match goal with |- context[validate W P ast' ?st1] => destruct (accepted_ok W P ast' st1 HW) as (ev1 & -> & Hev1) end.
  match goal with |- context[emit G W P ast' mr ?st1] => destruct (emitted_ok G W P ast' mr st1 HG HW) as (ev2 & -> & Hev2) end.
  eexists _, _. split; [reflexivity|]. change (Tried t i :: ev1 ++ ev2) with ([Tried t i] ++ ev1 ++ ev2).
  rewrite !mutants_app, Hev1, Hev2. reflexivity.
Qed.

Lemma limit_positive : exists more, attempts_limit = S more.
Proof. now exists 49. Qed.

Lemma first_made G W P ps ms pm fuel c ast t n i ts s r1 ast' mr r2 : supported G -> undisturbed W P ->
  ct_get t c = Some n -> pick_index n (g_rng s) = (i, r1) ->
  mutate_ast (gl_lang G) ps ms pm fuel ast t i r1 = Ok (ast', mr, r2) -> g_seen s = [] ->
  exists rest, mutants (fst (make_mutants G W P ps ms pm fuel c ast (t :: ts) s)) = (ast', mr) :: rest.
Proof.
  intros HG HW Hc Hp Hm Hs. destruct limit_positive as (more & E).
  destruct (first_attempt G W P ps ms pm fuel c ast t n i s r1 ast' mr r2 more HG HW Hc Hp Hm Hs) as (ev & s' & Ha & Hev).
  rewrite <- E in Ha. cbn [make_mutants]. rewrite Ha.
  destruct (make_mutants G W P ps ms pm fuel c ast ts s') as (ev3, out). cbn [fst].
  rewrite mutants_app, Hev. eexists. reflexivity.
Qed.

Lemma generate_head G W P fuel ast r c pm ts r' : undisturbed W P ->
  let ps := permissions_for_functions (rp_functions P) in
  let ms := w_order W (select_mutators (gl_lang G) (rp_types P) []) in
  count_mutable_nodes ps ms ast = Ok c -> c <> [] ->
  calculate_node_paths ps (l_id (gl_lang G)) ast = Ok pm ->
  select_kinds fuel c (usable_types c) [] 0 (rp_count P) r = Ok (ts, r') ->
  exists k, mutants (fst (generate G W P fuel ast r)) =
    mutants (fst (make_mutants G W P ps ms pm fuel c ast ts
      {| g_rng := r'; g_seen := []; g_written := 0; g_prints := k; g_checks := 0 |})).
Proof.
  intros HW ps ms Hc Hne Hpm Hts. unfold generate. fold ps ms. rewrite Hc, fst_and_then, Hpm, fst_and_then.
  destruct (original_ok G W P ast HW) as (evo & k & -> & Hevo). destruct (config_ok W P HW) as (evc & -> & Hevc).
  exists k. destruct c as [|c0 c']; [congruence|].
  rewrite fst_and_then, fst_and_then, Hts, fst_and_then. cbn [fst snd app].
  rewrite !mutants_app, Hevo, Hevc. reflexivity.
Qed.

Lemma run_reach G W P ast c t m p n R :
  supported G -> rearranges (w_order W) -> undisturbed W P -> run_counts G W P ast c ->
  0 < rp_count P -> In t (rp_types P) -> (N.of_nat (reported t c) <= 2 ^ 64)%N ->
  l_mutator_for (gl_lang G) t = Some m -> subtree p ast = Some n -> mu_mutable m n = Ok true -> open_to_run P ast p ->
  can_give m n R -> can_write G W P ast t p R.
Proof.
  intros HG Ho HW Hc Hcount Hty Hbig Hm Hn Hmu Hopen (lop & Hop).
  destruct (supported_ok G HG) as ((Hlt & Hlab) & _). unfold run_counts in Hc.
  set (ms := w_order W (select_mutators (gl_lang G) (rp_types P) [])) in *.
  assert (Hnd : NoDup (map fst ms)) by now apply reordered_nodup.
  assert (Hget : mm_get t ms = Some m).
  { unfold ms. rewrite reordered_get, select_get by assumption.
    replace (existsb (mt_eqb t) (rp_types P)) with true; [now rewrite Hm|].
    symmetry. apply existsb_exists. exists t. split; [exact Hty|now apply mt_eqb_eq]. }
  assert (Hin : In (t, m) ms) by now apply mm_get_iff.
  assert (Hacc : accepted_at m ast p = true) by (unfold accepted_at; now rewrite Hn, Hmu).
  destruct (request_for P ms ast c t m p Hc Hnd Hin Hopen Hacc) as (i & Hi & Hact).
  destruct (count_table_ok _ _ _ _ Hc) as (Hcnd & _).
  destruct (rp_count P) as [|rest] eqn:Ecount; [lia|].
  destruct (select_first c t rest Hcnd ltac:(rewrite times_reported; lia)) as (lsel & bound & Hsel).
  destruct (pick_drive (reported t c) i Hi Hbig) as (lpick & Hpick).
  destruct (paths_total (permissions_for_functions (rp_functions P)) (l_id (gl_lang G)) ast) as (pm & Hpm).
  exists (lsel ++ lpick ++ lop), (S bound). intros r fuel Hb Hf.
  rewrite (rng_eta r) in *. set (s := rstream r) in *. set (q := rpos r) in *.
  apply begins_app in Hb as (Hb1 & Hb). apply begins_app in Hb as (Hb2 & Hb3).
  destruct (Hsel s q Hb1) as (ts & Hts).
  apply (select_more _ _ _ _ _ _ _ _) with (fuel' := fuel) in Hts; [|lia].
  destruct fuel as [|fuel]; [lia|].
  destruct (Hop _ Hb3 fuel) as (d & Hd & HR).
  destruct (Hact (l_id (gl_lang G)) (S fuel) (at_pos s (q + length lsel + length lpick))) as (n' & Hn' & Hmu' & Hmk).
  assert (n' = n) by congruence. subst n'. rewrite Hd in Hmk.
  destruct Hmk as (ast1 & st & Hmk & Hrep & Hcom & Hres & Hrng).
  assert (Hmut : exists ast' mr, mutate_ast (gl_lang G) (permissions_for_functions (rp_functions P)) ms pm (S fuel) ast t i
                     (at_pos s (q + length lsel + length lpick)) = Ok (ast', mr, mk_rng st) /\ mr_type mr = Some t /\
          (ast' = ast1 \/ exists comment path,
             ast' = insert_comment_by_path (l_id (gl_lang G)) (l_member (gl_lang G)) (l_insert (gl_lang G)) ast1 comment path)).
  { unfold mutate_ast. rewrite Hget, Hmk. cbn [bind]. eexists _, _. split; [reflexivity|]. split.
    - cbn [mr_type]. rewrite Hres. exact (Hlab t m (S fuel) n _ d Hm Hmu Hd).
    - destruct (mk_comment st); [|now left]. destruct (pm_get _ _); [right; eauto|now left]. }
  destruct Hmut as (ast' & mr & Hmut & Hmt & Hast).
  assert (Hcne : c <> []) by (intros ->; unfold reported in Hi; simpl in Hi; lia).
  destruct (generate_head G W P (S fuel) ast (at_pos s q) c pm (t :: ts) (at_pos s (q + length lsel)) HW Hc Hcne Hpm
              ltac:(rewrite Ecount; exact Hts)) as (k & ->).
  assert (Hct : ct_get t c = Some (reported t c)).
  { unfold reported in *. destruct (ct_get t c); [reflexivity|lia]. }
  match goal with |- context[make_mutants _ _ _ _ _ _ _ _ _ _ ?st0] =>
    destruct (first_made G W P (permissions_for_functions (rp_functions P)) ms pm (S fuel) c ast t (reported t c) i ts st0
                (at_pos s (q + length lsel + length lpick)) ast' mr (mk_rng st) HG HW Hct (Hpick s (q + length lsel) Hb2) Hmut eq_refl)
      as (rest' & Hrest) end.
  exists (md_node d), ast1, ast', mr, rest'. split; [exact Hrest|auto].
Qed.
