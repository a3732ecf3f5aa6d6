(** The statements of C82-C84. *)
From Coq Require Import String Ascii List NArith ZArith Bool Lia Arith Permutation.
From Verif Require Import Base Json Rng Permissions MutationType Traverse OpCommon SolMutators VyMutators Comments
  Language Paths Generator JsonFacts SpecTree SpecMutation SpecOps SpecTotal SpecAccept SpecOrder SpecJson SpecGenerator
  SpecReach SpecRun OpTotal ReachFacts ReachOnly ReachVy RunReach Samples.
Import ListNotations.
Open Scope list_scope.
Open Scope string_scope.

Lemma sol_catalogue e t m n : printer_total e -> shuffles (e_order e) -> sol_schema n -> sol_crash_free t n ->
  sol_mutator_for e t = Some m -> mu_mutable m n = Ok true ->
  (forall P, sol_outcome n t P -> can_give m n P) /\
  (forall r fuel d, mu_mutate m fuel n r = Ok d -> exists P, sol_outcome n t P /\ P (md_node d)).
Proof.
  intros He Ho Hs Hc Hm Hmu. split.
  - intros P HP. eapply sol_reach; eauto.
  - intros r fuel d Hd. eapply sol_only; eauto.
Qed.

Lemma vy_catalogue e t m n : printer_total e -> wf n -> vy_schema n -> vy_complete n -> vy_crash_free t n ->
  vy_mutator_for e t = Some m -> mu_mutable m n = Ok true ->
  (forall P, vy_outcome e n t P -> can_give m n P) /\
  (forall r fuel d, mu_mutate m fuel n r = Ok d -> exists P, vy_outcome e n t P /\ P (md_node d)).
Proof.
  intros He Hw Hs Hk Hc Hm Hmu. split.
  - intros P HP. eapply vy_reach; eauto.
  - intros r fuel d Hd. eapply vy_only; eauto.
Qed.

Lemma can_some m n P : can_give m n P -> exists r fuel d, mu_mutate m fuel n r = Ok d /\ P (md_node d).
Proof.
  intros (l & H). pose (r := {| rstream := fun k => nth k l 0%N; rpos := 0 |}).
  destruct (H r) with (fuel := 0) as (d & Hd & HP).
  - intros k x Hk. cbn [r rstream rpos Nat.add]. now apply nth_error_nth.
  - eauto.
Qed.

Lemma can_not_never m n P : can_give m n P -> ~ never_gives m n P.
Proof. intros H Hn. destruct (can_some m n P H) as (r & fuel & d & Hd & HP). exact (Hn r fuel d Hd HP). Qed.

Lemma uint_exactly e m n k z : printer_total e -> shuffles (e_order e) -> sol_schema n ->
  sol_mutator_for e (Generic Assignment) = Some m -> mu_mutable m n = Ok true ->
  (0 < k <= 256)%N -> sol_type_of n ("uint" ++ show_N k) ->
  (can_give m n (gets "rightHandSide" (sol_number_literal z) n) <-> (0 <= z < 2 ^ Z.of_N (N.min k 128) - 1)%Z).
Proof.
  intros He Ho Hs Hm Hmu Hk Ht. split; intros H.
  - assert (D : {(0 <= z < 2 ^ Z.of_N (N.min k 128) - 1)%Z} + {~ (0 <= z < 2 ^ Z.of_N (N.min k 128) - 1)%Z}).
    { destruct (Z_le_dec 0 z); [|right; lia]. destruct (Z_lt_dec z (2 ^ Z.of_N (N.min k 128) - 1)); [left|right]; lia. }
    destruct D as [|D]; [assumption|]. exfalso. eapply can_not_never; [exact H|]. eapply sol_uint_never; eauto.
  - eapply sol_reach; eauto. eapply so_uint; eauto.
Qed.

Lemma bool_exactly e m n b : printer_total e -> shuffles (e_order e) -> sol_schema n ->
  sol_mutator_for e (Generic Assignment) = Some m -> mu_mutable m n = Ok true -> sol_type_of n "bool" ->
  (can_give m n (gets "rightHandSide" (sol_bool_literal b) n) <-> b = false).
Proof.
  intros He Ho Hs Hm Hmu Ht. split; intros H.
  - destruct b; [|reflexivity]. exfalso. eapply can_not_never; [exact H|]. eapply sol_bool_never; eauto.
  - subst b. eapply sol_reach; eauto. now apply so_bool.
Qed.

Lemma swap_exactly e m n l i j : printer_total e -> shuffles (e_order e) -> sol_schema n ->
  sol_mutator_for e (Generic SwapFunctionArguments) = Some m -> mu_mutable m n = Ok true ->
  has_field n "arguments" (JArr l) -> NoDup l -> i < j ->
  (can_give m n (gets_swapped "arguments" l i j n) <-> exists t, first_two t l i j).
Proof.
  intros He Ho Hs Hm Hmu Hl Hnd Hij. split.
  - intros H. destruct (can_some m n _ H) as (r & fuel & d & Hd & HP). eapply sol_swapargs_pair; eauto.
  - intros (t & Ht). eapply sol_reach; eauto. eapply so_swapargs; eauto.
Qed.

(** ** A run *)
Lemma sol_run_reach e W P ast c t m p n R :
  printer_total e -> shuffles (e_order e) -> rearranges (w_order W) -> undisturbed W P ->
  run_counts (solidity_files e) W P ast c -> 0 < rp_count P -> In t (rp_types P) -> (N.of_nat (reported t c) <= 2 ^ 64)%N ->
  sol_mutator_for e t = Some m -> subtree p ast = Some n -> sol_schema n -> mu_mutable m n = Ok true -> open_to_run P ast p ->
  sol_outcome n t R -> can_write (solidity_files e) W P ast t p R.
Proof.
  intros He Ho Hr HW Hc Hk Ht Hb Hm Hn Hs Hmu Hopen HR.
  eapply (run_reach (solidity_files e)); eauto; [exists e; now left|]. eapply sol_reach; eauto.
Qed.

Lemma vy_run_reach e W P ast c t m p n R :
  printer_total e -> rearranges (w_order W) -> undisturbed W P ->
  run_counts (vyper_files e) W P ast c -> 0 < rp_count P -> In t (rp_types P) -> (N.of_nat (reported t c) <= 2 ^ 64)%N ->
  vy_mutator_for e t = Some m -> subtree p ast = Some n -> wf n -> vy_schema n -> vy_complete n -> vy_crash_free t n ->
  mu_mutable m n = Ok true -> open_to_run P ast p ->
  vy_outcome e n t R -> can_write (vyper_files e) W P ast t p R.
Proof.
  intros He Hr HW Hc Hk Ht Hb Hm Hn Hw Hs Hkc Hcf Hmu Hopen HR.
  eapply (run_reach (vyper_files e)); eauto; [exists e; now right|]. eapply vy_reach; eauto.
Qed.
