(** Nothing but the catalogued results comes out of the Solidity operators. *)
From Coq Require Import String Ascii List NArith ZArith Bool Lia Arith Permutation.
From Verif Require Import Base Json Rng MutationType Traverse OpCommon SolMutators
  JsonFacts SpecOps SpecTotal SpecAccept SpecOrder SpecReach OpFacts TraverseFacts SolFacts OpTotal AcceptFacts
  OpProps OpClaims RecordWays ReachFacts.
Import ListNotations.
Open Scope list_scope.
Open Scope string_scope.

Lemma some_inj {A} (a b : A) : Some a = Some b -> a = b.
Proof. congruence. Qed.

Definition listed (n : json) (t : mutation_type) (n' : json) : Prop := exists P, sol_outcome n t P /\ P n'.

Lemma sol_binop_only e g class m fuel n r d :
  sol_class g = Some class -> sol_mutator_for e (Generic g) = Some m ->
  mu_mutable m n = Ok true -> mu_mutate m fuel n r = Ok d -> listed n (Generic g) (md_node d).
Proof.
  intros Hc Hm Hmu Hd. destruct (sol_binop_claim e g class m fuel n r d Hc Hm Hmu Hd)
    as (op & op' & _ & Ho & _ & Hin & Hne & Hf & _).
  eexists. split; [eapply so_binary; eauto|]. eexists. split; [reflexivity|exact Hf].
Qed.

Lemma sol_assign_listed e fuel n r d : sol_supported (Generic Assignment) n ->
  sol_assign_mutate e fuel n r = Ok d -> listed n (Generic Assignment) (md_node d).
Proof.
  intros Hsup H. unfold sol_assign_mutate in H.
  destruct (sol_assign_type n) as [ts|] eqn:Ets; [|discriminate H].
  destruct (oget n "rightHandSide") as [rhs|] eqn:Er; [|discriminate H].
  destruct (e_pp e rhs) as [s1| | |]; cbn [bind] in H; try discriminate H.
  destruct (sol_assign_value ts r) as [[[v b] r1]| | |] eqn:Ev; cbn [bind] in H; try discriminate H.
  assert (G : exists v' P, v = Some v' /\ P v' /\ sol_outcome n (Generic Assignment) (gets "rightHandSide" P n)).
  { destruct Hsup as [Hty|[(k & Hk & Hty)|(k & Hk & Hty)]]; pose proof (proj2 (sol_assign_type_spec _ _) Hty) as Hty';
      rewrite Ets in Hty'; apply some_inj in Hty'; subst ts.
    - rewrite (rng_eta r), sol_bool_value in Ev. injection Ev as <- _ _.
      eexists _, _. split; [reflexivity|]. split; [apply (sol_bool_literal_node false)|]. now apply so_bool.
    - rewrite sol_uint_value in Ev by exact Hk. destruct (gen_range _ _ r) as [[z r2]| | |] eqn:Eg; cbn [bind] in Ev; try discriminate Ev.
      injection Ev as <- _ _. apply gen_range_bounds in Eg.
      eexists _, _. split; [reflexivity|]. split; [apply (sol_number_literal_node z)|]. eapply so_uint; eauto.
    - rewrite sol_int_value in Ev by exact Hk. destruct (gen_range _ _ r) as [[z r2]| | |] eqn:Eg; cbn [bind] in Ev; try discriminate Ev.
      injection Ev as <- _ _. apply gen_range_bounds in Eg.
      eexists _, _. split; [reflexivity|]. split; [apply (sol_number_literal_node z)|]. eapply so_int; eauto. }
  destruct G as (v' & P & -> & HP & Ho).
  destruct (oget (set_key n "rightHandSide" v') "rightHandSide"); [|discriminate H].
  destruct (e_pp e j) as [s2| | |]; cbn [bind] in H; try discriminate H. injection H as <-.
  eexists. split; [exact Ho|]. exists v'. split; [exact HP|]. eapply field_set; [plain|exact Er].
Qed.

Lemma sol_int_listed e fuel n r d : sol_supported (Generic Integer) n ->
  sol_int_mutate e fuel n r = Ok d -> listed n (Generic Integer) (md_node d).
Proof.
  intros (k & Hk & Hv) H. unfold sol_int_mutate in H.
  destruct (next_mod 3 r) as [[w r1]| | |] eqn:En; cbn [bind] in H; try discriminate H. apply next_mod_lt in En.
  rewrite (proj2 (get_str_Some n "value" (show_N k) eq_refl) Hv) in H.
  assert (Hs : forall dd, (dd = 1 \/ dd = -1)%Z -> sol_int_shift (e_oc e) (show_N k) dd = Ok (show_Z (Z.of_N k + dd))).
  { intros dd Hd. unfold sol_int_shift. rewrite parse_i64_show by lia. unfold i64_add.
    assert (Hin : in_i64 (Z.of_N k + dd) = true) by (apply VyFacts.in_i64_spec; lia). rewrite Hin. reflexivity. }
  assert (Hw : w = 0%N \/ w = 1%N \/ w = 2%N) by lia. destruct Hw as [->|[->| ->]].
  - change (N.eqb 0 0) with true in H. cbv iota in H. rewrite Hs in H by auto. cbn [bind] in H. injection H as <-.
    eexists. split; [eapply so_int_more; eauto|]. eexists. split; [reflexivity|]. cbn [md_node done].
    replace (Z.of_N k + 1)%Z with (Z.of_N (k + 1)) by lia. rewrite show_Z_of_N. eapply field_set; [plain|exact Hv].
  - change (N.eqb 1 0) with false in H. cbv iota in H. rewrite Hs in H by auto. cbn [bind] in H. injection H as <-.
    eexists. split; [eapply so_int_less; eauto|]. eexists. split; [reflexivity|]. eapply field_set; [plain|exact Hv].
  - unfold next_u64 in H. destruct (draw r1) as [x r2]. cbn [bind] in H. injection H as <-.
    eexists. split; [eapply (so_int_any n (x mod 2 ^ 64))|].
    + apply N.mod_lt. vm_compute. discriminate.
    + eexists. split; [reflexivity|]. eapply field_set; [plain|exact Hv].
Qed.

Lemma sol_swapargs_listed e fuel n r d :
  sol_swapargs_mutate e fuel n r = Ok d -> listed n (Generic SwapFunctionArguments) (md_node d).
Proof.
  unfold sol_swapargs_mutate. intros H.
  destruct (take_key n "arguments") as [[v n0]|] eqn:Ek; [|discriminate H].
  destruct v as [| | | |l|]; try discriminate H.
  destruct (random_index _ r) as [[k r1]| | |] eqn:Er; cbn [bind] in H; try discriminate H.
  destruct (vec_get _ k) as [g| | |] eqn:Eg; cbn [bind] in H; try discriminate H.
  destruct (vec_get g 0) as [[i x]| | |] eqn:E1; cbn [bind] in H; try discriminate H.
  destruct (vec_get g 1) as [[j y]| | |] eqn:E2; cbn [bind] in H; try discriminate H.
  destruct (e_pp e x) as [s1| | |]; cbn [bind] in H; try discriminate H.
  destruct (e_pp e y) as [s2| | |]; cbn [bind] in H; try discriminate H.
  injection H as <-. apply vec_get_ok in Eg, E1, E2. apply nth_error_In in Eg. unfold big_groups in Eg.
  apply in_flat_map in Eg. destruct Eg as (t & _ & Hg).
  pose proof (arg_groups_typed l t 0 []) as HG. simpl in HG. fold (arg_groups l) in HG.
  destruct (assoc t (arg_groups l)) as [g'|] eqn:Ea; [|destruct Hg].
  destruct (Nat.leb 2 (length g')); [|destruct Hg]. destruct Hg as [->|[]]. subst g.
  destruct (proj1 (first_two_typed t l i j x y) (conj E1 E2)) as (Hft & Hx & Hy).
  assert (Li : i < length l) by (apply nth_error_Some; congruence).
  assert (Lj : j < length l) by (apply nth_error_Some; congruence).
  eexists. split; [eapply so_swapargs; [eapply take_arr; [plain|exact Ek]|exact Hft]|].
  exists (replace_at j x (replace_at i y l)). split; [apply exchanged_replace; auto; destruct Hft; lia|].
  cbn [md_node done]. rewrite (vec_put_replace i) by exact Li. rewrite vec_put_replace by (rewrite length_replace_at; exact Lj).
  eapply field_take_set; [plain|exact Ek].
Qed.

Lemma sol_only e t m fuel n r d :
  sol_crash_free t n -> sol_mutator_for e t = Some m -> mu_mutable m n = Ok true ->
  mu_mutate m fuel n r = Ok d -> exists P, sol_outcome n t P /\ P (md_node d).
Proof.
  intros Hcf Hm Hmu Hd. change (listed n t (md_node d)).
  destruct t as [g|so]; [destruct g|destruct so]; try (eapply sol_binop_only; eauto; reflexivity).
  - injection Hm as <-. exact (sol_assign_listed e fuel n r d Hcf Hd).
  - injection Hm as <-. destruct (sol_delete_fact e fuel n r d Hmu Hd) as (l & l' & i & x & c & _ & Hl & Hi & Hx & Hc & Hs & Hf).
    eexists. split; [eapply so_delete; eauto|]. exists c, l'. auto.
  - injection Hm as <-. destruct (sol_call_fact e fuel n r d Hmu Hd) as (l & _ & Hl & Hin & Hx).
    eexists. split; [eapply so_call; eauto|reflexivity].
  - injection Hm as <-. destruct (sol_if_fact e fuel n r d Hmu Hd) as (c & c' & _ & Hc & [Hx|[Hx|Hx]] & Hf).
    + eexists. split; [apply (so_if_const n true)|]. exists c'. auto.
    + eexists. split; [apply (so_if_const n false)|]. exists c'. auto.
    + eexists. split; [eapply so_if_not; eauto|]. exists c'. auto.
  - injection Hm as <-. exact (sol_int_listed e fuel n r d Hcf Hd).
  - injection Hm as <-. exact (sol_swapargs_listed e fuel n r d Hd).
  - injection Hm as <-. destruct (sol_swapop_fact e fuel n r d Hmu Hd) as (op & a & b & _ & _ & _ & Ha & Hb & Hf).
    eexists. split; [eapply so_swapop; eauto|exact Hf].
  - injection Hm as <-. destruct (sol_swaplines_fact e fuel n r d Hmu Hd) as (l & l' & i & j & _ & Hl & Hex & Hnr & Hf).
    pose proof Hex as (Hij & Li & Lj & _).
    destruct (nth_error l i) as [x|] eqn:Ex; [|apply nth_error_None in Ex; lia].
    destruct (nth_error l j) as [y|] eqn:Ey; [|apply nth_error_None in Ey; lia].
    eexists. split; [eapply so_swaplines; eauto|]. exists l'. auto.
  - injection Hm as <-. destruct (sol_unary_fact e fuel n r d Hmu Hd) as (p & op & op' & _ & Hp & Ho & _ & Hin & Hne & Hf).
    eexists. split; [eapply so_unary; eauto|]. eexists. split; [reflexivity|exact Hf].
  - injection Hm as <-. destruct (sol_require_fact e fuel n r d Hmu Hd) as (arg & rest & f & c & _ & _ & _ & Ha & Hn & Hf).
    eexists. split; [eapply so_require; [exact Ha|reflexivity]|]. exists c, (c :: rest). split; [exact Hn|]. split; [|exact Hf].
    exact (slot_replace 0 c (arg :: rest) (Nat.lt_0_succ _)).
  - injection Hm as <-. destruct (sol_unchecked_fact e fuel n r d Hmu Hd) as (l & l' & i & x & u & _ & Hl & Hi & Hx & Hy & Hu & Hs & Hf).
    eexists. split; [eapply so_unchecked; eauto|]. exists u, l'. auto.
  - injection Hm as <-. destruct (sol_delegate_fact e fuel n r d Hmu Hd) as (_ & _ & Hf).
    eexists. split; [apply so_delegate|]. eexists. split; [reflexivity|exact Hf].
Qed.

(** ** What never comes out *)
Lemma field_becomes_field k v n n' : field_becomes k v n n' -> has_field n' k v.
Proof. intros (o & o' & -> & -> & _ & _ & H & _). exact H. Qed.

Lemma gets_inv k Q n n' : gets k Q n n' -> exists v, has_field n' k v /\ Q v.
Proof. intros (v & HQ & Hf). exists v. split; [now apply field_becomes_field in Hf|exact HQ]. Qed.

Lemma sol_type_unique n t t' : sol_type_of n t -> sol_type_of n t' -> t = t'.
Proof. intros H H'. apply sol_assign_type_spec in H, H'. congruence. Qed.

Lemma sol_literal_unique z z' v : sol_number_literal z v -> sol_number_literal z' v -> z = z'.
Proof. unfold sol_number_literal, has_field. intros (_ & _ & H) (_ & _ & H'). apply show_Z_inj. congruence. Qed.

Lemma show_N_inj a b : show_N a = show_N b -> a = b.
Proof. intros H. apply (f_equal parse_digits) in H. rewrite !parse_show in H. congruence. Qed.

Lemma sol_bool_never e m n : sol_mutator_for e (Generic Assignment) = Some m -> mu_mutable m n = Ok true ->
  sol_type_of n "bool" -> never_gives m n (gets "rightHandSide" (sol_bool_literal true) n).
Proof.
  intros Hm Hmu Hty r fuel d Hd Hg.
  assert (Hcf : sol_crash_free (Generic Assignment) n) by (left; exact Hty).
  destruct (sol_only e _ m fuel n r d Hcf Hm Hmu Hd) as (P & Ho & HP).
  apply gets_inv in Hg. destruct Hg as (v & Hv & _ & Hk & Hval). unfold has_field in *.
  inversion Ho as [|g|H|k z Hk0 Ht Hz|k z Hk0 Ht Hz| | | | | | | | | | | | | ]; subst; try discriminate.
  - apply gets_inv in HP. destruct HP as (w & Hw & _ & _ & Hval'). unfold has_field in *. congruence.
  - pose proof (sol_type_unique _ _ _ Hty Ht) as X. discriminate X.
  - pose proof (sol_type_unique _ _ _ Hty Ht) as X. discriminate X.
Qed.

Lemma sol_uint_never e m n k z : sol_mutator_for e (Generic Assignment) = Some m -> mu_mutable m n = Ok true ->
  (0 < k <= 256)%N -> sol_type_of n ("uint" ++ show_N k) -> ~ (0 <= z < 2 ^ Z.of_N (N.min k 128) - 1)%Z ->
  never_gives m n (gets "rightHandSide" (sol_number_literal z) n).
Proof.
  intros Hm Hmu Hk Hty Hz r fuel d Hd Hg.
  assert (Hcf : sol_crash_free (Generic Assignment) n) by (right; left; eauto).
  destruct (sol_only e _ m fuel n r d Hcf Hm Hmu Hd) as (P & Ho & HP).
  apply gets_inv in Hg. destruct Hg as (v & Hv & Hlit). unfold has_field in Hv.
  inversion Ho as [|g|H|k' z' Hk0 Ht Hz'|k' z' Hk0 Ht Hz'| | | | | | | | | | | | | ]; subst; try discriminate.
  - pose proof (sol_type_unique _ _ _ Hty H) as X. discriminate X.
  - pose proof (sol_type_unique _ _ _ Hty Ht) as X. injection X as X. apply show_N_inj in X. subst k'.
    apply gets_inv in HP. destruct HP as (w & Hw & Hl). unfold has_field in Hw.
    assert (w = v) by congruence. subst w. pose proof (sol_literal_unique _ _ _ Hlit Hl). subst z'. lia.
  - pose proof (sol_type_unique _ _ _ Hty Ht) as X. discriminate X.
Qed.

(** Only the first two arguments of a type are ever exchanged. *)
Lemma exchanged_same {A} i j i' j' (l l' : list A) : NoDup l ->
  exchanged i j l l' -> exchanged i' j' l l' -> i < j -> i' < j' -> i = i' /\ j = j'.
Proof.
  intros Hnd (H1 & H2 & H3 & H4 & H5 & H6 & H7) (K1 & K2 & K3 & K4 & K5 & K6 & K7) Hij Hij'.
  assert (Hd : forall p q, p < length l -> nth_error l p = nth_error l q -> p = q).
  { intros p q Hp E. eapply NoDup_nth_error; eauto. }
  assert (Hi : i = i' \/ i = j').
  { destruct (Nat.eq_dec i i') as [|N1]; [auto|]. destruct (Nat.eq_dec i j') as [|N2]; [auto|]. exfalso.
    rewrite (K7 i N1 N2) in H5. apply Hd in H5; lia. }
  assert (Hj : j = i' \/ j = j').
  { destruct (Nat.eq_dec j i') as [|N1]; [auto|]. destruct (Nat.eq_dec j j') as [|N2]; [auto|]. exfalso.
    rewrite (K7 j N1 N2) in H6. apply Hd in H6; lia. }
  lia.
Qed.

Lemma sol_swapargs_pair e m n l i j r fuel d : sol_mutator_for e (Generic SwapFunctionArguments) = Some m ->
  mu_mutable m n = Ok true -> has_field n "arguments" (JArr l) -> NoDup l -> i < j ->
  mu_mutate m fuel n r = Ok d -> gets_swapped "arguments" l i j n (md_node d) -> exists t, first_two t l i j.
Proof.
  intros Hm Hmu Hl Hnd Hij Hd (l' & Hex & Hf).
  destruct (sol_only e (Generic SwapFunctionArguments) m fuel n r d I Hm Hmu Hd) as (P & Ho & HP).
  inversion Ho as [g ? ? ? Hcl| | | | | | |l0 t i' j' Hl0 Hft| | | | | | | | | | ]; subst; try discriminate.
  unfold has_field in Hl, Hl0. assert (l0 = l) by congruence. subst l0.
  destruct HP as (l'' & Hex' & Hf'). apply field_becomes_field in Hf, Hf'. unfold has_field in Hf, Hf'.
  assert (l'' = l') by congruence. subst l''.
  destruct (exchanged_same i j i' j' l l' Hnd Hex Hex' Hij (proj1 Hft)) as (-> & ->). eauto.
Qed.
