(** The operators read the random stream forward and never change it. *)
From Coq Require Import String Ascii List Bool NArith ZArith Arith.
From Verif Require Import Base Json Rng MutationType Traverse OpCommon SolMutators VyMutators.
Import ListNotations.
Open Scope list_scope.
Open Scope string_scope.

Definition kept {A} (f : A -> rng) (r : rng) (x : res A) : Prop :=
  forall a, x = Ok a -> rstream (f a) = rstream r.

Lemma kept_bind {A B} (f : A -> rng) (g : B -> rng) r (x : res A) (k : A -> res B) :
  kept f r x -> (forall a, rstream (f a) = rstream r -> kept g r (k a)) -> kept g r (bind x k).
Proof. intros Hx Hk b H. destruct x as [a| | |]; try discriminate. exact (Hk a (Hx a eq_refl) b H). Qed.

Lemma kept_skip {A B} (g : B -> rng) r (x : res A) (k : A -> res B) :
  (forall a, kept g r (k a)) -> kept g r (bind x k).
Proof. intros Hk b H. destruct x as [a| | |]; try discriminate. exact (Hk a b H). Qed.

Lemma kept_ok {A} (f : A -> rng) r a : rstream (f a) = rstream r -> kept f r (Ok a).
Proof. intros H b E. injection E as <-. exact H. Qed.
Lemma kept_err {A} (f : A -> rng) r e : kept f r (Err e). Proof. intros a H. discriminate. Qed.
Lemma kept_panic {A} (f : A -> rng) r e : kept f r (Panic e). Proof. intros a H. discriminate. Qed.
Lemma kept_diverge {A} (f : A -> rng) r : kept f r Diverge. Proof. intros a H. discriminate. Qed.

Lemma kept_from {A} (f : A -> rng) r r' x : rstream r' = rstream r -> kept f r' x -> kept f r x.
Proof. intros E H a Ha. rewrite <- E. now apply H. Qed.

Lemma next_mod_kept n r : kept snd r (next_mod n r).
Proof. unfold next_mod. destruct n; [apply kept_panic|]. apply kept_ok. reflexivity. Qed.
Lemma random_index_kept n r : kept snd r (random_index n r).
Proof. unfold random_index. apply (kept_bind snd); [apply next_mod_kept|]. intros (i, r') H. now apply kept_ok. Qed.
Lemma gen_range_kept lo hi r : kept snd r (gen_range lo hi r).
Proof. unfold gen_range. destruct (lo <? hi)%Z; [|apply kept_panic]. apply kept_ok. reflexivity. Qed.
Lemma choose_or_kept {A} e (l : list A) r : kept snd r (choose_or e l r).
Proof.
  unfold choose_or, choose. destruct l as [|x l]; [apply kept_err|]. cbn [draw].
  destruct (nth_error _ _); [apply kept_ok; reflexivity|apply kept_err].
Qed.
Lemma pick_until_kept {A} (next : rng -> res (A * rng)) bad fuel : (forall r, kept snd r (next r)) ->
  forall r, kept snd r (pick_until fuel next bad r).
Proof.
  intros Hn. induction fuel as [|fuel IH]; intros r; [apply kept_diverge|]. cbn [pick_until].
  apply (kept_bind snd); [apply Hn|]. intros (a, r') H. destruct (bad a).
  - apply (kept_from _ _ _ _ H). apply IH.
  - now apply kept_ok.
Qed.

Ltac kept_step :=
  match goal with
  | |- kept _ ?r (bind (pick_until _ (random_index _) _ ?r') _) =>
      apply (kept_bind snd); [apply (kept_from _ r r'); [solve [congruence|assumption]|apply pick_until_kept; intros; apply random_index_kept]|intros [? ?] ?; cbn [snd] in *]
  | |- kept _ ?r (bind (pick_until _ (choose_or _ _) _ ?r') _) =>
      apply (kept_bind snd); [apply (kept_from _ r r'); [solve [congruence|assumption]|apply pick_until_kept; intros; apply choose_or_kept]|intros [? ?] ?; cbn [snd] in *]
  | |- kept _ ?r (bind (next_mod _ ?r') _) =>
      apply (kept_bind snd); [apply (kept_from _ r r'); [solve [congruence|assumption]|apply next_mod_kept]|intros [? ?] ?; cbn [snd] in *]
  | |- kept _ ?r (bind (random_index _ ?r') _) =>
      apply (kept_bind snd); [apply (kept_from _ r r'); [solve [congruence|assumption]|apply random_index_kept]|intros [? ?] ?; cbn [snd] in *]
  | |- kept _ ?r (bind (gen_range _ _ ?r') _) =>
      apply (kept_bind snd); [apply (kept_from _ r r'); [solve [congruence|assumption]|apply gen_range_kept]|intros [? ?] ?; cbn [snd] in *]
  | |- kept _ _ (bind (e_pp _ _) _) => apply kept_skip; intros ?
  | |- kept _ _ (bind (vec_get _ _) _) => apply kept_skip; intros ?
  | |- kept _ _ (bind (vec_swap _ _ _) _) => apply kept_skip; intros [[? ?] ?]
  | |- kept _ _ (bind (i64_add _ _ _) _) => apply kept_skip; intros ?
  | |- kept _ _ (bind (sol_int_shift _ _ _) _) => apply kept_skip; intros ?
  | |- kept _ _ (bind (slice_to _ _) _) => apply kept_skip; intros ?
  | |- kept _ _ (bind (slice_from _ _) _) => apply kept_skip; intros ?
  | |- kept _ _ (bind (vy_swapop_edit _ _ _) _) => apply kept_skip; intros [[? ?] ?]
  | |- kept _ _ (Ok _) => apply kept_ok; cbn [snd fst md_rng done] in *; solve [reflexivity|assumption|congruence]
  | |- kept _ _ (Err _) => apply kept_err
  | |- kept _ _ (Panic _) => apply kept_panic
  | |- kept _ _ Diverge => apply kept_diverge
  | |- kept _ _ (let (_, _) := ?x in _) => destruct x
  | |- kept _ _ (match ?x with _ => _ end) => destruct x
  end.

Lemma sol_assign_value_kept ts r : kept snd r (sol_assign_value ts r).
Proof. unfold sol_assign_value. repeat kept_step. Qed.
Lemma vy_assign_value_kept e r : kept snd r (vy_assign_value e r).
Proof. unfold vy_assign_value. repeat (cbn [draw]; kept_step). Qed.
Lemma vy_delete_filler_kept n r : kept snd r (vy_delete_filler n r).
Proof. unfold vy_delete_filler, next_u64, draw. repeat kept_step. Qed.

Ltac kept_all := repeat first
  [ kept_step
  | apply (kept_bind snd); [|intros [[[? ?] ?] ?] ?; cbn [snd] in *]
  | apply (kept_bind snd); [|intros [[? ?] ?] ?; cbn [snd] in *]
  | apply (kept_bind snd); [|intros [? ?] ?; cbn [snd] in *] ].

Lemma sol_kept e t m fuel n r : sol_mutator_for e t = Some m -> kept md_rng r (mu_mutate m fuel n r).
Proof.
  destruct t as [[]|[]]; intros H; injection H as <-;
    cbn [mu_mutate sol_binop sol_assign sol_delete sol_call sol_swapargs sol_if sol_int sol_swapop sol_swaplines
         sol_unary sol_require sol_unchecked sol_delegate];
    unfold sol_binop_mutate, sol_assign_mutate, sol_delete_mutate, sol_call_mutate, sol_swapargs_mutate, sol_if_mutate,
      sol_int_mutate, sol_swapop_mutate, sol_swaplines_mutate, sol_unary_mutate, sol_require_mutate,
      sol_unchecked_mutate, sol_delegate_mutate, next_u64, draw; cbv zeta.
  all: try (kept_all; fail).
  - repeat kept_step. apply (kept_bind snd); [apply sol_assign_value_kept|]. intros [[? ?] ?] ?. kept_all.
Qed.

Lemma vy_kept e t m fuel n r : vy_mutator_for e t = Some m -> kept md_rng r (mu_mutate m fuel n r).
Proof.
  destruct t as [[]|[]]; intros H; try discriminate; injection H as <-;
    cbn [mu_mutate vy_binop vy_assign vy_delete vy_call vy_swapargs vy_if vy_int vy_swapop vy_swaplines vy_unary];
    unfold vy_binop_mutate, vy_assign_mutate, vy_delete_mutate, vy_call_mutate, vy_swapargs_mutate, vy_if_mutate,
      vy_int_mutate, vy_swapop_mutate, vy_swaplines_mutate, vy_unary_mutate, next_u64, draw; cbv zeta.
  all: try (kept_all; fail).
  - repeat kept_step. apply (kept_bind snd); [apply vy_assign_value_kept|]. intros [[? ?] ?] ?. kept_all.
  - destruct (take_key n "body") as [[[] n0]|]; try apply kept_err. kept_step. kept_step.
    apply (kept_bind snd); [|intros [[? ?] ?] ?; kept_all].
    destruct (Nat.eqb _ 1); [|kept_all]. apply (kept_bind snd); [|intros [[? ?] ?] ?; kept_all].
    eapply kept_from; [eassumption|apply vy_delete_filler_kept].
Qed.
