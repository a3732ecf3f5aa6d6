(** The operator lemmas in the form in which the properties state them. *)
From Coq Require Import String List NArith ZArith Bool Permutation Lia Arith.
From Verif Require Import Base Json Rng MutationType Traverse OpCommon SolMutators VyMutators
  SpecOps SpecTotal SpecAccept SpecClaims JsonFacts OpFacts SolFacts VyFacts OpTotal OpTotalVy OpSafe AcceptFacts OpProps
  Samples.
Import ListNotations.
Open Scope list_scope.
Open Scope string_scope.

Ltac the_mutator :=
  match goal with
  | H : sol_mutator_for _ _ = Some _ |- _ => injection H as <-
  | H : vy_mutator_for _ _ = Some _ |- _ => injection H as <-
  end; cbn [mu_mutable mu_mutate sol_binop sol_unary sol_assign sol_delete sol_call sol_swapargs sol_if sol_int
    sol_swapop sol_swaplines sol_require sol_unchecked sol_delegate vy_binop vy_unary vy_assign vy_delete vy_call
    vy_swapargs vy_if vy_int vy_swapop vy_swaplines] in *.

(** ** C12, C13 *)
Lemma sol_binop_claim e g class m fuel n r d :
  sol_class g = Some class -> sol_mutator_for e (Generic g) = Some m ->
  mu_mutable m n = Ok true -> mu_mutate m fuel n r = Ok d ->
  exists op op', is_sol "BinaryOperation" n /\ has_field n "operator" (JStr op) /\
    In op class /\ In op' class /\ op' <> op /\
    field_becomes "operator" (JStr op') n (md_node d) /\
    md_comment d = Some (sol_comment (show_mt (Generic g) ++ " Mutator: changed '" ++ op ++ "' to '" ++ op' ++ "'")).
Proof.
  intros Hc Hm Ha Hr.
  assert (G : forall ops, (forall s, In s ops -> In s class) ->
      m = sol_binop e (Generic g) ops -> exists op op', is_sol "BinaryOperation" n /\ has_field n "operator" (JStr op) /\
    In op class /\ In op' class /\ op' <> op /\
    field_becomes "operator" (JStr op') n (md_node d) /\
    md_comment d = Some (sol_comment (show_mt (Generic g) ++ " Mutator: changed '" ++ op ++ "' to '" ++ op' ++ "'"))).
  { intros ops Hsub ->. destruct (sol_binop_fact _ _ _ _ _ _ _ Ha Hr) as (op & op' & A & B & C & D & E & F & _ & K).
    exists op, op'. repeat split; auto. }
  destruct g; try discriminate; injection Hc as <-; injection Hm as Hm; symmetry in Hm;
    (eapply G; [|exact Hm]); simpl; tauto.
Qed.

Lemma sol_unary_claim e m fuel n r d :
  sol_mutator_for e (Generic UnaryOp) = Some m -> mu_mutable m n = Ok true -> mu_mutate m fuel n r = Ok d ->
  exists p op op', is_sol "UnaryOperation" n /\ has_field n "prefix" (JBool p) /\
    has_field n "operator" (JStr op) /\
    In op (if p then prefix_ops else postfix_ops) /\ In op' (if p then prefix_ops else postfix_ops) /\
    op' <> op /\ field_becomes "operator" (JStr op') n (md_node d).
Proof. intros; the_mutator. eapply sol_unary_fact; eauto. Qed.

(** ** C14 *)
Lemma vy_binop_claim e g class m fuel n r d :
  vy_class g = Some class -> vy_mutator_for e (Generic g) = Some m ->
  mu_mutable m n = Ok true -> mu_mutate m fuel n r = Ok d ->
  exists op op' old new,
    (is_vy "BinOp" n \/ is_vy "BoolOp" n \/ is_vy "Compare" n) /\
    has_field n "op" op /\ is_vy old op /\ In old class /\ In new class /\ new <> old /\
    field_becomes "ast_type" (JStr new) op op' /\ field_becomes "op" op' n (md_node d).
Proof.
  intros Hc Hm Ha Hr. destruct g; try discriminate; injection Hc as <-; injection Hm as <-;
    (eapply vy_binop_fact; [|exact Ha|exact Hr]); apply class_by_cases; reflexivity.
Qed.

(** ** C15 *)
Lemma sol_assign_claim e m fuel n r d :
  sol_mutator_for e (Generic Assignment) = Some m -> mu_mutable m n = Ok true -> mu_mutate m fuel n r = Ok d ->
  exists v, field_becomes "rightHandSide" v n (md_node d) /\
    ((exists z, sol_number_literal z v) \/ (exists b, sol_bool_literal b v /\ sol_type_of n "bool")) /\
    (forall ts lo hi, sol_type_of n ts -> sol_int_type ts lo hi ->
       exists z, (lo <= z <= hi)%Z /\ sol_number_literal z v).
Proof.
  intros; the_mutator. destruct (sol_assign_only _ _ _ _ _ H0 H1) as (v & A & B). exists v. split; [exact A|].
  split; [exact B|]. intros ts lo hi Ht Hi.
  destruct (sol_assign_fact _ _ _ _ _ _ _ _ H0 H1 Ht Hi) as (z & v' & Hz & Hl & Hf). exists z. split; [exact Hz|].
  replace v with v'; [exact Hl|].
  destruct A as (o & o1 & _ & E1 & _ & _ & A1 & _), Hf as (o' & o1' & _ & E2 & _ & _ & A2 & _). congruence.
Qed.

Lemma vy_assign_claim e m fuel n r d :
  vy_mutator_for e (Generic Assignment) = Some m -> mu_mutable m n = Ok true -> mu_mutate m fuel n r = Ok d ->
  exists v, is_vy "Assign" n /\ field_becomes "value" v n (md_node d) /\
    (is_vy "Int" v \/ is_vy "NameConstant" v \/ is_vy "Decimal" v).
Proof. intros; the_mutator. eapply vy_assign_fact; eauto. Qed.

(** ** C18 - C20 *)
Lemma sol_delete_claim e m fuel n r d :
  sol_mutator_for e (Generic DeleteStatement) = Some m -> mu_mutable m n = Ok true -> mu_mutate m fuel n r = Ok d ->
  exists l l' i x c, is_sol "Block" n /\ has_field n "statements" (JArr l) /\
    nth_error l i = Some x /\ is_sol "ExpressionStatement" x /\ sol_commented x c /\
    slot_becomes i c l l' /\ field_becomes "statements" (JArr l') n (md_node d).
Proof. intros; the_mutator. eapply sol_delete_fact; eauto. Qed.

Lemma vy_delete_claim e m fuel n r d :
  vy_mutator_for e (Generic DeleteStatement) = Some m -> mu_mutable m n = Ok true -> mu_mutate m fuel n r = Ok d ->
  exists l l1 more i x c,
    (is_vy "FunctionDef" n \/ is_vy "For" n \/ is_vy "If" n \/ is_vy "Module" n) /\
    has_field n "body" (JArr l) /\ nth_error l i = Some x /\ vy_commented x c /\
    slot_becomes i c l l1 /\ field_becomes "body" (JArr (List.app l1 more)) n (md_node d) /\
    (1 < length l -> more = []) /\
    (more = [] \/ exists m, more = [m] /\ (is_vy "Pass" m \/ is_vy "Return" m)).
Proof. intros; the_mutator. eapply vy_delete_fact; eauto. Qed.

Lemma sol_call_claim e m fuel n r d :
  sol_mutator_for e (Generic FunctionCall) = Some m -> mu_mutable m n = Ok true -> mu_mutate m fuel n r = Ok d ->
  exists l, is_sol "FunctionCall" n /\ has_field n "arguments" (JArr l) /\
    In (md_node d) l /\ ~ is_sol "Literal" (md_node d).
Proof. intros; the_mutator. eapply sol_call_fact; eauto. Qed.

Lemma vy_call_claim e m fuel n r d :
  vy_mutator_for e (Generic FunctionCall) = Some m -> mu_mutable m n = Ok true -> mu_mutate m fuel n r = Ok d ->
  exists l, is_vy "Call" n /\ has_field n "args" (JArr l) /\ In (md_node d) l.
Proof. intros; the_mutator. eapply vy_call_fact; eauto. Qed.

Lemma sol_swapargs_claim e m fuel n r d :
  sol_mutator_for e (Generic SwapFunctionArguments) = Some m -> mu_mutable m n = Ok true ->
  mu_mutate m fuel n r = Ok d ->
  exists l l' i j x y t, is_sol "FunctionCall" n /\ has_field n "arguments" (JArr l) /\
    nth_error l i = Some x /\ nth_error l j = Some y /\ sol_type_of x t /\ sol_type_of y t /\
    exchanged i j l l' /\ Permutation l l' /\ field_becomes "arguments" (JArr l') n (md_node d).
Proof.
  intros; the_mutator. destruct (sol_swapargs_fact _ _ _ _ _ H0 H1) as (l & l' & i & j & x & y & t & A).
  exists l, l', i, j, x, y, t. intuition. eapply exchanged_permutation; eauto.
Qed.

Lemma vy_swapargs_claim e m fuel n r d :
  vy_mutator_for e (Generic SwapFunctionArguments) = Some m -> mu_mutable m n = Ok true ->
  mu_mutate m fuel n r = Ok d ->
  exists l l' i j, is_vy "Call" n /\ has_field n "args" (JArr l) /\
    exchanged i j l l' /\ Permutation l l' /\ field_becomes "args" (JArr l') n (md_node d).
Proof.
  intros; the_mutator. destruct (vy_swapargs_fact _ _ _ _ _ H0 H1) as (l & l' & i & j & A).
  exists l, l', i, j. intuition. eapply exchanged_permutation; eauto.
Qed.

(** ** C22 *)
Lemma sol_if_claim e m fuel n r d :
  sol_mutator_for e (Generic IfStatement) = Some m -> mu_mutable m n = Ok true -> mu_mutate m fuel n r = Ok d ->
  exists c c', is_sol "IfStatement" n /\ has_field n "condition" c /\
    (sol_bool_literal true c' \/ sol_bool_literal false c' \/ sol_negation c c') /\
    field_becomes "condition" c' n (md_node d).
Proof. intros; the_mutator. eapply sol_if_fact; eauto. Qed.

Lemma vy_if_claim e m fuel n r d :
  vy_mutator_for e (Generic IfStatement) = Some m -> mu_mutable m n = Ok true -> mu_mutate m fuel n r = Ok d ->
  exists c c', is_vy "If" n /\ has_field n "test" c /\
    (vy_bool_constant true c' \/ vy_bool_constant false c' \/ vy_negation c c') /\
    field_becomes "test" c' n (md_node d).
Proof. intros; the_mutator. eapply vy_if_fact; eauto. Qed.

(** ** C23 *)
Lemma sol_int_claim e m fuel n r d :
  sol_mutator_for e (Generic Integer) = Some m -> mu_mutable m n = Ok true -> mu_mutate m fuel n r = Ok d ->
  exists old new, is_sol "Literal" n /\ has_field n "kind" (JStr "number") /\
    has_field n "value" (JStr old) /\ field_becomes "value" (JStr new) n (md_node d) /\
    (first_draw r 3 <> 2%N -> new <> old) /\
    (first_draw r 3 = 2%N -> new = show_N (second_draw r)).
Proof.
  intros; the_mutator. destruct (sol_int_diff _ _ _ _ _ H0 H1) as (old & new & A & B & C & D & E).
  exists old, new. intuition congruence.
Qed.

Lemma vy_int_claim e m fuel n r d z :
  vy_mutator_for e (Generic Integer) = Some m -> mu_mutable m n = Ok true -> mu_mutate m fuel n r = Ok d ->
  has_field n "value" (jint z) -> (-9223372036854775808 <= z <= 9223372036854775807)%Z ->
  exists z', is_vy "Int" n /\ (-9223372036854775808 <= z' <= 9223372036854775807)%Z /\
    field_becomes "value" (jint z') n (md_node d) /\
    (first_draw r 3 <> 2%N -> z' <> z) /\
    (first_draw r 3 = 2%N -> (z' mod 2 ^ 64 = Z.of_N (second_draw r))%Z).
Proof.
  intros; the_mutator.
  assert (Hz : in_i64 z = true) by (unfold in_i64; apply andb_true_iff; split; [apply Z.leb_le|apply Z.ltb_lt]; lia).
  destruct (vy_int_diff _ _ _ _ _ _ H0 H1 H2 Hz) as (z' & A & B & C & D).
  exists z'. split; [exact A|]. split; [unfold in_i64 in B; apply andb_true_iff in B; destruct B as (B1 & B2);
    apply Z.leb_le in B1; apply Z.ltb_lt in B2; lia|]. split; [exact C|].
  split; [intuition congruence|]. intros Hd. destruct D as [(_ & ->)|(D & _)]; [|congruence].
  unfold u64_as_i64. assert (Hk : (second_draw r < 18446744073709551616)%N) by (unfold second_draw; apply N.mod_lt; discriminate).
  change (2 ^ 64)%Z with 18446744073709551616%Z.
  destruct (N.ltb_spec (second_draw r) 9223372036854775808).
  - apply Z.mod_small. lia.
  - rewrite <- (Z.mod_add _ 1) by discriminate. rewrite Z.mod_small; lia.
Qed.

(** ** C24 *)
Lemma sol_swapop_claim e m fuel n r d :
  sol_mutator_for e (Generic SwapOperatorArguments) = Some m ->
  wf n -> mu_mutable m n = Ok true -> mu_mutate m fuel n r = Ok d ->
  (exists op a b, is_sol "BinaryOperation" n /\ has_field n "operator" (JStr op) /\
    In op non_commutative /\ has_field n "leftExpression" a /\ has_field n "rightExpression" b /\
    two_fields_become "leftExpression" b "rightExpression" a n (md_node d)) /\
  mu_mutable m (md_node d) = Ok true /\
  (forall fuel' r' d', mu_mutate m fuel' (md_node d) r' = Ok d' -> md_node d' = n).
Proof.
  intros Hm Hw Ha Hr; the_mutator.
  destruct (sol_swapop_fact _ _ _ _ _ Ha Hr) as (op & a & b & A & B & C & D & E & F).
  split; [exists op, a, b; repeat split; auto|].
  split; [apply (sol_swapop_twice _ _ _ _ _ 0 r d Hw Ha Hr)|].
  intros fuel' r' d'. apply (sol_swapop_twice _ _ _ _ _ fuel' r' d' Hw Ha Hr).
Qed.

Lemma vy_swapop_claim e m fuel n r d a b :
  vy_mutator_for e (Generic SwapOperatorArguments) = Some m ->
  wf n -> has_field n "left" a -> has_field n "right" b ->
  (is_vy "BoolOp" n -> exists op, has_field n "op" op /\ (is_vy "And" op \/ is_vy "Or" op)) ->
  mu_mutable m n = Ok true -> mu_mutate m fuel n r = Ok d ->
  (is_vy "BinOp" n \/ is_vy "Compare" n) /\
  (exists op t, has_field n "op" op /\ is_vy t op /\ In t vy_non_commutative) /\
  two_fields_become "left" b "right" a n (md_node d) /\
  mu_mutable m (md_node d) = Ok true /\
  (forall fuel' r' d', mu_mutate m fuel' (md_node d) r' = Ok d' -> md_node d' = n).
Proof.
  intros Hm Hw Hl Hr' Hb Ha Hr.
  pose proof (proj1 (vy_accepts_iff _ _ _ _ Hm) Ha) as Hacc. cbn [vy_accepts] in Hacc.
  destruct Hacc as (_ & op & t & Ho & Ht & Hto).
  assert (Hnb : ~ is_vy "BoolOp" n).
  { intros Hbo. destruct (Hb Hbo) as (op' & Ho' & [H|H]); unfold is_vy, has_field in *;
      rewrite Ho in Ho'; injection Ho' as <-; rewrite Hto in H; injection H as ->;
      simpl in Ht; intuition discriminate. }
  the_mutator. destruct (vy_swapop_fact _ _ _ _ _ _ _ Ha Hr Hl Hr' Hnb) as (A & B).
  split; [exact A|]. split; [exists op, t; auto|]. split; [exact B|].
  split; [apply (vy_swapop_twice _ _ _ _ _ 0 r d _ _ Hw Ha Hr Hl Hr' Hnb)|].
  intros fuel' r' d'. apply (vy_swapop_twice _ _ _ _ _ fuel' r' d' _ _ Hw Ha Hr Hl Hr' Hnb).
Qed.

(** ** C25 *)
Lemma sol_swaplines_claim e m fuel n r d :
  sol_mutator_for e (Generic SwapLines) = Some m -> mu_mutable m n = Ok true -> mu_mutate m fuel n r = Ok d ->
  exists l l' i j, is_sol "Block" n /\ has_field n "statements" (JArr l) /\
    exchanged i j l l' /\ Permutation l l' /\
    (forall k x, is_sol "Return" x -> (nth_error l k = Some x <-> nth_error l' k = Some x)) /\
    field_becomes "statements" (JArr l') n (md_node d).
Proof.
  intros; the_mutator. destruct (sol_swaplines_fact _ _ _ _ _ H0 H1) as (l & l' & i & j & A & B & C & D & E).
  exists l, l', i, j. split; [exact A|]. split; [exact B|]. split; [exact C|].
  split; [eapply exchanged_permutation; eauto|]. split; [|exact E].
  apply (exchanged_keeps (is_sol "Return") _ _ _ _ C D).
Qed.

Lemma vy_swaplines_claim e m fuel n r d :
  vy_mutator_for e (Generic SwapLines) = Some m -> mu_mutable m n = Ok true -> mu_mutate m fuel n r = Ok d ->
  exists l l' i j, (is_vy "FunctionDef" n \/ is_vy "For" n \/ is_vy "If" n) /\
    has_field n "body" (JArr l) /\ exchanged i j l l' /\ Permutation l l' /\
    (forall k x, is_vy "Return" x -> (nth_error l k = Some x <-> nth_error l' k = Some x)) /\
    field_becomes "body" (JArr l') n (md_node d).
Proof.
  intros; the_mutator. destruct (vy_swaplines_fact _ _ _ _ _ H0 H1) as (l & l' & i & j & A & B & C & D & E).
  exists l, l', i, j. split; [exact A|]. split; [exact B|]. split; [exact C|].
  split; [eapply exchanged_permutation; eauto|]. split; [|exact E].
  apply (exchanged_keeps (is_vy "Return") _ _ _ _ C D).
Qed.

(** ** C26 - C28, C57 *)
Lemma sol_require_claim e m fuel n r d :
  sol_mutator_for e (Solidity Require) = Some m -> mu_mutable m n = Ok true -> mu_mutate m fuel n r = Ok d ->
  exists arg rest f c', is_sol "FunctionCall" n /\ has_field n "expression" f /\
    has_field f "name" (JStr "require") /\ has_field n "arguments" (JArr (arg :: rest)) /\
    sol_negation arg c' /\ field_becomes "arguments" (JArr (c' :: rest)) n (md_node d).
Proof. intros; the_mutator. eapply sol_require_fact; eauto. Qed.

Lemma sol_unchecked_claim e m fuel n r d :
  sol_mutator_for e (Solidity UncheckedBlock) = Some m -> mu_mutable m n = Ok true -> mu_mutate m fuel n r = Ok d ->
  exists l l' i x u, is_sol "Block" n /\ has_field n "statements" (JArr l) /\
    nth_error l i = Some x /\ ~ is_sol "Return" x /\ ~ is_sol "UncheckedBlock" x /\
    sol_unchecked_of x u /\ slot_becomes i u l l' /\
    field_becomes "statements" (JArr l') n (md_node d).
Proof. intros; the_mutator. eapply sol_unchecked_fact; eauto. Qed.

Lemma sol_delegate_claim e m fuel n r d :
  sol_mutator_for e (Solidity ElimDelegateCall) = Some m -> mu_mutable m n = Ok true -> mu_mutate m fuel n r = Ok d ->
  is_sol "MemberAccess" n /\ has_field n "memberName" (JStr "delegatecall") /\
  field_becomes "memberName" (JStr "call") n (md_node d).
Proof. intros; the_mutator. eapply sol_delegate_fact; eauto. Qed.

Lemma vy_unary_claim e m fuel n r d :
  vy_mutator_for e (Generic UnaryOp) = Some m -> mu_mutable m n = Ok true -> mu_mutate m fuel n r = Ok d ->
  is_vy "UnaryOp" n /\ has_field n "operand" (md_node d).
Proof. intros; the_mutator. eapply vy_unary_fact; eauto. Qed.

(** ** Streams in which every value keeps coming up *)
Definition fair_rng : rng :=
  {| rstream := fun k => N.of_nat (k - Nat.sqrt k * Nat.sqrt k); rpos := 0 |}.

Lemma fair_rng_fair : fair fair_rng.
Proof.
  intros n i pos Hn Hi. set (a := N.to_nat i). set (m := Nat.max pos a).
  exists (m * m + a). assert (Hs : Nat.sqrt (m * m + a) = m) by (apply Nat.sqrt_unique; nia).
  split; [nia|]. cbn [fair_rng rstream]. rewrite Hs. replace (m * m + a - m * m) with a by lia.
  replace (N.of_nat a) with i by lia. rewrite (N.mod_small i (2 ^ 64)) by lia. now rewrite N.mod_small by lia.
Qed.

(** ** Crashes *)

Lemma ex_printer_total : printer_total ex_env.
Proof. intros n. exists "code". reflexivity. Qed.

(** [int256 x; x = y] and the literal [1e18]. *)
Definition int256_assignment : json := s_assign 1 "int256" (s_ident 2 "x") (s_ident 3 "y").
Definition scientific : json := s_number 1 "1e18".
(** def f() -> address: return x *)
Definition address_function : json :=
  v_node "FunctionDef" 1 [("name", JStr "f"); ("body", JArr [v_return 2 (v_name 3 "x")]);
    ("returns", v_name 4 "address")].

Lemma crash_witnesses : exists e,
  printer_total e /\
  (exists m, sol_mutator_for e (Generic Assignment) = Some m /\ crashes m int256_assignment) /\
  (exists m, sol_mutator_for e (Generic Integer) = Some m /\ crashes m scientific) /\
  (exists m, vy_mutator_for e (Generic DeleteStatement) = Some m /\ crashes m address_function).
Proof.
  exists ex_env. split; [exact ex_printer_total|]. split; [|split].
  - eexists; split; [reflexivity|]. split; [vm_compute; reflexivity|]. exists ex_rng. intros fuel.
    eexists. left. vm_compute. reflexivity.
  - eexists; split; [reflexivity|]. split; [vm_compute; reflexivity|]. exists ex_rng. intros fuel.
    eexists. left. vm_compute. reflexivity.
  - eexists; split; [reflexivity|]. split; [vm_compute; reflexivity|]. exists ex_rng. intros fuel.
    eexists. right. vm_compute. reflexivity.
Qed.

(** ** Endless retries *)
Lemma pick_until_never {A} fuel (next : rng -> res (A * rng)) bad r :
  (forall r, exists a r', next r = Ok (a, r') /\ bad a = true) -> pick_until fuel next bad r = Diverge.
Proof.
  intros H. revert r. induction fuel as [|fuel IH]; intros r; simpl; [reflexivity|].
  destruct (H r) as (a & r' & E & B). rewrite E. cbn [bind]. now rewrite B.
Qed.

Lemma random_index_below len r : 0 < len -> exists i r', random_index len r = Ok (i, r') /\ i < len.
Proof.
  intros H. unfold random_index, next_mod. destruct (N.of_nat len) as [|p] eqn:E; [lia|].
  destruct (next_u64 r) as (d & r') eqn:En. cbn [bind].
  eexists _, r'. split; [reflexivity|]. pose proof (N.mod_lt d (N.pos p) ltac:(discriminate)). lia.
Qed.

Lemma random_index_never {A} fuel len (f : nat -> A) (bad : nat -> bool) r : 0 < len ->
  (forall i, i < len -> bad i = true) -> pick_until fuel (random_index len) bad r = Diverge.
Proof.
  intros Hl Hb. apply pick_until_never. intros r0. destruct (random_index_below len r0 Hl) as (i & r' & E & H).
  exists i, r'. auto.
Qed.


(** f(1, 2) *)
Definition literal_call : json := s_call 1 (s_ident 2 "f") [s_number 3 "1"; s_number 4 "2"].
(** { return x; return y; return z; } *)
Definition returns_only : json := s_block 1
  [s_return 2 (s_ident 3 "x"); s_return 4 (s_ident 5 "y"); s_return 6 (s_ident 7 "z")].
Definition vy_returns_only : json := v_def 1 "f"
  [v_return 2 (v_name 3 "x"); v_return 4 (v_name 5 "y"); v_return 6 (v_name 7 "z")].
(** { return x; return y; } *)
Definition two_returns : json := s_block 1 [s_return 2 (s_ident 3 "x"); s_return 4 (s_ident 5 "y")].

Lemma all_below (len : nat) (f : nat -> bool) : forallb f (seq 0 len) = true -> forall i, i < len -> f i = true.
Proof. rewrite forallb_forall. intros H i Hi. apply H. apply in_seq. lia. Qed.

Lemma hang_witnesses : forall e, printer_total e ->
  (exists m, sol_mutator_for e (Generic FunctionCall) = Some m /\ hangs m literal_call) /\
  (exists m, sol_mutator_for e (Generic SwapLines) = Some m /\ hangs m returns_only) /\
  (exists m, sol_mutator_for e (Solidity UncheckedBlock) = Some m /\ hangs m two_returns) /\
  (exists m, vy_mutator_for e (Generic SwapLines) = Some m /\ hangs m vy_returns_only).
Proof.
  intros e He. repeat split; eexists; (split; [reflexivity|]); (split; [vm_compute; reflexivity|]);
    intros fuel r; cbn [sol_call sol_swaplines sol_unchecked vy_swaplines mu_mutate].
  - unfold sol_call_mutate. replace (arr_of literal_call "arguments") with (Some [s_number 3 "1"; s_number 4 "2"]) by reflexivity.
    destruct (He literal_call) as (s & ->). cbn [bind].
    rewrite (random_index_never fuel _ (fun x => x)); [reflexivity|simpl; lia|]. apply all_below. reflexivity.
  - unfold sol_swaplines_mutate.
    destruct (take_key returns_only "statements") as [[v n0]|] eqn:E; vm_compute in E; [|discriminate].
    injection E as <- _.
    rewrite (random_index_never fuel _ (fun x => x)); [reflexivity|simpl; lia|]. apply all_below. reflexivity.
  - unfold sol_unchecked_mutate.
    destruct (take_key two_returns "statements") as [[v n0]|] eqn:E; vm_compute in E; [|discriminate].
    injection E as <- _.
    rewrite (random_index_never fuel _ (fun x => x)); [reflexivity|simpl; lia|]. apply all_below. reflexivity.
  - unfold vy_swaplines_mutate.
    destruct (take_key vy_returns_only "body") as [[v n0]|] eqn:E; vm_compute in E; [|discriminate].
    injection E as <- _.
    rewrite (random_index_never fuel _ (fun x => x)); [reflexivity|simpl; lia|]. apply all_below. reflexivity.
Qed.

(** ** The integer operator may write the same value *)
Definition five_rng : rng := {| rstream := fun k => match k with O => 2%N | S _ => 5%N end; rpos := 0 |}.

Lemma integer_unchanged : exists e m m' n n' r,
  sol_mutator_for e (Generic Integer) = Some m /\ vy_mutator_for e (Generic Integer) = Some m' /\
  mu_mutable m n = Ok true /\ mu_mutable m' n' = Ok true /\
  forall fuel, exists d d', mu_mutate m fuel n r = Ok d /\ md_node d = n /\
                            mu_mutate m' fuel n' r = Ok d' /\ md_node d' = n'.
Proof.
  exists ex_env. do 2 eexists. exists (s_number 1 "5"), (v_int 1 5), five_rng.
  split; [reflexivity|]. split; [reflexivity|]. split; [vm_compute; reflexivity|]. split; [vm_compute; reflexivity|].
  intros fuel. do 2 eexists. split; [vm_compute; reflexivity|]. split; [vm_compute; reflexivity|].
  split; [vm_compute; reflexivity|vm_compute; reflexivity].
Qed.

(** ** Classification *)

Definition vy_shift : json := v_node "BinOp" 1 [("op", v_op 2 "LShift"); ("left", v_name 3 "a"); ("right", v_name 4 "b")].

Lemma classify_refuted : exists e m n, printer_total e /\
  vy_mutator_for e (Generic SwapOperatorArguments) = Some m /\ exists msg, mu_mutable m n = Panic msg.
Proof.
  exists ex_env. eexists. exists vy_shift. split; [exact ex_printer_total|]. split; [reflexivity|].
  eexists. vm_compute. reflexivity.
Qed.

Lemma sol_classifies e t m n :
  (forall ts a c b, sol_type_of n ts -> ts = a ++ String c b -> String.length a = 3 -> is_cont_byte c = false) ->
  sol_mutator_for e t = Some m -> classifies m n.
Proof.
  intros Hb Hm. unfold classifies. destruct t as [g|s]; [destruct g|destruct s]; the_mutator; try (eexists; reflexivity).
  unfold sol_assign_mutable. destruct (is_type "Assignment" n); [|eauto].
  destruct (sol_assign_type n) as [ts|] eqn:E; [|eauto].
  destruct (N.ltb_spec (slen ts) 3) as [|Hl]; [eauto|].
  rewrite slen_length in Hl. apply sol_assign_type_spec in E.
  destruct ts as [|c1 [|c2 [|c3 ts]]]; simpl in Hl; try lia.
  assert (Ht : text_starts (String c1 (String c2 (String c3 ""))) (String c1 (String c2 (String c3 ts)))).
  { exists ts. split; [reflexivity|]. intros c rest ->. exact (Hb _ (String c1 (String c2 (String c3 ""))) c rest E eq_refl eq_refl). }
  destruct Ht as (rest & Er & Hr). rewrite Er, (slice3 (String c1 (String c2 (String c3 ""))) rest eq_refl Hr). cbn [bind]. eauto.
Qed.

Lemma vy_classifies e t m n :
  printer_total e ->
  (forall op ot, has_field n "op" op -> is_vy ot op -> In ot (map fst python_operators)) ->
  vy_mutator_for e t = Some m -> classifies m n.
Proof.
  intros Hp Ho Hm. unfold classifies. destruct t as [g|s]; [destruct g|discriminate]; the_mutator; try (eexists; reflexivity).
  - unfold vy_delete_mutable. destruct (is_ast_in _ n); [|eauto]. destruct (varr_of n "body") as [[|x [|]]|]; eauto.
    destruct (Hp x) as (s & ->). cbn [bind]. eauto.
  - unfold vy_swapop_mutable. destruct (is_ast_in _ n); [|eauto]. destruct (op_type n) as [ot|] eqn:E; [|eauto].
    apply op_type_spec in E. destruct E as (op & H1 & H2). specialize (Ho _ _ H1 H2).
    destruct (assoc ot python_operators) as [s|] eqn:Ea; [eauto|]. exfalso. revert Ho Ea. clear.
    generalize python_operators. induction l as [|[k v] l IH]; simpl; [tauto|].
    destruct (String.eqb_spec ot k); [discriminate|]. intros [?|?]; [congruence|auto].
Qed.

(** ** Labels *)
Ltac chew H :=
  repeat (first
    [ discriminate H
    | match type of H with
      | bind ?x _ = Ok _ => let E := fresh "E" in destruct x eqn:E; cbn [bind] in H
      | match ?x with _ => _ end = Ok _ => let E := fresh "E" in destruct x eqn:E
      end ]).


Lemma sol_comment_text s : sol_text_comment (sol_comment s).
Proof. split; [reflexivity|exists s; reflexivity]. Qed.
Lemma vy_comment_text s : vy_text_comment (vy_comment s).
Proof. split; [reflexivity|exists s; reflexivity]. Qed.

Lemma sol_label e t m fuel n r d :
  sol_mutator_for e t = Some m -> mu_mutable m n = Ok true -> mu_mutate m fuel n r = Ok d ->
  mr_type (md_result d) = Some t /\ exists c, md_comment d = Some c /\ sol_text_comment c.
Proof.
  intros Hm Ha H.
  destruct t as [[]|[]]; the_mutator;
    try (destruct (sol_binop_fact _ _ _ _ _ _ _ Ha H) as (op & op' & _ & _ & _ & _ & _ & _ & Ht & Hc);
         split; [exact Ht|]; eexists; split; [exact Hc|apply sol_comment_text]);
    unfold sol_binop_mutate, sol_unary_mutate, sol_assign_mutate, sol_delete_mutate, sol_call_mutate, sol_swapargs_mutate,
      sol_if_mutate, sol_int_mutate, sol_swapop_mutate, sol_swaplines_mutate, sol_require_mutate, sol_unchecked_mutate,
      sol_delegate_mutate in H; cbv zeta in H;
    chew H; try discriminate H; injection H as <-; try solve [(split; [reflexivity|]);
    (eexists; split; [reflexivity|apply sol_comment_text])].
Qed.

Lemma vy_label e t m fuel n r d :
  vy_mutator_for e t = Some m -> mu_mutable m n = Ok true -> mu_mutate m fuel n r = Ok d ->
  mr_type (md_result d) = Some t /\ exists c, md_comment d = Some c /\ vy_text_comment c.
Proof.
  intros Hm Ha H.
  destruct t as [[]|[]]; try discriminate Hm; the_mutator;
    unfold vy_binop_mutate, vy_unary_mutate, vy_assign_mutate, vy_delete_mutate, vy_call_mutate, vy_swapargs_mutate,
      vy_if_mutate, vy_int_mutate, vy_swapop_mutate, vy_swaplines_mutate in H; cbv zeta in H.
  all: chew H; try discriminate H; injection H as <-; try solve [(split; [reflexivity|]);
    (eexists; split; [reflexivity|apply vy_comment_text])].

  1-2: exfalso; rewrite take_key_plain in * by reflexivity; destruct n as [| | | | |o]; try discriminate; simpl in *;
    destruct (assoc "test" o); discriminate.
  all: exfalso; unfold vy_swapargs_mutable in Ha; apply ok_inj in Ha; destruct (is_ast "Call" n); [|discriminate];
    match goal with H : take_key _ "args" = Some _ |- _ => rename H into Et end;
    rewrite take_key_plain in Et by reflexivity; destruct n as [| | | | |o]; try discriminate; unfold varr_of in Ha; simpl in *;
    destruct (assoc "args" o) as [v|]; [|discriminate]; injection Et as Ev _; rewrite Ev in Ha; cbn [as_array] in Ha;
    match goal with H : length _ = _ |- _ => rewrite H in Ha; discriminate Ha end.
Qed.

(** ** Examples *)
Definition ex_if : json := v_if 1 (v_name 2 "c") [v_assign 3 (v_name 4 "x") (v_int 5 1)] [].
Definition ex_lines : json := s_block 1
  [s_stmt 2 (s_ident 3 "x"); s_stmt 4 (s_ident 5 "y"); s_return 6 (s_ident 7 "z")].

Ltac no_field := let H := fresh in intros H; vm_compute in H; discriminate H.

Lemma ex_order_total : order_total ex_env.
Proof. intros ks k H. exact H. Qed.

Lemma short_arrays_check n : forallb (fun kv => match snd kv with
     | JArr l => N.leb (N.of_nat (length l)) (2 ^ 64) | _ => true end)
     (match n with JObj o => o | _ => [] end) = true -> short_arrays n.
Proof.
  intros H k l Hf. destruct n as [| | | | |o]; try discriminate. unfold has_field in Hf. simpl in *.
  apply assoc_In in Hf. rewrite forallb_forall in H. specialize (H _ Hf). now apply N.leb_le.
Qed.

Lemma safe_example : printer_total ex_env /\ order_total ex_env /\
  sol_schema dif_ab /\ sol_crash_free (Generic SwapOperatorArguments) dif_ab /\
  (exists m, sol_mutator_for ex_env (Generic SwapOperatorArguments) = Some m /\ mu_mutable m dif_ab = Ok true) /\
  wf ex_if /\ vy_schema ex_if /\ vy_crash_free (Generic IfStatement) ex_if /\
  (exists m, vy_mutator_for ex_env (Generic IfStatement) = Some m /\ mu_mutable m ex_if = Ok true).
Proof.
  split; [exact ex_printer_total|]. split; [exact ex_order_total|]. split.
  { split; [apply short_arrays_check; reflexivity|].
    split; [intros _; split; eexists; reflexivity|]. split; no_field. }
  split; [exact I|]. split; [eexists; split; [reflexivity|vm_compute; reflexivity]|].
  split; [apply wf_check; vm_compute; reflexivity|]. split.
  { split; [apply short_arrays_check; reflexivity|]. split; [no_field|]. split; [no_field|].
    intros l x t H. vm_compute in H. discriminate H. }
  split; [exact I|]. eexists; split; [reflexivity|vm_compute; reflexivity].
Qed.

Lemma finish_example : fair fair_rng /\ sol_schema ex_lines /\ sol_supported (Generic SwapLines) ex_lines /\
  (exists m, sol_mutator_for ex_env (Generic SwapLines) = Some m /\ mu_mutable m ex_lines = Ok true).
Proof.
  split; [exact fair_rng_fair|]. split.
  { split; [apply short_arrays_check; reflexivity|]. split; [no_field|]. split; no_field. }
  split.
  { eexists. split; [reflexivity|]. exists 0, 1. do 2 eexists. split; [discriminate|].
    split; [reflexivity|]. split; [reflexivity|]. split; no_field. }
  eexists; split; [reflexivity|vm_compute; reflexivity].
Qed.

Lemma accept_example : sol_accepts (Generic ArithmeticBinaryOp) sum_ab /\
  ~ sol_accepts (Generic SwapOperatorArguments) sum_ab /\
  vy_accepts ex_env (Generic IfStatement) ex_if /\ ~ vy_accepts ex_env (Generic SwapLines) ex_if.
Proof.
  split; [apply (sol_accepts_iff ex_env (Generic ArithmeticBinaryOp) _ _ eq_refl); vm_compute; reflexivity|].
  split; [intros H; apply (sol_accepts_iff ex_env (Generic SwapOperatorArguments) _ _ eq_refl) in H;
          vm_compute in H; discriminate|].
  split; [apply (vy_accepts_iff ex_env (Generic IfStatement) _ _ eq_refl); vm_compute; reflexivity|].
  intros H; apply (vy_accepts_iff ex_env (Generic SwapLines) _ _ eq_refl) in H; vm_compute in H; discriminate.
Qed.

Lemma classify_example :
  (forall ts a c b, sol_type_of int256_assignment ts -> ts = a ++ String c b -> String.length a = 3 ->
     is_cont_byte c = false) /\
  (forall op ot, has_field (v_binop 1 "Sub" (v_name 3 "a") (v_name 4 "b")) "op" op -> is_vy ot op ->
     In ot (map fst python_operators)).
Proof.
  split.
  - intros ts a c b (d & Hd & Ht) -> Hl. vm_compute in Hd. injection Hd as <-. vm_compute in Ht.
    injection Ht as Ht.
    destruct a as [|a1 [|a2 [|a3 [|]]]]; simpl in Hl; try lia. simpl in Ht.
    injection Ht as _ _ _ Hc _. rewrite <- Hc. reflexivity.
  - intros op ot Ho Ht. vm_compute in Ho. injection Ho as <-. vm_compute in Ht. injection Ht as <-.
    simpl. tauto.
Qed.
