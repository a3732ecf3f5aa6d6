(** Driving the Solidity operators with chosen draws. *)
From Coq Require Import String Ascii List NArith ZArith Bool Lia Arith Permutation.
From Verif Require Import Base Json Rng MutationType Traverse OpCommon SolMutators
  JsonFacts SpecOps SpecTotal SpecAccept SpecOrder SpecReach OpFacts TraverseFacts SolFacts OpTotal AcceptFacts.
Import ListNotations.
Open Scope list_scope.
Open Scope string_scope.

(** ** Draws *)
Lemma begins_one d s p : begins [d] (at_pos s p) -> s p = d.
Proof. intros H. specialize (H 0 d eq_refl). simpl in H. now rewrite Nat.add_0_r in H. Qed.

Lemma begins_two d d' s p : begins [d; d'] (at_pos s p) -> s p = d /\ s (S p) = d'.
Proof.
  intros H. pose proof (H 0 d eq_refl) as A. pose proof (H 1 d' eq_refl) as B. simpl in A, B.
  rewrite Nat.add_0_r in A. rewrite Nat.add_1_r in B. auto.
Qed.

Lemma can_give_nil m n P :
  (forall s p fuel, exists d, mu_mutate m (S fuel) n (at_pos s p) = Ok d /\ P (md_node d)) -> can_give m n P.
Proof. intros H. exists []. intros r _ fuel. rewrite (rng_eta r). apply H. Qed.

Lemma can_give_one x m n P :
  (forall s p fuel, s p = x -> exists d, mu_mutate m (S fuel) n (at_pos s p) = Ok d /\ P (md_node d)) -> can_give m n P.
Proof.
  intros H. exists [x]. intros r Hb fuel. rewrite (rng_eta r) in *. apply H. now apply begins_one.
Qed.

Lemma can_give_two x y m n P :
  (forall s p fuel, s p = x -> s (S p) = y ->
     exists d, mu_mutate m (S fuel) n (at_pos s p) = Ok d /\ P (md_node d)) -> can_give m n P.
Proof.
  intros H. exists [x; y]. intros r Hb fuel. rewrite (rng_eta r) in *. apply begins_two in Hb. now apply H.
Qed.

Lemma pick_now {A} fuel (next : rng -> res (A * rng)) bad r a r' :
  next r = Ok (a, r') -> bad a = false -> pick_until (S fuel) next bad r = Ok (a, r').
Proof. intros H Hb. simpl. rewrite H. cbn [bind]. now rewrite Hb. Qed.

Lemma small_mod a n : (a < n)%N -> (n <= 2 ^ 64)%N -> ((a mod 2 ^ 64) mod n = a)%N.
Proof. intros H1 H2. rewrite (N.mod_small a (2 ^ 64)) by lia. apply N.mod_small. exact H1. Qed.

Lemma index_now s p len i : s p = N.of_nat i -> i < len -> (N.of_nat len <= 2 ^ 64)%N ->
  random_index len (at_pos s p) = Ok (i, at_pos s (S p)).
Proof.
  intros E Hi Hl. rewrite random_index_at by lia. unfold idx. rewrite E, small_mod by lia. now rewrite Nat2N.id.
Qed.

Lemma choose_now {A} msg (l : list A) s p i x : s p = N.of_nat i -> nth_error l i = Some x ->
  choose_or msg l (at_pos s p) = Ok (x, at_pos s (S p)).
Proof.
  intros E Hi. destruct l as [|y l]; [destruct i; discriminate|].
  destruct (choose_or_at msg y l s p) as (z & _ & Hz & ->). rewrite E in Hz.
  assert (Hl : i < length (y :: l)) by (apply nth_error_Some; congruence).
  rewrite N.mod_small in Hz by lia. rewrite Nat2N.id in Hz. congruence.
Qed.

Lemma mod_now s p n k : s p = k -> (k < n)%N -> (n <= 2 ^ 64)%N -> next_mod n (at_pos s p) = Ok (k, at_pos s (S p)).
Proof. intros E Hk Hn. rewrite next_mod_at by lia. now rewrite E, small_mod. Qed.

Lemma range_now s p lo hi z : (lo <= z < hi)%Z -> s p = Z.to_N (z - lo) ->
  gen_range lo hi (at_pos s p) = Ok (z, at_pos s (S p)).
Proof.
  intros Hz E. rewrite gen_range_at by lia. rewrite E, Z2N.id by lia. rewrite Z.mod_small by lia.
  f_equal. f_equal. lia.
Qed.

(** ** Solidity *)
Lemma sol_binop_reach e t ops n op op' : has_field n "operator" (JStr op) -> In op' ops -> op' <> op ->
  can_give (sol_binop e t ops) n (gets "operator" (eq (JStr op')) n).
Proof.
  intros Ho Hin Hne. apply In_nth_error in Hin. destruct Hin as (i & Hi).
  apply (can_give_one (N.of_nat i)). intros s p fuel E.
  unfold sol_binop, sol_binop_mutate. cbn [mu_mutate].
  rewrite (proj2 (get_str_Some n "operator" op eq_refl) Ho).
  rewrite (pick_now fuel _ _ _ _ _ (choose_now _ _ _ _ _ _ E Hi)) by (apply String.eqb_neq; congruence).
  cbn [bind]. eexists. split; [reflexivity|]. exists (JStr op'). split; [reflexivity|].
  eapply field_set; [plain|exact Ho].
Qed.

Lemma sol_unary_reach e n p op op' : has_field n "prefix" (JBool p) -> has_field n "operator" (JStr op) ->
  In op' (if p then prefix_ops else postfix_ops) -> op' <> op ->
  can_give (sol_unary e) n (gets "operator" (eq (JStr op')) n).
Proof.
  intros Hp Ho Hin Hne.
  assert (Hin' : In op' (if p then prefix_operators else postfix_operators)) by (destruct p; exact Hin).
  apply In_nth_error in Hin'. destruct Hin' as (i & Hi).
  apply (can_give_one (N.of_nat i)). intros s q fuel E.
  unfold sol_unary, sol_unary_mutate. cbn [mu_mutate].
  rewrite (proj2 (get_bool_Some n "prefix" p eq_refl) Hp), (proj2 (get_str_Some n "operator" op eq_refl) Ho).
  rewrite (pick_now fuel _ _ _ _ _ (choose_now _ _ _ _ _ _ E Hi)) by (apply String.eqb_neq; congruence).
  cbn [bind]. eexists. split; [reflexivity|]. exists (JStr op'). split; [reflexivity|].
  eapply field_set; [plain|exact Ho].
Qed.

(** The bounds of the assigned values. *)
Lemma sol_uint_value k r : (0 < k <= 256)%N ->
  sol_assign_value ("uint" ++ show_N k) r =
  (let? (v, r') := gen_range 0 (2 ^ Z.of_N (N.min k 128) - 1) r in
   Ok (Some (sol_int_node v), "uin" ++ le_bytes_Z 16 v, r')).
Proof.
  intros Hk. unfold sol_assign_value. destruct (show_N_digit k) as (c & s' & E & Hc & _).
  assert (Hcb : is_cont_byte c = false).
  { unfold show_N in E. destruct (N.to_uint k); simpl in E; inv E; reflexivity. }
  assert (S3 : slice_to 3 ("uint" ++ show_N k) = Ok "uin") by (unfold slice_to; rewrite E; reflexivity).
  assert (S4 : slice_from 4 ("uint" ++ show_N k) = Ok (show_N k)).
  { unfold slice_from. rewrite E. simpl. unfold is_char_boundary. simpl. rewrite Hcb. reflexivity. }
  rewrite S3. cbn [bind]. change ("uin" =?s "int") with false. change ("uin" =?s "uin") with true. cbv iota.
  rewrite S4. cbn [bind]. rewrite parse_unsigned_show by (change (2 ^ 32)%N with 4294967296%N; lia).
  replace (if (128 <? k)%N then 128%N else k) with (N.min k 128); [reflexivity|].
  destruct (N.ltb_spec 128 k); lia.
Qed.

Lemma sol_int_value k r : (0 < k <= 127)%N ->
  sol_assign_value ("int" ++ show_N k) r =
  (let? (v, r') := gen_range (- 2 ^ (Z.of_N k - 1)) (2 ^ (Z.of_N k - 1)) r in
   Ok (Some (sol_int_node v), "int" ++ le_bytes_Z 16 v, r')).
Proof.
  intros Hk. unfold sol_assign_value. destruct (show_N_digit k) as (c & s' & E & Hc & _).
  assert (Hcb : is_cont_byte c = false).
  { unfold show_N in E. destruct (N.to_uint k); simpl in E; inv E; reflexivity. }
  assert (S3 : slice_to 3 ("int" ++ show_N k) = Ok "int").
  { unfold slice_to. rewrite E. simpl. unfold is_char_boundary. simpl. rewrite Hcb. reflexivity. }
  assert (S4 : slice_from 3 ("int" ++ show_N k) = Ok (show_N k)).
  { unfold slice_from. rewrite E. simpl. unfold is_char_boundary. simpl. rewrite Hcb. reflexivity. }
  rewrite S3. cbn [bind]. change ("int" =?s "int") with true. cbv iota.
  rewrite S4. cbn [bind]. rewrite parse_unsigned_show by (change (2 ^ 32)%N with 4294967296%N; lia).
  destruct (N.ltb_spec 128 k); [lia|].
  destruct (N.eqb_spec k 0); [lia|]. destruct (N.eqb_spec k 128); [lia|]. reflexivity.
Qed.

Lemma sol_bool_value s p : sol_assign_value "bool" (at_pos s p) =
  Ok (Some (sol_bool_node false), "boo" ++ le_bytes_Z 1 0, at_pos s (S p)).
Proof.
  unfold sol_assign_value. change (slice_to 3 "bool") with (@Ok string "boo"). cbn [bind].
  change ("boo" =?s "int") with false. change ("boo" =?s "uin") with false.
  change ("boo" =?s "boo") with true. change ("bool" =?s "bool") with true. cbv iota.
  rewrite gen_range_at by lia. cbn [bind]. rewrite Z.mod_1_r. reflexivity.
Qed.

Lemma sol_assign_reach e n ts (Q : json -> Prop) x :
  printer_total e -> sol_schema n -> is_sol "Assignment" n -> sol_type_of n ts ->
  (forall s p, s p = x -> exists v b r', sol_assign_value ts (at_pos s p) = Ok (Some v, b, r') /\ Q v) ->
  can_give (sol_assign e) n (gets "rightHandSide" Q n).
Proof.
  intros Hpp Hsc Et Hts Hv. apply (can_give_one x). intros s p fuel E.
  destruct (Hv s p E) as (v & b & r' & Hval & HQ). apply sol_assign_type_spec in Hts.
  unfold sol_assign, sol_assign_mutate. cbn [mu_mutate]. rewrite Hts.
  destruct Hsc as (_ & _ & Hr & _). destruct (Hr Et) as (rhs & Hrhs). unfold has_field in Hrhs. rewrite Hrhs.
  destruct (Hpp rhs) as (s1 & Hs1). rewrite Hs1. cbn [bind]. rewrite Hval. cbn [bind].
  assert (Hg : oget (set_key n "rightHandSide" v) "rightHandSide" = Some v).
  { apply oget_set_key_same; [plain|]. apply oget_object in Hrhs. destruct Hrhs as (o & -> & _). reflexivity. }
  rewrite Hg. destruct (Hpp v) as (s2 & Hs2). rewrite Hs2. cbn [bind]. eexists. split; [reflexivity|].
  exists v. split; [exact HQ|]. eapply field_set; [plain|exact Hrhs].
Qed.

Lemma indexes_place {A} (f : A -> bool) l : forall k i x, nth_error l i = Some x -> f x = true ->
  exists j, nth_error (indexes_from k f l) j = Some (k + i).
Proof.
  induction l as [|y l IH]; intros k i x Hi Hf; [destruct i; discriminate|]. destruct i as [|i]; simpl in *.
  - injection Hi as ->. rewrite Hf. exists 0. simpl. f_equal. lia.
  - destruct (IH (S k) i x Hi Hf) as (j & Hj). destruct (f y).
    + exists (S j). simpl. rewrite Hj. f_equal. lia.
    + exists j. rewrite Hj. f_equal. lia.
Qed.

Lemma indexes_length {A} (f : A -> bool) l : forall k, length (indexes_from k f l) <= length l.
Proof.
  induction l as [|y l IH]; intros k; simpl; [lia|]. specialize (IH (S k)). destruct (f y); simpl; lia.
Qed.

Lemma sol_delete_reach e n l i x : printer_total e -> short_arrays n ->
  has_field n "statements" (JArr l) -> nth_error l i = Some x -> is_sol "ExpressionStatement" x ->
  can_give (sol_delete e) n (gets_at "statements" l i (sol_commented x) n).
Proof.
  intros Hpp Hsh Hl Hi Hx. apply is_type_spec in Hx.
  set (f := fun v => (is_object v && is_type "ExpressionStatement" v)%bool).
  assert (Hf : f x = true) by (unfold f; now rewrite (is_type_object _ _ Hx), Hx).
  destruct (indexes_place f l 0 i x Hi Hf) as (j & Hj). simpl in Hj.
  assert (Hjl : j < length (indexes_from 0 f l)) by (apply nth_error_Some; congruence).
  assert (Hil : i < length l) by (apply nth_error_Some; congruence).
  apply (can_give_one (N.of_nat j)). intros s p fuel E.
  unfold sol_delete, sol_delete_mutate. cbn [mu_mutate].
  destruct (take_present n "statements" (JArr l)) as (n0 & Hk); [plain|exact Hl|]. rewrite Hk.
  change (indexes (fun v => (is_object v && is_type "ExpressionStatement" v)%bool) l) with (indexes_from 0 f l).
  rewrite (index_now s p _ j E Hjl).
  2:{ pose proof (indexes_length f l 0). pose proof (Hsh _ _ Hl). lia. }
  cbn [bind]. unfold vec_get at 1. rewrite Hj. cbn [bind]. unfold vec_get. rewrite Hi. cbn [bind].
  destruct (Hpp x) as (s1 & ->). cbn [bind]. eexists. split; [reflexivity|].
  exists (sol_comment_node x), (vec_put i (sol_comment_node x) l).
  split; [apply sol_comment_node_spec|]. split; [now apply slot_vec_put|]. eapply field_take_set; [plain|exact Hk].
Qed.

Lemma not_type_at t l i x : nth_error l i = Some x -> ~ is_sol t x -> type_at t l i = false.
Proof.
  intros Hi Hx. unfold type_at. rewrite Hi. destruct (is_type t x) eqn:E; [|reflexivity].
  apply is_type_spec in E. tauto.
Qed.

Lemma sol_call_reach e n l x : printer_total e -> short_arrays n ->
  has_field n "arguments" (JArr l) -> In x l -> ~ is_sol "Literal" x -> can_give (sol_call e) n (eq x).
Proof.
  intros Hpp Hsh Hl Hin Hx. apply In_nth_error in Hin. destruct Hin as (i & Hi).
  assert (Hil : i < length l) by (apply nth_error_Some; congruence).
  apply (can_give_one (N.of_nat i)). intros s p fuel E.
  unfold sol_call, sol_call_mutate. cbn [mu_mutate]. rewrite (proj2 (arr_of_spec n "arguments" l) Hl).
  destruct (Hpp n) as (s1 & ->). cbn [bind].
  rewrite (pick_now fuel _ _ _ _ _ (index_now s p _ i E Hil (Hsh _ _ Hl)) (not_type_at _ _ _ _ Hi Hx)).
  cbn [bind]. unfold vec_get. rewrite Hi. cbn [bind]. destruct (Hpp x) as (s2 & ->). cbn [bind].
  eexists. split; reflexivity.
Qed.

Lemma sol_if_reach e n c k c' : printer_total e -> has_field n "condition" c ->
  (k = 0%N /\ c' = sol_bool_node true) \/ (k = 1%N /\ c' = sol_bool_node false) \/
  (k = 2%N /\ c' = sol_unary_node "!" true (sol_tuple_node [c])) ->
  can_give (sol_if e) n (gets "condition" (eq c') n).
Proof.
  intros Hpp Hc Hk. apply (can_give_one k). intros s p fuel E.
  unfold sol_if, sol_if_mutate. cbn [mu_mutate]. unfold has_field in Hc. rewrite Hc.
  destruct (Hpp c) as (s1 & ->). cbn [bind].
  rewrite (mod_now s p 3 k E) by (try (intuition lia); vm_compute; discriminate). cbn [bind].
  destruct (take_present n "condition" c) as (n0 & Hk0); [plain|exact Hc|]. rewrite Hk0.
  set (n' := match k with 0%N => _ | _ => _ end).
  assert (Hn' : n' = set_key n "condition" c').
  { unfold n'. destruct Hk as [(-> & ->)|[(-> & ->)|(-> & ->)]]; [reflexivity|reflexivity|].
    eapply take_set; [plain|exact Hk0]. }
  rewrite Hn'.
  assert (Hg : oget (set_key n "condition" c') "condition" = Some c').
  { apply oget_set_key_same; [plain|]. apply oget_object in Hc. destruct Hc as (o & -> & _). reflexivity. }
  rewrite Hg. destruct (Hpp c') as (s2 & ->). cbn [bind]. eexists. split; [reflexivity|].
  exists c'. split; [reflexivity|]. eapply field_set; [plain|exact Hc].
Qed.

Lemma gets_mono k (Q Q' : json -> Prop) n m : (forall v, Q v -> Q' v) ->
  can_give m n (gets k Q n) -> can_give m n (gets k Q' n).
Proof.
  intros H (l & Hl). exists l. intros r Hb fuel. destruct (Hl r Hb fuel) as (d & Hd & v & HQ & Hv).
  exists d. split; [exact Hd|]. exists v. auto.
Qed.

Lemma show_Z_of_N k : show_Z (Z.of_N k) = show_N k.
Proof. destruct k; reflexivity. Qed.

Lemma sol_int_reach_shift e n k dd w :
  (k < 9223372036854775807)%N -> has_field n "value" (JStr (show_N k)) ->
  (dd = 1%Z /\ w = 0%N) \/ (dd = -1 /\ w = 1%N)%Z ->
  can_give (sol_int e) n (gets "value" (eq (JStr (show_Z (Z.of_N k + dd)))) n).
Proof.
  intros Hk Hv Hw. apply (can_give_one w). intros s p fuel E.
  unfold sol_int, sol_int_mutate. cbn [mu_mutate].
  rewrite (mod_now s p 3 w E) by (try (intuition lia); vm_compute; discriminate). cbn [bind].
  rewrite (proj2 (get_str_Some n "value" (show_N k) eq_refl) Hv).
  assert (Hs : sol_int_shift (e_oc e) (show_N k) dd = Ok (show_Z (Z.of_N k + dd))).
  { unfold sol_int_shift. rewrite parse_i64_show by lia. unfold i64_add.
    assert (Hin : in_i64 (Z.of_N k + dd) = true) by (apply VyFacts.in_i64_spec; lia). rewrite Hin. reflexivity. }
  destruct Hw as [(-> & ->)|(-> & ->)].
  - change (N.eqb 0 0) with true. cbv iota. rewrite Hs. cbn [bind]. eexists. split; [reflexivity|].
    eexists. split; [reflexivity|]. eapply field_set; [plain|exact Hv].
  - change (N.eqb 1 0) with false. cbv iota. rewrite Hs. cbn [bind]. eexists. split; [reflexivity|].
    eexists. split; [reflexivity|]. eapply field_set; [plain|exact Hv].
Qed.

Lemma sol_int_reach_any e n v u : has_field n "value" v -> (u < 2 ^ 64)%N ->
  can_give (sol_int e) n (gets "value" (eq (JStr (show_N u))) n).
Proof.
  intros Hv Hu. apply (can_give_two 2 u). intros s p fuel E E'.
  unfold sol_int, sol_int_mutate. cbn [mu_mutate].
  rewrite (mod_now s p 3 2 E) by (try lia; vm_compute; discriminate). cbn [bind].
  unfold next_u64, draw. cbn [at_pos rstream rpos]. rewrite E'.
  change 18446744073709551616%N with (2 ^ 64)%N. rewrite N.mod_small by exact Hu. cbn [bind].
  eexists. split; [reflexivity|]. eexists. split; [reflexivity|]. eapply field_set; [plain|exact Hv].
Qed.

Lemma works0_reach m n (P : json -> Prop) : (forall s p, works0 m n (at_pos s p)) ->
  (forall r fuel d, mu_mutate m fuel n r = Ok d -> P (md_node d)) -> can_give m n P.
Proof.
  intros Hw HP. apply can_give_nil. intros s p fuel. destruct (Hw s p) as (d & Hd). exists d.
  split; [apply Hd|]. eapply HP. apply (Hd 1).
Qed.

Lemma sol_swapop_reach e n a b : printer_total e -> sol_schema n -> sol_swapop_mutable n = Ok true ->
  has_field n "leftExpression" a -> has_field n "rightExpression" b ->
  can_give (sol_swapop e) n (two_fields_become "leftExpression" b "rightExpression" a n).
Proof.
  intros Hpp Hsc Hm Ha Hb. apply works0_reach; [intros; now apply sol_swapop_works|].
  intros r fuel d Hd. destruct (sol_swapop_fact e fuel n r d Hm Hd) as (op & a' & b' & _ & _ & _ & Ha' & Hb' & H).
  unfold has_field in *. congruence.
Qed.

Lemma sol_swaplines_reach e n l i j x y : printer_total e -> short_arrays n ->
  has_field n "statements" (JArr l) -> i <> j -> nth_error l i = Some x -> nth_error l j = Some y ->
  ~ is_sol "Return" x -> ~ is_sol "Return" y ->
  can_give (sol_swaplines e) n (gets_swapped "statements" l i j n).
Proof.
  intros Hpp Hsh Hl Hij Hi Hj Hx Hy.
  assert (Li : i < length l) by (apply nth_error_Some; congruence).
  assert (Lj : j < length l) by (apply nth_error_Some; congruence).
  apply (can_give_two (N.of_nat i) (N.of_nat j)). intros s p fuel E E'.
  unfold sol_swaplines, sol_swaplines_mutate. cbn [mu_mutate].
  destruct (take_present n "statements" (JArr l)) as (n0 & Hk); [plain|exact Hl|]. rewrite Hk.
  rewrite (pick_now fuel _ _ _ _ _ (index_now s p _ i E Li (Hsh _ _ Hl)) (not_type_at _ _ _ _ Hi Hx)). cbn [bind].
  rewrite (pick_now fuel _ _ _ _ _ (index_now s (S p) _ j E' Lj (Hsh _ _ Hl))).
  2:{ destruct (Nat.eqb_spec j i); [congruence|]. eapply not_type_at; eauto. }
  cbn [bind]. destruct (vec_swap_total i j l Hij Li Lj) as (l' & u & v & Hs). rewrite Hs. cbn [bind].
  destruct (Hpp u) as (s1 & ->). destruct (Hpp v) as (s2 & ->). cbn [bind]. eexists. split; [reflexivity|].
  exists l'. split; [eapply vec_swap_exchanged; eauto|]. eapply field_take_set; [plain|exact Hk].
Qed.

Lemma sol_require_reach e n l x : printer_total e -> sol_schema n -> sol_require_mutable n = Ok true ->
  has_field n "arguments" (JArr l) -> nth_error l 0 = Some x ->
  can_give (sol_require e) n (gets_at "arguments" l 0 (sol_negation x) n).
Proof.
  intros Hpp Hsc Hm Hl Hx. apply works0_reach; [intros; now apply sol_require_works|].
  intros r fuel d Hd. destruct (sol_require_fact e fuel n r d Hm Hd) as (arg & rest & f & c & _ & _ & _ & Ha & Hn & Hf).
  unfold has_field in Ha, Hl. rewrite Ha in Hl. injection Hl as <-. simpl in Hx. injection Hx as <-.
  exists c, (c :: rest). split; [exact Hn|]. split; [|exact Hf].
  exact (slot_replace 0 c (arg :: rest) (Nat.lt_0_succ _)).
Qed.

Lemma sol_unchecked_reach e n l i x : printer_total e -> short_arrays n ->
  has_field n "statements" (JArr l) -> nth_error l i = Some x ->
  ~ is_sol "Return" x -> ~ is_sol "UncheckedBlock" x ->
  can_give (sol_unchecked e) n (gets_at "statements" l i (sol_unchecked_of x) n).
Proof.
  intros Hpp Hsh Hl Hi Hx Hy. assert (Li : i < length l) by (apply nth_error_Some; congruence).
  apply (can_give_one (N.of_nat i)). intros s p fuel E.
  unfold sol_unchecked, sol_unchecked_mutate. cbn [mu_mutate].
  destruct (take_present n "statements" (JArr l)) as (n0 & Hk); [plain|exact Hl|]. rewrite Hk.
  rewrite (pick_now fuel _ _ _ _ _ (index_now s p _ i E Li (Hsh _ _ Hl))).
  2:{ now rewrite (not_type_at _ _ _ _ Hi Hx), (not_type_at _ _ _ _ Hi Hy). }
  cbn [bind]. unfold vec_get. rewrite Hi. cbn [bind].
  destruct (Hpp x) as (s1 & ->). cbn [bind].
  set (u := sol_unchecked_node [x] _). destruct (Hpp u) as (s2 & ->). cbn [bind].
  eexists. split; [reflexivity|]. exists u, (vec_put i u l). split; [apply sol_unchecked_node_spec|].
  split; [now apply slot_vec_put|]. eapply field_take_set; [plain|exact Hk].
Qed.

(** The arguments of one type, with their places. *)
Fixpoint typed (t : string) (i : nat) (l : list json) : list (nat * json) :=
  match l with
  | [] => []
  | v :: l => if of_type t v then (i, v) :: typed t (S i) l else typed t (S i) l
  end.

Lemma arg_groups_typed l : forall t i g,
  match assoc t (arg_groups_from i l g) with Some x => x | None => [] end =
  List.app (match assoc t g with Some x => x | None => [] end) (typed t i l).
Proof.
  induction l as [|v l IH]; intros t i g; simpl; [now rewrite app_nil_r|].
  rewrite IH. unfold of_type. destruct (arg_type v) as [t'|]; [|reflexivity].
  rewrite group_add_assoc. destruct (String.eqb_spec t t') as [->|]; [|reflexivity].
  destruct (assoc t' g); rewrite <- ?app_assoc; reflexivity.
Qed.

Lemma typed_spec t l : forall i0 i x, In (i, x) (typed t i0 l) <-> i0 <= i /\ nth_error l (i - i0) = Some x /\ sol_type_of x t.
Proof.
  induction l as [|v l IH]; intros i0 i x; simpl.
  - split; [tauto|]. intros (_ & H & _). destruct (i - i0); discriminate.
  - destruct (of_type t v) eqn:Ev; simpl; rewrite ?IH; clear IH.
    + apply of_type_spec in Ev. split.
      * intros [H|(H1 & H2 & H3)].
        -- injection H as -> ->. rewrite Nat.sub_diag. auto.
        -- split; [lia|]. replace (i - i0) with (S (i - S i0)) by lia. auto.
      * intros (H1 & H2 & H3). destruct (Nat.eq_dec i0 i) as [->|Hne].
        -- rewrite Nat.sub_diag in H2. injection H2 as ->. now left.
        -- right. replace (i - i0) with (S (i - S i0)) in H2 by lia. split; [lia|]. auto.
    + split.
      * intros (H1 & H2 & H3). split; [lia|]. replace (i - i0) with (S (i - S i0)) by lia. auto.
      * intros (H1 & H2 & H3). destruct (Nat.eq_dec i0 i) as [->|Hne].
        -- rewrite Nat.sub_diag in H2. injection H2 as ->. apply of_type_spec in H3. congruence.
        -- replace (i - i0) with (S (i - S i0)) in H2 by lia. split; [lia|]. auto.
Qed.

Lemma typed_head t l : forall i0 i x rest, typed t i0 l = (i, x) :: rest ->
  forall j y, In (j, y) rest -> i < j.
Proof.
  induction l as [|v l IH]; intros i0 i x rest H j y Hin; simpl in H; [discriminate|].
  destruct (of_type t v).
  - injection H as -> -> <-. apply typed_spec in Hin. lia.
  - eapply IH; eauto.
Qed.

Lemma typed_tail t l : forall i0 i x rest, typed t i0 l = (i, x) :: rest -> exists k l', rest = typed t k l'.
Proof.
  induction l as [|v l IH]; intros i0 i x rest H; simpl in H; [discriminate|].
  destruct (of_type t v); [injection H as _ _ <-; eauto|eauto].
Qed.

Lemma first_two_typed t l i j x y :
  (nth_error (typed t 0 l) 0 = Some (i, x) /\ nth_error (typed t 0 l) 1 = Some (j, y)) <->
  (first_two t l i j /\ nth_error l i = Some x /\ nth_error l j = Some y).
Proof.
  split.
  - intros (A & B). destruct (typed t 0 l) as [|a [|b rest]] eqn:E; try discriminate.
    simpl in A, B. injection A as ->. injection B as ->.
    assert (Hi : In (i, x) (typed t 0 l)) by (rewrite E; simpl; auto).
    assert (Hj : In (j, y) (typed t 0 l)) by (rewrite E; simpl; auto).
    apply typed_spec in Hi, Hj. rewrite Nat.sub_0_r in Hi, Hj. destruct Hi as (_ & Hi & Ti), Hj as (_ & Hj & Tj).
    split; [|auto]. split; [|split; [eauto|split; [eauto|]]].
    + eapply typed_head; [exact E|simpl; auto].
    + intros k z Hk Hki Hz Tz. assert (Hin : In (k, z) (typed t 0 l)).
      { apply typed_spec. rewrite Nat.sub_0_r. split; [lia|auto]. }
      rewrite E in Hin. destruct Hin as [H|[H|H]]; [congruence|injection H as -> _; lia|].
      destruct (typed_tail _ _ _ _ _ _ E) as (k0 & l0 & E0). symmetry in E0.
      pose proof (typed_head _ _ _ _ _ _ E0 _ _ H). lia.
  - intros ((Hij & (x' & Hx' & Tx) & (y' & Hy' & Ty) & Hno) & Hx & Hy).
    assert (x' = x) by congruence. assert (y' = y) by congruence. subst x' y'.
    assert (Hi : In (i, x) (typed t 0 l)) by (apply typed_spec; rewrite Nat.sub_0_r; split; [lia|auto]).
    assert (Hj : In (j, y) (typed t 0 l)) by (apply typed_spec; rewrite Nat.sub_0_r; split; [lia|auto]).
    assert (Hall : forall k z, In (k, z) (typed t 0 l) -> k = i \/ j <= k).
    { intros k z Hin. apply typed_spec in Hin. rewrite Nat.sub_0_r in Hin. destruct Hin as (_ & Hz & Tz).
      destruct (Nat.eq_dec k i); [now left|]. right. destruct (Nat.lt_ge_cases k j) as [Hlt|]; [|lia].
      exfalso. eapply Hno; eauto. }
    destruct (typed t 0 l) as [|[a u] rest] eqn:E; [destruct Hi|].
    pose proof (typed_head _ _ _ _ _ _ E) as Hlt.
    assert (Ea : (a, u) = (i, x)).
    { destruct Hi as [H|H]; [exact H|]. pose proof (Hlt _ _ H). destruct (Hall a u (or_introl eq_refl)) as [Q|Q]; lia. }
    injection Ea as -> ->. destruct Hj as [H|Hj]; [injection H as -> _; lia|].
    destruct (typed_tail _ _ _ _ _ _ E) as (k0 & l0 & E0). symmetry in E0.
    destruct rest as [|[b w] rest]; [destruct Hj|].
    pose proof (typed_head _ _ _ _ _ _ E0) as Hlt2.
    assert (Eb : (b, w) = (j, y)).
    { destruct Hj as [H|H]; [exact H|]. pose proof (Hlt2 _ _ H).
      pose proof (Hlt b w (or_introl eq_refl)).
      destruct (Hall b w (or_intror (or_introl eq_refl))) as [Q|Q]; lia. }
    injection Eb as -> ->. simpl. auto.
Qed.

Lemma arg_groups_small l : length (map fst (arg_groups l)) <= length l.
Proof.
  unfold arg_groups.
  assert (G : forall l i g, length (map fst (arg_groups_from i l g)) <= length (map fst g) + length l).
  { clear. induction l as [|v l IH]; intros i g; simpl; [lia|]. etransitivity; [apply IH|].
    destruct (arg_type v) as [t|]; [|lia].
    assert (length (map fst (group_add t (i, v) g)) <= S (length (map fst g))); [|lia].
    clear. induction g as [|[k x] g IH]; simpl; [lia|]. destruct (t =?s k); simpl; lia. }
  apply (G l 0 []).
Qed.

Lemma big_groups_small {A} order (g : list (string * list A)) :
  Permutation (order (map fst g)) (map fst g) -> length (big_groups order g) <= length (map fst g).
Proof.
  intros Hp. rewrite <- (Permutation_length Hp). clear Hp. unfold big_groups.
  induction (order (map fst g)) as [|k ks IH]; cbn [flat_map]; [simpl; lia|]. rewrite app_length. cbn [length].
  destruct (assoc k g) as [l|]; [destruct (Nat.leb 2 (length l))|]; cbn [length]; lia.
Qed.

Lemma sol_swapargs_reach e n l t i j : printer_total e -> shuffles (e_order e) -> short_arrays n ->
  has_field n "arguments" (JArr l) -> first_two t l i j ->
  can_give (sol_swapargs e) n (gets_swapped "arguments" l i j n).
Proof.
  intros Hpp Hsh Hshort Hl Hft.
  destruct Hft as (Hij & (x & Hx & Tx) & (y & Hy & Ty) & Hno).
  assert (Hty : nth_error (typed t 0 l) 0 = Some (i, x) /\ nth_error (typed t 0 l) 1 = Some (j, y)).
  { apply first_two_typed. split; [|auto]. split; [exact Hij|]. split; [eauto|]. split; [eauto|exact Hno]. }
  destruct Hty as (T0 & T1).
  pose proof (arg_groups_typed l t 0 []) as HG. simpl in HG. fold (arg_groups l) in HG.
  destruct (assoc t (arg_groups l)) as [g|] eqn:Ea; [|rewrite <- HG in T0; discriminate].
  subst g. set (g := typed t 0 l) in *.
  assert (Hin : In g (big_groups (e_order e) (arg_groups l))).
  { unfold big_groups. apply in_flat_map. exists t. split.
    - eapply Permutation_in; [apply Permutation_sym, Hsh|]. eapply assoc_In_keys; eauto.
    - rewrite Ea. destruct (Nat.leb_spec 2 (length g)) as [|Hlt]; [now left|].
      assert (1 < length g) by (apply nth_error_Some; congruence). lia. }
  apply In_nth_error in Hin. destruct Hin as (k & Hk).
  set (gs := big_groups (e_order e) (arg_groups l)) in *.
  assert (Hkl : k < length gs) by (apply nth_error_Some; congruence).
  assert (Hgl : length gs <= length l).
  { etransitivity; [apply big_groups_small, Hsh|apply arg_groups_small]. }
  apply (can_give_one (N.of_nat k)). intros s p fuel E.
  unfold sol_swapargs, sol_swapargs_mutate. cbn [mu_mutate].
  destruct (take_present n "arguments" (JArr l)) as (n0 & Hk0); [plain|exact Hl|]. rewrite Hk0. fold gs.
  rewrite (index_now s p _ k E Hkl) by (pose proof (Hshort _ _ Hl); lia). cbn [bind].
  unfold vec_get at 1. rewrite Hk. cbn [bind]. unfold vec_get. rewrite T0, T1. cbn [bind].
  destruct (Hpp x) as (s1 & ->). destruct (Hpp y) as (s2 & ->). cbn [bind]. eexists. split; [reflexivity|].
  assert (Li : i < length l) by (apply nth_error_Some; congruence).
  assert (Lj : j < length l) by (apply nth_error_Some; congruence).
  exists (replace_at j x (replace_at i y l)). split; [apply exchanged_replace; auto; lia|].
  cbn [md_node done]. rewrite (vec_put_replace i) by exact Li. rewrite vec_put_replace by (rewrite length_replace_at; exact Lj).
  eapply field_take_set; [plain|exact Hk0].
Qed.

(** ** The two halves of the catalogue *)
Lemma sol_reach e t m n P :
  printer_total e -> shuffles (e_order e) -> sol_schema n ->
  sol_mutator_for e t = Some m -> mu_mutable m n = Ok true -> sol_outcome n t P -> can_give m n P.
Proof.
  intros Hpp Hord Hsc Hm Hmut Ho. pose proof (proj1 Hsc) as Hsh.
  pose proof (proj1 (sol_accepts_iff e t m n Hm) Hmut) as Hacc.
  destruct Ho.
  - assert (Hex : exists ops, m = sol_binop e (Generic g) ops /\ (forall x, In x class -> In x ops)).
    { destruct g; try discriminate H; injection H as <-; injection Hm as <-; eexists; (split; [reflexivity|]);
        intros x; simpl; tauto. }
    destruct Hex as (ops & -> & Hin). eapply sol_binop_reach; eauto.
  - injection Hm as <-. eapply sol_unary_reach; eauto.
  - injection Hm as <-. destruct Hacc as (Hty & _). apply (sol_assign_reach e n "bool" _ 0 Hpp Hsc Hty H).
    intros s p _. eexists _, _, _. split; [apply sol_bool_value|apply sol_bool_literal_node].
  - injection Hm as <-. destruct Hacc as (Hty & _).
    apply (sol_assign_reach e n ("uint" ++ show_N k) _ (Z.to_N (z - 0)) Hpp Hsc Hty H0). intros s p E.
    eexists _, _, _. split; [|apply (sol_number_literal_node z)].
    rewrite sol_uint_value by exact H. rewrite (range_now s p _ _ z H1 E). reflexivity.
  - injection Hm as <-. destruct Hacc as (Hty & _).
    apply (sol_assign_reach e n ("int" ++ show_N k) _ (Z.to_N (z - (- 2 ^ (Z.of_N k - 1)))) Hpp Hsc Hty H0). intros s p E.
    eexists _, _, _. split; [|apply (sol_number_literal_node z)].
    rewrite sol_int_value by exact H. rewrite (range_now s p _ _ z H1 E). reflexivity.
  - injection Hm as <-. eapply sol_delete_reach; eauto.
  - injection Hm as <-. eapply sol_call_reach; eauto.
  - injection Hm as <-. eapply sol_swapargs_reach; eauto.
  - injection Hm as <-. destruct Hacc as (_ & c & Hc & _).
    apply (gets_mono _ (eq (sol_bool_node b))); [intros v <-; apply sol_bool_literal_node|].
    apply (sol_if_reach e n c (if b then 0 else 1)%N _ Hpp Hc). destruct b; auto.
  - injection Hm as <-.
    apply (gets_mono _ (eq (sol_unary_node "!" true (sol_tuple_node [c])))); [intros v <-; apply sol_negation_node|].
    apply (sol_if_reach e n c 2 _ Hpp H). auto.
  - injection Hm as <-. rewrite <- (show_Z_of_N (k + 1)), N2Z.inj_add.
    eapply sol_int_reach_shift; eauto.
  - injection Hm as <-. replace (Z.of_N k - 1)%Z with (Z.of_N k + -1)%Z by lia.
    eapply sol_int_reach_shift; eauto.
  - injection Hm as <-. destruct Hacc as (_ & _ & v & Hv & _). eapply sol_int_reach_any; eauto.
  - injection Hm as <-. eapply sol_swapop_reach; eauto.
  - injection Hm as <-. eapply sol_swaplines_reach; eauto.
  - injection Hm as <-. eapply sol_require_reach; eauto.
  - injection Hm as <-. eapply sol_unchecked_reach; eauto.
  - injection Hm as <-. destruct Hacc as (_ & Hn).
    apply works0_reach; [intros; apply sol_delegate_works|].
    intros r fuel d Hd. destruct (sol_delegate_fact e fuel n r d Hmut Hd) as (_ & _ & Hf). exists (JStr "call"). auto.
Qed.
