(** Driving the Vyper operators with chosen draws, and nothing else coming out. *)
From Coq Require Import String Ascii List NArith ZArith Bool Lia Arith Permutation.
From Verif Require Import Base Json Rng MutationType Traverse OpCommon SolMutators VyMutators
  JsonFacts SpecOps SpecTotal SpecAccept SpecOrder SpecReach OpFacts TraverseFacts SolFacts VyFacts OpTotal OpTotalVy
  AcceptFacts OpProps OpClaims RecordWays ReachFacts.
Import ListNotations.
Open Scope list_scope.
Open Scope string_scope.

(** ** Operators *)
Lemma vy_binop_reach e t ops n op old new c :
  printer_total e -> has_field n "op" op -> is_vy old op -> assoc c reverse_operators = Some new -> In c ops ->
  (exists s, assoc old python_operators = Some s) -> new <> old ->
  can_give (vy_binop e t ops) n (gets "op" (field_becomes "ast_type" (JStr new) op) n).
Proof.
  intros Hpp Hop Hold Hc Hin (orig & Ho) Hne. apply In_nth_error in Hin. destruct Hin as (i & Hi).
  apply (can_give_one (N.of_nat i)). intros s p fuel E.
  unfold vy_binop, vy_binop_mutate. cbn [mu_mutate].
  destruct (take_present n "op" op) as (n0 & Hk); [plain|exact Hop|]. rewrite Hk.
  rewrite (proj2 (get_str_Some op "ast_type" old eq_refl) Hold).
  destruct (Hpp n) as (s1 & ->). cbn [bind]. rewrite Ho.
  rewrite (pick_now fuel _ _ _ _ _ (choose_now _ _ _ _ _ _ E Hi)).
  2:{ apply String.eqb_neq. intros ->. apply reverse_python in Hc.
      apply Hne. apply python_cases in Ho, Hc. clear - Ho Hc. simpl in Ho, Hc.
      repeat (destruct Ho as [Ho|Ho]; [injection Ho as <- <-;
        repeat (destruct Hc as [Hc|Hc]; [try discriminate Hc; injection Hc as <-; reflexivity|]); destruct Hc|]).
      destruct Ho. }
  cbn [bind]. rewrite Hc. destruct (Hpp (set_key n0 "op" (set_str op "ast_type" new))) as (s2 & ->). cbn [bind].
  eexists. split; [reflexivity|]. exists (set_str op "ast_type" new).
  split; [eapply field_set; [plain|exact Hold]|]. eapply field_take_set; [plain|exact Hk].
Qed.

Lemma class_names ops class new :
  forallb (fun t => match assoc t python_operators with
                    | Some c => (smem c ops && match assoc c reverse_operators with Some t' => t' =?s t | None => false end)%bool
                    | None => false end) class = true ->
  In new class -> exists c, In c ops /\ assoc c reverse_operators = Some new.
Proof.
  intros H Hin. rewrite forallb_forall in H. specialize (H new Hin).
  destruct (assoc new python_operators) as [c|]; [|discriminate H]. apply andb_true_iff in H. destruct H as (H1 & H2).
  exists c. split; [now apply smem_In'|]. destruct (assoc c reverse_operators) as [t|]; [|discriminate H2].
  apply String.eqb_eq in H2. now subst t.
Qed.

(** ** Assignment *)
Lemma vy_assign_reach e n (Q : json -> Prop) x y :
  printer_total e -> vy_schema n -> is_vy "Assign" n ->
  (forall s p, s p = x -> s (S p) = y -> exists v b r', vy_assign_value e (at_pos s p) = Ok (v, b, r') /\ Q v) ->
  can_give (vy_assign e) n (gets "value" Q n).
Proof.
  intros Hpp Hsc Et Hv. apply (can_give_two x y). intros s p fuel E E'.
  destruct (Hv s p E E') as (v & b & r' & Hval & HQ).
  unfold vy_assign, vy_assign_mutate. cbn [mu_mutate].
  destruct Hsc as (_ & Hr & _). destruct (Hr Et) as (old & Hold). unfold has_field in Hold. rewrite Hold.
  destruct (Hpp old) as (s1 & ->). cbn [bind]. rewrite Hval. cbn [bind].
  assert (Hg : oget (set_key n "value" v) "value" = Some v).
  { apply oget_set_key_same; [plain|]. apply oget_object in Hold. destruct Hold as (o & -> & _). reflexivity. }
  rewrite Hg. destruct (Hpp v) as (s2 & ->). cbn [bind]. eexists. split; [reflexivity|].
  exists v. split; [exact HQ|]. eapply field_set; [plain|exact Hold].
Qed.

Lemma parse_int_jint z : (-2 ^ 63 <= z < 2 ^ 64)%Z -> parse_int_literal z = jint z.
Proof.
  change (-2 ^ 63)%Z with (-9223372036854775808)%Z. change (2 ^ 64)%Z with 18446744073709551616%Z. intros H.
  unfold parse_int_literal, jint. destruct (Z.leb_spec 0 z).
  - destruct (Z.ltb_spec z 18446744073709551616); [|lia]. destruct (Z.ltb_spec z 0); [lia|reflexivity].
  - destruct (Z.leb_spec (-9223372036854775808) z); [|lia]. destruct (Z.ltb_spec z 0); [reflexivity|lia].
Qed.

Lemma vy_int_node_spec z : (-2 ^ 63 <= z < 2 ^ 64)%Z -> vy_integer z (vy_int_node z).
Proof. intros H. unfold vy_int_node. rewrite parse_int_jint by exact H. split; reflexivity. Qed.

Lemma vy_int_node_huge z : ~ (-2 ^ 63 <= z < 2 ^ 64)%Z -> vy_huge (vy_int_node z).
Proof.
  change (-2 ^ 63)%Z with (-9223372036854775808)%Z. change (2 ^ 64)%Z with 18446744073709551616%Z. intros H.
  split; [reflexivity|]. unfold vy_int_node, parse_int_literal. destruct (Z.leb_spec 0 z).
  - destruct (Z.ltb_spec z 18446744073709551616); [lia|]. destruct (round_f64 z) as [m x]. exists m, x. reflexivity.
  - destruct (Z.leb_spec (-9223372036854775808) z); [lia|]. destruct (round_f64 z) as [m x]. exists m, x. reflexivity.
Qed.

Lemma vy_assign_int_value e s p z : (-170141183460469231731687303715884105728 <= z < 170141183460469231731687303715884105727)%Z ->
  s p = 0%N -> s (S p) = Z.to_N (z + 170141183460469231731687303715884105728) ->
  exists b r', vy_assign_value e (at_pos s p) = Ok (vy_int_node z, b, r').
Proof.
  intros Hz E E'. unfold vy_assign_value. rewrite (mod_now s p 4 0 E) by (vm_compute; congruence). cbn [bind].
  rewrite (range_now s (S p) _ _ z Hz) by (rewrite E'; f_equal; lia). cbn [bind]. eauto.
Qed.

Lemma vy_assign_bool_value e s p b : s p = 2%N -> s (S p) = (if b : bool then 1 else 0)%N ->
  exists t r', vy_assign_value e (at_pos s p) = Ok (vy_bool_node b, t, r').
Proof.
  intros E E'. unfold vy_assign_value. rewrite (mod_now s p 4 2 E) by (vm_compute; congruence). cbn [bind].
  rewrite (mod_now s (S p) 2 _ E') by (destruct b; vm_compute; congruence). cbn [bind]. destruct b; eauto.
Qed.

Lemma vy_assign_decimal_value e s p d : s p = 3%N -> s (S p) = d ->
  exists t r', vy_assign_value e (at_pos s p) = Ok (vy_float_node (e_show_float e (e_rand_float e d)), t, r').
Proof.
  intros E E'. unfold vy_assign_value. rewrite (mod_now s p 4 3 E) by (vm_compute; congruence). cbn [bind].
  unfold draw. cbn [at_pos rstream rpos]. rewrite E'. eauto.
Qed.

(** ** Delete *)
Lemma vy_delete_reach_many e n l i x : short_arrays n ->
  has_field n "body" (JArr l) -> 2 <= length l -> nth_error l i = Some x ->
  can_give (vy_delete e) n (gets_at "body" l i (vy_commented x) n).
Proof.
  intros Hsh Hl Hlen Hi. assert (Li : i < length l) by (apply nth_error_Some; congruence).
  apply (can_give_one (N.of_nat i)). intros s p fuel E.
  unfold vy_delete, vy_delete_mutate. cbn [mu_mutate].
  destruct (take_present n "body" (JArr l)) as (n0 & Hk); [plain|exact Hl|]. rewrite Hk.
  rewrite (index_now s p _ i E Li (Hsh _ _ Hl)). cbn [bind]. unfold vec_get. rewrite Hi. cbn [bind].
  pose proof (slot_vec_put i (vy_comment_node x) l Li) as Hs. pose proof (proj1 (proj2 Hs)) as Hll.
  destruct (Nat.eqb_spec (length (vec_put i (vy_comment_node x) l)) 1) as [H1|H1]; [lia|]. cbn [bind].
  eexists. split; [reflexivity|]. exists (vy_comment_node x), (vec_put i (vy_comment_node x) l).
  split; [apply vy_comment_node_spec|]. split; [exact Hs|]. eapply field_take_set; [plain|exact Hk].
Qed.

Lemma vy_return_of_node (Q : json -> Prop) x : Q x -> vy_return_of Q (vy_return_node x).
Proof.
  intros H. split; [apply vy_return_spec|]. exists x. split; [exact H|].
  unfold vy_return_node, has_field. apply oget_set_key_same; [plain|reflexivity].
Qed.

Lemma vy_list_nones kind size : vy_nones kind size (vy_list_node size kind).
Proof.
  unfold vy_list_node, vy_nones. split.
  - unfold is_vy, has_field. rewrite oget_set_key_other by (plain || discriminate). reflexivity.
  - eexists. split; [apply oget_set_key_same; [plain|reflexivity]|]. split; [apply repeat_length|].
    apply Forall_forall. intros v Hv. apply repeat_spec in Hv. subst v. split; reflexivity.
Qed.

Lemma slice3_starts pre id : text_starts pre id -> String.length pre = 3 -> slice_to 3 id = Ok pre.
Proof. intros (rest & -> & Hc) Hl. now apply slice3. Qed.

Definition gives_filler (n0 : json) (F : list json -> Prop) : Prop :=
  exists x, forall s p, s p = x -> exists more b r', vy_delete_filler n0 (at_pos s p) = Ok (more, b, r') /\ F more.

Lemma land20 d : In (N.land d 20) [0; 4; 16; 20]%N.
Proof.
  assert (H : N.land d 20 = N.land (N.land d 31) 20) by (rewrite <- N.land_assoc; reflexivity).
  rewrite H. change 31%N with (N.ones 5). rewrite N.land_ones.
  assert (Hlt : (d mod 2 ^ 5 < 32)%N) by (apply N.mod_lt; discriminate).
  assert (Hall : forall k, (k < 32)%N -> In (N.land k 20) [0; 4; 16; 20]%N).
  { intros k Hk. assert (Hin : In k (map N.of_nat (seq 0 32))).
    { apply in_map_iff. exists (N.to_nat k). split; [apply N2Nat.id|]. apply in_seq. lia. }
    revert Hin. generalize k. apply Forall_forall. vm_compute.
    repeat (constructor; [tauto|]). constructor. }
  now apply Hall.
Qed.

Lemma vy_filler_reach n n0 F : oget n0 "returns" = oget n "returns" -> vy_filler n F -> gives_filler n0 F.
Proof.
  intros Hret HF. unfold gives_filler, vy_delete_filler. rewrite Hret.
  destruct HF as [Hno|ret id Q Hr Ht Hid HQ|ret kind l Hr Hin Ht Hl|ret t Hr Ht Hid Hel].
  - exists 0%N. intros s p _. destruct (oget n "returns") as [ret|] eqn:Er.
    + destruct (get_str ret "ast_type") as [t|] eqn:Et; [|do 3 eexists; split; [reflexivity|]; exists vy_pass_node; split; reflexivity].
      apply get_str_Some in Et; [|plain]. exfalso. exact (Hno ret t Er Et).
    + do 3 eexists. split; [reflexivity|]. exists vy_pass_node. split; reflexivity.
  - unfold has_field in Hr. rewrite Hr. rewrite (proj2 (get_str_Some ret "ast_type" "Name" eq_refl) Ht).
    change ("Name" =?s "Name") with true. cbv iota. rewrite (proj2 (get_str_Some ret "id" id eq_refl) Hid).
    destruct HQ as [id b Hs|id z Hs Hz|id z Hs Hz|id Hs]; rewrite (slice3_starts _ _ Hs) by reflexivity; cbn [bind].
    + exists (if b then 1 else 0)%N. intros s p E. change ("boo" =?s "boo") with true. cbv iota.
      rewrite (mod_now s p 2 _ E) by (destruct b; vm_compute; congruence). cbn [bind].
      do 3 eexists. split; [reflexivity|]. eexists. split; [|reflexivity]. apply vy_return_of_node.
      destruct b; apply vy_bool_constant_node.
    + exists (Z.to_N z). intros s p E. change ("uin" =?s "boo") with false. change ("uin" =?s "uin") with true. cbv iota.
      rewrite (mod_now s p 10 _ E) by (lia || (vm_compute; congruence)). cbn [bind].
      do 3 eexists. split; [reflexivity|]. eexists. split; [|reflexivity]. apply vy_return_of_node.
      rewrite Z2N.id by lia. apply vy_int_node_spec. change (-2 ^ 63)%Z with (-9223372036854775808)%Z.
      change (2 ^ 64)%Z with 18446744073709551616%Z. lia.
    + exists (Z.to_N (z + 10)). intros s p E. change ("int" =?s "boo") with false. change ("int" =?s "uin") with false.
      change ("int" =?s "int") with true. cbv iota. unfold next_u64, draw. cbn [at_pos rstream rpos]. rewrite E.
      do 3 eexists. split; [reflexivity|]. eexists. split; [|reflexivity]. apply vy_return_of_node.
      destruct Hz as [<-|[<-|[<-|[<-|[]]]]]; split; reflexivity.
    + exists 0%N. intros s p _. change ("str" =?s "boo") with false. change ("str" =?s "uin") with false.
      change ("str" =?s "int") with false. change ("str" =?s "str") with true. cbv iota.
      do 3 eexists. split; [reflexivity|]. eexists. split; [|reflexivity]. apply vy_return_of_node. split; reflexivity.
  - unfold has_field in Hr. rewrite Hr. rewrite (proj2 (get_str_Some ret "ast_type" kind eq_refl) Ht).
    exists 0%N. intros s p _. rewrite (proj2 (varr_of_spec ret "elements" l) Hl).
    simpl in Hin. destruct Hin as [<-|[<-|[]]]; do 3 eexists; (split; [reflexivity|]); eexists; (split; [|reflexivity]);
      apply vy_return_of_node; apply vy_list_nones.
  - unfold has_field in Hr. rewrite Hr. rewrite (proj2 (get_str_Some ret "ast_type" t eq_refl) Ht).
    exists 0%N. intros s p _. exists [], "", (at_pos s p). split; [|reflexivity].
    destruct (String.eqb_spec t "Name") as [->|].
    { destruct (get_str ret "id") as [id|] eqn:Eid; [|reflexivity]. apply get_str_Some in Eid; [|plain].
      exfalso. exact (Hid eq_refl id Eid). }
    destruct (t =?s "Pass"); [reflexivity|].
    destruct ((t =?s "Tuple") || (t =?s "List"))%bool eqn:Eo; [|reflexivity].
    destruct (varr_of ret "elements") as [l|] eqn:El; [|reflexivity]. apply varr_of_spec in El. exfalso.
    apply orb_true_iff in Eo. refine (Hel _ l El).
    destruct Eo as [Eo|Eo]; apply String.eqb_eq in Eo; subst t; simpl; auto.
Qed.

Lemma vy_delete_reach_only e n x F : has_field n "body" (JArr [x]) -> vy_filler n F ->
  can_give (vy_delete e) n
    (fun n' => exists c more, vy_commented x c /\ F more /\ field_becomes "body" (JArr (c :: more)) n n').
Proof.
  intros Hb HF.
  destruct (take_present n "body" (JArr [x])) as (n0 & Hk); [plain|exact Hb|].
  destruct (vy_filler_reach n n0 F) as (y & Hy).
  { apply (take_other n "body" "returns" (JArr [x]) n0); [plain|exact Hk|discriminate]. }
  { exact HF. }
  apply (can_give_two 0 y). intros s p fuel E E'.
  unfold vy_delete, vy_delete_mutate. cbn [mu_mutate]. rewrite Hk.
  rewrite (index_now s p (length [x]) 0 E) by (simpl; vm_compute; congruence || lia). cbn [bind vec_get nth_error].
  change (vec_put 0 (vy_comment_node x) [x]) with [vy_comment_node x]. cbn [length Nat.eqb].
  destruct (Hy s (S p) E') as (more & b & r' & Hm & HFm). rewrite Hm. cbn [bind].
  eexists. split; [reflexivity|]. exists (vy_comment_node x), more. split; [apply vy_comment_node_spec|].
  split; [exact HFm|]. eapply field_take_set; [plain|exact Hk].
Qed.

(** ** Calls, conditions, lines *)
Lemma vy_call_reach e n l x : printer_total e -> vy_schema n ->
  has_field n "args" (JArr l) -> In x l -> can_give (vy_call e) n (eq x).
Proof.
  intros Hpp (Hsh & _ & _ & Hno) Hl Hin. pose proof Hin as Hin'.
  apply In_nth_error in Hin. destruct Hin as (i & Hi).
  assert (Li : i < length l) by (apply nth_error_Some; congruence).
  apply (can_give_one (N.of_nat i)). intros s p fuel E.
  unfold vy_call, vy_call_mutate. cbn [mu_mutate]. rewrite (proj2 (varr_of_spec n "args" l) Hl).
  rewrite (pick_now fuel _ _ _ _ _ (index_now s p _ i E Li (Hsh _ _ Hl))).
  2:{ unfold vy_call_bad. rewrite Hi. destruct (get_str x "nodeType") as [t|] eqn:Et; [|reflexivity].
      apply get_str_Some in Et; [|plain]. exfalso. exact (Hno l x _ Hl Hin' Et). }
  cbn [bind]. unfold vec_get. rewrite Hi. cbn [bind].
  destruct (Hpp n) as (s1 & ->). destruct (Hpp x) as (s2 & ->). cbn [bind].
  eexists. split; reflexivity.
Qed.

Lemma exchanged_sym {A} i j (l l' : list A) : exchanged i j l l' -> exchanged j i l l'.
Proof.
  unfold exchanged. intros H. intuition (try congruence; eauto).
Qed.

Lemma vy_swapargs_reach e n l i j : printer_total e -> short_arrays n ->
  has_field n "args" (JArr l) -> i <> j -> i < length l -> j < length l ->
  can_give (vy_swapargs e) n (gets_swapped "args" l i j n).
Proof.
  intros Hpp Hsh Hl Hij Li Lj. apply (can_give_two (N.of_nat i) (N.of_nat j)). intros s p fuel E E'.
  unfold vy_swapargs, vy_swapargs_mutate. cbn [mu_mutate].
  destruct (take_present n "args" (JArr l)) as (n0 & Hk); [plain|exact Hl|]. rewrite Hk.
  destruct (length l) as [|[|[|m]]] eqn:Elen; try lia.
  - destruct l as [|a [|b [|c l]]]; try discriminate Elen. cbn [vec_get nth_error bind].
    destruct (Hpp a) as (s1 & ->). destruct (Hpp b) as (s2 & ->). cbn [bind]. eexists. split; [reflexivity|].
    exists [b; a]. split; [|eapply field_take_set; [plain|exact Hk]].
    assert (Hx : exchanged 0 1 [a; b] [b; a]) by (apply (exchanged_replace 0 1 a b [a; b]); (reflexivity || discriminate)).
    assert (Hc : (i = 0 /\ j = 1) \/ (i = 1 /\ j = 0)) by lia. destruct Hc as [(-> & ->)|(-> & ->)]; [exact Hx|].
    now apply exchanged_sym.
  - rewrite <- Elen in *. rewrite (index_now s p _ i E Li (Hsh _ _ Hl)). cbn [bind].
    rewrite (pick_now fuel _ _ _ _ _ (index_now s (S p) _ j E' Lj (Hsh _ _ Hl))) by (now apply Nat.eqb_neq).
    cbn [bind]. destruct (vec_get_lt l i Li) as (x & Ex & Hx). destruct (vec_get_lt l j Lj) as (y & Ey & Hy).
    rewrite Ex, Ey. cbn [bind]. destruct (Hpp x) as (s1 & ->). destruct (Hpp y) as (s2 & ->). cbn [bind].
    eexists. split; [reflexivity|]. exists (replace_at j x (replace_at i y l)).
    apply vec_get_ok in Ex, Ey.
    split; [now apply exchanged_replace|]. eapply field_take_set; [plain|exact Hk].
Qed.

Lemma vy_if_reach e n c k c' : printer_total e -> has_field n "test" c ->
  (k = 0%N /\ c' = vy_bool_node true) \/ (k = 1%N /\ c' = vy_bool_node false) \/
  (k = 2%N /\ c' = vy_unary_node "Not" c) ->
  can_give (vy_if e) n (gets "test" (eq c') n).
Proof.
  intros Hpp Hc Hk. apply (can_give_one k). intros s p fuel E.
  unfold vy_if, vy_if_mutate. cbn [mu_mutate]. unfold has_field in Hc. rewrite Hc.
  destruct (Hpp c) as (s1 & ->). cbn [bind].
  rewrite (mod_now s p 3 k E) by (try (intuition lia); vm_compute; discriminate). cbn [bind].
  destruct (take_present n "test" c) as (n0 & Hk0); [plain|exact Hc|]. rewrite Hk0.
  destruct (Hpp c') as (s2 & Hs2).
  destruct Hk as [(-> & ->)|[(-> & ->)|(-> & ->)]]; rewrite Hs2; cbn [bind]; eexists; (split; [reflexivity|]);
    eexists; (split; [reflexivity|]); (eapply field_set; [plain|exact Hc]) || (eapply field_take_set; [plain|exact Hk0]).
Qed.

Lemma vy_int_reach_shift e n z dd w : printer_total e ->
  (-2 ^ 63 < z < 2 ^ 63 - 1)%Z -> has_field n "value" (jint z) ->
  (dd = 1%Z /\ w = 0%N) \/ (dd = -1 /\ w = 1%N)%Z ->
  can_give (vy_int e) n (gets "value" (eq (jint (z + dd))) n).
Proof.
  change (2 ^ 63)%Z with 9223372036854775808%Z. change (-2 ^ 63)%Z with (-9223372036854775808)%Z.
  intros Hpp Hz Hv Hw. apply (can_give_one w). intros s p fuel E.
  unfold vy_int, vy_int_mutate. cbn [mu_mutate]. destruct (Hpp n) as (s1 & ->). cbn [bind].
  rewrite (mod_now s p 3 w E) by (try (intuition lia); vm_compute; discriminate). cbn [bind].
  unfold has_field in Hv. rewrite Hv. rewrite as_i64_jint by (apply in_i64_spec; lia).
  assert (Hs : i64_add (e_oc e) z dd = Ok (z + dd)%Z).
  { unfold i64_add. assert (Hin : in_i64 (z + dd) = true) by (apply in_i64_spec; lia). now rewrite Hin. }
  destruct (Hpp (set_key n "value" (jint (z + dd)))) as (s2 & Hs2).
  destruct Hw as [(-> & ->)|(-> & ->)].
  - change (N.eqb 0 0) with true. cbv iota. rewrite Hs. cbn [bind]. rewrite Hs2. cbn [bind]. eexists.
    split; [reflexivity|]. eexists. split; [reflexivity|]. eapply field_set; [plain|exact Hv].
  - change (N.eqb 1 0) with false. cbv iota. rewrite Hs. cbn [bind]. rewrite Hs2. cbn [bind]. eexists.
    split; [reflexivity|]. eexists. split; [reflexivity|]. eapply field_set; [plain|exact Hv].
Qed.

Lemma vy_int_reach_any e n v z : printer_total e -> has_field n "value" v -> (-2 ^ 63 <= z < 2 ^ 63)%Z ->
  can_give (vy_int e) n (gets "value" (eq (jint z)) n).
Proof.
  change (2 ^ 63)%Z with 9223372036854775808%Z. change (-2 ^ 63)%Z with (-9223372036854775808)%Z.
  intros Hpp Hv Hz.
  set (u := (if (0 <=? z)%Z then Z.to_N z else Z.to_N (z + 18446744073709551616))).
  assert (Hu : (u < 18446744073709551616)%N /\ u64_as_i64 u = z).
  { unfold u, u64_as_i64. destruct (Z.leb_spec 0 z).
    - split; [lia|]. destruct (N.ltb_spec (Z.to_N z) 9223372036854775808); lia.
    - split; [lia|]. destruct (N.ltb_spec (Z.to_N (z + 18446744073709551616)) 9223372036854775808); lia. }
  apply (can_give_two 2 u). intros s p fuel E E'.
  unfold vy_int, vy_int_mutate. cbn [mu_mutate]. destruct (Hpp n) as (s1 & ->). cbn [bind].
  rewrite (mod_now s p 3 2 E) by (try lia; vm_compute; discriminate). cbn [bind].
  unfold next_u64, draw. cbn [at_pos rstream rpos]. rewrite E'. rewrite N.mod_small by apply Hu. cbn [bind].
  rewrite (proj2 Hu). destruct (Hpp (set_key n "value" (jint z))) as (s2 & ->). cbn [bind].
  eexists. split; [reflexivity|]. eexists. split; [reflexivity|]. eapply field_set; [plain|exact Hv].
Qed.

Lemma as_i64_wf v z : wf v -> as_i64 v = Some z -> v = jint z.
Proof.
  intros Hv Ez. unfold as_i64 in Ez. destruct v as [| |x| | |]; try discriminate Ez.
  destruct x as [u|w|]; try discriminate Ez.
  - destruct (N.ltb_spec u 9223372036854775808); [|discriminate Ez]. injection Ez as <-. unfold jint.
    destruct (Z.ltb_spec (Z.of_N u) 0); [lia|]. now rewrite N2Z.id.
  - injection Ez as <-. simpl in Hv. unfold jint. destruct (Z.ltb_spec w 0); [reflexivity|lia].
Qed.

Lemma vy_int_reach_same e n : printer_total e -> wf n -> (forall z, ~ has_field n "value" (jint z)) ->
  can_give (vy_int e) n (eq n).
Proof.
  intros Hpp Hwf Hno. apply (can_give_one 0). intros s p fuel E.
  unfold vy_int, vy_int_mutate. cbn [mu_mutate]. destruct (Hpp n) as (s1 & Hs1). rewrite Hs1. cbn [bind].
  rewrite (mod_now s p 3 0 E) by (vm_compute; congruence). cbn [bind].
  destruct (oget n "value") as [v|] eqn:Ev.
  - destruct (as_i64 v) as [z|] eqn:Ez.
    + exfalso. apply (as_i64_wf v z (wf_oget _ _ _ Hwf Ev)) in Ez. subst v. exact (Hno z Ev).
    + cbn [bind]. rewrite Hs1. cbn [bind]. eexists. split; reflexivity.
  - cbn [bind]. rewrite Hs1. cbn [bind]. eexists. split; reflexivity.
Qed.

Lemma vy_swaplines_reach e n l i j x y : printer_total e -> short_arrays n ->
  has_field n "body" (JArr l) -> i <> j -> nth_error l i = Some x -> nth_error l j = Some y ->
  ~ is_vy "Return" x -> ~ is_vy "Return" y ->
  can_give (vy_swaplines e) n (gets_swapped "body" l i j n).
Proof.
  intros Hpp Hsh Hl Hij Hi Hj Hx Hy.
  assert (Li : i < length l) by (apply nth_error_Some; congruence).
  assert (Lj : j < length l) by (apply nth_error_Some; congruence).
  assert (Bi : ast_at "Return" l i = false).
  { unfold ast_at. rewrite Hi. destruct (is_ast "Return" x) eqn:Ea; [apply is_ast_spec in Ea; tauto|reflexivity]. }
  assert (Bj : ast_at "Return" l j = false).
  { unfold ast_at. rewrite Hj. destruct (is_ast "Return" y) eqn:Ea; [apply is_ast_spec in Ea; tauto|reflexivity]. }
  apply (can_give_two (N.of_nat i) (N.of_nat j)). intros s p fuel E E'.
  unfold vy_swaplines, vy_swaplines_mutate. cbn [mu_mutate].
  destruct (take_present n "body" (JArr l)) as (n0 & Hk); [plain|exact Hl|]. rewrite Hk.
  rewrite (pick_now fuel _ _ _ _ _ (index_now s p _ i E Li (Hsh _ _ Hl)) Bi). cbn [bind].
  rewrite (pick_now fuel _ _ _ _ _ (index_now s (S p) _ j E' Lj (Hsh _ _ Hl))).
  2:{ destruct (Nat.eqb_spec j i); [congruence|exact Bj]. }
  cbn [bind]. destruct (vec_swap_total i j l Hij Li Lj) as (l' & u & v & Hs). rewrite Hs. cbn [bind].
  destruct (Hpp u) as (s1 & ->). destruct (Hpp v) as (s2 & ->). cbn [bind]. eexists. split; [reflexivity|].
  exists l'. split; [eapply vec_swap_exchanged; eauto|]. eapply field_take_set; [plain|exact Hk].
Qed.

(** ** All of them *)
Lemma vy_reach e t m n P :
  printer_total e -> wf n -> vy_schema n -> vy_complete n -> vy_crash_free t n ->
  vy_mutator_for e t = Some m -> mu_mutable m n = Ok true -> vy_outcome e n t P -> can_give m n P.
Proof.
  intros Hpp Hwf Hsc Hco Hcf Hm Hmu Ho. pose proof (proj1 Hsc) as Hsh.
  pose proof (proj1 (vy_accepts_iff e t m n Hm) Hmu) as Hacc.
  destruct Ho as [g class op old new Hc Hop Hold Hin Hne|z Hz| |b|d|l i x Hl Hlen Hi|x F Hb HF|l x Hl Hin|l i j Hl Hij Li Lj
    |b|c Hc|z Hz Hv|z Hz Hv|z Hz|Hno|a b Ha Hb|l i j x y Hl Hij Hi Hj Hx Hy|x Hx].
  - assert (Hold' : exists s, assoc old python_operators = Some s).
    { destruct g; try discriminate Hc; injection Hc as <-; cbn [vy_accepts] in Hacc; try (destruct Hacc; fail);
        destruct Hacc as (_ & op0 & t0 & Ho0 & Ht0 & Hto0);
        unfold has_field, is_vy, has_field in *; rewrite Hop in Ho0; injection Ho0 as <-; rewrite Hold in Hto0;
        injection Hto0 as <-; simpl in Ht0;
        repeat (destruct Ht0 as [<-|Ht0]; [eexists; reflexivity|]); destruct Ht0. }
    assert (G : exists ops, m = vy_binop e (Generic g) ops /\ exists c, In c ops /\ assoc c reverse_operators = Some new).
    { destruct g; try discriminate Hc; injection Hc as <-; injection Hm as <-; eexists; (split; [reflexivity|]);
        (eapply class_names; [|exact Hin]); reflexivity. }
    destruct G as (ops & -> & c & Hcin & Hcr). eapply vy_binop_reach; eauto.
  - injection Hm as <-. cbn [vy_accepts] in Hacc.
    eapply (vy_assign_reach e n _ 0 (Z.to_N (z + 170141183460469231731687303715884105728))); auto. intros s p E E'.
    destruct (vy_assign_int_value e s p z) as (b & r' & Hv); auto.
    { change (-2 ^ 63)%Z with (-9223372036854775808)%Z in Hz. change (2 ^ 64)%Z with 18446744073709551616%Z in Hz. lia. }
    exists (vy_int_node z), b, r'. split; [exact Hv|]. now apply vy_int_node_spec.
  - injection Hm as <-. cbn [vy_accepts] in Hacc.
    eapply (vy_assign_reach e n _ 0 (Z.to_N (100000000000000000000 + 170141183460469231731687303715884105728))); auto. intros s p E E'.
    destruct (vy_assign_int_value e s p 100000000000000000000) as (b & r' & Hv); auto; [lia|].
    exists (vy_int_node 100000000000000000000), b, r'. split; [exact Hv|]. apply vy_int_node_huge. change (2 ^ 64)%Z with 18446744073709551616%Z. lia.
  - injection Hm as <-. cbn [vy_accepts] in Hacc.
    eapply (vy_assign_reach e n _ 2 (if b then 1 else 0)%N); auto. intros s p E E'.
    destruct (vy_assign_bool_value e s p b E E') as (t & r' & Hv).
    exists (vy_bool_node b), t, r'. split; [exact Hv|apply vy_bool_constant_node].
  - injection Hm as <-. cbn [vy_accepts] in Hacc.
    eapply (vy_assign_reach e n _ 3 d); auto. intros s p E E'.
    destruct (vy_assign_decimal_value e s p d E E') as (t & r' & Hv).
    eexists _, t, r'. split; [exact Hv|]. split; reflexivity.
  - injection Hm as <-. now apply vy_delete_reach_many.
  - injection Hm as <-. now apply vy_delete_reach_only.
  - injection Hm as <-. eapply vy_call_reach; eauto.
  - injection Hm as <-. now apply vy_swapargs_reach.
  - injection Hm as <-. destruct Hacc as (_ & c & Hc).
    apply (gets_mono _ (eq (vy_bool_node b))); [intros v <-; apply vy_bool_constant_node|].
    apply (vy_if_reach e n c (if b then 0 else 1)%N); auto. destruct b; auto.
  - injection Hm as <-. apply (gets_mono _ (eq (vy_unary_node "Not" c))); [intros v <-; apply vy_negation_node|].
    apply (vy_if_reach e n c 2%N); auto.
  - injection Hm as <-. eapply vy_int_reach_shift; eauto.
  - injection Hm as <-. apply (vy_int_reach_shift e n z (-1) 1); auto.
  - injection Hm as <-. cbn [vy_accepts] in Hacc. destruct (proj1 Hco Hacc) as (v & Hv). eapply vy_int_reach_any; eauto.
  - injection Hm as <-. now apply vy_int_reach_same.
  - injection Hm as <-. apply works0_reach; [intros; now apply vy_swapop_works|].
    intros r fuel d Hd. exact (proj2 (vy_swapop_fact e fuel n r d a b Hmu Hd Ha Hb Hcf)).
  - injection Hm as <-. eapply vy_swaplines_reach; eauto.
  - injection Hm as <-. apply works0_reach; [intros; now apply vy_unary_works|].
    intros r fuel d Hd. destruct (vy_unary_fact e fuel n r d Hmu Hd) as (_ & H). unfold has_field in *. congruence.
Qed.

(** ** Nothing else *)
Definition vy_listed (e : env) (n : json) (t : mutation_type) (n' : json) : Prop := exists P, vy_outcome e n t P /\ P n'.

Lemma vy_assign_listed e fuel n r d : vy_assign_mutate e fuel n r = Ok d -> vy_listed e n (Generic Assignment) (md_node d).
Proof.
  unfold vy_assign_mutate. intros H. destruct (oget n "value") as [v|] eqn:Ev; [|discriminate H].
  destruct (e_pp e v) as [s1| | |]; cbn [bind] in H; try discriminate H.
  destruct (vy_assign_value e r) as [[[v' b] r1]| | |] eqn:Ea; cbn [bind] in H; try discriminate H.
  destruct (oget (set_key n "value" v') "value"); [|discriminate H].
  destruct (e_pp e j) as [s2| | |]; cbn [bind] in H; try discriminate H. injection H as <-.
  assert (G : exists P, P v' /\ vy_outcome e n (Generic Assignment) (gets "value" P n)).
  { assert (Hi : forall z, exists P, P (vy_int_node z) /\ vy_outcome e n (Generic Assignment) (gets "value" P n)).
    { intros z. destruct (Z_le_dec (-2 ^ 63) z) as [Hlo|Hlo]; [destruct (Z_lt_dec z (2 ^ 64)) as [Hhi|Hhi]|].
      - exists (vy_integer z). split; [now apply vy_int_node_spec|now apply vo_assign_int].
      - exists vy_huge. split; [apply vy_int_node_huge; tauto|apply vo_assign_huge].
      - exists vy_huge. split; [apply vy_int_node_huge; tauto|apply vo_assign_huge]. }
    unfold vy_assign_value in Ea. destruct (next_mod 4 r) as [[k r2]| | |]; cbn [bind] in Ea; try discriminate Ea.
    destruct k as [|[k|[k|k|]|]].
    - destruct (gen_range _ _ r2) as [[z r3]| | |]; cbn [bind] in Ea; try discriminate Ea. injection Ea as <- _ _. apply Hi.
    - destruct (draw r2) as [x r3]. injection Ea as <- _ _. eexists. split; [|apply (vo_assign_decimal e n x)]. split; reflexivity.
    - destruct (draw r2) as [x r3]. injection Ea as <- _ _. eexists. split; [|apply (vo_assign_decimal e n x)]. split; reflexivity.
    - destruct (draw r2) as [x r3]. injection Ea as <- _ _. eexists. split; [|apply (vo_assign_decimal e n x)]. split; reflexivity.
    - destruct (next_mod 2 r2) as [[z r3]| | |]; cbn [bind] in Ea; try discriminate Ea. injection Ea as <- _ _.
      eexists. split; [|apply (vo_assign_bool e n (N.eqb z 1))]. apply vy_bool_constant_node.
    - destruct (gen_range _ _ r2) as [[z r3]| | |]; cbn [bind] in Ea; try discriminate Ea. injection Ea as <- _ _. apply Hi. }
  destruct G as (P & HP & Ho). eexists. split; [exact Ho|]. exists v'. split; [exact HP|]. eapply field_set; [plain|exact Ev].
Qed.

Lemma vy_filler_listed n n0 x r more b r' : oget n0 "returns" = oget n "returns" ->
  vy_supported (Generic DeleteStatement) n -> has_field n "body" (JArr [x]) ->
  vy_delete_filler n0 r = Ok (more, b, r') -> exists F, vy_filler n F /\ F more.
Proof.
  intros Hret Hsup Hb. unfold vy_delete_filler. rewrite Hret. intros H.
  destruct (oget n "returns") as [ret|] eqn:Er.
  2:{ injection H as <- _ _. eexists. split; [apply vf_pass|exists vy_pass_node; split; reflexivity].
      intros ret t Hr. unfold has_field in Hr. congruence. }
  destruct (get_str ret "ast_type") as [t|] eqn:Et.
  2:{ injection H as <- _ _. eexists. split; [apply vf_pass|exists vy_pass_node; split; reflexivity].
      intros ret' t Hr Ht. unfold has_field in Hr. rewrite Er in Hr. injection Hr as <-.
      apply get_str_Some in Ht; [|plain]. congruence. }
  apply get_str_Some in Et; [|plain].
  assert (Huq : forall t', is_vy t' ret -> t' = t).
  { intros t' Ht'. unfold is_vy, has_field in *. congruence. }
  destruct (String.eqb_spec t "Name") as [->|Hn].
  - destruct (get_str ret "id") as [id|] eqn:Eid.
    + apply get_str_Some in Eid; [|plain].
      destruct (Hsup x ret id Hb Er Et Eid) as (pre & Hin & rest & -> & Hc).
      assert (Hst : text_starts pre (pre ++ rest)) by (exists rest; auto).
      simpl in Hin. destruct Hin as [<-|[<-|[<-|[<-|[]]]]];
        rewrite (slice3_starts _ _ Hst) in H by reflexivity; cbn [bind] in H.
      * change ("boo" =?s "boo") with true in H. cbv iota in H.
        destruct (next_mod 2 r) as [[k r1]| | |]; cbn [bind] in H; try discriminate H. injection H as <- _ _.
        eexists. split; [eapply vf_named; eauto; apply (vd_bool _ (N.eqb k 1)); exact Hst|].
        eexists. split; [|reflexivity]. apply vy_return_of_node, vy_bool_constant_node.
      * change ("uin" =?s "boo") with false in H. change ("uin" =?s "uin") with true in H. cbv iota in H.
        destruct (next_mod 10 r) as [[k r1]| | |] eqn:Ek; cbn [bind] in H; try discriminate H. injection H as <- _ _.
        apply next_mod_lt in Ek.
        eexists. split; [eapply vf_named; eauto; apply (vd_uint _ (Z.of_N k)); [exact Hst|lia]|].
        eexists. split; [|reflexivity]. apply vy_return_of_node, vy_int_node_spec.
        change (-2 ^ 63)%Z with (-9223372036854775808)%Z. change (2 ^ 64)%Z with 18446744073709551616%Z. lia.
      * change ("int" =?s "boo") with false in H. change ("int" =?s "uin") with false in H.
        change ("int" =?s "int") with true in H. cbv iota in H. destruct (next_u64 r) as [k r1]. injection H as <- _ _.
        pose proof (land20 k) as Hl. set (w := N.land k 20) in *.
        eexists. split; [eapply vf_named; eauto; apply (vd_int _ (Z.of_N w - 10)); [exact Hst|]|].
        { destruct Hl as [<-|[<-|[<-|[<-|[]]]]]; simpl; auto. }
        eexists. split; [|reflexivity]. apply vy_return_of_node, vy_int_node_spec.
        destruct Hl as [<-|[<-|[<-|[<-|[]]]]]; vm_compute; intuition congruence.
      * change ("str" =?s "boo") with false in H. change ("str" =?s "uin") with false in H.
        change ("str" =?s "int") with false in H. change ("str" =?s "str") with true in H. cbv iota in H.
        injection H as <- _ _.
        eexists. split; [eapply vf_named; eauto; apply vd_str; exact Hst|].
        eexists. split; [|reflexivity]. apply vy_return_of_node. split; reflexivity.
    + injection H as <- _ _. exists (eq []). split; [|reflexivity]. eapply vf_nothing; [exact Er|exact Et| |].
      * intros _ id Hid. apply get_str_Some in Hid; [|plain]. congruence.
      * simpl. intros [Q|[Q|[]]]; discriminate Q.
  - destruct (t =?s "Pass") eqn:Ep.
    + apply String.eqb_eq in Ep. subst t. injection H as <- _ _. exists (eq []). split; [|reflexivity].
      eapply vf_nothing; [exact Er|exact Et|discriminate|]. simpl. intros [Q|[Q|[]]]; discriminate Q.
    + destruct ((t =?s "Tuple") || (t =?s "List"))%bool eqn:Eo.
      * assert (Hk : In t ["Tuple"; "List"]).
        { apply orb_true_iff in Eo. destruct Eo as [Eo|Eo]; apply String.eqb_eq in Eo; subst t; simpl; auto. }
        destruct (varr_of ret "elements") as [l|] eqn:El.
        -- apply varr_of_spec in El. injection H as <- _ _. eexists. split; [eapply vf_group; eauto|].
           eexists. split; [|reflexivity]. apply vy_return_of_node, vy_list_nones.
        -- injection H as <- _ _. exists (eq []). split; [|reflexivity].
           eapply vf_nothing; [exact Er|exact Et|tauto|]. intros _ l Hl. apply varr_of_spec in Hl. congruence.
      * injection H as <- _ _. exists (eq []). split; [|reflexivity].
        eapply vf_nothing; [exact Er|exact Et|tauto|]. intros Hk. exfalso.
        simpl in Hk. destruct Hk as [<-|[<-|[]]]; discriminate Eo.
Qed.

Lemma vy_delete_listed e fuel n r d : vy_supported (Generic DeleteStatement) n ->
  vy_delete_mutate e fuel n r = Ok d -> vy_listed e n (Generic DeleteStatement) (md_node d).
Proof.
  intros Hsup. unfold vy_delete_mutate. intros H.
  destruct (take_key n "body") as [[v n0]|] eqn:Ek; [|discriminate H].
  destruct v as [| | | |l|]; try discriminate H.
  assert (Hl : has_field n "body" (JArr l)) by (eapply take_arr; [plain|exact Ek]).
  destruct (random_index _ r) as [[i r1]| | |] eqn:Er; cbn [bind] in H; try discriminate H.
  destruct (vec_get l i) as [x| | |] eqn:Ex; cbn [bind] in H; try discriminate H. apply vec_get_ok in Ex.
  assert (Li : i < length l) by (apply nth_error_Some; congruence).
  pose proof (slot_vec_put i (vy_comment_node x) l Li) as Hs. pose proof (proj1 (proj2 Hs)) as Hll.
  destruct (Nat.eqb_spec (length (vec_put i (vy_comment_node x) l)) 1) as [H1|H1].
  - destruct (vy_delete_filler n0 r1) as [[[more b'] r3]| | |] eqn:Ef; cbn [bind] in H; try discriminate H.
    injection H as <-. rewrite Hll in H1. destruct l as [|y [|z l]]; simpl in H1; try lia.
    assert (i = 0) by (simpl in Li; lia). subst i. simpl in Ex. injection Ex as ->.
    destruct (vy_filler_listed n n0 x r1 more b' r3) as (F & HF & HFm); auto.
    { apply (take_other n "body" "returns" (JArr [x]) n0); [plain|exact Ek|discriminate]. }
    eexists. split; [eapply vo_delete_only; eauto|]. exists (vy_comment_node x), more.
    split; [apply vy_comment_node_spec|]. split; [exact HFm|]. eapply field_take_set; [plain|exact Ek].
  - cbn [bind] in H. injection H as <-. eexists. split; [eapply (vo_delete e n l i x); auto; lia|].
    exists (vy_comment_node x), (vec_put i (vy_comment_node x) l).
    split; [apply vy_comment_node_spec|]. split; [exact Hs|]. eapply field_take_set; [plain|exact Ek].
Qed.

Lemma vy_int_listed e fuel n r d : wf n -> vy_supported (Generic Integer) n ->
  (exists v, has_field n "value" v) -> vy_int_mutate e fuel n r = Ok d -> vy_listed e n (Generic Integer) (md_node d).
Proof.
  intros Hwf Hsup (v & Hv). unfold vy_int_mutate. intros H.
  destruct (e_pp e n) as [s1| | |]; cbn [bind] in H; try discriminate H.
  destruct (next_mod 3 r) as [[k r1]| | |] eqn:En; cbn [bind] in H; try discriminate H. apply next_mod_lt in En.
  unfold has_field in Hv. rewrite Hv in H.
  assert (Hsh : forall dd, (dd = 1 \/ dd = -1)%Z -> forall n' r2,
    match as_i64 v with
    | Some z => let? z' := i64_add (e_oc e) z dd in Ok (set_key n "value" (jint z'), r1)
    | None => Ok (n, r1)
    end = Ok (n', r2) -> vy_listed e n (Generic Integer) n').
  { intros dd Hd n' r2 Hx. destruct (as_i64 v) as [z|] eqn:Ez.
    - apply (as_i64_wf v z (wf_oget _ _ _ Hwf Hv)) in Ez. subst v. pose proof (Hsup z Hv) as Hz.
      unfold i64_add in Hx. assert (Hin : in_i64 (z + dd) = true) by (apply in_i64_spec; lia).
      rewrite Hin in Hx. cbn [bind] in Hx. injection Hx as <- _.
      assert (Hz' : (-2 ^ 63 < z < 2 ^ 63 - 1)%Z).
      { change (2 ^ 63)%Z with 9223372036854775808%Z. change (-2 ^ 63)%Z with (-9223372036854775808)%Z. lia. }
      destruct Hd as [->| ->].
      + eexists. split; [eapply vo_int_more; eauto|]. eexists. split; [reflexivity|]. eapply field_set; [plain|exact Hv].
      + eexists. split; [eapply vo_int_less; eauto|]. eexists. split; [reflexivity|]. eapply field_set; [plain|exact Hv].
    - injection Hx as <- _. eexists. split; [apply vo_int_same|reflexivity].
      intros z Hz. unfold has_field in Hz. rewrite Hv in Hz. injection Hz as ->. pose proof (Hsup z Hv) as Hb.
      rewrite as_i64_jint in Ez by (apply in_i64_spec; lia). discriminate Ez. }
  destruct (match k with 2%N => _ | _ => _ end) as [[n' r2]| | |] eqn:Em; cbn [bind] in H; try discriminate H.
  destruct (e_pp e n') as [s2| | |]; cbn [bind] in H; try discriminate H. injection H as <-. cbn [md_node done].
  assert (Hk : k = 0%N \/ k = 1%N \/ k = 2%N) by lia. destruct Hk as [->|[->| ->]].
  - change (N.eqb 0 0) with true in Em. cbv iota in Em. eapply Hsh; [|exact Em]. now left.
  - change (N.eqb 1 0) with false in Em. cbv iota in Em. eapply Hsh; [|exact Em]. now right.
  - unfold next_u64 in Em. destruct (draw r1) as [x r3]. injection Em as <- _.
    assert (Hlt : (x mod 18446744073709551616 < 18446744073709551616)%N) by (apply N.mod_lt; discriminate).
    eexists. split; [apply (vo_int_any e n (u64_as_i64 (x mod 18446744073709551616)))|].
    + apply u64_as_i64_in in Hlt. apply in_i64_spec in Hlt.
      change (2 ^ 63)%Z with 9223372036854775808%Z. change (-2 ^ 63)%Z with (-9223372036854775808)%Z. exact Hlt.
    + eexists. split; [reflexivity|]. eapply field_set; [plain|exact Hv].
Qed.

Lemma vy_swapargs_listed e fuel n r d :
  vy_swapargs_mutable n = Ok true -> vy_swapargs_mutate e fuel n r = Ok d ->
  vy_listed e n (Generic SwapFunctionArguments) (md_node d).
Proof.
  intros Hmu Hd. destruct (vy_swapargs_fact e fuel n r d Hmu Hd) as (l & l' & i & j & _ & Hl & Hx & Hf).
  eexists. split; [eapply (vo_swapargs e n l i j)|]; auto.
  all: try (destruct Hx as (Hx1 & Hx2 & Hx3 & Hx4 & Hx5); auto; fail).
  exists l'. auto.
Qed.

Lemma vy_only e t m fuel n r d :
  wf n -> vy_complete n -> vy_crash_free t n -> vy_mutator_for e t = Some m -> mu_mutable m n = Ok true ->
  mu_mutate m fuel n r = Ok d -> exists P, vy_outcome e n t P /\ P (md_node d).
Proof.
  intros Hwf Hco Hcf Hm Hmu Hd. change (vy_listed e n t (md_node d)).
  pose proof (proj1 (vy_accepts_iff e t m n Hm) Hmu) as Hacc.
  assert (Hop : forall g class, vy_class g = Some class -> t = Generic g -> vy_listed e n t (md_node d)).
  { intros g class Hc ->. destruct (vy_binop_claim e g class m fuel n r d Hc Hm Hmu Hd)
      as (op & op' & old & new & _ & Ho & Hold & _ & Hnew & Hne & Hf1 & Hf2).
    eexists. split; [eapply (vo_operator e n g); eauto|]. exists op'. auto. }
  destruct t as [g|so]; [destruct g|destruct so]; try discriminate Hm; try (eapply Hop; [|reflexivity]; reflexivity); injection Hm as <-.
  - exact (vy_assign_listed e fuel n r d Hd).
  - exact (vy_delete_listed e fuel n r d Hcf Hd).
  - destruct (vy_call_fact e fuel n r d Hmu Hd) as (l & _ & Hl & Hin).
    eexists. split; [eapply vo_call; eauto|reflexivity].
  - destruct (vy_if_fact e fuel n r d Hmu Hd) as (c & c' & _ & Hc & [Hx|[Hx|Hx]] & Hf).
    + eexists. split; [apply (vo_if_const e n true)|]. exists c'. auto.
    + eexists. split; [apply (vo_if_const e n false)|]. exists c'. auto.
    + eexists. split; [eapply vo_if_not; eauto|]. exists c'. auto.
  - apply (vy_int_listed e fuel n r d Hwf Hcf); [|exact Hd]. exact (proj1 Hco Hacc).
  - exact (vy_swapargs_listed e fuel n r d Hmu Hd).
  - cbn [vy_accepts] in Hacc. destruct Hacc as (Hty & _).
    assert (Hty' : is_vy "BinOp" n \/ is_vy "Compare" n) by (cbn [vy_crash_free vy_supported] in Hcf; tauto).
    destruct (proj2 Hco Hty') as (a & b & Ha & Hb).
    eexists. split; [eapply vo_swapop; eauto|]. exact (proj2 (vy_swapop_fact e fuel n r d a b Hmu Hd Ha Hb Hcf)).
  - destruct (vy_swaplines_fact e fuel n r d Hmu Hd) as (l & l' & i & j & _ & Hl & Hx & Hr & Hf).
    pose proof Hx as (Hij & Li & Lj & _).
    destruct (nth_error l i) as [x|] eqn:Ex; [|apply nth_error_None in Ex; lia].
    destruct (nth_error l j) as [y|] eqn:Ey; [|apply nth_error_None in Ey; lia].
    eexists. split; [eapply vo_swaplines; eauto|]. exists l'. auto.
  - destruct (vy_unary_fact e fuel n r d Hmu Hd) as (_ & Hx). eexists. split; [eapply vo_unary; eauto|reflexivity].
Qed.
