(** On the nodes they accept, and for fair streams, the operators return. *)
From Coq Require Import String Ascii List NArith ZArith Bool Lia Arith.
From Verif Require Import Base Json Rng MutationType Traverse OpCommon SolMutators VyMutators
  JsonFacts SpecOps SpecTotal OpFacts TraverseFacts SolFacts VyFacts.
Import ListNotations.
Open Scope list_scope.
Open Scope string_scope.

Definition at_pos (s : nat -> N) (p : nat) : rng := {| rstream := s; rpos := p |}.

Lemma rng_eta r : r = at_pos (rstream r) (rpos r).
Proof. destruct r; reflexivity. Qed.

Lemma pick_until_ends {A} s (f : nat -> A) next bad pos :
  (forall p, next (at_pos s p) = Ok (f p, at_pos s (S p))) ->
  (exists k, pos <= k /\ bad (f k) = false) ->
  exists F k, forall fuel, F <= fuel ->
    pick_until fuel next bad (at_pos s pos) = Ok (f k, at_pos s (S k)).
Proof.
  intros Hn (k & Hk & Hb). remember (k - pos) as m eqn:Em. revert pos Hk Em.
  induction m as [|m IH]; intros pos Hk Em.
  - assert (pos = k) by lia. subst pos. exists 1, k. intros fuel Hf. destruct fuel as [|fuel]; [lia|].
    simpl. rewrite Hn. simpl. now rewrite Hb.
  - destruct (bad (f pos)) eqn:E.
    + destruct (IH (S pos)) as (F & k' & HF); [lia|lia|]. exists (S F), k'. intros fuel Hf.
      destruct fuel as [|fuel]; [lia|]. simpl. rewrite Hn. simpl. rewrite E. apply HF. lia.
    + exists 1, pos. intros fuel Hf. destruct fuel as [|fuel]; [lia|]. simpl. rewrite Hn. simpl. now rewrite E.
Qed.

Lemma next_mod_at s p n : (0 < n)%N ->
  next_mod n (at_pos s p) = Ok (((s p mod 2 ^ 64) mod n)%N, at_pos s (S p)).
Proof. intros H. destruct n; [lia|]. reflexivity. Qed.

Definition idx (s : nat -> N) (len p : nat) : nat := N.to_nat ((s p mod 2 ^ 64) mod N.of_nat len).

Lemma random_index_at s p len : 0 < len ->
  random_index len (at_pos s p) = Ok (idx s len p, at_pos s (S p)).
Proof. intros H. unfold random_index. rewrite next_mod_at by lia. reflexivity. Qed.

Lemma idx_fair s len i pos :
  fair (at_pos s 0) -> i < len -> (N.of_nat len <= 2 ^ 64)%N -> exists k, pos <= k /\ idx s len k = i.
Proof.
  intros Hf Hi Hl. destruct (Hf (N.of_nat len) (N.of_nat i) pos) as (k & Hk & H1 & _); [lia|lia|].
  exists k. split; [exact Hk|]. unfold idx. simpl in H1. rewrite H1. lia.
Qed.

Lemma fair_pos s p q : fair (at_pos s p) -> fair (at_pos s q).
Proof. intros H n i pos. apply (H n i pos). Qed.

(** Retry loops over list positions. *)
Lemma pick_index_ends s pos len bad i :
  fair (at_pos s 0) -> i < len -> (N.of_nat len <= 2 ^ 64)%N -> bad i = false ->
  exists F k, idx s len k < len /\ bad (idx s len k) = false /\ forall fuel, F <= fuel ->
    pick_until fuel (random_index len) bad (at_pos s pos) = Ok (idx s len k, at_pos s (S k)).
Proof.
  intros Hf Hi Hl Hb.
  destruct (pick_until_ends s (idx s len) (random_index len) bad pos) as (F & k & HF).
  - intros p. apply random_index_at. lia.
  - destruct (idx_fair s len i pos) as (k & Hk & Ek); auto. exists k. split; [exact Hk|]. now rewrite Ek.
  - exists F, k. pose proof (HF F (le_n F)) as HH.
    pose proof (pick_until_ok _ _ _ _ _ _ HH) as (Hb' & r0 & Hr0).
    split; [eapply random_index_lt; eauto|]. split; [exact Hb'|exact HF].
Qed.

(** Retry loops over a list of candidates. *)
Lemma choose_or_at {A} msg (x : A) (l : list A) s p :
  exists y, In y (x :: l) /\ nth_error (x :: l) (N.to_nat (s p mod N.of_nat (length (x :: l)))) = Some y /\
    choose_or msg (x :: l) (at_pos s p) = Ok (y, at_pos s (S p)).
Proof.
  unfold choose_or, choose, draw. cbn [at_pos rstream rpos].
  set (i := N.to_nat (s p mod N.of_nat (length (x :: l)))).
  assert (Hi : i < length (x :: l)).
  { unfold i. pose proof (N.mod_lt (s p) (N.of_nat (length (x :: l)))). simpl length in *. lia. }
  destruct (nth_error (x :: l) i) as [y|] eqn:E; [|apply nth_error_None in E; lia].
  exists y. split; [eapply nth_error_In; eauto|]. split; reflexivity.
Qed.

Lemma pick_choice_ends {A} s pos msg (d : A) (l : list A) bad i y :
  fair (at_pos s 0) -> nth_error l i = Some y -> bad y = false -> (N.of_nat (length l) <= 2 ^ 64)%N ->
  exists F k c, In c l /\ bad c = false /\ forall fuel, F <= fuel ->
    pick_until fuel (choose_or msg l) bad (at_pos s pos) = Ok (c, at_pos s (S k)).
Proof.
  intros Hf Hy Hb Hl. destruct l as [|x l]; [destruct i; discriminate|].
  assert (Hi : i < length (x :: l)) by (apply nth_error_Some; congruence).
  destruct (pick_until_ends s (fun p => nth (N.to_nat (s p mod N.of_nat (length (x :: l)))) (x :: l) d)
     (choose_or msg (x :: l)) bad pos) as (F & k & HF).
  - intros p. destruct (choose_or_at msg x l s p) as (z & _ & Hz & ->). now rewrite (nth_error_nth _ _ d Hz).
  - destruct (Hf (N.of_nat (length (x :: l))) (N.of_nat i) pos) as (k & Hk & _ & H2).
    + split; [simpl length; lia|exact Hl].
    + lia.
    + exists k. split; [exact Hk|]. cbn [at_pos rstream] in H2. rewrite H2. rewrite Nat2N.id.
      rewrite (nth_error_nth _ _ d Hy). exact Hb.
  - exists F, k. eexists. pose proof (HF F (le_n F)) as HH.
    pose proof (pick_until_ok _ _ _ _ _ _ HH) as (Hb' & r0 & Hr0).
    split; [eapply choose_or_In; eauto|]. split; [exact Hb'|exact HF].
Qed.

(** A list with two different members always offers an alternative. *)
Lemma alternative (l : list string) op :
  (exists a b, In a l /\ In b l /\ a <> b) -> exists i y, nth_error l i = Some y /\ String.eqb op y = false.
Proof.
  intros (a & b & Ha & Hb & Hab). destruct (String.eqb_spec op a) as [->|Hne].
  - apply In_nth_error in Hb. destruct Hb as (i & Hi). exists i, b. split; [exact Hi|]. now apply String.eqb_neq.
  - apply In_nth_error in Ha. destruct Ha as (i & Hi). exists i, a. split; [exact Hi|]. now apply String.eqb_neq.
Qed.

(** ** What "works" means *)
Definition works (m : mutator) (n : json) (r : rng) : Prop :=
  exists F d, forall fuel, F <= fuel -> mu_mutate m fuel n r = Ok d.

(** Loop-free operators do not look at the fuel. *)
Definition works0 (m : mutator) (n : json) (r : rng) : Prop :=
  exists d, forall fuel, mu_mutate m fuel n r = Ok d.

Lemma works0_works m n r : works0 m n r -> works m n r.
Proof. intros (d & H). exists 0, d. auto. Qed.

(** *** Solidity *)
Lemma sol_binop_works e t ops n s p :
  (exists a b, In a ops /\ In b ops /\ a <> b) -> (N.of_nat (length ops) <= 2 ^ 64)%N ->
  fair (at_pos s 0) -> sol_binop_mutable ops n = Ok true -> works (sol_binop e t ops) n (at_pos s p).
Proof.
  intros Hab Hlen Hf Hm. unfold works, sol_binop, sol_binop_mutable, sol_binop_mutate in *. cbn [mu_mutate].
  apply ok_inj in Hm. destruct (is_type "BinaryOperation" n); [|discriminate].
  destruct (get_str n "operator") as [op|]; [|discriminate].
  destruct (alternative ops op Hab) as (i & y & Hi & Hy).
  destruct (pick_choice_ends s p "RandomOperationFailure: invalid operator choice" "" ops
     (fun c => op =?s c) i y Hf Hi Hy Hlen) as (F & k & c & _ & _ & HF).
  exists F. eexists. intros fuel Hfu. rewrite (HF fuel Hfu). reflexivity.
Qed.

Lemma sol_unary_works e n s p :
  fair (at_pos s 0) -> sol_unary_mutable n = Ok true -> works (sol_unary e) n (at_pos s p).
Proof.
  intros Hf Hm. unfold works, sol_unary, sol_unary_mutable, sol_unary_mutate in *. cbn [mu_mutate].
  apply ok_inj in Hm. destruct (is_type "UnaryOperation" n); [|discriminate].
  destruct (get_bool n "prefix") as [b|]; [|discriminate].
  destruct (get_str n "operator") as [op|]; [|discriminate].
  assert (Hab : exists a b', In a (if b then prefix_operators else postfix_operators) /\
      In b' (if b then prefix_operators else postfix_operators) /\ a <> b').
  { exists "++", "--". destruct b; simpl; (split; [auto|split; [auto|discriminate]]). }
  destruct (alternative _ op Hab) as (i & y & Hi & Hy).
  destruct (pick_choice_ends s p "RandomOperationFailure: Did not select a good replacement operator" ""
     (if b then prefix_operators else postfix_operators) (fun c => op =?s c) i y Hf Hi Hy)
     as (F & k & c & _ & _ & HF).
  { destruct b; vm_compute; discriminate. }
  exists F. eexists. intros fuel Hfu. rewrite (HF fuel Hfu). reflexivity.
Qed.

Lemma gen_range_at lo hi s p : (lo < hi)%Z ->
  gen_range lo hi (at_pos s p) = Ok ((lo + Z.of_N (s p) mod (hi - lo))%Z, at_pos s (S p)).
Proof. intros H. unfold gen_range. destruct (Z.ltb_spec lo hi); [reflexivity|lia]. Qed.

Lemma sol_assign_value_total ts s p :
  ts = "bool" \/ (exists k, (0 < k <= 256)%N /\ ts = "uint" ++ show_N k) \/
  (exists k, (0 < k <= 127)%N /\ ts = "int" ++ show_N k) ->
  exists v bytes r', sol_assign_value ts (at_pos s p) = Ok (Some v, bytes, r').
Proof.
  intros [->|[(k & Hk & ->)|(k & Hk & ->)]]; unfold sol_assign_value.
  - change (slice_to 3 "bool") with (@Ok string "boo"). cbn [bind].
    change ("boo" =?s "int") with false. change ("boo" =?s "uin") with false.
    change ("boo" =?s "boo") with true. change ("bool" =?s "bool") with true. cbv iota.
    rewrite gen_range_at by lia. cbn [bind]. eauto.
  - destruct (show_N_digit k) as (c & s' & E & Hc & _).
    assert (Hcb : is_cont_byte c = false).
    { unfold show_N in E. destruct (N.to_uint k); simpl in E; inv E; reflexivity. }
    assert (S3 : slice_to 3 ("uint" ++ show_N k) = Ok "uin") by (unfold slice_to; rewrite E; reflexivity).
    assert (S4 : slice_from 4 ("uint" ++ show_N k) = Ok (show_N k)).
    { unfold slice_from. rewrite E. simpl. unfold is_char_boundary. simpl. rewrite Hcb. reflexivity. }
    rewrite S3. cbn [bind]. change ("uin" =?s "int") with false. change ("uin" =?s "uin") with true. cbv iota.
    rewrite S4. cbn [bind]. rewrite parse_unsigned_show by (change (2 ^ 32)%N with 4294967296%N; lia).
    rewrite gen_range_at; [cbn [bind]; eauto|].
    destruct (N.ltb_spec 128 k).
    + assert (2 ^ Z.of_N 128 > 1)%Z by reflexivity. lia.
    + assert (2 ^ 1 <= 2 ^ Z.of_N k)%Z by (apply Z.pow_le_mono_r; lia). lia.
  - destruct (show_N_digit k) as (c & s' & E & Hc & _).
    assert (Hcb : is_cont_byte c = false).
    { unfold show_N in E. destruct (N.to_uint k); simpl in E; inv E; reflexivity. }
    assert (S3 : slice_to 3 ("int" ++ show_N k) = Ok "int").
    { unfold slice_to. rewrite E. simpl. unfold is_char_boundary. simpl. rewrite Hcb. reflexivity. }
    assert (S4 : slice_from 3 ("int" ++ show_N k) = Ok (show_N k)).
    { unfold slice_from. rewrite E. simpl. unfold is_char_boundary. simpl. rewrite Hcb. reflexivity. }
    rewrite S3. cbn [bind]. change ("int" =?s "int") with true. cbv iota.
    rewrite S4. cbn [bind]. rewrite parse_unsigned_show by (change (2 ^ 32)%N with 4294967296%N; lia).
    destruct (N.ltb_spec 128 k); [lia|].
    destruct (N.eqb_spec k 0); [lia|]. destruct (N.eqb_spec k 128); [lia|]. cbn [orb].
    rewrite gen_range_at; [cbn [bind]; eauto|].
    assert (0 < 2 ^ (Z.of_N k - 1))%Z by (apply Z.pow_pos_nonneg; lia). lia.
Qed.

Lemma sol_assign_works e n s p :
  printer_total e -> sol_schema n -> sol_supported (Generic Assignment) n ->
  sol_assign_mutable n = Ok true -> works0 (sol_assign e) n (at_pos s p).
Proof.
  intros Hpp Hsc Hsup Hm. unfold works0, sol_assign, sol_assign_mutable, sol_assign_mutate in *. cbn [mu_mutate].
  destruct (is_type "Assignment" n) eqn:Et; [|discriminate]. apply is_type_spec in Et.
  destruct (sol_assign_type n) as [ts|] eqn:Ets; [|discriminate]. clear Hm.
  destruct Hsc as (_ & _ & Hr & _). destruct (Hr Et) as (rhs & Hrhs). unfold has_field in Hrhs. rewrite Hrhs.
  assert (Hty : ts = "bool" \/ (exists k, (0 < k <= 256)%N /\ ts = "uint" ++ show_N k) \/
     (exists k, (0 < k <= 127)%N /\ ts = "int" ++ show_N k)).
  { destruct Hsup as [H|[(k & Hk & H)|(k & Hk & H)]]; apply sol_assign_type_spec in H; rewrite Ets in H;
      injection H as ->; eauto. }
  destruct (sol_assign_value_total ts s p Hty) as (v & bytes & r' & Hv).
  destruct (Hpp rhs) as (s1 & Hs1). rewrite Hs1. cbn [bind]. rewrite Hv. cbn [bind].
  assert (Hg : oget (set_key n "rightHandSide" v) "rightHandSide" = Some v).
  { apply oget_set_key_same; [plain|]. apply oget_object in Hrhs. destruct Hrhs as (o & -> & _). reflexivity. }
  rewrite Hg. destruct (Hpp v) as (s2 & Hs2). rewrite Hs2. cbn [bind]. eexists. reflexivity.
Qed.

Lemma indexes_from_complete {A} (f : A -> bool) l i : existsb f l = true -> 0 < length (indexes_from i f l).
Proof.
  revert i; induction l as [|x l IH]; intros i; simpl; [discriminate|].
  destruct (f x); simpl; [lia|]. apply IH.
Qed.

Lemma is_type_object t n : is_type t n = true -> is_object n = true.
Proof.
  intros H. apply is_type_spec in H. unfold is_sol, has_field in H. apply oget_object in H.
  destruct H as (o & -> & _). reflexivity.
Qed.

Lemma existsb_ext' {A} (f g : A -> bool) l : (forall x, f x = g x) -> existsb f l = existsb g l.
Proof. intros H. induction l; simpl; congruence. Qed.

Lemma take_present n k v : plain_key k = true -> oget n k = Some v -> exists n0, take_key n k = Some (v, n0).
Proof.
  intros Hk H. apply oget_object in H. destruct H as (o & -> & H). rewrite take_key_plain by exact Hk.
  rewrite H. eauto.
Qed.

Lemma sol_delete_works e n s p :
  printer_total e -> sol_delete_mutable n = Ok true -> works0 (sol_delete e) n (at_pos s p).
Proof.
  intros Hpp Hm. unfold works0, sol_delete, sol_delete_mutable, sol_delete_mutate in *. cbn [mu_mutate].
  apply ok_inj in Hm. destruct (is_type "Block" n); [|discriminate].
  destruct (arr_of n "statements") as [l|] eqn:El; [|discriminate]. apply arr_of_spec in El.
  apply andb_prop in Hm. destruct Hm as (_ & Hex).
  destruct (take_present n "statements" (JArr l)) as (n0 & Hk); [plain|exact El|]. rewrite Hk.
  assert (Hlen : 0 < length (indexes (fun v => is_object v && is_type "ExpressionStatement" v)%bool l)).
  { apply indexes_from_complete. rewrite (existsb_ext' _ (is_type "ExpressionStatement")); [exact Hex|].
    intros x. destruct (is_type "ExpressionStatement" x) eqn:E.
    - now rewrite (is_type_object _ _ E).
    - now rewrite andb_false_r. }
  set (ix := indexes (fun v => is_object v && is_type "ExpressionStatement" v)%bool l) in *.
  rewrite random_index_at by exact Hlen. cbn [bind].
  assert (Hi : idx s (length ix) p < length ix).
  { unfold idx. pose proof (N.mod_lt (s p mod 2 ^ 64) (N.of_nat (length ix))). lia. }
  destruct (vec_get_lt ix _ Hi) as (i & Ei & Ei'). rewrite Ei. cbn [bind].
  pose proof (nth_error_In _ _ Ei') as Hin. apply indexes_from_spec in Hin. destruct Hin as (_ & x & Hx & _).
  rewrite Nat.sub_0_r in Hx. unfold vec_get. rewrite Hx. cbn [bind].
  destruct (Hpp x) as (s1 & ->). cbn [bind]. eexists. reflexivity.
Qed.

Lemma sol_call_works e n s p :
  printer_total e -> short_arrays n -> sol_supported (Generic FunctionCall) n -> fair (at_pos s 0) ->
  sol_call_mutable n = Ok true -> works (sol_call e) n (at_pos s p).
Proof.
  intros Hpp Hsh (l & Hl & x & Hx & Hnl) Hf Hm. unfold works, sol_call, sol_call_mutate. cbn [mu_mutate].
  rewrite (proj2 (arr_of_spec n "arguments" l) Hl).
  destruct (Hpp n) as (s1 & ->). cbn [bind].
  apply In_nth_error in Hx. destruct Hx as (i & Hi).
  destruct (pick_index_ends s p (length l) (type_at "Literal" l) i Hf) as (F & k & Hk & _ & HF).
  - apply nth_error_Some. congruence.
  - exact (Hsh _ _ Hl).
  - unfold type_at. rewrite Hi. destruct (is_type "Literal" x) eqn:E; [|reflexivity].
    apply is_type_spec in E. tauto.
  - destruct (vec_get_lt l _ Hk) as (y & Ey & _). destruct (Hpp y) as (s2 & Hs2).
    exists F. eexists. intros fuel Hfu. rewrite (HF fuel Hfu). cbn [bind]. rewrite Ey. cbn [bind]. rewrite Hs2.
    reflexivity.
Qed.

Lemma existsb_big_groups {A} order (g : list (string * list A)) :
  (forall k, In k (map fst g) -> In k (order (map fst g))) -> NoDup (map fst g) ->
  existsb (fun g => Nat.leb 2 (length (snd g))) g = true -> 0 < length (big_groups order g).
Proof.
  intros Ho Hnd H. apply existsb_exists in H. destruct H as ((k & l) & Hin & Hlen). cbn [snd] in Hlen.
  assert (Ha : assoc k g = Some l).
  { clear - Hnd Hin. induction g as [|[k' l'] g IH]; [destruct Hin|]. simpl in Hnd. inversion Hnd; subst.
    destruct Hin as [E|Hin]; simpl.
    - injection E as -> ->. now rewrite String.eqb_refl.
    - destruct (String.eqb_spec k k') as [->|_]; [|auto]. exfalso. apply H1. apply in_map_iff. exists (k', l). auto. }
  assert (Hi : In l (big_groups order g)).
  { unfold big_groups. apply in_flat_map. exists k. split.
    - apply Ho. apply in_map_iff. exists (k, l). auto.
    - rewrite Ha, Hlen. now left. }
  destruct (big_groups order g); [destruct Hi|simpl; lia].
Qed.

Lemma group_add_keys {A} t (x : A) g :
  NoDup (map fst g) -> NoDup (map fst (group_add t x g)) /\
  (forall k, In k (map fst (group_add t x g)) -> k = t \/ In k (map fst g)).
Proof.
  induction g as [|[k l] g IH]; simpl; intros H.
  - split; [constructor; [simpl; tauto|constructor]|]. intros k [->|[]]. now left.
  - inversion H as [|? ? Hn Hd]; subst. destruct (String.eqb_spec t k) as [->|Hne]; simpl.
    + split; [constructor; auto|]. intros k' [->|Hk]; auto.
    + destruct (IH Hd) as (A1 & A2). split.
      * constructor; [|exact A1]. intros Hin. destruct (A2 _ Hin) as [->|Hin']; congruence || tauto.
      * intros k' [->|Hk]; [auto|]. destruct (A2 _ Hk); auto.
Qed.

Lemma arg_groups_nodup l : NoDup (map fst (arg_groups l)).
Proof.
  unfold arg_groups. assert (G : forall l i g, NoDup (map fst g) -> NoDup (map fst (arg_groups_from i l g))).
  { clear. induction l as [|v l IH]; intros i g Hg; simpl; [exact Hg|]. apply IH.
    destruct (arg_type v) as [t|]; [|exact Hg]. now apply group_add_keys. }
  apply G. constructor.
Qed.

Lemma sol_swapargs_works e n s p :
  printer_total e -> order_total e -> sol_swapargs_mutable n = Ok true ->
  works0 (sol_swapargs e) n (at_pos s p).
Proof.
  intros Hpp Hord Hm. unfold works0, sol_swapargs, sol_swapargs_mutable, sol_swapargs_mutate in *. cbn [mu_mutate].
  apply ok_inj in Hm. destruct (is_type "FunctionCall" n); [|discriminate].
  destruct (arr_of n "arguments") as [l|] eqn:El; [|discriminate]. apply arr_of_spec in El.
  destruct (Nat.ltb 1 (length l)); [|discriminate].
  destruct (take_present n "arguments" (JArr l)) as (n0 & Hk); [plain|exact El|]. rewrite Hk.
  assert (Hlen : 0 < length (big_groups (e_order e) (arg_groups l))).
  { apply existsb_big_groups; [intros k Hin; now apply Hord|apply arg_groups_nodup|exact Hm]. }
  set (gs := big_groups (e_order e) (arg_groups l)) in *.
  rewrite random_index_at by exact Hlen. cbn [bind].
  assert (Hi : idx s (length gs) p < length gs).
  { unfold idx. pose proof (N.mod_lt (s p mod 2 ^ 64) (N.of_nat (length gs))). lia. }
  destruct (vec_get_lt gs _ Hi) as (g & Eg & Eg'). rewrite Eg. cbn [bind].
  pose proof (nth_error_In _ _ Eg') as Hin. unfold gs, big_groups in Hin. apply in_flat_map in Hin.
  destruct Hin as (key & _ & Hg). destruct (assoc key (arg_groups l)) as [g'|]; [|destruct Hg].
  destruct (Nat.leb_spec 2 (length g')) as [H2|]; [|destruct Hg]. destruct Hg as [->|[]].
  destruct g as [|[i1 a1] [|[i2 a2] g]]; simpl in H2; try lia. cbn [vec_get nth_error bind].
  destruct (Hpp a1) as (s1 & ->). destruct (Hpp a2) as (s2 & ->). cbn [bind]. eexists. reflexivity.
Qed.

Lemma sol_if_works e n s p :
  printer_total e -> sol_if_mutable n = Ok true -> works0 (sol_if e) n (at_pos s p).
Proof.
  intros Hpp Hm. unfold works0, sol_if, sol_if_mutable, sol_if_mutate in *. cbn [mu_mutate].
  apply ok_inj in Hm. destruct (is_type "IfStatement" n); [|discriminate].
  destruct (oget n "condition") as [c|] eqn:Ec; [|discriminate]. clear Hm.
  destruct (Hpp c) as (s1 & ->). cbn [bind]. rewrite next_mod_at by lia. cbn [bind].
  destruct (take_present n "condition" c) as (n0 & Hk); [plain|exact Ec|]. rewrite Hk.
  set (k := ((s p mod 2 ^ 64) mod 3)%N).
  set (n' := match k with 0%N => _ | _ => _ end).
  assert (Ho : is_object n = true) by (apply oget_object in Ec; destruct Ec as (o & -> & _); reflexivity).
  assert (Ho0 : is_object n0 = true).
  { rewrite take_key_plain in Hk by plain. destruct n; try discriminate. destruct (assoc "condition" o); [|discriminate].
    injection Hk as _ <-. reflexivity. }
  assert (Hc : exists c', oget n' "condition" = Some c').
  { unfold n'. destruct k as [|[q|q|]]; eexists; apply oget_set_key_same; (plain || assumption). }
  destruct Hc as (c' & Hc). rewrite Hc. destruct (Hpp c') as (s2 & ->). cbn [bind]. eexists. reflexivity.
Qed.

Lemma parse_i64_show k : (k < 9223372036854775808)%N -> parse_i64 (show_N k) = Some (Z.of_N k).
Proof.
  intros H. unfold parse_i64. destruct (show_N_digit k) as (c & s & E & Hc1 & Hc2).
  assert (P : match parse_digits (show_N k) with
      | Some n => if (n <? 2 ^ 63)%N then Some (Z.of_N n) else None | None => None end = Some (Z.of_N k)).
  { rewrite parse_show. change (2 ^ 63)%N with 9223372036854775808%N.
    destruct (N.ltb_spec k 9223372036854775808); [reflexivity|lia]. }
  rewrite E in *. destruct c as [[] [] [] [] [] [] [] []]; try exact P; congruence.
Qed.

Lemma sol_int_works e n s p :
  sol_supported (Generic Integer) n -> sol_int_mutable n = Ok true -> works0 (sol_int e) n (at_pos s p).
Proof.
  intros (k & Hk & Hv) Hm. unfold works0, sol_int, sol_int_mutate. cbn [mu_mutate]. clear Hm.
  rewrite next_mod_at by lia. cbn [bind].
  assert (Hg : get_str n "value" = Some (show_N k)) by (apply get_str_Some; [plain|exact Hv]). rewrite Hg.
  assert (Hs : forall dd, (dd = 1 \/ dd = -1)%Z -> exists v, sol_int_shift (e_oc e) (show_N k) dd = Ok v).
  { intros dd Hd. unfold sol_int_shift. rewrite parse_i64_show by lia. unfold i64_add.
    assert (Hin : in_i64 (Z.of_N k + dd) = true) by (apply in_i64_spec; lia). rewrite Hin. cbn [bind]. eauto. }
  destruct (Hs 1%Z) as (v1 & E1); [now left|]. destruct (Hs (-1)%Z) as (v2 & E2); [now right|].
  destruct ((s p mod 2 ^ 64) mod 3)%N as [|[q|[q|q|]|]].
  - change (N.eqb 0 0) with true. cbv iota. rewrite E1. cbn [bind]. eexists. reflexivity.
  - change (N.eqb (N.pos q~1) 0) with false. cbv iota. rewrite E2. cbn [bind]. eexists. reflexivity.
  - change (N.eqb (N.pos q~1~0) 0) with false. cbv iota. rewrite E2. cbn [bind]. eexists. reflexivity.
  - change (N.eqb (N.pos q~0~0) 0) with false. cbv iota. rewrite E2. cbn [bind]. eexists. reflexivity.
  - cbn. eexists. reflexivity.
  - change (N.eqb 1 0) with false. cbv iota. rewrite E2. cbn [bind]. eexists. reflexivity.
Qed.

Lemma sol_swapop_works e n s p :
  printer_total e -> sol_schema n -> sol_swapop_mutable n = Ok true -> works0 (sol_swapop e) n (at_pos s p).
Proof.
  intros Hpp Hsc Hm. unfold works0, sol_swapop, sol_swapop_mutable, sol_swapop_mutate in *. cbn [mu_mutate].
  apply ok_inj in Hm. destruct (is_type "BinaryOperation" n) eqn:Et; [|discriminate]. apply is_type_spec in Et.
  destruct Hsc as (_ & Hb & _). destruct (Hb Et) as ((a & Ha) & (b & Hb')).
  destruct (take_present n "leftExpression" a) as (n0 & Hk); [plain|exact Ha|]. rewrite Hk.
  assert (Hb0 : oget n0 "rightExpression" = Some b).
  { rewrite (take_other n "leftExpression" "rightExpression" a n0); [exact Hb'|plain|exact Hk|discriminate]. }
  destruct (take_present n0 "rightExpression" b) as (n1 & Hk1); [plain|exact Hb0|]. rewrite Hk1.
  destruct (Hpp a) as (s1 & ->). destruct (Hpp b) as (s2 & ->). cbn [bind]. eexists. reflexivity.
Qed.

Lemma vec_swap_total {A} i j (l : list A) : i <> j -> i < length l -> j < length l ->
  exists l' x y, vec_swap i j l = Ok (l', x, y).
Proof.
  intros Hij Hi Hj. unfold vec_swap.
  set (a := if Nat.leb j i then i else j). set (b := if Nat.leb j i then j else i).
  assert (Hab : b < a /\ a < length l) by (unfold a, b; destruct (Nat.leb_spec j i); lia).
  destruct (vec_get_lt l a) as (x & -> & _); [lia|]. cbn [bind].
  destruct (vec_get_lt (remove_at a l) b) as (y & -> & _); [rewrite length_remove_at; lia|]. cbn [bind]. eauto.
Qed.

(** The two loops of the line swappers. *)
Lemma two_picks s p len bad i j :
  fair (at_pos s 0) -> (N.of_nat len <= 2 ^ 64)%N -> i <> j -> i < len -> j < len ->
  bad i = false -> bad j = false ->
  exists F a b r1 r2, a <> b /\ a < len /\ b < len /\ forall fuel, F <= fuel ->
    pick_until fuel (random_index len) bad (at_pos s p) = Ok (a, r1) /\
    pick_until fuel (random_index len) (fun j => if Nat.eqb j a then true else bad j) r1 = Ok (b, r2).
Proof.
  intros Hf Hl Hij Hi Hj Bi Bj.
  destruct (pick_index_ends s p len bad i Hf Hi Hl Bi) as (F1 & k1 & A1 & A2 & A3).
  set (a := idx s len k1) in *.
  assert (Hc : exists c, c < len /\ (if Nat.eqb c a then true else bad c) = false).
  { destruct (Nat.eqb_spec i a) as [E|E].
    - exists j. split; [exact Hj|]. destruct (Nat.eqb_spec j a); [congruence|exact Bj].
    - exists i. split; [exact Hi|]. destruct (Nat.eqb_spec i a); [congruence|exact Bi]. }
  destruct Hc as (c & Hc & Bc).
  destruct (pick_index_ends s (S k1) len (fun j => if Nat.eqb j a then true else bad j) c Hf Hc Hl Bc)
    as (F2 & k2 & B1 & B2 & B3).
  exists (F1 + F2), a, (idx s len k2), (at_pos s (S k1)), (at_pos s (S k2)).
  split; [|split; [exact A1|split; [exact B1|]]].
  - intros E. rewrite <- E, Nat.eqb_refl in B2. discriminate.
  - intros fuel Hfu. split; [apply A3; lia|apply B3; lia].
Qed.

Lemma sol_swaplines_works e n s p :
  printer_total e -> short_arrays n -> sol_supported (Generic SwapLines) n -> fair (at_pos s 0) ->
  works (sol_swaplines e) n (at_pos s p).
Proof.
  intros Hpp Hsh (l & Hl & i & j & x & y & Hij & Hx & Hy & Nx & Ny) Hf.
  unfold works, sol_swaplines, sol_swaplines_mutate. cbn [mu_mutate].
  destruct (take_present n "statements" (JArr l)) as (n0 & Hk); [plain|exact Hl|]. rewrite Hk.
  destruct (two_picks s p (length l) (type_at "Return" l) i j Hf (Hsh _ _ Hl) Hij)
    as (F & a & b & r1 & r2 & Hab & Ha & Hb & HF).
  - apply nth_error_Some; congruence.
  - apply nth_error_Some; congruence.
  - unfold type_at. rewrite Hx. destruct (is_type "Return" x) eqn:E; [apply is_type_spec in E; tauto|reflexivity].
  - unfold type_at. rewrite Hy. destruct (is_type "Return" y) eqn:E; [apply is_type_spec in E; tauto|reflexivity].
  - destruct (vec_swap_total a b l Hab Ha Hb) as (l' & u & v & Hs).
    destruct (Hpp u) as (s1 & Hs1). destruct (Hpp v) as (s2 & Hs2).
    exists F. eexists. intros fuel Hfu. destruct (HF fuel Hfu) as (G1 & G2). rewrite G1. cbn [bind].
    rewrite G2. cbn [bind]. rewrite Hs. cbn [bind]. rewrite Hs1, Hs2. reflexivity.
Qed.

Lemma sol_require_works e n s p :
  printer_total e -> sol_schema n -> sol_require_mutable n = Ok true -> works0 (sol_require e) n (at_pos s p).
Proof.
  intros Hpp Hsc Hm. unfold works0, sol_require, sol_require_mutable, sol_require_mutate in *. cbn [mu_mutate].
  apply ok_inj in Hm. apply andb_prop in Hm. destruct Hm as (Hm & Hne). apply andb_prop in Hm. destruct Hm as (Et & _).
  apply is_type_spec in Et. destruct Hsc as (_ & _ & _ & Ha). destruct (Ha Et) as (l & Hl).
  rewrite (proj2 (arr_of_spec n "arguments" l) Hl).
  rewrite get_array_plain in Hne by plain. unfold has_field in Hl. rewrite Hl in Hne. simpl in Hne.
  destruct l as [|arg rest]; [discriminate|].
  destruct (Hpp arg) as (s1 & ->). destruct (Hpp (sol_require_node arg)) as (s2 & ->). cbn [bind].
  eexists. reflexivity.
Qed.

Lemma sol_unchecked_works e n s p :
  printer_total e -> short_arrays n -> sol_supported (Solidity UncheckedBlock) n -> fair (at_pos s 0) ->
  works (sol_unchecked e) n (at_pos s p).
Proof.
  intros Hpp Hsh (l & Hl & x & Hx & N1 & N2) Hf. unfold works, sol_unchecked, sol_unchecked_mutate. cbn [mu_mutate].
  destruct (take_present n "statements" (JArr l)) as (n0 & Hk); [plain|exact Hl|]. rewrite Hk.
  apply In_nth_error in Hx. destruct Hx as (i & Hi).
  destruct (pick_index_ends s p (length l) (fun i => type_at "Return" l i || type_at "UncheckedBlock" l i)%bool i Hf)
    as (F & k & Hki & _ & HF).
  - apply nth_error_Some. congruence.
  - exact (Hsh _ _ Hl).
  - unfold type_at. rewrite Hi.
    destruct (is_type "Return" x) eqn:E; [apply is_type_spec in E; tauto|].
    destruct (is_type "UncheckedBlock" x) eqn:E'; [apply is_type_spec in E'; tauto|]. reflexivity.
  - destruct (vec_get_lt l _ Hki) as (y & Ey & _). destruct (Hpp y) as (s1 & Hs1).
    set (id := match get_int y "id" with Some z => i64_as_u64 z | None => 9999999%N end).
    destruct (Hpp (sol_unchecked_node [y] id)) as (s2 & Hs2).
    exists F. eexists. intros fuel Hfu. rewrite (HF fuel Hfu). cbn [bind]. rewrite Ey. cbn [bind]. rewrite Hs1.
    cbn [bind]. fold id. rewrite Hs2. reflexivity.
Qed.

Lemma sol_delegate_works e n r : works0 (sol_delegate e) n r.
Proof. eexists. reflexivity. Qed.

Lemma two_of {A} (a b : A) l : In a l -> In b l -> a <> b -> exists x y, In x l /\ In y l /\ x <> y.
Proof. eauto. Qed.

Lemma sol_works e t m n r :
  printer_total e -> order_total e -> fair r -> sol_schema n -> sol_supported t n ->
  sol_mutator_for e t = Some m -> mu_mutable m n = Ok true -> works m n r.
Proof.
  intros Hpp Hord Hf Hsc Hsup Hm Hmut. rewrite (rng_eta r) in *. set (s := rstream r) in *. set (p := rpos r) in *.
  apply (fair_pos _ _ 0) in Hf. pose proof (proj1 Hsc) as Hsh.
  destruct t as [[]|[]]; simpl in Hm; injection Hm as <-.
  - apply sol_binop_works; auto; [apply (two_of "+" "-"); simpl; auto; discriminate|vm_compute; discriminate].
  - apply sol_binop_works; auto; [apply (two_of "&&" "||"); simpl; auto; discriminate|vm_compute; discriminate].
  - apply sol_binop_works; auto; [apply (two_of "&" "|"); simpl; auto; discriminate|vm_compute; discriminate].
  - apply sol_binop_works; auto; [apply (two_of "<<" ">>"); simpl; auto; discriminate|vm_compute; discriminate].
  - apply sol_binop_works; auto; [apply (two_of "==" "!="); simpl; auto; discriminate|vm_compute; discriminate].
  - apply works0_works. now apply sol_assign_works.
  - apply works0_works. now apply sol_delete_works.
  - now apply sol_call_works.
  - apply works0_works. now apply sol_if_works.
  - apply works0_works. now apply sol_int_works.
  - apply works0_works. now apply sol_swapargs_works.
  - apply works0_works. now apply sol_swapop_works.
  - now apply sol_swaplines_works.
  - now apply sol_unary_works.
  - apply works0_works. now apply sol_require_works.
  - now apply sol_unchecked_works.
  - apply works0_works. apply sol_delegate_works.
Qed.
