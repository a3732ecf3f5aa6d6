(** Facts about the vocabulary shared by the operators. *)
From Coq Require Import String Ascii List NArith ZArith Bool Lia Arith.
From Verif Require Import Base Json Rng MutationType Traverse OpCommon JsonFacts SpecOps TraverseFacts.
Import ListNotations.
Open Scope list_scope.

(** Case analysis on a computation known to return [Ok]. *)
Ltac ok_step H :=
  match type of H with
  | Ok _ = Ok _ => inversion H; subst; clear H
  | Err _ = Ok _ => discriminate H
  | Panic _ = Ok _ => discriminate H
  | Diverge = Ok _ => discriminate H
  | bind ?r _ = Ok _ =>
      let E := fresh "E" in destruct r eqn:E; cbn [bind] in H; [|discriminate H..]
  | (match ?x with pair _ _ => _ end) = Ok _ => is_var x; destruct x
  | (match ?x with _ => _ end) = Ok _ => let E := fresh "E" in destruct x eqn:E
  end; cbv beta iota in H || idtac.
Ltac ok_inv H := repeat (ok_step H).

Lemma smem_In' s l : smem s l = true <-> In s l.
Proof.
  induction l as [|x l IH]; simpl; [split; [discriminate|tauto]|].
  destruct (String.eqb_spec s x) as [->|E]; [tauto|]. rewrite IH. split; [auto|intros [->|H]; congruence].
Qed.

(** ** Accessors on ordinary keys *)
Lemma get_str_plain n k : plain_key k = true ->
  get_str n k = match oget n k with Some v => as_str v | None => None end.
Proof. intros H. unfold get_str. now rewrite kget_plain. Qed.
Lemma get_bool_plain n k : plain_key k = true ->
  get_bool n k = match oget n k with Some v => as_bool v | None => None end.
Proof. intros H. unfold get_bool. now rewrite kget_plain. Qed.
Lemma get_array_plain n k : plain_key k = true ->
  get_array n k = match oget n k with Some v => as_array v | None => None end.
Proof. intros H. unfold get_array. now rewrite kget_plain. Qed.
Lemma get_int_plain n k : plain_key k = true ->
  get_int n k = match oget n k with Some v => as_i64 v | None => None end.
Proof. intros H. unfold get_int. now rewrite kget_plain. Qed.

Lemma get_str_Some n k s : plain_key k = true -> get_str n k = Some s <-> oget n k = Some (JStr s).
Proof.
  intros H. rewrite get_str_plain by exact H. destruct (oget n k) as [v|]; [|split; discriminate].
  destruct v; simpl; split; congruence.
Qed.
Lemma get_bool_Some n k b : plain_key k = true -> get_bool n k = Some b <-> oget n k = Some (JBool b).
Proof.
  intros H. rewrite get_bool_plain by exact H. destruct (oget n k) as [v|]; [|split; discriminate].
  destruct v; simpl; split; congruence.
Qed.

Lemma oget_object n k v : oget n k = Some v -> exists o, n = JObj o /\ assoc k o = Some v.
Proof. destruct n; simpl; try discriminate. eauto. Qed.

Lemma assoc_In_keys {A} k (o : list (string * A)) v : assoc k o = Some v -> In k (map fst o).
Proof.
  induction o as [|[k' x] o IH]; simpl; [discriminate|].
  destruct (String.eqb_spec k k'); [left; congruence|right; auto].
Qed.

Lemma field_set n k v w :
  plain_key k = true -> oget n k = Some w -> field_becomes k v n (set_key n k v).
Proof.
  intros Hk Hw. apply oget_object in Hw. destruct Hw as (o & -> & Hw).
  rewrite set_key_plain by exact Hk. rewrite Hw. exists o, (obj_set k v o).
  repeat split; auto.
  - apply keys_obj_set.
  - eapply assoc_In_keys; eauto.
  - eapply assoc_obj_set_same; eauto.
  - intros k' H. now apply assoc_obj_set_other.
Qed.

Lemma take_set n k v w n0 :
  plain_key k = true -> take_key n k = Some (w, n0) ->
  oget n k = Some w /\ set_key n0 k v = set_key n k v.
Proof.
  intros Hk. rewrite take_key_plain by exact Hk. destruct n; try discriminate.
  destruct (assoc k o) as [x|] eqn:E; [|discriminate]. intros H; inversion H; subst.
  split; [exact E|]. rewrite !set_key_plain by exact Hk.
  rewrite E, (assoc_obj_set_same _ _ _ _ E). now rewrite obj_set_twice.
Qed.

Lemma take_other n k k' w n0 :
  plain_key k = true -> take_key n k = Some (w, n0) -> k' <> k -> oget n0 k' = oget n k'.
Proof.
  intros Hk. rewrite take_key_plain by exact Hk. destruct n; try discriminate.
  destruct (assoc k o) as [x|] eqn:E; [|discriminate]. intros H Hne; inversion H; subst. simpl.
  now apply assoc_obj_set_other.
Qed.

Lemma field_take_set n k v w n0 :
  plain_key k = true -> take_key n k = Some (w, n0) -> field_becomes k v n (set_key n0 k v).
Proof.
  intros Hk H. destruct (take_set n k v w n0 Hk H) as (A & ->). eapply field_set; eauto.
Qed.

(** ** Lists *)
Lemma vec_put_replace {A} i (x : A) l : i < length l -> vec_put i x l = replace_at i x l.
Proof.
  unfold vec_put, insert_at, remove_at. revert i; induction l as [|y l IH]; intros i Hi; simpl in Hi; [lia|].
  destruct i as [|i]; simpl; [reflexivity|]. f_equal. apply IH. lia.
Qed.

Lemma slot_replace {A} i (x : A) l : i < length l -> slot_becomes i x l (replace_at i x l).
Proof.
  intros H. repeat split; auto.
  - apply length_replace_at.
  - now apply nth_error_replace_at_eq.
  - intros k Hk. now apply nth_error_replace_at_neq.
Qed.

Lemma slot_vec_put {A} i (x : A) l : i < length l -> slot_becomes i x l (vec_put i x l).
Proof. intros H. rewrite vec_put_replace by exact H. now apply slot_replace. Qed.

Lemma vec_get_ok {A} (l : list A) i x : vec_get l i = Ok x -> nth_error l i = Some x.
Proof. unfold vec_get. destruct (nth_error l i); [congruence|discriminate]. Qed.

Lemma vec_get_lt {A} (l : list A) i : i < length l -> exists x, vec_get l i = Ok x /\ nth_error l i = Some x.
Proof.
  intros H. unfold vec_get. destruct (nth_error l i) as [x|] eqn:E; [eauto|]. apply nth_error_None in E. lia.
Qed.

Lemma nth_remove_at {A} i (l : list A) k :
  nth_error (remove_at i l) k = if Nat.ltb k i then nth_error l k else nth_error l (S k).
Proof.
  unfold remove_at. revert i k; induction l as [|y l IH]; intros i k.
  - rewrite firstn_nil, skipn_nil. simpl. destruct (k <? i)%nat, k; reflexivity.
  - destruct i as [|i]; simpl; [reflexivity|]. destruct k as [|k]; simpl; [reflexivity|].
    rewrite IH. unfold Nat.ltb. simpl. reflexivity.
Qed.

Lemma nth_insert_at {A} i (x : A) (l : list A) k : i <= length l ->
  nth_error (insert_at i x l) k =
  if Nat.ltb k i then nth_error l k else if Nat.eqb k i then Some x else nth_error l (k - 1).
Proof.
  unfold insert_at. revert i k; induction l as [|y l IH]; intros i k Hi; simpl in Hi.
  - replace i with 0 by lia. simpl. destruct k as [|k]; simpl; [reflexivity|]. rewrite Nat.sub_0_r. destruct k; reflexivity.
  - destruct i as [|i]; simpl.
    + destruct k as [|k]; simpl; [reflexivity|]. now rewrite Nat.sub_0_r.
    + destruct k as [|k]; simpl; [reflexivity|]. rewrite IH by lia. unfold Nat.ltb; simpl.
      destruct (k <=? i)%nat eqn:E1; destruct i; simpl; try reflexivity.
      * destruct (Nat.eqb k 0) eqn:E0; [reflexivity|]. apply Nat.eqb_neq in E0. destruct k; [lia|]. simpl. now rewrite Nat.sub_0_r.
      * destruct (Nat.leb k i) eqn:E2; [reflexivity|].
        destruct (Nat.eqb k (S i)) eqn:E3; [reflexivity|]. rewrite Nat.sub_0_r.
        apply Nat.leb_gt in E2. apply Nat.eqb_neq in E3. destruct k; [lia|]. simpl. now rewrite Nat.sub_0_r.
      * destruct (Nat.eqb k 0) eqn:E0; [reflexivity|]. apply Nat.eqb_neq in E0. destruct k; [lia|]. simpl. now rewrite Nat.sub_0_r.
      * destruct (Nat.leb k i) eqn:E2; [reflexivity|].
        destruct (Nat.eqb k (S i)) eqn:E3; [reflexivity|]. rewrite Nat.sub_0_r.
        apply Nat.leb_gt in E2. apply Nat.eqb_neq in E3. destruct k; [lia|]. simpl. now rewrite Nat.sub_0_r.
Qed.

Lemma length_remove_at {A} i (l : list A) : i < length l -> length (remove_at i l) = length l - 1.
Proof. intros H. unfold remove_at. rewrite app_length, firstn_length, skipn_length. lia. Qed.

Lemma length_insert_at {A} i (x : A) (l : list A) : i <= length l -> length (insert_at i x l) = S (length l).
Proof. intros H. unfold insert_at. rewrite app_length, firstn_length. simpl. rewrite skipn_length. lia. Qed.

Lemma vec_swap_exchanged {A} i j (l l' : list A) x y :
  i <> j -> i < length l -> j < length l -> vec_swap i j l = Ok (l', x, y) -> exchanged i j l l'.
Proof.
  intros Hij Hi Hj. unfold vec_swap.
  set (a := if Nat.leb j i then i else j). set (b := if Nat.leb j i then j else i).
  assert (Hab : b < a /\ a < length l /\ ((a = i /\ b = j) \/ (a = j /\ b = i))).
  { unfold a, b. destruct (Nat.leb_spec j i); lia. }
  clearbody a b. destruct Hab as (Hba & Hal & Hcase).
  intros H. ok_inv H. apply vec_get_ok in E. apply vec_get_ok in E0.
  rewrite nth_remove_at in E0. destruct (Nat.ltb_spec b a); [|lia].
  set (l2 := remove_at b (remove_at a l)).
  assert (Hl1 : length (remove_at a l) = length l - 1) by (apply length_remove_at; lia).
  assert (Hl2 : length l2 = length l - 2) by (unfold l2; rewrite length_remove_at; lia).
  assert (Hl3 : length (insert_at b x l2) = length l - 1) by (rewrite length_insert_at; lia).
  assert (Hlen : length (insert_at a y (insert_at b x l2)) = length l) by (rewrite length_insert_at; lia).
  assert (Hn : forall k, nth_error (insert_at a y (insert_at b x l2)) k =
     if Nat.eqb k a then nth_error l b else if Nat.eqb k b then nth_error l a else nth_error l k).
  { intros k. rewrite nth_insert_at by lia. rewrite E0, E.
    destruct (Nat.ltb_spec k a).
    - destruct (Nat.eqb_spec k a); [lia|]. rewrite nth_insert_at by lia.
      destruct (Nat.ltb_spec k b).
      + destruct (Nat.eqb_spec k b); [lia|]. unfold l2. rewrite nth_remove_at.
        destruct (Nat.ltb_spec k b); [|lia]. rewrite nth_remove_at. destruct (Nat.ltb_spec k a); [reflexivity|lia].
      + destruct (Nat.eqb_spec k b); [reflexivity|]. unfold l2. rewrite nth_remove_at.
        destruct (Nat.ltb_spec (k - 1) b); [lia|]. rewrite nth_remove_at.
        destruct (Nat.ltb_spec (S (k - 1)) a); [|lia]. f_equal. lia.
    - destruct (Nat.eqb_spec k a); [reflexivity|]. destruct (Nat.eqb_spec k b); [lia|].
      rewrite nth_insert_at by lia.
      destruct (Nat.ltb_spec (k - 1) b); [lia|]. destruct (Nat.eqb_spec (k - 1) b).
      + lia.
      + unfold l2. rewrite nth_remove_at. destruct (Nat.ltb_spec (k - 1 - 1) b); [lia|].
        rewrite nth_remove_at. destruct (Nat.ltb_spec (S (k - 1 - 1)) a); [lia|]. f_equal. lia. }
  repeat split; auto.
  - rewrite Hn. destruct Hcase as [(-> & ->)|(-> & ->)].
    + now rewrite Nat.eqb_refl.
    + destruct (Nat.eqb_spec i j); [lia|]. now rewrite Nat.eqb_refl.
  - rewrite Hn. destruct Hcase as [(-> & ->)|(-> & ->)].
    + destruct (Nat.eqb_spec j i); [lia|]. now rewrite Nat.eqb_refl.
    + now rewrite Nat.eqb_refl.
  - intros k H1 H2. rewrite Hn. destruct (Nat.eqb_spec k a), (Nat.eqb_spec k b); try reflexivity; lia.
Qed.

(** Exchanging keeps the elements. *)
Lemma exchanged_perm {A} i j (l l' : list A) : exchanged i j l l' -> forall x, In x l <-> In x l'.
Proof.
  intros (Hij & Hi & Hj & Hl & E1 & E2 & E3) x. split; intros H; apply In_nth_error in H; destruct H as (k & Hk).
  - destruct (Nat.eq_dec k i) as [->|H1]; [rewrite <- E2 in Hk; eapply nth_error_In; eauto|].
    destruct (Nat.eq_dec k j) as [->|H2]; [rewrite <- E1 in Hk; eapply nth_error_In; eauto|].
    rewrite <- E3 in Hk by auto. eapply nth_error_In; eauto.
  - destruct (Nat.eq_dec k i) as [->|H1]; [rewrite E1 in Hk; eapply nth_error_In; eauto|].
    destruct (Nat.eq_dec k j) as [->|H2]; [rewrite E2 in Hk; eapply nth_error_In; eauto|].
    rewrite E3 in Hk by auto. eapply nth_error_In; eauto.
Qed.

(** ** Random choices *)
Lemma pick_until_ok {A} fuel (next : rng -> res (A * rng)) bad r a r' :
  pick_until fuel next bad r = Ok (a, r') -> bad a = false /\ exists r0, next r0 = Ok (a, r').
Proof.
  revert r; induction fuel as [|fuel IH]; intros r; simpl; [discriminate|].
  destruct (next r) as [[x r1]| | |] eqn:E; simpl; try discriminate.
  destruct (bad x) eqn:Eb; [apply IH|]. intros H; inversion H; subst. eauto.
Qed.

Lemma choose_or_In {A} e (l : list A) r x r' : choose_or e l r = Ok (x, r') -> In x l.
Proof.
  unfold choose_or, choose. destruct l as [|y l]; [discriminate|].
  destruct (draw r) as [d r1]. destruct (nth_error (y :: l) _) as [z|] eqn:E; [|discriminate].
  intros H; inversion H; subst. eapply nth_error_In; eauto.
Qed.

Lemma next_mod_lt n r i r' : next_mod n r = Ok (i, r') -> (i < n)%N.
Proof.
  unfold next_mod. destruct n as [|p]; [discriminate|]. destruct (next_u64 r) as [d r1].
  intros H; inversion H; subst. apply N.mod_lt. discriminate.
Qed.

Lemma random_index_lt len r i r' : random_index len r = Ok (i, r') -> i < len.
Proof.
  unfold random_index. intros H. ok_inv H. apply next_mod_lt in E. lia.
Qed.

Lemma gen_range_bounds lo hi r z r' : gen_range lo hi r = Ok (z, r') -> (lo <= z < hi)%Z.
Proof.
  unfold gen_range. destruct (Z.ltb_spec lo hi); [|discriminate].
  destruct (draw r) as [d r1]. intros H0; inversion H0; subst.
  pose proof (Z.mod_pos_bound (Z.of_N d) (hi - lo)). lia.
Qed.
