(** Proofs about the selection loop of the generator. *)
From Coq Require Import String Ascii List Bool NArith Arith Lia Permutation Sorted.
From Verif Require Import Base Json Rng Permissions MutationType Traverse OpCommon Language Paths Generator
  SpecTree SpecMutation SpecTotal SpecGenerator TraverseFacts OpOrder.
Import ListNotations.
Open Scope list_scope.

(** ** Sums over tables *)
Lemma times_reported t c : times t c = reported t c.
Proof. reflexivity. Qed.

Lemma mt_eqb_neq a b : a <> b -> mt_eqb a b = false.
Proof. unfold mt_eqb. destruct (mutation_type_eq_dec a b); congruence. Qed.

Lemma times_bump t u c : times u (ct_bump t c) = (if mt_eqb u t then 1 else 0) + times u c.
Proof.
  unfold times. induction c as [|[t' n] c IH]; simpl.
  - destruct (mt_eqb u t) eqn:E; reflexivity.
  - destruct (mt_eqb t t') eqn:E; simpl.
    + apply mt_eqb_eq in E. subst t'. destruct (mt_eqb u t); reflexivity.
    + destruct (mt_eqb u t') eqn:E'; [|exact IH].
      apply mt_eqb_eq in E'. subst t'.
      destruct (mt_eqb u t) eqn:E''; [|reflexivity].
      apply mt_eqb_eq in E''. subst. rewrite mt_eqb_refl in E. discriminate.
Qed.

Definition total (f : mutation_type -> nat) : nat := list_sum (map f all_mutation_types).

Lemma list_sum_map_add {A} (f g : A -> nat) l : list_sum (map (fun x => f x + g x) l) = list_sum (map f l) + list_sum (map g l).
Proof. induction l; simpl; lia. Qed.
Lemma list_sum_map_le {A} (f g : A -> nat) l : (forall x, In x l -> f x <= g x) -> list_sum (map f l) <= list_sum (map g l).
Proof.
  induction l as [|a l IH]; intros H; simpl; [lia|]. pose proof (H a (or_introl eq_refl)).
  assert (list_sum (map f l) <= list_sum (map g l)) by (apply IH; intros; apply H; now right). lia.
Qed.

Lemma total_le f g : (forall t, f t <= g t) -> total f <= total g.
Proof. intros H. apply list_sum_map_le. auto. Qed.
Lemma total_add f g : total (fun t => f t + g t) = total f + total g.
Proof. apply list_sum_map_add. Qed.
Lemma total_ext f g : (forall t, f t = g t) -> total f = total g.
Proof. intros H. unfold total. f_equal. apply map_ext. exact H. Qed.
Lemma total_one t : total (fun u => if mt_eqb u t then 1 else 0) = 1.
Proof. destruct t as [[]|[]]; reflexivity. Qed.
Lemma total_pick f t n : total (fun u => if mt_eqb u t then n else f u) + f t = total f + n.
Proof. destruct t as [[]|[]]; unfold total; simpl; lia. Qed.

Lemma total_bump t c : total (fun u => times u (ct_bump t c)) = S (total (fun u => times u c)).
Proof. rewrite (total_ext _ _ (fun u => times_bump t u c)), total_add, total_one. reflexivity. Qed.

Lemma available_total c : NoDup (map fst c) -> available c = total (fun t => times t c).
Proof.
  unfold available. induction c as [|[t n] c IH]; intros H; [reflexivity|].
  inversion H as [|? ? Hn Hd]; subst. simpl. rewrite (IH Hd).
  assert (E : forall u, times u ((t, n) :: c) = if mt_eqb u t then n else times u c).
  { intros u. unfold times. simpl. destruct (mt_eqb u t); reflexivity. }
  rewrite (total_ext _ _ E). pose proof (total_pick (fun u => times u c) t n) as Hp.
  assert (Ht : times t c = 0).
  { unfold times. clear - Hn. induction c as [|[t' m] c IH]; simpl; [reflexivity|].
    rewrite mt_eqb_neq; [apply IH|]; intros E; apply Hn; simpl; auto. }
  cbv beta in Hp. rewrite Ht in Hp. lia.
Qed.

Lemma pairs_total c : pairs c = total (fun t => times t c).
Proof. reflexivity. Qed.

Definition tally (t : mutation_type) (l : list mutation_type) : nat := length (filter (mt_eqb t) l).
Lemma tally_total l : total (fun t => tally t l) = length l.
Proof.
  induction l as [|a l IH]; [reflexivity|]. simpl. rewrite <- IH.
  rewrite (total_ext _ (fun t => (if mt_eqb t a then 1 else 0) + tally t l)).
  - now rewrite total_add, total_one.
  - intros t. unfold tally. simpl. destruct (mt_eqb t a); reflexivity.
Qed.

(** ** The sorted list of usable types *)
Lemma insert_type_in m l x : In x (insert_type m l) <-> x = m \/ In x l.
Proof.
  induction l as [|a l IH]; simpl; [intuition|]. destruct (Nat.leb (mt_rank m) (mt_rank a)); simpl; [intuition|].
  rewrite IH. intuition.
Qed.

Lemma sorted_in l x : In x (fold_right insert_type [] l) <-> In x l.
Proof. induction l as [|a l IH]; simpl; [tauto|]. rewrite insert_type_in, IH. intuition. Qed.

Lemma mt_rank_inj a b : mt_rank a = mt_rank b -> a = b.
Proof. destruct a as [[]|[]], b as [[]|[]]; simpl; congruence. Qed.

Lemma insert_type_sorted m l : StronglySorted (fun a b => mt_rank a <= mt_rank b) l ->
  StronglySorted (fun a b => mt_rank a <= mt_rank b) (insert_type m l).
Proof.
  induction 1 as [|a l Hl IH Ha]; simpl; [repeat constructor|].
  destruct (Nat.leb (mt_rank m) (mt_rank a)) eqn:E.
  - apply Nat.leb_le in E. constructor; [constructor; assumption|]. constructor; [exact E|].
    eapply Forall_impl; [|exact Ha]. simpl. lia.
  - apply Nat.leb_gt in E. constructor; [exact IH|]. apply Forall_forall. intros x Hx.
    apply insert_type_in in Hx as [->|Hx]; [lia|]. rewrite Forall_forall in Ha. now apply Ha.
Qed.

Lemma insert_type_perm m l : Permutation (insert_type m l) (m :: l).
Proof.
  induction l as [|a l IH]; simpl; [auto|]. destruct (Nat.leb (mt_rank m) (mt_rank a)); [auto|].
  rewrite IH. apply perm_swap.
Qed.

Lemma sort_perm l : Permutation (fold_right insert_type [] l) l.
Proof. induction l as [|a l IH]; simpl; [auto|]. now rewrite insert_type_perm, IH. Qed.

Lemma sort_sorted l : StronglySorted (fun a b => mt_rank a <= mt_rank b) (fold_right insert_type [] l).
Proof. induction l as [|a l IH]; simpl; [constructor|]. now apply insert_type_sorted. Qed.

Lemma sorted_unique l l' :
  StronglySorted (fun a b => mt_rank a <= mt_rank b) l -> StronglySorted (fun a b => mt_rank a <= mt_rank b) l' ->
  Permutation l l' -> l = l'.
Proof.
  revert l'. induction l as [|a l IH]; intros l' Hl Hl' Hp.
  - now apply Permutation_nil in Hp.
  - destruct l' as [|b l']; [apply Permutation_sym, Permutation_nil in Hp; discriminate|].
    inversion Hl as [|? ? Hs Ha]; subst. inversion Hl' as [|? ? Hs' Hb]; subst.
    rewrite Forall_forall in Ha, Hb.
    assert (Hab : a = b).
    { apply mt_rank_inj. apply Nat.le_antisymm.
      - assert (Hi : In b (a :: l)) by (eapply Permutation_in; [apply Permutation_sym; exact Hp|now left]).
        destruct Hi as [->|Hi]; [lia|now apply Ha].
      - assert (Hi : In a (b :: l')) by (eapply Permutation_in; [exact Hp|now left]).
        destruct Hi as [->|Hi]; [lia|now apply Hb]. }
    subst b. f_equal. apply IH; [assumption|assumption|]. now apply Permutation_cons_inv in Hp.
Qed.

Lemma ct_get_in t n c : NoDup (map fst c) -> (ct_get t c = Some n <-> In (t, n) c).
Proof.
  induction c as [|[t' m] c IH]; intros H; simpl; [split; [discriminate|tauto]|].
  inversion H as [|? ? Hn Hd]; subst. destruct (mt_eqb t t') eqn:E.
  - apply mt_eqb_eq in E. subst t'. split.
    + intros E. injection E as ->. now left.
    + intros [E|Hi]; [now injection E as ->|]. exfalso. apply Hn. apply (in_map fst) in Hi. exact Hi.
  - rewrite (IH Hd). split; [now right|]. intros [Ei|Hi]; [|exact Hi]. injection Ei as -> ->.
    rewrite mt_eqb_refl in E. discriminate.
Qed.

Lemma usable_in c t : NoDup (map fst c) -> (In t (usable_types c) <-> 0 < times t c).
Proof.
  intros H. unfold usable_types. rewrite sorted_in, in_map_iff. split.
  - intros ((t' & n) & E & Hi). simpl in E. subst t'. apply filter_In in Hi as (Hi & Hn). simpl in Hn.
    apply Nat.ltb_lt in Hn. unfold times. apply (proj2 (ct_get_in t n c H)) in Hi. now rewrite Hi.
  - unfold times. destruct (ct_get t c) as [n|] eqn:E; [|lia]. intros Hn. exists (t, n). split; [reflexivity|].
    apply filter_In. split; [now apply ct_get_in|]. simpl. now apply Nat.ltb_lt.
Qed.

(** ** The loop *)
Lemma choose_in {A} (l : list A) r x r' : choose l r = (Some x, r') -> In x l.
Proof.
  unfold choose. destruct l as [|a l]; [discriminate|]. destruct (draw r) as (d, r0).
  intros H. injection H as H <-. now apply nth_error_In in H.
Qed.

Lemma select_spec fuel c types : NoDup (map fst c) ->
  forall used chosen remaining r ts r',
  select_kinds fuel c types used chosen remaining r = Ok (ts, r') ->
  (forall t, times t used <= times t c) -> chosen = total (fun t => times t used) ->
  length ts = Nat.min remaining (available c - chosen) /\
  (forall t, In t ts -> In t types) /\
  (forall t, times t used + tally t ts <= times t c).
Proof.
  intros Hc. induction fuel as [|fuel IH]; intros used chosen remaining r ts r' H Hu Hch.
  - destruct remaining; [|discriminate]. injection H as <- <-.
    split; [reflexivity|]. split; [intros t []|]. intros t. unfold tally. simpl. specialize (Hu t). lia.
  - destruct remaining as [|rest].
    { injection H as <- <-. split; [reflexivity|]. split; [intros t []|]. intros t. unfold tally. simpl.
      specialize (Hu t). lia. }
    cbn [select_kinds] in H. destruct (choose types r) as ([t|], r1) eqn:Et; [|now apply IH in H].
    destruct (Nat.ltb (times t used) (times t c)) eqn:El.
    + apply Nat.ltb_lt in El.
      destruct (select_kinds fuel c types (ct_bump t used) (S chosen) rest r1) as [[ts1 r2]| | |] eqn:Es; try discriminate.
      injection H as <- <-.
      assert (Hu' : forall u, times u (ct_bump t used) <= times u c).
      { intros u. rewrite times_bump. destruct (mt_eqb u t) eqn:E; [apply mt_eqb_eq in E; subst; lia|apply Hu]. }
      destruct (IH _ _ _ _ _ _ Es Hu') as (A & B & C); [rewrite total_bump; congruence|].
      assert (Hav : S chosen <= available c).
      { rewrite (available_total c Hc), Hch, <- (total_bump t used). now apply total_le. }
      split; [|split].
      * cbn [length]. rewrite A. lia.
      * intros u [<-|Hi]; [now apply choose_in in Et|now apply B].
      * intros u. specialize (C u). rewrite times_bump in C. unfold tally in *. cbn [filter].
        destruct (mt_eqb u t); simpl in *; lia.
    + destruct (Nat.leb (available c) chosen) eqn:Ea.
      * injection H as <- <-. apply Nat.leb_le in Ea. split; [cbn [length]; lia|]. split; [intros u []|].
        intros u. unfold tally. simpl. specialize (Hu u). lia.
      * now apply IH in H.
Qed.

(** More fuel changes nothing. *)
Lemma select_more fuel c types : forall used chosen remaining r x,
  select_kinds fuel c types used chosen remaining r = Ok x ->
  forall fuel', fuel <= fuel' -> select_kinds fuel' c types used chosen remaining r = Ok x.
Proof.
  induction fuel as [|fuel IH]; intros used chosen remaining r x H fuel' Hle.
  - destruct remaining; [|discriminate]. destruct fuel'; exact H.
  - destruct fuel' as [|fuel']; [lia|]. destruct remaining as [|rest]; [exact H|].
    cbn [select_kinds] in *. destruct (choose types r) as ([t|], r1); [|apply IH; [exact H|lia]].
    destruct (Nat.ltb (times t used) (times t c)).
    + destruct (select_kinds fuel c types (ct_bump t used) (S chosen) rest r1) as [y| | |] eqn:E; try discriminate.
      rewrite (IH _ _ _ _ _ E fuel') by lia. exact H.
    + destruct (Nat.leb (available c) chosen); [exact H|]. apply IH; [exact H|lia].
Qed.

Lemma fair_from r r' : fair r -> rstream r' = rstream r -> fair r'.
Proof. unfold fair. intros H E. now rewrite E. Qed.

Lemma nth_index {A} (l : list A) x : In x l -> exists i, i < length l /\ nth_error l i = Some x.
Proof. intros H. apply In_nth_error in H as (i & Hi). exists i. split; [|exact Hi]. apply nth_error_Some. congruence. Qed.

Lemma usable_short c : NoDup (map fst c) -> (N.of_nat (length (usable_types c)) <= 2 ^ 64)%N.
Proof.
  intros H. assert (Hl : length (usable_types c) <= length all_mutation_types).
  { unfold usable_types. rewrite (Permutation_length (sort_perm _)). apply NoDup_incl_length.
    - clear - H. induction c as [|[t n] c IH]; [constructor|]. cbn [map filter fst snd] in *.
      inversion H as [|? ? Hn Hd]; subst. destruct (Nat.ltb 0 n); [|now apply IH]. cbn [map fst]. constructor; [|now apply IH].
      intros Hi. apply Hn. apply in_map_iff in Hi as (kv & E & Hi). apply filter_In in Hi as (Hi & _). rewrite <- E. now apply in_map.
    - intros [[]|[]] _; simpl; tauto. }
  cbn [all_mutation_types length] in Hl. lia.
Qed.

Lemma select_stops c types : NoDup (map fst c) -> (forall t, In t types <-> 0 < times t c) ->
  (N.of_nat (length types) <= 2 ^ 64)%N ->
  forall remaining used chosen r, fair r -> types <> [] ->
  (forall t, times t used <= times t c) -> chosen = total (fun t => times t used) ->
  exists fuel x, select_kinds fuel c types used chosen remaining r = Ok x.
Proof.
  intros Hc Ht Hsz. induction remaining as [|rest IH]; intros used chosen r Hf Hne Hu Hch.
  { exists 0, ([], r). reflexivity. }
  destruct (le_lt_dec (available c) chosen) as [Hfull|Hroom].
  - (* everything is used up: the next pick ends the loop *)
    destruct types as [|t0 types]; [congruence|].
    exists 1. cbn [select_kinds]. unfold choose. destruct (draw r) as (d, r1).
    destruct (nth_error (t0 :: types) (N.to_nat (d mod N.of_nat (length (t0 :: types))))) as [t|] eqn:En.
    2:{ apply nth_error_None in En.
        pose proof (N.mod_upper_bound d (N.of_nat (length (t0 :: types)))). cbn [length] in *. lia. }
    assert (Heq : times t used = times t c).
    { apply Nat.le_antisymm; [apply Hu|]. apply Nat.nlt_ge. intros Hlt.
      assert (total (fun u => times u (ct_bump t used)) <= total (fun u => times u c)).
      { apply total_le. intros u. rewrite times_bump. destruct (mt_eqb u t) eqn:E; [apply mt_eqb_eq in E; subst; lia|apply Hu]. }
      rewrite total_bump, <- (available_total c Hc) in H. lia. }
    rewrite Heq, Nat.ltb_irrefl. apply Nat.leb_le in Hfull. rewrite Hfull. eauto.
  - (* some type has room *)
    assert (Hex : exists t, times t used < times t c).
    { rewrite (available_total c Hc), Hch in Hroom. clear - Hroom.
      unfold total in Hroom. induction all_mutation_types as [|a l IHl]; simpl in Hroom; [lia|].
      destruct (le_lt_dec (times a c) (times a used)) as [H|H]; [apply IHl; lia|now exists a]. }
    destruct Hex as (t & Hlt). assert (Hin : In t types) by (apply Ht; lia).
    destruct (nth_index types t Hin) as (i & Hi & Hn).
    destruct (Hf (N.of_nat (length types)) (N.of_nat i) (rpos r) ltac:(split; [lia|exact Hsz]) ltac:(lia)) as (q & Hq & _ & Hm).
    remember (q - rpos r) as gap eqn:Eg. revert r Hf Hq Hm Eg.
    induction gap as [|gap IHg]; intros r Hf Hq Hm Eg.
    + assert (q = rpos r) by lia. subst q.
      destruct (IH (ct_bump t used) (S chosen) {| rstream := rstream r; rpos := S (rpos r) |}) as (fuel & x & Hx); try assumption.
      * intros u. rewrite times_bump. destruct (mt_eqb u t) eqn:E; [apply mt_eqb_eq in E; subst; lia|apply Hu].
      * rewrite total_bump. congruence.
      * exists (S fuel). cbn [select_kinds]. unfold choose, draw. destruct types as [|t0 types]; [destruct Hin|].
        rewrite Hm, Nat2N.id, Hn. apply Nat.ltb_lt in Hlt. rewrite Hlt, Hx. destruct x. cbn. eauto.
    + (* one draw before the lucky one *)
      destruct types as [|t0 types]; [congruence|].
      set (r1 := {| rstream := rstream r; rpos := S (rpos r) |}).
      assert (Hf1 : fair r1) by now apply (fair_from r).
      destruct (IHg r1 Hf1) as (fuel1 & x1 & Hx1); [simpl; lia|exact Hm|simpl; lia|].
      unfold choose, draw.
      destruct (nth_error (t0 :: types) (N.to_nat (rstream r (rpos r) mod N.of_nat (length (t0 :: types))))) as [u|] eqn:En.
      2:{ exists (S fuel1), x1. cbn [select_kinds]. unfold choose, draw. rewrite En. exact Hx1. }
      destruct (Nat.ltb (times u used) (times u c)) eqn:El.
      * assert (Hlu := El). apply Nat.ltb_lt in Hlu.
        destruct (IH (ct_bump u used) (S chosen) r1) as (fuel & x & Hx); try assumption.
        -- intros v. rewrite times_bump. destruct (mt_eqb v u) eqn:E; [apply mt_eqb_eq in E; subst; lia|apply Hu].
        -- rewrite total_bump. congruence.
        -- exists (S fuel). cbn [select_kinds]. unfold choose, draw. rewrite En, El. fold r1. rewrite Hx. destruct x. cbn. eauto.
      * exists (S fuel1), x1. cbn [select_kinds]. unfold choose, draw. rewrite En, El.
        apply Nat.leb_gt in Hroom. rewrite Hroom. exact Hx1.
Qed.
