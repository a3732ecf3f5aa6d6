(** Laws of the key based editing functions (C30). *)
From Coq Require Import String Ascii List NArith ZArith Bool Lia.
From Verif Require Import Base Json JsonFacts Rng Permissions MutationType Traverse OpCommon SolMutators
  VyMutators Comments Language SpecTree SpecMutation SpecJson OpOrder OpWf.
Import ListNotations.
Open Scope list_scope.
Open Scope string_scope.

Lemma get_ordinary o k : ordinary k -> kget (JObj o) k = assoc k o.
Proof.
  intros (H1 & H2). unfold kget. rewrite ptr_tokens_plain by assumption. simpl.
  destruct (assoc k o); reflexivity.
Qed.

Lemma set_ordinary o k v : ordinary k ->
  set_key (JObj o) k v = JObj (match assoc k o with Some _ => obj_set k v o | None => obj_insert k v o end).
Proof.
  intros (H1 & H2). unfold set_key. rewrite ptr_tokens_plain by assumption. simpl.
  destruct (assoc k o); reflexivity.
Qed.

Lemma take_ordinary o k : ordinary k ->
  take_key (JObj o) k = match assoc k o with
                        | Some v => Some (v, JObj (obj_set k JNull o))
                        | None => None
                        end.
Proof.
  intros (H1 & H2). unfold take_key, kget. rewrite ptr_tokens_plain by assumption. simpl.
  destruct (assoc k o); reflexivity.
Qed.

Lemma set_get_same o k v : ordinary k -> kget (set_key (JObj o) k v) k = Some v.
Proof.
  intros H. rewrite set_ordinary, get_ordinary by exact H.
  destruct (assoc k o) eqn:E; [eapply assoc_obj_set_same; eauto|apply assoc_obj_insert_same].
Qed.

Lemma set_get_other o k k' v : ordinary k -> ordinary k' -> k' <> k ->
  kget (set_key (JObj o) k v) k' = kget (JObj o) k'.
Proof.
  intros H H' Hne. rewrite set_ordinary by exact H. rewrite !get_ordinary by exact H'.
  destruct (assoc k o); [now apply assoc_obj_set_other|now apply assoc_obj_insert_other].
Qed.

Lemma take_law o k v j : ordinary k -> take_key (JObj o) k = Some (v, j) ->
  kget (JObj o) k = Some v /\ kget j k = Some JNull /\
  (forall k', ordinary k' -> k' <> k -> kget j k' = kget (JObj o) k') /\
  (forall w, set_key j k w = set_key (JObj o) k w).
Proof.
  intros H. rewrite take_ordinary by exact H. destruct (assoc k o) as [x|] eqn:E; [|discriminate].
  intros He. injection He as -> <-. split; [now rewrite get_ordinary|].
  split; [rewrite get_ordinary by exact H; eapply assoc_obj_set_same; eauto|]. split.
  - intros k' H' Hne. rewrite !get_ordinary by exact H'. now apply assoc_obj_set_other.
  - intros w. rewrite !set_ordinary by exact H. rewrite E, (assoc_obj_set_same k JNull v o E).
    now rewrite obj_set_twice.
Qed.

Lemma get_set_id o k v : ordinary k -> kget (JObj o) k = Some v -> set_key (JObj o) k v = JObj o.
Proof.
  intros H. rewrite get_ordinary, set_ordinary by exact H. intros E. rewrite E. now rewrite obj_set_self.
Qed.

Lemma set_set_same o k v w : ordinary k -> set_key (set_key (JObj o) k v) k w = set_key (JObj o) k w.
Proof.
  intros H. rewrite (set_ordinary o k v H). rewrite !set_ordinary by exact H.
  destruct (assoc k o) as [x|] eqn:E.
  - rewrite (assoc_obj_set_same k v x o E). now rewrite obj_set_twice.
  - rewrite assoc_obj_insert_same. f_equal. clear H. induction o as [|[k' y] o IH]; simpl.
    + now rewrite String.eqb_refl.
    + simpl in E. destruct (String.eqb_spec k k') as [->|Hne]; [discriminate|].
      destruct (str_ltb k k') eqn:El; simpl.
      * now rewrite String.eqb_refl.
      * destruct (String.eqb_spec k k'); [congruence|]. now rewrite (IH E).
Qed.

Lemma set_missing_nonobject j k v : kget j k = None -> is_object j = false -> set_key j k v = j.
Proof. apply set_key_missing_nonobject. Qed.

Lemma slash_key_lost :
  exists o k v, kget (set_key (JObj o) k v) k = None /\ kget (JObj o) k = None.
Proof. exists [], "a/b", (JStr "x"). vm_compute. split; reflexivity. Qed.

Lemma set_get_law j k v :
  ordinary k -> is_object j = true \/ kget j k <> None -> kget (set_key j k v) k = Some v.
Proof.
  intros Hk [H|H].
  - destruct j; try discriminate. now apply set_get_same.
  - unfold set_key, kget in *. destruct (ptr_upd (ptr_tokens k) (fun _ => v) j) as [j'|] eqn:E.
    + destruct (ptr_get (ptr_tokens k) j) as [w|] eqn:Ew; [|congruence].
      apply (ptr_upd_then_get _ _ _ _ _ E Ew).
    + apply ptr_upd_get in E. congruence.
Qed.

Lemma set_laws j k v :
  ordinary k ->
  (is_object j = true \/ kget j k <> None -> kget (set_key j k v) k = Some v) /\
  (is_object j = true -> forall k', ordinary k' -> k' <> k -> kget (set_key j k v) k' = kget j k') /\
  (is_object j = false -> kget j k = None -> set_key j k v = j) /\
  (is_object j = true -> forall w, set_key (set_key j k v) k w = set_key j k w) /\
  (is_object j = true -> kget j k = Some v -> set_key j k v = j).
Proof.
  intros Hk. split; [now apply set_get_law|].
  split; [intros H k' Hk' Hne; destruct j; try discriminate; now apply set_get_other|].
  split; [intros H1 H2; now apply set_missing_nonobject|].
  split; intros H; (destruct j; try discriminate); intros; [now apply set_set_same|now apply get_set_id].
Qed.

Lemma read_law o k : ordinary k -> kget (JObj o) k = assoc k o.
Proof. exact (get_ordinary o k). Qed.

(** ** Whole mutants, for C29 *)
Lemma sol_mutant_canonical e ts ps pm fuel ast t i r ast' mr r' :
  canonical ast ->
  mutate_ast (solidity e) ps (select_mutators (solidity e) ts []) pm fuel ast t i r = Ok (ast', mr, r') ->
  canonical ast'.
Proof.
  rewrite !canonical_wf. intros Ha H. eapply mutate_ast_wf; [| |exact Ha|exact H].
  - intros m n r0 d Hm Hn Hd. rewrite select_get in Hm by apply sol_mutator_type.
    destruct (existsb (mt_eqb t) ts); [|discriminate].
    cbn [solidity l_mutator_for mm_get] in Hm.
    destruct (sol_mutator_for e t) as [m'|] eqn:E; [|discriminate]. injection Hm as ->.
    eapply sol_keeps; eauto.
  - intros n id c Hc Hn. now apply wf_sol_insert.
Qed.

Lemma vy_mutant_canonical e ts ps pm fuel ast t i r ast' mr r' :
  canonical ast ->
  mutate_ast (vyper e) ps (select_mutators (vyper e) ts []) pm fuel ast t i r = Ok (ast', mr, r') ->
  canonical ast'.
Proof.
  rewrite !canonical_wf. intros Ha H. eapply mutate_ast_wf; [| |exact Ha|exact H].
  - intros m n r0 d Hm Hn Hd. rewrite select_get in Hm by apply vy_mutator_type.
    destruct (existsb (mt_eqb t) ts); [|discriminate].
    cbn [vyper l_mutator_for mm_get] in Hm.
    destruct (vy_mutator_for e t) as [m'|] eqn:E; [|discriminate]. injection Hm as ->.
    eapply vy_keeps; eauto.
  - intros n id c Hc Hn. now apply wf_vy_insert.
Qed.
