(** Facts about the store of preferences. *)
From Coq Require Import String Ascii List NArith ZArith Bool Lia Sorted.
From Verif Require Import Base Json JsonFacts SpecTree SpecJson Prefs SpecPrefs.
Import ListNotations.
Open Scope string_scope.
Open Scope list_scope.

Section Induction.
  Variable P : pval -> Prop.
  Hypothesis Hint : forall i, P (PInt i).
  Hypothesis Hfloat : forall f, P (PFloat f).
  Hypothesis Hstr : forall s, P (PStr s).
  Hypothesis Hbool : forall b, P (PBool b).
  Hypothesis Hmap : forall m, Forall (fun kv => P (snd kv)) m -> P (PMap m).
  Hypothesis Harr : forall a, Forall P a -> P (PArr a).
  Hypothesis Hnull : P PNull.

  Fixpoint pval_ind' (p : pval) : P p :=
    match p with
    | PInt i => Hint i
    | PFloat f => Hfloat f
    | PStr s => Hstr s
    | PBool b => Hbool b
    | PMap m =>
        Hmap m ((fix go (o : pmap) : Forall (fun kv => P (snd kv)) o :=
                   match o with
                   | [] => Forall_nil _
                   | kv :: o => Forall_cons _ (pval_ind' (snd kv)) (go o)
                   end) m)
    | PArr a =>
        Harr a ((fix go (l : list pval) : Forall P l :=
                   match l with
                   | [] => Forall_nil _
                   | x :: l => Forall_cons _ (pval_ind' x) (go l)
                   end) a)
    | PNull => Hnull
    end.
End Induction.

Lemma eqs_refl k : (k =?s k) = true.
Proof. apply String.eqb_refl. Qed.

Lemma assoc_in {A} k (m : list (string * A)) v : assoc k m = Some v -> In (k, v) m.
Proof.
  induction m as [|[k' w] m IH]; [discriminate|]. cbn.
  destruct (k =?s k') eqn:E; [apply String.eqb_eq in E|]; intro H; [inversion H; subst; auto|auto].
Qed.

Lemma assoc_none {A} k (m : list (string * A)) : assoc k m = None <-> ~ In k (map fst m).
Proof.
  induction m as [|[k' w] m IH]; cbn; [tauto|].
  destruct (k =?s k') eqn:E.
  - apply String.eqb_eq in E; subst. split; [discriminate|tauto].
  - apply String.eqb_neq in E. rewrite IH. split; intros H; [intros [->|X]; tauto|tauto].
Qed.

Lemma assoc_nodup {A} k (m : list (string * A)) v : NoDup (map fst m) -> In (k, v) m -> assoc k m = Some v.
Proof.
  induction m as [|[k' w] m IH]; cbn; [tauto|]. intros N [E|H]; inversion N; subst.
  - inversion E; subst. now rewrite eqs_refl.
  - destruct (k =?s k') eqn:E; [|auto]. apply String.eqb_eq in E; subst.
    exfalso. apply H2. change k' with (fst (k', v)). now apply in_map.
Qed.

Lemma hm_insert_same {A} k (v : A) m : assoc k (hm_insert k v m) = Some v.
Proof.
  unfold hm_insert. destruct (assoc k m) eqn:E; [eapply assoc_obj_set_same; eauto|].
  cbn. now rewrite eqs_refl.
Qed.

Lemma hm_insert_other {A} k k' (v : A) m : k' <> k -> assoc k' (hm_insert k v m) = assoc k' m.
Proof.
  intro N. unfold hm_insert. destruct (assoc k m); [now apply assoc_obj_set_other|].
  cbn. apply String.eqb_neq in N. now rewrite N.
Qed.

Lemma hm_insert_keys {A} k (v : A) m :
  map fst (hm_insert k v m) = match assoc k m with Some _ => map fst m | None => k :: map fst m end.
Proof. unfold hm_insert. destruct (assoc k m); [apply keys_obj_set|reflexivity]. Qed.

Lemma hm_insert_nodup {A} k (v : A) m : NoDup (map fst m) -> NoDup (map fst (hm_insert k v m)).
Proof.
  intro N. rewrite hm_insert_keys. destruct (assoc k m) eqn:E; [exact N|].
  constructor; [now apply assoc_none|exact N].
Qed.

(** Histories. *)

Definition upd (p : prefs) (kv : string * pval) : prefs := set_value p (fst kv) (snd kv).

Lemma after_app h x : after_updates (h ++ [x]) = upd (after_updates h) x.
Proof. unfold after_updates. now rewrite fold_left_app. Qed.

Lemma get_some h k v : get_value (after_updates h) k = Some v <-> last_update h k v.
Proof.
  induction h as [|[k' w] h IH] using rev_ind.
  - split; [discriminate|]. intros (b & a & E & _). destruct b; discriminate.
  - rewrite after_app. unfold upd, set_value, get_value. cbn [fst snd].
    destruct (String.eqb_spec k k') as [->|N].
    + rewrite hm_insert_same. split.
      * intro E; inversion E; subst. exists h, []. now split.
      * intros (b & a & E & F). destruct a as [|x a] using rev_ind.
        -- apply app_inj_tail in E as [_ E]. now inversion E.
        -- exfalso. apply F. rewrite app_comm_cons, app_assoc in E.
           apply app_inj_tail in E as [_ E]. subst x. rewrite map_app, in_app_iff. right; left; reflexivity.
    + rewrite hm_insert_other by exact N. fold (get_value (after_updates h) k). rewrite IH. split.
      * intros (b & a & E & F). exists b, (a ++ [(k', w)]). subst h. split; [now rewrite <- app_assoc|].
        rewrite map_app, in_app_iff. cbn. intros [X|[X|[]]]; congruence.
      * intros (b & a & E & F). destruct a as [|x a] using rev_ind.
        -- apply app_inj_tail in E as [_ E]. inversion E; congruence.
        -- clear IHa. rewrite app_comm_cons, app_assoc in E. apply app_inj_tail in E as [E _].
           exists b, a. split; [exact E|]. intro X. apply F. rewrite map_app, in_app_iff. now left.
Qed.

Lemma get_none h k : get_value (after_updates h) k = None <-> ~ In k (map fst h).
Proof.
  destruct (get_value (after_updates h) k) as [v|] eqn:E.
  - apply get_some in E as (b & a & -> & _). split; [discriminate|]. intro N. exfalso. apply N.
    rewrite map_app, in_app_iff. right; left; reflexivity.
  - split; [intros _ H|auto].
    assert (X : exists v, last_update h k v).
    { clear E. induction h as [|[k' w] h IH]; [contradiction|].
      destruct (in_dec string_dec k (map fst h)) as [I|I].
      - destruct (IH I) as (v & b & a & -> & F). exists v, ((k', w) :: b), a. now split.
      - destruct H as [<-|H]; [|contradiction]. exists w, [], h. now split. }
    destruct X as (v & X). apply get_some in X. congruence.
Qed.

Lemma after_nodup h : NoDup (map fst (after_updates h)).
Proof.
  induction h as [|x h IH] using rev_ind; [constructor|]. rewrite after_app. now apply hm_insert_nodup.
Qed.

Lemma len_law h : prefs_len (after_updates h) = length (nodup string_dec (map fst h)).
Proof.
  unfold prefs_len. rewrite <- (map_length fst).
  apply Nat.le_antisymm; apply NoDup_incl_length.
  - apply after_nodup.
  - intros k H. apply nodup_In. destruct (in_dec string_dec k (map fst h)) as [I|I]; [exact I|].
    apply get_none in I. apply assoc_none in I. contradiction.
  - apply NoDup_nodup.
  - intros k H. apply nodup_In in H. destruct (in_dec string_dec k (map fst (after_updates h))) as [I|I]; [exact I|].
    apply assoc_none in I. apply get_none in I. contradiction.
Qed.

(** Conversions. *)

Lemma ordinary_plain k : ordinary k -> ptr_tokens k = [k].
Proof. intros [A B]. now apply ptr_tokens_plain. Qed.

Lemma set_key_ordinary o k v : ordinary k ->
  set_key (JObj o) k v = JObj (match assoc k o with Some _ => obj_set k v o | None => obj_insert k v o end).
Proof.
  intro H. unfold set_key. rewrite ordinary_plain by exact H. cbn.
  destruct (assoc k o) eqn:E; reflexivity.
Qed.

Definition put (o : list (string * json)) (kv : string * json) : list (string * json) :=
  match assoc (fst kv) o with
  | Some _ => obj_set (fst kv) (snd kv) o
  | None => obj_insert (fst kv) (snd kv) o
  end.

Lemma put_same o k v : assoc k (put o (k, v)) = Some v.
Proof.
  unfold put; cbn. destruct (assoc k o) eqn:E; [eapply assoc_obj_set_same; eauto|apply assoc_obj_insert_same].
Qed.

Lemma put_other o k k' v : k' <> k -> assoc k' (put o (k, v)) = assoc k' o.
Proof.
  intro N. unfold put; cbn. destruct (assoc k o); [now apply assoc_obj_set_other|now apply assoc_obj_insert_other].
Qed.

Definition json_map (m : pmap) : list (string * json) :=
  fold_left (fun o kv => put o (fst kv, json_of_pval (snd kv))) m [].

Lemma json_of_map_fold m : forall o, Forall (fun kv => ordinary (fst kv)) m ->
  fold_left (fun j kv => set_key j (fst kv) (json_of_pval (snd kv))) m (JObj o)
  = JObj (fold_left (fun o kv => put o (fst kv, json_of_pval (snd kv))) m o).
Proof.
  induction m as [|[k v] m IH]; intros o F; [reflexivity|]. inversion F; subst. cbn [fold_left fst snd].
  rewrite set_key_ordinary by assumption. now rewrite IH.
Qed.

Lemma json_of_pmap m : json_of_pval (PMap m)
  = fold_left (fun j kv => set_key j (fst kv) (json_of_pval (snd kv))) m (JObj []).
Proof.
  cbn. generalize (JObj []) as j. induction m as [|[k v] m IH]; intro j; [reflexivity|]. cbn. apply IH.
Qed.

Lemma pval_of_obj o : pval_of_json (JObj o)
  = PMap (fold_left (fun m kv => hm_insert (fst kv) (pval_of_json (snd kv)) m) o []).
Proof.
  cbn. f_equal. generalize (@nil (string * pval)) as m. induction o as [|[k v] o IH]; intro m; [reflexivity|].
  cbn. apply IH.
Qed.

Lemma fold_put_assoc k m : forall o, NoDup (map fst m) ->
  assoc k (fold_left (fun o kv => put o (fst kv, json_of_pval (snd kv))) m o)
  = match assoc k m with Some v => Some (json_of_pval v) | None => assoc k o end.
Proof.
  induction m as [|[k' v] m IH]; intros o N; [reflexivity|]. inversion N; subst. cbn [fold_left fst snd].
  rewrite IH by assumption. cbn. destruct (String.eqb_spec k k') as [->|D].
  - apply assoc_none in H1. rewrite H1. apply put_same.
  - destruct (assoc k m); [reflexivity|]. now apply put_other.
Qed.

Lemma json_map_assoc k m : NoDup (map fst m) ->
  assoc k (json_map m) = option_map json_of_pval (assoc k m).
Proof. intro N. unfold json_map. rewrite fold_put_assoc by exact N. now destruct (assoc k m). Qed.

(** Objects with sorted keys. *)
Definition sorted (o : list (string * json)) : Prop :=
  StronglySorted (fun a b => str_ltb a b = true) (map fst o).

Lemma sorted_nodup o : sorted o -> NoDup (map fst o).
Proof.
  unfold sorted. induction (map fst o) as [|k l IH]; intro S; constructor; inversion S; subst.
  - intro I. rewrite Forall_forall in H2. apply H2 in I. rewrite str_ltb_irrefl in I. discriminate.
  - now apply IH.
Qed.

Lemma keys_insert k (v : json) o x : In x (map fst (obj_insert k v o)) -> x = k \/ In x (map fst o).
Proof.
  induction o as [|[k' w] o IH]; cbn; [intuition|].
  destruct (k =?s k'); [cbn; intuition|]. destruct (str_ltb k k'); cbn; intuition.
Qed.

Lemma sorted_insert k v o : sorted o -> sorted (obj_insert k v o).
Proof.
  unfold sorted. induction o as [|[k' w] o IH]; cbn; intro S.
  - constructor; constructor.
  - inversion S; subst. destruct (String.eqb_spec k k') as [->|N]; [exact S|].
    destruct (str_ltb k k') eqn:L; cbn.
    + constructor; [exact S|]. constructor; [exact L|].
      eapply Forall_impl; [|exact H2]. intros a. now apply str_ltb_trans.
    + constructor; [now apply IH|]. rewrite Forall_forall. intros x I.
      apply keys_insert in I as [->|I]; [now apply str_ltb_total|].
      rewrite Forall_forall in H2. now apply H2.
Qed.

Lemma sorted_put o kv : sorted o -> sorted (put o kv).
Proof.
  intro S. unfold put. destruct (assoc (fst kv) o); [|now apply sorted_insert].
  unfold sorted. now rewrite keys_obj_set.
Qed.

Lemma sorted_json_map m : sorted (json_map m).
Proof.
  unfold json_map. assert (S : sorted []) by constructor. revert S. generalize (@nil (string * json)) as o.
  induction m as [|kv m IH]; intros o S; [exact S|]. cbn. apply IH. now apply sorted_put.
Qed.

(** A sorted object is determined by its lookups. *)
Lemma sorted_ext o : forall o', sorted o -> sorted o' -> (forall k, assoc k o = assoc k o') -> o = o'.
Proof.
  induction o as [|[k v] o IH]; intros o' S S' H.
  - destruct o' as [|[k v] o']; [reflexivity|]. specialize (H k). cbn in H. rewrite eqs_refl in H. discriminate.
  - destruct o' as [|[k' v'] o'].
    { specialize (H k). cbn in H. rewrite eqs_refl in H. discriminate. }
    assert (L : forall a b (x y : json) l l', sorted ((a, x) :: l) -> sorted ((b, y) :: l') ->
              (forall k, assoc k ((a, x) :: l) = assoc k ((b, y) :: l')) -> str_ltb a b = false).
    { intros a b x y l l' Sa Sb E. destruct (str_ltb a b) eqn:Lt; [|reflexivity].
      specialize (E a). cbn in E. rewrite eqs_refl in E.
      destruct (String.eqb_spec a b) as [->|N]; [rewrite str_ltb_irrefl in Lt; discriminate|].
      symmetry in E. apply assoc_in in E. inversion Sb; subst. rewrite Forall_forall in H3.
      assert (I : In a (map fst l')) by (change a with (fst (a, x)); now apply in_map).
      apply H3 in I. pose proof (str_ltb_trans _ _ _ Lt I) as C. rewrite str_ltb_irrefl in C. discriminate. }
    assert (A := L _ _ _ _ _ _ S S' H). assert (B := L _ _ _ _ _ _ S' S (fun k => eq_sym (H k))).
    destruct (String.eqb_spec k k') as [<-|N]; [|rewrite (str_ltb_total _ _ N A) in B; discriminate].
    assert (V := H k). cbn in V. rewrite eqs_refl in V. inversion V; subst v'. f_equal.
    inversion S; inversion S'; subst. apply IH; [assumption..|]. intro x. specialize (H x). cbn in H.
    destruct (string_dec x k) as [Ex|D]; [|apply String.eqb_neq in D; rewrite D in H; exact H].
    clear H. subst x.
    assert (Z : forall l, Forall (fun b => str_ltb k b = true) (map fst l) -> assoc k l = @None json).
    { intros l F. apply assoc_none. intro I. rewrite Forall_forall in F. apply F in I.
      rewrite str_ltb_irrefl in I. discriminate. }
    now rewrite !Z.
Qed.

Lemma fold_hm_assoc k o : forall m, NoDup (map fst o) ->
  assoc k (fold_left (fun m kv => hm_insert (fst kv) (pval_of_json (snd kv)) m) o m)
  = match assoc k o with Some v => Some (pval_of_json v) | None => assoc k m end.
Proof.
  induction o as [|[k' v] o IH]; intros m N; [reflexivity|]. inversion N; subst. cbn [fold_left fst snd].
  rewrite IH by assumption. cbn. destruct (String.eqb_spec k k') as [->|D].
  - apply assoc_none in H1. rewrite H1. apply hm_insert_same.
  - destruct (assoc k o); [reflexivity|]. now apply hm_insert_other.
Qed.

Lemma fold_hm_nodup o : forall m, NoDup (map fst m) ->
  NoDup (map fst (fold_left (fun m kv => hm_insert (fst kv) (pval_of_json (snd kv)) m) o m)).
Proof.
  induction o as [|kv o IH]; intros m N; [exact N|]. cbn. apply IH. now apply hm_insert_nodup.
Qed.

Lemma int_back i : (- 2 ^ 63 <= i < 2 ^ 63)%Z -> pval_of_json (jint i) = PInt i.
Proof.
  intro R. unfold jint. destruct (i <? 0)%Z eqn:E; [reflexivity|]. apply Z.ltb_ge in E.
  cbn. assert (L : (Z.to_N i <? 9223372036854775808)%N = true) by (apply N.ltb_lt; lia).
  rewrite L. now rewrite Z2N.id.
Qed.

Lemma rust_map_inv m : rust_value (PMap m) -> NoDup (map fst m) /\ Forall (fun kv => rust_value (snd kv)) m.
Proof. inversion 1; auto. Qed.
Lemma rust_arr_inv a : rust_value (PArr a) -> Forall rust_value a.
Proof. inversion 1; auto. Qed.
Lemma st_map_inv m : storable (PMap m) ->
  Forall (fun kv => ordinary (fst kv)) m /\ Forall (fun kv => storable (snd kv)) m.
Proof. inversion 1; subst. split; (eapply Forall_impl; [|eassumption]); intros ? []; assumption. Qed.
Lemma st_arr_inv a : storable (PArr a) -> Forall storable a.
Proof. inversion 1; auto. Qed.

Lemma value_back v : rust_value v -> storable v -> same_value v (pval_of_json (json_of_pval v)).
Proof.
  induction v as [i|f|s|b|m IH|a IH|] using pval_ind'; intros R S.
  - inversion R; subst. cbn [json_of_pval]. rewrite int_back by assumption. constructor.
  - inversion S; subst. constructor.
  - constructor.
  - constructor.
  - apply rust_map_inv in R as [N R]. apply st_map_inv in S as [O S].
    rewrite json_of_pmap, json_of_map_fold by exact O.
    fold (json_map m). rewrite pval_of_obj. constructor. intro k.
    rewrite fold_hm_assoc by (apply sorted_nodup, sorted_json_map). rewrite json_map_assoc by assumption.
    cbn [assoc]. destruct (assoc k m) as [v|] eqn:E; cbn [option_map]; [|constructor].
    constructor. apply assoc_in in E. rewrite Forall_forall in IH, R, S.
    apply (IH _ E); [apply (R _ E)|apply (S _ E)].
  - apply rust_arr_inv in R. apply st_arr_inv in S. cbn. constructor. rewrite map_map.
    induction IH as [|x a Hx IH IHa]; [constructor|]. inversion R; inversion S; subst. cbn. constructor; auto.
  - constructor.
Qed.

Lemma prefs_back p : rust_value (PMap p) -> storable (PMap p) ->
  exists q, prefs_of_json (json_of_prefs p) = Ok q /\ same_prefs p q /\ NoDup (map fst q).
Proof.
  intros R S. pose proof (value_back _ R S) as V. apply st_map_inv in S as [O S].
  rewrite json_of_pmap, json_of_map_fold, pval_of_obj in V by exact O.
  unfold json_of_prefs. rewrite json_of_map_fold by exact O. cbn [prefs_of_json].
  eexists. split; [reflexivity|]. inversion V; subst. split; [assumption|].
  apply fold_hm_nodup. constructor.
Qed.

(** The JSON does not depend on the order of the entries. *)
Lemma same_json v : forall w, rust_value v -> rust_value w -> storable v -> storable w ->
  same_value v w -> json_of_pval v = json_of_pval w.
Proof.
  induction v as [i|f|s|b|m IH|a IH|] using pval_ind'; intros w R R' S S' E; inversion E; subst; try reflexivity.
  - apply rust_map_inv in R as [N R]. apply st_map_inv in S as [O S].
    apply rust_map_inv in R' as [N' R']. apply st_map_inv in S' as [O' S'].
    rewrite !json_of_pmap, !json_of_map_fold by assumption.
    fold (json_map m) (json_map m'). f_equal. apply sorted_ext; try apply sorted_json_map. intro k.
    rewrite !json_map_assoc by assumption.
    match goal with H : forall k, both _ _ _ |- _ => specialize (H k); revert H end.
    destruct (assoc k m) as [x|] eqn:A, (assoc k m') as [y|] eqn:B; intro X; inversion X; subst; [|reflexivity].
    cbn. f_equal. apply assoc_in in A, B. rewrite !Forall_forall in *.
    apply (IH _ A); [apply (R _ A)|apply (R' _ B)|apply (S _ A)|apply (S' _ B)|assumption].
  - cbn. f_equal. apply rust_arr_inv in R, R'. apply st_arr_inv in S, S'.
    match goal with H : Forall2 _ _ _ |- _ => revert IH R R' S S'; clear E; induction H as [|x y l l' Exy F IHF] end;
      intros IH R R' S S'; [reflexivity|].
    inversion IH; inversion R; inversion R'; inversion S; inversion S'; subst. cbn. f_equal; auto.
Qed.

Lemma same_value_refl v : same_value v v.
Proof.
  induction v as [i|f|s|b|m IH|a IH|] using pval_ind'; constructor.
  - intro k. destruct (assoc k m) as [v|] eqn:E; constructor. apply assoc_in in E.
    rewrite Forall_forall in IH. apply (IH _ E).
  - induction IH; constructor; assumption.
Qed.

Lemma same_prefs_refl p : same_prefs p p.
Proof. intro k. destruct (get_value p k); constructor. apply same_value_refl. Qed.

(** From JSON and back. *)

Lemma jint_back n : (n < 2 ^ 63)%N -> jint (Z.of_N n) = JNum (NumU n).
Proof. intro L. unfold jint. assert (E : (Z.of_N n <? 0)%Z = false) by (apply Z.ltb_ge; lia). now rewrite E, N2Z.id. Qed.

Lemma canonical_obj o : canonical (JObj o) -> sorted o /\ Forall (fun kv => canonical (snd kv)) o.
Proof.
  intros [A B]. split; [apply (A [] o eq_refl)|]. rewrite Forall_forall. intros kv I.
  apply In_nth_error in I as [i E].
  assert (X : forall p, subtree (i :: p) (JObj o) = subtree p (snd kv)).
  { intro p. cbn. rewrite nth_error_map, E. reflexivity. }
  split; intros p; rewrite <- X; [apply A|apply B].
Qed.

Lemma canonical_arr l : canonical (JArr l) -> Forall canonical l.
Proof.
  intros [A B]. rewrite Forall_forall. intros x I. apply In_nth_error in I as [i E].
  assert (X : forall p, subtree (i :: p) (JArr l) = subtree p x) by (intro p; cbn; rewrite E; reflexivity).
  split; intros p; rewrite <- X; [apply A|apply B].
Qed.

Lemma fold_hm_ordinary (P : string -> Prop) o : forall m : pmap, Forall (fun kv => P (fst kv)) o ->
  Forall (fun kv => P (fst kv)) m ->
  Forall (fun kv => P (fst kv)) (fold_left (fun m kv => hm_insert (fst kv) (pval_of_json (snd kv)) m) o m).
Proof.
  induction o as [|[k v] o IH]; intros m F G; [exact G|]. inversion F; subst. cbn. apply IH; [assumption|].
  unfold hm_insert. destruct (assoc k m).
  - rewrite Forall_forall in *. intros x I. apply (in_map fst) in I. rewrite keys_obj_set in I.
    apply in_map_iff in I as (y & <- & I). now apply G.
  - now constructor.
Qed.

Lemma json_back j : canonical j -> plain_json j -> json_of_pval (pval_of_json j) = j.
Proof.
  induction j as [|b|x|s|l IH|o IH] using json_ind'; intros C P; try reflexivity.
  - inversion P; subst; cbn.
    + assert (L : (n <? 9223372036854775808)%N = true) by (now apply N.ltb_lt). rewrite L. cbn. now apply jint_back.
    + destruct C as [_ B]. specialize (B [] _ eq_refl). cbn in B. unfold jint.
      assert (E : (z <? 0)%Z = true) by (apply Z.ltb_lt; lia). now rewrite E.
    + reflexivity.
  - cbn. f_equal. rewrite map_map. inversion P; subst. apply canonical_arr in C.
    clear P. induction l as [|x l IHl]; [reflexivity|]. inversion IH; inversion H0; inversion C; subst.
    cbn. f_equal; auto.
  - rewrite pval_of_obj, json_of_pmap. inversion P; subst. apply canonical_obj in C as [S C].
    rewrite json_of_map_fold.
    2:{ apply fold_hm_ordinary; [|constructor]. eapply Forall_impl; [|eassumption]. intros ? []; assumption. }
    f_equal. apply sorted_ext; [apply (sorted_json_map (fold_left _ o []))|exact S|]. intro k.
    fold (json_map (fold_left (fun m kv => hm_insert (fst kv) (pval_of_json (snd kv)) m) o [])).
    rewrite json_map_assoc by (apply fold_hm_nodup; constructor).
    rewrite fold_hm_assoc by (now apply sorted_nodup).
    destruct (assoc k o) as [v|] eqn:E; [|reflexivity]. cbn. f_equal. apply assoc_in in E.
    rewrite Forall_forall in *. apply (IH _ E); [apply (C _ E)|apply (H0 _ E)].
Qed.
