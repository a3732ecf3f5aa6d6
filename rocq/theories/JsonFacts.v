(** Laws of the JSON layer. *)
From Coq Require Import String Ascii List NArith ZArith Bool Lia.
From Verif Require Import Base Json.
Import ListNotations.
Open Scope list_scope.

(** ** Inversion of [let?] chains *)
Lemma bind_ok {A B} (r : res A) (f : A -> res B) b :
  bind r f = Ok b -> exists a, r = Ok a /\ f a = Ok b.
Proof. destruct r; simpl; intros; try discriminate. eauto. Qed.

(** ** Key order *)
Lemma str_ltb_irrefl s : str_ltb s s = false.
Proof. induction s as [|a s IH]; simpl; [reflexivity|]. now rewrite N.ltb_irrefl, N.eqb_refl. Qed.

Lemma str_ltb_trans a b c : str_ltb a b = true -> str_ltb b c = true -> str_ltb a c = true.
Proof.
  revert b c; induction a as [|x a IH]; intros [|y b] [|z c]; simpl; try discriminate; auto.
  destruct (N.ltb_spec (N_of_ascii x) (N_of_ascii y)) as [H1|H1].
  - intros _. destruct (N.ltb_spec (N_of_ascii y) (N_of_ascii z)) as [H2|H2].
    + intros _. destruct (N.ltb_spec (N_of_ascii x) (N_of_ascii z)); [reflexivity|lia].
    + destruct (N.eqb_spec (N_of_ascii y) (N_of_ascii z)) as [E|E]; [|discriminate].
      intros _. destruct (N.ltb_spec (N_of_ascii x) (N_of_ascii z)); [reflexivity|lia].
  - destruct (N.eqb_spec (N_of_ascii x) (N_of_ascii y)) as [E|E]; [|discriminate]. intros Hab.
    rewrite E. destruct (N.ltb_spec (N_of_ascii y) (N_of_ascii z)); [reflexivity|].
    destruct (N.eqb_spec (N_of_ascii y) (N_of_ascii z)); [|discriminate]. eauto.
Qed.

Lemma N_of_ascii_inj a b : N_of_ascii a = N_of_ascii b -> a = b.
Proof. intros H. rewrite <- (ascii_N_embedding a), <- (ascii_N_embedding b). now rewrite H. Qed.

Lemma str_ltb_total a b : a <> b -> str_ltb a b = false -> str_ltb b a = true.
Proof.
  revert b; induction a as [|x a IH]; intros [|y b] H; simpl; try discriminate; try congruence; auto.
  destruct (N.ltb_spec (N_of_ascii x) (N_of_ascii y)) as [H1|H1]; [discriminate|].
  destruct (N.eqb_spec (N_of_ascii x) (N_of_ascii y)) as [E|E].
  - apply N_of_ascii_inj in E. subst y. rewrite N.ltb_irrefl, N.eqb_refl. intros Hl. apply IH; [congruence|exact Hl].
  - intros _. destruct (N.ltb_spec (N_of_ascii y) (N_of_ascii x)); [reflexivity|lia].
Qed.

(** ** Association lists *)
Lemma assoc_obj_set_same {A} k (v w : A) o : assoc k o = Some w -> assoc k (obj_set k v o) = Some v.
Proof.
  induction o as [|[k' x] o IH]; simpl; [discriminate|].
  destruct (String.eqb k k') eqn:E; simpl; rewrite E; auto.
Qed.

Lemma assoc_obj_set_other {A} k k' (v : A) o : k' <> k -> assoc k' (obj_set k v o) = assoc k' o.
Proof.
  intros H. induction o as [|[k0 x] o IH]; simpl; [reflexivity|].
  destruct (String.eqb_spec k k0) as [->|E]; simpl.
  - destruct (String.eqb_spec k' k0); [congruence|reflexivity].
  - destruct (String.eqb k' k0); auto.
Qed.

Lemma keys_obj_set {A} k (v : A) o : map fst (obj_set k v o) = map fst o.
Proof.
  induction o as [|[k0 x] o IH]; simpl; [reflexivity|]. destruct (String.eqb k k0); simpl; congruence.
Qed.

Lemma obj_set_twice {A} k (v w : A) o : obj_set k v (obj_set k w o) = obj_set k v o.
Proof.
  induction o as [|[k0 x] o IH]; simpl; [reflexivity|].
  destruct (String.eqb k k0) eqn:E; simpl; rewrite E; congruence.
Qed.

Lemma obj_set_comm {A} k k' (v w : A) o :
  k <> k' -> obj_set k v (obj_set k' w o) = obj_set k' w (obj_set k v o).
Proof.
  intros H. induction o as [|[k0 x] o IH]; simpl; [reflexivity|].
  destruct (String.eqb_spec k k0) as [->|E]; destruct (String.eqb_spec k' k0) as [->|E']; simpl.
  - congruence.
  - rewrite String.eqb_refl. destruct (String.eqb_spec k' k0); congruence.
  - rewrite String.eqb_refl. destruct (String.eqb_spec k k0); congruence.
  - destruct (String.eqb_spec k k0); [congruence|]. destruct (String.eqb_spec k' k0); [congruence|].
    now rewrite IH.
Qed.

Lemma obj_set_self {A} k (v : A) o : assoc k o = Some v -> obj_set k v o = o.
Proof.
  induction o as [|[k0 x] o IH]; simpl; [reflexivity|].
  destruct (String.eqb_spec k k0); intros H; [congruence|]. f_equal; auto.
Qed.

Lemma assoc_obj_insert_same {A} k (v : A) o : assoc k (obj_insert k v o) = Some v.
Proof.
  induction o as [|[k' x] o IH]; simpl; [now rewrite String.eqb_refl|].
  destruct (String.eqb k k') eqn:E; simpl; [now rewrite E|].
  destruct (str_ltb k k'); simpl; [now rewrite String.eqb_refl|]. now rewrite E.
Qed.

Lemma assoc_obj_insert_other {A} k k' (v : A) o : k' <> k -> assoc k' (obj_insert k v o) = assoc k' o.
Proof.
  intros H. induction o as [|[k0 x] o IH]; simpl.
  - destruct (String.eqb_spec k' k); congruence.
  - destruct (String.eqb_spec k k0) as [->|E]; simpl.
    + destruct (String.eqb_spec k' k0); [congruence|reflexivity].
    + destruct (str_ltb k k0); simpl.
      * destruct (String.eqb_spec k' k); [congruence|reflexivity].
      * destruct (String.eqb k' k0); auto.
Qed.

(** ** Keys without special meaning in a JSON pointer *)
Definition plain_key (k : string) : bool :=
  (negb (str_contains "/" k) && negb (str_contains "~" k) &&
   match parse_index k with None => true | Some _ => false end)%bool.

Lemma split_on_none c s : str_contains c s = false -> split_on c s = [s].
Proof.
  induction s as [|d s IH]; simpl; [reflexivity|].
  destruct (Ascii.eqb c d); [discriminate|]. intros H. now rewrite (IH H).
Qed.

Lemma replace2_none a b to s : str_contains a s = false -> replace2 a b to s = s.
Proof.
  induction s as [|d s IH]; simpl; [reflexivity|].
  destruct (Ascii.eqb a d); [discriminate|]. intros H. rewrite (IH H). destruct s; reflexivity.
Qed.

Lemma ptr_tokens_plain k :
  str_contains "/" k = false -> str_contains "~" k = false -> ptr_tokens k = [k].
Proof.
  intros H1 H2. unfold ptr_tokens. rewrite split_on_none by exact H1. simpl.
  now rewrite (replace2_none "~" "1"), (replace2_none "~" "0").
Qed.

Lemma plain_tokens k : plain_key k = true -> ptr_tokens k = [k].
Proof.
  unfold plain_key. intros H. apply andb_prop in H. destruct H as (H & _).
  apply andb_prop in H. destruct H as (H1 & H2).
  apply ptr_tokens_plain; [now apply negb_true_iff in H1|now apply negb_true_iff in H2].
Qed.

Lemma plain_index k : plain_key k = true -> parse_index k = None.
Proof.
  unfold plain_key. intros H. apply andb_prop in H. destruct H as (_ & H).
  destruct (parse_index k); [discriminate|reflexivity].
Qed.

(** On such keys the pointer based accessors are plain field accesses. *)
Lemma kget_plain j k : plain_key k = true -> kget j k = oget j k.
Proof.
  intros H. unfold kget. rewrite (plain_tokens _ H). destruct j; simpl; try reflexivity.
  - now rewrite (plain_index _ H).
  - destruct (assoc k o); reflexivity.
Qed.

Lemma ptr_upd_plain j k f : plain_key k = true ->
  ptr_upd (ptr_tokens k) f j =
  match j with
  | JObj o => match assoc k o with Some v => Some (JObj (obj_set k (f v) o)) | None => None end
  | _ => None
  end.
Proof.
  intros H. rewrite (plain_tokens _ H). destruct j; simpl; try reflexivity.
  now rewrite (plain_index _ H).
Qed.

Lemma set_key_plain j k v : plain_key k = true ->
  set_key j k v = match j with
                  | JObj o => match assoc k o with
                              | Some _ => JObj (obj_set k v o)
                              | None => JObj (obj_insert k v o)
                              end
                  | _ => j
                  end.
Proof.
  intros H. unfold set_key. rewrite ptr_upd_plain by exact H. destruct j; try reflexivity.
  destruct (assoc k o); reflexivity.
Qed.

Lemma take_key_plain j k : plain_key k = true ->
  take_key j k = match j with
                 | JObj o => match assoc k o with
                             | Some v => Some (v, JObj (obj_set k JNull o))
                             | None => None
                             end
                 | _ => None
                 end.
Proof.
  intros H. unfold take_key. rewrite ptr_upd_plain, kget_plain by exact H.
  destruct j; try reflexivity. simpl. destruct (assoc k o); reflexivity.
Qed.

Lemma upd_array_plain j k f : plain_key k = true ->
  upd_array j k f = match j with
                    | JObj o => match assoc k o with
                                | Some (JArr l) => JObj (obj_set k (JArr (f l)) o)
                                | _ => j
                                end
                    | _ => j
                    end.
Proof.
  intros H. unfold upd_array. rewrite ptr_upd_plain by exact H. destruct j; try reflexivity.
  destruct (assoc k o) as [v|] eqn:E; [|reflexivity]. destruct v; try (now rewrite obj_set_self); reflexivity.
Qed.

Lemma oget_set_key_same j k v : plain_key k = true -> is_object j = true -> oget (set_key j k v) k = Some v.
Proof.
  intros H Ho. rewrite set_key_plain by exact H. destruct j; try discriminate. simpl.
  destruct (assoc k o) eqn:E; simpl; [eapply assoc_obj_set_same; eauto|apply assoc_obj_insert_same].
Qed.

Lemma oget_set_key_other j k k' v : plain_key k = true -> k' <> k -> oget (set_key j k v) k' = oget j k'.
Proof.
  intros H Hk. rewrite set_key_plain by exact H. destruct j; try reflexivity. simpl.
  destruct (assoc k o); simpl; [now apply assoc_obj_set_other|now apply assoc_obj_insert_other].
Qed.

(** ** General keys *)
Lemma ptr_upd_get toks f j : ptr_get toks j = None <-> ptr_upd toks f j = None.
Proof.
  revert j; induction toks as [|t ts IH]; intros j; simpl; [split; discriminate|].
  destruct j; try tauto.
  - destruct (parse_index t); [|tauto]. destruct (nth_error l n); [|tauto].
    rewrite IH. destruct (ptr_upd ts f j); simpl; split; congruence.
  - destruct (assoc t o) as [v|]; [|tauto]. rewrite IH. destruct (ptr_upd ts f v); simpl; split; congruence.
Qed.

Lemma replace_at_nth {A} i (x : A) l y : nth_error l i = Some y -> nth_error (replace_at i x l) i = Some x.
Proof.
  revert i; induction l as [|z l IH]; intros [|i]; simpl; intros H; try discriminate; auto.
Qed.

Lemma ptr_upd_then_get toks f j j' v :
  ptr_upd toks f j = Some j' -> ptr_get toks j = Some v -> ptr_get toks j' = Some (f v).
Proof.
  revert j j'; induction toks as [|t ts IH]; intros j j'; simpl; [congruence|].
  destruct j; try discriminate.
  - destruct (parse_index t) eqn:Et; [|discriminate]. destruct (nth_error l n) as [x|] eqn:En; [|discriminate].
    destruct (ptr_upd ts f x) as [x'|] eqn:Ex; simpl; [|discriminate].
    intros H Hg; inversion H; subst. erewrite replace_at_nth by eauto. eauto.
  - destruct (assoc t o) as [x|] eqn:Ea; [|discriminate].
    destruct (ptr_upd ts f x) as [x'|] eqn:Ex; simpl; [|discriminate].
    intros H Hg; inversion H; subst. simpl; erewrite assoc_obj_set_same by eauto. eauto.
Qed.

Lemma set_key_missing_nonobject j k v : kget j k = None -> is_object j = false -> set_key j k v = j.
Proof.
  intros H Ho. unfold set_key. unfold kget in H.
  rewrite (proj1 (ptr_upd_get _ (fun _ => v) _) H). destruct j; try reflexivity. discriminate.
Qed.

Lemma set_key_present j k v w : kget j k = Some w -> kget (set_key j k v) k = Some v.
Proof.
  intros H. unfold kget, set_key in *.
  destruct (ptr_upd (ptr_tokens k) (fun _ => v) j) as [j'|] eqn:E.
  - apply (ptr_upd_then_get _ _ _ _ _ E H).
  - apply ptr_upd_get in E. congruence.
Qed.

Lemma take_key_spec j k v j' :
  take_key j k = Some (v, j') -> kget j k = Some v /\ kget j' k = Some JNull.
Proof.
  unfold take_key. destruct (kget j k) as [w|] eqn:E; [|discriminate].
  destruct (ptr_upd (ptr_tokens k) (fun _ => JNull) j) as [j1|] eqn:Eu; [|discriminate].
  intros H; inversion H; subst. split; [reflexivity|]. unfold kget in *. apply (ptr_upd_then_get _ _ _ _ _ Eu E).
Qed.

(** ** Well-formedness *)
Definition wf_list (l : list json) : Prop := Forall wf l.
Fixpoint wf_obj (o : list (string * json)) : Prop :=
  match o with
  | [] => True
  | (k, v) :: o => keys_above k o /\ wf v /\ wf_obj o
  end.

Lemma wf_arr l : wf (JArr l) <-> wf_list l.
Proof.
  unfold wf_list. induction l as [|x l IH]; simpl in *; [split; auto|].
  split; [intros (A & B); constructor; tauto|intros H; inversion H; tauto].
Qed.

Lemma wf_object o : wf (JObj o) <-> wf_obj o.
Proof.
  induction o as [|[k v] o IH]; simpl in *; [tauto|]. tauto.
Qed.

Lemma keys_above_assoc {A} k (o : list (string * A)) : keys_above k o -> assoc k o = None.
Proof.
  unfold keys_above. induction 1 as [|[k' v] o H _ IH]; simpl; [reflexivity|].
  destruct (String.eqb_spec k k'); [subst; simpl in H; rewrite str_ltb_irrefl in H; discriminate|exact IH].
Qed.

Lemma wf_obj_assoc k o v : wf_obj o -> assoc k o = Some v -> wf v.
Proof.
  induction o as [|[k' x] o IH]; simpl; [discriminate|]. intros (_ & Hx & Ho).
  destruct (String.eqb k k'); [intros H; inversion H; subst; exact Hx|auto].
Qed.

Lemma keys_above_obj_set {A} k k' (v : A) o : keys_above k o -> keys_above k (obj_set k' v o).
Proof.
  unfold keys_above. induction 1 as [|[k0 x] o H Ho IH]; simpl; [constructor|].
  destruct (String.eqb k' k0); constructor; auto.
Qed.

Lemma wf_obj_set k v o : wf v -> wf_obj o -> wf_obj (obj_set k v o).
Proof.
  intros Hv. induction o as [|[k' x] o IH]; simpl; [auto|]. intros (Ha & Hx & Ho).
  destruct (String.eqb k k'); simpl; [tauto|].
  split; [now apply keys_above_obj_set|]. tauto.
Qed.

Lemma keys_above_obj_insert {A} k k' (v : A) o :
  str_ltb k k' = true -> keys_above k o -> keys_above k (obj_insert k' v o).
Proof.
  unfold keys_above. intros Hk. induction 1 as [|[k0 x] o H Ho IH]; simpl.
  - repeat constructor. exact Hk.
  - destruct (String.eqb k' k0); [constructor; auto|].
    destruct (str_ltb k' k0); repeat constructor; auto.
Qed.

Lemma wf_obj_insert k v o : wf v -> wf_obj o -> wf_obj (obj_insert k v o).
Proof.
  intros Hv. induction o as [|[k' x] o IH]; simpl; [repeat split; auto; constructor|].
  intros (Ha & Hx & Ho). destruct (String.eqb_spec k k') as [->|E]; simpl; [tauto|].
  destruct (str_ltb k k') eqn:El; simpl.
  - split; [constructor; [exact El|]|tauto].
    unfold keys_above in *. eapply Forall_impl; [|exact Ha]. intros [k0 x0]; simpl. apply str_ltb_trans; exact El.
  - split; [|tauto]. apply keys_above_obj_insert; [|exact Ha]. apply str_ltb_total; auto.
Qed.

Lemma wf_mkobj l : Forall (fun kv => wf (snd kv)) l -> wf (mkobj l).
Proof.
  intros H. unfold mkobj. apply wf_object.
  assert (G : forall o, wf_obj o -> wf_obj (fold_left (fun o kv => obj_insert (fst kv) (snd kv) o) l o)).
  { induction H as [|[k v] l Hv Hl IH]; intros o Ho; simpl; [exact Ho|]. apply IH. now apply wf_obj_insert. }
  apply G. exact I.
Qed.

Lemma Forall_replace_at {A} (P : A -> Prop) i x l : P x -> Forall P l -> Forall P (replace_at i x l).
Proof.
  intros Hx H. revert i; induction H; intros [|i]; simpl; constructor; auto.
Qed.

Lemma wf_ptr_get toks j v : wf j -> ptr_get toks j = Some v -> wf v.
Proof.
  revert j; induction toks as [|t ts IH]; intros j Hj; simpl; [congruence|].
  destruct j; try discriminate.
  - destruct (parse_index t); [|discriminate]. destruct (nth_error l n) as [x|] eqn:E; [|discriminate].
    apply IH. apply wf_arr in Hj. unfold wf_list in Hj. rewrite Forall_forall in Hj. apply Hj. eapply nth_error_In; eauto.
  - destruct (assoc t o) as [x|] eqn:E; [|discriminate]. apply IH. apply wf_object in Hj. eapply wf_obj_assoc; eauto.
Qed.

Lemma wf_ptr_upd toks f j j' :
  (forall v, wf v -> wf (f v)) -> wf j -> ptr_upd toks f j = Some j' -> wf j'.
Proof.
  intros Hf. revert j j'; induction toks as [|t ts IH]; intros j j' Hj; simpl.
  - intros H; inversion H; subst; auto.
  - destruct j; try discriminate.
    + destruct (parse_index t); [|discriminate]. destruct (nth_error l n) as [x|] eqn:E; [|discriminate].
      destruct (ptr_upd ts f x) as [x'|] eqn:Ex; simpl; [|discriminate]. intros H; inversion H; subst.
      apply wf_arr in Hj. apply wf_arr. unfold wf_list in *. apply Forall_replace_at; [|exact Hj].
      eapply IH; [|exact Ex]. rewrite Forall_forall in Hj. apply Hj. eapply nth_error_In; eauto.
    + destruct (assoc t o) as [x|] eqn:E; [|discriminate].
      destruct (ptr_upd ts f x) as [x'|] eqn:Ex; simpl; [|discriminate]. intros H; inversion H; subst.
      apply wf_object in Hj. apply wf_object. apply wf_obj_set; [|exact Hj].
      eapply IH; [|exact Ex]. eapply wf_obj_assoc; eauto.
Qed.

Lemma wf_kget j k v : wf j -> kget j k = Some v -> wf v.
Proof. apply wf_ptr_get. Qed.

Lemma wf_oget j k v : wf j -> oget j k = Some v -> wf v.
Proof. destruct j; simpl; try discriminate. intros H. apply wf_obj_assoc. now apply wf_object. Qed.

Lemma wf_set_key j k v : wf v -> wf j -> wf (set_key j k v).
Proof.
  intros Hv Hj. unfold set_key. destruct (ptr_upd (ptr_tokens k) (fun _ => v) j) as [j'|] eqn:E.
  - eapply wf_ptr_upd; [|exact Hj|exact E]. auto.
  - destruct j; auto. apply wf_object. apply wf_object in Hj. apply wf_obj_insert; auto.
Qed.

Lemma wf_take_key j k v j' : wf j -> take_key j k = Some (v, j') -> wf v /\ wf j'.
Proof.
  intros Hj. unfold take_key. destruct (kget j k) as [w|] eqn:E; [|discriminate].
  destruct (ptr_upd (ptr_tokens k) (fun _ => JNull) j) as [j1|] eqn:Eu; [|discriminate].
  intros H; inversion H; subst. split; [eapply wf_kget; eauto|].
  eapply wf_ptr_upd; [|exact Hj|exact Eu]. intros; exact I.
Qed.

Lemma wf_set_key_at j k i v : wf v -> wf j -> wf (set_key_at j k i v).
Proof.
  intros Hv Hj. unfold set_key_at. destruct (ptr_upd _ _ j) as [j'|] eqn:E; [|exact Hj].
  eapply wf_ptr_upd; [|exact Hj|exact E]. intros w Hw. destruct w; auto.
  apply wf_arr. apply wf_arr in Hw. now apply Forall_replace_at.
Qed.

Lemma wf_upd_array j k f :
  (forall l, wf_list l -> wf_list (f l)) -> wf j -> wf (upd_array j k f).
Proof.
  intros Hf Hj. unfold upd_array. destruct (ptr_upd _ _ j) as [j'|] eqn:E; [|exact Hj].
  eapply wf_ptr_upd; [|exact Hj|exact E]. intros w Hw. destruct w; auto.
  apply wf_arr. apply wf_arr in Hw. auto.
Qed.

Lemma wf_jint z : in_i64 z = true -> wf (jint z).
Proof.
  unfold in_i64, jint. intros H. apply andb_prop in H. destruct H as (H1 & H2).
  apply Z.leb_le in H1. apply Z.ltb_lt in H2.
  destruct (Z.ltb_spec z 0); simpl; lia.
Qed.

Lemma wf_children j : wf j -> Forall wf (children j).
Proof.
  destruct j; simpl; intros H; auto.
  - now apply wf_arr.
  - apply wf_object in H. induction o as [|[k v] o IH]; simpl in *; constructor; tauto.
Qed.

Lemma wf_get_int j k z : wf j -> get_int j k = Some z -> in_i64 z = true.
Proof.
  unfold get_int. intros Hj. destruct (kget j k) as [v|] eqn:E; [|discriminate].
  pose proof (wf_kget _ _ _ Hj E) as Hv. destruct v; try discriminate. simpl.
  destruct x; try discriminate; simpl in Hv.
  - destruct (N.ltb_spec n 9223372036854775808); [|discriminate]. intros H0; inversion H0; subst.
    unfold in_i64. apply andb_true_intro. split; [apply Z.leb_le|apply Z.ltb_lt]; lia.
  - intros H0; inversion H0; subst. unfold in_i64. apply andb_true_intro. split; [apply Z.leb_le|apply Z.ltb_lt]; lia.
Qed.

(** A decidable check for the examples. *)
Definition wf_num_b (x : jnum) : bool :=
  match x with
  | NumU n => N.ltb n 18446744073709551616
  | NumI z => (Z.leb (-9223372036854775808) z && Z.ltb z 0)%bool
  | NumF _ _ => true
  end.

Fixpoint wf_b (j : json) : bool :=
  match j with
  | JNum x => wf_num_b x
  | JArr l => forallb wf_b l
  | JObj o => (fix go o := match o with
                   | [] => true
                   | (k, v) :: o => (forallb (fun kv => str_ltb k (fst kv)) o && wf_b v && go o)%bool
                   end) o
  | _ => true
  end.

Lemma wf_check j : wf_b j = true -> wf j.
Proof.
  induction j as [| | | |l IH|o IH] using json_ind'; intros H; try exact I.
  - destruct x; simpl in *; [now apply N.ltb_lt| |exact I].
    apply andb_true_iff in H. destruct H as (A & B). apply Z.leb_le in A. apply Z.ltb_lt in B. lia.
  - apply wf_arr. simpl in H. rewrite forallb_forall in H. unfold wf_list.
    rewrite Forall_forall in *. auto.
  - apply wf_object. revert H. induction IH as [|[k v] o Hv Ho IHo]; simpl; [auto|]. intros H.
    apply andb_true_iff in H. destruct H as (H & H3). apply andb_true_iff in H. destruct H as (H1 & H2).
    split; [|split; [now apply Hv|now apply IHo]].
    unfold keys_above. apply Forall_forall. rewrite forallb_forall in H1. auto.
Qed.
