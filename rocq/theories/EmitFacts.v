(** Generic facts about node printers: a printer that looks at its node only
    through the accessors gives the same requests for ASTs that differ in
    bookkeeping only, and needs its argument [r] only below the node. *)
From Coq Require Import String Ascii List NArith ZArith Arith Bool Lia.
From Verif Require Import Base Json JsonFacts Printer SpecPrinter TextFacts LayoutFacts FlowFacts.
Import ListNotations.
Open Scope string_scope.
Open Scope list_scope.

(** ** Depth *)

Lemma jdepth_elem : forall l x, In x l -> jdepth x < jdepth (JArr l).
Proof.
  intros l x H. cbn [jdepth]. apply Nat.lt_succ_r.
  induction l as [| y l IH]; [ destruct H |].
  destruct H as [-> | H]; [ lia |]. specialize (IH H). lia.
Qed.

Lemma jdepth_value : forall o k x, In (k, x) o -> jdepth x < jdepth (JObj o).
Proof.
  intros o k x H. cbn [jdepth]. apply Nat.lt_succ_r.
  induction o as [| [k' y] o IH]; [ destruct H |].
  destruct H as [E | H]; [ injection E as -> ->; lia |]. specialize (IH H). lia.
Qed.

Lemma assoc_In_pair : forall A k (o : list (string * A)) v, assoc k o = Some v -> In (k, v) o.
Proof.
  induction o as [| [k' x] o IH]; intros v H; [ discriminate |]. cbn [assoc] in H.
  destruct (k =?s k') eqn:E.
  - injection H as ->. apply String.eqb_eq in E. subst. left. reflexivity.
  - right. auto.
Qed.

Lemma jdepth_oget : forall n k v, oget n k = Some v -> jdepth v < jdepth n.
Proof.
  intros n k v H. destruct n; try discriminate. cbn [oget] in H.
  eapply jdepth_value. apply assoc_In_pair. exact H.
Qed.

Section Same.
Variable keys : list string.

Definition sim := same_but keys.

(** A key the printer may look at. *)
Definition seen (k : string) : bool := (plain_key k && negb (smem k keys))%bool.

Lemma seen_spec : forall k, seen k = true -> plain_key k = true /\ ~ In k keys.
Proof.
  unfold seen. intros k H. apply andb_true_iff in H. destruct H as [H1 H2].
  split; [ assumption |]. intro Hin. apply negb_true_iff in H2.
  assert (smem k keys = true) as E; [| congruence ].
  clear H1 H2. induction keys as [| x l IH]; [ destruct Hin |]. cbn [smem].
  destruct Hin as [-> | Hin]; [ rewrite String.eqb_refl; reflexivity |].
  rewrite IH by assumption. destruct (k =?s x); reflexivity.
Qed.

Inductive orel {A} (R : A -> A -> Prop) : option A -> option A -> Prop :=
| Orel_none : orel R None None
| Orel_some a b : R a b -> orel R (Some a) (Some b).

Lemma sim_refl : forall a, sim a a.
Proof. constructor. Qed.

Lemma sim_oget : forall a b k, sim a b -> seen k = true -> orel sim (oget a k) (oget b k).
Proof.
  intros a b k H Hk. destruct (seen_spec k Hk) as [_ Hn]. inversion H as [j | l l' F | l l' F]; subst.
  - destruct (oget b k); constructor. apply sim_refl.
  - constructor.
  - cbn [oget]. clear H. induction F as [| [k1 v1] [k2 v2] l l' [E D] _ IH]; [ constructor |].
    cbn [fst snd] in *. subst k2. cbn [assoc]. destruct (k =?s k1) eqn:E.
    + apply String.eqb_eq in E. subst k1. constructor.
      destruct D as [(D & _) | D]; [ contradiction | exact D ].
    + exact IH.
Qed.

Lemma sim_scalar : forall a b, sim a b -> (exists x, a = JArr x) \/ (exists x, a = JObj x) \/ a = b.
Proof. intros a b H. inversion H; subst; eauto. Qed.

Lemma sim_is_null : forall a b, sim a b -> is_null a = is_null b.
Proof. intros a b H. inversion H; reflexivity. Qed.
Lemma sim_is_object : forall a b, sim a b -> is_object a = is_object b.
Proof. intros a b H. inversion H; reflexivity. Qed.
Lemma sim_as_str : forall a b, sim a b -> as_str a = as_str b.
Proof. intros a b H. inversion H; reflexivity. Qed.
Lemma sim_as_bool : forall a b, sim a b -> as_bool a = as_bool b.
Proof. intros a b H. inversion H; reflexivity. Qed.
Lemma sim_as_i64 : forall a b, sim a b -> as_i64 a = as_i64 b.
Proof. intros a b H. inversion H; reflexivity. Qed.
Lemma sim_as_f64 : forall a b, sim a b -> as_f64 a = as_f64 b.
Proof. intros a b H. inversion H; reflexivity. Qed.

Lemma sim_as_array : forall a b, sim a b -> orel (Forall2 sim) (as_array a) (as_array b).
Proof.
  intros a b H. inversion H as [j | l l' F | l l' F]; subst; cbn [as_array]; try (constructor; assumption).
  destruct b; constructor. clear H. induction l; constructor; auto using sim_refl.
Qed.

Ltac by_oget L :=
  intros a b k H Hk; destruct (seen_spec k Hk) as [Hp _];
  unfold get_str, get_bool, get_int, get_float; rewrite !kget_plain by exact Hp;
  destruct (sim_oget a b k H Hk); [ reflexivity | apply L; assumption ].

Lemma sim_get_str : forall a b k, sim a b -> seen k = true -> get_str a k = get_str b k.
Proof. by_oget sim_as_str. Qed.
Lemma sim_get_bool : forall a b k, sim a b -> seen k = true -> get_bool a k = get_bool b k.
Proof. by_oget sim_as_bool. Qed.
Lemma sim_get_int : forall a b k, sim a b -> seen k = true -> get_int a k = get_int b k.
Proof. by_oget sim_as_i64. Qed.
Lemma sim_get_float : forall a b k, sim a b -> seen k = true -> get_float a k = get_float b k.
Proof. by_oget sim_as_f64. Qed.

(** ** Below a node *)

(** [x] and [y] are the same but for bookkeeping, and [x] is below depth [d]. *)
Definition under (d : nat) (x y : json) : Prop := sim x y /\ jdepth x < d.

(** Two functions on sub-nodes that agree. *)
Definition agree (d : nat) (f f' : json -> list cmd) : Prop :=
  forall x y, under d x y -> f x = f' y.

Lemma under_weaken : forall d d' x y, under d x y -> d <= d' -> under d' x y.
Proof. unfold under. intros d d' x y [H1 H2] H. split; [ assumption | lia ]. Qed.

Lemma opt_oget_par : forall n n' k f f',
  sim n n' -> seen k = true ->
  (forall x y, under (jdepth n) x y -> f x = f' y) ->
  opt (oget n k) f = opt (oget n' k) f'.
Proof.
  intros n n' k f f' H Hk Hf. pose proof (sim_oget n n' k H Hk) as R.
  inversion R; subst; cbn [opt]; [ reflexivity |]. apply Hf. split; [ assumption |].
  eapply jdepth_oget. symmetry. eassumption.
Qed.

Lemma sub_par : forall d n n' k f f',
  sim n n' -> jdepth n <= d -> seen k = true -> agree d f f' -> sub f n k = sub f' n' k.
Proof.
  intros d n n' k f f' H Hd Hk Hf. apply opt_oget_par; try assumption.
  intros x y Hu. apply Hf. eapply under_weaken; eassumption.
Qed.

Lemma arr_under : forall n n' k,
  sim n n' -> seen k = true ->
  orel (Forall2 (under (jdepth n))) (arr_of n k) (arr_of n' k).
Proof.
  intros n n' k H Hk. unfold arr_of. pose proof (sim_oget n n' k H Hk) as R.
  destruct (oget n k) as [v |] eqn:En, (oget n' k) as [v' |]; inversion R; subst; [| constructor ].
  apply jdepth_oget in En.
  pose proof (sim_as_array v v' H2) as A.
  assert (D : forall l x, as_array v = Some l -> In x l -> jdepth x < jdepth n).
  { intros l x Hl Hx. destruct v; try discriminate. injection Hl as ->.
    apply jdepth_elem in Hx. lia. }
  destruct (as_array v) as [l |], (as_array v') as [l' |]; inversion A as [| a b H1]; subst;
    [| constructor ].
  specialize (D l). constructor. assert (D' : forall x, In x l -> jdepth x < jdepth n) by auto.
  clear D. rename D' into D.
  clear - H1 D. induction H1 as [| x y l l' Hxy _ IH]; constructor.
  - split; [ assumption |]. apply D. left. reflexivity.
  - apply IH. intros z Hz. apply D. right. exact Hz.
Qed.

Lemma get_array_under : forall n n' k,
  sim n n' -> seen k = true ->
  orel (Forall2 (under (jdepth n))) (get_array n k) (get_array n' k).
Proof.
  intros n n' k H Hk. destruct (seen_spec k Hk) as [Hp _]. unfold get_array.
  rewrite !kget_plain by exact Hp. exact (arr_under n n' k H Hk).
Qed.

Lemma opt_rel_par : forall A (R : A -> A -> Prop) o o' f f',
  orel R o o' -> (forall a b, R a b -> f a = f' b) -> opt o f = opt o' f'.
Proof. intros A R o o' f f' H Hf. destruct H; cbn [opt]; auto. Qed.

Lemma opt_arr_par : forall n n' k f f',
  sim n n' -> seen k = true ->
  (forall l l', Forall2 (under (jdepth n)) l l' -> f l = f' l') ->
  opt (arr_of n k) f = opt (arr_of n' k) f'.
Proof.
  intros n n' k f f' H Hk Hf. eapply opt_rel_par; [ apply arr_under; assumption | exact Hf ].
Qed.

Lemma opt_get_array_par : forall n n' k f f',
  sim n n' -> seen k = true ->
  (forall l l', Forall2 (under (jdepth n)) l l' -> f l = f' l') ->
  opt (get_array n k) f = opt (get_array n' k) f'.
Proof.
  intros n n' k f f' H Hk Hf. eapply opt_rel_par; [ apply get_array_under; assumption | exact Hf ].
Qed.

(** ** Loops *)

Lemma each_par : forall d f f' g g' l l',
  Forall2 (under d) l l' ->
  (forall x y, under d x y -> f x = f' y) -> (forall x y, under d x y -> g x = g' y) ->
  each f g l = each f' g' l'.
Proof.
  intros d f f' g g' l l' H Hf Hg. induction H as [| x y l l' Hxy H IH]; [ reflexivity |].
  cbn [each]. rewrite IH, (Hf x y Hxy). f_equal. f_equal.
  destruct H as [| u v]; [ reflexivity |]. apply Hg. assumption.
Qed.

Lemma commas_par : forall d f f' l l',
  Forall2 (under d) l l' -> (forall x y, under d x y -> f x = f' y) -> commas f l = commas f' l'.
Proof. intros. eapply each_par; eauto. Qed.

Lemma flat_map_par : forall d (f f' : json -> list cmd) l l',
  Forall2 (under d) l l' -> (forall x y, under d x y -> f x = f' y) ->
  flat_map f l = flat_map f' l'.
Proof.
  intros d f f' l l' H Hf. induction H as [| x y l l' Hxy H IH]; [ reflexivity |].
  cbn [flat_map]. rewrite IH, (Hf x y Hxy). reflexivity.
Qed.

Lemma not_empty_par : forall A (R : A -> A -> Prop) l l', Forall2 R l l' -> not_empty l = not_empty l'.
Proof. intros A R l l' H. destruct H; reflexivity. Qed.

Lemma length_par : forall A (R : A -> A -> Prop) l l', Forall2 R l l' -> length l = length l'.
Proof. intros A R l l' H. induction H; simpl; congruence. Qed.

Lemma sim_jdepth : forall x y, sim x y -> jdepth x = jdepth y.
Proof.
  induction x as [| | | | l IH | o IH] using json_ind'; intros y Hs;
    inversion Hs as [j | l1 l2 F | l1 l2 F]; subst; try reflexivity.
  - cbn [jdepth]. f_equal. clear Hs. induction F as [| u v l l' Huv F IHF]; [ reflexivity |].
    inversion IH as [| ? ? I1 I2]; subst. rewrite (I1 v Huv). f_equal. apply IHF. assumption.
  - cbn [jdepth]. f_equal. clear Hs.
    induction F as [| [k v] [k' v'] l l' [E D] F IHF]; [ reflexivity |].
    inversion IH as [| ? ? I1 I2]; subst. cbn [fst snd] in *.
    rewrite IHF by assumption. f_equal.
    destruct D as [(_ & D1 & D2) | D]; [ destruct v, v'; try reflexivity; contradiction |].
    apply I1. exact D.
Qed.

Lemma opt_same : forall A (o : option A) f f',
  (forall a, f a = f' a) -> opt o f = opt o f'.
Proof. intros. destruct o; cbn [opt]; auto. Qed.

Lemma when_par : forall b b' l l', b = b' -> l = l' -> when b l = when b' l'.
Proof. congruence. Qed.

Lemma app_par : forall (a a' b b' : list cmd), a = a' -> b = b' -> a ++ b = a' ++ b'.
Proof. congruence. Qed.

Lemma cons_par : forall (x : cmd) b b', b = b' -> x :: b = x :: b'.
Proof. congruence. Qed.

(** The children of a node: the ignored ones are scalars on both sides. *)
Lemma children_par : forall n n' (f f' : json -> list cmd),
  sim n n' ->
  (forall x y, under (jdepth n) x y -> f x = f' y) ->
  (forall v, scalar v -> f v = []) -> (forall v, scalar v -> f' v = []) ->
  flat_map f (children n) = flat_map f' (children n').
Proof.
  intros n n' f f' H Hf S S'. inversion H as [j | l l' H0 | l l' H0]; subst.
  - destruct n' as [| | | | l | l]; try reflexivity; cbn [children].
    + assert (D : forall x, In x l -> jdepth x < jdepth (JArr l)) by apply jdepth_elem.
      revert D Hf. generalize (jdepth (JArr l)). intros d D Hf.
      clear H. induction l as [| x l IH]; [ reflexivity |]. cbn [flat_map].
      rewrite (Hf x x), IH; [ reflexivity | |].
      * intros z Hz. apply D. right. exact Hz.
      * split; [ apply sim_refl | apply D; left; reflexivity ].
    + assert (D : forall x, In x (map snd l) -> jdepth x < jdepth (JObj l)).
      { intros x Hx. apply in_map_iff in Hx. destruct Hx as ([k v] & <- & Hx).
        eapply jdepth_value. exact Hx. }
      revert D Hf. generalize (jdepth (JObj l)). generalize (map snd l). clear H.
      intros m d D Hf. induction m as [| x m IH]; [ reflexivity |]. cbn [flat_map].
      rewrite (Hf x x), IH; [ reflexivity | |].
      * intros z Hz. apply D. right. exact Hz.
      * split; [ apply sim_refl | apply D; left; reflexivity ].
  - cbn [children]. apply flat_map_par with (d := jdepth (JArr l)); [| assumption ].
    assert (D : forall x, In x l -> jdepth x < jdepth (JArr l)) by apply jdepth_elem.
    revert D. generalize (jdepth (JArr l)). intros d D. clear H Hf.
    induction H0 as [| x y l l' Hxy _ IH]; constructor.
    + split; [ assumption |]. apply D. left. reflexivity.
    + apply IH. intros z Hz. apply D. right. exact Hz.
  - cbn [children].
    assert (D : forall x, In x (map snd l) -> jdepth x < jdepth (JObj l)).
    { intros x Hx. apply in_map_iff in Hx. destruct Hx as ([k v] & <- & Hx).
      eapply jdepth_value. exact Hx. }
    revert D Hf. generalize (jdepth (JObj l)). intros d D Hf. clear H.
    induction H0 as [| [k v] [k' v'] l l' [E Hv] _ IH]; [ reflexivity |].
    cbn [map flat_map snd fst] in *. rewrite IH; [| intros z Hz; apply D; right; exact Hz ].
    f_equal. destruct Hv as [(_ & Hv & Hv') | Hv].
    + rewrite S, S' by assumption. reflexivity.
    + apply Hf. split; [ exact Hv |]. apply D. left. reflexivity.
Qed.

End Same.

(** ** Indentation *)

(** The height reached after the requests, starting from [h]; [None] when it
    would fall below zero. *)
Fixpoint scan (h : nat) (l : list cmd) : option nat :=
  match l with
  | [] => Some h
  | Inc :: l => scan (S h) l
  | Dec :: l => match h with O => None | S h => scan h l end
  | _ :: l => scan h l
  end.

Definition balanced (l : list cmd) : Prop := forall h, scan h l = Some h.

Lemma scan_app : forall a b h,
  scan h (a ++ b) = match scan h a with Some h' => scan h' b | None => None end.
Proof.
  induction a as [| c a IH]; intros b h; [ reflexivity |].
  destruct c; cbn [app scan]; try apply IH. destruct h; [ reflexivity | apply IH ].
Qed.

Lemma bal_nil : balanced [].
Proof. intro. reflexivity. Qed.

Lemma bal_app : forall a b, balanced a -> balanced b -> balanced (a ++ b).
Proof. intros a b Ha Hb h. rewrite scan_app, Ha. apply Hb. Qed.

Lemma bal_opt : forall A (o : option A) f, (forall a, balanced (f a)) -> balanced (opt o f).
Proof. intros A [a |] f H; [ apply H | apply bal_nil ]. Qed.

Lemma bal_when : forall b l, balanced l -> balanced (when b l).
Proof. intros [|] l H; [ exact H | apply bal_nil ]. Qed.

Lemma bal_sub : forall f n k, (forall v, balanced (f v)) -> balanced (sub f n k).
Proof. intros. apply bal_opt. assumption. Qed.

Lemma bal_each : forall f g l,
  (forall v, balanced (f v)) -> (forall v, balanced (g v)) -> balanced (each f g l).
Proof.
  intros f g l Hf Hg. induction l as [| x l IH]; [ apply bal_nil |]. cbn [each].
  apply bal_app; [ apply Hf |]. apply bal_app; [| exact IH ].
  destruct l; [ apply bal_nil | apply Hg ].
Qed.

Lemma bal_commas : forall f l, (forall v, balanced (f v)) -> balanced (commas f l).
Proof. intros. apply bal_each; [ assumption |]. intros v h. reflexivity. Qed.

Lemma bal_flat_map : forall A (f : A -> list cmd) l,
  (forall v, balanced (f v)) -> balanced (flat_map f l).
Proof.
  intros A f l Hf. induction l as [| x l IH]; [ apply bal_nil |]. cbn [flat_map].
  apply bal_app; auto.
Qed.

Lemma scan_bal : forall l h, balanced l -> scan h l = Some h.
Proof. auto. Qed.

Lemma exec1_indent : forall g c st o st',
  exec1 g c st = Ok (o, st') ->
  p_ind st' = match c with
              | Inc => p_ind (increase_indent g st)
              | Dec => p_ind (decrease_indent st)
              | _ => p_ind st
              end.
Proof.
  intros g c st o st' H. destruct c; cbn [exec1] in H.
  - apply write_token_shape in H. tauto.
  - destruct (write_space_ok g st) as (w & s' & E & _ & Hi & _). rewrite E in H.
    injection H as <- <-. exact Hi.
  - injection H as <- <-. reflexivity.
  - rewrite write_indent_ok in H. injection H as <- <-. reflexivity.
  - injection H as <- <-. reflexivity.
  - injection H as <- <-. reflexivity.
  - apply write_flow_pieces in H. destruct H as (ps & _ & _ & _ & H). exact H.
  - match type of H with bind ?x _ = _ => destruct x as [[text s] | | |] end; try discriminate.
    cbn [bind] in H. apply write_flow_pieces in H. destruct H as (ps & _ & _ & _ & H). exact H.
  - discriminate.
Qed.

(** The indentation level of the printer follows the height, as long as it does
    not saturate. *)
Lemma exec_indent : forall g l h h' base st o st',
  scan h l = Some h' -> p_ind st = (base + N.of_nat h)%N ->
  (base + climb (N.of_nat h) l <= max_indent g)%N ->
  exec g l st = Ok (o, st') -> p_ind st' = (base + N.of_nat h')%N.
Proof.
  induction l as [| c l IH]; intros h h' base st o st' Hs Hi Hc H.
  - injection H as <- <-. injection Hs as <-. exact Hi.
  - cbn [exec] in H. apply and_print_ok in H. destruct H as (a & s & b & H1 & H2 & ->).
    apply exec1_indent in H1.
    destruct c; cbn [scan climb] in Hs, Hc;
      try (eapply IH; [ exact Hs | | | exact H2 ]; [ congruence | lia ]).
    + eapply IH; [ exact Hs | | | exact H2 ].
      * rewrite H1. cbn [increase_indent p_ind]. rewrite Hi.
        assert (base + N.of_nat h + 1 <= max_indent g)%N.
        { assert (forall l x, (x <= climb x l)%N) as Hcl.
          { induction l0 as [| d l0 IHl]; intro x; [ cbn; lia |]. destruct d; cbn [climb]; lia. }
          specialize (Hcl l (N.of_nat h + 1)%N). lia. }
        replace (max_indent g <=? base + N.of_nat h)%N with false by (symmetry; apply N.leb_gt; lia).
        lia.
      * replace (N.of_nat (S h)) with (N.of_nat h + 1)%N by lia. lia.
    + destruct h as [| h]; [ discriminate |]. eapply IH; [ exact Hs | | | exact H2 ].
      * rewrite H1. cbn [decrease_indent p_ind]. rewrite Hi.
        replace (base + N.of_nat (S h) =? 0)%N with false by (symmetry; apply N.eqb_neq; lia).
        lia.
      * replace (N.of_nat (S h) - 1)%N with (N.of_nat h) in Hc by lia. lia.
Qed.

Lemma balanced_indent : forall g l st o st',
  balanced l -> (p_ind st + climb 0 l <= max_indent g)%N ->
  exec g l st = Ok (o, st') -> p_ind st' = p_ind st.
Proof.
  intros g l st o st' Hb Hc H.
  rewrite (exec_indent g l 0 0 (p_ind st) st o st'); try assumption; [ cbn; lia | apply Hb | cbn; lia ].
Qed.

Lemma assoc_Forall : forall A (P : A -> Prop) k l v,
  Forall (fun p => P (snd p)) l -> assoc k l = Some v -> P v.
Proof.
  intros A P k l v H E. apply assoc_In_pair in E. rewrite Forall_forall in H.
  apply (H (k, v) E).
Qed.

(** ** Proving balance: run the requests symbolically *)

Create HintDb balance.

Ltac bal :=
  cbv beta;
  lazymatch goal with
  | |- balanced [] => apply bal_nil
  | |- balanced (opt _ _) => apply bal_opt; intros; bal
  | |- balanced (when _ _) => apply bal_when; bal
  | |- balanced (sub _ _ _) => apply bal_sub; intros; bal
  | |- balanced (commas _ _) => apply bal_commas; intros; bal
  | |- balanced (flat_map _ _) => apply bal_flat_map; intros; bal
  | |- balanced (each _ _ _) => apply bal_each; intros; bal
  | |- balanced (if ?b then _ else _) => destruct b; bal
  | |- balanced (_ ++ _) => let h := fresh "h" in intro h; bal_run
  | |- balanced (_ :: _) => let h := fresh "h" in intro h; bal_run
  | |- balanced (match ?x with _ => _ end) => destruct x; bal
  | |- balanced (let x := ?e in _) => cbv zeta; bal
  | |- balanced _ => solve [ auto with balance ]
  end
with bal_run :=
  cbv iota beta;
  lazymatch goal with
  | |- Some _ = Some _ => reflexivity
  | |- scan ?h (?a ++ ?b) = _ => rewrite scan_app; bal_run
  | |- scan ?h (_ :: _) = _ => progress cbn [scan]; bal_run
  | |- scan ?h ?a = _ => apply scan_bal; bal
  | |- match scan ?h (?a ++ ?b) with _ => _ end = _ => rewrite scan_app; bal_run
  | |- match scan ?h (_ :: _) with _ => _ end = _ => progress cbn [scan]; bal_run
  | |- match scan ?h [] with _ => _ end = _ => cbn [scan]; bal_run
  | |- match match scan ?h ?a with _ => _ end with _ => _ end = _ =>
      rewrite (scan_bal a h) by bal; bal_run
  | |- match scan ?h ?a with _ => _ end = _ => rewrite (scan_bal a h) by bal; bal_run
  end.

(** ** One step of comparing two printers *)

Ltac keys_eq :=
  repeat match goal with
  | H : sim ?K ?a ?b |- context [get_str ?a ?k] =>
      rewrite (sim_get_str K a b k H eq_refl)
  | H : sim ?K ?a ?b |- context [get_bool ?a ?k] =>
      rewrite (sim_get_bool K a b k H eq_refl)
  | H : sim ?K ?a ?b |- context [get_int ?a ?k] =>
      rewrite (sim_get_int K a b k H eq_refl)
  | H : sim ?K ?a ?b |- context [get_float ?a ?k] =>
      rewrite (sim_get_float K a b k H eq_refl)
  | H : sim ?K ?a ?b |- context [is_null ?a] => rewrite (sim_is_null K a b H)
  | H : sim ?K ?a ?b |- context [is_object ?a] => rewrite (sim_is_object K a b H)
  | H : sim ?K ?a ?b |- context [as_str ?a] => rewrite (sim_as_str K a b H)
  | H : Forall2 ?R ?l ?l' |- context [not_empty ?l] => rewrite (not_empty_par _ R l l' H)
  | H : Forall2 ?R ?l ?l' |- context [length ?l] => rewrite (length_par _ R l l' H)
  end.

Ltac under_intros :=
  let x := fresh "x" in let y := fresh "y" in let H1 := fresh "S" in let H2 := fresh "D" in
  intros x y [H1 H2].

Ltac par1 :=
  keys_eq;
  first
    [ reflexivity
    | apply app_par
    | apply cons_par
    | apply when_par; [ reflexivity |]
    | eapply sub_par; [ eassumption | apply le_n | reflexivity | under_intros ]
    | eapply opt_oget_par; [ eassumption | reflexivity | under_intros ]
    | eapply opt_arr_par; [ eassumption | reflexivity | intros ]
    | eapply opt_get_array_par; [ eassumption | reflexivity | intros ]
    | apply opt_same; intros
    | eapply commas_par; [ eassumption | under_intros ]
    | eapply flat_map_par; [ eassumption | under_intros ]
    | eapply each_par; [ eassumption | under_intros | under_intros ]
    | match goal with |- (if ?b then _ else _) = (if ?b then _ else _) => destruct b end
    | match goal with Hr : forall c x y, under _ _ x y -> ?r c x = _ |- ?r _ _ = _ =>
        apply Hr; split; [ assumption | lia ] end ].
Ltac par := repeat (cbv beta; par1).
