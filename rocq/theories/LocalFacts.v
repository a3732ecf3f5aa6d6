(** Two trees that differ in one node: what the printers can see of it. *)
From Coq Require Import String Ascii List NArith ZArith Arith Bool Lia.
From Verif Require Import Base Json JsonFacts Printer SpecTree SpecPrinter SpecLocal EmitFacts TraverseFacts.
Import ListNotations.
Open Scope string_scope.
Open Scope list_scope.

(** [dif _ x x' b v v']: [v'] is [v] with [x'] in place of [x]; [b] says that
    [x] is below an object of [v].  A key in [peeked] does not keep [x], and the
    objects above [x] are [ok]. *)
Inductive dif (peeked : list string) (ok : json -> Prop) (x x' : json) : bool -> json -> json -> Prop :=
| dif_here : dif peeked ok x x' false x x'
| dif_arr b l1 v v' l2 : dif peeked ok x x' b v v' -> dif peeked ok x x' b (JArr (l1 ++ v :: l2)) (JArr (l1 ++ v' :: l2))
| dif_obj b o1 k v v' o2 : dif peeked ok x x' b v v' -> (b = false -> ~ In k peeked) -> ok (JObj (o1 ++ (k, v) :: o2)) ->
    dif peeked ok x x' true (JObj (o1 ++ (k, v) :: o2)) (JObj (o1 ++ (k, v') :: o2)).

Definition isobj (v : json) : Prop := exists o, v = JObj o.
Definition both (x x' : json) : Prop := isobj x /\ isobj x'.

(** ** What is seen of a changed value *)

Lemma dif_kind : forall K ok x x' b v v', both x x' -> dif K ok x x' b v v' ->
  (exists l l', v = JArr l /\ v' = JArr l') \/ (exists o o', v = JObj o /\ v' = JObj o').
Proof.
  intros K ok x x' b v v' ((o & ->) & (o' & ->)) D. inversion D; subst; [right|left|right]; eauto.
Qed.

Ltac by_kind := intros K ok x x' b v v' B D; destruct (dif_kind _ _ _ _ _ _ _ B D) as [(?&?&->&->)|(?&?&->&->)]; auto.

Lemma dif_as_str : forall K ok x x' b v v', both x x' -> dif K ok x x' b v v' -> as_str v = None /\ as_str v' = None.
Proof. by_kind. Qed.
Lemma dif_as_bool : forall K ok x x' b v v', both x x' -> dif K ok x x' b v v' -> as_bool v = None /\ as_bool v' = None.
Proof. by_kind. Qed.
Lemma dif_as_i64 : forall K ok x x' b v v', both x x' -> dif K ok x x' b v v' -> as_i64 v = None /\ as_i64 v' = None.
Proof. by_kind. Qed.
Lemma dif_as_f64 : forall K ok x x' b v v', both x x' -> dif K ok x x' b v v' -> as_f64 v = None /\ as_f64 v' = None.
Proof. by_kind. Qed.
Lemma dif_is_null : forall K ok x x' b v v', both x x' -> dif K ok x x' b v v' -> is_null v = false /\ is_null v' = false.
Proof. by_kind. Qed.
Lemma dif_is_object : forall K ok x x' b v v', both x x' -> dif K ok x x' b v v' -> is_object v = is_object v'.
Proof. by_kind. Qed.

Lemma jdepth_mid : forall l1 (u : json) l2, jdepth u < jdepth (JArr (l1 ++ u :: l2)).
Proof. intros. apply jdepth_elem. apply in_or_app. right. now left. Qed.

Lemma dif_as_array : forall K ok x x' b v v', both x x' -> dif K ok x x' b v v' ->
  (as_array v = None /\ as_array v' = None) \/
  exists l1 u u' l2, as_array v = Some (l1 ++ u :: l2) /\ as_array v' = Some (l1 ++ u' :: l2) /\
    dif K ok x x' b u u' /\ jdepth u < jdepth v.
Proof.
  intros K ok x x' b v v' ((o & ->) & (o' & ->)) D. inversion D; subst; [now left| |now left].
  right. exists l1, v0, v'0, l2. repeat split; [assumption|apply jdepth_mid].
Qed.

Lemma assoc_mid : forall (o1 o2 : list (string * json)) k (v v' : json) k',
  assoc k' (o1 ++ (k, v) :: o2) = assoc k' (o1 ++ (k, v') :: o2) \/
  (k' = k /\ assoc k' (o1 ++ (k, v) :: o2) = Some v /\ assoc k' (o1 ++ (k, v') :: o2) = Some v').
Proof.
  induction o1 as [|[k1 v1] o1 IH]; intros o2 k v v' k'; cbn [app assoc].
  - destruct (k' =?s k) eqn:E; [right|now left]. apply String.eqb_eq in E. auto.
  - destruct (k' =?s k1); [now left|apply IH].
Qed.

(** An object above the node: one key may have another value. *)
Lemma dif_true : forall K ok x x' v v', dif K ok x x' true v v' ->
  (exists l1 u u' l2, v = JArr (l1 ++ u :: l2) /\ v' = JArr (l1 ++ u' :: l2) /\ dif K ok x x' true u u') \/
  (exists o1 k u u' o2 b, v = JObj (o1 ++ (k, u) :: o2) /\ v' = JObj (o1 ++ (k, u') :: o2) /\ dif K ok x x' b u u' /\ (b = false -> ~ In k K)).
Proof.
  intros K ok x x' v v' D. inversion D; subst; [left|right].
  - exists l1, v0, v'0, l2. auto.
  - exists o1, k, v0, v'0, o2, b. auto.
Qed.

(** [n] and [n'] agree at every key but [k], where they have [v] and [v']. *)
Definition only (k : string) (v v' n n' : json) : Prop :=
  forall k', oget n k' = oget n' k' \/ (k' = k /\ oget n k' = Some v /\ oget n' k' = Some v').

Lemma dif_only : forall K ok x x' v v', dif K ok x x' true v v' ->
  exists k u u' b, only k u u' v v' /\ dif K ok x x' b u u' /\ (b = false -> ~ In k K) /\ jdepth u < jdepth v.
Proof.
  intros K ok x x' v v' D. destruct (dif_true _ _ _ _ _ _ D) as [(l1 & u & u' & l2 & -> & -> & E)|(o1 & k & u & u' & o2 & b & -> & -> & E & P)].
  - exists "", u, u', true. split; [intros k'; now left|]. split; [exact E|]. split; [discriminate|apply jdepth_mid].
  - exists k, u, u', b. split; [|split; [exact E|split; [exact P|]]].
    + intros k'. cbn [oget]. apply assoc_mid.
    + apply jdepth_value with k. apply in_or_app. right. now left.
Qed.

Lemma dif_get_str : forall K ok x x' v v' k, both x x' -> dif K ok x x' true v v' -> plain_key k = true -> get_str v k = get_str v' k.
Proof.
  intros K ok x x' v v' k B D P. destruct (dif_only _ _ _ _ _ _ D) as (k0 & u & u' & b & O & E & _).
  unfold get_str. rewrite !kget_plain by exact P. destruct (O k) as [->|(-> & -> & ->)]; [reflexivity|].
  destruct (dif_as_str _ _ _ _ _ _ _ B E) as (-> & ->). reflexivity.
Qed.

(** ** What is printed *)

Section Change.
Context {C : Type} (E : C -> json -> list cmd) (x x' : json).
Notation Q := (changed_at E x x').

Lemma Q_left : forall a b b', Q b b' -> Q (a ++ b) (a ++ b').
Proof. intros a b b' H. destruct H; [apply Not_shown|]. rewrite !(app_assoc a). apply Shown_at. Qed.
Lemma Q_right : forall a a' b, Q a a' -> Q (a ++ b) (a' ++ b).
Proof.
  intros a a' b H. destruct H; [apply Not_shown|]. rewrite <- !app_assoc. apply Shown_at.
Qed.
Lemma Q_cons : forall c b b', Q b b' -> Q (c :: b) (c :: b').
Proof. intros c b b' H. exact (Q_left [c] b b' H). Qed.
Lemma Q_when : forall c a b, Q a b -> Q (when c a) (when c b).
Proof. intros [] a b H; [exact H|apply Not_shown]. Qed.
Lemma Q_print : forall c, Q (E c x) (E c x').
Proof. intros c. pose proof (Shown_at E x x' [] c []) as H. cbn [app] in H. now rewrite !app_nil_r in H. Qed.

Lemma each_cut : forall f g l1 u l2,
  each f g (l1 ++ u :: l2) =
  each f g l1 ++ match l1 with [] => [] | _ => g u end ++ f u ++ match l2 with [] => [] | y :: _ => g y end ++ each f g l2.
Proof.
  intros f g. induction l1 as [|y l1 IH]; intros u l2; [reflexivity|]. cbn [app each]. rewrite IH.
  destruct l1; cbn [app each]; rewrite <- ?app_assoc; reflexivity.
Qed.

Lemma Q_each : forall (f g : json -> list cmd) l1 u u' l2, Q (f u) (f u') -> g u = g u' ->
  Q (each f g (l1 ++ u :: l2)) (each f g (l1 ++ u' :: l2)).
Proof.
  intros f g l1 u u' l2 H G. rewrite !each_cut, G. apply Q_left, Q_left, Q_right, H.
Qed.

Lemma Q_commas : forall (f : json -> list cmd) l1 u u' l2, Q (f u) (f u') -> Q (commas f (l1 ++ u :: l2)) (commas f (l1 ++ u' :: l2)).
Proof. intros. now apply Q_each. Qed.

Lemma Q_flat_map : forall (f : json -> list cmd) l1 u u' l2, Q (f u) (f u') -> Q (flat_map f (l1 ++ u :: l2)) (flat_map f (l1 ++ u' :: l2)).
Proof. intros. rewrite !flat_map_app. apply Q_left. cbn [flat_map]. now apply Q_right. Qed.

End Change.

Lemma not_empty_mid : forall A l1 (u : A) l2, not_empty (l1 ++ u :: l2) = true.
Proof. intros A [|y l1] u l2; reflexivity. Qed.
Lemma length_mid : forall A l1 (u u' : A) l2, length (l1 ++ u :: l2) = length (l1 ++ u' :: l2).
Proof. intros. rewrite !app_length. reflexivity. Qed.

(** ** From positions *)

Lemma nth_cut : forall A (l : list A) i v, nth_error l i = Some v -> exists l1 l2, l = l1 ++ v :: l2 /\ length l1 = i.
Proof. intros A l i v H. destruct (nth_error_split l i H) as (l1 & l2 & -> & <-). eauto. Qed.

Lemma replace_cut : forall A (l1 : list A) v l2 w, replace_at (length l1) w (l1 ++ v :: l2) = l1 ++ w :: l2.
Proof. induction l1 as [|y l1 IH]; intros v l2 w; [reflexivity|]. cbn [length app replace_at]. now rewrite IH. Qed.

Lemma set_value_cut : forall o1 k v o2 w, set_value (length o1) w (o1 ++ (k, v) :: o2) = o1 ++ (k, w) :: o2.
Proof. induction o1 as [|[k1 y] o1 IH]; intros k v o2 w; [reflexivity|]. cbn [length app set_value]. now rewrite IH. Qed.

Lemma dif_at : forall K (ok : json -> Prop) x x' p k0 n, subtree p n = Some x ->
  (forall k, kept_under k0 p n = Some k -> ~ In k K) ->
  (forall y, above p n y -> ok y) ->
  exists b, dif K ok x x' b n (set_subtree p x' n) /\ (b = false -> kept_under k0 p n = k0).
Proof.
  intros K ok x x'. induction p as [|i p IH]; intros k0 n H P Y.
  - injection H as ->. exists false. split; [constructor|reflexivity].
  - cbn [subtree set_subtree] in *. destruct (nth_error (children n) i) as [v|] eqn:N; [|discriminate].
    assert (Yv : forall y, above p v y -> ok y).
    { intros y (q & r & -> & R & S). apply Y. exists (i :: q), r. repeat split; [exact R|]. cbn [subtree]. now rewrite N. }
    assert (Yn : ok n) by (apply Y; exists [], (i :: p); repeat split; discriminate).
    destruct n as [| | | |l|o]; cbn [children] in N; try (destruct i; discriminate).
    + cbn [kept_under] in P |- *. rewrite N in P |- *. destruct (IH k0 v H P Yv) as (b & D & O).
      destruct (nth_cut _ _ _ _ N) as (l1 & l2 & -> & <-). cbn [set_child]. rewrite replace_cut.
      exists b. split; [now constructor|exact O].
    + cbn [kept_under] in P |- *. rewrite nth_error_map in N. destruct (nth_error o i) as [[k w]|] eqn:M; [|discriminate].
      injection N as ->. cbn [fst snd] in *. destruct (IH (Some k) v H P Yv) as (b & D & O).
      destruct (nth_cut _ _ _ _ M) as (o1 & o2 & -> & <-). cbn [set_child]. rewrite set_value_cut.
      exists true. split; [|discriminate]. apply dif_obj with b; [exact D| |exact Yn]. intros E. apply P. apply O, E.
Qed.
