(** The operators and member names of a tree, in the order of its parts: a list
    that the program determines, and that shows where a word was changed. *)
From Coq Require Import String Ascii List NArith ZArith Bool Lia.
From Verif Require Import Base Json JsonFacts SpecTree SpecMutation SpecLiteral SpecVyText SpecSolText SpecSolEdit
  TraverseFacts LocalFacts SolText SolTextStmt SolTextClaims SolPlace SolStrip.
Import ListNotations.
Open Scope string_scope.
Open Scope list_scope.

Definition word_key (ty : string) : string :=
  if (ty =?s "BinaryOperation") || (ty =?s "UnaryOperation") then "operator" else if ty =?s "MemberAccess" then "memberName" else "".
Definition label (ty : string) (v : option json) : list string :=
  if word_key ty =?s "" then [] else match v with Some (JStr s) => [s] | _ => [] end.
Definition found (o : option (list string)) : list string := match o with Some l => l | None => [] end.

Fixpoint jwords (j : json) : list string :=
  match j with
  | JArr l => concat (map jwords l)
  | JObj o =>
      let parts := (fix go (o : list (string * json)) := match o with [] => [] | (k, v) :: o => (k, jwords v) :: go o end) o in
      label (node_type o) (assoc (word_key (node_type o)) o) ++
      concat (map (fun k => found (assoc k parts)) (part_keys (node_type o)))
  | _ => []
  end.

(** The first word and the words of each part. *)
Definition type_of (v : json) : string := match v with JObj o => node_type o | _ => "" end.
Definition front (v : json) : list string := label (type_of v) (oget v (word_key (type_of v))).
Definition seg (v : json) (k : string) : list string := match oget v k with Some w => jwords w | None => [] end.
Definition parts (v : json) : list (list string) :=
  match v with JArr l => map jwords l | JObj o => map (seg v) (part_keys (node_type o)) | _ => [] end.

Lemma jwords_parts : forall v, jwords v = front v ++ concat (parts v).
Proof.
  intros [| | | |l|o]; try reflexivity. cbn [jwords parts]. unfold front. cbn [type_of oget]. f_equal. f_equal. apply map_ext. intros k. unfold seg. cbn [oget].
  clear. induction o as [|[k1 v1] o IH]; [reflexivity|]. cbn [assoc]. destruct (k =?s k1); [reflexivity|exact IH].
Qed.

Lemma is_n_type : forall v ty, is_n v ty -> type_of v = ty.
Proof. intros v ty A. unfold is_n, fld, oget in A. destruct v as [| | | | |o]; try discriminate A. cbn [type_of]. unfold node_type. now rewrite A. Qed.

Lemma jwords_n : forall v ty, is_n v ty -> jwords v = label ty (oget v (word_key ty)) ++ concat (map (seg v) (part_keys ty)).
Proof.
  intros v ty A. pose proof (is_n_type _ _ A) as T. rewrite jwords_parts. unfold front. rewrite T. f_equal. f_equal.
  unfold is_n, fld, oget in A. destruct v as [| | | | |o]; try discriminate A. cbn [type_of] in T. cbn [parts]. now rewrite T.
Qed.

Lemma seg_fld : forall v k w, fld v k w -> seg v k = jwords w.
Proof. intros v k w F. unfold seg. unfold fld in F. now rewrite F. Qed.
Lemma seg_gone : forall v k, gone v k -> seg v k = [].
Proof. intros v k G. unfold seg. unfold gone in G. now rewrite G. Qed.

(** ** Comments *)

Lemma strip_node_type : forall o, node_type (strip_fields o) = node_type o.
Proof.
  intros o. unfold node_type. rewrite assoc_strip_fields. destruct (assoc "nodeType" o) as [[| | | |l|o']|]; reflexivity.
Qed.

Lemma comment_words : forall n, is_comment n = true -> jwords n = [].
Proof.
  intros n H. unfold is_comment in H. destruct (oget n "nodeType") as [[| | |s| |]|] eqn:E; try discriminate H. apply String.eqb_eq in H. subst s.
  now rewrite (jwords_n n "Comment" E).
Qed.

Lemma strip_words : forall v, jwords (strip v) = jwords v.
Proof.
  induction v as [| | | |l IH|o IH] using json_ind'; try reflexivity.
  - rewrite strip_arr. cbn [jwords]. induction l as [|x l IHl]; [reflexivity|]. inversion IH as [|? ? Hx Hl]; subst.
    unfold strips. cbn [flat_map]. fold (strips l). destruct (is_comment x) eqn:C; cbn [app map concat].
    + rewrite (comment_words x C). exact (IHl Hl).
    + rewrite Hx. f_equal. exact (IHl Hl).
  - rewrite (jwords_parts (JObj o)), jwords_parts, strip_obj. unfold front. cbn [type_of parts]. rewrite strip_node_type. f_equal.
    + cbn [oget]. rewrite assoc_strip_fields. unfold label. destruct (word_key (node_type o) =?s ""); [reflexivity|].
      destruct (assoc (word_key (node_type o)) o) as [[| | | |l|o']|]; reflexivity.
    + f_equal. apply map_ext. intros k. unfold seg. cbn [oget]. rewrite assoc_strip_fields.
      destruct (assoc k o) as [w|] eqn:E; [|reflexivity]. cbn [option_map].
      assert (I : In (k, w) o).
      { clear - E. induction o as [|[k1 v1] o IHo]; [discriminate E|]. cbn [assoc] in E. destruct (k =?s k1) eqn:Q; [|right; auto].
        apply String.eqb_eq in Q. left. congruence. }
      rewrite Forall_forall in IH. exact (IH _ I).
Qed.

(** ** Where the words of a child stand *)

Definition index_of (k : string) : list string -> nat :=
  fix go l := match l with [] => 0 | y :: l => if k =?s y then 0 else Datatypes.S (go l) end.
Definition slot (v : json) (i : nat) : nat :=
  match v with JObj o => match nth_error o i with Some kw => index_of (fst kw) (part_keys (node_type o)) | None => 0 end | _ => i end.

Lemma index_nth : forall k l, In k l -> nth_error l (index_of k l) = Some k.
Proof.
  intros k l. induction l as [|y l IH]; intros H; [destruct H|]. cbn [index_of]. destruct (k =?s y) eqn:E; [apply String.eqb_eq in E; now subst y|].
  destruct H as [->|H]; [rewrite String.eqb_refl in E; discriminate E|exact (IH H)].
Qed.

Definition plain_part (k : string) : bool := negb (smem k ["nodeType"; "operator"; "memberName"; ""]).
Definition distinct (l : list string) : bool := once l && forallb plain_part l.
Lemma part_keys_distinct : forall ty, distinct (part_keys ty) = true.
Proof.
  intros ty. unfold part_keys. match goal with |- context [assoc ty ?T] => set (t := T) end.
  assert (F : forallb (fun kl => distinct (snd kl)) t = true) by (vm_compute; reflexivity).
  clearbody t. induction t as [|[k l] t IH]; [reflexivity|]. cbn [forallb snd] in F. apply andb_true_iff in F. destruct F as (F1 & F2).
  cbn [assoc]. destruct (ty =?s k); auto.
Qed.
Lemma once_NoDup : forall l, once l = true -> NoDup l.
Proof.
  induction l as [|k l IH]; cbn [once]; intros H; constructor; apply andb_true_iff in H; destruct H as (H1 & H2); auto.
  intros I. now rewrite (In_smem _ _ I) in H1.
Qed.
Lemma part_keys_NoDup : forall ty, NoDup (part_keys ty).
Proof. intros ty. pose proof (part_keys_distinct ty) as H. apply andb_true_iff in H. apply once_NoDup, H. Qed.
Lemma part_keys_plain : forall ty k, In k (part_keys ty) -> ~ In k ["nodeType"; "operator"; "memberName"; ""].
Proof.
  intros ty k I. pose proof (part_keys_distinct ty) as H. apply andb_true_iff in H. destruct H as (_ & H). rewrite forallb_forall in H.
  specialize (H k I). unfold plain_part in H. intros J. now rewrite (In_smem _ _ J) in H.
Qed.

Lemma map_replace : forall A B (f : A -> B) i x l, map f (replace_at i x l) = replace_at i (f x) (map f l).
Proof. intros A B f i x l. revert i. induction l as [|y l IH]; intros [|i]; cbn [replace_at map]; try reflexivity. now rewrite IH. Qed.

Lemma map_change : forall (f g : string -> list string) k l, NoDup l -> In k l -> (forall k', k' <> k -> g k' = f k') ->
  map g l = replace_at (index_of k l) (g k) (map f l).
Proof.
  intros f g k l. induction l as [|y l IH]; intros D I H; [destruct I|]. inversion D as [|? ? Ny Dl]; subst. cbn [index_of map].
  destruct (k =?s y) eqn:E.
  - apply String.eqb_eq in E. subst y. cbn [replace_at]. f_equal. apply map_ext_in. intros k' I'. apply H. intros ->. now apply Ny.
  - apply String.eqb_neq in E. destruct I as [->|I]; [congruence|]. cbn [replace_at]. rewrite <- (IH Dl I H). f_equal. apply H. congruence.
Qed.

Lemma key_at : forall o i k w, lean (JObj o) = true -> nth_error o i = Some (k, w) ->
  assoc k o = Some w /\ forall w', assoc k (set_value i w' o) = Some w' /\ forall k', k' <> k -> assoc k' (set_value i w' o) = assoc k' o.
Proof.
  intros o i k w L N. apply lean_once in L. revert i N. induction o as [|[k1 v1] o IH]; intros i N; [destruct i; discriminate N|].
  cbn [map fst once] in L. apply andb_true_iff in L. destruct L as (L1 & L2). destruct i as [|i]; cbn [nth_error] in N.
  - injection N as -> ->. cbn [assoc set_value]. rewrite String.eqb_refl. split; [reflexivity|]. intros w'. split; [reflexivity|].
    intros k' Nk. apply String.eqb_neq in Nk. now rewrite Nk.
  - destruct (IH L2 i N) as (A & B). assert (Nk : (k =?s k1) = false).
    { destruct (k =?s k1) eqn:E; [|reflexivity]. apply String.eqb_eq in E. subst k1. apply nth_error_In, (in_map fst) in N. cbn [fst] in N.
      now rewrite (In_smem _ _ N) in L1. }
    cbn [assoc set_value]. rewrite Nk. split; [exact A|]. intros w'. destruct (B w') as (B1 & B2). split; [exact B1|].
    intros k' N'. destruct (k' =?s k1); [reflexivity|exact (B2 k' N')].
Qed.

Lemma slot_child : forall v i c, lean v = true -> nth_error (children v) i = Some c -> inert c = false ->
  lean c = true /\ nth_error (parts v) (slot v i) = Some (jwords c) /\
  forall c', parts (set_child i c' v) = replace_at (slot v i) (jwords c') (parts v) /\ front (set_child i c' v) = front v.
Proof.
  intros v i c L N A. destruct v as [| | | |l|o]; cbn [children] in N; try (destruct i; discriminate N).
  - cbn [slot parts set_child]. split.
    { cbn [lean] in L. rewrite forallb_forall in L. apply L. now apply nth_error_In in N. }
    split; [now apply map_nth_error|]. intros c'. split; [apply map_replace|reflexivity].
  - rewrite nth_error_map in N. destruct (nth_error o i) as [[k w]|] eqn:E; [|discriminate N]. cbn in N. injection N as ->.
    destruct (lean_obj o k c L (nth_error_In _ _ E) A) as (I & Lc). split; [exact Lc|]. destruct (key_at o i k c L E) as (G & H).
    cbn [slot parts set_child]. rewrite E. cbn [fst]. split.
    { rewrite (map_nth_error (seg (JObj o)) _ _ (index_nth k _ I)). unfold seg. cbn [oget]. now rewrite G. }
    intros c'. destruct (H c') as (H1 & H2). pose proof (part_keys_plain _ _ I) as P.
    assert (T : node_type (set_value i c' o) = node_type o).
    { unfold node_type. rewrite H2; [reflexivity|]. intros <-. apply P. now left. }
    split.
    + rewrite T. rewrite (map_change (seg (JObj o)) (seg (JObj (set_value i c' o))) k _ (part_keys_NoDup _) I).
      * f_equal. unfold seg. cbn [oget]. now rewrite H1.
      * intros k' Nk. unfold seg. cbn [oget]. now rewrite H2.
    + unfold front. cbn [type_of oget]. rewrite T. f_equal. apply H2. unfold word_key.
      destruct ((node_type o =?s "BinaryOperation") || (node_type o =?s "UnaryOperation")); [intros <-; apply P; right; now left|].
      destruct (node_type o =?s "MemberAccess"); intros <-; apply P; [right; right; now left|right; right; right; now left].
Qed.

Lemma slot_apart : forall v i j c d, lean v = true -> nth_error (children v) i = Some c -> nth_error (children v) j = Some d ->
  inert c = false -> inert d = false -> i <> j -> slot v i <> slot v j.
Proof.
  intros v i j c d L N M A B D. destruct v as [| | | |l|o]; cbn [children] in N; try (destruct i; discriminate N); [exact D|].
  cbn [children] in M. rewrite nth_error_map in N, M.
  destruct (nth_error o i) as [[k w]|] eqn:E; [|discriminate N]. cbn in N. injection N as ->.
  destruct (nth_error o j) as [[k' w]|] eqn:F; [|discriminate M]. cbn in M. injection M as ->.
  destruct (lean_obj o k c L (nth_error_In _ _ E) A) as (I & _). destruct (lean_obj o k' d L (nth_error_In _ _ F) B) as (J & _).
  cbn [slot]. rewrite E, F. cbn [fst]. intros Q.
  pose proof (index_nth k _ I) as K1. rewrite Q, (index_nth k' _ J) in K1. injection K1 as ->.
  apply D. pose proof (once_NoDup _ (lean_once _ L)) as U. rewrite NoDup_nth_error in U. apply U.
  - rewrite map_length. apply nth_error_Some. now rewrite E.
  - rewrite !nth_error_map, E, F. reflexivity.
Qed.

(** ** Two changed words *)

Definition same_lengths : list (list string) -> list (list string) -> Prop := Forall2 (fun a b => length a = length b).
Lemma concat_same : forall l l', same_lengths l l' -> length (concat l) = length (concat l').
Proof. intros l l' F. induction F as [|a b l l' E F IH]; [reflexivity|]. cbn [concat]. rewrite !app_length. congruence. Qed.
Lemma app_same : forall A (a b c d : list A), length a = length b -> a ++ c = b ++ d -> a = b /\ c = d.
Proof.
  intros A a. induction a as [|x a IH]; intros [|y b] c d E H; try discriminate E; [auto|]. cbn [app] in H. injection H as -> H. injection E as E.
  destruct (IH _ _ _ E H) as (-> & ->). auto.
Qed.
Lemma concat_inj : forall l l', same_lengths l l' -> concat l = concat l' -> l = l'.
Proof.
  intros l l' F. induction F as [|a b l l' E F IH]; [reflexivity|]. cbn [concat]. intros H. apply app_same in H; [|exact E].
  destruct H as (-> & H). now rewrite (IH H).
Qed.
Lemma same_refl : forall l, same_lengths l l.
Proof. induction l; constructor; auto. Qed.
Lemma same_replace : forall j a b l, length a = length b -> same_lengths (replace_at j a l) (replace_at j b l).
Proof. intros j a b l E. revert j. induction l as [|x l IH]; intros [|j]; cbn [replace_at]; try apply same_refl; [constructor; [exact E|apply same_refl]|constructor; [reflexivity|exact (IH j)]]. Qed.
Lemma same_trans : forall a b c, same_lengths a b -> same_lengths b c -> same_lengths a c.
Proof.
  intros a b c F. revert c. induction F as [|x y a b E F IH]; intros c G; inversion G as [|? z ? c' E' G']; subst; [constructor|constructor; [congruence|exact (IH _ G')]].
Qed.

(** One path, two new nodes. *)
Lemma same_place : forall p v x y z, subtree p v = Some x -> lean v = true -> inert x = false ->
  length (jwords y) = length (jwords z) -> jwords y <> jwords z ->
  length (jwords (set_subtree p y v)) = length (jwords (set_subtree p z v)) /\ jwords (set_subtree p y v) <> jwords (set_subtree p z v).
Proof.
  induction p as [|i p IH]; intros v x y z S L A E D; cbn [subtree set_subtree] in *; [auto|].
  destruct (nth_error (children v) i) as [c|] eqn:N; [|discriminate S].
  assert (Ac : inert c = false).
  { clear - S A. revert c S. induction p as [|j p IHp]; intros c S; cbn [subtree] in S; [now injection S as ->|].
    destruct (nth_error (children c) j) as [d|] eqn:M; [|discriminate S]. specialize (IHp d S).
    destruct (inert c) eqn:Q; [|reflexivity]. exfalso. destruct c as [| | | |l|o]; cbn [children] in M; try (destruct j; discriminate M).
    - cbn [inert] in Q. rewrite forallb_forall in Q. rewrite (Q d (nth_error_In _ _ M)) in IHp. discriminate IHp.
    - rewrite nth_error_map in M. destruct (nth_error o j) as [[k w]|] eqn:F; [|discriminate M]. cbn in M. injection M as ->.
      rewrite (inert_fields o Q k d (nth_error_In _ _ F)) in IHp. discriminate IHp. }
  destruct (slot_child v i c L N Ac) as (Lc & Np & H). destruct (IH c x y z S Lc A E D) as (E' & D').
  destruct (H (set_subtree p y c)) as (P1 & F1). destruct (H (set_subtree p z c)) as (P2 & F2).
  rewrite !jwords_parts, P1, P2, F1, F2. split.
  - rewrite !app_length. f_equal. apply concat_same. now apply same_replace.
  - intros Q. apply app_inv_head in Q. apply concat_inj in Q; [|now apply same_replace].
    assert (Hl : slot v i < length (parts v)) by (apply nth_error_Some; congruence).
    apply (f_equal (fun l => nth_error l (slot v i))) in Q. rewrite !nth_error_replace_at_eq in Q by exact Hl. injection Q as Q. exact (D' Q).
Qed.

Lemma inert_up : forall p v x, subtree p v = Some x -> inert x = false -> inert v = false.
Proof.
  induction p as [|j p IH]; intros c x S A; cbn [subtree] in S; [now injection S as ->|].
  destruct (nth_error (children c) j) as [d|] eqn:M; [|discriminate S]. specialize (IH d x S A).
  destruct (inert c) eqn:Q; [|reflexivity]. exfalso. destruct c as [| | | |l|o]; cbn [children] in M; try (destruct j; discriminate M).
  - cbn [inert] in Q. rewrite forallb_forall in Q. rewrite (Q d (nth_error_In _ _ M)) in IH. discriminate IH.
  - rewrite nth_error_map in M. destruct (nth_error o j) as [[k w]|] eqn:F; [|discriminate M]. cbn in M. injection M as ->.
    rewrite (inert_fields o Q k d (nth_error_In _ _ F)) in IH. discriminate IH.
Qed.

(** The first word of a node, and nothing else, is changed. *)
Definition relabelled (x y : json) : Prop := exists a b, front x = [a] /\ front y = [b] /\ a <> b /\ parts y = parts x.

Lemma relabelled_words : forall x y, relabelled x y -> length (jwords y) = length (jwords x) /\ jwords y <> jwords x.
Proof.
  intros x y (a & b & Fx & Fy & D & P). rewrite !jwords_parts, Fx, Fy, P. split; [reflexivity|]. cbn [app]. congruence.
Qed.

Lemma set_self : forall p v x, subtree p v = Some x -> set_subtree p x v = v.
Proof.
  induction p as [|i p IH]; intros v x S; cbn [subtree set_subtree] in *; [now injection S as ->|].
  destruct (nth_error (children v) i) as [c|] eqn:N; [|reflexivity]. rewrite (IH c x S).
  destruct v as [| | | |l|o]; cbn [children] in N; try (destruct i; discriminate N); cbn [set_child]; f_equal.
  - now apply replace_at_same.
  - rewrite nth_error_map in N. clear - N. revert i N. induction o as [|[k w] o IHo]; intros [|i] N; cbn [nth_error option_map set_value] in *; try discriminate N.
    + cbn in N. now injection N as ->.
    + now rewrite (IHo i N).
Qed.

Lemma one_place : forall p v x y, subtree p v = Some x -> lean v = true -> inert x = false -> relabelled x y ->
  length (jwords (set_subtree p y v)) = length (jwords v) /\ jwords (set_subtree p y v) <> jwords v.
Proof.
  intros p v x y S L A R. destruct (relabelled_words x y R) as (E & D). destruct (same_place p v x y x S L A E D) as (E' & D').
  rewrite (set_self p v x S) in E', D'. auto.
Qed.

Lemma front_kept : forall i p v y x, subtree (i :: p) v = Some x -> lean v = true -> inert x = false -> front (set_subtree (i :: p) y v) = front v.
Proof.
  intros i p v y x S L A. cbn [subtree set_subtree] in *. destruct (nth_error (children v) i) as [c|] eqn:N; [|reflexivity].
  apply (slot_child v i c L N (inert_up p c x S A)).
Qed.

(** Two paths. *)
Lemma two_places : forall p q v x y x' y', subtree p v = Some x -> subtree q v = Some y -> lean v = true -> inert x = false -> inert y = false ->
  relabelled x x' -> relabelled y y' -> p <> q -> jwords (set_subtree p x' v) <> jwords (set_subtree q y' v).
Proof.
  induction p as [|i p IH]; intros [|j q] v x y x' y' S T L A B R R' D; [congruence| | |].
  - cbn [subtree] in S. injection S as ->. intros Q. pose proof (front_kept j q x y' y T L B) as F. change (set_subtree [] x' x) with x' in Q.
    rewrite (jwords_parts x'), (jwords_parts (set_subtree (j :: q) y' x)), F in Q. destruct R as (a & b & Fx & Fy & Dab & P).
    rewrite Fx, Fy in Q. cbn [app] in Q. congruence.
  - cbn [subtree] in T. injection T as ->. intros Q. pose proof (front_kept i p y x' x S L A) as F. change (set_subtree [] y' y) with y' in Q.
    rewrite (jwords_parts y'), (jwords_parts (set_subtree (i :: p) x' y)), F in Q. destruct R' as (a & b & Fx & Fy & Dab & P).
    rewrite Fx, Fy in Q. cbn [app] in Q. congruence.
  - cbn [subtree set_subtree] in *. destruct (nth_error (children v) i) as [c|] eqn:N; [|discriminate S].
    destruct (nth_error (children v) j) as [d|] eqn:M; [|discriminate T].
    pose proof (inert_up _ _ _ S A) as Ac. pose proof (inert_up _ _ _ T B) as Ad.
    destruct (slot_child v i c L N Ac) as (Lc & Np & H). destruct (slot_child v j d L M Ad) as (Ld & Mp & K).
    destruct (one_place p c x x' S Lc A R) as (E1 & D1). destruct (one_place q d y y' T Ld B R') as (E2 & D2).
    destruct (H (set_subtree p x' c)) as (P1 & F1). destruct (K (set_subtree q y' d)) as (P2 & F2).
    assert (Hl : slot v i < length (parts v)) by (apply nth_error_Some; congruence).
    rewrite !jwords_parts, P1, P2, F1, F2. intros Q. apply app_inv_head in Q.
    apply concat_inj in Q.
    + apply (f_equal (fun l => nth_error l (slot v i))) in Q. rewrite nth_error_replace_at_eq in Q by exact Hl.
      destruct (Nat.eq_dec i j) as [<-|Nij].
      * rewrite N in M. injection M as <-. rewrite nth_error_replace_at_eq in Q by exact Hl. injection Q as Q.
        refine (IH q c x y x' y' S T Lc A B R R' _ Q). congruence.
      * pose proof (slot_apart v i j c d L N M Ac Ad Nij) as Sl. rewrite nth_error_replace_at_neq in Q by exact Sl.
        rewrite Np in Q. injection Q as Q. exact (D1 Q).
    + assert (G : forall j w l, nth_error l j = Some w -> forall w', length w' = length w -> same_lengths (replace_at j w' l) l /\ same_lengths l (replace_at j w' l)).
      { intros j0 w l Nw w' E. pose proof (same_replace j0 w' w l E) as G1. pose proof (same_replace j0 w w' l (eq_sym E)) as G2.
        rewrite (replace_at_same _ _ _ Nw) in G1, G2. auto. }
      destruct (G _ _ _ Np _ E1) as (G1 & _). destruct (G _ _ _ Mp _ E2) as (_ & G2). exact (same_trans _ _ _ G1 G2).
Qed.
