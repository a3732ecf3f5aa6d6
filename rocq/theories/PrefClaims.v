(** The claims about the store of preferences. *)
From Coq Require Import String Ascii List NArith ZArith Bool Lia.
From Verif Require Import Base Json JsonFacts SpecTree SpecJson Prefs SpecPrefs PrefFacts.
Import ListNotations.
Open Scope string_scope.
Open Scope list_scope.

Lemma typed_same p k :
  (forall i, get_pint (set_int p k i) k = Some i) /\
  (forall f, get_pfloat (set_float p k f) k = Some f) /\
  (forall s, get_pstring (set_string p k s) k = Some s) /\
  (forall b, get_pbool (set_bool p k b) k = Some b) /\
  (forall m, get_pmap (set_map p k m) k = Some m) /\
  (forall a, get_parray (set_array p k a) k = Some a) /\
  (forall q, get_prefs (set_prefs p k q) k = Some q).
Proof.
  unfold get_pint, set_int, get_pfloat, set_float, get_pstring, set_string, get_pbool, set_bool, get_pmap, set_map,
    get_parray, set_array, get_prefs, set_prefs.
  repeat split; intro; now rewrite hm_insert_same.
Qed.

Lemma typed_other p k k' v : k' <> k ->
  let q := set_value p k v in
  get_value q k' = get_value p k' /\ has_key q k' = has_key p k' /\ get_pint q k' = get_pint p k' /\
  get_pfloat q k' = get_pfloat p k' /\ get_pstring q k' = get_pstring p k' /\ get_pbool q k' = get_pbool p k' /\
  get_pmap q k' = get_pmap p k' /\ get_parray q k' = get_parray p k' /\ get_prefs q k' = get_prefs p k'.
Proof.
  intro N. cbv zeta. unfold get_value, has_key, get_pint, get_pfloat, get_pstring, get_pbool, get_pmap, get_parray,
    get_prefs, set_value. now rewrite hm_insert_other by exact N.
Qed.

Lemma slash_lost : exists p q, rust_value (PMap p) /\ prefs_of_json (json_of_prefs p) = Ok q /\ ~ same_prefs p q.
Proof.
  exists [("a", PMap [("b", PInt 1)]); ("a/b", PInt 2)]. eexists. split.
  - repeat constructor; cbn; try lia; intuition discriminate.
  - split; [vm_compute; reflexivity|]. intro S. specialize (S "a"). vm_compute in S. inversion S as [|x y V]. subst.
    inversion V as [| | | |x y Z| |]. subst. specialize (Z "b"). vm_compute in Z. inversion Z as [|x y VV]. inversion VV.
Qed.

Lemma nan_lost : exists p q, rust_value (PMap p) /\ prefs_of_json (json_of_prefs p) = Ok q /\
  get_value p "x" = Some (PFloat None) /\ get_value q "x" = Some PNull.
Proof.
  exists [("x", PFloat None)]. eexists. split.
  - repeat constructor; cbn; tauto.
  - split; [vm_compute; reflexivity|]. split; reflexivity.
Qed.

Lemma big_lost : exists j, canonical j /\ json_of_pval (pval_of_json j) <> j.
Proof.
  exists (juint 9223372036854775809). split; [|intro H; vm_compute in H; discriminate H]. split.
  - intros [|i p] o E; cbn in E; try discriminate; destruct i; discriminate.
  - intros [|i p] x E; [|cbn in E; destruct i; discriminate]. injection E as <-. reflexivity.
Qed.
