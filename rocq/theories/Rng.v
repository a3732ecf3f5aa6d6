(** The pseudo random number generator handed to the operators.

    [rand_pcg::Pcg64] is modelled by an arbitrary infinite stream of draws and
    a read position: theorems quantify over all streams, hence over all seeds
    and over all generators.  One call of a [rand] API function consumes one
    draw.  (The real [gen_range]/[choose] may consume several 64 bit words by
    rejection; only the *reduced* value is observable by the crate, so a draw
    here stands for the whole call.) *)
From Coq Require Import String List NArith ZArith.
From Verif Require Import Base.
Import ListNotations.
Open Scope string_scope.
Open Scope list_scope.

Record rng : Type := { rstream : nat -> N; rpos : nat }.

Definition draw (r : rng) : N * rng :=
  (rstream r (rpos r), {| rstream := rstream r; rpos := S (rpos r) |}).

(** [RngCore::next_u64]. *)
Definition next_u64 (r : rng) : N * rng :=
  let (d, r') := draw r in ((d mod 18446744073709551616)%N, r').

(** [rand.next_u64() % n as u64]: remainder by zero panics. *)
Definition next_mod (n : N) (r : rng) : res (N * rng) :=
  match n with
  | 0%N => Panic "remainder by zero"
  | _ => let (d, r') := next_u64 r in Ok ((d mod n)%N, r')
  end.

(** [SliceRandom::choose]: [None] on an empty slice (no draw). *)
Definition choose {A} (l : list A) (r : rng) : option A * rng :=
  match l with
  | [] => (None, r)
  | _ => let (d, r') := draw r in
         (nth_error l (N.to_nat (d mod N.of_nat (length l))), r')
  end.

(** [Rng::gen_range(lo, hi)] (rand 0.7): panics unless [lo < hi]. *)
Definition gen_range (lo hi : Z) (r : rng) : res (Z * rng) :=
  if (lo <? hi)%Z then
    let (d, r') := draw r in Ok ((lo + (Z.of_N d) mod (hi - lo))%Z, r')
  else Panic "gen_range: low >= high".
