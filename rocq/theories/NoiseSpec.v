(** Specification vocabulary for the noise sampler: counting over the words it draws. *)
From Coq Require Import String ZArith List Bool Reals.
From Verif Require Import GoBase AmplifySpec NoiseModel.
Import ListNotations.
Open Scope Z_scope.

(** the sampler, started afresh on exactly these words, uses all of them and returns g *)
Definition yields (g : Z) (ws : list Z) : bool :=
  match noise Index ws with Some (g', []) => g' =? g | _ => false end.
(** how many of the 2^(64 n) sequences of n words make it return g with its n-th word; divided by 2^(64 n), the probability
    that it stops after n words and returns g *)
Definition draws (n : nat) (g : Z) : Z := count_words (2 ^ 64) n (yields g).

(** the density of the centred normal distribution with standard deviation 6.4, up to its constant factor *)
Definition bell (g : Z) : R := exp (- (IZR g * IZR g) / (2 * (64 / 10) * (64 / 10))).
(** the common factor: (2^31 / 129) * 2^33 first words per index, times 2^64 second words, times 2^63 third words per sign *)
Definition scale : Z := (2 ^ 31 / 129) * 2 ^ 160.
