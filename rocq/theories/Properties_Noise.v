(** The law of the noise drawn for the lattice schemes. The Gaussian part is about real numbers and uses the axioms of the
    standard library's Reals. *)
From Coq Require Import String ZArith List Bool Lia Arith Reals Lra.
From Verif Require Import GoBase BaseFacts PrgModel PrgSpec AmplifySpec NoiseModel NoiseSpec NoiseProofs NoiseProofs2 NoiseProofs3.
Import ListNotations.
Open Scope Z_scope.

(** C94: how many words the sampler needs says nothing about the sample: for every number n of words the samples are
    distributed as they are for three words. *)
Theorem C94_law_independent_of_rejections (n : nat) (g g' : Z) : draws n g * draws 3 g' = draws n g' * draws 3 g.
Proof. apply law. Qed.
Print Assumptions C94_law_independent_of_rejections.

(** C94: for every value g between -128 and 128, the number of word triples that give g is, up to the common factor [scale],
    exp(-g^2 / (2 * 6.4^2)), with a relative error of at most 4/10^6 and an absolute error of at most 2^-52. *)
Theorem C94_gaussian (g : Z) : -128 <= g <= 128 ->
  (Rabs (IZR (draws 3 g) / IZR scale - bell g) <= 4 / 1000000 * bell g + / IZR (2 ^ 52))%R.
Proof. apply gaussian. Qed.
Print Assumptions C94_gaussian.

(** no other value is ever drawn *)
Theorem C94_range (n : nat) (g : Z) : 128 < Z.abs g -> draws n g = 0.
Proof. intros H. apply never_outside. auto. Qed.
Print Assumptions C94_range.

(** the two signs of a value are equally likely *)
Theorem C94_symmetric (n : nat) (g : Z) : draws n (- g) = draws n g.
Proof. apply draws_opp. Qed.
Print Assumptions C94_symmetric.

(** a rejected height, an accepted one, and the sign: index 7 twice (7 * 2^32), heights 0.9 and 0.1, sign bit 0 *)
Example C94_example :
  noise Index [7 * 2 ^ 32; 2 ^ 63 / 10 * 9; 7 * 2 ^ 32; 2 ^ 63 / 10; 4; 99] = Some (-7, [99]) /\
  yields 7 [7 * 2 ^ 32; 2 ^ 63 / 10; 5] = true /\ yields 7 [7 * 2 ^ 32; 2 ^ 63 / 10; 4] = false /\
  noise Index [2 ^ 63 - 1; 2 ^ 62; 0] = None /\ length cdf_table = 129%nat.
Proof. repeat split; vm_compute; reflexivity. Qed.
