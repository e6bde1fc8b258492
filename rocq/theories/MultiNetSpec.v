(** Vocabulary for runs of the multi-server benchmark for predicate queries. *)
From Coq Require Import String ZArith List Bool Permutation.
From Verif Require Import GoBase FieldModel FSSModel FSSProofs PredicateModel PredicateSpec PointModel FrontendModel FrontendSpec MultiModel MultiNetModel.
Import ListNotations.
Open Scope Z_scope.

(** During a repetition the client draws a key for every tag and the bytes of the function shares, visits its connections in some order, and
    answers arrive in some order. *)
Definition fair_round {C} (values : nat) (conns : list C) (h : round C) : Prop :=
  rand_ok (ro_rand h) /\ S (length (ro_alphas h)) = values /\ Forall reduced (ro_alphas h) /\
  Permutation conns (ro_order h) /\ some_order (ro_arrive h).

(** The keys of the function shares for 2^logN points have [len logN] bytes, and can be sent. *)
Definition keys_sized (D : dpf_scheme) (len : Z -> Z) : Prop :=
  (forall alpha logN k0 k1, dpf_gen D alpha logN = Ok (k0, k1) -> zlen k0 = len logN /\ zlen k1 = len logN) /\
  forall logN, len logN <= 1000000000.
