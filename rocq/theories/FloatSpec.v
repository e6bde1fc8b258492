(** Vocabulary for floating-point computations. *)
From Coq Require Import Reals ZArith List.
From Verif Require Import FloatModel.
Import ListNotations.
Open Scope R_scope.

(** The numbers of double precision: 53 significant bits, the least exponent is -1074. *)
Definition double (x : R) : Prop := exists m e : Z, (Z.abs m < 2 ^ 53)%Z /\ (-1074 <= e)%Z /\ x = IZR m * powerRZ 2 e.

(** [rnd] rounds to a nearest double, whatever it does with ties. *)
Definition nearest (rnd : R -> R) : Prop :=
  forall x, double (rnd x) /\ forall y, double y -> Rabs (x - rnd x) <= Rabs (x - y).

(** The library's binary logarithm: exact at powers of two, elsewhere off by at most 2^-40. Its powers of two are exact. *)
Definition log2_ok (log2 : R -> R) : Prop :=
  (forall k, (0 <= k <= 53)%Z -> log2 (IZR (2 ^ k)) = IZR k) /\
  (forall n, (1 <= n <= 2 ^ 53)%Z -> Rabs (log2 (IZR n) - ln (IZR n) / ln 2) <= / IZR (2 ^ 40)).
Definition exp2_ok (exp2 : R -> R) : Prop := forall k, (0 <= k <= 53)%Z -> exp2 (IZR k) = IZR (2 ^ k).

(** ** CPU time *)

(** A plausible reading: up to 2^31 seconds each, and less than a million microseconds. *)
Definition usage_ok (r : rusage) : Prop :=
  (0 <= s_sec r <= 2 ^ 31 /\ 0 <= s_usec r < 1000000 /\ 0 <= u_sec r <= 2 ^ 31 /\ 0 <= u_usec r < 1000000)%Z.
(** the CPU time read, in microseconds *)
Definition sys_us (r : rusage) : Z := (s_sec r * 1000000 + s_usec r)%Z.
Definition user_us (r : rusage) : Z := (u_sec r * 1000000 + u_usec r)%Z.
Definition total_us (r : rusage) : Z := (sys_us r + user_us r)%Z.
(** neither time runs backwards *)
Definition later (r r' : rusage) : Prop := (sys_us r <= sys_us r' /\ user_us r <= user_us r')%Z.

(** The reading at the last creation or reset before the operation number [i]. *)
Fixpoint since (r0 : rusage) (ops : list (mon_op * rusage)) (i : nat) : rusage :=
  match i, ops with
  | S j, (MRecord, _) :: t => since r0 t j
  | S j, (_, r) :: t => since r t j
  | _, _ => r0
  end.

(** The readings are plausible and in order. *)
Fixpoint in_order (r0 : rusage) (ops : list (mon_op * rusage)) : Prop :=
  match ops with
  | [] => True
  | (_, r) :: t => usage_ok r /\ later r0 r /\ in_order r t
  end.
