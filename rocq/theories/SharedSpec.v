(** Specification vocabulary for the shared random generator. *)
From Coq Require Import String ZArith List Bool.
From Verif Require Import GoBase PrgModel PrgSpec SharedModel.
Import ListNotations.
Open Scope Z_scope.

Section S.
  Variable stream : nat -> Z.
  (** the bytes k, ..., k + n - 1 of the stream *)
  Definition piece (k n : nat) : list Z := map stream (seq k n).

  (** [takes k c v k']: the call c, made alone when k bytes were consumed, returns v and leaves k' bytes consumed.
      Uint64 takes eight bytes. RandInt(m) takes as many bytes as m - 1 has, as often as the number read (without
      its excess top bits) is m or more. *)
  Inductive takes : nat -> call -> Z -> nat -> Prop :=
  | takes_word k : takes k CUint64 (le_dec (piece k 8)) (k + 8)
  | takes_hit k m : int_candidate m (piece k (int_bytes m)) < m ->
      takes k (CRandInt m) (int_candidate m (piece k (int_bytes m))) (k + int_bytes m)
  | takes_miss k m v k' : m <= int_candidate m (piece k (int_bytes m)) -> takes (k + int_bytes m) (CRandInt m) v k' ->
      takes k (CRandInt m) v k'.

  (** One call after the other. An event names the caller, the call and what it returned. *)
  Inductive one_by_one : nat -> list (nat * call * Z) -> nat -> Prop :=
  | obo_nil k : one_by_one k [] k
  | obo_cons k i c v k1 l k2 : takes k c v k1 -> one_by_one k1 l k2 -> one_by_one k ((i, c, v) :: l) k2.
End S.

Definition who (e : nat * call * Z) : nat := fst (fst e).
Definition which (e : nat * call * Z) : call := snd (fst e).
Definition what (e : nat * call * Z) : Z := snd e.
(** the events of caller i *)
Definition of_caller (i : nat) (log : list (nat * call * Z)) : list (nat * call * Z) := filter (fun e => (who e =? i)%nat) log.
(** the caller is not inside a call *)
Definition outside (t : caller) : Prop := at_ t = PNext.

(** The log explains the state: made one by one, the calls of the log return the values of the log; every caller's events
    are its first calls in its own order, with the values it got; at most the call it is inside of is ahead. *)
Definition explains (stream : nat -> Z) (progs : list (list call)) (log : list (nat * call * Z)) (s : shared) : Prop :=
  (exists k, one_by_one stream 0 log k) /\ length (callers s) = length progs /\
  forall i p t, nth_error progs i = Some p -> nth_error (callers s) i = Some t ->
    let mine := of_caller i log in
    map which mine = firstn (length mine) p /\
    returned t = firstn (length (returned t)) (map what mine) /\
    (length (returned t) <= length mine <= S (length (returned t)))%nat /\
    (outside t -> length mine = length (returned t)) /\
    skipn (length (returned t)) p = todo t.

(** the moduli used are positive and below 2^65528 (one Read of the buffered reader is shorter than its buffer) *)
Definition call_ok (c : call) : Prop := match c with CUint64 => True | CRandInt m => 0 < m /\ (int_bytes m < buf_size)%nat end.
Definition finished (s : shared) : Prop := forall t, In t (callers s) -> todo t = [].
