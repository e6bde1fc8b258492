(** Vocabulary for the statements about the file of results of the single-server benchmark and the figures made from it. *)
From Coq Require Import String ZArith QArith List Bool Permutation.
From Verif Require Import GoBase FrontendModel BenchModel ResultsModel.
Import ListNotations.
Open Scope Z_scope.

(** The number is written with the characters of a number and read back as itself. *)
Definition number_ok (nu : numbers) (x : Q) : Prop :=
  nu_show nu x <> [] /\ Forall (fun c => In c (lit "0123456789+-.eE")) (nu_show nu x) /\ nu_read nu (nu_show nu x) = x.
(** ... all numbers of the results are. *)
Definition writable (nu : numbers) (results : list (Z * list chunk)) (times : Z -> nat -> Q) : Prop :=
  number_ok nu 0 /\ forall len cs j c, In (len, cs) results -> nth_error cs j = Some c ->
    number_ok nu (times len j) /\ number_ok nu (inject_Z (ch_digest c)) /\
    forall q a, ch_bandwidth c = Some (q, a) -> number_ok nu (inject_Z q) /\ number_ok nu (inject_Z a).
(** One entry for each length, a positive int *)
Definition lengths_kept (results : list (Z * list chunk)) : Prop :=
  NoDup (map fst results) /\ Forall (fun e => 0 < fst e < 2 ^ 63) results.

(** The value in the middle: of an odd number of values, the one with as many below as above; of an even number, half way between the two
    such values. *)
Definition middle (l : list Q) (m : Q) : Prop :=
  exists low mid high, Permutation l (low ++ mid ++ high) /\ length low = length high /\
    (forall x y, In x low -> In y mid -> (x <= y)%Q) /\ (forall x y, In x mid -> In y high -> (x <= y)%Q) /\
    (mid = [m] \/ exists x y, mid = [x; y] /\ (x <= y)%Q /\ (m == (x + y) / 2)%Q).

Definition query_sizes (cs : list chunk) : list Q := map (fun c => match ch_bandwidth c with Some (q, _) => inject_Z q | None => 0%Q end) cs.
Definition answer_sizes (cs : list chunk) : list Q := map (fun c => match ch_bandwidth c with Some (_, a) => inject_Z a | None => 0%Q end) cs.
Definition all_times (times : Z -> nat -> Q) (len : Z) (cs : list chunk) : list Q := map (times len) (seq 0 (length cs)).
(** Sizes were recorded, as by all benchmarks but the preprocessing one. *)
Definition sized (cs : list chunk) : Prop := Forall (fun c => ch_bandwidth c <> None) cs.
(** Only times were recorded, as by the preprocessing benchmark. *)
Definition unsized (cs : list chunk) : Prop := Forall (fun c => ch_bandwidth c = None) cs.

(** The unit of a cell of the table, in bytes or in seconds: KiB or MiB, ms or s *)
Definition unit_of (size : Z) (m : metric) : Q :=
  match m with
  | Offline => if size =? 2 ^ 13 then 1024 else 1024 * 1024
  | Online => 1024
  | UserTime => if size =? 2 ^ 33 then 1 else 1 / 1000
  end%Q.

(** The value, in bytes or in seconds, is that of the recorded results: the digest; query plus answer; the time of a retrieval. *)
Definition shows (times : Z -> nat -> Q) (size : Z) (cs : list chunk) (m : metric) (v : Q) : Prop :=
  match m with
  | Offline => (v == last (map (fun c => inject_Z (ch_digest c)) cs) 0)%Q
  | Online => exists mq ma, middle (query_sizes cs) mq /\ middle (answer_sizes cs) ma /\ (v == mq + ma)%Q
  | UserTime => exists mt, middle (all_times times size cs) mt /\ (v == mt)%Q
  end.
(** KiB or ms *)
Definition bar_unit (m : metric) : Q := match m with UserTime => 1 / 1000 | _ => 1024 end%Q.
