(** Vocabulary for predicate servers that receive arbitrary decoded queries. *)
From Coq Require Import ZArith List Bool.
From Verif Require Import GoBase FieldModel FSSModel PredicateModel.
Import ListNotations.
Open Scope Z_scope.

(** The kinds of queries the server knows: COUNT on one of the three targets, COUNT with AND, AVG with AND. *)
Definition known_kind (q : qinfo) : Prop :=
  q_sum q = false /\ (q_and q = false -> q_avg q = false /\ (q_target q = 0 \/ q_target q = 1 \/ q_target q = 2)).
(** The query looks at the e-mails. *)
Definition looks_at_email (q : qinfo) : bool := q_and q || (q_target q =? 0).
(** The requested prefix and suffix lengths make sense. *)
Definition sensible_lengths (q : qinfo) : Prop := 0 < q_from_start q \/ (q_from_start q = 0 /\ 0 <= q_from_end q).
(** How many bytes the query compares for a record, if it looks at the record at all: e-mails shorter than the requested prefix or suffix are
    skipped; 16 is the length of the digest of a whole address, 4 that of a year, 1 that of an algorithm number, 15 that of a time. *)
Definition compared_bytes (q : qinfo) (ki : key_info) : option Z :=
  if looks_at_email q then
    if zlen (ki_email ki) <? (if q_from_start q =? 0 then q_from_end q else q_from_start q) then None
    else Some ((if q_from_start q =? 0 then if q_from_end q =? 0 then 16 else q_from_end q else q_from_start q)
               + (if q_and q && negb (q_avg q) then 4 else 0))
  else if q_target q =? 1 then Some 15 else Some 1.
(** The received key can be evaluated on m bytes with n output words: one correction word of at least 18 bytes for each bit, and n final words. *)
Definition key_covers (k : fss_key) (m : Z) (n : nat) : Prop :=
  8 * m <= zlen (k_cw k) /\ Forall (fun c => 18 <= zlen c) (firstn (Z.to_nat (8 * m)) (k_cw k)) /\ (n <= length (k_finalcw k))%nat.
(** Byte fields of a decoded key hold bytes. *)
Definition key_bytes (k : fss_key) : Prop := bytes (k_sinit k) /\ Forall bytes (k_cw k).
