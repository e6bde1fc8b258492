(** What predicate queries are supposed to compute, stated on the records, without bits, keys or shares. *)
From Coq Require Import String ZArith List Bool.
From Verif Require Import GoBase FieldModel FSSModel EncodingModel MerkleModel PredicateModel.
Import ListNotations.
Open Scope Z_scope.
Open Scope go_scope.

Fixpoint list_eqb (a b : list Z) : bool :=
  match a, b with
  | [], [] => true
  | x :: a', y :: b' => (x =? y) && list_eqb a' b'
  | _, _ => false
  end.

Fixpoint is_prefix (p e : list Z) : bool :=
  match p, e with
  | [], _ => true
  | x :: p', y :: e' => (x =? y) && is_prefix p' e'
  | _, _ => false
  end.
Definition is_suffix (s e : list Z) : bool := is_prefix (rev s) (rev e).

Definition first_bytes (n : Z) (t : list Z) : list Z := firstn (Z.to_nat n) t.
Definition last_bytes (n : Z) (t : list Z) : list Z := skipn (length t - Z.to_nat n) t.

(** the e-mail part of a query: prefix, suffix, or (digest of the) whole address *)
Definition email_matches (H : hash_fn) (q : qinfo) (text email : list Z) : bool :=
  if 0 <? q_from_start q then is_prefix (first_bytes (q_from_start q) text) email
  else if 0 <? q_from_end q then is_suffix (last_bytes (q_from_end q) text) email
  else list_eqb (firstn 16 (H email)) (firstn 16 (H text)).

(** the text given by the user is long enough for the requested prefix or suffix *)
Definition text_long_enough (q : qinfo) (text : list Z) : Prop :=
  0 <= q_from_start q /\ 0 <= q_from_end q /\
  (if 0 <? q_from_start q then q_from_start q <= zlen text else q_from_end q <= zlen text).

(** number of e-mail bytes compared *)
Definition email_id_bytes (q : qinfo) : Z :=
  if 0 <? q_from_start q then q_from_start q else if 0 <? q_from_end q then q_from_end q else 16.

Definition algo_number (name : string) : option Z :=
  match name with
  | "RSA" => Some 1 | "ElGamal" => Some 16 | "DSA" => Some 17
  | "ECDH" => Some 18 | "ECDSA" => Some 19 | _ => None
  end%string.

(** the requests of the command line tool (cmd/grpc/client/main.go:197-236) that count *)
Inductive request :=
| ByEmail (q : qinfo) (text : list Z)
| ByAlgo (name : string)
| ByCreation (year : Z)
| ByYearAndEmail (q : qinfo) (text : list Z).

Definition plain (q : qinfo) : Prop :=
  q_target q = target_userid /\ q_and q = false /\ q_avg q = false /\ q_sum q = false.
Definition conj_only (q : qinfo) : Prop := q_and q = true /\ q_avg q = false /\ q_sum q = false.
Definition avg_query (q : qinfo) : Prop := q_and q = true /\ q_avg q = true /\ q_sum q = false.

(** which records a request selects. The creation-date request compares with midnight, 30 November of the previous
    year, in UTC; the conjunction always means 2018. (See C26.) *)
Definition selects (H : hash_fn) (rq : request) (ki : key_info) : bool :=
  match rq with
  | ByEmail q text => email_matches H q text (ki_email ki)
  | ByAlgo name => match algo_number name with Some c => ki_algo ki =? c | None => false end
  | ByCreation y =>
    (t_sec (ki_time ki) =? 86400 * (days_before_year y - 32)) && (t_nsec (ki_time ki) =? 0)
    && match t_zone (ki_time ki) with None => true | Some _ => false end
  | ByYearAndEmail q text => (time_year (ki_time ki) =? 2018) && email_matches H q text (ki_email ki)
  end.

Definition count_matching (f : key_info -> bool) (db : list key_info) : Z := zlen (filter f db).

(** requests a user can make *)
Definition request_ok (rq : request) : Prop :=
  match rq with
  | ByEmail q text => plain q /\ text_long_enough q text /\ bytes text
  | ByAlgo name => algo_number name <> None
  | ByCreation y => - 2 ^ 63 <= 86400 * (days_before_year y - 32) < 2 ^ 63
  | ByYearAndEmail q text => conj_only q /\ text_long_enough q text /\ bytes text
  end.

(** number of bytes of the identifiers compared *)
Definition request_bytes (rq : request) : Z :=
  match rq with
  | ByEmail q _ => email_id_bytes q
  | ByAlgo _ => 1
  | ByCreation _ => 15
  | ByYearAndEmail q _ => 4 + email_id_bytes q
  end.

Definition record_ok (ki : key_info) : Prop :=
  bytes (ki_email ki) /\ is_byte (ki_algo ki) /\
  - 2 ^ 63 <= t_sec (ki_time ki) < 2 ^ 63 /\ 0 <= t_nsec (ki_time ki) < 10 ^ 9 /\
  (forall m, t_zone (ki_time ki) = Some m -> -32768 <= m <= 32767 /\ m <> -1) /\
  0 <= time_year (ki_time ki) < w32.

Definition ascii (email : list Z) : Prop := Forall (fun b => b < 128) email.

(** what the client of the command line tool sends *)
Definition request_info (rq : request) : qinfo :=
  match rq with
  | ByEmail q _ => q
  | ByAlgo _ => mkInfo target_algo 0 0 false false false
  | ByCreation _ => mkInfo target_creation 0 0 false false false
  | ByYearAndEmail q _ => q
  end.
Definition request_input (H : hash_fn) (rq : request) : res (list bool) :=
  match rq with
  | ByEmail q text => to_email_client H q text
  | ByAlgo name => Ok (to_pka_client name)
  | ByCreation y => to_creation_client (Some y)
  | ByYearAndEmail q text => to_and_client H q text
  end.

(** One complete run with two honest servers holding [db]: [sn0] is the identity of the server that receives the first
    key, [sn1] of the one that receives the second. Result: what the client gets, and the ghost flag saying that
    some conversion was resampled (C11). *)
Definition run (enc : cipher) (H : hash_fn) (e : nat) (alphas : list Z) (r : gen_rand)
           (sn0 sn1 : Z) (now0 now1 : nat -> Z) (fresh0 fresh1 : freshes)
           (db : list key_info) (q : qinfo) (inp : list bool) : res (res Z * bool) :=
  ks <- client_query enc e alphas r inp 2 ;;
  let '(k0, k1, fg) := ks in
  a0 <- answer enc H e sn0 db (length db) now0 fresh0 (Some q) k0 ;;
  a1 <- answer enc H e sn1 db (length db) now1 fresh1 (Some q) k1 ;;
  Ok (reconstruct_bytes e alphas [uint32_slice_to_bytes (fst a0); uint32_slice_to_bytes (fst a1)],
      fg || snd a0 || snd a1).

(** ages of the records an AVG request selects: keys with a creation year in the future are left out *)
Definition avg_selects (H : hash_fn) (q : qinfo) (text : list Z) (year : Z) (ki : key_info) : bool :=
  email_matches H q text (ki_email ki) && (time_year (ki_time ki) <=? year).
Definition ages (year : Z) (l : list key_info) : list Z := map (fun ki => year - time_year (ki_time ki)) l.
