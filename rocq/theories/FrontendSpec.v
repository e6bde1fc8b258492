(** Vocabulary for the deployment's glue code. *)
From Coq Require Import String ZArith List Bool Permutation.
From Verif Require Import GoBase FieldModel FSSModel EncodingModel MerkleModel PredicateModel PredicateSpec FrontendModel.
Import ListNotations.
Open Scope Z_scope.

(** the connection [c] leads to an honest predicate server with identity [sn] that holds [db]; a failed RPC gives no answer *)
Definition honest {C} (enc : cipher) (H : hash_fn) (e : nat) (db : list key_info) (serve : C -> qinfo * fss_key -> option (list Z))
           (c : C) (sn : Z) (now : nat -> Z) (fresh : freshes) : Prop :=
  forall q k, serve c (q, k) =
    match answer_bytes enc H e sn db (length db) now fresh (Some q) k with Ok b => Some b | _ => None end.

(** the answers come out of the channel in some order *)
Definition some_order (arrive : list (list Z) -> list (list Z)) : Prop := forall l, Permutation l (arrive l).

(** in the run in which the first key goes to identity [sn0] and the second to [sn1], no conversion is resampled (C11) *)
Definition unresampled (enc : cipher) (H : hash_fn) (e : nat) (alphas : list Z) (r : gen_rand) (sn0 sn1 : Z)
           (now0 now1 : nat -> Z) (fresh0 fresh1 : freshes) (db : list key_info) (q : qinfo) (inp : list bool) : Prop :=
  exists out, run enc H e alphas r sn0 sn1 now0 now1 fresh0 fresh1 db q inp = Ok (out, false).

(** a page saying "count: n" *)
Definition count_page (n : Z) : page := mkPage (Some 200) (lit "count: " ++ itoa n).
(** the body of the page ends with "count: 0" *)
Definition shows_zero (p : page) : Prop := exists front, p_body p = front ++ lit "count: 0".

(** the counting request the flags of the command line client stand for; [year] is the number the identifier denotes, if any *)
Definition cli_request (f : cli_flags) (year : option Z) : option request :=
  if f_avg f then None
  else if f_and f then Some (ByYearAndEmail (mkInfo target_userid 0 (zlen (f_id f)) true false false) (f_id f))
  else if list_eqb (f_target f) (lit "email") then
    Some (ByEmail (mkInfo target_userid (f_from_start f) (f_from_end f) false false false) (f_id f))
  else if list_eqb (f_target f) (lit "algo") then Some (ByAlgo (text_of (f_id f)))
  else if list_eqb (f_target f) (lit "creation") then option_map ByCreation year
  else None.

(** two servers' descriptions agree on the dimensions *)
Definition agree (a b : db_info) : Prop := di_rows a = di_rows b /\ di_cols a = di_cols b /\ di_bs a = di_bs b.

(** [d] is the usual decimal notation of the non-negative number [v] *)
Definition decimal_of (d : list Z) (v : Z) : Prop :=
  Forall (fun c => 48 <= c <= 57) d /\ fold_left (fun a c => 10 * a + (c - 48)) d 0 = v /\
  d <> [] /\ (hd 0 d = 48 -> d = [48]).
(** the address of a server: "ip:port" *)
Definition ip_port (e : entry) (a : list Z) : Prop := exists d, a = e_ip e ++ lit ":" ++ d /\ decimal_of d (e_port e).
