(** Specification vocabulary for C79 and C88. *)
From Coq Require Import String ZArith List Bool.
From Verif Require Import GoBase FSSModel EncodingModel MerkleModel PredicateModel BufferModel.
Import ListNotations.
Open Scope Z_scope.

(** The answer that a server which has never been used gives to one request. *)
Definition answer_alone (enc : cipher) (H : hash_fn) (n : nat) (sn : Z) (db : list key_info) (numColumns : nat)
           (r : request) : res (list Z * bool) :=
  answer enc H n sn db numColumns (rq_now r) (rq_fresh r) (rq_info r) (rq_key r).

(** A call has finished with the answer [out]. *)
Definition finished (c : call) (out : list Z) : Prop := c_phase c = Between /\ c_todo c = [] /\ c_acc c ++ c_sum c = out.

(** The identifier a request looks at in a record: the year and the address for conjunctions, else the address, the algorithm or the
    creation time; none when the address is too short. *)
Definition record_id (H : hash_fn) (q : qinfo) (ki : key_info) : res (option (list bool)) :=
  if q_avg q then id_for_email H q (ki_email ki)
  else if q_and q then id_conj H q ki
  else if q_target q =? target_userid then id_for_email H q (ki_email ki)
  else if q_target q =? target_algo then Ok (Some (id_for_algo (ki_algo ki)))
  else id_creation ki.

(** The work of a request: the records it evaluates, in order; records without an identifier are skipped. *)
Fixpoint work (H : hash_fn) (q : qinfo) (now : nat -> Z) (fresh : freshes) (i : nat) (db : list key_info) : res (list item) :=
  match db with
  | [] => Ok []
  | ki :: t =>
    bind (record_id H q ki) (fun o =>
    bind (work H q now fresh (S i) t) (fun r =>
    Ok (match o with
        | None => r
        | Some x => mkItem x (fresh i) (if q_avg q then Some (now i - time_year (ki_time ki)) else None) :: r
        end)))
  end.
