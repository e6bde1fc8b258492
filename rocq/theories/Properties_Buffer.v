(** Property C79: the scratch memory that predicate clients and servers keep between calls. Specification
    vocabulary in BufferSpec.v. *)
From Coq Require Import String ZArith List Bool Lia.
From Verif Require Import GoBase BaseFacts FieldModel FSSModel EncodingModel MerkleModel MerkleSpec PredicateModel PredicateSpec
  FSSProofs BufferModel BufferSpec BufferProofs BufferProofs2 ToyInstances Properties_Predicate.
Import ListNotations.
Open Scope Z_scope.

(** C79: calls made one after the other. Each answer, or failure, is the one a fresh server would have given, whatever
    was asked before; [n] is 1 for the classical and 5 for the authenticated server. *)
Theorem C79_server_forgets :
  forall enc H n sn db numColumns rs, cipher_ok enc ->
  fst (serve_all enc H n sn db numColumns rs (new_buffers n)) = map (answer_alone enc H n sn db numColumns) rs.
Proof. intros. apply serve_all_spec; auto. apply new_buffers_ok. Qed.
Print Assumptions C79_server_forgets.

(** The same for a client that issues several queries. *)
Theorem C79_client_forgets :
  forall enc e qs, cipher_ok enc ->
  Forall (fun q => S (length (snd (fst q))) = e /\ rand_ok (snd q)) qs ->
  fst (query_all enc qs (new_buffers e)) = map (fun q => client_query enc e (snd (fst q)) (snd q) (fst (fst q)) 2) qs.
Proof.
  intros enc e qs He HF. destruct e as [|e].
  - destruct qs as [|q qs]; [reflexivity|]. inversion HF as [|? ? [C _] _]. discriminate C.
  - apply query_all_spec with (n := e); auto; [apply new_buffers_ok|].
    eapply Forall_impl; [|exact HF]. cbn. intros q [A B]. split; auto.
Qed.
Print Assumptions C79_client_forgets.

(** Keys of two clients for the one-letter suffixes "x" and "@". *)
Definition last_q : qinfo := mkInfo target_userid 0 1 false false false.
Definition toy_rand2 : gen_rand :=
  mkGR [9;8;7;6;5;4;3;2;1;0;11;22;33;44;55;66;78] [120;121;122;123;124;125;126;127;128;129;130;131;132;133;134;135]
       (fun _ => 0) (fun _ => 0).
Definition keys_of (e : nat) (al : list Z) (text : list Z) (r : gen_rand) : fss_key * fss_key :=
  match bind (to_email_client toy_hash last_q text) (fun inp => client_query toy_cipher e al r inp 2) with
  | Ok (k0, k1, _) => (k0, k1)
  | _ => (mkKey [] 0 [] [], mkKey [] 0 [] [])
  end.
Definition toy_ids : list item :=
  match work toy_hash last_q (fun _ => 2021) (fun _ _ => 0) 0 toy_db with Ok l => l | _ => [] end.

Definition req (k : fss_key) : request := mkReq (Some last_q) k (fun _ => 2021) (fun _ _ => 0).
Definition alone (e : nat) (sn : Z) (k : fss_key) : list Z :=
  match answer_alone toy_cipher toy_hash e sn toy_db 3 (req k) with Ok (a, _) => a | _ => [] end.
(** What the calls have accumulated when the schedule ends, if all have finished. *)
Definition outcomes (r : res (list call) * buffers) : list (list Z) :=
  match fst r with
  | Ok l => if forallb (fun c => match c_phase c, c_todo c with Between, [] => true | _, _ => false end) l
            then map c_acc l else []
  | _ => []
  end.
(** The first call starts and expands a seed, then the second does, then each runs to its end. *)
Definition mixed : list nat := [0; 0; 1; 1]%nat ++ repeat 0%nat 55 ++ repeat 1%nat 55.

(** Calls that overlap on one server value (as in simulations/multi/server, where the gRPC handlers call AnswerBytes
    directly) spoil each other: an honest authenticated answer is rejected, and a classical client obtains 0 instead of 1. *)
Theorem C79_overlapping_calls_refuted :
  exists enc H db, cipher_ok enc /\ hash_ok H /\ Forall record_ok db /\
  (exists al ids (kA kB : fss_key * fss_key) wrong right sched,
    work H last_q (fun _ => 2021) (fun _ _ => 0) 0 db = Ok ids /\
    answer_alone enc H 5 1 db (length db) (req (snd kA)) = Ok (right, false) /\
    (exists r inp, to_email_client H last_q [120] = Ok inp /\ client_query enc 5 al r inp 2 = Ok (kA, false)) /\
    (exists other, outcomes (run_calls enc 5 0 sched [start_call 5 (fst kA) false ids; start_call 5 (fst kB) false ids] (new_buffers 5))
      = [wrong; other]) /\
    reconstruct 5 al [wrong; right] = Err "REJECT" /\
    (exists a0, answer_alone enc H 5 0 db (length db) (req (fst kA)) = Ok (a0, false) /\ reconstruct 5 al [a0; right] = Ok 2)) /\
  (exists ids (kA kB : fss_key * fss_key) wrong right sched,
    work H last_q (fun _ => 2021) (fun _ _ => 0) 0 db = Ok ids /\
    answer_alone enc H 1 1 db (length db) (req (snd kB)) = Ok (right, false) /\
    (exists r inp, to_email_client H last_q [64] = Ok inp /\ client_query enc 1 [] r inp 2 = Ok (kB, false)) /\
    (exists other, outcomes (run_calls enc 1 0 sched [start_call 1 (fst kA) false ids; start_call 1 (fst kB) false ids] (new_buffers 1))
      = [other; wrong]) /\
    reconstruct 1 [] [wrong; right] = Ok 0 /\
    (exists a0, answer_alone enc H 1 0 db (length db) (req (fst kB)) = Ok (a0, false) /\ reconstruct 1 [] [a0; right] = Ok 1)).
Proof.
  exists toy_cipher, toy_hash, toy_db.
  split; [exact toy_cipher_ok|]. split; [exact toy_hash_ok|]. split; [exact toy_db_ok|]. split.
  - exists toy_alphas, toy_ids, (keys_of 5 toy_alphas [120] toy_rand), (keys_of 5 toy_alphas [64] toy_rand2).
    eexists. eexists. exists mixed.
    split; [vm_compute; reflexivity|]. split; [vm_compute; reflexivity|].
    split; [exists toy_rand; eexists; (split; [vm_compute; reflexivity|vm_compute; reflexivity])|].
    split; [eexists; vm_compute; reflexivity|]. split; [vm_compute; reflexivity|].
    eexists. (split; [vm_compute; reflexivity|vm_compute; reflexivity]).
  - exists toy_ids, (keys_of 1 [] [120] toy_rand), (keys_of 1 [] [64] toy_rand2).
    eexists. eexists. exists mixed.
    split; [vm_compute; reflexivity|]. split; [vm_compute; reflexivity|].
    split; [exists toy_rand2; eexists; (split; [vm_compute; reflexivity|vm_compute; reflexivity])|].
    split; [eexists; vm_compute; reflexivity|]. split; [vm_compute; reflexivity|].
    eexists. (split; [vm_compute; reflexivity|vm_compute; reflexivity]).
Qed.
Print Assumptions C79_overlapping_calls_refuted.

(** The damage does not last: after any overlapping, calls made one after the other are answered as by a fresh server. *)
Theorem C79_damage_does_not_last :
  forall enc H n sn db numColumns sched calls rs, cipher_ok enc ->
  fst (serve_all enc H n sn db numColumns rs (snd (run_calls enc n sn sched calls (new_buffers n))))
  = map (answer_alone enc H n sn db numColumns) rs.
Proof. intros. apply serve_all_spec; auto. apply run_calls_ok; auto. apply new_buffers_ok. Qed.
Print Assumptions C79_damage_does_not_last.

(** A call that is not interrupted finishes with the answer of a fresh server, whatever its kind, whatever other calls did before it
    started and wherever they stand. *)
Theorem C79_uninterrupted_call :
  forall enc H n sn db numColumns q k now fresh out flag, cipher_ok enc ->
  answer_alone enc H n sn db numColumns (mkReq (Some q) k now fresh) = Ok (out, flag) ->
  exists items, work H q now fresh 0 (firstn numColumns db) = Ok items /\
  exists steps, forall calls sched others b,
  run_calls enc n sn sched calls (new_buffers n) = (Ok others, b) ->
  exists c b', run_calls enc n sn (repeat (length others) steps) (others ++ [start_call n k (q_avg q) items]) b = (Ok (others ++ [c]), b')
    /\ finished c out.
Proof.
  intros enc H n sn db numColumns q k now fresh out flag He E.
  unfold answer_alone in E. cbn [rq_info rq_key rq_now rq_fresh] in E.
  destruct (answer_steps enc H n sn db numColumns q k now fresh out flag He E) as (items & W & j & c & S & F).
  exists items. split; [exact W|]. exists j.
  intros calls sched others b ER.
  assert (Hb : buf_ok n b).
  { pose proof (run_calls_ok enc n sn He sched calls _ (new_buffers_ok n)) as B. rewrite ER in B. exact B. }
  destruct (S (others ++ [start_call n k (q_avg q) items]) (length others) b Hb) as [b' [_ R]].
  { rewrite nth_error_app2, Nat.sub_diag by lia. reflexivity. }
  specialize (R []). rewrite app_nil_r in R. exists c, b'. split; [|exact F].
  rewrite R. cbn [run_calls].
  assert (U : forall (l : list call) x y, upd (l ++ [x]) (length l) y = l ++ [y]).
  { induction l as [|a l IH]; intros x y; cbn; [reflexivity|rewrite IH; reflexivity]. }
  rewrite U. reflexivity.
Qed.
Print Assumptions C79_uninterrupted_call.

Example C79_example :
  let rs := [req (fst (keys_of 5 toy_alphas [120] toy_rand)); mkReq None (mkKey [] 0 [] []) (fun _ => 0) (fun _ _ => 0);
             req (fst (keys_of 5 toy_alphas [64] toy_rand2)); req (fst (keys_of 5 toy_alphas [120] toy_rand))] in
  (match fst (serve_all toy_cipher toy_hash 5 0 toy_db 3 rs (new_buffers 5)) with
   | [Ok (a, _); Panic _; Ok (b, _); Ok (c, _)] =>
       reconstruct 5 toy_alphas [a; alone 5 1 (snd (keys_of 5 toy_alphas [120] toy_rand))] = Ok 2 /\
       reconstruct 5 toy_alphas [b; alone 5 1 (snd (keys_of 5 toy_alphas [64] toy_rand2))] = Ok 1 /\ a = c
   | _ => False
   end) /\
  snd (serve_all toy_cipher toy_hash 5 0 toy_db 3 rs (new_buffers 5)) <> new_buffers 5 /\
  Forall (fun q => S (length (snd (fst q))) = 5%nat /\ rand_ok (snd q))
    [([true; false], toy_alphas, toy_rand); ([true], toy_alphas, toy_rand2)] /\
  (* requests of all kinds that are answered: AVG, conjunction, algorithm, creation time *)
  (let kinds := [(mkInfo target_userid 0 1 true true false, 8%nat); (mkInfo target_userid 0 1 true false false, 40%nat);
                 (mkInfo target_algo 0 0 false false false, 8%nat); (mkInfo target_creation 0 0 false false false, 120%nat)] in
   forallb (fun qb => match client_query toy_cipher 5 toy_alphas toy_rand (repeat true (snd qb)) 2 with
                      | Ok (k0, _, _) => match answer_alone toy_cipher toy_hash 5 0 toy_db 3 (mkReq (Some (fst qb)) k0 (fun _ => 2021) (fun _ _ => 0)) with
                                         | Ok (out, _) => (length out =? (if q_avg (fst qb) then 10 else 5))%nat | _ => false end
                      | _ => false end) kinds = true).
Proof.
  split; [vm_compute; auto|]. split; [vm_compute; discriminate|].
  split; [repeat constructor; try (vm_compute; intuition congruence)|]. vm_compute. reflexivity.
Qed.
