(** Vocabulary for the measurements of the deployment. *)
From Coq Require Import String ZArith QArith List Bool.
From Verif Require Import GoBase EncodingModel FrontendModel FSSModel PredicateModel MerkleModel GobModel LogModel LogSpec ResultsModel ResultsSpec TrialModel.
Import ListNotations.
Open Scope Z_scope.

Definition int_ok (n : Z) : Prop := - 2 ^ 63 <= n < 2 ^ 63.
(** A printed text of several lines that does not mention the word stats *)
Definition silent (s : list Z) : Prop := ~ occurs (lit "stats") s /\ ~ In 13 s.
(** The bytes of the queries of a run *)
Definition sent_bytes (t : trial) : Z := zsum (map zlen (tr_queries t)).
(** A run with plain names and with numbers that the program can have *)
Definition trial_ok (t : trial) : Prop :=
  int_ok (tr_cores t) /\ count_ok (sent_bytes t) /\ count_ok (tr_us t) /\
  Forall quiet (tr_asked t) /\ quiet (tr_info t) /\ quiet (tr_elapsed t) /\
  Forall (fun s => match s with SentTo a => quiet a | SentSize _ => True end) (tr_sendings t) /\
  match tr_outcome t with Counted _ => True | KeyShown id _ armored => quiet id /\ silent armored end.
Definition run_ok (r : client_run) : Prop :=
  match r with Finished t => trial_ok t | Died said why => Forall quiet said /\ quiet why end.
(** The runs that came to their end, in order, with a number of cores *)
Definition finished (c : Z) (runs : list client_run) : list trial :=
  concat (map (fun r => match r with Finished t => if tr_cores t =? c then [t] else [] | Died _ _ => [] end) runs).

Definition request_ok (r : request) : Prop :=
  match r with AskAnswer a => count_ok (zlen a) | AskFailed why => quiet why | _ => True end.
Definition process_ok (p : process) : Prop :=
  int_ok (pr_cores p) /\ Forall quiet (pr_loading p) /\ quiet (pr_size p) /\ quiet (pr_addr p) /\ Forall request_ok (pr_requests p).
(** The lengths of the answers that the processes with a number of cores gave, in order *)
Definition answers_of (c : Z) (ps : list process) : list Z :=
  concat (map (fun p => if pr_cores p =? c then concat (map (fun r => match r with AskAnswer a => [zlen a] | _ => [] end) (pr_requests p)) else []) ps).

(** A run of the client with the choices it made: the order in which it visited the servers, its secret values and randomness, and the order
    in which the answers arrived *)
Record deployed := mkDeployed {
  de_trial : trial; de_order : list (list Z); de_alphas : list Z; de_rand : gen_rand; de_arrive : list (list Z) -> list (list Z) }.
(** Its output is that of a client which asked the two servers the question of its flags and printed the result. *)
Definition deployed_ok (g : gobs) (enc : cipher) (H : hash_fn) (values : nat) (serve : list Z -> list Z -> res (list Z)) (f : cli_flags) (s0 s1 : list Z) (d : deployed) : Prop :=
  (de_order d = [s0; s1] \/ de_order d = [s1; s0]) /\
  exists result, cli_complex_bytes g enc H values (de_alphas d) (de_rand d) serve (de_order d) (de_arrive d) f = Ok result /\ tr_outcome (de_trial d) = Counted result /\
    bind (cli_query H f) (fun qi => bind (encode_client g (Some (fst qi, []), snd qi)) (fun b => predicate_query_bytes g enc values (de_alphas d) (de_rand d) b 2)) =
      Ok (tr_queries (de_trial d)).
(** A number as it is printed, without the commas between the groups *)
Definition without_commas (s : list Z) : list Z := filter (fun c => negb (c =? 44)) s.
