(** Vocabulary for log files. *)
From Coq Require Import String ZArith List Bool.
From Verif Require Import GoBase EncodingModel PointModel FSSModel PredicateModel MerkleModel DirectoryModel FrontendModel MultiModel GobModel MultiNetModel LogModel.
Import ListNotations.
Open Scope Z_scope.

(** A text stands somewhere in another one. *)
Definition occurs (p s : list Z) : Prop := exists before after, s = before ++ p ++ after.
(** A text on one line *)
Definition unbroken (s : list Z) : Prop := Forall (fun c => c <> 10 /\ c <> 13) s.
(** A text on one line that does not mention the word stats. *)
Definition quiet (s : list Z) : Prop := ~ occurs (lit "stats") s /\ Forall (fun c => c <> 10 /\ c <> 13) s.
(** The figures show numbers of bytes; the script holds them in millionths. *)
Definition in_millionths (n : Z) : Z := 1000000 * n.
Definition count_ok (n : Z) : Prop := 0 <= n < 2 ^ 63.
(** A repetition with plain names of servers, and numbers that the program can have. *)
Definition measured_ok (r : measured) : Prop := Forall (Forall quiet) (me_blocks r) /\ count_ok (me_bytes r) /\ count_ok (me_us r).
(** The lengths of the answers that a server gave, in order *)
Definition answered (requests : list served) : list Z :=
  concat (map (fun r => match r with ServedQuery (Ok a) => [zlen a] | _ => [] end) requests).
Definition lengths_ok (requests : list served) : Prop := Forall count_ok (answered requests).
(** The log file of a server that served these requests, with plain names *)
Definition server_file (file : list Z) (requests : list served) : Prop :=
  exists sid logFile f pointer addr clock, quiet logFile /\ quiet (lit (s_scheme f)) /\ quiet pointer /\ quiet addr /\
    file = log_file (server_prefix sid) clock (server_messages sid logFile f pointer addr requests).
(** The queries of a repetition of the predicate benchmark, one for every server in the order in which they are visited *)
Definition round_queries {C} (g : gobs) (enc : cipher) (values : nat) (inputSize : Z) (text : list Z) (h : round C) : res (list (list Z)) :=
  bind (encode_client g (Some (mkInfo target_userid inputSize 0 false false false, []), byte_to_bits text))
    (fun b => predicate_query_bytes g enc values (ro_alphas h) (ro_rand h) b (zlen (ro_order h))).
(** The query that goes to a server *)
Fixpoint query_for (a : list Z) (order queries : list (list Z)) : list Z :=
  match order, queries with
  | c :: order, q :: queries => if bytes_equal a c then q else query_for a order queries
  | _, _ => []
  end.
