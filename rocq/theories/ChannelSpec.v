(** Specification vocabulary for connections. *)
From Coq Require Import String ZArith List Bool.
From Verif Require Import GoBase EncodingModel MerkleModel PointModel PointSpec DirectoryModel DirectorySpec FrontendModel KeyPageModel
  SessionModel ChannelModel.
Import ListNotations.
Open Scope Z_scope.

(** The seconds in which all five certificates are valid: from 12 Oct 2024, 10:31:45 to 12 Jan 2027, 11:31:14. *)
Definition all_valid (t : Z) : Prop := 1728729105 <= t <= 1799753474.
(** The last second in which any of them is: 12 Jan 2027, 11:31:45. *)
Definition last_valid : Z := 1799753505.

(** Within the time a client waits, somebody like that answers at the address. *)
Definition answers_at (net : network) (a : list Z) (P : Z -> peer -> Prop) : Prop := exists t p, In (t, Some p) (net a) /\ P t p.
(** Server number [sid] runs there. *)
Definition runs_at (net : network) (sid : Z) (a : list Z) : Prop :=
  answers_at net a (fun t p => all_valid t /\ server_peer sid = Ok p).
(** Nobody else than these answers there. *)
Definition only_at (net : network) (a : list Z) (P : Z -> peer -> Prop) : Prop := forall t p, In (t, Some p) (net a) -> P t p.

(** A peer that holds none of the five private keys; one that has read the source of the program. *)
Definition stranger (p : peer) : Prop := forall k, 0 <= k < 5 -> p_holds p k = false.
Definition has_source (p : peer) : Prop := forall k, In k server_secret_keys -> p_holds p k = true.

(** The bit vectors behind the queries of a lookup: of two servers, the full evaluations of the keys they are sent. *)
Definition opened (D : dpf_scheme) (cols : Z) (queries : list (list Z)) : list (list Z) :=
  match queries with
  | [k0; k1] => [dpf_eval D k0 (bits_len cols); dpf_eval D k1 (bits_len cols)]
  | _ => queries
  end.
(** The columns that an odd number of the vectors select. *)
Definition selected (cols : Z) (vectors : list (list Z)) : list Z :=
  filter (fun j => fold_right xorb false (map (fun q => query_bit q (Z.to_nat j)) vectors)) (map Z.of_nat (seq 0 (Z.to_nat cols))).

(** The people somebody who received all the queries of a lookup in a table of one row with [cols] columns takes for the
    person looked up, out of those they consider. *)
Definition suspects (B : hash_fn) (D : dpf_scheme) (cols : Z) (queries : list (list Z)) (people : list (list Z)) : list (list Z) :=
  filter (fun id => existsb (Z.eqb (position B cols id)) (selected cols (opened D cols queries))) people.

(** The randomness a lookup draws: for other than two servers, one vector less than there are servers. *)
Definition enough_random (cols n : Z) (rnd : list Z) : Prop := n = 2 \/ zlen rnd = (n - 1) * (cols / 8 + 1).
