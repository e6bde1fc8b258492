(** Specification vocabulary for the bytes of predicate queries. *)
From Coq Require Import String ZArith List Bool.
From Verif Require Import GoBase EncodingModel MerkleModel FSSModel PredicateModel PointModel DirectoryModel FrontendModel FilesModel KeyPageModel SessionModel GobModel.
Import ListNotations.
Open Scope Z_scope.

(** The Go values: a uint8, ints, and up to a billion targets. *)
Definition info_fits (i : full_info) : Prop :=
  0 <= q_target (fst i) < 256 /\ - 2 ^ 63 <= q_from_start (fst i) < 2 ^ 63 /\ - 2 ^ 63 <= q_from_end (fst i) < 2 ^ 63 /\ zlen (snd i) <= 1000000000.
(** What a client asks: at most forty million bits. *)
Definition client_fits (q : client_fss) : Prop :=
  (forall i, fst q = Some i -> info_fits i) /\ zlen (snd q) <= 40000000.
(** What a server is sent: a key for at most forty million bits, with at most a million values. *)
Definition key_fits (k : fss_key) : Prop :=
  zlen (k_sinit k) <= 1000 /\ 0 <= k_tinit k < 256 /\ zlen (k_cw k) <= 40000000 /\ Forall (fun w => length w = 18%nat) (k_cw k) /\
  zlen (k_finalcw k) <= 1000000 /\ Forall (fun v => 0 <= v < 2 ^ 32) (k_finalcw k).
Definition server_fits (q : server_fss) : Prop :=
  (forall i, fst q = Some i -> info_fits i) /\ key_fits (snd q).

(** A process with the types of [g] is understood by one with those of [g']: the definitions it sends, of a few thousand bytes
    under positive numbers, describe the types of the receiver. *)
Definition understood (T : gob_type) (D : describes) : Prop :=
  D (ty_defs T) (ty_id T) = true /\ 0 <= ty_id T < 2 ^ 62 /\ zlen (ty_defs T) <= 100 /\
  Forall (fun d => 0 < fst d < 2 ^ 62 /\ zlen (snd d) <= 10000) (ty_defs T).
Definition speaks (g g' : gobs) : Prop := understood (client_type g) (is_client g') /\ understood (server_type g) (is_server g').

(** What a call gives: a failing call gives no answer. *)
Definition to_option {A} (r : res A) : option A := match r with Ok a => Some a | _ => None end.
